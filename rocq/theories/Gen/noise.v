(** Functions of include/cglm/noise.h (configuration: scalar), written by tools/gen.py.
    The comment above each definition gives file and lines in /repo/include/cglm. *)
From Coq Require Import String List ZArith.
From Verif Require Import MiniC.
From Verif.Gen Require Import util vec2 vec3_ext vec3 vec4_ext vec4.
Import ListNotations.
Open Scope string_scope.
Open Scope Z_scope.
Open Scope mc_scope.

(* noise.h:31-36 *)
Definition glm__noiseDetail_permute : fundef := Fun
  [("x", None); ("dest", None)]
  [] (
    "dest".[0] ::= ((((!"x".[0] * (EF 34 1)) + (EF 1 1)) * !"x".[0]) - (builtin (PF1 OFloor)$(((((!"x".[0] * (EF 34 1)) + (EF 1 1)) * !"x".[0]) * ((EF 1 1) / (EF 289 1)))) * (EF 289 1))) ;;
    "dest".[1] ::= ((((!"x".[1] * (EF 34 1)) + (EF 1 1)) * !"x".[1]) - (builtin (PF1 OFloor)$(((((!"x".[1] * (EF 34 1)) + (EF 1 1)) * !"x".[1]) * ((EF 1 1) / (EF 289 1)))) * (EF 289 1))) ;;
    "dest".[2] ::= ((((!"x".[2] * (EF 34 1)) + (EF 1 1)) * !"x".[2]) - (builtin (PF1 OFloor)$(((((!"x".[2] * (EF 34 1)) + (EF 1 1)) * !"x".[2]) * ((EF 1 1) / (EF 289 1)))) * (EF 289 1))) ;;
    "dest".[3] ::= ((((!"x".[3] * (EF 34 1)) + (EF 1 1)) * !"x".[3]) - (builtin (PF1 OFloor)$(((((!"x".[3] * (EF 34 1)) + (EF 1 1)) * !"x".[3]) * ((EF 1 1) / (EF 289 1)))) * (EF 289 1)))
  ).

(* noise.h:148-201 *)
Definition glm__noiseDetail_i2gxyzw : fundef := Fun
  [("ixy", None); ("gx", None); ("gy", None); ("gz", None); ("gw", None)]
  [("gxa", Some 4%nat); ("gya", Some 4%nat); ("gza", Some 4%nat); ("sw", Some 4%nat); ("temp", Some 4%nat)] (
    SExp glm_vec4_divs$("ixy", (EF 7 1), "gx") ;;
    SExp glm_vec4_floor$("gx", "gy") ;;
    SExp glm_vec4_divs$("gy", (EF 7 1), "gy") ;;
    SExp glm_vec4_floor$("gy", "gz") ;;
    SExp glm_vec4_divs$("gz", (EF 6 1), "gz") ;;
    SExp glm_vec4_fract$("gx", "gx") ;;
    SExp glm_vec4_subs$("gx", (EF 1 2), "gx") ;;
    SExp glm_vec4_fract$("gy", "gy") ;;
    SExp glm_vec4_subs$("gy", (EF 1 2), "gy") ;;
    SExp glm_vec4_fract$("gz", "gz") ;;
    SExp glm_vec4_subs$("gz", (EF 1 2), "gz") ;;
    SExp glm_vec4_abs$("gx", "gxa") ;;
    SExp glm_vec4_abs$("gy", "gya") ;;
    SExp glm_vec4_abs$("gz", "gza") ;;
    SExp glm_vec4_fill$("gw", (EF 3 4)) ;;
    SExp glm_vec4_sub$("gw", "gxa", "gw") ;;
    SExp glm_vec4_sub$("gw", "gza", "gw") ;;
    SExp glm_vec4_sub$("gw", "gya", "gw") ;;
    SExp glm_vec4_stepr$("gw", (EF 0 1), "sw") ;;
    "temp".[0] ::= (EF 0 1) ;;
    "temp".[1] ::= (EF 0 1) ;;
    "temp".[2] ::= (EF 0 1) ;;
    "temp".[3] ::= (EF 0 1) ;;
    SExp glm_vec4_step$("temp", "gx", "temp") ;;
    SExp glm_vec4_subs$("temp", (EF 1 2), "temp") ;;
    SExp glm_vec4_mul$("sw", "temp", "temp") ;;
    SExp glm_vec4_sub$("gx", "temp", "gx") ;;
    SExp glm_vec4_zero$("temp") ;;
    SExp glm_vec4_step$("temp", "gy", "temp") ;;
    SExp glm_vec4_subs$("temp", (EF 1 2), "temp") ;;
    SExp glm_vec4_mul$("sw", "temp", "temp") ;;
    SExp glm_vec4_sub$("gy", "temp", "gy")
  ).

(* noise.h:86-92 *)
Definition glm__noiseDetail_taylorInvSqrt : fundef := Fun
  [("x", None); ("dest", None)]
  [("temp", Some 4%nat)] (
    SExp glm_vec4_scale$("x", (EF 42686736047657 50000000000000), "temp") ;;
    SExp glm_vec4_fill$("dest", (EF 179284291400159 100000000000000)) ;;
    SExp glm_vec4_sub$("dest", "temp", "dest")
  ).

(* noise.h:103-115 *)
Definition glm__noiseDetail_gradNorm_vec4 : fundef := Fun
  [("g00__", None); ("g01__", None); ("g10__", None); ("g11__", None)]
  [("norm", Some 4%nat)] (
    "norm".[0] ::= glm_vec4_dot$("g00__", "g00__") ;;
    "norm".[1] ::= glm_vec4_dot$("g01__", "g01__") ;;
    "norm".[2] ::= glm_vec4_dot$("g10__", "g10__") ;;
    "norm".[3] ::= glm_vec4_dot$("g11__", "g11__") ;;
    SExp glm__noiseDetail_taylorInvSqrt$("norm", "norm") ;;
    SExp glm_vec4_scale$("g00__", !"norm".[0], "g00__") ;;
    SExp glm_vec4_scale$("g01__", !"norm".[1], "g01__") ;;
    SExp glm_vec4_scale$("g10__", !"norm".[2], "g10__") ;;
    SExp glm_vec4_scale$("g11__", !"norm".[3], "g11__")
  ).

(* noise.h:39-51 *)
Definition glm__noiseDetail_fade_vec4 : fundef := Fun
  [("t", None); ("dest", None)]
  [("temp", Some 4%nat)] (
    SExp glm_vec4_mul$("t", "t", "temp") ;;
    SExp glm_vec4_mul$("temp", "t", "temp") ;;
    SExp glm_vec4_scale$("t", (EF 6 1), "dest") ;;
    SExp glm_vec4_subs$("dest", (EF 15 1), "dest") ;;
    SExp glm_vec4_mul$("t", "dest", "dest") ;;
    SExp glm_vec4_adds$("dest", (EF 10 1), "dest") ;;
    SExp glm_vec4_mul$("temp", "dest", "dest")
  ).

(* noise.h:298-497 *)
Definition glm_perlin_vec4 : fundef := Fun
  [("point", None)]
  [("Pi0", Some 4%nat); ("Pi1", Some 4%nat); ("Pf0", Some 4%nat); ("Pf1", Some 4%nat); ("ix", Some 4%nat); ("iy", Some 4%nat); ("iz0", Some 4%nat); ("iz1", Some 4%nat); ("iw0", Some 4%nat); ("iw1", Some 4%nat); ("ixy", Some 4%nat); ("ixy0", Some 4%nat); ("ixy1", Some 4%nat); ("ixy00", Some 4%nat); ("ixy01", Some 4%nat); ("ixy10", Some 4%nat); ("ixy11", Some 4%nat); ("gx00", Some 4%nat); ("gy00", Some 4%nat); ("gz00", Some 4%nat); ("gw00", Some 4%nat); ("gx01", Some 4%nat); ("gy01", Some 4%nat); ("gz01", Some 4%nat); ("gw01", Some 4%nat); ("gx10", Some 4%nat); ("gy10", Some 4%nat); ("gz10", Some 4%nat); ("gw10", Some 4%nat); ("gx11", Some 4%nat); ("gy11", Some 4%nat); ("gz11", Some 4%nat); ("gw11", Some 4%nat); ("g0000", Some 4%nat); ("g0100", Some 4%nat); ("g1000", Some 4%nat); ("g1100", Some 4%nat); ("g0001", Some 4%nat); ("g0101", Some 4%nat); ("g1001", Some 4%nat); ("g1101", Some 4%nat); ("g0010", Some 4%nat); ("g0110", Some 4%nat); ("g1010", Some 4%nat); ("g1110", Some 4%nat); ("g0011", Some 4%nat); ("g0111", Some 4%nat); ("g1011", Some 4%nat); ("g1111", Some 4%nat); ("n0000", None); ("n1000d", Some 4%nat); ("n1000", None); ("n0100d", Some 4%nat); ("n0100", None); ("n1100d", Some 4%nat); ("n1100", None); ("n0010d", Some 4%nat); ("n0010", None); ("n1010d", Some 4%nat); ("n1010", None); ("n0110d", Some 4%nat); ("n0110", None); ("n1110d", Some 4%nat); ("n1110", None); ("n0001d", Some 4%nat); ("n0001", None); ("n1001d", Some 4%nat); ("n1001", None); ("n0101d", Some 4%nat); ("n0101", None); ("n1101d", Some 4%nat); ("n1101", None); ("n0011d", Some 4%nat); ("n0011", None); ("n1011d", Some 4%nat); ("n1011", None); ("n0111d", Some 4%nat); ("n0111", None); ("n1111", None); ("fade_xyzw", Some 4%nat); ("n_0w1", Some 4%nat); ("n_0w2", Some 4%nat); ("n_0w", Some 4%nat); ("n_1w1", Some 4%nat); ("n_1w2", Some 4%nat); ("n_1w", Some 4%nat); ("n_zw", Some 4%nat); ("n_yzw", Some 2%nat); ("n_yzw1", Some 2%nat); ("n_yzw2", Some 2%nat); ("n_xyzw", None)] (
    SExp glm_vec4_floor$("point", "Pi0") ;;
    SExp glm_vec4_adds$("Pi0", (EF 1 1), "Pi1") ;;
    SExp glm_vec4_mods$("Pi0", (EF 289 1), "Pi0") ;;
    SExp glm_vec4_mods$("Pi1", (EF 289 1), "Pi1") ;;
    SExp glm_vec4_fract$("point", "Pf0") ;;
    SExp glm_vec4_subs$("Pf0", (EF 1 1), "Pf1") ;;
    "ix".[0] ::= !"Pi0".[0] ;;
    "ix".[1] ::= !"Pi1".[0] ;;
    "ix".[2] ::= !"Pi0".[0] ;;
    "ix".[3] ::= !"Pi1".[0] ;;
    "iy".[0] ::= !"Pi0".[1] ;;
    "iy".[1] ::= !"Pi0".[1] ;;
    "iy".[2] ::= !"Pi1".[1] ;;
    "iy".[3] ::= !"Pi1".[1] ;;
    "iz0".[0] ::= !"Pi0".[2] ;;
    "iz0".[1] ::= !"Pi0".[2] ;;
    "iz0".[2] ::= !"Pi0".[2] ;;
    "iz0".[3] ::= !"Pi0".[2] ;;
    "iz1".[0] ::= !"Pi1".[2] ;;
    "iz1".[1] ::= !"Pi1".[2] ;;
    "iz1".[2] ::= !"Pi1".[2] ;;
    "iz1".[3] ::= !"Pi1".[2] ;;
    "iw0".[0] ::= !"Pi0".[3] ;;
    "iw0".[1] ::= !"Pi0".[3] ;;
    "iw0".[2] ::= !"Pi0".[3] ;;
    "iw0".[3] ::= !"Pi0".[3] ;;
    "iw1".[0] ::= !"Pi1".[3] ;;
    "iw1".[1] ::= !"Pi1".[3] ;;
    "iw1".[2] ::= !"Pi1".[3] ;;
    "iw1".[3] ::= !"Pi1".[3] ;;
    SExp glm__noiseDetail_permute$("ix", "ixy") ;;
    SExp glm_vec4_add$("ixy", "iy", "ixy") ;;
    SExp glm__noiseDetail_permute$("ixy", "ixy") ;;
    SExp glm_vec4_add$("ixy", "iz0", "ixy0") ;;
    SExp glm__noiseDetail_permute$("ixy0", "ixy0") ;;
    SExp glm_vec4_add$("ixy", "iz1", "ixy1") ;;
    SExp glm__noiseDetail_permute$("ixy1", "ixy1") ;;
    SExp glm_vec4_add$("ixy0", "iw0", "ixy00") ;;
    SExp glm__noiseDetail_permute$("ixy00", "ixy00") ;;
    SExp glm_vec4_add$("ixy0", "iw1", "ixy01") ;;
    SExp glm__noiseDetail_permute$("ixy01", "ixy01") ;;
    SExp glm_vec4_add$("ixy1", "iw0", "ixy10") ;;
    SExp glm__noiseDetail_permute$("ixy10", "ixy10") ;;
    SExp glm_vec4_add$("ixy1", "iw1", "ixy11") ;;
    SExp glm__noiseDetail_permute$("ixy11", "ixy11") ;;
    SExp glm__noiseDetail_i2gxyzw$("ixy00", "gx00", "gy00", "gz00", "gw00") ;;
    SExp glm__noiseDetail_i2gxyzw$("ixy01", "gx01", "gy01", "gz01", "gw01") ;;
    SExp glm__noiseDetail_i2gxyzw$("ixy10", "gx10", "gy10", "gz10", "gw10") ;;
    SExp glm__noiseDetail_i2gxyzw$("ixy11", "gx11", "gy11", "gz11", "gw11") ;;
    "g0000".[0] ::= !"gx00".[0] ;;
    "g0000".[1] ::= !"gy00".[0] ;;
    "g0000".[2] ::= !"gz00".[0] ;;
    "g0000".[3] ::= !"gw00".[0] ;;
    "g0100".[0] ::= !"gx00".[2] ;;
    "g0100".[1] ::= !"gy00".[2] ;;
    "g0100".[2] ::= !"gz00".[2] ;;
    "g0100".[3] ::= !"gw00".[2] ;;
    "g1000".[0] ::= !"gx00".[1] ;;
    "g1000".[1] ::= !"gy00".[1] ;;
    "g1000".[2] ::= !"gz00".[1] ;;
    "g1000".[3] ::= !"gw00".[1] ;;
    "g1100".[0] ::= !"gx00".[3] ;;
    "g1100".[1] ::= !"gy00".[3] ;;
    "g1100".[2] ::= !"gz00".[3] ;;
    "g1100".[3] ::= !"gw00".[3] ;;
    "g0001".[0] ::= !"gx01".[0] ;;
    "g0001".[1] ::= !"gy01".[0] ;;
    "g0001".[2] ::= !"gz01".[0] ;;
    "g0001".[3] ::= !"gw01".[0] ;;
    "g0101".[0] ::= !"gx01".[2] ;;
    "g0101".[1] ::= !"gy01".[2] ;;
    "g0101".[2] ::= !"gz01".[2] ;;
    "g0101".[3] ::= !"gw01".[2] ;;
    "g1001".[0] ::= !"gx01".[1] ;;
    "g1001".[1] ::= !"gy01".[1] ;;
    "g1001".[2] ::= !"gz01".[1] ;;
    "g1001".[3] ::= !"gw01".[1] ;;
    "g1101".[0] ::= !"gx01".[3] ;;
    "g1101".[1] ::= !"gy01".[3] ;;
    "g1101".[2] ::= !"gz01".[3] ;;
    "g1101".[3] ::= !"gw01".[3] ;;
    "g0010".[0] ::= !"gx10".[0] ;;
    "g0010".[1] ::= !"gy10".[0] ;;
    "g0010".[2] ::= !"gz10".[0] ;;
    "g0010".[3] ::= !"gw10".[0] ;;
    "g0110".[0] ::= !"gx10".[2] ;;
    "g0110".[1] ::= !"gy10".[2] ;;
    "g0110".[2] ::= !"gz10".[2] ;;
    "g0110".[3] ::= !"gw10".[2] ;;
    "g1010".[0] ::= !"gx10".[1] ;;
    "g1010".[1] ::= !"gy10".[1] ;;
    "g1010".[2] ::= !"gz10".[1] ;;
    "g1010".[3] ::= !"gw10".[1] ;;
    "g1110".[0] ::= !"gx10".[3] ;;
    "g1110".[1] ::= !"gy10".[3] ;;
    "g1110".[2] ::= !"gz10".[3] ;;
    "g1110".[3] ::= !"gw10".[3] ;;
    "g0011".[0] ::= !"gx11".[0] ;;
    "g0011".[1] ::= !"gy11".[0] ;;
    "g0011".[2] ::= !"gz11".[0] ;;
    "g0011".[3] ::= !"gw11".[0] ;;
    "g0111".[0] ::= !"gx11".[2] ;;
    "g0111".[1] ::= !"gy11".[2] ;;
    "g0111".[2] ::= !"gz11".[2] ;;
    "g0111".[3] ::= !"gw11".[2] ;;
    "g1011".[0] ::= !"gx11".[1] ;;
    "g1011".[1] ::= !"gy11".[1] ;;
    "g1011".[2] ::= !"gz11".[1] ;;
    "g1011".[3] ::= !"gw11".[1] ;;
    "g1111".[0] ::= !"gx11".[3] ;;
    "g1111".[1] ::= !"gy11".[3] ;;
    "g1111".[2] ::= !"gz11".[3] ;;
    "g1111".[3] ::= !"gw11".[3] ;;
    SExp glm__noiseDetail_gradNorm_vec4$("g0000", "g0100", "g1000", "g1100") ;;
    SExp glm__noiseDetail_gradNorm_vec4$("g0001", "g0101", "g1001", "g1101") ;;
    SExp glm__noiseDetail_gradNorm_vec4$("g0010", "g0110", "g1010", "g1110") ;;
    SExp glm__noiseDetail_gradNorm_vec4$("g0011", "g0111", "g1011", "g1111") ;;
    "n0000" <~ glm_vec4_dot$("g0000", "Pf0") ;;
    "n1000d".[0] ::= !"Pf1".[0] ;;
    "n1000d".[1] ::= !"Pf0".[1] ;;
    "n1000d".[2] ::= !"Pf0".[2] ;;
    "n1000d".[3] ::= !"Pf0".[3] ;;
    "n1000" <~ glm_vec4_dot$("g1000", "n1000d") ;;
    "n0100d".[0] ::= !"Pf0".[0] ;;
    "n0100d".[1] ::= !"Pf1".[1] ;;
    "n0100d".[2] ::= !"Pf0".[2] ;;
    "n0100d".[3] ::= !"Pf0".[3] ;;
    "n0100" <~ glm_vec4_dot$("g0100", "n0100d") ;;
    "n1100d".[0] ::= !"Pf1".[0] ;;
    "n1100d".[1] ::= !"Pf1".[1] ;;
    "n1100d".[2] ::= !"Pf0".[2] ;;
    "n1100d".[3] ::= !"Pf0".[3] ;;
    "n1100" <~ glm_vec4_dot$("g1100", "n1100d") ;;
    "n0010d".[0] ::= !"Pf0".[0] ;;
    "n0010d".[1] ::= !"Pf0".[1] ;;
    "n0010d".[2] ::= !"Pf1".[2] ;;
    "n0010d".[3] ::= !"Pf0".[3] ;;
    "n0010" <~ glm_vec4_dot$("g0010", "n0010d") ;;
    "n1010d".[0] ::= !"Pf1".[0] ;;
    "n1010d".[1] ::= !"Pf0".[1] ;;
    "n1010d".[2] ::= !"Pf1".[2] ;;
    "n1010d".[3] ::= !"Pf0".[3] ;;
    "n1010" <~ glm_vec4_dot$("g1010", "n1010d") ;;
    "n0110d".[0] ::= !"Pf0".[0] ;;
    "n0110d".[1] ::= !"Pf1".[1] ;;
    "n0110d".[2] ::= !"Pf1".[2] ;;
    "n0110d".[3] ::= !"Pf0".[3] ;;
    "n0110" <~ glm_vec4_dot$("g0110", "n0110d") ;;
    "n1110d".[0] ::= !"Pf1".[0] ;;
    "n1110d".[1] ::= !"Pf1".[1] ;;
    "n1110d".[2] ::= !"Pf1".[2] ;;
    "n1110d".[3] ::= !"Pf0".[3] ;;
    "n1110" <~ glm_vec4_dot$("g1110", "n1110d") ;;
    "n0001d".[0] ::= !"Pf0".[0] ;;
    "n0001d".[1] ::= !"Pf0".[1] ;;
    "n0001d".[2] ::= !"Pf0".[2] ;;
    "n0001d".[3] ::= !"Pf1".[3] ;;
    "n0001" <~ glm_vec4_dot$("g0001", "n0001d") ;;
    "n1001d".[0] ::= !"Pf1".[0] ;;
    "n1001d".[1] ::= !"Pf0".[1] ;;
    "n1001d".[2] ::= !"Pf0".[2] ;;
    "n1001d".[3] ::= !"Pf1".[3] ;;
    "n1001" <~ glm_vec4_dot$("g1001", "n1001d") ;;
    "n0101d".[0] ::= !"Pf0".[0] ;;
    "n0101d".[1] ::= !"Pf1".[1] ;;
    "n0101d".[2] ::= !"Pf0".[2] ;;
    "n0101d".[3] ::= !"Pf1".[3] ;;
    "n0101" <~ glm_vec4_dot$("g0101", "n0101d") ;;
    "n1101d".[0] ::= !"Pf1".[0] ;;
    "n1101d".[1] ::= !"Pf1".[1] ;;
    "n1101d".[2] ::= !"Pf0".[2] ;;
    "n1101d".[3] ::= !"Pf1".[3] ;;
    "n1101" <~ glm_vec4_dot$("g1101", "n1101d") ;;
    "n0011d".[0] ::= !"Pf0".[0] ;;
    "n0011d".[1] ::= !"Pf0".[1] ;;
    "n0011d".[2] ::= !"Pf1".[2] ;;
    "n0011d".[3] ::= !"Pf1".[3] ;;
    "n0011" <~ glm_vec4_dot$("g0011", "n0011d") ;;
    "n1011d".[0] ::= !"Pf1".[0] ;;
    "n1011d".[1] ::= !"Pf0".[1] ;;
    "n1011d".[2] ::= !"Pf1".[2] ;;
    "n1011d".[3] ::= !"Pf1".[3] ;;
    "n1011" <~ glm_vec4_dot$("g1011", "n1011d") ;;
    "n0111d".[0] ::= !"Pf0".[0] ;;
    "n0111d".[1] ::= !"Pf1".[1] ;;
    "n0111d".[2] ::= !"Pf1".[2] ;;
    "n0111d".[3] ::= !"Pf1".[3] ;;
    "n0111" <~ glm_vec4_dot$("g0111", "n0111d") ;;
    "n1111" <~ glm_vec4_dot$("g1111", "Pf1") ;;
    SExp glm__noiseDetail_fade_vec4$("Pf0", "fade_xyzw") ;;
    "n_0w1".[0] ::= "n0000" ;;
    "n_0w1".[1] ::= "n1000" ;;
    "n_0w1".[2] ::= "n0100" ;;
    "n_0w1".[3] ::= "n1100" ;;
    "n_0w2".[0] ::= "n0001" ;;
    "n_0w2".[1] ::= "n1001" ;;
    "n_0w2".[2] ::= "n0101" ;;
    "n_0w2".[3] ::= "n1101" ;;
    SExp glm_vec4_lerp$("n_0w1", "n_0w2", !"fade_xyzw".[3], "n_0w") ;;
    "n_1w1".[0] ::= "n0010" ;;
    "n_1w1".[1] ::= "n1010" ;;
    "n_1w1".[2] ::= "n0110" ;;
    "n_1w1".[3] ::= "n1110" ;;
    "n_1w2".[0] ::= "n0011" ;;
    "n_1w2".[1] ::= "n1011" ;;
    "n_1w2".[2] ::= "n0111" ;;
    "n_1w2".[3] ::= "n1111" ;;
    SExp glm_vec4_lerp$("n_1w1", "n_1w2", !"fade_xyzw".[3], "n_1w") ;;
    SExp glm_vec4_lerp$("n_0w", "n_1w", !"fade_xyzw".[2], "n_zw") ;;
    "n_yzw1".[0] ::= !"n_zw".[0] ;;
    "n_yzw1".[1] ::= !"n_zw".[1] ;;
    "n_yzw2".[0] ::= !"n_zw".[2] ;;
    "n_yzw2".[1] ::= !"n_zw".[3] ;;
    SExp glm_vec2_lerp$("n_yzw1", "n_yzw2", !"fade_xyzw".[1], "n_yzw") ;;
    "n_xyzw" <~ glm_lerp$(!"n_yzw".[0], !"n_yzw".[1], !"fade_xyzw".[0]) ;;
    SRet ("n_xyzw" * (EF 11 5))
  ).

(* noise.h:222-262 *)
Definition glm__noiseDetail_i2gxyz : fundef := Fun
  [("ixy", None); ("gx", None); ("gy", None); ("gz", None)]
  [("gxa", Some 4%nat); ("gya", Some 4%nat); ("sz", Some 4%nat); ("temp", Some 4%nat)] (
    SExp glm_vec4_scale$("ixy", ((EF 1 1) / (EF 7 1)), "gx") ;;
    SExp glm_vec4_floor$("gx", "gy") ;;
    SExp glm_vec4_scale$("gy", ((EF 1 1) / (EF 7 1)), "gy") ;;
    SExp glm_vec4_fract$("gy", "gy") ;;
    SExp glm_vec4_subs$("gy", (EF 1 2), "gy") ;;
    SExp glm_vec4_fract$("gx", "gx") ;;
    SExp glm_vec4_abs$("gx", "gxa") ;;
    SExp glm_vec4_abs$("gy", "gya") ;;
    SExp glm_vec4_fill$("gz", (EF 1 2)) ;;
    SExp glm_vec4_sub$("gz", "gxa", "gz") ;;
    SExp glm_vec4_sub$("gz", "gya", "gz") ;;
    SExp glm_vec4_stepr$("gz", (EF 0 1), "sz") ;;
    "temp".[0] ::= (EF 0 1) ;;
    "temp".[1] ::= (EF 0 1) ;;
    "temp".[2] ::= (EF 0 1) ;;
    "temp".[3] ::= (EF 0 1) ;;
    SExp glm_vec4_step$("temp", "gx", "temp") ;;
    SExp glm_vec4_subs$("temp", (EF 1 2), "temp") ;;
    SExp glm_vec4_mul$("sz", "temp", "temp") ;;
    SExp glm_vec4_sub$("gx", "temp", "gx") ;;
    SExp glm_vec4_zero$("temp") ;;
    SExp glm_vec4_step$("temp", "gy", "temp") ;;
    SExp glm_vec4_subs$("temp", (EF 1 2), "temp") ;;
    SExp glm_vec4_mul$("sz", "temp", "temp") ;;
    SExp glm_vec4_sub$("gy", "temp", "gy")
  ).

(* noise.h:118-130 *)
Definition glm__noiseDetail_gradNorm_vec3 : fundef := Fun
  [("g00_", None); ("g01_", None); ("g10_", None); ("g11_", None)]
  [("norm", Some 4%nat)] (
    "norm".[0] ::= glm_vec3_dot$("g00_", "g00_") ;;
    "norm".[1] ::= glm_vec3_dot$("g01_", "g01_") ;;
    "norm".[2] ::= glm_vec3_dot$("g10_", "g10_") ;;
    "norm".[3] ::= glm_vec3_dot$("g11_", "g11_") ;;
    SExp glm__noiseDetail_taylorInvSqrt$("norm", "norm") ;;
    SExp glm_vec3_scale$("g00_", !"norm".[0], "g00_") ;;
    SExp glm_vec3_scale$("g01_", !"norm".[1], "g01_") ;;
    SExp glm_vec3_scale$("g10_", !"norm".[2], "g10_") ;;
    SExp glm_vec3_scale$("g11_", !"norm".[3], "g11_")
  ).

(* noise.h:54-67 *)
Definition glm__noiseDetail_fade_vec3 : fundef := Fun
  [("t", None); ("dest", None)]
  [("temp", Some 3%nat)] (
    SExp glm_vec3_mul$("t", "t", "temp") ;;
    SExp glm_vec3_mul$("temp", "t", "temp") ;;
    SExp glm_vec3_scale$("t", (EF 6 1), "dest") ;;
    SExp glm_vec3_subs$("dest", (EF 15 1), "dest") ;;
    SExp glm_vec3_mul$("t", "dest", "dest") ;;
    SExp glm_vec3_adds$("dest", (EF 10 1), "dest") ;;
    SExp glm_vec3_mul$("temp", "dest", "dest")
  ).

(* noise.h:508-625 *)
Definition glm_perlin_vec3 : fundef := Fun
  [("point", None)]
  [("Pi0", Some 3%nat); ("Pi1", Some 3%nat); ("Pf0", Some 3%nat); ("Pf1", Some 3%nat); ("ix", Some 4%nat); ("iy", Some 4%nat); ("iz0", Some 4%nat); ("iz1", Some 4%nat); ("ixy", Some 4%nat); ("ixy0", Some 4%nat); ("ixy1", Some 4%nat); ("gx0", Some 4%nat); ("gy0", Some 4%nat); ("gz0", Some 4%nat); ("gx1", Some 4%nat); ("gy1", Some 4%nat); ("gz1", Some 4%nat); ("g000", Some 3%nat); ("g100", Some 3%nat); ("g010", Some 3%nat); ("g110", Some 3%nat); ("g001", Some 3%nat); ("g101", Some 3%nat); ("g011", Some 3%nat); ("g111", Some 3%nat); ("n000", None); ("n100d", Some 3%nat); ("n100", None); ("n010d", Some 3%nat); ("n010", None); ("n110d", Some 3%nat); ("n110", None); ("n001d", Some 3%nat); ("n001", None); ("n101d", Some 3%nat); ("n101", None); ("n011d", Some 3%nat); ("n011", None); ("n111", None); ("fade_xyz", Some 3%nat); ("n_z", Some 4%nat); ("n_z1", Some 4%nat); ("n_z2", Some 4%nat); ("n_yz", Some 2%nat); ("n_yz1", Some 2%nat); ("n_yz2", Some 2%nat); ("n_xyz", None)] (
    SExp glm_vec3_floor$("point", "Pi0") ;;
    SExp glm_vec3_adds$("Pi0", (EF 1 1), "Pi1") ;;
    SExp glm_vec3_mods$("Pi0", (EF 289 1), "Pi0") ;;
    SExp glm_vec3_mods$("Pi1", (EF 289 1), "Pi1") ;;
    SExp glm_vec3_fract$("point", "Pf0") ;;
    SExp glm_vec3_subs$("Pf0", (EF 1 1), "Pf1") ;;
    "ix".[0] ::= !"Pi0".[0] ;;
    "ix".[1] ::= !"Pi1".[0] ;;
    "ix".[2] ::= !"Pi0".[0] ;;
    "ix".[3] ::= !"Pi1".[0] ;;
    "iy".[0] ::= !"Pi0".[1] ;;
    "iy".[1] ::= !"Pi0".[1] ;;
    "iy".[2] ::= !"Pi1".[1] ;;
    "iy".[3] ::= !"Pi1".[1] ;;
    "iz0".[0] ::= !"Pi0".[2] ;;
    "iz0".[1] ::= !"Pi0".[2] ;;
    "iz0".[2] ::= !"Pi0".[2] ;;
    "iz0".[3] ::= !"Pi0".[2] ;;
    "iz1".[0] ::= !"Pi1".[2] ;;
    "iz1".[1] ::= !"Pi1".[2] ;;
    "iz1".[2] ::= !"Pi1".[2] ;;
    "iz1".[3] ::= !"Pi1".[2] ;;
    SExp glm__noiseDetail_permute$("ix", "ixy") ;;
    SExp glm_vec4_add$("ixy", "iy", "ixy") ;;
    SExp glm__noiseDetail_permute$("ixy", "ixy") ;;
    SExp glm_vec4_add$("ixy", "iz0", "ixy0") ;;
    SExp glm__noiseDetail_permute$("ixy0", "ixy0") ;;
    SExp glm_vec4_add$("ixy", "iz1", "ixy1") ;;
    SExp glm__noiseDetail_permute$("ixy1", "ixy1") ;;
    SExp glm__noiseDetail_i2gxyz$("ixy0", "gx0", "gy0", "gz0") ;;
    SExp glm__noiseDetail_i2gxyz$("ixy1", "gx1", "gy1", "gz1") ;;
    "g000".[0] ::= !"gx0".[0] ;;
    "g000".[1] ::= !"gy0".[0] ;;
    "g000".[2] ::= !"gz0".[0] ;;
    "g100".[0] ::= !"gx0".[1] ;;
    "g100".[1] ::= !"gy0".[1] ;;
    "g100".[2] ::= !"gz0".[1] ;;
    "g010".[0] ::= !"gx0".[2] ;;
    "g010".[1] ::= !"gy0".[2] ;;
    "g010".[2] ::= !"gz0".[2] ;;
    "g110".[0] ::= !"gx0".[3] ;;
    "g110".[1] ::= !"gy0".[3] ;;
    "g110".[2] ::= !"gz0".[3] ;;
    "g001".[0] ::= !"gx1".[0] ;;
    "g001".[1] ::= !"gy1".[0] ;;
    "g001".[2] ::= !"gz1".[0] ;;
    "g101".[0] ::= !"gx1".[1] ;;
    "g101".[1] ::= !"gy1".[1] ;;
    "g101".[2] ::= !"gz1".[1] ;;
    "g011".[0] ::= !"gx1".[2] ;;
    "g011".[1] ::= !"gy1".[2] ;;
    "g011".[2] ::= !"gz1".[2] ;;
    "g111".[0] ::= !"gx1".[3] ;;
    "g111".[1] ::= !"gy1".[3] ;;
    "g111".[2] ::= !"gz1".[3] ;;
    SExp glm__noiseDetail_gradNorm_vec3$("g000", "g010", "g100", "g110") ;;
    SExp glm__noiseDetail_gradNorm_vec3$("g001", "g011", "g101", "g111") ;;
    "n000" <~ glm_vec3_dot$("g000", "Pf0") ;;
    "n100d".[0] ::= !"Pf1".[0] ;;
    "n100d".[1] ::= !"Pf0".[1] ;;
    "n100d".[2] ::= !"Pf0".[2] ;;
    "n100" <~ glm_vec3_dot$("g100", "n100d") ;;
    "n010d".[0] ::= !"Pf0".[0] ;;
    "n010d".[1] ::= !"Pf1".[1] ;;
    "n010d".[2] ::= !"Pf0".[2] ;;
    "n010" <~ glm_vec3_dot$("g010", "n010d") ;;
    "n110d".[0] ::= !"Pf1".[0] ;;
    "n110d".[1] ::= !"Pf1".[1] ;;
    "n110d".[2] ::= !"Pf0".[2] ;;
    "n110" <~ glm_vec3_dot$("g110", "n110d") ;;
    "n001d".[0] ::= !"Pf0".[0] ;;
    "n001d".[1] ::= !"Pf0".[1] ;;
    "n001d".[2] ::= !"Pf1".[2] ;;
    "n001" <~ glm_vec3_dot$("g001", "n001d") ;;
    "n101d".[0] ::= !"Pf1".[0] ;;
    "n101d".[1] ::= !"Pf0".[1] ;;
    "n101d".[2] ::= !"Pf1".[2] ;;
    "n101" <~ glm_vec3_dot$("g101", "n101d") ;;
    "n011d".[0] ::= !"Pf0".[0] ;;
    "n011d".[1] ::= !"Pf1".[1] ;;
    "n011d".[2] ::= !"Pf1".[2] ;;
    "n011" <~ glm_vec3_dot$("g011", "n011d") ;;
    "n111" <~ glm_vec3_dot$("g111", "Pf1") ;;
    SExp glm__noiseDetail_fade_vec3$("Pf0", "fade_xyz") ;;
    "n_z1".[0] ::= "n000" ;;
    "n_z1".[1] ::= "n100" ;;
    "n_z1".[2] ::= "n010" ;;
    "n_z1".[3] ::= "n110" ;;
    "n_z2".[0] ::= "n001" ;;
    "n_z2".[1] ::= "n101" ;;
    "n_z2".[2] ::= "n011" ;;
    "n_z2".[3] ::= "n111" ;;
    SExp glm_vec4_lerp$("n_z1", "n_z2", !"fade_xyz".[2], "n_z") ;;
    "n_yz1".[0] ::= !"n_z".[0] ;;
    "n_yz1".[1] ::= !"n_z".[1] ;;
    "n_yz2".[0] ::= !"n_z".[2] ;;
    "n_yz2".[1] ::= !"n_z".[3] ;;
    SExp glm_vec2_lerp$("n_yz1", "n_yz2", !"fade_xyz".[1], "n_yz") ;;
    "n_xyz" <~ glm_lerp$(!"n_yz".[0], !"n_yz".[1], !"fade_xyz".[0]) ;;
    SRet ("n_xyz" * (EF 11 5))
  ).

(* noise.h:265-283 *)
Definition glm__noiseDetail_i2gxy : fundef := Fun
  [("i", None); ("gx", None); ("gy", None)]
  [("tx", Some 4%nat)] (
    SExp glm_vec4_divs$("i", (EF 41 1), "gx") ;;
    SExp glm_vec4_fract$("gx", "gx") ;;
    SExp glm_vec4_scale$("gx", (EF 2 1), "gx") ;;
    SExp glm_vec4_subs$("gx", (EF 1 1), "gx") ;;
    SExp glm_vec4_abs$("gx", "gy") ;;
    SExp glm_vec4_subs$("gy", (EF 1 2), "gy") ;;
    SExp glm_vec4_adds$("gx", (EF 1 2), "tx") ;;
    SExp glm_vec4_floor$("tx", "tx") ;;
    SExp glm_vec4_sub$("gx", "tx", "gx")
  ).

(* noise.h:133-145 *)
Definition glm__noiseDetail_gradNorm_vec2 : fundef := Fun
  [("g00", None); ("g01", None); ("g10", None); ("g11", None)]
  [("norm", Some 4%nat)] (
    "norm".[0] ::= glm_vec2_dot$("g00", "g00") ;;
    "norm".[1] ::= glm_vec2_dot$("g01", "g01") ;;
    "norm".[2] ::= glm_vec2_dot$("g10", "g10") ;;
    "norm".[3] ::= glm_vec2_dot$("g11", "g11") ;;
    SExp glm__noiseDetail_taylorInvSqrt$("norm", "norm") ;;
    SExp glm_vec2_scale$("g00", !"norm".[0], "g00") ;;
    SExp glm_vec2_scale$("g01", !"norm".[1], "g01") ;;
    SExp glm_vec2_scale$("g10", !"norm".[2], "g10") ;;
    SExp glm_vec2_scale$("g11", !"norm".[3], "g11")
  ).

(* noise.h:70-83 *)
Definition glm__noiseDetail_fade_vec2 : fundef := Fun
  [("t", None); ("dest", None)]
  [("temp", Some 2%nat)] (
    SExp glm_vec2_mul$("t", "t", "temp") ;;
    SExp glm_vec2_mul$("temp", "t", "temp") ;;
    SExp glm_vec2_scale$("t", (EF 6 1), "dest") ;;
    SExp glm_vec2_subs$("dest", (EF 15 1), "dest") ;;
    SExp glm_vec2_mul$("t", "dest", "dest") ;;
    SExp glm_vec2_adds$("dest", (EF 10 1), "dest") ;;
    SExp glm_vec2_mul$("temp", "dest", "dest")
  ).

(* noise.h:635-717 *)
Definition glm_perlin_vec2 : fundef := Fun
  [("point", None)]
  [("Pi", Some 4%nat); ("Pf", Some 4%nat); ("ix", Some 4%nat); ("iy", Some 4%nat); ("fx", Some 4%nat); ("fy", Some 4%nat); ("i", Some 4%nat); ("gx", Some 4%nat); ("gy", Some 4%nat); ("g00", Some 2%nat); ("g10", Some 2%nat); ("g01", Some 2%nat); ("g11", Some 2%nat); ("n00d", Some 2%nat); ("n00", None); ("n10d", Some 2%nat); ("n10", None); ("n01d", Some 2%nat); ("n01", None); ("n11d", Some 2%nat); ("n11", None); ("fade_xy", Some 2%nat); ("temp2", Some 2%nat); ("n_x", Some 2%nat); ("n_x1", Some 2%nat); ("n_x2", Some 2%nat); ("n_xy", None)] (
    "Pi".[0] ::= !"point".[0] ;;
    "Pi".[1] ::= !"point".[1] ;;
    "Pi".[2] ::= !"point".[0] ;;
    "Pi".[3] ::= !"point".[1] ;;
    SExp glm_vec4_floor$("Pi", "Pi") ;;
    "Pi".[2] ::= (!"Pi".[2] + (EF 1 1)) ;;
    "Pi".[3] ::= (!"Pi".[3] + (EF 1 1)) ;;
    "Pf".[0] ::= !"point".[0] ;;
    "Pf".[1] ::= !"point".[1] ;;
    "Pf".[2] ::= !"point".[0] ;;
    "Pf".[3] ::= !"point".[1] ;;
    SExp glm_vec4_fract$("Pf", "Pf") ;;
    "Pf".[2] ::= (!"Pf".[2] - (EF 1 1)) ;;
    "Pf".[3] ::= (!"Pf".[3] - (EF 1 1)) ;;
    SExp glm_vec4_mods$("Pi", (EF 289 1), "Pi") ;;
    "ix".[0] ::= !"Pi".[0] ;;
    "ix".[1] ::= !"Pi".[2] ;;
    "ix".[2] ::= !"Pi".[0] ;;
    "ix".[3] ::= !"Pi".[2] ;;
    "iy".[0] ::= !"Pi".[1] ;;
    "iy".[1] ::= !"Pi".[1] ;;
    "iy".[2] ::= !"Pi".[3] ;;
    "iy".[3] ::= !"Pi".[3] ;;
    "fx".[0] ::= !"Pf".[0] ;;
    "fx".[1] ::= !"Pf".[2] ;;
    "fx".[2] ::= !"Pf".[0] ;;
    "fx".[3] ::= !"Pf".[2] ;;
    "fy".[0] ::= !"Pf".[1] ;;
    "fy".[1] ::= !"Pf".[1] ;;
    "fy".[2] ::= !"Pf".[3] ;;
    "fy".[3] ::= !"Pf".[3] ;;
    SExp glm__noiseDetail_permute$("ix", "i") ;;
    SExp glm_vec4_add$("i", "iy", "i") ;;
    SExp glm__noiseDetail_permute$("i", "i") ;;
    SExp glm__noiseDetail_i2gxy$("i", "gx", "gy") ;;
    "g00".[0] ::= !"gx".[0] ;;
    "g00".[1] ::= !"gy".[0] ;;
    "g10".[0] ::= !"gx".[1] ;;
    "g10".[1] ::= !"gy".[1] ;;
    "g01".[0] ::= !"gx".[2] ;;
    "g01".[1] ::= !"gy".[2] ;;
    "g11".[0] ::= !"gx".[3] ;;
    "g11".[1] ::= !"gy".[3] ;;
    SExp glm__noiseDetail_gradNorm_vec2$("g00", "g01", "g10", "g11") ;;
    "n00d".[0] ::= !"fx".[0] ;;
    "n00d".[1] ::= !"fy".[0] ;;
    "n00" <~ glm_vec2_dot$("g00", "n00d") ;;
    "n10d".[0] ::= !"fx".[1] ;;
    "n10d".[1] ::= !"fy".[1] ;;
    "n10" <~ glm_vec2_dot$("g10", "n10d") ;;
    "n01d".[0] ::= !"fx".[2] ;;
    "n01d".[1] ::= !"fy".[2] ;;
    "n01" <~ glm_vec2_dot$("g01", "n01d") ;;
    "n11d".[0] ::= !"fx".[3] ;;
    "n11d".[1] ::= !"fy".[3] ;;
    "n11" <~ glm_vec2_dot$("g11", "n11d") ;;
    "temp2".[0] ::= !"Pf".[0] ;;
    "temp2".[1] ::= !"Pf".[1] ;;
    SExp glm__noiseDetail_fade_vec2$("temp2", "fade_xy") ;;
    "n_x1".[0] ::= "n00" ;;
    "n_x1".[1] ::= "n01" ;;
    "n_x2".[0] ::= "n10" ;;
    "n_x2".[1] ::= "n11" ;;
    SExp glm_vec2_lerp$("n_x1", "n_x2", !"fade_xy".[0], "n_x") ;;
    "n_xy" <~ glm_lerp$(!"n_x".[0], !"n_x".[1], !"fade_xy".[1]) ;;
    SRet ("n_xy" * (EF 23 10))
  ).

