(** The functions of include/cglm whose text differs in the avx build, or that call one,
    written by tools/gensimd.py.  Functions not listed read as in the scalar build (Gen/).
    The comment above each definition gives file and lines in /repo/include/cglm. *)
From Coq Require Import String List ZArith.
From Verif Require Import MiniC Cglm.
Import ListNotations.
Open Scope string_scope.
Open Scope Z_scope.
Open Scope mc_scope.

(* simd/x86.h:111-113 *)
Definition avx_glmm_abs : fundef := Fun
  [("x", None)]
  [] (
    SRet builtin PVandnot$(builtin (PVsigns [true; true; true; true])$(), "x")
  ).

(* simd/x86.h:115-115 *)
Definition avx_glmm_min : fundef := Fun
  [("a", None); ("b", None)]
  [] (
    SRet builtin (PVpick CLt)$("a", "b")
  ).

(* simd/x86.h:116-116 *)
Definition avx_glmm_max : fundef := Fun
  [("a", None); ("b", None)]
  [] (
    SRet builtin (PVpick CGt)$("a", "b")
  ).

(* simd/x86.h:120-125 *)
Definition avx_glmm_vhadd : fundef := Fun
  [("v", None)]
  [("x0", None)] (
    "x0" <~ builtin (PV2 OAdd)$("v", builtin (PVperm [(0, 3)%nat; (0, 2)%nat; (0, 1)%nat; (0, 0)%nat])$("v")) ;;
    "x0" <~ builtin (PV2 OAdd)$("x0", builtin (PVperm [(0, 1)%nat; (0, 0)%nat; (0, 0)%nat; (0, 1)%nat])$("x0")) ;;
    SRet "x0"
  ).

(* simd/x86.h:129-145 *)
Definition avx_glmm_vhadds : fundef := Fun
  [("v", None)]
  [("shuf", None); ("sums", None)] (
    "shuf" <~ builtin (PVperm [(0, 1)%nat; (0, 1)%nat; (0, 3)%nat; (0, 3)%nat])$("v") ;;
    "sums" <~ builtin (PV2 OAdd)$("v", "shuf") ;;
    "shuf" <~ builtin (PVperm [(1, 2)%nat; (1, 3)%nat; (0, 2)%nat; (0, 3)%nat])$("shuf", "sums") ;;
    "sums" <~ builtin (PVperm [(0, 0)%nat; (1, 1)%nat; (1, 2)%nat; (1, 3)%nat])$(builtin (PV2 OAdd)$("sums", "shuf"), "sums") ;;
    SRet "sums"
  ).

(* simd/x86.h:149-151 *)
Definition avx_glmm_hadd : fundef := Fun
  [("v", None)]
  [] (
    SRet builtin (PVlane 0)$(avx_glmm_vhadds$("v"))
  ).

(* simd/x86.h:155-161 *)
Definition avx_glmm_vhmin : fundef := Fun
  [("v", None)]
  [("x0", None); ("x1", None); ("x2", None)] (
    "x0" <~ builtin (PVperm [(1, 2)%nat; (1, 3)%nat; (0, 2)%nat; (0, 3)%nat])$("v", "v") ;;
    "x1" <~ builtin (PVpick CLt)$("x0", "v") ;;
    "x2" <~ builtin (PVperm [(0, 1)%nat; (0, 1)%nat; (0, 1)%nat; (0, 1)%nat])$("x1") ;;
    SRet builtin (PVperm [(0, 0)%nat; (1, 1)%nat; (1, 2)%nat; (1, 3)%nat])$(builtin (PVpick CLt)$("x1", "x2"), "x1")
  ).

(* simd/x86.h:165-167 *)
Definition avx_glmm_hmin : fundef := Fun
  [("v", None)]
  [] (
    SRet builtin (PVlane 0)$(avx_glmm_vhmin$("v"))
  ).

(* simd/x86.h:171-177 *)
Definition avx_glmm_vhmax : fundef := Fun
  [("v", None)]
  [("x0", None); ("x1", None); ("x2", None)] (
    "x0" <~ builtin (PVperm [(1, 2)%nat; (1, 3)%nat; (0, 2)%nat; (0, 3)%nat])$("v", "v") ;;
    "x1" <~ builtin (PVpick CGt)$("x0", "v") ;;
    "x2" <~ builtin (PVperm [(0, 1)%nat; (0, 1)%nat; (0, 1)%nat; (0, 1)%nat])$("x1") ;;
    SRet builtin (PVperm [(0, 0)%nat; (1, 1)%nat; (1, 2)%nat; (1, 3)%nat])$(builtin (PVpick CGt)$("x1", "x2"), "x1")
  ).

(* simd/x86.h:181-183 *)
Definition avx_glmm_hmax : fundef := Fun
  [("v", None)]
  [] (
    SRet builtin (PVlane 0)$(avx_glmm_vhmax$("v"))
  ).

(* simd/x86.h:187-198 *)
Definition avx_glmm_vdots : fundef := Fun
  [("a", None); ("b", None)]
  [] (
    SRet avx_glmm_vhadds$(builtin (PV2 OMul)$("a", "b"))
  ).

(* simd/x86.h:202-216 *)
Definition avx_glmm_vdot : fundef := Fun
  [("a", None); ("b", None)]
  [("x0", None)] (
    "x0" <~ builtin (PV2 OMul)$("a", "b") ;;
    "x0" <~ builtin (PV2 OAdd)$("x0", builtin (PVperm [(0, 2)%nat; (0, 3)%nat; (0, 0)%nat; (0, 1)%nat])$("x0")) ;;
    SRet builtin (PV2 OAdd)$("x0", builtin (PVperm [(0, 1)%nat; (0, 0)%nat; (0, 1)%nat; (0, 0)%nat])$("x0"))
  ).

(* simd/x86.h:220-222 *)
Definition avx_glmm_dot : fundef := Fun
  [("a", None); ("b", None)]
  [] (
    SRet builtin (PVlane 0)$(avx_glmm_vdots$("a", "b"))
  ).

(* simd/x86.h:226-228 *)
Definition avx_glmm_norm : fundef := Fun
  [("a", None)]
  [] (
    SRet builtin (PVlane 0)$(builtin (PVperm [(1, 0)%nat; (0, 1)%nat; (0, 2)%nat; (0, 3)%nat])$(avx_glmm_vhadds$(builtin (PV2 OMul)$("a", "a")), builtin (PV1 OSqrt)$(builtin (PVperm [(0, 0)%nat])$(avx_glmm_vhadds$(builtin (PV2 OMul)$("a", "a"))))))
  ).

(* simd/x86.h:232-234 *)
Definition avx_glmm_norm2 : fundef := Fun
  [("a", None)]
  [] (
    SRet builtin (PVlane 0)$(avx_glmm_vhadds$(builtin (PV2 OMul)$("a", "a")))
  ).

(* simd/x86.h:238-240 *)
Definition avx_glmm_norm_one : fundef := Fun
  [("a", None)]
  [] (
    SRet builtin (PVlane 0)$(avx_glmm_vhadds$(avx_glmm_abs$("a")))
  ).

(* simd/x86.h:244-246 *)
Definition avx_glmm_norm_inf : fundef := Fun
  [("a", None)]
  [] (
    SRet builtin (PVlane 0)$(avx_glmm_vhmax$(avx_glmm_abs$("a")))
  ).

(* simd/x86.h:251-259 *)
Definition avx_glmm_load3 : fundef := Fun
  [("v", None)]
  [("xy", None); ("z", None)] (
    "xy" <~ builtin (PVperm [(0, 0)%nat; (0, 1)%nat; (1, 0)%nat; (1, 0)%nat])$((EVLd 2 "v"), builtin (PVsplat 1)$((EF 0 1))) ;;
    "z" <~ builtin (PVperm [(0, 0)%nat; (1, 0)%nat; (1, 0)%nat; (1, 0)%nat])$((EVLd 1 "v".[2]), builtin (PVsplat 1)$((EF 0 1))) ;;
    SRet builtin (PVperm [(0, 0)%nat; (0, 1)%nat; (1, 0)%nat; (1, 1)%nat])$("xy", "z")
  ).

(* simd/x86.h:263-266 *)
Definition avx_glmm_store3 : fundef := Fun
  [("v", None); ("vx", None)]
  [] (
    SVSt 2 "v" "vx" ;;
    SVSt 1 "v".[2] builtin (PVperm [(0, 2)%nat; (0, 2)%nat; (0, 2)%nat; (0, 2)%nat])$("vx")
  ).

(* simd/x86.h:271-273 *)
Definition avx_glmm_div : fundef := Fun
  [("a", None); ("b", None)]
  [] (
    SRet builtin (PV2 ODiv)$("a", "b")
  ).

(* simd/x86.h:282-288 *)
Definition avx_glmm_fmadd : fundef := Fun
  [("a", None); ("b", None); ("c", None)]
  [] (
    SRet builtin (PV2 OAdd)$("c", builtin (PV2 OMul)$("a", "b"))
  ).

(* simd/x86.h:292-298 *)
Definition avx_glmm_fnmadd : fundef := Fun
  [("a", None); ("b", None); ("c", None)]
  [] (
    SRet builtin (PV2 OSub)$("c", builtin (PV2 OMul)$("a", "b"))
  ).

(* simd/x86.h:302-308 *)
Definition avx_glmm_fmsub : fundef := Fun
  [("a", None); ("b", None); ("c", None)]
  [] (
    SRet builtin (PV2 OSub)$(builtin (PV2 OMul)$("a", "b"), "c")
  ).

(* simd/x86.h:312-319 *)
Definition avx_glmm_fnmsub : fundef := Fun
  [("a", None); ("b", None); ("c", None)]
  [] (
    SRet builtin PVxor$(builtin (PV2 OAdd)$(builtin (PV2 OMul)$("a", "b"), "c"), builtin (PVsigns [true; true; true; true])$())
  ).

(* simd/x86.h:324-330 *)
Definition avx_glmm256_fmadd : fundef := Fun
  [("a", None); ("b", None); ("c", None)]
  [] (
    SRet builtin (PV2 OAdd)$("c", builtin (PV2 OMul)$("a", "b"))
  ).

(* simd/x86.h:334-340 *)
Definition avx_glmm256_fnmadd : fundef := Fun
  [("a", None); ("b", None); ("c", None)]
  [] (
    SRet builtin (PV2 OSub)$("c", builtin (PV2 OMul)$("a", "b"))
  ).

(* simd/x86.h:344-350 *)
Definition avx_glmm256_fmsub : fundef := Fun
  [("a", None); ("b", None); ("c", None)]
  [] (
    SRet builtin (PV2 OSub)$(builtin (PV2 OMul)$("a", "b"), "c")
  ).

(* simd/x86.h:354-361 *)
Definition avx_glmm256_fnmsub : fundef := Fun
  [("a", None); ("b", None); ("c", None)]
  [] (
    SRet builtin PVxor$(builtin (PV2 OSub)$(builtin (PV2 OMul)$("a", "b"), "c"), builtin (PVsigns [true; true; true; true; true; true; true; true])$())
  ).

(* vec4-ext.h:51-59 *)
Definition avx_glm_vec4_broadcast : fundef := Fun
  [("val", None); ("d", None)]
  [] (
    SVSt 4 "d" builtin (PVsplat 4)$("val")
  ).

(* vec4-ext.h:69-77 *)
Definition avx_glm_vec4_fill : fundef := Fun
  [("v", None); ("val", None)]
  [] (
    SVSt 4 "v" builtin (PVsplat 4)$("val")
  ).

(* vec4-ext.h:237-255 *)
Definition avx_glm_vec4_sign : fundef := Fun
  [("v", None); ("dest", None)]
  [("x0", None); ("x1", None); ("x2", None); ("x3", None); ("x4", None)] (
    "x0" <~ (EVLd 4 "v") ;;
    "x1" <~ builtin PVmk$((- (EF 1 1)), (EF 1 1), (EF 0 1), (EF 0 1)) ;;
    "x2" <~ builtin (PVperm [(0, 2)%nat; (0, 2)%nat; (0, 2)%nat; (0, 2)%nat])$("x1") ;;
    "x3" <~ builtin PVand$(builtin (PVcmp CGt)$("x0", "x2"), builtin (PVperm [(0, 1)%nat; (0, 1)%nat; (0, 1)%nat; (0, 1)%nat])$("x1")) ;;
    "x4" <~ builtin PVand$(builtin (PVcmp CLt)$("x0", "x2"), builtin (PVperm [(0, 0)%nat; (0, 0)%nat; (0, 0)%nat; (0, 0)%nat])$("x1")) ;;
    SVSt 4 "dest" builtin PVor$("x3", "x4")
  ).

(* vec4-ext.h:265-278 *)
Definition avx_glm_vec4_abs : fundef := Fun
  [("v", None); ("dest", None)]
  [] (
    SVSt 4 "dest" avx_glmm_abs$((EVLd 4 "v"))
  ).

(* vec4-ext.h:369-377 *)
Definition avx_glm_vec4_hadd : fundef := Fun
  [("v", None)]
  [] (
    SRet avx_glmm_hadd$((EVLd 4 "v"))
  ).

(* vec4-ext.h:387-398 *)
Definition avx_glm_vec4_sqrt : fundef := Fun
  [("v", None); ("dest", None)]
  [] (
    SVSt 4 "dest" builtin (PV1 OSqrt)$((EVLd 4 "v"))
  ).

(* vec4.h:149-162 *)
Definition avx_glm_vec4_copy : fundef := Fun
  [("v", None); ("dest", None)]
  [] (
    SVSt 4 "dest" (EVLd 4 "v")
  ).

(* vec4.h:193-206 *)
Definition avx_glm_vec4_zero : fundef := Fun
  [("v", None)]
  [] (
    SVSt 4 "v" builtin (PVsplat 4)$((EF 0 1))
  ).

(* vec4.h:215-228 *)
Definition avx_glm_vec4_one : fundef := Fun
  [("v", None)]
  [] (
    SVSt 4 "v" builtin (PVsplat 4)$((EF 1 1))
  ).

(* vec4.h:240-246 *)
Definition avx_glm_vec4_dot : fundef := Fun
  [("a", None); ("b", None)]
  [] (
    SRet avx_glmm_dot$((EVLd 4 "a"), (EVLd 4 "b"))
  ).

(* vec4.h:261-263 *)
Definition avx_glm_vec4_norm2 : fundef := Fun
  [("v", None)]
  [] (
    SRet avx_glm_vec4_dot$("v", "v")
  ).

(* vec4.h:275-281 *)
Definition avx_glm_vec4_norm : fundef := Fun
  [("v", None)]
  [] (
    SRet avx_glmm_norm$((EVLd 4 "v"))
  ).

(* vec4.h:299-307 *)
Definition avx_glm_vec4_norm_one : fundef := Fun
  [("v", None)]
  [] (
    SRet avx_glmm_norm_one$((EVLd 4 "v"))
  ).

(* vec4.h:324-332 *)
Definition avx_glm_vec4_norm_inf : fundef := Fun
  [("v", None)]
  [] (
    SRet avx_glmm_norm_inf$((EVLd 4 "v"))
  ).

(* vec4.h:343-356 *)
Definition avx_glm_vec4_add : fundef := Fun
  [("a", None); ("b", None); ("dest", None)]
  [] (
    SVSt 4 "dest" builtin (PV2 OAdd)$((EVLd 4 "a"), (EVLd 4 "b"))
  ).

(* vec4.h:367-380 *)
Definition avx_glm_vec4_adds : fundef := Fun
  [("v", None); ("s", None); ("dest", None)]
  [] (
    SVSt 4 "dest" builtin (PV2 OAdd)$((EVLd 4 "v"), builtin (PVsplat 4)$("s"))
  ).

(* vec4.h:391-404 *)
Definition avx_glm_vec4_sub : fundef := Fun
  [("a", None); ("b", None); ("dest", None)]
  [] (
    SVSt 4 "dest" builtin (PV2 OSub)$((EVLd 4 "a"), (EVLd 4 "b"))
  ).

(* vec4.h:415-428 *)
Definition avx_glm_vec4_subs : fundef := Fun
  [("v", None); ("s", None); ("dest", None)]
  [] (
    SVSt 4 "dest" builtin (PV2 OSub)$((EVLd 4 "v"), builtin (PVsplat 4)$("s"))
  ).

(* vec4.h:439-452 *)
Definition avx_glm_vec4_mul : fundef := Fun
  [("a", None); ("b", None); ("dest", None)]
  [] (
    SVSt 4 "dest" builtin (PV2 OMul)$((EVLd 4 "a"), (EVLd 4 "b"))
  ).

(* vec4.h:463-476 *)
Definition avx_glm_vec4_scale : fundef := Fun
  [("v", None); ("s", None); ("dest", None)]
  [] (
    SVSt 4 "dest" builtin (PV2 OMul)$((EVLd 4 "v"), builtin (PVsplat 4)$("s"))
  ).

(* vec4.h:487-497 *)
Definition avx_glm_vec4_scale_as : fundef := Fun
  [("v", None); ("s", None); ("dest", None)]
  [("norm", None)] (
    "norm" <~ avx_glm_vec4_norm$("v") ;;
    (SIf ("norm" < (EF 1 8388608)) (
      SExp avx_glm_vec4_zero$("dest") ;;
      SRet0
    ) (
      SSkip
    )) ;;
    SExp avx_glm_vec4_scale$("v", ("s" / "norm"), "dest")
  ).

(* vec4.h:508-517 *)
Definition avx_glm_vec4_div : fundef := Fun
  [("a", None); ("b", None); ("dest", None)]
  [] (
    SVSt 4 "dest" avx_glmm_div$((EVLd 4 "a"), (EVLd 4 "b"))
  ).

(* vec4.h:528-534 *)
Definition avx_glm_vec4_divs : fundef := Fun
  [("v", None); ("s", None); ("dest", None)]
  [] (
    SVSt 4 "dest" avx_glmm_div$((EVLd 4 "v"), builtin (PVsplat 4)$("s"))
  ).

(* vec4.h:547-566 *)
Definition avx_glm_vec4_addadd : fundef := Fun
  [("a", None); ("b", None); ("dest", None)]
  [] (
    SVSt 4 "dest" builtin (PV2 OAdd)$((EVLd 4 "dest"), builtin (PV2 OAdd)$((EVLd 4 "a"), (EVLd 4 "b")))
  ).

(* vec4.h:579-598 *)
Definition avx_glm_vec4_subadd : fundef := Fun
  [("a", None); ("b", None); ("dest", None)]
  [] (
    SVSt 4 "dest" builtin (PV2 OAdd)$((EVLd 4 "dest"), builtin (PV2 OSub)$((EVLd 4 "a"), (EVLd 4 "b")))
  ).

(* vec4.h:611-620 *)
Definition avx_glm_vec4_muladd : fundef := Fun
  [("a", None); ("b", None); ("dest", None)]
  [] (
    SVSt 4 "dest" avx_glmm_fmadd$((EVLd 4 "a"), (EVLd 4 "b"), (EVLd 4 "dest"))
  ).

(* vec4.h:633-642 *)
Definition avx_glm_vec4_muladds : fundef := Fun
  [("a", None); ("s", None); ("dest", None)]
  [] (
    SVSt 4 "dest" avx_glmm_fmadd$((EVLd 4 "a"), builtin (PVsplat 4)$("s"), (EVLd 4 "dest"))
  ).

(* vec4.h:655-671 *)
Definition avx_glm_vec4_maxadd : fundef := Fun
  [("a", None); ("b", None); ("dest", None)]
  [] (
    SVSt 4 "dest" builtin (PV2 OAdd)$((EVLd 4 "dest"), avx_glmm_max$((EVLd 4 "a"), (EVLd 4 "b")))
  ).

(* vec4.h:684-700 *)
Definition avx_glm_vec4_minadd : fundef := Fun
  [("a", None); ("b", None); ("dest", None)]
  [] (
    SVSt 4 "dest" builtin (PV2 OAdd)$((EVLd 4 "dest"), avx_glmm_min$((EVLd 4 "a"), (EVLd 4 "b")))
  ).

(* vec4.h:713-732 *)
Definition avx_glm_vec4_subsub : fundef := Fun
  [("a", None); ("b", None); ("dest", None)]
  [] (
    SVSt 4 "dest" builtin (PV2 OSub)$((EVLd 4 "dest"), builtin (PV2 OSub)$((EVLd 4 "a"), (EVLd 4 "b")))
  ).

(* vec4.h:745-764 *)
Definition avx_glm_vec4_addsub : fundef := Fun
  [("a", None); ("b", None); ("dest", None)]
  [] (
    SVSt 4 "dest" builtin (PV2 OSub)$((EVLd 4 "dest"), builtin (PV2 OAdd)$((EVLd 4 "a"), (EVLd 4 "b")))
  ).

(* vec4.h:777-786 *)
Definition avx_glm_vec4_mulsub : fundef := Fun
  [("a", None); ("b", None); ("dest", None)]
  [] (
    SVSt 4 "dest" avx_glmm_fnmadd$((EVLd 4 "a"), (EVLd 4 "b"), (EVLd 4 "dest"))
  ).

(* vec4.h:799-808 *)
Definition avx_glm_vec4_mulsubs : fundef := Fun
  [("a", None); ("s", None); ("dest", None)]
  [] (
    SVSt 4 "dest" avx_glmm_fnmadd$((EVLd 4 "a"), builtin (PVsplat 4)$("s"), (EVLd 4 "dest"))
  ).

(* vec4.h:821-837 *)
Definition avx_glm_vec4_maxsub : fundef := Fun
  [("a", None); ("b", None); ("dest", None)]
  [] (
    SVSt 4 "dest" builtin (PV2 OSub)$((EVLd 4 "dest"), avx_glmm_max$((EVLd 4 "a"), (EVLd 4 "b")))
  ).

(* vec4.h:850-866 *)
Definition avx_glm_vec4_minsub : fundef := Fun
  [("a", None); ("b", None); ("dest", None)]
  [] (
    SVSt 4 "dest" builtin (PV2 OSub)$((EVLd 4 "dest"), avx_glmm_min$((EVLd 4 "a"), (EVLd 4 "b")))
  ).

(* vec4.h:876-889 *)
Definition avx_glm_vec4_negate_to : fundef := Fun
  [("v", None); ("dest", None)]
  [] (
    SVSt 4 "dest" builtin PVxor$((EVLd 4 "v"), builtin (PVsigns [true; true; true; true])$())
  ).

(* vec4.h:898-900 *)
Definition avx_glm_vec4_negate : fundef := Fun
  [("v", None)]
  [] (
    SExp avx_glm_vec4_negate_to$("v", "v")
  ).

(* vec4.h:910-952 *)
Definition avx_glm_vec4_normalize_to : fundef := Fun
  [("v", None); ("dest", None)]
  [("xdot", None); ("x0", None); ("dot", None)] (
    "x0" <~ (EVLd 4 "v") ;;
    "xdot" <~ avx_glmm_vdot$("x0", "x0") ;;
    "dot" <~ builtin (PVlane 0)$("xdot") ;;
    (SIf ("dot" < (EF 1 8388608)) (
      SVSt 4 "dest" builtin (PVsplat 4)$((EF 0 1)) ;;
      SRet0
    ) (
      SSkip
    )) ;;
    SVSt 4 "dest" avx_glmm_div$("x0", builtin (PV1 OSqrt)$("xdot"))
  ).

(* vec4.h:961-963 *)
Definition avx_glm_vec4_normalize : fundef := Fun
  [("v", None)]
  [] (
    SExp avx_glm_vec4_normalize_to$("v", "v")
  ).

(* vec4.h:974-987 *)
Definition avx_glm_vec4_distance : fundef := Fun
  [("a", None); ("b", None)]
  [] (
    SRet avx_glmm_norm$(builtin (PV2 OSub)$((EVLd 4 "a"), (EVLd 4 "b")))
  ).

(* vec4.h:998-1011 *)
Definition avx_glm_vec4_distance2 : fundef := Fun
  [("a", None); ("b", None)]
  [] (
    SRet avx_glmm_norm2$(builtin (PV2 OSub)$((EVLd 4 "a"), (EVLd 4 "b")))
  ).

(* vec4.h:1022-1031 *)
Definition avx_glm_vec4_maxv : fundef := Fun
  [("a", None); ("b", None); ("dest", None)]
  [] (
    SVSt 4 "dest" avx_glmm_max$((EVLd 4 "a"), (EVLd 4 "b"))
  ).

(* vec4.h:1042-1051 *)
Definition avx_glm_vec4_minv : fundef := Fun
  [("a", None); ("b", None); ("dest", None)]
  [] (
    SVSt 4 "dest" avx_glmm_min$((EVLd 4 "a"), (EVLd 4 "b"))
  ).

(* vec4.h:1062-1078 *)
Definition avx_glm_vec4_clamp : fundef := Fun
  [("v", None); ("minVal", None); ("maxVal", None)]
  [] (
    SVSt 4 "v" avx_glmm_min$(avx_glmm_max$((EVLd 4 "v"), builtin (PVsplat 4)$("minVal")), builtin (PVsplat 4)$("maxVal"))
  ).

(* vec4.h:1092-1100 *)
Definition avx_glm_vec4_lerp : fundef := Fun
  [("from", None); ("to", None); ("t", None); ("dest", None)]
  [("s", Some 4%nat); ("v", Some 4%nat)] (
    SExp avx_glm_vec4_broadcast$("t", "s") ;;
    SExp avx_glm_vec4_sub$("to", "from", "v") ;;
    SExp avx_glm_vec4_mul$("s", "v", "v") ;;
    SExp avx_glm_vec4_add$("from", "v", "dest")
  ).

(* vec4.h:1114-1116 *)
Definition avx_glm_vec4_lerpc : fundef := Fun
  [("from", None); ("to", None); ("t", None); ("dest", None)]
  [] (
    SExp avx_glm_vec4_lerp$("from", "to", glm_clamp_zo$("t"), "dest")
  ).

(* vec4.h:1130-1132 *)
Definition avx_glm_vec4_mix : fundef := Fun
  [("from", None); ("to", None); ("t", None); ("dest", None)]
  [] (
    SExp avx_glm_vec4_lerp$("from", "to", "t", "dest")
  ).

(* vec4.h:1146-1148 *)
Definition avx_glm_vec4_mixc : fundef := Fun
  [("from", None); ("to", None); ("t", None); ("dest", None)]
  [] (
    SExp avx_glm_vec4_lerpc$("from", "to", "t", "dest")
  ).

(* vec4.h:1212-1220 *)
Definition avx_glm_vec4_smoothinterp : fundef := Fun
  [("from", None); ("to", None); ("t", None); ("dest", None)]
  [("s", Some 4%nat); ("v", Some 4%nat)] (
    SExp avx_glm_vec4_broadcast$(glm_smooth$("t"), "s") ;;
    SExp avx_glm_vec4_sub$("to", "from", "v") ;;
    SExp avx_glm_vec4_mul$("s", "v", "v") ;;
    SExp avx_glm_vec4_add$("from", "v", "dest")
  ).

(* vec4.h:1234-1236 *)
Definition avx_glm_vec4_smoothinterpc : fundef := Fun
  [("from", None); ("to", None); ("t", None); ("dest", None)]
  [] (
    SExp avx_glm_vec4_smoothinterp$("from", "to", glm_clamp_zo$("t"), "dest")
  ).

(* vec4.h:1268-1277 *)
Definition avx_glm_vec4_swizzle : fundef := Fun
  [("v", None); ("mask", None); ("dest", None)]
  [("t", Some 4%nat)] (
    "t".[0] ::= !(EIx "v" 1 (EBin (BArith IAnd) "mask" (EBin (BArith IShl) (EI 3) (EI 0)))) ;;
    "t".[1] ::= !(EIx "v" 1 (EBin (BArith IShr) (EBin (BArith IAnd) "mask" (EBin (BArith IShl) (EI 3) (EI 2))) (EI 2))) ;;
    "t".[2] ::= !(EIx "v" 1 (EBin (BArith IShr) (EBin (BArith IAnd) "mask" (EBin (BArith IShl) (EI 3) (EI 4))) (EI 4))) ;;
    "t".[3] ::= !(EIx "v" 1 (EBin (BArith IShr) (EBin (BArith IAnd) "mask" (EBin (BArith IShl) (EI 3) (EI 6))) (EI 6))) ;;
    SExp avx_glm_vec4_copy$("t", "dest")
  ).

(* vec4.h:1301-1309 *)
Definition avx_glm_vec4_reflect : fundef := Fun
  [("v", None); ("n", None); ("dest", None)]
  [("temp", Some 4%nat)] (
    SExp avx_glm_vec4_scale$("n", ((EF 2 1) * avx_glm_vec4_dot$("v", "n")), "temp") ;;
    SExp avx_glm_vec4_sub$("v", "temp", "dest") ;;
    "dest".[3] ::= !"v".[3]
  ).

(* vec4.h:1331-1346 *)
Definition avx_glm_vec4_refract : fundef := Fun
  [("v", None); ("n", None); ("eta", None); ("dest", None)]
  [("ndi", None); ("eni", None); ("k", None)] (
    "ndi" <~ avx_glm_vec4_dot$("n", "v") ;;
    "eni" <~ ("eta" * "ndi") ;;
    "k" <~ (((EF 1 1) - ("eta" * "eta")) + ("eni" * "eni")) ;;
    (SIf ("k" < (EF 0 1)) (
      SExp avx_glm_vec4_zero$("dest") ;;
      SRet (EB false)
    ) (
      SSkip
    )) ;;
    SExp avx_glm_vec4_scale$("v", "eta", "dest") ;;
    SExp avx_glm_vec4_mulsubs$("n", ("eni" + builtin (PF1 OSqrt)$("k")), "dest") ;;
    SRet (EB true)
  ).

(* vec3.h:788-800 *)
Definition avx_glm_vec3_rotate_m4 : fundef := Fun
  [("m", None); ("v", None); ("dest", None)]
  [("x", Some 4%nat); ("y", Some 4%nat); ("z", Some 4%nat); ("res", Some 4%nat)] (
    SExp avx_glm_vec4_normalize_to$("m".[0:4], "x") ;;
    SExp avx_glm_vec4_normalize_to$("m".[1:4], "y") ;;
    SExp avx_glm_vec4_normalize_to$("m".[2:4], "z") ;;
    SExp avx_glm_vec4_scale$("x", !"v".[0], "res") ;;
    SExp avx_glm_vec4_muladds$("y", !"v".[1], "res") ;;
    SExp avx_glm_vec4_muladds$("z", !"v".[2], "res") ;;
    SExp glm_vec3$("res", "dest")
  ).

(* vec3.h:811-827 *)
Definition avx_glm_vec3_rotate_m3 : fundef := Fun
  [("m", None); ("v", None); ("dest", None)]
  [("res", Some 4%nat); ("x", Some 4%nat); ("y", Some 4%nat); ("z", Some 4%nat)] (
    SExp glm_vec4$("m".[0:3], (EF 0 1), "x") ;;
    SExp glm_vec4$("m".[1:3], (EF 0 1), "y") ;;
    SExp glm_vec4$("m".[2:3], (EF 0 1), "z") ;;
    SExp avx_glm_vec4_normalize$("x") ;;
    SExp avx_glm_vec4_normalize$("y") ;;
    SExp avx_glm_vec4_normalize$("z") ;;
    SExp avx_glm_vec4_scale$("x", !"v".[0], "res") ;;
    SExp avx_glm_vec4_muladds$("y", !"v".[1], "res") ;;
    SExp avx_glm_vec4_muladds$("z", !"v".[2], "res") ;;
    SExp glm_vec3$("res", "dest")
  ).

(* simd/sse2/mat4.h:19-27 *)
Definition avx_glm_mat4_scale_sse2 : fundef := Fun
  [("m", None); ("s", None)]
  [("x0", None)] (
    "x0" <~ builtin (PVsplat 4)$("s") ;;
    SVSt 4 "m".[0:4] builtin (PV2 OMul)$((EVLd 4 "m".[0:4]), "x0") ;;
    SVSt 4 "m".[1:4] builtin (PV2 OMul)$((EVLd 4 "m".[1:4]), "x0") ;;
    SVSt 4 "m".[2:4] builtin (PV2 OMul)$((EVLd 4 "m".[2:4]), "x0") ;;
    SVSt 4 "m".[3:4] builtin (PV2 OMul)$((EVLd 4 "m".[3:4]), "x0")
  ).

(* simd/sse2/mat4.h:31-45 *)
Definition avx_glm_mat4_transp_sse2 : fundef := Fun
  [("m", None); ("dest", None)]
  [("r0", None); ("r1", None); ("r2", None); ("r3", None); ("tmp1", None); ("tmp2", None); ("tmp3", None); ("tmp4", None)] (
    "r0" <~ (EVLd 4 "m".[0:4]) ;;
    "r1" <~ (EVLd 4 "m".[1:4]) ;;
    "r2" <~ (EVLd 4 "m".[2:4]) ;;
    "r3" <~ (EVLd 4 "m".[3:4]) ;;
    "tmp1" <~ builtin (PVperm [(0, 0)%nat; (1, 0)%nat; (2, 0)%nat; (3, 0)%nat])$("r0", "r1", "r2", "r3") ;;
    "tmp2" <~ builtin (PVperm [(0, 1)%nat; (1, 1)%nat; (2, 1)%nat; (3, 1)%nat])$("r0", "r1", "r2", "r3") ;;
    "tmp3" <~ builtin (PVperm [(0, 2)%nat; (1, 2)%nat; (2, 2)%nat; (3, 2)%nat])$("r0", "r1", "r2", "r3") ;;
    "tmp4" <~ builtin (PVperm [(0, 3)%nat; (1, 3)%nat; (2, 3)%nat; (3, 3)%nat])$("r0", "r1", "r2", "r3") ;;
    "r0" <~ "tmp1" ;;
    "r1" <~ "tmp2" ;;
    "r2" <~ "tmp3" ;;
    "r3" <~ "tmp4" ;;
    SVSt 4 "dest".[0:4] "r0" ;;
    SVSt 4 "dest".[1:4] "r1" ;;
    SVSt 4 "dest".[2:4] "r2" ;;
    SVSt 4 "dest".[3:4] "r3"
  ).

(* simd/sse2/mat4.h:49-87 *)
Definition avx_glm_mat4_mul_sse2 : fundef := Fun
  [("m1", None); ("m2", None); ("dest", None)]
  [("l", None); ("r0", None); ("r1", None); ("r2", None); ("r3", None); ("v0", None); ("v1", None); ("v2", None); ("v3", None)] (
    "l" <~ (EVLd 4 "m1".[0:4]) ;;
    "r0" <~ (EVLd 4 "m2".[0:4]) ;;
    "r1" <~ (EVLd 4 "m2".[1:4]) ;;
    "r2" <~ (EVLd 4 "m2".[2:4]) ;;
    "r3" <~ (EVLd 4 "m2".[3:4]) ;;
    "v0" <~ builtin (PV2 OMul)$(builtin (PVperm [(0, 0)%nat; (0, 0)%nat; (0, 0)%nat; (0, 0)%nat])$("r0"), "l") ;;
    "v1" <~ builtin (PV2 OMul)$(builtin (PVperm [(0, 0)%nat; (0, 0)%nat; (0, 0)%nat; (0, 0)%nat])$("r1"), "l") ;;
    "v2" <~ builtin (PV2 OMul)$(builtin (PVperm [(0, 0)%nat; (0, 0)%nat; (0, 0)%nat; (0, 0)%nat])$("r2"), "l") ;;
    "v3" <~ builtin (PV2 OMul)$(builtin (PVperm [(0, 0)%nat; (0, 0)%nat; (0, 0)%nat; (0, 0)%nat])$("r3"), "l") ;;
    "l" <~ (EVLd 4 "m1".[1:4]) ;;
    "v0" <~ avx_glmm_fmadd$(builtin (PVperm [(0, 1)%nat; (0, 1)%nat; (0, 1)%nat; (0, 1)%nat])$("r0"), "l", "v0") ;;
    "v1" <~ avx_glmm_fmadd$(builtin (PVperm [(0, 1)%nat; (0, 1)%nat; (0, 1)%nat; (0, 1)%nat])$("r1"), "l", "v1") ;;
    "v2" <~ avx_glmm_fmadd$(builtin (PVperm [(0, 1)%nat; (0, 1)%nat; (0, 1)%nat; (0, 1)%nat])$("r2"), "l", "v2") ;;
    "v3" <~ avx_glmm_fmadd$(builtin (PVperm [(0, 1)%nat; (0, 1)%nat; (0, 1)%nat; (0, 1)%nat])$("r3"), "l", "v3") ;;
    "l" <~ (EVLd 4 "m1".[2:4]) ;;
    "v0" <~ avx_glmm_fmadd$(builtin (PVperm [(0, 2)%nat; (0, 2)%nat; (0, 2)%nat; (0, 2)%nat])$("r0"), "l", "v0") ;;
    "v1" <~ avx_glmm_fmadd$(builtin (PVperm [(0, 2)%nat; (0, 2)%nat; (0, 2)%nat; (0, 2)%nat])$("r1"), "l", "v1") ;;
    "v2" <~ avx_glmm_fmadd$(builtin (PVperm [(0, 2)%nat; (0, 2)%nat; (0, 2)%nat; (0, 2)%nat])$("r2"), "l", "v2") ;;
    "v3" <~ avx_glmm_fmadd$(builtin (PVperm [(0, 2)%nat; (0, 2)%nat; (0, 2)%nat; (0, 2)%nat])$("r3"), "l", "v3") ;;
    "l" <~ (EVLd 4 "m1".[3:4]) ;;
    "v0" <~ avx_glmm_fmadd$(builtin (PVperm [(0, 3)%nat; (0, 3)%nat; (0, 3)%nat; (0, 3)%nat])$("r0"), "l", "v0") ;;
    "v1" <~ avx_glmm_fmadd$(builtin (PVperm [(0, 3)%nat; (0, 3)%nat; (0, 3)%nat; (0, 3)%nat])$("r1"), "l", "v1") ;;
    "v2" <~ avx_glmm_fmadd$(builtin (PVperm [(0, 3)%nat; (0, 3)%nat; (0, 3)%nat; (0, 3)%nat])$("r2"), "l", "v2") ;;
    "v3" <~ avx_glmm_fmadd$(builtin (PVperm [(0, 3)%nat; (0, 3)%nat; (0, 3)%nat; (0, 3)%nat])$("r3"), "l", "v3") ;;
    SVSt 4 "dest".[0:4] "v0" ;;
    SVSt 4 "dest".[1:4] "v1" ;;
    SVSt 4 "dest".[2:4] "v2" ;;
    SVSt 4 "dest".[3:4] "v3"
  ).

(* simd/sse2/mat4.h:91-111 *)
Definition avx_glm_mat4_mulv_sse2 : fundef := Fun
  [("m", None); ("v", None); ("dest", None)]
  [("x0", None); ("x1", None); ("m0", None); ("m1", None); ("m2", None); ("m3", None); ("v0", None); ("v1", None); ("v2", None); ("v3", None)] (
    "m0" <~ (EVLd 4 "m".[0:4]) ;;
    "m1" <~ (EVLd 4 "m".[1:4]) ;;
    "m2" <~ (EVLd 4 "m".[2:4]) ;;
    "m3" <~ (EVLd 4 "m".[3:4]) ;;
    "x0" <~ (EVLd 4 "v") ;;
    "v0" <~ builtin (PVperm [(0, 0)%nat; (0, 0)%nat; (0, 0)%nat; (0, 0)%nat])$("x0") ;;
    "v1" <~ builtin (PVperm [(0, 1)%nat; (0, 1)%nat; (0, 1)%nat; (0, 1)%nat])$("x0") ;;
    "v2" <~ builtin (PVperm [(0, 2)%nat; (0, 2)%nat; (0, 2)%nat; (0, 2)%nat])$("x0") ;;
    "v3" <~ builtin (PVperm [(0, 3)%nat; (0, 3)%nat; (0, 3)%nat; (0, 3)%nat])$("x0") ;;
    "x1" <~ builtin (PV2 OMul)$("m3", "v3") ;;
    "x1" <~ avx_glmm_fmadd$("m2", "v2", "x1") ;;
    "x1" <~ avx_glmm_fmadd$("m1", "v1", "x1") ;;
    "x1" <~ avx_glmm_fmadd$("m0", "v0", "x1") ;;
    SVSt 4 "dest" "x1"
  ).

(* simd/sse2/mat4.h:115-159 *)
Definition avx_glm_mat4_det_sse2 : fundef := Fun
  [("mat", None)]
  [("r0", None); ("r1", None); ("r2", None); ("r3", None); ("x0", None); ("x1", None); ("x2", None)] (
    "r0" <~ (EVLd 4 "mat".[0:4]) ;;
    "r1" <~ (EVLd 4 "mat".[1:4]) ;;
    "r2" <~ (EVLd 4 "mat".[2:4]) ;;
    "r3" <~ (EVLd 4 "mat".[3:4]) ;;
    "x0" <~ avx_glmm_fnmadd$(builtin (PVperm [(0, 1)%nat; (0, 1)%nat; (0, 0)%nat; (0, 0)%nat])$("r3"), builtin (PVperm [(0, 3)%nat; (0, 2)%nat; (0, 3)%nat; (0, 2)%nat])$("r2"), builtin (PV2 OMul)$(builtin (PVperm [(0, 1)%nat; (0, 1)%nat; (0, 0)%nat; (0, 0)%nat])$("r2"), builtin (PVperm [(0, 3)%nat; (0, 2)%nat; (0, 3)%nat; (0, 2)%nat])$("r3"))) ;;
    "x1" <~ avx_glmm_fnmadd$(builtin (PVperm [(0, 2)%nat; (0, 2)%nat; (0, 0)%nat; (0, 0)%nat])$("r3"), builtin (PVperm [(0, 3)%nat; (0, 3)%nat; (0, 1)%nat; (0, 1)%nat])$("r2"), builtin (PV2 OMul)$(builtin (PVperm [(0, 2)%nat; (0, 2)%nat; (0, 0)%nat; (0, 0)%nat])$("r2"), builtin (PVperm [(0, 3)%nat; (0, 3)%nat; (0, 1)%nat; (0, 1)%nat])$("r3"))) ;;
    "x2" <~ avx_glmm_fnmadd$(builtin (PVperm [(0, 2)%nat; (0, 2)%nat; (0, 1)%nat; (0, 1)%nat])$("r1"), builtin (PVperm [(0, 0)%nat; (0, 2)%nat; (0, 2)%nat; (0, 3)%nat])$("x0"), builtin (PV2 OMul)$(builtin (PVperm [(0, 1)%nat; (0, 0)%nat; (0, 0)%nat; (0, 0)%nat])$("r1"), builtin (PVperm [(0, 0)%nat; (0, 0)%nat; (1, 0)%nat; (1, 1)%nat])$("x1", "x0"))) ;;
    "x2" <~ avx_glmm_fmadd$(builtin (PVperm [(0, 3)%nat; (0, 3)%nat; (0, 3)%nat; (0, 2)%nat])$("r1"), builtin (PVperm [(0, 1)%nat; (0, 3)%nat; (1, 2)%nat; (1, 2)%nat])$("x0", "x1"), "x2") ;;
    "x2" <~ builtin PVxor$("x2", builtin (PVsigns [false; true; false; true])$()) ;;
    SRet avx_glmm_hadd$(builtin (PV2 OMul)$("x2", "r0"))
  ).

(* simd/sse2/mat4.h:163-296 *)
Definition avx_glm_mat4_inv_fast_sse2 : fundef := Fun
  [("mat", None); ("dest", None)]
  [("r0", None); ("r1", None); ("r2", None); ("r3", None); ("v0", None); ("v1", None); ("v2", None); ("v3", None); ("t0", None); ("t1", None); ("t2", None); ("t3", None); ("t4", None); ("t5", None); ("x0", None); ("x1", None); ("x2", None); ("x3", None); ("x4", None); ("x5", None); ("x6", None); ("x7", None); ("x8", None); ("x9", None)] (
    "x8" <~ builtin (PVsigns [false; true; false; true])$() ;;
    "x9" <~ builtin (PVperm [(0, 1)%nat; (0, 2)%nat; (0, 1)%nat; (0, 2)%nat])$("x8") ;;
    "r0" <~ (EVLd 4 "mat".[0:4]) ;;
    "r1" <~ (EVLd 4 "mat".[1:4]) ;;
    "r2" <~ (EVLd 4 "mat".[2:4]) ;;
    "r3" <~ (EVLd 4 "mat".[3:4]) ;;
    "x0" <~ builtin (PVperm [(1, 2)%nat; (1, 3)%nat; (0, 2)%nat; (0, 3)%nat])$("r3", "r2") ;;
    "x3" <~ builtin (PVperm [(0, 0)%nat; (0, 1)%nat; (1, 0)%nat; (1, 1)%nat])$("r2", "r3") ;;
    "x1" <~ builtin (PVperm [(0, 3)%nat; (0, 3)%nat; (0, 3)%nat; (0, 1)%nat])$("x0") ;;
    "x2" <~ builtin (PVperm [(0, 2)%nat; (0, 2)%nat; (0, 2)%nat; (0, 0)%nat])$("x0") ;;
    "x4" <~ builtin (PVperm [(0, 3)%nat; (0, 3)%nat; (0, 3)%nat; (0, 1)%nat])$("x3") ;;
    "x7" <~ builtin (PVperm [(0, 2)%nat; (0, 2)%nat; (0, 2)%nat; (0, 0)%nat])$("x3") ;;
    "x6" <~ builtin (PVperm [(0, 0)%nat; (0, 0)%nat; (1, 0)%nat; (1, 0)%nat])$("r2", "r1") ;;
    "x5" <~ builtin (PVperm [(0, 1)%nat; (0, 1)%nat; (1, 1)%nat; (1, 1)%nat])$("r2", "r1") ;;
    "x3" <~ builtin (PVperm [(0, 2)%nat; (0, 2)%nat; (1, 2)%nat; (1, 2)%nat])$("r2", "r1") ;;
    "x0" <~ builtin (PVperm [(0, 3)%nat; (0, 3)%nat; (1, 3)%nat; (1, 3)%nat])$("r2", "r1") ;;
    "t0" <~ builtin (PV2 OMul)$("x3", "x1") ;;
    "t1" <~ builtin (PV2 OMul)$("x5", "x1") ;;
    "t2" <~ builtin (PV2 OMul)$("x5", "x2") ;;
    "t3" <~ builtin (PV2 OMul)$("x6", "x1") ;;
    "t4" <~ builtin (PV2 OMul)$("x6", "x2") ;;
    "t5" <~ builtin (PV2 OMul)$("x6", "x4") ;;
    "t0" <~ avx_glmm_fnmadd$("x2", "x0", "t0") ;;
    "t1" <~ avx_glmm_fnmadd$("x4", "x0", "t1") ;;
    "t2" <~ avx_glmm_fnmadd$("x4", "x3", "t2") ;;
    "t3" <~ avx_glmm_fnmadd$("x7", "x0", "t3") ;;
    "t4" <~ avx_glmm_fnmadd$("x7", "x3", "t4") ;;
    "t5" <~ avx_glmm_fnmadd$("x7", "x5", "t5") ;;
    "x4" <~ builtin (PVperm [(0, 0)%nat; (0, 1)%nat; (1, 0)%nat; (1, 1)%nat])$("r0", "r1") ;;
    "x5" <~ builtin (PVperm [(1, 2)%nat; (1, 3)%nat; (0, 2)%nat; (0, 3)%nat])$("r1", "r0") ;;
    "x0" <~ builtin (PVperm [(0, 2)%nat; (0, 0)%nat; (0, 0)%nat; (0, 0)%nat])$("x4") ;;
    "x1" <~ builtin (PVperm [(0, 3)%nat; (0, 1)%nat; (0, 1)%nat; (0, 1)%nat])$("x4") ;;
    "x2" <~ builtin (PVperm [(0, 2)%nat; (0, 0)%nat; (0, 0)%nat; (0, 0)%nat])$("x5") ;;
    "x3" <~ builtin (PVperm [(0, 3)%nat; (0, 1)%nat; (0, 1)%nat; (0, 1)%nat])$("x5") ;;
    "v2" <~ builtin (PV2 OMul)$("x0", "t1") ;;
    "v1" <~ builtin (PV2 OMul)$("x0", "t0") ;;
    "v3" <~ builtin (PV2 OMul)$("x0", "t2") ;;
    "v0" <~ builtin (PV2 OMul)$("x1", "t0") ;;
    "v2" <~ avx_glmm_fnmadd$("x1", "t3", "v2") ;;
    "v3" <~ avx_glmm_fnmadd$("x1", "t4", "v3") ;;
    "v0" <~ avx_glmm_fnmadd$("x2", "t1", "v0") ;;
    "v1" <~ avx_glmm_fnmadd$("x2", "t3", "v1") ;;
    "v3" <~ avx_glmm_fmadd$("x2", "t5", "v3") ;;
    "v0" <~ avx_glmm_fmadd$("x3", "t2", "v0") ;;
    "v2" <~ avx_glmm_fmadd$("x3", "t5", "v2") ;;
    "v1" <~ avx_glmm_fmadd$("x3", "t4", "v1") ;;
    "v0" <~ builtin PVxor$("v0", "x8") ;;
    "v2" <~ builtin PVxor$("v2", "x8") ;;
    "v1" <~ builtin PVxor$("v1", "x9") ;;
    "v3" <~ builtin PVxor$("v3", "x9") ;;
    "x0" <~ builtin (PVperm [(0, 0)%nat; (0, 0)%nat; (1, 0)%nat; (1, 0)%nat])$("v0", "v1") ;;
    "x1" <~ builtin (PVperm [(0, 0)%nat; (0, 0)%nat; (1, 0)%nat; (1, 0)%nat])$("v2", "v3") ;;
    "x0" <~ builtin (PVperm [(0, 0)%nat; (0, 2)%nat; (1, 0)%nat; (1, 2)%nat])$("x0", "x1") ;;
    "x0" <~ builtin (PV1 ORcp)$(avx_glmm_vhadd$(builtin (PV2 OMul)$("x0", "r0"))) ;;
    SVSt 4 "dest".[0:4] builtin (PV2 OMul)$("v0", "x0") ;;
    SVSt 4 "dest".[1:4] builtin (PV2 OMul)$("v1", "x0") ;;
    SVSt 4 "dest".[2:4] builtin (PV2 OMul)$("v2", "x0") ;;
    SVSt 4 "dest".[3:4] builtin (PV2 OMul)$("v3", "x0")
  ).

(* simd/sse2/mat4.h:440-571 *)
Definition avx_glm_mat4_inv_sse2 : fundef := Fun
  [("mat", None); ("dest", None)]
  [("r0", None); ("r1", None); ("r2", None); ("r3", None); ("s1", None); ("s2", None); ("v0", None); ("v1", None); ("v2", None); ("v3", None); ("v4", None); ("v5", None); ("t0", None); ("t1", None); ("t2", None); ("x0", None); ("x1", None); ("x2", None); ("x3", None); ("x4", None); ("x5", None); ("x6", None); ("x7", None); ("x8", None); ("x9", None); ("x10", None); ("x11", None); ("x12", None); ("x13", None)] (
    "s1" <~ builtin (PVsigns [false; true; false; true])$() ;;
    "s2" <~ builtin (PVperm [(0, 1)%nat; (0, 2)%nat; (0, 1)%nat; (0, 2)%nat])$("s1") ;;
    "r1" <~ (EVLd 4 "mat".[1:4]) ;;
    "r0" <~ (EVLd 4 "mat".[0:4]) ;;
    "r3" <~ (EVLd 4 "mat".[3:4]) ;;
    "r2" <~ (EVLd 4 "mat".[2:4]) ;;
    "x4" <~ builtin (PVperm [(0, 2)%nat; (1, 2)%nat; (0, 3)%nat; (1, 3)%nat])$("r0", "r2") ;;
    "x5" <~ builtin (PVperm [(0, 0)%nat; (1, 0)%nat; (0, 1)%nat; (1, 1)%nat])$("r0", "r2") ;;
    "x6" <~ builtin (PVperm [(0, 2)%nat; (1, 2)%nat; (0, 3)%nat; (1, 3)%nat])$("r1", "r3") ;;
    "x7" <~ builtin (PVperm [(0, 0)%nat; (1, 0)%nat; (0, 1)%nat; (1, 1)%nat])$("r1", "r3") ;;
    "x0" <~ builtin (PVperm [(0, 2)%nat; (1, 2)%nat; (0, 3)%nat; (1, 3)%nat])$("x7", "x5") ;;
    "x1" <~ builtin (PVperm [(0, 0)%nat; (1, 0)%nat; (0, 1)%nat; (1, 1)%nat])$("x7", "x5") ;;
    "x2" <~ builtin (PVperm [(0, 2)%nat; (1, 2)%nat; (0, 3)%nat; (1, 3)%nat])$("x6", "x4") ;;
    "x3" <~ builtin (PVperm [(0, 0)%nat; (1, 0)%nat; (0, 1)%nat; (1, 1)%nat])$("x6", "x4") ;;
    "x8" <~ builtin (PVperm [(0, 1)%nat; (0, 3)%nat; (1, 1)%nat; (1, 3)%nat])$("x0", "x3") ;;
    "x9" <~ builtin (PVperm [(0, 0)%nat; (0, 2)%nat; (1, 0)%nat; (1, 2)%nat])$("x0", "x3") ;;
    "x10" <~ builtin (PVperm [(0, 0)%nat; (0, 2)%nat; (0, 0)%nat; (0, 2)%nat])$("x2") ;;
    "x11" <~ builtin (PVperm [(0, 1)%nat; (0, 3)%nat; (0, 1)%nat; (0, 3)%nat])$("x2") ;;
    "x12" <~ builtin (PVperm [(0, 0)%nat; (0, 1)%nat; (1, 0)%nat; (1, 1)%nat])$("x4", "x5") ;;
    "x13" <~ builtin (PVperm [(0, 0)%nat; (0, 1)%nat; (1, 0)%nat; (1, 1)%nat])$("x6", "x7") ;;
    "t0" <~ builtin (PV2 OMul)$("x12", "x10") ;;
    "t1" <~ builtin (PV2 OMul)$("x5", "x6") ;;
    "t2" <~ builtin (PV2 OMul)$("x5", "x9") ;;
    "t0" <~ avx_glmm_fnmadd$("x11", "x13", "t0") ;;
    "t1" <~ avx_glmm_fnmadd$("x4", "x7", "t1") ;;
    "t2" <~ avx_glmm_fnmadd$("x8", "x7", "t2") ;;
    "v5" <~ builtin (PVsplat 4)$((EF 1 1)) ;;
    "v0" <~ builtin (PVperm [(0, 1)%nat; (0, 0)%nat; (0, 3)%nat; (0, 2)%nat])$("t2") ;;
    "v1" <~ builtin (PVperm [(0, 3)%nat; (0, 2)%nat; (0, 1)%nat; (0, 0)%nat])$("t1") ;;
    "v0" <~ builtin (PV2 OMul)$("t0", "v0") ;;
    "v1" <~ builtin (PV2 OMul)$("t1", "v1") ;;
    "v2" <~ builtin (PVperm [(0, 1)%nat; (0, 0)%nat; (0, 0)%nat; (0, 1)%nat])$("v1") ;;
    "v3" <~ builtin (PVperm [(0, 3)%nat; (0, 2)%nat; (0, 1)%nat; (0, 0)%nat])$("v0") ;;
    "v1" <~ builtin (PV2 OAdd)$("v1", "v2") ;;
    "v0" <~ builtin (PV2 OAdd)$("v0", "v3") ;;
    "v2" <~ builtin (PVperm [(0, 1)%nat; (0, 0)%nat; (0, 0)%nat; (0, 1)%nat])$("v0") ;;
    "v0" <~ builtin (PV2 OAdd)$("v0", "v2") ;;
    "v0" <~ builtin (PV2 OSub)$("v0", "v1") ;;
    "v0" <~ builtin (PV2 ODiv)$("v5", "v0") ;;
    "t0" <~ builtin (PV2 OMul)$("t0", "v0") ;;
    "t1" <~ builtin (PV2 OMul)$("t1", "v0") ;;
    "t2" <~ builtin (PV2 OMul)$("t2", "v0") ;;
    "v0" <~ builtin (PVperm [(0, 1)%nat; (0, 1)%nat; (0, 0)%nat; (0, 0)%nat])$("t0") ;;
    "v1" <~ builtin (PVperm [(0, 3)%nat; (0, 3)%nat; (0, 2)%nat; (0, 2)%nat])$("t0") ;;
    "v2" <~ builtin (PVperm [(0, 1)%nat; (0, 1)%nat; (0, 0)%nat; (0, 0)%nat])$("t1") ;;
    "v3" <~ builtin (PVperm [(0, 3)%nat; (0, 3)%nat; (0, 2)%nat; (0, 2)%nat])$("t1") ;;
    "v4" <~ builtin (PVperm [(0, 1)%nat; (0, 1)%nat; (0, 0)%nat; (0, 0)%nat])$("t2") ;;
    "v5" <~ builtin (PVperm [(0, 3)%nat; (0, 3)%nat; (0, 2)%nat; (0, 2)%nat])$("t2") ;;
    "r0" <~ builtin (PV2 OMul)$("x0", "v0") ;;
    "r1" <~ builtin (PV2 OMul)$("x1", "v0") ;;
    "r2" <~ builtin (PV2 OMul)$("x1", "v3") ;;
    "r3" <~ builtin (PV2 OMul)$("x1", "v5") ;;
    "r0" <~ avx_glmm_fnmadd$("x3", "v3", "r0") ;;
    "r1" <~ avx_glmm_fnmadd$("x3", "v1", "r1") ;;
    "r2" <~ avx_glmm_fnmadd$("x0", "v1", "r2") ;;
    "r3" <~ avx_glmm_fnmadd$("x0", "v2", "r3") ;;
    "r0" <~ avx_glmm_fmadd$("x2", "v5", "r0") ;;
    "r1" <~ avx_glmm_fmadd$("x2", "v2", "r1") ;;
    "r2" <~ avx_glmm_fmadd$("x2", "v4", "r2") ;;
    "r3" <~ avx_glmm_fmadd$("x3", "v4", "r3") ;;
    "r0" <~ builtin PVxor$("r0", "s1") ;;
    "r1" <~ builtin PVxor$("r1", "s2") ;;
    "r2" <~ builtin PVxor$("r2", "s1") ;;
    "r3" <~ builtin PVxor$("r3", "s2") ;;
    SVSt 4 "dest".[0:4] "r0" ;;
    SVSt 4 "dest".[1:4] "r1" ;;
    SVSt 4 "dest".[2:4] "r2" ;;
    SVSt 4 "dest".[3:4] "r3"
  ).

(* simd/avx/mat4.h:17-30 *)
Definition avx_glm_mat4_scale_avx : fundef := Fun
  [("m", None); ("s", None)]
  [("y0", None); ("y1", None); ("y2", None); ("y3", None); ("y4", None)] (
    "y0" <~ (EVLd 8 "m".[0:4]) ;;
    "y1" <~ (EVLd 8 "m".[2:4]) ;;
    "y2" <~ builtin (PVsplat 8)$("s") ;;
    "y3" <~ builtin (PV2 OMul)$("y0", "y2") ;;
    "y4" <~ builtin (PV2 OMul)$("y1", "y2") ;;
    SVSt 8 "m".[0:4] "y3" ;;
    SVSt 8 "m".[2:4] "y4"
  ).

(* simd/avx/mat4.h:35-55 *)
Definition avx_glm_mat4_transp_avx : fundef := Fun
  [("m", None); ("dest", None)]
  [("y0", None); ("y1", None); ("y2", None); ("y3", None)] (
    "y0" <~ (EVLd 8 "m".[0:4]) ;;
    "y1" <~ (EVLd 8 "m".[2:4]) ;;
    "y2" <~ builtin (PVperm [(0, 0)%nat; (1, 0)%nat; (0, 1)%nat; (1, 1)%nat; (0, 4)%nat; (1, 4)%nat; (0, 5)%nat; (1, 5)%nat])$("y0", "y1") ;;
    "y3" <~ builtin (PVperm [(0, 2)%nat; (1, 2)%nat; (0, 3)%nat; (1, 3)%nat; (0, 6)%nat; (1, 6)%nat; (0, 7)%nat; (1, 7)%nat])$("y0", "y1") ;;
    "y0" <~ builtin (PVperm [(0, 0)%nat; (0, 1)%nat; (0, 2)%nat; (0, 3)%nat; (1, 0)%nat; (1, 1)%nat; (1, 2)%nat; (1, 3)%nat])$("y2", "y3") ;;
    "y1" <~ builtin (PVperm [(0, 4)%nat; (0, 5)%nat; (0, 6)%nat; (0, 7)%nat; (1, 4)%nat; (1, 5)%nat; (1, 6)%nat; (1, 7)%nat])$("y2", "y3") ;;
    "y2" <~ builtin (PVperm [(0, 0)%nat; (1, 0)%nat; (0, 1)%nat; (1, 1)%nat; (0, 4)%nat; (1, 4)%nat; (0, 5)%nat; (1, 5)%nat])$("y0", "y1") ;;
    "y3" <~ builtin (PVperm [(0, 2)%nat; (1, 2)%nat; (0, 3)%nat; (1, 3)%nat; (0, 6)%nat; (1, 6)%nat; (0, 7)%nat; (1, 7)%nat])$("y0", "y1") ;;
    "y0" <~ builtin (PVperm [(0, 0)%nat; (0, 1)%nat; (0, 2)%nat; (0, 3)%nat; (1, 0)%nat; (1, 1)%nat; (1, 2)%nat; (1, 3)%nat])$("y2", "y3") ;;
    "y1" <~ builtin (PVperm [(0, 4)%nat; (0, 5)%nat; (0, 6)%nat; (0, 7)%nat; (1, 4)%nat; (1, 5)%nat; (1, 6)%nat; (1, 7)%nat])$("y2", "y3") ;;
    SVSt 8 "dest".[0:4] "y0" ;;
    SVSt 8 "dest".[2:4] "y1"
  ).

(* simd/avx/mat4.h:59-112 *)
Definition avx_glm_mat4_mul_avx : fundef := Fun
  [("m1", None); ("m2", None); ("dest", None)]
  [("y0", None); ("y1", None); ("y2", None); ("y3", None); ("y4", None); ("y5", None); ("y6", None); ("y7", None); ("y8", None); ("y9", None); ("y10", None); ("y11", None); ("y12", None); ("y13", None); ("yi0", None); ("yi1", None); ("yi2", None); ("yi3", None)] (
    "y0" <~ (EVLd 8 "m2".[0:4]) ;;
    "y1" <~ (EVLd 8 "m2".[2:4]) ;;
    "y2" <~ (EVLd 8 "m1".[0:4]) ;;
    "y3" <~ (EVLd 8 "m1".[2:4]) ;;
    "y4" <~ builtin (PVperm [(1, 4)%nat; (1, 5)%nat; (1, 6)%nat; (1, 7)%nat; (0, 0)%nat; (0, 1)%nat; (0, 2)%nat; (0, 3)%nat])$("y2", "y2") ;;
    "y5" <~ builtin (PVperm [(1, 4)%nat; (1, 5)%nat; (1, 6)%nat; (1, 7)%nat; (0, 0)%nat; (0, 1)%nat; (0, 2)%nat; (0, 3)%nat])$("y3", "y3") ;;
    "y6" <~ builtin (PVperm [(0, 0)%nat; (0, 0)%nat; (0, 0)%nat; (0, 0)%nat; (0, 5)%nat; (0, 5)%nat; (0, 5)%nat; (0, 5)%nat])$("y0") ;;
    "y7" <~ builtin (PVperm [(0, 2)%nat; (0, 2)%nat; (0, 2)%nat; (0, 2)%nat; (0, 7)%nat; (0, 7)%nat; (0, 7)%nat; (0, 7)%nat])$("y0") ;;
    "y8" <~ builtin (PVperm [(0, 1)%nat; (0, 1)%nat; (0, 1)%nat; (0, 1)%nat; (0, 4)%nat; (0, 4)%nat; (0, 4)%nat; (0, 4)%nat])$("y0") ;;
    "y9" <~ builtin (PVperm [(0, 3)%nat; (0, 3)%nat; (0, 3)%nat; (0, 3)%nat; (0, 6)%nat; (0, 6)%nat; (0, 6)%nat; (0, 6)%nat])$("y0") ;;
    "y10" <~ builtin (PVperm [(0, 0)%nat; (0, 0)%nat; (0, 0)%nat; (0, 0)%nat; (0, 5)%nat; (0, 5)%nat; (0, 5)%nat; (0, 5)%nat])$("y1") ;;
    "y11" <~ builtin (PVperm [(0, 2)%nat; (0, 2)%nat; (0, 2)%nat; (0, 2)%nat; (0, 7)%nat; (0, 7)%nat; (0, 7)%nat; (0, 7)%nat])$("y1") ;;
    "y12" <~ builtin (PVperm [(0, 1)%nat; (0, 1)%nat; (0, 1)%nat; (0, 1)%nat; (0, 4)%nat; (0, 4)%nat; (0, 4)%nat; (0, 4)%nat])$("y1") ;;
    "y13" <~ builtin (PVperm [(0, 3)%nat; (0, 3)%nat; (0, 3)%nat; (0, 3)%nat; (0, 6)%nat; (0, 6)%nat; (0, 6)%nat; (0, 6)%nat])$("y1") ;;
    "y0" <~ builtin (PV2 OMul)$("y2", "y6") ;;
    "y1" <~ builtin (PV2 OMul)$("y2", "y10") ;;
    "y0" <~ avx_glmm256_fmadd$("y3", "y7", "y0") ;;
    "y1" <~ avx_glmm256_fmadd$("y3", "y11", "y1") ;;
    "y0" <~ avx_glmm256_fmadd$("y4", "y8", "y0") ;;
    "y1" <~ avx_glmm256_fmadd$("y4", "y12", "y1") ;;
    "y0" <~ avx_glmm256_fmadd$("y5", "y9", "y0") ;;
    "y1" <~ avx_glmm256_fmadd$("y5", "y13", "y1") ;;
    SVSt 8 "dest".[0:4] "y0" ;;
    SVSt 8 "dest".[2:4] "y1"
  ).

(* mat4.h:129-151 *)
Definition avx_glm_mat4_copy : fundef := Fun
  [("mat", None); ("dest", None)]
  [] (
    SVSt 8 "dest".[0:4] (EVLd 8 "mat".[0:4]) ;;
    SVSt 8 "dest".[2:4] (EVLd 8 "mat".[2:4])
  ).

(* mat4.h:169-172 *)
Definition avx_glm_mat4_identity : fundef := Fun
  [("mat", None)]
  [("t", Some 16%nat)] (
    "t".[0:4].[0] ::= (EF 1 1) ;;
    "t".[0:4].[1] ::= (EF 0 1) ;;
    "t".[0:4].[2] ::= (EF 0 1) ;;
    "t".[0:4].[3] ::= (EF 0 1) ;;
    "t".[1:4].[0] ::= (EF 0 1) ;;
    "t".[1:4].[1] ::= (EF 1 1) ;;
    "t".[1:4].[2] ::= (EF 0 1) ;;
    "t".[1:4].[3] ::= (EF 0 1) ;;
    "t".[2:4].[0] ::= (EF 0 1) ;;
    "t".[2:4].[1] ::= (EF 0 1) ;;
    "t".[2:4].[2] ::= (EF 1 1) ;;
    "t".[2:4].[3] ::= (EF 0 1) ;;
    "t".[3:4].[0] ::= (EF 0 1) ;;
    "t".[3:4].[1] ::= (EF 0 1) ;;
    "t".[3:4].[2] ::= (EF 0 1) ;;
    "t".[3:4].[3] ::= (EF 1 1) ;;
    SExp avx_glm_mat4_copy$("t", "mat")
  ).

(* mat4.h:184-191 *)
Definition avx_glm_mat4_identity_array : fundef := Fun
  [("mat", None); ("count", None)]
  [("t", Some 16%nat); ("i", None)] (
    "t".[0:4].[0] ::= (EF 1 1) ;;
    "t".[0:4].[1] ::= (EF 0 1) ;;
    "t".[0:4].[2] ::= (EF 0 1) ;;
    "t".[0:4].[3] ::= (EF 0 1) ;;
    "t".[1:4].[0] ::= (EF 0 1) ;;
    "t".[1:4].[1] ::= (EF 1 1) ;;
    "t".[1:4].[2] ::= (EF 0 1) ;;
    "t".[1:4].[3] ::= (EF 0 1) ;;
    "t".[2:4].[0] ::= (EF 0 1) ;;
    "t".[2:4].[1] ::= (EF 0 1) ;;
    "t".[2:4].[2] ::= (EF 1 1) ;;
    "t".[2:4].[3] ::= (EF 0 1) ;;
    "t".[3:4].[0] ::= (EF 0 1) ;;
    "t".[3:4].[1] ::= (EF 0 1) ;;
    "t".[3:4].[2] ::= (EF 0 1) ;;
    "t".[3:4].[3] ::= (EF 1 1) ;;
    (SFor "i" (EI 0) "count" (
      SExp avx_glm_mat4_copy$("t", (EIx "mat" 16 "i"))
    ))
  ).

(* mat4.h:200-231 *)
Definition avx_glm_mat4_zero : fundef := Fun
  [("mat", None)]
  [("y0", None)] (
    "y0" <~ builtin (PVsplat 8)$((EF 0 1)) ;;
    SVSt 8 "mat".[0:4] "y0" ;;
    SVSt 8 "mat".[2:4] "y0"
  ).

(* mat4.h:317-354 *)
Definition avx_glm_mat4_mul : fundef := Fun
  [("m1", None); ("m2", None); ("dest", None)]
  [] (
    SExp avx_glm_mat4_mul_avx$("m1", "m2", "dest")
  ).

(* mat4.h:377-388 *)
Definition avx_glm_mat4_mulN : fundef := Fun
  [("matrices", None); ("len", None); ("dest", None)]
  [("i", None)] (
    SAssert ("len" > (EI 1)) ;;
    SExp avx_glm_mat4_mul$(!"matrices".[0], !"matrices".[1], "dest") ;;
    (SFor "i" (EI 2) "len" (
      SExp avx_glm_mat4_mul$("dest", !(EIx "matrices" 1 "i"), "dest")
    ))
  ).

(* mat4.h:399-414 *)
Definition avx_glm_mat4_mulv : fundef := Fun
  [("m", None); ("v", None); ("dest", None)]
  [] (
    SExp avx_glm_mat4_mulv_sse2$("m", "v", "dest")
  ).

(* mat4.h:504-509 *)
Definition avx_glm_mat4_mulv3 : fundef := Fun
  [("m", None); ("v", None); ("last", None); ("dest", None)]
  [("res", Some 4%nat)] (
    SExp glm_vec4$("v", "last", "res") ;;
    SExp avx_glm_mat4_mulv$("m", "res", "res") ;;
    SExp glm_vec3$("res", "dest")
  ).

(* mat4.h:521-540 *)
Definition avx_glm_mat4_transpose_to : fundef := Fun
  [("m", None); ("dest", None)]
  [] (
    SExp avx_glm_mat4_transp_avx$("m", "dest")
  ).

(* mat4.h:549-563 *)
Definition avx_glm_mat4_transpose : fundef := Fun
  [("m", None)]
  [] (
    SExp avx_glm_mat4_transp_avx$("m", "m")
  ).

(* mat4.h:592-604 *)
Definition avx_glm_mat4_scale : fundef := Fun
  [("m", None); ("s", None)]
  [] (
    SExp avx_glm_mat4_scale_avx$("m", "s")
  ).

(* mat4.h:615-642 *)
Definition avx_glm_mat4_det : fundef := Fun
  [("mat", None)]
  [] (
    SRet avx_glm_mat4_det_sse2$("mat")
  ).

(* mat4.h:652-692 *)
Definition avx_glm_mat4_inv : fundef := Fun
  [("mat", None); ("dest", None)]
  [] (
    SExp avx_glm_mat4_inv_sse2$("mat", "dest")
  ).

(* mat4.h:708-716 *)
Definition avx_glm_mat4_inv_fast : fundef := Fun
  [("mat", None); ("dest", None)]
  [] (
    SExp avx_glm_mat4_inv_fast_sse2$("mat", "dest")
  ).

(* mat4.h:727-732 *)
Definition avx_glm_mat4_swap_col : fundef := Fun
  [("mat", None); ("col1", None); ("col2", None)]
  [("tmp", Some 4%nat)] (
    SExp avx_glm_vec4_copy$((EIx "mat" 4 "col1"), "tmp") ;;
    SExp avx_glm_vec4_copy$((EIx "mat" 4 "col2"), (EIx "mat" 4 "col1")) ;;
    SExp avx_glm_vec4_copy$("tmp", (EIx "mat" 4 "col2"))
  ).

(* mat4.h:777-781 *)
Definition avx_glm_mat4_rmc : fundef := Fun
  [("r", None); ("m", None); ("c", None)]
  [("tmp", Some 4%nat)] (
    SExp avx_glm_mat4_mulv$("m", "c", "tmp") ;;
    SRet avx_glm_vec4_dot$("r", "tmp")
  ).

(* mat4.h:815-829 *)
Definition avx_glm_mat4_textrans : fundef := Fun
  [("sx", None); ("sy", None); ("rot", None); ("tx", None); ("ty", None); ("dest", None)]
  [("c", None); ("s", None)] (
    "c" <~ builtin (PF1 OCos)$("rot") ;;
    "s" <~ builtin (PF1 OSin)$("rot") ;;
    SExp avx_glm_mat4_identity$("dest") ;;
    "dest".[0:4].[0] ::= ("c" * "sx") ;;
    "dest".[0:4].[1] ::= ((- "s") * "sy") ;;
    "dest".[1:4].[0] ::= ("s" * "sx") ;;
    "dest".[1:4].[1] ::= ("c" * "sy") ;;
    "dest".[3:4].[0] ::= "tx" ;;
    "dest".[3:4].[1] ::= "ty"
  ).

(* simd/sse2/mat3.h:17-73 *)
Definition avx_glm_mat3_mul_sse2 : fundef := Fun
  [("m1", None); ("m2", None); ("dest", None)]
  [("l0", None); ("l1", None); ("l2", None); ("r0", None); ("r1", None); ("r2", None); ("x0", None); ("x1", None); ("x2", None); ("x3", None); ("x4", None); ("x5", None); ("x6", None); ("x7", None); ("x8", None); ("x9", None)] (
    "l0" <~ (EVLd 4 "m1".[0:3]) ;;
    "l1" <~ (EVLd 4 "m1".[1:3].[1]) ;;
    "r0" <~ (EVLd 4 "m2".[0:3]) ;;
    "r1" <~ (EVLd 4 "m2".[1:3].[1]) ;;
    "x8" <~ builtin (PVperm [(0, 0)%nat; (0, 1)%nat; (0, 2)%nat; (0, 0)%nat])$("l0") ;;
    "x1" <~ builtin (PVperm [(0, 0)%nat; (0, 0)%nat; (0, 0)%nat; (0, 3)%nat])$("r0") ;;
    "x2" <~ builtin (PVperm [(0, 3)%nat; (0, 3)%nat; (1, 0)%nat; (1, 1)%nat])$("l0", "l1") ;;
    "x3" <~ builtin (PVperm [(0, 1)%nat; (0, 3)%nat; (1, 0)%nat; (1, 2)%nat])$("r0", "r1") ;;
    "x0" <~ builtin (PV2 OMul)$("x8", "x1") ;;
    "x6" <~ builtin (PVperm [(0, 1)%nat; (0, 2)%nat; (0, 0)%nat; (0, 1)%nat])$("l0") ;;
    "x7" <~ builtin (PVperm [(0, 1)%nat; (0, 1)%nat; (0, 3)%nat; (0, 3)%nat])$("x3") ;;
    "l2" <~ builtin (PVperm [(0, 0)%nat; (1, 0)%nat; (1, 0)%nat; (1, 0)%nat])$((EVLd 1 "m1".[2:3].[2]), builtin (PVsplat 1)$((EF 0 1))) ;;
    "r2" <~ builtin (PVperm [(0, 0)%nat; (1, 0)%nat; (1, 0)%nat; (1, 0)%nat])$((EVLd 1 "m2".[2:3].[2]), builtin (PVsplat 1)$((EF 0 1))) ;;
    "x1" <~ builtin (PV2 OMul)$("x6", "x7") ;;
    "l2" <~ builtin (PVperm [(0, 0)%nat; (0, 1)%nat; (0, 0)%nat; (0, 0)%nat])$("l2") ;;
    "r2" <~ builtin (PVperm [(0, 0)%nat; (0, 1)%nat; (0, 0)%nat; (0, 0)%nat])$("r2") ;;
    "x4" <~ builtin (PVperm [(0, 0)%nat; (0, 2)%nat; (0, 3)%nat; (0, 0)%nat])$("x2") ;;
    "x5" <~ builtin (PVperm [(0, 2)%nat; (0, 3)%nat; (0, 0)%nat; (0, 2)%nat])$("x2") ;;
    "x6" <~ builtin (PVperm [(0, 0)%nat; (0, 0)%nat; (0, 0)%nat; (0, 2)%nat])$("x3") ;;
    "x2" <~ builtin (PVperm [(0, 0)%nat; (0, 0)%nat; (0, 3)%nat; (0, 3)%nat])$("r1") ;;
    "x8" <~ builtin (PVperm [(0, 2)%nat; (1, 2)%nat; (0, 3)%nat; (1, 3)%nat])$("x8", "x4") ;;
    "x9" <~ builtin (PVperm [(0, 2)%nat; (1, 2)%nat; (0, 3)%nat; (1, 3)%nat])$("x7", "x2") ;;
    "x0" <~ avx_glmm_fmadd$("x4", "x6", "x0") ;;
    "x1" <~ avx_glmm_fmadd$("x5", "x2", "x1") ;;
    "x2" <~ builtin (PVperm [(1, 2)%nat; (1, 3)%nat; (0, 2)%nat; (0, 3)%nat])$("l2", "l1") ;;
    "x3" <~ builtin (PVperm [(0, 0)%nat; (0, 1)%nat; (0, 2)%nat; (0, 0)%nat])$("x2") ;;
    "x2" <~ builtin (PVperm [(0, 1)%nat; (0, 2)%nat; (0, 0)%nat; (0, 1)%nat])$("x2") ;;
    "x4" <~ builtin (PVperm [(0, 2)%nat; (0, 2)%nat; (1, 1)%nat; (1, 1)%nat])$("r0", "r1") ;;
    "x5" <~ builtin (PVperm [(0, 0)%nat; (0, 0)%nat; (0, 0)%nat; (0, 3)%nat])$("x4") ;;
    "x4" <~ builtin (PVperm [(1, 2)%nat; (1, 3)%nat; (0, 2)%nat; (0, 3)%nat])$("r2", "x4") ;;
    "x0" <~ avx_glmm_fmadd$("x3", "x5", "x0") ;;
    "x1" <~ avx_glmm_fmadd$("x2", "x4", "x1") ;;
    "x2" <~ builtin (PVperm [(0, 0)%nat; (0, 1)%nat; (1, 0)%nat; (1, 1)%nat])$("x8", "l2") ;;
    "x3" <~ builtin (PVperm [(0, 0)%nat; (0, 1)%nat; (1, 0)%nat; (1, 1)%nat])$("x9", "r2") ;;
    "x2" <~ avx_glmm_vdots$("x2", "x3") ;;
    SVSt 4 "dest".[0:3].[0] "x0" ;;
    SVSt 4 "dest".[1:3].[1] "x1" ;;
    SVSt 1 "dest".[2:3].[2] "x2"
  ).

(* mat3.h:156-180 *)
Definition avx_glm_mat3_mul : fundef := Fun
  [("m1", None); ("m2", None); ("dest", None)]
  [] (
    SExp avx_glm_mat3_mul_sse2$("m1", "m2", "dest")
  ).

(* simd/sse2/mat2.h:17-37 *)
Definition avx_glm_mat2_mul_sse2 : fundef := Fun
  [("m1", None); ("m2", None); ("dest", None)]
  [("x0", None); ("x1", None); ("x2", None); ("x3", None); ("x4", None)] (
    "x1" <~ (EVLd 4 "m1".[0:2]) ;;
    "x2" <~ (EVLd 4 "m2".[0:2]) ;;
    "x3" <~ builtin (PVperm [(0, 0)%nat; (0, 0)%nat; (0, 2)%nat; (0, 2)%nat])$("x2") ;;
    "x4" <~ builtin (PVperm [(0, 1)%nat; (0, 1)%nat; (0, 3)%nat; (0, 3)%nat])$("x2") ;;
    "x0" <~ builtin (PVperm [(0, 0)%nat; (0, 1)%nat; (1, 0)%nat; (1, 1)%nat])$("x1", "x1") ;;
    "x2" <~ builtin (PVperm [(1, 2)%nat; (1, 3)%nat; (0, 2)%nat; (0, 3)%nat])$("x1", "x1") ;;
    "x0" <~ avx_glmm_fmadd$("x0", "x3", builtin (PV2 OMul)$("x2", "x4")) ;;
    SVSt 4 "dest".[0:2] "x0"
  ).

(* simd/sse2/mat2.h:41-45 *)
Definition avx_glm_mat2_transp_sse2 : fundef := Fun
  [("m", None); ("dest", None)]
  [] (
    SVSt 4 "dest".[0:2] builtin (PVperm [(0, 0)%nat; (0, 2)%nat; (0, 1)%nat; (0, 3)%nat])$((EVLd 4 "m".[0:2]))
  ).

(* mat2.h:154-172 *)
Definition avx_glm_mat2_mul : fundef := Fun
  [("m1", None); ("m2", None); ("dest", None)]
  [] (
    SExp avx_glm_mat2_mul_sse2$("m1", "m2", "dest")
  ).

(* mat2.h:196-207 *)
Definition avx_glm_mat2_transpose_to : fundef := Fun
  [("mat", None); ("dest", None)]
  [] (
    SExp avx_glm_mat2_transp_sse2$("mat", "dest")
  ).

(* mat2.h:231-245 *)
Definition avx_glm_mat2_scale : fundef := Fun
  [("m", None); ("s", None)]
  [] (
    SVSt 4 "m".[0:2] builtin (PV2 OMul)$((EVLd 4 "m".[0:2]), builtin (PVsplat 4)$("s"))
  ).

(* simd/sse2/affine.h:17-51 *)
Definition avx_glm_mul_sse2 : fundef := Fun
  [("m1", None); ("m2", None); ("dest", None)]
  [("l", None); ("r0", None); ("r1", None); ("r2", None); ("r3", None); ("v0", None); ("v1", None); ("v2", None); ("v3", None)] (
    "l" <~ (EVLd 4 "m1".[0:4]) ;;
    "r0" <~ (EVLd 4 "m2".[0:4]) ;;
    "r1" <~ (EVLd 4 "m2".[1:4]) ;;
    "r2" <~ (EVLd 4 "m2".[2:4]) ;;
    "r3" <~ (EVLd 4 "m2".[3:4]) ;;
    "v0" <~ builtin (PV2 OMul)$(builtin (PVperm [(0, 0)%nat; (0, 0)%nat; (0, 0)%nat; (0, 0)%nat])$("r0"), "l") ;;
    "v1" <~ builtin (PV2 OMul)$(builtin (PVperm [(0, 0)%nat; (0, 0)%nat; (0, 0)%nat; (0, 0)%nat])$("r1"), "l") ;;
    "v2" <~ builtin (PV2 OMul)$(builtin (PVperm [(0, 0)%nat; (0, 0)%nat; (0, 0)%nat; (0, 0)%nat])$("r2"), "l") ;;
    "v3" <~ builtin (PV2 OMul)$(builtin (PVperm [(0, 0)%nat; (0, 0)%nat; (0, 0)%nat; (0, 0)%nat])$("r3"), "l") ;;
    "l" <~ (EVLd 4 "m1".[1:4]) ;;
    "v0" <~ avx_glmm_fmadd$(builtin (PVperm [(0, 1)%nat; (0, 1)%nat; (0, 1)%nat; (0, 1)%nat])$("r0"), "l", "v0") ;;
    "v1" <~ avx_glmm_fmadd$(builtin (PVperm [(0, 1)%nat; (0, 1)%nat; (0, 1)%nat; (0, 1)%nat])$("r1"), "l", "v1") ;;
    "v2" <~ avx_glmm_fmadd$(builtin (PVperm [(0, 1)%nat; (0, 1)%nat; (0, 1)%nat; (0, 1)%nat])$("r2"), "l", "v2") ;;
    "v3" <~ avx_glmm_fmadd$(builtin (PVperm [(0, 1)%nat; (0, 1)%nat; (0, 1)%nat; (0, 1)%nat])$("r3"), "l", "v3") ;;
    "l" <~ (EVLd 4 "m1".[2:4]) ;;
    "v0" <~ avx_glmm_fmadd$(builtin (PVperm [(0, 2)%nat; (0, 2)%nat; (0, 2)%nat; (0, 2)%nat])$("r0"), "l", "v0") ;;
    "v1" <~ avx_glmm_fmadd$(builtin (PVperm [(0, 2)%nat; (0, 2)%nat; (0, 2)%nat; (0, 2)%nat])$("r1"), "l", "v1") ;;
    "v2" <~ avx_glmm_fmadd$(builtin (PVperm [(0, 2)%nat; (0, 2)%nat; (0, 2)%nat; (0, 2)%nat])$("r2"), "l", "v2") ;;
    "v3" <~ avx_glmm_fmadd$(builtin (PVperm [(0, 2)%nat; (0, 2)%nat; (0, 2)%nat; (0, 2)%nat])$("r3"), "l", "v3") ;;
    "l" <~ (EVLd 4 "m1".[3:4]) ;;
    "v3" <~ avx_glmm_fmadd$(builtin (PVperm [(0, 3)%nat; (0, 3)%nat; (0, 3)%nat; (0, 3)%nat])$("r3"), "l", "v3") ;;
    SVSt 4 "dest".[0:4] "v0" ;;
    SVSt 4 "dest".[1:4] "v1" ;;
    SVSt 4 "dest".[2:4] "v2" ;;
    SVSt 4 "dest".[3:4] "v3"
  ).

(* simd/sse2/affine.h:55-83 *)
Definition avx_glm_mul_rot_sse2 : fundef := Fun
  [("m1", None); ("m2", None); ("dest", None)]
  [("l", None); ("r0", None); ("r1", None); ("r2", None); ("v0", None); ("v1", None); ("v2", None)] (
    "l" <~ (EVLd 4 "m1".[0:4]) ;;
    "r0" <~ (EVLd 4 "m2".[0:4]) ;;
    "r1" <~ (EVLd 4 "m2".[1:4]) ;;
    "r2" <~ (EVLd 4 "m2".[2:4]) ;;
    "v0" <~ builtin (PV2 OMul)$(builtin (PVperm [(0, 0)%nat; (0, 0)%nat; (0, 0)%nat; (0, 0)%nat])$("r0"), "l") ;;
    "v1" <~ builtin (PV2 OMul)$(builtin (PVperm [(0, 0)%nat; (0, 0)%nat; (0, 0)%nat; (0, 0)%nat])$("r1"), "l") ;;
    "v2" <~ builtin (PV2 OMul)$(builtin (PVperm [(0, 0)%nat; (0, 0)%nat; (0, 0)%nat; (0, 0)%nat])$("r2"), "l") ;;
    "l" <~ (EVLd 4 "m1".[1:4]) ;;
    "v0" <~ avx_glmm_fmadd$(builtin (PVperm [(0, 1)%nat; (0, 1)%nat; (0, 1)%nat; (0, 1)%nat])$("r0"), "l", "v0") ;;
    "v1" <~ avx_glmm_fmadd$(builtin (PVperm [(0, 1)%nat; (0, 1)%nat; (0, 1)%nat; (0, 1)%nat])$("r1"), "l", "v1") ;;
    "v2" <~ avx_glmm_fmadd$(builtin (PVperm [(0, 1)%nat; (0, 1)%nat; (0, 1)%nat; (0, 1)%nat])$("r2"), "l", "v2") ;;
    "l" <~ (EVLd 4 "m1".[2:4]) ;;
    "v0" <~ avx_glmm_fmadd$(builtin (PVperm [(0, 2)%nat; (0, 2)%nat; (0, 2)%nat; (0, 2)%nat])$("r0"), "l", "v0") ;;
    "v1" <~ avx_glmm_fmadd$(builtin (PVperm [(0, 2)%nat; (0, 2)%nat; (0, 2)%nat; (0, 2)%nat])$("r1"), "l", "v1") ;;
    "v2" <~ avx_glmm_fmadd$(builtin (PVperm [(0, 2)%nat; (0, 2)%nat; (0, 2)%nat; (0, 2)%nat])$("r2"), "l", "v2") ;;
    SVSt 4 "dest".[0:4] "v0" ;;
    SVSt 4 "dest".[1:4] "v1" ;;
    SVSt 4 "dest".[2:4] "v2" ;;
    SVSt 4 "dest".[3:4] (EVLd 4 "m1".[3:4])
  ).

(* simd/sse2/affine.h:87-112 *)
Definition avx_glm_inv_tr_sse2 : fundef := Fun
  [("mat", None)]
  [("r0", None); ("r1", None); ("r2", None); ("r3", None); ("x0", None); ("x1", None); ("x2", None); ("x3", None); ("x4", None); ("x5", None); ("tmp1", None); ("tmp2", None); ("tmp3", None); ("tmp4", None)] (
    "r0" <~ (EVLd 4 "mat".[0:4]) ;;
    "r1" <~ (EVLd 4 "mat".[1:4]) ;;
    "r2" <~ (EVLd 4 "mat".[2:4]) ;;
    "r3" <~ (EVLd 4 "mat".[3:4]) ;;
    "x1" <~ builtin PVmk$((EF 0 1), (EF 0 1), (EF 0 1), (EF 1 1)) ;;
    "tmp1" <~ builtin (PVperm [(0, 0)%nat; (1, 0)%nat; (2, 0)%nat; (3, 0)%nat])$("r0", "r1", "r2", "x1") ;;
    "tmp2" <~ builtin (PVperm [(0, 1)%nat; (1, 1)%nat; (2, 1)%nat; (3, 1)%nat])$("r0", "r1", "r2", "x1") ;;
    "tmp3" <~ builtin (PVperm [(0, 2)%nat; (1, 2)%nat; (2, 2)%nat; (3, 2)%nat])$("r0", "r1", "r2", "x1") ;;
    "tmp4" <~ builtin (PVperm [(0, 3)%nat; (1, 3)%nat; (2, 3)%nat; (3, 3)%nat])$("r0", "r1", "r2", "x1") ;;
    "r0" <~ "tmp1" ;;
    "r1" <~ "tmp2" ;;
    "r2" <~ "tmp3" ;;
    "x1" <~ "tmp4" ;;
    "x2" <~ builtin (PVperm [(0, 0)%nat; (0, 0)%nat; (0, 0)%nat; (0, 0)%nat])$("r3") ;;
    "x3" <~ builtin (PVperm [(0, 1)%nat; (0, 1)%nat; (0, 1)%nat; (0, 1)%nat])$("r3") ;;
    "x4" <~ builtin (PVperm [(0, 2)%nat; (0, 2)%nat; (0, 2)%nat; (0, 2)%nat])$("r3") ;;
    "x5" <~ builtin (PVsigns [true; true; true; true])$() ;;
    "x0" <~ avx_glmm_fmadd$("r0", "x2", avx_glmm_fmadd$("r1", "x3", builtin (PV2 OMul)$("r2", "x4"))) ;;
    "x0" <~ builtin PVxor$("x0", "x5") ;;
    "x0" <~ builtin (PV2 OAdd)$("x0", "x1") ;;
    SVSt 4 "mat".[0:4] "r0" ;;
    SVSt 4 "mat".[1:4] "r1" ;;
    SVSt 4 "mat".[2:4] "r2" ;;
    SVSt 4 "mat".[3:4] "x0"
  ).

(* simd/avx/affine.h:19-63 *)
Definition avx_glm_mul_avx : fundef := Fun
  [("m1", None); ("m2", None); ("dest", None)]
  [("y0", None); ("y1", None); ("y2", None); ("y3", None); ("y4", None); ("y5", None); ("y6", None); ("y7", None); ("y8", None); ("y9", None)] (
    "y0" <~ (EVLd 8 "m2".[0:4]) ;;
    "y1" <~ (EVLd 8 "m2".[2:4]) ;;
    "y2" <~ (EVLd 8 "m1".[0:4]) ;;
    "y3" <~ (EVLd 8 "m1".[2:4]) ;;
    "y4" <~ builtin (PVperm [(1, 4)%nat; (1, 5)%nat; (1, 6)%nat; (1, 7)%nat; (0, 0)%nat; (0, 1)%nat; (0, 2)%nat; (0, 3)%nat])$("y2", "y2") ;;
    "y5" <~ builtin (PVperm [(1, 4)%nat; (1, 5)%nat; (1, 6)%nat; (1, 7)%nat; (0, 0)%nat; (0, 1)%nat; (0, 2)%nat; (0, 3)%nat])$("y3", "y3") ;;
    "y6" <~ builtin (PVperm [(0, 0)%nat; (0, 0)%nat; (0, 0)%nat; (0, 0)%nat; (0, 5)%nat; (0, 5)%nat; (0, 5)%nat; (0, 5)%nat])$("y0") ;;
    "y7" <~ builtin (PVperm [(0, 2)%nat; (0, 2)%nat; (0, 2)%nat; (0, 2)%nat; (0, 7)%nat; (0, 7)%nat; (0, 7)%nat; (0, 7)%nat])$("y0") ;;
    "y8" <~ builtin (PVperm [(0, 1)%nat; (0, 1)%nat; (0, 1)%nat; (0, 1)%nat; (0, 4)%nat; (0, 4)%nat; (0, 4)%nat; (0, 4)%nat])$("y0") ;;
    "y9" <~ builtin (PVperm [(0, 3)%nat; (0, 3)%nat; (0, 3)%nat; (0, 3)%nat; (0, 6)%nat; (0, 6)%nat; (0, 6)%nat; (0, 6)%nat])$("y0") ;;
    SVSt 8 "dest".[0:4] builtin (PV2 OAdd)$(builtin (PV2 OAdd)$(builtin (PV2 OMul)$("y2", "y6"), builtin (PV2 OMul)$("y3", "y7")), builtin (PV2 OAdd)$(builtin (PV2 OMul)$("y4", "y8"), builtin (PV2 OMul)$("y5", "y9"))) ;;
    "y6" <~ builtin (PVperm [(0, 0)%nat; (0, 0)%nat; (0, 0)%nat; (0, 0)%nat; (0, 5)%nat; (0, 5)%nat; (0, 5)%nat; (0, 5)%nat])$("y1") ;;
    "y7" <~ builtin (PVperm [(0, 2)%nat; (0, 2)%nat; (0, 2)%nat; (0, 2)%nat; (0, 7)%nat; (0, 7)%nat; (0, 7)%nat; (0, 7)%nat])$("y1") ;;
    "y8" <~ builtin (PVperm [(0, 1)%nat; (0, 1)%nat; (0, 1)%nat; (0, 1)%nat; (0, 4)%nat; (0, 4)%nat; (0, 4)%nat; (0, 4)%nat])$("y1") ;;
    "y9" <~ builtin (PVperm [(0, 3)%nat; (0, 3)%nat; (0, 3)%nat; (0, 3)%nat; (0, 6)%nat; (0, 6)%nat; (0, 6)%nat; (0, 6)%nat])$("y1") ;;
    SVSt 8 "dest".[2:4] builtin (PV2 OAdd)$(builtin (PV2 OAdd)$(builtin (PV2 OMul)$("y2", "y6"), builtin (PV2 OMul)$("y3", "y7")), builtin (PV2 OAdd)$(builtin (PV2 OMul)$("y4", "y8"), builtin (PV2 OMul)$("y5", "y9")))
  ).

(* affine-mat.h:56-96 *)
Definition avx_glm_mul : fundef := Fun
  [("m1", None); ("m2", None); ("dest", None)]
  [] (
    SExp avx_glm_mul_avx$("m1", "m2", "dest")
  ).

(* affine-mat.h:116-153 *)
Definition avx_glm_mul_rot : fundef := Fun
  [("m1", None); ("m2", None); ("dest", None)]
  [] (
    SExp avx_glm_mul_rot_sse2$("m1", "m2", "dest")
  ).

(* affine-mat.h:167-187 *)
Definition avx_glm_inv_tr : fundef := Fun
  [("mat", None)]
  [] (
    SExp avx_glm_inv_tr_sse2$("mat")
  ).

(* affine.h:52-55 *)
Definition avx_glm_translate_make : fundef := Fun
  [("m", None); ("v", None)]
  [] (
    SExp avx_glm_mat4_identity$("m") ;;
    SExp glm_vec3_copy$("v", "m".[3:4])
  ).

(* affine.h:67-73 *)
Definition avx_glm_scale_to : fundef := Fun
  [("m", None); ("v", None); ("dest", None)]
  [] (
    SExp avx_glm_vec4_scale$("m".[0:4], !"v".[0], "dest".[0:4]) ;;
    SExp avx_glm_vec4_scale$("m".[1:4], !"v".[1], "dest".[1:4]) ;;
    SExp avx_glm_vec4_scale$("m".[2:4], !"v".[2], "dest".[2:4]) ;;
    SExp avx_glm_vec4_copy$("m".[3:4], "dest".[3:4])
  ).

(* affine.h:83-88 *)
Definition avx_glm_scale_make : fundef := Fun
  [("m", None); ("v", None)]
  [] (
    SExp avx_glm_mat4_identity$("m") ;;
    "m".[0:4].[0] ::= !"v".[0] ;;
    "m".[1:4].[1] ::= !"v".[1] ;;
    "m".[2:4].[2] ::= !"v".[2]
  ).

(* affine.h:99-101 *)
Definition avx_glm_scale : fundef := Fun
  [("m", None); ("v", None)]
  [] (
    SExp avx_glm_scale_to$("m", "v", "m")
  ).

(* affine.h:112-115 *)
Definition avx_glm_scale_uni : fundef := Fun
  [("m", None); ("s", None)]
  [("v", Some 3%nat)] (
    "v".[0] ::= "s" ;;
    "v".[1] ::= "s" ;;
    "v".[2] ::= "s" ;;
    SExp avx_glm_scale_to$("m", "v", "m")
  ).

(* affine.h:190-217 *)
Definition avx_glm_decompose_rs : fundef := Fun
  [("m", None); ("r", None); ("s", None)]
  [("t", Some 4%nat); ("v", Some 3%nat)] (
    "t".[0] ::= (EF 0 1) ;;
    "t".[1] ::= (EF 0 1) ;;
    "t".[2] ::= (EF 0 1) ;;
    "t".[3] ::= (EF 1 1) ;;
    SExp avx_glm_vec4_copy$("m".[0:4], "r".[0:4]) ;;
    SExp avx_glm_vec4_copy$("m".[1:4], "r".[1:4]) ;;
    SExp avx_glm_vec4_copy$("m".[2:4], "r".[2:4]) ;;
    SExp avx_glm_vec4_copy$("t", "r".[3:4]) ;;
    "s".[0] ::= glm_vec3_norm$("m".[0:4]) ;;
    "s".[1] ::= glm_vec3_norm$("m".[1:4]) ;;
    "s".[2] ::= glm_vec3_norm$("m".[2:4]) ;;
    SExp avx_glm_vec4_scale$("r".[0:4], ((EF 1 1) / !"s".[0]), "r".[0:4]) ;;
    SExp avx_glm_vec4_scale$("r".[1:4], ((EF 1 1) / !"s".[1]), "r".[1:4]) ;;
    SExp avx_glm_vec4_scale$("r".[2:4], ((EF 1 1) / !"s".[2]), "r".[2:4]) ;;
    SExp glm_vec3_cross$("m".[0:4], "m".[1:4], "v") ;;
    (SIf (glm_vec3_dot$("v", "m".[2:4]) < (EF 0 1)) (
      SExp avx_glm_vec4_negate$("r".[0:4]) ;;
      SExp avx_glm_vec4_negate$("r".[1:4]) ;;
      SExp avx_glm_vec4_negate$("r".[2:4]) ;;
      SExp glm_vec3_negate$("s")
    ) (
      SSkip
    ))
  ).

(* affine.h:230-233 *)
Definition avx_glm_decompose : fundef := Fun
  [("m", None); ("t", None); ("r", None); ("s", None)]
  [] (
    SExp avx_glm_vec4_copy$("m".[3:4], "t") ;;
    SExp avx_glm_decompose_rs$("m", "r", "s")
  ).

(* affine-pre.h:43-61 *)
Definition avx_glm_translate : fundef := Fun
  [("m", None); ("v", None)]
  [("m0", None); ("m1", None); ("m2", None); ("m3", None)] (
    "m0" <~ (EVLd 4 "m".[0:4]) ;;
    "m1" <~ (EVLd 4 "m".[1:4]) ;;
    "m2" <~ (EVLd 4 "m".[2:4]) ;;
    "m3" <~ (EVLd 4 "m".[3:4]) ;;
    SVSt 4 "m".[3:4] avx_glmm_fmadd$("m0", builtin (PVsplat 4)$(!"v".[0]), avx_glmm_fmadd$("m1", builtin (PVsplat 4)$(!"v".[1]), avx_glmm_fmadd$("m2", builtin (PVsplat 4)$(!"v".[2]), "m3")))
  ).

(* affine-pre.h:75-78 *)
Definition avx_glm_translate_to : fundef := Fun
  [("m", None); ("v", None); ("dest", None)]
  [] (
    SExp avx_glm_mat4_copy$("m", "dest") ;;
    SExp avx_glm_translate$("dest", "v")
  ).

(* affine-pre.h:88-96 *)
Definition avx_glm_translate_x : fundef := Fun
  [("m", None); ("x", None)]
  [] (
    SVSt 4 "m".[3:4] avx_glmm_fmadd$((EVLd 4 "m".[0:4]), builtin (PVsplat 4)$("x"), (EVLd 4 "m".[3:4]))
  ).

(* affine-pre.h:106-114 *)
Definition avx_glm_translate_y : fundef := Fun
  [("m", None); ("y", None)]
  [] (
    SVSt 4 "m".[3:4] avx_glmm_fmadd$((EVLd 4 "m".[1:4]), builtin (PVsplat 4)$("y"), (EVLd 4 "m".[3:4]))
  ).

(* affine-pre.h:124-132 *)
Definition avx_glm_translate_z : fundef := Fun
  [("m", None); ("z", None)]
  [] (
    SVSt 4 "m".[3:4] avx_glmm_fmadd$((EVLd 4 "m".[2:4]), builtin (PVsplat 4)$("z"), (EVLd 4 "m".[3:4]))
  ).

(* affine-pre.h:144-157 *)
Definition avx_glm_rotate_x : fundef := Fun
  [("m", None); ("angle", None); ("dest", None)]
  [("t", Some 16%nat); ("c", None); ("s", None)] (
    "t".[0:4].[0] ::= (EF 1 1) ;;
    "t".[0:4].[1] ::= (EF 0 1) ;;
    "t".[0:4].[2] ::= (EF 0 1) ;;
    "t".[0:4].[3] ::= (EF 0 1) ;;
    "t".[1:4].[0] ::= (EF 0 1) ;;
    "t".[1:4].[1] ::= (EF 1 1) ;;
    "t".[1:4].[2] ::= (EF 0 1) ;;
    "t".[1:4].[3] ::= (EF 0 1) ;;
    "t".[2:4].[0] ::= (EF 0 1) ;;
    "t".[2:4].[1] ::= (EF 0 1) ;;
    "t".[2:4].[2] ::= (EF 1 1) ;;
    "t".[2:4].[3] ::= (EF 0 1) ;;
    "t".[3:4].[0] ::= (EF 0 1) ;;
    "t".[3:4].[1] ::= (EF 0 1) ;;
    "t".[3:4].[2] ::= (EF 0 1) ;;
    "t".[3:4].[3] ::= (EF 1 1) ;;
    "c" <~ builtin (PF1 OCos)$("angle") ;;
    "s" <~ builtin (PF1 OSin)$("angle") ;;
    "t".[1:4].[1] ::= "c" ;;
    "t".[1:4].[2] ::= "s" ;;
    "t".[2:4].[1] ::= (- "s") ;;
    "t".[2:4].[2] ::= "c" ;;
    SExp avx_glm_mul_rot$("m", "t", "dest")
  ).

(* affine-pre.h:169-182 *)
Definition avx_glm_rotate_y : fundef := Fun
  [("m", None); ("angle", None); ("dest", None)]
  [("t", Some 16%nat); ("c", None); ("s", None)] (
    "t".[0:4].[0] ::= (EF 1 1) ;;
    "t".[0:4].[1] ::= (EF 0 1) ;;
    "t".[0:4].[2] ::= (EF 0 1) ;;
    "t".[0:4].[3] ::= (EF 0 1) ;;
    "t".[1:4].[0] ::= (EF 0 1) ;;
    "t".[1:4].[1] ::= (EF 1 1) ;;
    "t".[1:4].[2] ::= (EF 0 1) ;;
    "t".[1:4].[3] ::= (EF 0 1) ;;
    "t".[2:4].[0] ::= (EF 0 1) ;;
    "t".[2:4].[1] ::= (EF 0 1) ;;
    "t".[2:4].[2] ::= (EF 1 1) ;;
    "t".[2:4].[3] ::= (EF 0 1) ;;
    "t".[3:4].[0] ::= (EF 0 1) ;;
    "t".[3:4].[1] ::= (EF 0 1) ;;
    "t".[3:4].[2] ::= (EF 0 1) ;;
    "t".[3:4].[3] ::= (EF 1 1) ;;
    "c" <~ builtin (PF1 OCos)$("angle") ;;
    "s" <~ builtin (PF1 OSin)$("angle") ;;
    "t".[0:4].[0] ::= "c" ;;
    "t".[0:4].[2] ::= (- "s") ;;
    "t".[2:4].[0] ::= "s" ;;
    "t".[2:4].[2] ::= "c" ;;
    SExp avx_glm_mul_rot$("m", "t", "dest")
  ).

(* affine-pre.h:194-207 *)
Definition avx_glm_rotate_z : fundef := Fun
  [("m", None); ("angle", None); ("dest", None)]
  [("t", Some 16%nat); ("c", None); ("s", None)] (
    "t".[0:4].[0] ::= (EF 1 1) ;;
    "t".[0:4].[1] ::= (EF 0 1) ;;
    "t".[0:4].[2] ::= (EF 0 1) ;;
    "t".[0:4].[3] ::= (EF 0 1) ;;
    "t".[1:4].[0] ::= (EF 0 1) ;;
    "t".[1:4].[1] ::= (EF 1 1) ;;
    "t".[1:4].[2] ::= (EF 0 1) ;;
    "t".[1:4].[3] ::= (EF 0 1) ;;
    "t".[2:4].[0] ::= (EF 0 1) ;;
    "t".[2:4].[1] ::= (EF 0 1) ;;
    "t".[2:4].[2] ::= (EF 1 1) ;;
    "t".[2:4].[3] ::= (EF 0 1) ;;
    "t".[3:4].[0] ::= (EF 0 1) ;;
    "t".[3:4].[1] ::= (EF 0 1) ;;
    "t".[3:4].[2] ::= (EF 0 1) ;;
    "t".[3:4].[3] ::= (EF 1 1) ;;
    "c" <~ builtin (PF1 OCos)$("angle") ;;
    "s" <~ builtin (PF1 OSin)$("angle") ;;
    "t".[0:4].[0] ::= "c" ;;
    "t".[0:4].[1] ::= "s" ;;
    "t".[1:4].[0] ::= (- "s") ;;
    "t".[1:4].[1] ::= "c" ;;
    SExp avx_glm_mul_rot$("m", "t", "dest")
  ).

(* affine-pre.h:236-240 *)
Definition avx_glm_rotate : fundef := Fun
  [("m", None); ("angle", None); ("axis", None)]
  [("rot", Some 16%nat)] (
    SExp glm_rotate_make$("rot", "angle", "axis") ;;
    SExp avx_glm_mul_rot$("m", "rot", "m")
  ).

(* affine-pre.h:253-261 *)
Definition avx_glm_rotate_at : fundef := Fun
  [("m", None); ("pivot", None); ("angle", None); ("axis", None)]
  [("pivotInv", Some 3%nat)] (
    SExp glm_vec3_negate_to$("pivot", "pivotInv") ;;
    SExp avx_glm_translate$("m", "pivot") ;;
    SExp avx_glm_rotate$("m", "angle", "axis") ;;
    SExp avx_glm_translate$("m", "pivotInv")
  ).

(* affine-pre.h:278-286 *)
Definition avx_glm_rotate_atm : fundef := Fun
  [("m", None); ("pivot", None); ("angle", None); ("axis", None)]
  [("pivotInv", Some 3%nat)] (
    SExp glm_vec3_negate_to$("pivot", "pivotInv") ;;
    SExp avx_glm_translate_make$("m", "pivot") ;;
    SExp avx_glm_rotate$("m", "angle", "axis") ;;
    SExp avx_glm_translate$("m", "pivotInv")
  ).

(* affine-pre.h:298-302 *)
Definition avx_glm_spin : fundef := Fun
  [("m", None); ("angle", None); ("axis", None)]
  [("rot", Some 16%nat)] (
    SExp avx_glm_rotate_atm$("rot", "m".[3:4], "angle", "axis") ;;
    SExp avx_glm_mat4_mul$("m", "rot", "m")
  ).

(* affine-post.h:62-65 *)
Definition avx_glm_translated_to : fundef := Fun
  [("m", None); ("v", None); ("dest", None)]
  [] (
    SExp avx_glm_mat4_copy$("m", "dest") ;;
    SExp glm_translated$("dest", "v")
  ).

(* affine-post.h:121-134 *)
Definition avx_glm_rotated_x : fundef := Fun
  [("m", None); ("angle", None); ("dest", None)]
  [("t", Some 16%nat); ("c", None); ("s", None)] (
    "t".[0:4].[0] ::= (EF 1 1) ;;
    "t".[0:4].[1] ::= (EF 0 1) ;;
    "t".[0:4].[2] ::= (EF 0 1) ;;
    "t".[0:4].[3] ::= (EF 0 1) ;;
    "t".[1:4].[0] ::= (EF 0 1) ;;
    "t".[1:4].[1] ::= (EF 1 1) ;;
    "t".[1:4].[2] ::= (EF 0 1) ;;
    "t".[1:4].[3] ::= (EF 0 1) ;;
    "t".[2:4].[0] ::= (EF 0 1) ;;
    "t".[2:4].[1] ::= (EF 0 1) ;;
    "t".[2:4].[2] ::= (EF 1 1) ;;
    "t".[2:4].[3] ::= (EF 0 1) ;;
    "t".[3:4].[0] ::= (EF 0 1) ;;
    "t".[3:4].[1] ::= (EF 0 1) ;;
    "t".[3:4].[2] ::= (EF 0 1) ;;
    "t".[3:4].[3] ::= (EF 1 1) ;;
    "c" <~ builtin (PF1 OCos)$("angle") ;;
    "s" <~ builtin (PF1 OSin)$("angle") ;;
    "t".[1:4].[1] ::= "c" ;;
    "t".[1:4].[2] ::= "s" ;;
    "t".[2:4].[1] ::= (- "s") ;;
    "t".[2:4].[2] ::= "c" ;;
    SExp avx_glm_mul_rot$("t", "m", "dest")
  ).

(* affine-post.h:148-161 *)
Definition avx_glm_rotated_y : fundef := Fun
  [("m", None); ("angle", None); ("dest", None)]
  [("t", Some 16%nat); ("c", None); ("s", None)] (
    "t".[0:4].[0] ::= (EF 1 1) ;;
    "t".[0:4].[1] ::= (EF 0 1) ;;
    "t".[0:4].[2] ::= (EF 0 1) ;;
    "t".[0:4].[3] ::= (EF 0 1) ;;
    "t".[1:4].[0] ::= (EF 0 1) ;;
    "t".[1:4].[1] ::= (EF 1 1) ;;
    "t".[1:4].[2] ::= (EF 0 1) ;;
    "t".[1:4].[3] ::= (EF 0 1) ;;
    "t".[2:4].[0] ::= (EF 0 1) ;;
    "t".[2:4].[1] ::= (EF 0 1) ;;
    "t".[2:4].[2] ::= (EF 1 1) ;;
    "t".[2:4].[3] ::= (EF 0 1) ;;
    "t".[3:4].[0] ::= (EF 0 1) ;;
    "t".[3:4].[1] ::= (EF 0 1) ;;
    "t".[3:4].[2] ::= (EF 0 1) ;;
    "t".[3:4].[3] ::= (EF 1 1) ;;
    "c" <~ builtin (PF1 OCos)$("angle") ;;
    "s" <~ builtin (PF1 OSin)$("angle") ;;
    "t".[0:4].[0] ::= "c" ;;
    "t".[0:4].[2] ::= (- "s") ;;
    "t".[2:4].[0] ::= "s" ;;
    "t".[2:4].[2] ::= "c" ;;
    SExp avx_glm_mul_rot$("t", "m", "dest")
  ).

(* affine-post.h:175-188 *)
Definition avx_glm_rotated_z : fundef := Fun
  [("m", None); ("angle", None); ("dest", None)]
  [("t", Some 16%nat); ("c", None); ("s", None)] (
    "t".[0:4].[0] ::= (EF 1 1) ;;
    "t".[0:4].[1] ::= (EF 0 1) ;;
    "t".[0:4].[2] ::= (EF 0 1) ;;
    "t".[0:4].[3] ::= (EF 0 1) ;;
    "t".[1:4].[0] ::= (EF 0 1) ;;
    "t".[1:4].[1] ::= (EF 1 1) ;;
    "t".[1:4].[2] ::= (EF 0 1) ;;
    "t".[1:4].[3] ::= (EF 0 1) ;;
    "t".[2:4].[0] ::= (EF 0 1) ;;
    "t".[2:4].[1] ::= (EF 0 1) ;;
    "t".[2:4].[2] ::= (EF 1 1) ;;
    "t".[2:4].[3] ::= (EF 0 1) ;;
    "t".[3:4].[0] ::= (EF 0 1) ;;
    "t".[3:4].[1] ::= (EF 0 1) ;;
    "t".[3:4].[2] ::= (EF 0 1) ;;
    "t".[3:4].[3] ::= (EF 1 1) ;;
    "c" <~ builtin (PF1 OCos)$("angle") ;;
    "s" <~ builtin (PF1 OSin)$("angle") ;;
    "t".[0:4].[0] ::= "c" ;;
    "t".[0:4].[1] ::= "s" ;;
    "t".[1:4].[0] ::= (- "s") ;;
    "t".[1:4].[1] ::= "c" ;;
    SExp avx_glm_mul_rot$("t", "m", "dest")
  ).

(* affine-post.h:201-205 *)
Definition avx_glm_rotated : fundef := Fun
  [("m", None); ("angle", None); ("axis", None)]
  [("rot", Some 16%nat)] (
    SExp glm_rotate_make$("rot", "angle", "axis") ;;
    SExp avx_glm_mul_rot$("rot", "m", "m")
  ).

(* affine-post.h:220-228 *)
Definition avx_glm_rotated_at : fundef := Fun
  [("m", None); ("pivot", None); ("angle", None); ("axis", None)]
  [("pivotInv", Some 3%nat)] (
    SExp glm_vec3_negate_to$("pivot", "pivotInv") ;;
    SExp glm_translated$("m", "pivot") ;;
    SExp avx_glm_rotated$("m", "angle", "axis") ;;
    SExp glm_translated$("m", "pivotInv")
  ).

(* affine-post.h:241-245 *)
Definition avx_glm_spinned : fundef := Fun
  [("m", None); ("angle", None); ("axis", None)]
  [("rot", Some 16%nat)] (
    SExp avx_glm_rotate_atm$("rot", "m".[3:4], "angle", "axis") ;;
    SExp avx_glm_mat4_mul$("rot", "m", "m")
  ).

(* plane.h:33-42 *)
Definition avx_glm_plane_normalize : fundef := Fun
  [("plane", None)]
  [("norm", None)] (
    "norm" <~ glm_vec3_norm$("plane") ;;
    (SIf ("norm" < (EF 1 8388608)) (
      SExp avx_glm_vec4_zero$("plane") ;;
      SRet0
    ) (
      SSkip
    )) ;;
    SExp avx_glm_vec4_scale$("plane", ((EF 1 1) / "norm"), "plane")
  ).

(* clipspace/ortho_rh_no.h:50-69 *)
Definition avx_glm_ortho_rh_no : fundef := Fun
  [("left", None); ("right", None); ("bottom", None); ("top", None); ("nearZ", None); ("farZ", None); ("dest", None)]
  [("rl", None); ("tb", None); ("fn", None)] (
    SExp avx_glm_mat4_zero$("dest") ;;
    "rl" <~ ((EF 1 1) / ("right" - "left")) ;;
    "tb" <~ ((EF 1 1) / ("top" - "bottom")) ;;
    "fn" <~ ((- (EF 1 1)) / ("farZ" - "nearZ")) ;;
    "dest".[0:4].[0] ::= ((EF 2 1) * "rl") ;;
    "dest".[1:4].[1] ::= ((EF 2 1) * "tb") ;;
    "dest".[2:4].[2] ::= ((EF 2 1) * "fn") ;;
    "dest".[3:4].[0] ::= ((- ("right" + "left")) * "rl") ;;
    "dest".[3:4].[1] ::= ((- ("top" + "bottom")) * "tb") ;;
    "dest".[3:4].[2] ::= (("farZ" + "nearZ") * "fn") ;;
    "dest".[3:4].[3] ::= (EF 1 1)
  ).

(* clipspace/ortho_rh_no.h:83-88 *)
Definition avx_glm_ortho_aabb_rh_no : fundef := Fun
  [("box", None); ("dest", None)]
  [] (
    SExp avx_glm_ortho_rh_no$(!"box".[0:3].[0], !"box".[1:3].[0], !"box".[0:3].[1], !"box".[1:3].[1], (- !"box".[1:3].[2]), (- !"box".[0:3].[2]), "dest")
  ).

(* clipspace/ortho_rh_no.h:103-108 *)
Definition avx_glm_ortho_aabb_p_rh_no : fundef := Fun
  [("box", None); ("padding", None); ("dest", None)]
  [] (
    SExp avx_glm_ortho_rh_no$((!"box".[0:3].[0] - "padding"), (!"box".[1:3].[0] + "padding"), (!"box".[0:3].[1] - "padding"), (!"box".[1:3].[1] + "padding"), (- (!"box".[1:3].[2] + "padding")), (- (!"box".[0:3].[2] - "padding")), "dest")
  ).

(* clipspace/ortho_rh_no.h:123-128 *)
Definition avx_glm_ortho_aabb_pz_rh_no : fundef := Fun
  [("box", None); ("padding", None); ("dest", None)]
  [] (
    SExp avx_glm_ortho_rh_no$(!"box".[0:3].[0], !"box".[1:3].[0], !"box".[0:3].[1], !"box".[1:3].[1], (- (!"box".[1:3].[2] + "padding")), (- (!"box".[0:3].[2] - "padding")), "dest")
  ).

(* clipspace/ortho_rh_no.h:140-149 *)
Definition avx_glm_ortho_default_rh_no : fundef := Fun
  [("aspect", None); ("dest", None)]
  [] (
    (SIf ("aspect" >= (EF 1 1)) (
      SExp avx_glm_ortho_rh_no$((- "aspect"), "aspect", (- (EF 1 1)), (EF 1 1), (- (EF 100 1)), (EF 100 1), "dest") ;;
      SRet0
    ) (
      SSkip
    )) ;;
    "aspect" <~ ((EF 1 1) / "aspect") ;;
    SExp avx_glm_ortho_rh_no$((- (EF 1 1)), (EF 1 1), (- "aspect"), "aspect", (- (EF 100 1)), (EF 100 1), "dest")
  ).

(* clipspace/ortho_rh_no.h:162-181 *)
Definition avx_glm_ortho_default_s_rh_no : fundef := Fun
  [("aspect", None); ("size", None); ("dest", None)]
  [] (
    (SIf ("aspect" >= (EF 1 1)) (
      SExp avx_glm_ortho_rh_no$(((- "size") * "aspect"), ("size" * "aspect"), (- "size"), "size", ((- "size") - (EF 100 1)), ("size" + (EF 100 1)), "dest") ;;
      SRet0
    ) (
      SSkip
    )) ;;
    SExp avx_glm_ortho_rh_no$((- "size"), "size", ((- "size") / "aspect"), ("size" / "aspect"), ((- "size") - (EF 100 1)), ("size" + (EF 100 1)), "dest")
  ).

(* clipspace/persp_rh_no.h:67-87 *)
Definition avx_glm_frustum_rh_no : fundef := Fun
  [("left", None); ("right", None); ("bottom", None); ("top", None); ("nearZ", None); ("farZ", None); ("dest", None)]
  [("rl", None); ("tb", None); ("fn", None); ("nv", None)] (
    SExp avx_glm_mat4_zero$("dest") ;;
    "rl" <~ ((EF 1 1) / ("right" - "left")) ;;
    "tb" <~ ((EF 1 1) / ("top" - "bottom")) ;;
    "fn" <~ ((- (EF 1 1)) / ("farZ" - "nearZ")) ;;
    "nv" <~ ((EF 2 1) * "nearZ") ;;
    "dest".[0:4].[0] ::= ("nv" * "rl") ;;
    "dest".[1:4].[1] ::= ("nv" * "tb") ;;
    "dest".[2:4].[0] ::= (("right" + "left") * "rl") ;;
    "dest".[2:4].[1] ::= (("top" + "bottom") * "tb") ;;
    "dest".[2:4].[2] ::= (("farZ" + "nearZ") * "fn") ;;
    "dest".[2:4].[3] ::= (- (EF 1 1)) ;;
    "dest".[3:4].[2] ::= (("farZ" * "nv") * "fn")
  ).

(* clipspace/persp_rh_no.h:102-120 *)
Definition avx_glm_perspective_rh_no : fundef := Fun
  [("fovy", None); ("aspect", None); ("nearZ", None); ("farZ", None); ("dest", None)]
  [("f", None); ("fn", None)] (
    SExp avx_glm_mat4_zero$("dest") ;;
    "f" <~ ((EF 1 1) / builtin (PF1 OTan)$(("fovy" * (EF 1 2)))) ;;
    "fn" <~ ((EF 1 1) / ("nearZ" - "farZ")) ;;
    "dest".[0:4].[0] ::= ("f" / "aspect") ;;
    "dest".[1:4].[1] ::= "f" ;;
    "dest".[2:4].[2] ::= (("nearZ" + "farZ") * "fn") ;;
    "dest".[2:4].[3] ::= (- (EF 1 1)) ;;
    "dest".[3:4].[2] ::= ((((EF 2 1) * "nearZ") * "farZ") * "fn")
  ).

(* clipspace/persp_rh_no.h:132-134 *)
Definition avx_glm_perspective_default_rh_no : fundef := Fun
  [("aspect", None); ("dest", None)]
  [] (
    SExp avx_glm_perspective_rh_no$((EPi 1 4), "aspect", (EF 1 100), (EF 100 1), "dest")
  ).

(* cam.h:102-115 *)
Definition avx_glm_frustum : fundef := Fun
  [("left", None); ("right", None); ("bottom", None); ("top", None); ("nearZ", None); ("farZ", None); ("dest", None)]
  [] (
    SExp avx_glm_frustum_rh_no$("left", "right", "bottom", "top", "nearZ", "farZ", "dest")
  ).

(* cam.h:130-143 *)
Definition avx_glm_ortho : fundef := Fun
  [("left", None); ("right", None); ("bottom", None); ("top", None); ("nearZ", None); ("farZ", None); ("dest", None)]
  [] (
    SExp avx_glm_ortho_rh_no$("left", "right", "bottom", "top", "nearZ", "farZ", "dest")
  ).

(* cam.h:155-165 *)
Definition avx_glm_ortho_aabb : fundef := Fun
  [("box", None); ("dest", None)]
  [] (
    SExp avx_glm_ortho_aabb_rh_no$("box", "dest")
  ).

(* cam.h:178-188 *)
Definition avx_glm_ortho_aabb_p : fundef := Fun
  [("box", None); ("padding", None); ("dest", None)]
  [] (
    SExp avx_glm_ortho_aabb_p_rh_no$("box", "padding", "dest")
  ).

(* cam.h:201-211 *)
Definition avx_glm_ortho_aabb_pz : fundef := Fun
  [("box", None); ("padding", None); ("dest", None)]
  [] (
    SExp avx_glm_ortho_aabb_pz_rh_no$("box", "padding", "dest")
  ).

(* cam.h:221-231 *)
Definition avx_glm_ortho_default : fundef := Fun
  [("aspect", None); ("dest", None)]
  [] (
    SExp avx_glm_ortho_default_rh_no$("aspect", "dest")
  ).

(* cam.h:242-252 *)
Definition avx_glm_ortho_default_s : fundef := Fun
  [("aspect", None); ("size", None); ("dest", None)]
  [] (
    SExp avx_glm_ortho_default_s_rh_no$("aspect", "size", "dest")
  ).

(* cam.h:265-275 *)
Definition avx_glm_perspective : fundef := Fun
  [("fovy", None); ("aspect", None); ("nearZ", None); ("farZ", None); ("dest", None)]
  [] (
    SExp avx_glm_perspective_rh_no$("fovy", "aspect", "nearZ", "farZ", "dest")
  ).

(* cam.h:308-318 *)
Definition avx_glm_perspective_default : fundef := Fun
  [("aspect", None); ("dest", None)]
  [] (
    SExp avx_glm_perspective_default_rh_no$("aspect", "dest")
  ).

(* frustum.h:72-90 *)
Definition avx_glm_frustum_planes : fundef := Fun
  [("m", None); ("dest", None)]
  [("t", Some 16%nat)] (
    SExp avx_glm_mat4_transpose_to$("m", "t") ;;
    SExp avx_glm_vec4_add$("t".[3:4], "t".[0:4], "dest".[0:4]) ;;
    SExp avx_glm_vec4_sub$("t".[3:4], "t".[0:4], "dest".[1:4]) ;;
    SExp avx_glm_vec4_add$("t".[3:4], "t".[1:4], "dest".[2:4]) ;;
    SExp avx_glm_vec4_sub$("t".[3:4], "t".[1:4], "dest".[3:4]) ;;
    SExp avx_glm_vec4_add$("t".[3:4], "t".[2:4], "dest".[4:4]) ;;
    SExp avx_glm_vec4_sub$("t".[3:4], "t".[2:4], "dest".[5:4]) ;;
    SExp avx_glm_plane_normalize$("dest".[0:4]) ;;
    SExp avx_glm_plane_normalize$("dest".[1:4]) ;;
    SExp avx_glm_plane_normalize$("dest".[2:4]) ;;
    SExp avx_glm_plane_normalize$("dest".[3:4]) ;;
    SExp avx_glm_plane_normalize$("dest".[4:4]) ;;
    SExp avx_glm_plane_normalize$("dest".[5:4])
  ).

(* frustum.h:117-150 *)
Definition avx_glm_frustum_corners : fundef := Fun
  [("invMat", None); ("dest", None)]
  [("c", Some 32%nat); ("csCoords", Some 32%nat)] (
    "csCoords".[0:4].[0] ::= (- (EF 1 1)) ;;
    "csCoords".[0:4].[1] ::= (- (EF 1 1)) ;;
    "csCoords".[0:4].[2] ::= (- (EF 1 1)) ;;
    "csCoords".[0:4].[3] ::= (EF 1 1) ;;
    "csCoords".[1:4].[0] ::= (- (EF 1 1)) ;;
    "csCoords".[1:4].[1] ::= (EF 1 1) ;;
    "csCoords".[1:4].[2] ::= (- (EF 1 1)) ;;
    "csCoords".[1:4].[3] ::= (EF 1 1) ;;
    "csCoords".[2:4].[0] ::= (EF 1 1) ;;
    "csCoords".[2:4].[1] ::= (EF 1 1) ;;
    "csCoords".[2:4].[2] ::= (- (EF 1 1)) ;;
    "csCoords".[2:4].[3] ::= (EF 1 1) ;;
    "csCoords".[3:4].[0] ::= (EF 1 1) ;;
    "csCoords".[3:4].[1] ::= (- (EF 1 1)) ;;
    "csCoords".[3:4].[2] ::= (- (EF 1 1)) ;;
    "csCoords".[3:4].[3] ::= (EF 1 1) ;;
    "csCoords".[4:4].[0] ::= (- (EF 1 1)) ;;
    "csCoords".[4:4].[1] ::= (- (EF 1 1)) ;;
    "csCoords".[4:4].[2] ::= (EF 1 1) ;;
    "csCoords".[4:4].[3] ::= (EF 1 1) ;;
    "csCoords".[5:4].[0] ::= (- (EF 1 1)) ;;
    "csCoords".[5:4].[1] ::= (EF 1 1) ;;
    "csCoords".[5:4].[2] ::= (EF 1 1) ;;
    "csCoords".[5:4].[3] ::= (EF 1 1) ;;
    "csCoords".[6:4].[0] ::= (EF 1 1) ;;
    "csCoords".[6:4].[1] ::= (EF 1 1) ;;
    "csCoords".[6:4].[2] ::= (EF 1 1) ;;
    "csCoords".[6:4].[3] ::= (EF 1 1) ;;
    "csCoords".[7:4].[0] ::= (EF 1 1) ;;
    "csCoords".[7:4].[1] ::= (- (EF 1 1)) ;;
    "csCoords".[7:4].[2] ::= (EF 1 1) ;;
    "csCoords".[7:4].[3] ::= (EF 1 1) ;;
    SExp avx_glm_mat4_mulv$("invMat", "csCoords".[0:4], "c".[0:4]) ;;
    SExp avx_glm_mat4_mulv$("invMat", "csCoords".[1:4], "c".[1:4]) ;;
    SExp avx_glm_mat4_mulv$("invMat", "csCoords".[2:4], "c".[2:4]) ;;
    SExp avx_glm_mat4_mulv$("invMat", "csCoords".[3:4], "c".[3:4]) ;;
    SExp avx_glm_mat4_mulv$("invMat", "csCoords".[4:4], "c".[4:4]) ;;
    SExp avx_glm_mat4_mulv$("invMat", "csCoords".[5:4], "c".[5:4]) ;;
    SExp avx_glm_mat4_mulv$("invMat", "csCoords".[6:4], "c".[6:4]) ;;
    SExp avx_glm_mat4_mulv$("invMat", "csCoords".[7:4], "c".[7:4]) ;;
    SExp avx_glm_vec4_scale$("c".[0:4], ((EF 1 1) / !"c".[0:4].[3]), "dest".[0:4]) ;;
    SExp avx_glm_vec4_scale$("c".[1:4], ((EF 1 1) / !"c".[1:4].[3]), "dest".[1:4]) ;;
    SExp avx_glm_vec4_scale$("c".[2:4], ((EF 1 1) / !"c".[2:4].[3]), "dest".[2:4]) ;;
    SExp avx_glm_vec4_scale$("c".[3:4], ((EF 1 1) / !"c".[3:4].[3]), "dest".[3:4]) ;;
    SExp avx_glm_vec4_scale$("c".[4:4], ((EF 1 1) / !"c".[4:4].[3]), "dest".[4:4]) ;;
    SExp avx_glm_vec4_scale$("c".[5:4], ((EF 1 1) / !"c".[5:4].[3]), "dest".[5:4]) ;;
    SExp avx_glm_vec4_scale$("c".[6:4], ((EF 1 1) / !"c".[6:4].[3]), "dest".[6:4]) ;;
    SExp avx_glm_vec4_scale$("c".[7:4], ((EF 1 1) / !"c".[7:4].[3]), "dest".[7:4])
  ).

(* frustum.h:160-174 *)
Definition avx_glm_frustum_center : fundef := Fun
  [("corners", None); ("dest", None)]
  [("center", Some 4%nat)] (
    SExp avx_glm_vec4_copy$("corners".[0:4], "center") ;;
    SExp avx_glm_vec4_add$("corners".[1:4], "center", "center") ;;
    SExp avx_glm_vec4_add$("corners".[2:4], "center", "center") ;;
    SExp avx_glm_vec4_add$("corners".[3:4], "center", "center") ;;
    SExp avx_glm_vec4_add$("corners".[4:4], "center", "center") ;;
    SExp avx_glm_vec4_add$("corners".[5:4], "center", "center") ;;
    SExp avx_glm_vec4_add$("corners".[6:4], "center", "center") ;;
    SExp avx_glm_vec4_add$("corners".[7:4], "center", "center") ;;
    SExp avx_glm_vec4_scale$("center", (EF 1 8), "dest")
  ).

(* frustum.h:185-207 *)
Definition avx_glm_frustum_box : fundef := Fun
  [("corners", None); ("m", None); ("box", None)]
  [("v", Some 4%nat); ("min", Some 3%nat); ("max", Some 3%nat); ("i", None)] (
    SExp glm_vec3_broadcast$((EF 340282346638528859811704183484516925440 1), "min") ;;
    SExp glm_vec3_broadcast$((- (EF 340282346638528859811704183484516925440 1)), "max") ;;
    (SFor "i" (EI 0) (EI 8) (
      SExp avx_glm_mat4_mulv$("m", (EIx "corners" 4 "i"), "v") ;;
      "min".[0] ::= glm_min$(!"min".[0], !"v".[0]) ;;
      "min".[1] ::= glm_min$(!"min".[1], !"v".[1]) ;;
      "min".[2] ::= glm_min$(!"min".[2], !"v".[2]) ;;
      "max".[0] ::= glm_max$(!"max".[0], !"v".[0]) ;;
      "max".[1] ::= glm_max$(!"max".[1], !"v".[1]) ;;
      "max".[2] ::= glm_max$(!"max".[2], !"v".[2])
    )) ;;
    SExp glm_vec3_copy$("min", "box".[0:3]) ;;
    SExp glm_vec3_copy$("max", "box".[1:3])
  ).

(* frustum.h:223-253 *)
Definition avx_glm_frustum_corners_at : fundef := Fun
  [("corners", None); ("splitDist", None); ("farDist", None); ("planeCorners", None)]
  [("corner", Some 4%nat); ("dist", None); ("sc", None)] (
    "dist" <~ glm_vec3_distance$("corners".[6:4], "corners".[2:4]) ;;
    "sc" <~ ("dist" * ("splitDist" / "farDist")) ;;
    SExp avx_glm_vec4_sub$("corners".[4:4], "corners".[0:4], "corner") ;;
    SExp avx_glm_vec4_scale_as$("corner", "sc", "corner") ;;
    SExp avx_glm_vec4_add$("corners".[0:4], "corner", "planeCorners".[0:4]) ;;
    SExp avx_glm_vec4_sub$("corners".[5:4], "corners".[1:4], "corner") ;;
    SExp avx_glm_vec4_scale_as$("corner", "sc", "corner") ;;
    SExp avx_glm_vec4_add$("corners".[1:4], "corner", "planeCorners".[1:4]) ;;
    SExp avx_glm_vec4_sub$("corners".[6:4], "corners".[2:4], "corner") ;;
    SExp avx_glm_vec4_scale_as$("corner", "sc", "corner") ;;
    SExp avx_glm_vec4_add$("corners".[2:4], "corner", "planeCorners".[2:4]) ;;
    SExp avx_glm_vec4_sub$("corners".[7:4], "corners".[3:4], "corner") ;;
    SExp avx_glm_vec4_scale_as$("corner", "sc", "corner") ;;
    SExp avx_glm_vec4_add$("corners".[3:4], "corner", "planeCorners".[3:4])
  ).

(* simd/sse2/quat.h:17-51 *)
Definition avx_glm_quat_mul_sse2 : fundef := Fun
  [("p", None); ("q", None); ("dest", None)]
  [("xp", None); ("xq", None); ("x1", None); ("x2", None); ("x3", None); ("r", None); ("x", None); ("y", None); ("z", None)] (
    "xp" <~ (EVLd 4 "p") ;;
    "xq" <~ (EVLd 4 "q") ;;
    "x1" <~ builtin (PVsigns [false; true; false; true])$() ;;
    "r" <~ builtin (PV2 OMul)$(builtin (PVperm [(0, 3)%nat; (0, 3)%nat; (0, 3)%nat; (0, 3)%nat])$("xp"), "xq") ;;
    "x2" <~ builtin (PVperm [(0, 2)%nat; (1, 2)%nat; (0, 3)%nat; (1, 3)%nat])$("x1", "x1") ;;
    "x3" <~ builtin (PVperm [(0, 1)%nat; (0, 0)%nat; (0, 2)%nat; (0, 3)%nat])$("x1") ;;
    "x" <~ builtin (PVperm [(0, 0)%nat; (0, 0)%nat; (0, 0)%nat; (0, 0)%nat])$("xp") ;;
    "y" <~ builtin (PVperm [(0, 1)%nat; (0, 1)%nat; (0, 1)%nat; (0, 1)%nat])$("xp") ;;
    "z" <~ builtin (PVperm [(0, 2)%nat; (0, 2)%nat; (0, 2)%nat; (0, 2)%nat])$("xp") ;;
    "x" <~ builtin PVxor$("x", "x1") ;;
    "y" <~ builtin PVxor$("y", "x2") ;;
    "z" <~ builtin PVxor$("z", "x3") ;;
    "x1" <~ builtin (PVperm [(0, 3)%nat; (0, 2)%nat; (0, 1)%nat; (0, 0)%nat])$("xq") ;;
    "x2" <~ builtin (PVperm [(0, 2)%nat; (0, 3)%nat; (0, 0)%nat; (0, 1)%nat])$("xq") ;;
    "x3" <~ builtin (PVperm [(0, 1)%nat; (0, 0)%nat; (0, 3)%nat; (0, 2)%nat])$("xq") ;;
    "r" <~ avx_glmm_fmadd$("x", "x1", "r") ;;
    "r" <~ avx_glmm_fmadd$("y", "x2", "r") ;;
    "r" <~ avx_glmm_fmadd$("z", "x3", "r") ;;
    SVSt 4 "dest" "r"
  ).

(* quat.h:101-104 *)
Definition avx_glm_quat_identity : fundef := Fun
  [("q", None)]
  [("v", Some 4%nat)] (
    "v".[0] ::= (EF 0 1) ;;
    "v".[1] ::= (EF 0 1) ;;
    "v".[2] ::= (EF 0 1) ;;
    "v".[3] ::= (EF 1 1) ;;
    SExp avx_glm_vec4_copy$("v", "q")
  ).

(* quat.h:116-123 *)
Definition avx_glm_quat_identity_array : fundef := Fun
  [("q", None); ("count", None)]
  [("v", Some 4%nat); ("i", None)] (
    "v".[0] ::= (EF 0 1) ;;
    "v".[1] ::= (EF 0 1) ;;
    "v".[2] ::= (EF 0 1) ;;
    "v".[3] ::= (EF 1 1) ;;
    (SFor "i" (EI 0) "count" (
      SExp avx_glm_vec4_copy$("v", (EIx "q" 4 "i"))
    ))
  ).

(* quat.h:192-194 *)
Definition avx_glm_quat_copy : fundef := Fun
  [("q", None); ("dest", None)]
  [] (
    SExp avx_glm_vec4_copy$("q", "dest")
  ).

(* quat.h:246-288 *)
Definition avx_glm_quat_normalize_to : fundef := Fun
  [("q", None); ("dest", None)]
  [("xdot", None); ("x0", None); ("dot", None)] (
    "x0" <~ (EVLd 4 "q") ;;
    "xdot" <~ avx_glmm_vdot$("x0", "x0") ;;
    "dot" <~ builtin (PVlane 0)$("xdot") ;;
    (SIf ("dot" <= (EF 0 1)) (
      SExp avx_glm_quat_identity$("dest") ;;
      SRet0
    ) (
      SSkip
    )) ;;
    SVSt 4 "dest" builtin (PV2 ODiv)$("x0", builtin (PV1 OSqrt)$("xdot"))
  ).

(* quat.h:297-299 *)
Definition avx_glm_quat_normalize : fundef := Fun
  [("q", None)]
  [] (
    SExp avx_glm_quat_normalize_to$("q", "q")
  ).

(* quat.h:205-225 *)
Definition avx_glm_quat_from_vecs : fundef := Fun
  [("a", None); ("b", None); ("dest", None)]
  [("axis", Some 3%nat); ("cos_theta", None); ("cos_half_theta", None)] (
    "cos_theta" <~ glm_vec3_dot$("a", "b") ;;
    (SIf ("cos_theta" >= ((EF 1 1) - (EF 1 100000))) (
      SExp avx_glm_quat_identity$("dest") ;;
      SRet0
    ) (
      SSkip
    )) ;;
    (SIf ("cos_theta" < ((- (EF 1 1)) + (EF 1 100000))) (
      SExp glm_vec3_ortho$("a", "axis") ;;
      "cos_half_theta" <~ (EF 0 1)
    ) (
      SExp glm_vec3_cross$("a", "b", "axis") ;;
      "cos_half_theta" <~ ((EF 1 1) + "cos_theta")
    )) ;;
    SExp glm_quat_init$("dest", !"axis".[0], !"axis".[1], !"axis".[2], "cos_half_theta") ;;
    SExp avx_glm_quat_normalize$("dest")
  ).

(* quat.h:234-236 *)
Definition avx_glm_quat_norm : fundef := Fun
  [("q", None)]
  [] (
    SRet avx_glm_vec4_norm$("q")
  ).

(* quat.h:309-311 *)
Definition avx_glm_quat_dot : fundef := Fun
  [("p", None); ("q", None)]
  [] (
    SRet avx_glm_vec4_dot$("p", "q")
  ).

(* quat.h:321-324 *)
Definition avx_glm_quat_conjugate : fundef := Fun
  [("q", None); ("dest", None)]
  [] (
    SExp avx_glm_vec4_negate_to$("q", "dest") ;;
    "dest".[3] ::= (- !"dest".[3])
  ).

(* quat.h:334-338 *)
Definition avx_glm_quat_inv : fundef := Fun
  [("q", None); ("dest", None)]
  [("conj", Some 4%nat)] (
    SExp avx_glm_quat_conjugate$("q", "conj") ;;
    SExp avx_glm_vec4_scale$("conj", ((EF 1 1) / avx_glm_vec4_norm2$("q")), "dest")
  ).

(* quat.h:349-351 *)
Definition avx_glm_quat_add : fundef := Fun
  [("p", None); ("q", None); ("dest", None)]
  [] (
    SExp avx_glm_vec4_add$("p", "q", "dest")
  ).

(* quat.h:362-364 *)
Definition avx_glm_quat_sub : fundef := Fun
  [("p", None); ("q", None); ("dest", None)]
  [] (
    SExp avx_glm_vec4_sub$("p", "q", "dest")
  ).

(* quat.h:455-474 *)
Definition avx_glm_quat_mul : fundef := Fun
  [("p", None); ("q", None); ("dest", None)]
  [] (
    SExp avx_glm_quat_mul_sse2$("p", "q", "dest")
  ).

(* quat.h:484-521 *)
Definition avx_glm_quat_mat4 : fundef := Fun
  [("q", None); ("dest", None)]
  [("w", None); ("x", None); ("y", None); ("z", None); ("xx", None); ("yy", None); ("zz", None); ("xy", None); ("yz", None); ("xz", None); ("wx", None); ("wy", None); ("wz", None); ("norm", None); ("s", None)] (
    "norm" <~ avx_glm_quat_norm$("q") ;;
    "s" <~ (ECond ("norm" > (EF 0 1)) ((EF 2 1) / "norm") (EF 0 1)) ;;
    "x" <~ !"q".[0] ;;
    "y" <~ !"q".[1] ;;
    "z" <~ !"q".[2] ;;
    "w" <~ !"q".[3] ;;
    "xx" <~ (("s" * "x") * "x") ;;
    "xy" <~ (("s" * "x") * "y") ;;
    "wx" <~ (("s" * "w") * "x") ;;
    "yy" <~ (("s" * "y") * "y") ;;
    "yz" <~ (("s" * "y") * "z") ;;
    "wy" <~ (("s" * "w") * "y") ;;
    "zz" <~ (("s" * "z") * "z") ;;
    "xz" <~ (("s" * "x") * "z") ;;
    "wz" <~ (("s" * "w") * "z") ;;
    "dest".[0:4].[0] ::= (((EF 1 1) - "yy") - "zz") ;;
    "dest".[1:4].[1] ::= (((EF 1 1) - "xx") - "zz") ;;
    "dest".[2:4].[2] ::= (((EF 1 1) - "xx") - "yy") ;;
    "dest".[0:4].[1] ::= ("xy" + "wz") ;;
    "dest".[1:4].[2] ::= ("yz" + "wx") ;;
    "dest".[2:4].[0] ::= ("xz" + "wy") ;;
    "dest".[1:4].[0] ::= ("xy" - "wz") ;;
    "dest".[2:4].[1] ::= ("yz" - "wx") ;;
    "dest".[0:4].[2] ::= ("xz" - "wy") ;;
    "dest".[0:4].[3] ::= (EF 0 1) ;;
    "dest".[1:4].[3] ::= (EF 0 1) ;;
    "dest".[2:4].[3] ::= (EF 0 1) ;;
    "dest".[3:4].[0] ::= (EF 0 1) ;;
    "dest".[3:4].[1] ::= (EF 0 1) ;;
    "dest".[3:4].[2] ::= (EF 0 1) ;;
    "dest".[3:4].[3] ::= (EF 1 1)
  ).

(* quat.h:531-568 *)
Definition avx_glm_quat_mat4t : fundef := Fun
  [("q", None); ("dest", None)]
  [("w", None); ("x", None); ("y", None); ("z", None); ("xx", None); ("yy", None); ("zz", None); ("xy", None); ("yz", None); ("xz", None); ("wx", None); ("wy", None); ("wz", None); ("norm", None); ("s", None)] (
    "norm" <~ avx_glm_quat_norm$("q") ;;
    "s" <~ (ECond ("norm" > (EF 0 1)) ((EF 2 1) / "norm") (EF 0 1)) ;;
    "x" <~ !"q".[0] ;;
    "y" <~ !"q".[1] ;;
    "z" <~ !"q".[2] ;;
    "w" <~ !"q".[3] ;;
    "xx" <~ (("s" * "x") * "x") ;;
    "xy" <~ (("s" * "x") * "y") ;;
    "wx" <~ (("s" * "w") * "x") ;;
    "yy" <~ (("s" * "y") * "y") ;;
    "yz" <~ (("s" * "y") * "z") ;;
    "wy" <~ (("s" * "w") * "y") ;;
    "zz" <~ (("s" * "z") * "z") ;;
    "xz" <~ (("s" * "x") * "z") ;;
    "wz" <~ (("s" * "w") * "z") ;;
    "dest".[0:4].[0] ::= (((EF 1 1) - "yy") - "zz") ;;
    "dest".[1:4].[1] ::= (((EF 1 1) - "xx") - "zz") ;;
    "dest".[2:4].[2] ::= (((EF 1 1) - "xx") - "yy") ;;
    "dest".[1:4].[0] ::= ("xy" + "wz") ;;
    "dest".[2:4].[1] ::= ("yz" + "wx") ;;
    "dest".[0:4].[2] ::= ("xz" + "wy") ;;
    "dest".[0:4].[1] ::= ("xy" - "wz") ;;
    "dest".[1:4].[2] ::= ("yz" - "wx") ;;
    "dest".[2:4].[0] ::= ("xz" - "wy") ;;
    "dest".[0:4].[3] ::= (EF 0 1) ;;
    "dest".[1:4].[3] ::= (EF 0 1) ;;
    "dest".[2:4].[3] ::= (EF 0 1) ;;
    "dest".[3:4].[0] ::= (EF 0 1) ;;
    "dest".[3:4].[1] ::= (EF 0 1) ;;
    "dest".[3:4].[2] ::= (EF 0 1) ;;
    "dest".[3:4].[3] ::= (EF 1 1)
  ).

(* quat.h:578-607 *)
Definition avx_glm_quat_mat3 : fundef := Fun
  [("q", None); ("dest", None)]
  [("w", None); ("x", None); ("y", None); ("z", None); ("xx", None); ("yy", None); ("zz", None); ("xy", None); ("yz", None); ("xz", None); ("wx", None); ("wy", None); ("wz", None); ("norm", None); ("s", None)] (
    "norm" <~ avx_glm_quat_norm$("q") ;;
    "s" <~ (ECond ("norm" > (EF 0 1)) ((EF 2 1) / "norm") (EF 0 1)) ;;
    "x" <~ !"q".[0] ;;
    "y" <~ !"q".[1] ;;
    "z" <~ !"q".[2] ;;
    "w" <~ !"q".[3] ;;
    "xx" <~ (("s" * "x") * "x") ;;
    "xy" <~ (("s" * "x") * "y") ;;
    "wx" <~ (("s" * "w") * "x") ;;
    "yy" <~ (("s" * "y") * "y") ;;
    "yz" <~ (("s" * "y") * "z") ;;
    "wy" <~ (("s" * "w") * "y") ;;
    "zz" <~ (("s" * "z") * "z") ;;
    "xz" <~ (("s" * "x") * "z") ;;
    "wz" <~ (("s" * "w") * "z") ;;
    "dest".[0:3].[0] ::= (((EF 1 1) - "yy") - "zz") ;;
    "dest".[1:3].[1] ::= (((EF 1 1) - "xx") - "zz") ;;
    "dest".[2:3].[2] ::= (((EF 1 1) - "xx") - "yy") ;;
    "dest".[0:3].[1] ::= ("xy" + "wz") ;;
    "dest".[1:3].[2] ::= ("yz" + "wx") ;;
    "dest".[2:3].[0] ::= ("xz" + "wy") ;;
    "dest".[1:3].[0] ::= ("xy" - "wz") ;;
    "dest".[2:3].[1] ::= ("yz" - "wx") ;;
    "dest".[0:3].[2] ::= ("xz" - "wy")
  ).

(* quat.h:617-646 *)
Definition avx_glm_quat_mat3t : fundef := Fun
  [("q", None); ("dest", None)]
  [("w", None); ("x", None); ("y", None); ("z", None); ("xx", None); ("yy", None); ("zz", None); ("xy", None); ("yz", None); ("xz", None); ("wx", None); ("wy", None); ("wz", None); ("norm", None); ("s", None)] (
    "norm" <~ avx_glm_quat_norm$("q") ;;
    "s" <~ (ECond ("norm" > (EF 0 1)) ((EF 2 1) / "norm") (EF 0 1)) ;;
    "x" <~ !"q".[0] ;;
    "y" <~ !"q".[1] ;;
    "z" <~ !"q".[2] ;;
    "w" <~ !"q".[3] ;;
    "xx" <~ (("s" * "x") * "x") ;;
    "xy" <~ (("s" * "x") * "y") ;;
    "wx" <~ (("s" * "w") * "x") ;;
    "yy" <~ (("s" * "y") * "y") ;;
    "yz" <~ (("s" * "y") * "z") ;;
    "wy" <~ (("s" * "w") * "y") ;;
    "zz" <~ (("s" * "z") * "z") ;;
    "xz" <~ (("s" * "x") * "z") ;;
    "wz" <~ (("s" * "w") * "z") ;;
    "dest".[0:3].[0] ::= (((EF 1 1) - "yy") - "zz") ;;
    "dest".[1:3].[1] ::= (((EF 1 1) - "xx") - "zz") ;;
    "dest".[2:3].[2] ::= (((EF 1 1) - "xx") - "yy") ;;
    "dest".[1:3].[0] ::= ("xy" + "wz") ;;
    "dest".[2:3].[1] ::= ("yz" + "wx") ;;
    "dest".[0:3].[2] ::= ("xz" + "wy") ;;
    "dest".[0:3].[1] ::= ("xy" - "wz") ;;
    "dest".[1:3].[2] ::= ("yz" - "wx") ;;
    "dest".[2:3].[0] ::= ("xz" - "wy")
  ).

(* quat.h:659-661 *)
Definition avx_glm_quat_lerp : fundef := Fun
  [("from", None); ("to", None); ("t", None); ("dest", None)]
  [] (
    SExp avx_glm_vec4_lerp$("from", "to", "t", "dest")
  ).

(* quat.h:674-676 *)
Definition avx_glm_quat_lerpc : fundef := Fun
  [("from", None); ("to", None); ("t", None); ("dest", None)]
  [] (
    SExp avx_glm_vec4_lerpc$("from", "to", "t", "dest")
  ).

(* quat.h:690-699 *)
Definition avx_glm_quat_nlerp : fundef := Fun
  [("from", None); ("to", None); ("t", None); ("dest", None)]
  [("target", Some 4%nat); ("dot", None)] (
    "dot" <~ avx_glm_vec4_dot$("from", "to") ;;
    SExp avx_glm_vec4_scale$("to", (ECond ("dot" >= (ECast TyF (EI 0))) (EF 1 1) (- (EF 1 1))), "target") ;;
    SExp avx_glm_quat_lerp$("from", "target", "t", "dest") ;;
    SExp avx_glm_quat_normalize$("dest")
  ).

(* quat.h:712-744 *)
Definition avx_glm_quat_slerp : fundef := Fun
  [("from", None); ("to", None); ("t", None); ("dest", None)]
  [("q1", Some 4%nat); ("q2", Some 4%nat); ("cosTheta", None); ("sinTheta", None); ("angle", None)] (
    "cosTheta" <~ avx_glm_quat_dot$("from", "to") ;;
    SExp avx_glm_quat_copy$("from", "q1") ;;
    (SIf (builtin (PF1 OAbs)$("cosTheta") >= (EF 1 1)) (
      SExp avx_glm_quat_copy$("q1", "dest") ;;
      SRet0
    ) (
      SSkip
    )) ;;
    (SIf ("cosTheta" < (EF 0 1)) (
      SExp avx_glm_vec4_negate$("q1") ;;
      "cosTheta" <~ (- "cosTheta")
    ) (
      SSkip
    )) ;;
    "sinTheta" <~ builtin (PF1 OSqrt)$(((EF 1 1) - ("cosTheta" * "cosTheta"))) ;;
    (SIf (builtin (PF1 OAbs)$("sinTheta") < (EF 1 1000)) (
      SExp avx_glm_quat_lerp$("from", "to", "t", "dest") ;;
      SRet0
    ) (
      SSkip
    )) ;;
    "angle" <~ builtin (PF1 OAcos)$("cosTheta") ;;
    SExp avx_glm_vec4_scale$("q1", builtin (PF1 OSin)$((((EF 1 1) - "t") * "angle")), "q1") ;;
    SExp avx_glm_vec4_scale$("to", builtin (PF1 OSin)$(("t" * "angle")), "q2") ;;
    SExp avx_glm_vec4_add$("q1", "q2", "q1") ;;
    SExp avx_glm_vec4_scale$("q1", ((EF 1 1) / "sinTheta"), "dest")
  ).

(* quat.h:757-790 *)
Definition avx_glm_quat_slerp_longest : fundef := Fun
  [("from", None); ("to", None); ("t", None); ("dest", None)]
  [("q1", Some 4%nat); ("q2", Some 4%nat); ("cosTheta", None); ("sinTheta", None); ("angle", None)] (
    "cosTheta" <~ avx_glm_quat_dot$("from", "to") ;;
    SExp avx_glm_quat_copy$("from", "q1") ;;
    (SIf (builtin (PF1 OAbs)$("cosTheta") >= (EF 1 1)) (
      SExp avx_glm_quat_copy$("q1", "dest") ;;
      SRet0
    ) (
      SSkip
    )) ;;
    (SIf (ENot ("cosTheta" < (EF 0 1))) (
      SExp avx_glm_vec4_negate$("q1") ;;
      "cosTheta" <~ (- "cosTheta")
    ) (
      SSkip
    )) ;;
    "sinTheta" <~ builtin (PF1 OSqrt)$(((EF 1 1) - ("cosTheta" * "cosTheta"))) ;;
    (SIf (builtin (PF1 OAbs)$("sinTheta") < (EF 1 1000)) (
      SExp avx_glm_quat_lerp$("from", "to", "t", "dest") ;;
      SRet0
    ) (
      SSkip
    )) ;;
    "angle" <~ builtin (PF1 OAcos)$("cosTheta") ;;
    SExp avx_glm_vec4_scale$("q1", builtin (PF1 OSin)$((((EF 1 1) - "t") * "angle")), "q1") ;;
    SExp avx_glm_vec4_scale$("to", builtin (PF1 OSin)$(("t" * "angle")), "q2") ;;
    SExp avx_glm_vec4_add$("q1", "q2", "q1") ;;
    SExp avx_glm_vec4_scale$("q1", ((EF 1 1) / "sinTheta"), "dest")
  ).

(* quat.h:801-808 *)
Definition avx_glm_quat_look : fundef := Fun
  [("eye", None); ("ori", None); ("dest", None)]
  [] (
    SExp avx_glm_quat_mat4t$("ori", "dest") ;;
    SExp avx_glm_mat4_mulv3$("dest", "eye", (EF 1 1), "dest".[3:4]) ;;
    SExp glm_vec3_negate$("dest".[3:4])
  ).

(* quat.h:859-876 *)
Definition avx_glm_quat_rotatev : fundef := Fun
  [("q", None); ("v", None); ("dest", None)]
  [("p", Some 4%nat); ("u", Some 3%nat); ("v1", Some 3%nat); ("v2", Some 3%nat); ("s", None)] (
    SExp avx_glm_quat_normalize_to$("q", "p") ;;
    SExp glm_quat_imag$("p", "u") ;;
    "s" <~ glm_quat_real$("p") ;;
    SExp glm_vec3_scale$("u", ((EF 2 1) * glm_vec3_dot$("u", "v")), "v1") ;;
    SExp glm_vec3_scale$("v", (("s" * "s") - glm_vec3_dot$("u", "u")), "v2") ;;
    SExp glm_vec3_add$("v1", "v2", "v1") ;;
    SExp glm_vec3_cross$("u", "v", "v2") ;;
    SExp glm_vec3_scale$("v2", ((EF 2 1) * "s"), "v2") ;;
    SExp glm_vec3_add$("v1", "v2", "dest")
  ).

(* quat.h:887-891 *)
Definition avx_glm_quat_rotate : fundef := Fun
  [("m", None); ("q", None); ("dest", None)]
  [("rot", Some 16%nat)] (
    SExp avx_glm_quat_mat4$("q", "rot") ;;
    SExp avx_glm_mul_rot$("m", "rot", "dest")
  ).

(* quat.h:902-910 *)
Definition avx_glm_quat_rotate_at : fundef := Fun
  [("m", None); ("q", None); ("pivot", None)]
  [("pivotInv", Some 3%nat)] (
    SExp glm_vec3_negate_to$("pivot", "pivotInv") ;;
    SExp avx_glm_translate$("m", "pivot") ;;
    SExp avx_glm_quat_rotate$("m", "q", "m") ;;
    SExp avx_glm_translate$("m", "pivotInv")
  ).

(* quat.h:926-934 *)
Definition avx_glm_quat_rotate_atm : fundef := Fun
  [("m", None); ("q", None); ("pivot", None)]
  [("pivotInv", Some 3%nat)] (
    SExp glm_vec3_negate_to$("pivot", "pivotInv") ;;
    SExp avx_glm_translate_make$("m", "pivot") ;;
    SExp avx_glm_quat_rotate$("m", "q", "m") ;;
    SExp avx_glm_translate$("m", "pivotInv")
  ).

(* noise.h:148-201 *)
Definition avx_glm__noiseDetail_i2gxyzw : fundef := Fun
  [("ixy", None); ("gx", None); ("gy", None); ("gz", None); ("gw", None)]
  [("gxa", Some 4%nat); ("gya", Some 4%nat); ("gza", Some 4%nat); ("sw", Some 4%nat); ("temp", Some 4%nat)] (
    SExp avx_glm_vec4_divs$("ixy", (EF 7 1), "gx") ;;
    SExp glm_vec4_floor$("gx", "gy") ;;
    SExp avx_glm_vec4_divs$("gy", (EF 7 1), "gy") ;;
    SExp glm_vec4_floor$("gy", "gz") ;;
    SExp avx_glm_vec4_divs$("gz", (EF 6 1), "gz") ;;
    SExp glm_vec4_fract$("gx", "gx") ;;
    SExp avx_glm_vec4_subs$("gx", (EF 1 2), "gx") ;;
    SExp glm_vec4_fract$("gy", "gy") ;;
    SExp avx_glm_vec4_subs$("gy", (EF 1 2), "gy") ;;
    SExp glm_vec4_fract$("gz", "gz") ;;
    SExp avx_glm_vec4_subs$("gz", (EF 1 2), "gz") ;;
    SExp avx_glm_vec4_abs$("gx", "gxa") ;;
    SExp avx_glm_vec4_abs$("gy", "gya") ;;
    SExp avx_glm_vec4_abs$("gz", "gza") ;;
    SExp avx_glm_vec4_fill$("gw", (EF 3 4)) ;;
    SExp avx_glm_vec4_sub$("gw", "gxa", "gw") ;;
    SExp avx_glm_vec4_sub$("gw", "gza", "gw") ;;
    SExp avx_glm_vec4_sub$("gw", "gya", "gw") ;;
    SExp glm_vec4_stepr$("gw", (EF 0 1), "sw") ;;
    "temp".[0] ::= (EF 0 1) ;;
    "temp".[1] ::= (EF 0 1) ;;
    "temp".[2] ::= (EF 0 1) ;;
    "temp".[3] ::= (EF 0 1) ;;
    SExp glm_vec4_step$("temp", "gx", "temp") ;;
    SExp avx_glm_vec4_subs$("temp", (EF 1 2), "temp") ;;
    SExp avx_glm_vec4_mul$("sw", "temp", "temp") ;;
    SExp avx_glm_vec4_sub$("gx", "temp", "gx") ;;
    SExp avx_glm_vec4_zero$("temp") ;;
    SExp glm_vec4_step$("temp", "gy", "temp") ;;
    SExp avx_glm_vec4_subs$("temp", (EF 1 2), "temp") ;;
    SExp avx_glm_vec4_mul$("sw", "temp", "temp") ;;
    SExp avx_glm_vec4_sub$("gy", "temp", "gy")
  ).

(* noise.h:86-92 *)
Definition avx_glm__noiseDetail_taylorInvSqrt : fundef := Fun
  [("x", None); ("dest", None)]
  [("temp", Some 4%nat)] (
    SExp avx_glm_vec4_scale$("x", (EF 42686736047657 50000000000000), "temp") ;;
    SExp avx_glm_vec4_fill$("dest", (EF 179284291400159 100000000000000)) ;;
    SExp avx_glm_vec4_sub$("dest", "temp", "dest")
  ).

(* noise.h:103-115 *)
Definition avx_glm__noiseDetail_gradNorm_vec4 : fundef := Fun
  [("g00__", None); ("g01__", None); ("g10__", None); ("g11__", None)]
  [("norm", Some 4%nat)] (
    "norm".[0] ::= avx_glm_vec4_dot$("g00__", "g00__") ;;
    "norm".[1] ::= avx_glm_vec4_dot$("g01__", "g01__") ;;
    "norm".[2] ::= avx_glm_vec4_dot$("g10__", "g10__") ;;
    "norm".[3] ::= avx_glm_vec4_dot$("g11__", "g11__") ;;
    SExp avx_glm__noiseDetail_taylorInvSqrt$("norm", "norm") ;;
    SExp avx_glm_vec4_scale$("g00__", !"norm".[0], "g00__") ;;
    SExp avx_glm_vec4_scale$("g01__", !"norm".[1], "g01__") ;;
    SExp avx_glm_vec4_scale$("g10__", !"norm".[2], "g10__") ;;
    SExp avx_glm_vec4_scale$("g11__", !"norm".[3], "g11__")
  ).

(* noise.h:39-51 *)
Definition avx_glm__noiseDetail_fade_vec4 : fundef := Fun
  [("t", None); ("dest", None)]
  [("temp", Some 4%nat)] (
    SExp avx_glm_vec4_mul$("t", "t", "temp") ;;
    SExp avx_glm_vec4_mul$("temp", "t", "temp") ;;
    SExp avx_glm_vec4_scale$("t", (EF 6 1), "dest") ;;
    SExp avx_glm_vec4_subs$("dest", (EF 15 1), "dest") ;;
    SExp avx_glm_vec4_mul$("t", "dest", "dest") ;;
    SExp avx_glm_vec4_adds$("dest", (EF 10 1), "dest") ;;
    SExp avx_glm_vec4_mul$("temp", "dest", "dest")
  ).

(* noise.h:298-497 *)
Definition avx_glm_perlin_vec4 : fundef := Fun
  [("point", None)]
  [("Pi0", Some 4%nat); ("Pi1", Some 4%nat); ("Pf0", Some 4%nat); ("Pf1", Some 4%nat); ("ix", Some 4%nat); ("iy", Some 4%nat); ("iz0", Some 4%nat); ("iz1", Some 4%nat); ("iw0", Some 4%nat); ("iw1", Some 4%nat); ("ixy", Some 4%nat); ("ixy0", Some 4%nat); ("ixy1", Some 4%nat); ("ixy00", Some 4%nat); ("ixy01", Some 4%nat); ("ixy10", Some 4%nat); ("ixy11", Some 4%nat); ("gx00", Some 4%nat); ("gy00", Some 4%nat); ("gz00", Some 4%nat); ("gw00", Some 4%nat); ("gx01", Some 4%nat); ("gy01", Some 4%nat); ("gz01", Some 4%nat); ("gw01", Some 4%nat); ("gx10", Some 4%nat); ("gy10", Some 4%nat); ("gz10", Some 4%nat); ("gw10", Some 4%nat); ("gx11", Some 4%nat); ("gy11", Some 4%nat); ("gz11", Some 4%nat); ("gw11", Some 4%nat); ("g0000", Some 4%nat); ("g0100", Some 4%nat); ("g1000", Some 4%nat); ("g1100", Some 4%nat); ("g0001", Some 4%nat); ("g0101", Some 4%nat); ("g1001", Some 4%nat); ("g1101", Some 4%nat); ("g0010", Some 4%nat); ("g0110", Some 4%nat); ("g1010", Some 4%nat); ("g1110", Some 4%nat); ("g0011", Some 4%nat); ("g0111", Some 4%nat); ("g1011", Some 4%nat); ("g1111", Some 4%nat); ("n0000", None); ("n1000d", Some 4%nat); ("n1000", None); ("n0100d", Some 4%nat); ("n0100", None); ("n1100d", Some 4%nat); ("n1100", None); ("n0010d", Some 4%nat); ("n0010", None); ("n1010d", Some 4%nat); ("n1010", None); ("n0110d", Some 4%nat); ("n0110", None); ("n1110d", Some 4%nat); ("n1110", None); ("n0001d", Some 4%nat); ("n0001", None); ("n1001d", Some 4%nat); ("n1001", None); ("n0101d", Some 4%nat); ("n0101", None); ("n1101d", Some 4%nat); ("n1101", None); ("n0011d", Some 4%nat); ("n0011", None); ("n1011d", Some 4%nat); ("n1011", None); ("n0111d", Some 4%nat); ("n0111", None); ("n1111", None); ("fade_xyzw", Some 4%nat); ("n_0w1", Some 4%nat); ("n_0w2", Some 4%nat); ("n_0w", Some 4%nat); ("n_1w1", Some 4%nat); ("n_1w2", Some 4%nat); ("n_1w", Some 4%nat); ("n_zw", Some 4%nat); ("n_yzw", Some 2%nat); ("n_yzw1", Some 2%nat); ("n_yzw2", Some 2%nat); ("n_xyzw", None)] (
    SExp glm_vec4_floor$("point", "Pi0") ;;
    SExp avx_glm_vec4_adds$("Pi0", (EF 1 1), "Pi1") ;;
    SExp glm_vec4_mods$("Pi0", (EF 289 1), "Pi0") ;;
    SExp glm_vec4_mods$("Pi1", (EF 289 1), "Pi1") ;;
    SExp glm_vec4_fract$("point", "Pf0") ;;
    SExp avx_glm_vec4_subs$("Pf0", (EF 1 1), "Pf1") ;;
    "ix".[0] ::= !"Pi0".[0] ;;
    "ix".[1] ::= !"Pi1".[0] ;;
    "ix".[2] ::= !"Pi0".[0] ;;
    "ix".[3] ::= !"Pi1".[0] ;;
    "iy".[0] ::= !"Pi0".[1] ;;
    "iy".[1] ::= !"Pi0".[1] ;;
    "iy".[2] ::= !"Pi1".[1] ;;
    "iy".[3] ::= !"Pi1".[1] ;;
    "iz0".[0] ::= !"Pi0".[2] ;;
    "iz0".[1] ::= !"Pi0".[2] ;;
    "iz0".[2] ::= !"Pi0".[2] ;;
    "iz0".[3] ::= !"Pi0".[2] ;;
    "iz1".[0] ::= !"Pi1".[2] ;;
    "iz1".[1] ::= !"Pi1".[2] ;;
    "iz1".[2] ::= !"Pi1".[2] ;;
    "iz1".[3] ::= !"Pi1".[2] ;;
    "iw0".[0] ::= !"Pi0".[3] ;;
    "iw0".[1] ::= !"Pi0".[3] ;;
    "iw0".[2] ::= !"Pi0".[3] ;;
    "iw0".[3] ::= !"Pi0".[3] ;;
    "iw1".[0] ::= !"Pi1".[3] ;;
    "iw1".[1] ::= !"Pi1".[3] ;;
    "iw1".[2] ::= !"Pi1".[3] ;;
    "iw1".[3] ::= !"Pi1".[3] ;;
    SExp glm__noiseDetail_permute$("ix", "ixy") ;;
    SExp avx_glm_vec4_add$("ixy", "iy", "ixy") ;;
    SExp glm__noiseDetail_permute$("ixy", "ixy") ;;
    SExp avx_glm_vec4_add$("ixy", "iz0", "ixy0") ;;
    SExp glm__noiseDetail_permute$("ixy0", "ixy0") ;;
    SExp avx_glm_vec4_add$("ixy", "iz1", "ixy1") ;;
    SExp glm__noiseDetail_permute$("ixy1", "ixy1") ;;
    SExp avx_glm_vec4_add$("ixy0", "iw0", "ixy00") ;;
    SExp glm__noiseDetail_permute$("ixy00", "ixy00") ;;
    SExp avx_glm_vec4_add$("ixy0", "iw1", "ixy01") ;;
    SExp glm__noiseDetail_permute$("ixy01", "ixy01") ;;
    SExp avx_glm_vec4_add$("ixy1", "iw0", "ixy10") ;;
    SExp glm__noiseDetail_permute$("ixy10", "ixy10") ;;
    SExp avx_glm_vec4_add$("ixy1", "iw1", "ixy11") ;;
    SExp glm__noiseDetail_permute$("ixy11", "ixy11") ;;
    SExp avx_glm__noiseDetail_i2gxyzw$("ixy00", "gx00", "gy00", "gz00", "gw00") ;;
    SExp avx_glm__noiseDetail_i2gxyzw$("ixy01", "gx01", "gy01", "gz01", "gw01") ;;
    SExp avx_glm__noiseDetail_i2gxyzw$("ixy10", "gx10", "gy10", "gz10", "gw10") ;;
    SExp avx_glm__noiseDetail_i2gxyzw$("ixy11", "gx11", "gy11", "gz11", "gw11") ;;
    "g0000".[0] ::= !"gx00".[0] ;;
    "g0000".[1] ::= !"gy00".[0] ;;
    "g0000".[2] ::= !"gz00".[0] ;;
    "g0000".[3] ::= !"gw00".[0] ;;
    "g0100".[0] ::= !"gx00".[2] ;;
    "g0100".[1] ::= !"gy00".[2] ;;
    "g0100".[2] ::= !"gz00".[2] ;;
    "g0100".[3] ::= !"gw00".[2] ;;
    "g1000".[0] ::= !"gx00".[1] ;;
    "g1000".[1] ::= !"gy00".[1] ;;
    "g1000".[2] ::= !"gz00".[1] ;;
    "g1000".[3] ::= !"gw00".[1] ;;
    "g1100".[0] ::= !"gx00".[3] ;;
    "g1100".[1] ::= !"gy00".[3] ;;
    "g1100".[2] ::= !"gz00".[3] ;;
    "g1100".[3] ::= !"gw00".[3] ;;
    "g0001".[0] ::= !"gx01".[0] ;;
    "g0001".[1] ::= !"gy01".[0] ;;
    "g0001".[2] ::= !"gz01".[0] ;;
    "g0001".[3] ::= !"gw01".[0] ;;
    "g0101".[0] ::= !"gx01".[2] ;;
    "g0101".[1] ::= !"gy01".[2] ;;
    "g0101".[2] ::= !"gz01".[2] ;;
    "g0101".[3] ::= !"gw01".[2] ;;
    "g1001".[0] ::= !"gx01".[1] ;;
    "g1001".[1] ::= !"gy01".[1] ;;
    "g1001".[2] ::= !"gz01".[1] ;;
    "g1001".[3] ::= !"gw01".[1] ;;
    "g1101".[0] ::= !"gx01".[3] ;;
    "g1101".[1] ::= !"gy01".[3] ;;
    "g1101".[2] ::= !"gz01".[3] ;;
    "g1101".[3] ::= !"gw01".[3] ;;
    "g0010".[0] ::= !"gx10".[0] ;;
    "g0010".[1] ::= !"gy10".[0] ;;
    "g0010".[2] ::= !"gz10".[0] ;;
    "g0010".[3] ::= !"gw10".[0] ;;
    "g0110".[0] ::= !"gx10".[2] ;;
    "g0110".[1] ::= !"gy10".[2] ;;
    "g0110".[2] ::= !"gz10".[2] ;;
    "g0110".[3] ::= !"gw10".[2] ;;
    "g1010".[0] ::= !"gx10".[1] ;;
    "g1010".[1] ::= !"gy10".[1] ;;
    "g1010".[2] ::= !"gz10".[1] ;;
    "g1010".[3] ::= !"gw10".[1] ;;
    "g1110".[0] ::= !"gx10".[3] ;;
    "g1110".[1] ::= !"gy10".[3] ;;
    "g1110".[2] ::= !"gz10".[3] ;;
    "g1110".[3] ::= !"gw10".[3] ;;
    "g0011".[0] ::= !"gx11".[0] ;;
    "g0011".[1] ::= !"gy11".[0] ;;
    "g0011".[2] ::= !"gz11".[0] ;;
    "g0011".[3] ::= !"gw11".[0] ;;
    "g0111".[0] ::= !"gx11".[2] ;;
    "g0111".[1] ::= !"gy11".[2] ;;
    "g0111".[2] ::= !"gz11".[2] ;;
    "g0111".[3] ::= !"gw11".[2] ;;
    "g1011".[0] ::= !"gx11".[1] ;;
    "g1011".[1] ::= !"gy11".[1] ;;
    "g1011".[2] ::= !"gz11".[1] ;;
    "g1011".[3] ::= !"gw11".[1] ;;
    "g1111".[0] ::= !"gx11".[3] ;;
    "g1111".[1] ::= !"gy11".[3] ;;
    "g1111".[2] ::= !"gz11".[3] ;;
    "g1111".[3] ::= !"gw11".[3] ;;
    SExp avx_glm__noiseDetail_gradNorm_vec4$("g0000", "g0100", "g1000", "g1100") ;;
    SExp avx_glm__noiseDetail_gradNorm_vec4$("g0001", "g0101", "g1001", "g1101") ;;
    SExp avx_glm__noiseDetail_gradNorm_vec4$("g0010", "g0110", "g1010", "g1110") ;;
    SExp avx_glm__noiseDetail_gradNorm_vec4$("g0011", "g0111", "g1011", "g1111") ;;
    "n0000" <~ avx_glm_vec4_dot$("g0000", "Pf0") ;;
    "n1000d".[0] ::= !"Pf1".[0] ;;
    "n1000d".[1] ::= !"Pf0".[1] ;;
    "n1000d".[2] ::= !"Pf0".[2] ;;
    "n1000d".[3] ::= !"Pf0".[3] ;;
    "n1000" <~ avx_glm_vec4_dot$("g1000", "n1000d") ;;
    "n0100d".[0] ::= !"Pf0".[0] ;;
    "n0100d".[1] ::= !"Pf1".[1] ;;
    "n0100d".[2] ::= !"Pf0".[2] ;;
    "n0100d".[3] ::= !"Pf0".[3] ;;
    "n0100" <~ avx_glm_vec4_dot$("g0100", "n0100d") ;;
    "n1100d".[0] ::= !"Pf1".[0] ;;
    "n1100d".[1] ::= !"Pf1".[1] ;;
    "n1100d".[2] ::= !"Pf0".[2] ;;
    "n1100d".[3] ::= !"Pf0".[3] ;;
    "n1100" <~ avx_glm_vec4_dot$("g1100", "n1100d") ;;
    "n0010d".[0] ::= !"Pf0".[0] ;;
    "n0010d".[1] ::= !"Pf0".[1] ;;
    "n0010d".[2] ::= !"Pf1".[2] ;;
    "n0010d".[3] ::= !"Pf0".[3] ;;
    "n0010" <~ avx_glm_vec4_dot$("g0010", "n0010d") ;;
    "n1010d".[0] ::= !"Pf1".[0] ;;
    "n1010d".[1] ::= !"Pf0".[1] ;;
    "n1010d".[2] ::= !"Pf1".[2] ;;
    "n1010d".[3] ::= !"Pf0".[3] ;;
    "n1010" <~ avx_glm_vec4_dot$("g1010", "n1010d") ;;
    "n0110d".[0] ::= !"Pf0".[0] ;;
    "n0110d".[1] ::= !"Pf1".[1] ;;
    "n0110d".[2] ::= !"Pf1".[2] ;;
    "n0110d".[3] ::= !"Pf0".[3] ;;
    "n0110" <~ avx_glm_vec4_dot$("g0110", "n0110d") ;;
    "n1110d".[0] ::= !"Pf1".[0] ;;
    "n1110d".[1] ::= !"Pf1".[1] ;;
    "n1110d".[2] ::= !"Pf1".[2] ;;
    "n1110d".[3] ::= !"Pf0".[3] ;;
    "n1110" <~ avx_glm_vec4_dot$("g1110", "n1110d") ;;
    "n0001d".[0] ::= !"Pf0".[0] ;;
    "n0001d".[1] ::= !"Pf0".[1] ;;
    "n0001d".[2] ::= !"Pf0".[2] ;;
    "n0001d".[3] ::= !"Pf1".[3] ;;
    "n0001" <~ avx_glm_vec4_dot$("g0001", "n0001d") ;;
    "n1001d".[0] ::= !"Pf1".[0] ;;
    "n1001d".[1] ::= !"Pf0".[1] ;;
    "n1001d".[2] ::= !"Pf0".[2] ;;
    "n1001d".[3] ::= !"Pf1".[3] ;;
    "n1001" <~ avx_glm_vec4_dot$("g1001", "n1001d") ;;
    "n0101d".[0] ::= !"Pf0".[0] ;;
    "n0101d".[1] ::= !"Pf1".[1] ;;
    "n0101d".[2] ::= !"Pf0".[2] ;;
    "n0101d".[3] ::= !"Pf1".[3] ;;
    "n0101" <~ avx_glm_vec4_dot$("g0101", "n0101d") ;;
    "n1101d".[0] ::= !"Pf1".[0] ;;
    "n1101d".[1] ::= !"Pf1".[1] ;;
    "n1101d".[2] ::= !"Pf0".[2] ;;
    "n1101d".[3] ::= !"Pf1".[3] ;;
    "n1101" <~ avx_glm_vec4_dot$("g1101", "n1101d") ;;
    "n0011d".[0] ::= !"Pf0".[0] ;;
    "n0011d".[1] ::= !"Pf0".[1] ;;
    "n0011d".[2] ::= !"Pf1".[2] ;;
    "n0011d".[3] ::= !"Pf1".[3] ;;
    "n0011" <~ avx_glm_vec4_dot$("g0011", "n0011d") ;;
    "n1011d".[0] ::= !"Pf1".[0] ;;
    "n1011d".[1] ::= !"Pf0".[1] ;;
    "n1011d".[2] ::= !"Pf1".[2] ;;
    "n1011d".[3] ::= !"Pf1".[3] ;;
    "n1011" <~ avx_glm_vec4_dot$("g1011", "n1011d") ;;
    "n0111d".[0] ::= !"Pf0".[0] ;;
    "n0111d".[1] ::= !"Pf1".[1] ;;
    "n0111d".[2] ::= !"Pf1".[2] ;;
    "n0111d".[3] ::= !"Pf1".[3] ;;
    "n0111" <~ avx_glm_vec4_dot$("g0111", "n0111d") ;;
    "n1111" <~ avx_glm_vec4_dot$("g1111", "Pf1") ;;
    SExp avx_glm__noiseDetail_fade_vec4$("Pf0", "fade_xyzw") ;;
    "n_0w1".[0] ::= "n0000" ;;
    "n_0w1".[1] ::= "n1000" ;;
    "n_0w1".[2] ::= "n0100" ;;
    "n_0w1".[3] ::= "n1100" ;;
    "n_0w2".[0] ::= "n0001" ;;
    "n_0w2".[1] ::= "n1001" ;;
    "n_0w2".[2] ::= "n0101" ;;
    "n_0w2".[3] ::= "n1101" ;;
    SExp avx_glm_vec4_lerp$("n_0w1", "n_0w2", !"fade_xyzw".[3], "n_0w") ;;
    "n_1w1".[0] ::= "n0010" ;;
    "n_1w1".[1] ::= "n1010" ;;
    "n_1w1".[2] ::= "n0110" ;;
    "n_1w1".[3] ::= "n1110" ;;
    "n_1w2".[0] ::= "n0011" ;;
    "n_1w2".[1] ::= "n1011" ;;
    "n_1w2".[2] ::= "n0111" ;;
    "n_1w2".[3] ::= "n1111" ;;
    SExp avx_glm_vec4_lerp$("n_1w1", "n_1w2", !"fade_xyzw".[3], "n_1w") ;;
    SExp avx_glm_vec4_lerp$("n_0w", "n_1w", !"fade_xyzw".[2], "n_zw") ;;
    "n_yzw1".[0] ::= !"n_zw".[0] ;;
    "n_yzw1".[1] ::= !"n_zw".[1] ;;
    "n_yzw2".[0] ::= !"n_zw".[2] ;;
    "n_yzw2".[1] ::= !"n_zw".[3] ;;
    SExp glm_vec2_lerp$("n_yzw1", "n_yzw2", !"fade_xyzw".[1], "n_yzw") ;;
    "n_xyzw" <~ glm_lerp$(!"n_yzw".[0], !"n_yzw".[1], !"fade_xyzw".[0]) ;;
    SRet ("n_xyzw" * (EF 11 5))
  ).

(* noise.h:222-262 *)
Definition avx_glm__noiseDetail_i2gxyz : fundef := Fun
  [("ixy", None); ("gx", None); ("gy", None); ("gz", None)]
  [("gxa", Some 4%nat); ("gya", Some 4%nat); ("sz", Some 4%nat); ("temp", Some 4%nat)] (
    SExp avx_glm_vec4_scale$("ixy", ((EF 1 1) / (EF 7 1)), "gx") ;;
    SExp glm_vec4_floor$("gx", "gy") ;;
    SExp avx_glm_vec4_scale$("gy", ((EF 1 1) / (EF 7 1)), "gy") ;;
    SExp glm_vec4_fract$("gy", "gy") ;;
    SExp avx_glm_vec4_subs$("gy", (EF 1 2), "gy") ;;
    SExp glm_vec4_fract$("gx", "gx") ;;
    SExp avx_glm_vec4_abs$("gx", "gxa") ;;
    SExp avx_glm_vec4_abs$("gy", "gya") ;;
    SExp avx_glm_vec4_fill$("gz", (EF 1 2)) ;;
    SExp avx_glm_vec4_sub$("gz", "gxa", "gz") ;;
    SExp avx_glm_vec4_sub$("gz", "gya", "gz") ;;
    SExp glm_vec4_stepr$("gz", (EF 0 1), "sz") ;;
    "temp".[0] ::= (EF 0 1) ;;
    "temp".[1] ::= (EF 0 1) ;;
    "temp".[2] ::= (EF 0 1) ;;
    "temp".[3] ::= (EF 0 1) ;;
    SExp glm_vec4_step$("temp", "gx", "temp") ;;
    SExp avx_glm_vec4_subs$("temp", (EF 1 2), "temp") ;;
    SExp avx_glm_vec4_mul$("sz", "temp", "temp") ;;
    SExp avx_glm_vec4_sub$("gx", "temp", "gx") ;;
    SExp avx_glm_vec4_zero$("temp") ;;
    SExp glm_vec4_step$("temp", "gy", "temp") ;;
    SExp avx_glm_vec4_subs$("temp", (EF 1 2), "temp") ;;
    SExp avx_glm_vec4_mul$("sz", "temp", "temp") ;;
    SExp avx_glm_vec4_sub$("gy", "temp", "gy")
  ).

(* noise.h:118-130 *)
Definition avx_glm__noiseDetail_gradNorm_vec3 : fundef := Fun
  [("g00_", None); ("g01_", None); ("g10_", None); ("g11_", None)]
  [("norm", Some 4%nat)] (
    "norm".[0] ::= glm_vec3_dot$("g00_", "g00_") ;;
    "norm".[1] ::= glm_vec3_dot$("g01_", "g01_") ;;
    "norm".[2] ::= glm_vec3_dot$("g10_", "g10_") ;;
    "norm".[3] ::= glm_vec3_dot$("g11_", "g11_") ;;
    SExp avx_glm__noiseDetail_taylorInvSqrt$("norm", "norm") ;;
    SExp glm_vec3_scale$("g00_", !"norm".[0], "g00_") ;;
    SExp glm_vec3_scale$("g01_", !"norm".[1], "g01_") ;;
    SExp glm_vec3_scale$("g10_", !"norm".[2], "g10_") ;;
    SExp glm_vec3_scale$("g11_", !"norm".[3], "g11_")
  ).

(* noise.h:508-625 *)
Definition avx_glm_perlin_vec3 : fundef := Fun
  [("point", None)]
  [("Pi0", Some 3%nat); ("Pi1", Some 3%nat); ("Pf0", Some 3%nat); ("Pf1", Some 3%nat); ("ix", Some 4%nat); ("iy", Some 4%nat); ("iz0", Some 4%nat); ("iz1", Some 4%nat); ("ixy", Some 4%nat); ("ixy0", Some 4%nat); ("ixy1", Some 4%nat); ("gx0", Some 4%nat); ("gy0", Some 4%nat); ("gz0", Some 4%nat); ("gx1", Some 4%nat); ("gy1", Some 4%nat); ("gz1", Some 4%nat); ("g000", Some 3%nat); ("g100", Some 3%nat); ("g010", Some 3%nat); ("g110", Some 3%nat); ("g001", Some 3%nat); ("g101", Some 3%nat); ("g011", Some 3%nat); ("g111", Some 3%nat); ("n000", None); ("n100d", Some 3%nat); ("n100", None); ("n010d", Some 3%nat); ("n010", None); ("n110d", Some 3%nat); ("n110", None); ("n001d", Some 3%nat); ("n001", None); ("n101d", Some 3%nat); ("n101", None); ("n011d", Some 3%nat); ("n011", None); ("n111", None); ("fade_xyz", Some 3%nat); ("n_z", Some 4%nat); ("n_z1", Some 4%nat); ("n_z2", Some 4%nat); ("n_yz", Some 2%nat); ("n_yz1", Some 2%nat); ("n_yz2", Some 2%nat); ("n_xyz", None)] (
    SExp glm_vec3_floor$("point", "Pi0") ;;
    SExp glm_vec3_adds$("Pi0", (EF 1 1), "Pi1") ;;
    SExp glm_vec3_mods$("Pi0", (EF 289 1), "Pi0") ;;
    SExp glm_vec3_mods$("Pi1", (EF 289 1), "Pi1") ;;
    SExp glm_vec3_fract$("point", "Pf0") ;;
    SExp glm_vec3_subs$("Pf0", (EF 1 1), "Pf1") ;;
    "ix".[0] ::= !"Pi0".[0] ;;
    "ix".[1] ::= !"Pi1".[0] ;;
    "ix".[2] ::= !"Pi0".[0] ;;
    "ix".[3] ::= !"Pi1".[0] ;;
    "iy".[0] ::= !"Pi0".[1] ;;
    "iy".[1] ::= !"Pi0".[1] ;;
    "iy".[2] ::= !"Pi1".[1] ;;
    "iy".[3] ::= !"Pi1".[1] ;;
    "iz0".[0] ::= !"Pi0".[2] ;;
    "iz0".[1] ::= !"Pi0".[2] ;;
    "iz0".[2] ::= !"Pi0".[2] ;;
    "iz0".[3] ::= !"Pi0".[2] ;;
    "iz1".[0] ::= !"Pi1".[2] ;;
    "iz1".[1] ::= !"Pi1".[2] ;;
    "iz1".[2] ::= !"Pi1".[2] ;;
    "iz1".[3] ::= !"Pi1".[2] ;;
    SExp glm__noiseDetail_permute$("ix", "ixy") ;;
    SExp avx_glm_vec4_add$("ixy", "iy", "ixy") ;;
    SExp glm__noiseDetail_permute$("ixy", "ixy") ;;
    SExp avx_glm_vec4_add$("ixy", "iz0", "ixy0") ;;
    SExp glm__noiseDetail_permute$("ixy0", "ixy0") ;;
    SExp avx_glm_vec4_add$("ixy", "iz1", "ixy1") ;;
    SExp glm__noiseDetail_permute$("ixy1", "ixy1") ;;
    SExp avx_glm__noiseDetail_i2gxyz$("ixy0", "gx0", "gy0", "gz0") ;;
    SExp avx_glm__noiseDetail_i2gxyz$("ixy1", "gx1", "gy1", "gz1") ;;
    "g000".[0] ::= !"gx0".[0] ;;
    "g000".[1] ::= !"gy0".[0] ;;
    "g000".[2] ::= !"gz0".[0] ;;
    "g100".[0] ::= !"gx0".[1] ;;
    "g100".[1] ::= !"gy0".[1] ;;
    "g100".[2] ::= !"gz0".[1] ;;
    "g010".[0] ::= !"gx0".[2] ;;
    "g010".[1] ::= !"gy0".[2] ;;
    "g010".[2] ::= !"gz0".[2] ;;
    "g110".[0] ::= !"gx0".[3] ;;
    "g110".[1] ::= !"gy0".[3] ;;
    "g110".[2] ::= !"gz0".[3] ;;
    "g001".[0] ::= !"gx1".[0] ;;
    "g001".[1] ::= !"gy1".[0] ;;
    "g001".[2] ::= !"gz1".[0] ;;
    "g101".[0] ::= !"gx1".[1] ;;
    "g101".[1] ::= !"gy1".[1] ;;
    "g101".[2] ::= !"gz1".[1] ;;
    "g011".[0] ::= !"gx1".[2] ;;
    "g011".[1] ::= !"gy1".[2] ;;
    "g011".[2] ::= !"gz1".[2] ;;
    "g111".[0] ::= !"gx1".[3] ;;
    "g111".[1] ::= !"gy1".[3] ;;
    "g111".[2] ::= !"gz1".[3] ;;
    SExp avx_glm__noiseDetail_gradNorm_vec3$("g000", "g010", "g100", "g110") ;;
    SExp avx_glm__noiseDetail_gradNorm_vec3$("g001", "g011", "g101", "g111") ;;
    "n000" <~ glm_vec3_dot$("g000", "Pf0") ;;
    "n100d".[0] ::= !"Pf1".[0] ;;
    "n100d".[1] ::= !"Pf0".[1] ;;
    "n100d".[2] ::= !"Pf0".[2] ;;
    "n100" <~ glm_vec3_dot$("g100", "n100d") ;;
    "n010d".[0] ::= !"Pf0".[0] ;;
    "n010d".[1] ::= !"Pf1".[1] ;;
    "n010d".[2] ::= !"Pf0".[2] ;;
    "n010" <~ glm_vec3_dot$("g010", "n010d") ;;
    "n110d".[0] ::= !"Pf1".[0] ;;
    "n110d".[1] ::= !"Pf1".[1] ;;
    "n110d".[2] ::= !"Pf0".[2] ;;
    "n110" <~ glm_vec3_dot$("g110", "n110d") ;;
    "n001d".[0] ::= !"Pf0".[0] ;;
    "n001d".[1] ::= !"Pf0".[1] ;;
    "n001d".[2] ::= !"Pf1".[2] ;;
    "n001" <~ glm_vec3_dot$("g001", "n001d") ;;
    "n101d".[0] ::= !"Pf1".[0] ;;
    "n101d".[1] ::= !"Pf0".[1] ;;
    "n101d".[2] ::= !"Pf1".[2] ;;
    "n101" <~ glm_vec3_dot$("g101", "n101d") ;;
    "n011d".[0] ::= !"Pf0".[0] ;;
    "n011d".[1] ::= !"Pf1".[1] ;;
    "n011d".[2] ::= !"Pf1".[2] ;;
    "n011" <~ glm_vec3_dot$("g011", "n011d") ;;
    "n111" <~ glm_vec3_dot$("g111", "Pf1") ;;
    SExp glm__noiseDetail_fade_vec3$("Pf0", "fade_xyz") ;;
    "n_z1".[0] ::= "n000" ;;
    "n_z1".[1] ::= "n100" ;;
    "n_z1".[2] ::= "n010" ;;
    "n_z1".[3] ::= "n110" ;;
    "n_z2".[0] ::= "n001" ;;
    "n_z2".[1] ::= "n101" ;;
    "n_z2".[2] ::= "n011" ;;
    "n_z2".[3] ::= "n111" ;;
    SExp avx_glm_vec4_lerp$("n_z1", "n_z2", !"fade_xyz".[2], "n_z") ;;
    "n_yz1".[0] ::= !"n_z".[0] ;;
    "n_yz1".[1] ::= !"n_z".[1] ;;
    "n_yz2".[0] ::= !"n_z".[2] ;;
    "n_yz2".[1] ::= !"n_z".[3] ;;
    SExp glm_vec2_lerp$("n_yz1", "n_yz2", !"fade_xyz".[1], "n_yz") ;;
    "n_xyz" <~ glm_lerp$(!"n_yz".[0], !"n_yz".[1], !"fade_xyz".[0]) ;;
    SRet ("n_xyz" * (EF 11 5))
  ).

(* noise.h:265-283 *)
Definition avx_glm__noiseDetail_i2gxy : fundef := Fun
  [("i", None); ("gx", None); ("gy", None)]
  [("tx", Some 4%nat)] (
    SExp avx_glm_vec4_divs$("i", (EF 41 1), "gx") ;;
    SExp glm_vec4_fract$("gx", "gx") ;;
    SExp avx_glm_vec4_scale$("gx", (EF 2 1), "gx") ;;
    SExp avx_glm_vec4_subs$("gx", (EF 1 1), "gx") ;;
    SExp avx_glm_vec4_abs$("gx", "gy") ;;
    SExp avx_glm_vec4_subs$("gy", (EF 1 2), "gy") ;;
    SExp avx_glm_vec4_adds$("gx", (EF 1 2), "tx") ;;
    SExp glm_vec4_floor$("tx", "tx") ;;
    SExp avx_glm_vec4_sub$("gx", "tx", "gx")
  ).

(* noise.h:133-145 *)
Definition avx_glm__noiseDetail_gradNorm_vec2 : fundef := Fun
  [("g00", None); ("g01", None); ("g10", None); ("g11", None)]
  [("norm", Some 4%nat)] (
    "norm".[0] ::= glm_vec2_dot$("g00", "g00") ;;
    "norm".[1] ::= glm_vec2_dot$("g01", "g01") ;;
    "norm".[2] ::= glm_vec2_dot$("g10", "g10") ;;
    "norm".[3] ::= glm_vec2_dot$("g11", "g11") ;;
    SExp avx_glm__noiseDetail_taylorInvSqrt$("norm", "norm") ;;
    SExp glm_vec2_scale$("g00", !"norm".[0], "g00") ;;
    SExp glm_vec2_scale$("g01", !"norm".[1], "g01") ;;
    SExp glm_vec2_scale$("g10", !"norm".[2], "g10") ;;
    SExp glm_vec2_scale$("g11", !"norm".[3], "g11")
  ).

(* noise.h:635-717 *)
Definition avx_glm_perlin_vec2 : fundef := Fun
  [("point", None)]
  [("Pi", Some 4%nat); ("Pf", Some 4%nat); ("ix", Some 4%nat); ("iy", Some 4%nat); ("fx", Some 4%nat); ("fy", Some 4%nat); ("i", Some 4%nat); ("gx", Some 4%nat); ("gy", Some 4%nat); ("g00", Some 2%nat); ("g10", Some 2%nat); ("g01", Some 2%nat); ("g11", Some 2%nat); ("n00d", Some 2%nat); ("n00", None); ("n10d", Some 2%nat); ("n10", None); ("n01d", Some 2%nat); ("n01", None); ("n11d", Some 2%nat); ("n11", None); ("fade_xy", Some 2%nat); ("temp2", Some 2%nat); ("n_x", Some 2%nat); ("n_x1", Some 2%nat); ("n_x2", Some 2%nat); ("n_xy", None)] (
    "Pi".[0] ::= !"point".[0] ;;
    "Pi".[1] ::= !"point".[1] ;;
    "Pi".[2] ::= !"point".[0] ;;
    "Pi".[3] ::= !"point".[1] ;;
    SExp glm_vec4_floor$("Pi", "Pi") ;;
    "Pi".[2] ::= (!"Pi".[2] + (EF 1 1)) ;;
    "Pi".[3] ::= (!"Pi".[3] + (EF 1 1)) ;;
    "Pf".[0] ::= !"point".[0] ;;
    "Pf".[1] ::= !"point".[1] ;;
    "Pf".[2] ::= !"point".[0] ;;
    "Pf".[3] ::= !"point".[1] ;;
    SExp glm_vec4_fract$("Pf", "Pf") ;;
    "Pf".[2] ::= (!"Pf".[2] - (EF 1 1)) ;;
    "Pf".[3] ::= (!"Pf".[3] - (EF 1 1)) ;;
    SExp glm_vec4_mods$("Pi", (EF 289 1), "Pi") ;;
    "ix".[0] ::= !"Pi".[0] ;;
    "ix".[1] ::= !"Pi".[2] ;;
    "ix".[2] ::= !"Pi".[0] ;;
    "ix".[3] ::= !"Pi".[2] ;;
    "iy".[0] ::= !"Pi".[1] ;;
    "iy".[1] ::= !"Pi".[1] ;;
    "iy".[2] ::= !"Pi".[3] ;;
    "iy".[3] ::= !"Pi".[3] ;;
    "fx".[0] ::= !"Pf".[0] ;;
    "fx".[1] ::= !"Pf".[2] ;;
    "fx".[2] ::= !"Pf".[0] ;;
    "fx".[3] ::= !"Pf".[2] ;;
    "fy".[0] ::= !"Pf".[1] ;;
    "fy".[1] ::= !"Pf".[1] ;;
    "fy".[2] ::= !"Pf".[3] ;;
    "fy".[3] ::= !"Pf".[3] ;;
    SExp glm__noiseDetail_permute$("ix", "i") ;;
    SExp avx_glm_vec4_add$("i", "iy", "i") ;;
    SExp glm__noiseDetail_permute$("i", "i") ;;
    SExp avx_glm__noiseDetail_i2gxy$("i", "gx", "gy") ;;
    "g00".[0] ::= !"gx".[0] ;;
    "g00".[1] ::= !"gy".[0] ;;
    "g10".[0] ::= !"gx".[1] ;;
    "g10".[1] ::= !"gy".[1] ;;
    "g01".[0] ::= !"gx".[2] ;;
    "g01".[1] ::= !"gy".[2] ;;
    "g11".[0] ::= !"gx".[3] ;;
    "g11".[1] ::= !"gy".[3] ;;
    SExp avx_glm__noiseDetail_gradNorm_vec2$("g00", "g01", "g10", "g11") ;;
    "n00d".[0] ::= !"fx".[0] ;;
    "n00d".[1] ::= !"fy".[0] ;;
    "n00" <~ glm_vec2_dot$("g00", "n00d") ;;
    "n10d".[0] ::= !"fx".[1] ;;
    "n10d".[1] ::= !"fy".[1] ;;
    "n10" <~ glm_vec2_dot$("g10", "n10d") ;;
    "n01d".[0] ::= !"fx".[2] ;;
    "n01d".[1] ::= !"fy".[2] ;;
    "n01" <~ glm_vec2_dot$("g01", "n01d") ;;
    "n11d".[0] ::= !"fx".[3] ;;
    "n11d".[1] ::= !"fy".[3] ;;
    "n11" <~ glm_vec2_dot$("g11", "n11d") ;;
    "temp2".[0] ::= !"Pf".[0] ;;
    "temp2".[1] ::= !"Pf".[1] ;;
    SExp glm__noiseDetail_fade_vec2$("temp2", "fade_xy") ;;
    "n_x1".[0] ::= "n00" ;;
    "n_x1".[1] ::= "n01" ;;
    "n_x2".[0] ::= "n10" ;;
    "n_x2".[1] ::= "n11" ;;
    SExp glm_vec2_lerp$("n_x1", "n_x2", !"fade_xy".[0], "n_x") ;;
    "n_xy" <~ glm_lerp$(!"n_x".[0], !"n_x".[1], !"fade_xy".[1]) ;;
    SRet ("n_xy" * (EF 23 10))
  ).

(* clipspace/project_no.h:44-55 *)
Definition avx_glm_unprojecti_no : fundef := Fun
  [("pos", None); ("invMat", None); ("vp", None); ("dest", None)]
  [("v", Some 4%nat)] (
    "v".[0] ::= ((((EF 2 1) * (!"pos".[0] - !"vp".[0])) / !"vp".[2]) - (EF 1 1)) ;;
    "v".[1] ::= ((((EF 2 1) * (!"pos".[1] - !"vp".[1])) / !"vp".[3]) - (EF 1 1)) ;;
    "v".[2] ::= (((EF 2 1) * !"pos".[2]) - (EF 1 1)) ;;
    "v".[3] ::= (EF 1 1) ;;
    SExp avx_glm_mat4_mulv$("invMat", "v", "v") ;;
    SExp avx_glm_vec4_scale$("v", ((EF 1 1) / !"v".[3]), "v") ;;
    SExp glm_vec3$("v", "dest")
  ).

(* clipspace/project_no.h:71-84 *)
Definition avx_glm_project_no : fundef := Fun
  [("pos", None); ("m", None); ("vp", None); ("dest", None)]
  [("pos4", Some 4%nat)] (
    SExp glm_vec4$("pos", (EF 1 1), "pos4") ;;
    SExp avx_glm_mat4_mulv$("m", "pos4", "pos4") ;;
    SExp avx_glm_vec4_scale$("pos4", ((EF 1 1) / !"pos4".[3]), "pos4") ;;
    SExp avx_glm_vec4_scale$("pos4", (EF 1 2), "pos4") ;;
    SExp avx_glm_vec4_adds$("pos4", (EF 1 2), "pos4") ;;
    "dest".[0] ::= ((!"pos4".[0] * !"vp".[2]) + !"vp".[0]) ;;
    "dest".[1] ::= ((!"pos4".[1] * !"vp".[3]) + !"vp".[1]) ;;
    "dest".[2] ::= !"pos4".[2]
  ).

(* project.h:55-61 *)
Definition avx_glm_unprojecti : fundef := Fun
  [("pos", None); ("invMat", None); ("vp", None); ("dest", None)]
  [] (
    SExp avx_glm_unprojecti_no$("pos", "invMat", "vp", "dest")
  ).

(* project.h:89-93 *)
Definition avx_glm_unproject : fundef := Fun
  [("pos", None); ("m", None); ("vp", None); ("dest", None)]
  [("inv", Some 16%nat)] (
    SExp avx_glm_mat4_inv$("m", "inv") ;;
    SExp avx_glm_unprojecti$("pos", "inv", "vp", "dest")
  ).

(* project.h:109-115 *)
Definition avx_glm_project : fundef := Fun
  [("pos", None); ("m", None); ("vp", None); ("dest", None)]
  [] (
    SExp avx_glm_project_no$("pos", "m", "vp", "dest")
  ).

(* project.h:149-170 *)
Definition avx_glm_pickmatrix : fundef := Fun
  [("center", None); ("size", None); ("vp", None); ("dest", None)]
  [("res", Some 16%nat); ("v", Some 3%nat)] (
    (SIf (EOr (!"size".[0] <= (EF 0 1)) (!"size".[1] <= (EF 0 1))) (
      SRet0
    ) (
      SSkip
    )) ;;
    "v".[0] ::= ((!"vp".[2] - ((EF 2 1) * (!"center".[0] - !"vp".[0]))) / !"size".[0]) ;;
    "v".[1] ::= ((!"vp".[3] - ((EF 2 1) * (!"center".[1] - !"vp".[1]))) / !"size".[1]) ;;
    "v".[2] ::= (EF 0 1) ;;
    SExp avx_glm_translate_make$("res", "v") ;;
    "v".[0] ::= (!"vp".[2] / !"size".[0]) ;;
    "v".[1] ::= (!"vp".[3] / !"size".[1]) ;;
    "v".[2] ::= (EF 1 1) ;;
    SExp avx_glm_scale$("res", "v") ;;
    SExp avx_glm_mat4_copy$("res", "dest")
  ).

(* sphere.h:43-46 *)
Definition avx_glm_sphere_transform : fundef := Fun
  [("s", None); ("m", None); ("dest", None)]
  [] (
    SExp avx_glm_mat4_mulv3$("m", "s", (EF 1 1), "dest") ;;
    "dest".[3] ::= !"s".[3]
  ).

(* curve.h:34-38 *)
Definition avx_glm_smc : fundef := Fun
  [("s", None); ("m", None); ("c", None)]
  [("vs", Some 4%nat)] (
    SExp glm_vec4_cubic$("s", "vs") ;;
    SRet avx_glm_mat4_rmc$("vs", "m", "c")
  ).

(* clipspace/ortho_lh_no.h:50-69 *)
Definition avx_glm_ortho_lh_no : fundef := Fun
  [("left", None); ("right", None); ("bottom", None); ("top", None); ("nearZ", None); ("farZ", None); ("dest", None)]
  [("rl", None); ("tb", None); ("fn", None)] (
    SExp avx_glm_mat4_zero$("dest") ;;
    "rl" <~ ((EF 1 1) / ("right" - "left")) ;;
    "tb" <~ ((EF 1 1) / ("top" - "bottom")) ;;
    "fn" <~ ((- (EF 1 1)) / ("farZ" - "nearZ")) ;;
    "dest".[0:4].[0] ::= ((EF 2 1) * "rl") ;;
    "dest".[1:4].[1] ::= ((EF 2 1) * "tb") ;;
    "dest".[2:4].[2] ::= ((- (EF 2 1)) * "fn") ;;
    "dest".[3:4].[0] ::= ((- ("right" + "left")) * "rl") ;;
    "dest".[3:4].[1] ::= ((- ("top" + "bottom")) * "tb") ;;
    "dest".[3:4].[2] ::= (("farZ" + "nearZ") * "fn") ;;
    "dest".[3:4].[3] ::= (EF 1 1)
  ).

(* clipspace/ortho_lh_no.h:83-88 *)
Definition avx_glm_ortho_aabb_lh_no : fundef := Fun
  [("box", None); ("dest", None)]
  [] (
    SExp avx_glm_ortho_lh_no$(!"box".[0:3].[0], !"box".[1:3].[0], !"box".[0:3].[1], !"box".[1:3].[1], (- !"box".[1:3].[2]), (- !"box".[0:3].[2]), "dest")
  ).

(* clipspace/ortho_lh_no.h:103-108 *)
Definition avx_glm_ortho_aabb_p_lh_no : fundef := Fun
  [("box", None); ("padding", None); ("dest", None)]
  [] (
    SExp avx_glm_ortho_lh_no$((!"box".[0:3].[0] - "padding"), (!"box".[1:3].[0] + "padding"), (!"box".[0:3].[1] - "padding"), (!"box".[1:3].[1] + "padding"), (- (!"box".[1:3].[2] + "padding")), (- (!"box".[0:3].[2] - "padding")), "dest")
  ).

(* clipspace/ortho_lh_no.h:123-128 *)
Definition avx_glm_ortho_aabb_pz_lh_no : fundef := Fun
  [("box", None); ("padding", None); ("dest", None)]
  [] (
    SExp avx_glm_ortho_lh_no$(!"box".[0:3].[0], !"box".[1:3].[0], !"box".[0:3].[1], !"box".[1:3].[1], (- (!"box".[1:3].[2] + "padding")), (- (!"box".[0:3].[2] - "padding")), "dest")
  ).

(* clipspace/ortho_lh_no.h:140-149 *)
Definition avx_glm_ortho_default_lh_no : fundef := Fun
  [("aspect", None); ("dest", None)]
  [] (
    (SIf ("aspect" >= (EF 1 1)) (
      SExp avx_glm_ortho_lh_no$((- "aspect"), "aspect", (- (EF 1 1)), (EF 1 1), (- (EF 100 1)), (EF 100 1), "dest") ;;
      SRet0
    ) (
      SSkip
    )) ;;
    "aspect" <~ ((EF 1 1) / "aspect") ;;
    SExp avx_glm_ortho_lh_no$((- (EF 1 1)), (EF 1 1), (- "aspect"), "aspect", (- (EF 100 1)), (EF 100 1), "dest")
  ).

(* clipspace/ortho_lh_no.h:162-181 *)
Definition avx_glm_ortho_default_s_lh_no : fundef := Fun
  [("aspect", None); ("size", None); ("dest", None)]
  [] (
    (SIf ("aspect" >= (EF 1 1)) (
      SExp avx_glm_ortho_lh_no$(((- "size") * "aspect"), ("size" * "aspect"), (- "size"), "size", ((- "size") - (EF 100 1)), ("size" + (EF 100 1)), "dest") ;;
      SRet0
    ) (
      SSkip
    )) ;;
    SExp avx_glm_ortho_lh_no$((- "size"), "size", ((- "size") / "aspect"), ("size" / "aspect"), ((- "size") - (EF 100 1)), ("size" + (EF 100 1)), "dest")
  ).

(* clipspace/ortho_lh_zo.h:49-68 *)
Definition avx_glm_ortho_lh_zo : fundef := Fun
  [("left", None); ("right", None); ("bottom", None); ("top", None); ("nearZ", None); ("farZ", None); ("dest", None)]
  [("rl", None); ("tb", None); ("fn", None)] (
    SExp avx_glm_mat4_zero$("dest") ;;
    "rl" <~ ((EF 1 1) / ("right" - "left")) ;;
    "tb" <~ ((EF 1 1) / ("top" - "bottom")) ;;
    "fn" <~ ((- (EF 1 1)) / ("farZ" - "nearZ")) ;;
    "dest".[0:4].[0] ::= ((EF 2 1) * "rl") ;;
    "dest".[1:4].[1] ::= ((EF 2 1) * "tb") ;;
    "dest".[2:4].[2] ::= (- "fn") ;;
    "dest".[3:4].[0] ::= ((- ("right" + "left")) * "rl") ;;
    "dest".[3:4].[1] ::= ((- ("top" + "bottom")) * "tb") ;;
    "dest".[3:4].[2] ::= ("nearZ" * "fn") ;;
    "dest".[3:4].[3] ::= (EF 1 1)
  ).

(* clipspace/ortho_lh_zo.h:81-86 *)
Definition avx_glm_ortho_aabb_lh_zo : fundef := Fun
  [("box", None); ("dest", None)]
  [] (
    SExp avx_glm_ortho_lh_zo$(!"box".[0:3].[0], !"box".[1:3].[0], !"box".[0:3].[1], !"box".[1:3].[1], (- !"box".[1:3].[2]), (- !"box".[0:3].[2]), "dest")
  ).

(* clipspace/ortho_lh_zo.h:100-105 *)
Definition avx_glm_ortho_aabb_p_lh_zo : fundef := Fun
  [("box", None); ("padding", None); ("dest", None)]
  [] (
    SExp avx_glm_ortho_lh_zo$((!"box".[0:3].[0] - "padding"), (!"box".[1:3].[0] + "padding"), (!"box".[0:3].[1] - "padding"), (!"box".[1:3].[1] + "padding"), (- (!"box".[1:3].[2] + "padding")), (- (!"box".[0:3].[2] - "padding")), "dest")
  ).

(* clipspace/ortho_lh_zo.h:119-124 *)
Definition avx_glm_ortho_aabb_pz_lh_zo : fundef := Fun
  [("box", None); ("padding", None); ("dest", None)]
  [] (
    SExp avx_glm_ortho_lh_zo$(!"box".[0:3].[0], !"box".[1:3].[0], !"box".[0:3].[1], !"box".[1:3].[1], (- (!"box".[1:3].[2] + "padding")), (- (!"box".[0:3].[2] - "padding")), "dest")
  ).

(* clipspace/ortho_lh_zo.h:135-144 *)
Definition avx_glm_ortho_default_lh_zo : fundef := Fun
  [("aspect", None); ("dest", None)]
  [] (
    (SIf ("aspect" >= (EF 1 1)) (
      SExp avx_glm_ortho_lh_zo$((- "aspect"), "aspect", (- (EF 1 1)), (EF 1 1), (- (EF 100 1)), (EF 100 1), "dest") ;;
      SRet0
    ) (
      SSkip
    )) ;;
    "aspect" <~ ((EF 1 1) / "aspect") ;;
    SExp avx_glm_ortho_lh_zo$((- (EF 1 1)), (EF 1 1), (- "aspect"), "aspect", (- (EF 100 1)), (EF 100 1), "dest")
  ).

(* clipspace/ortho_lh_zo.h:156-175 *)
Definition avx_glm_ortho_default_s_lh_zo : fundef := Fun
  [("aspect", None); ("size", None); ("dest", None)]
  [] (
    (SIf ("aspect" >= (EF 1 1)) (
      SExp avx_glm_ortho_lh_zo$(((- "size") * "aspect"), ("size" * "aspect"), (- "size"), "size", ((- "size") - (EF 100 1)), ("size" + (EF 100 1)), "dest") ;;
      SRet0
    ) (
      SSkip
    )) ;;
    SExp avx_glm_ortho_lh_zo$((- "size"), "size", ((- "size") / "aspect"), ("size" / "aspect"), ((- "size") - (EF 100 1)), ("size" + (EF 100 1)), "dest")
  ).

(* clipspace/ortho_rh_zo.h:49-68 *)
Definition avx_glm_ortho_rh_zo : fundef := Fun
  [("left", None); ("right", None); ("bottom", None); ("top", None); ("nearZ", None); ("farZ", None); ("dest", None)]
  [("rl", None); ("tb", None); ("fn", None)] (
    SExp avx_glm_mat4_zero$("dest") ;;
    "rl" <~ ((EF 1 1) / ("right" - "left")) ;;
    "tb" <~ ((EF 1 1) / ("top" - "bottom")) ;;
    "fn" <~ ((- (EF 1 1)) / ("farZ" - "nearZ")) ;;
    "dest".[0:4].[0] ::= ((EF 2 1) * "rl") ;;
    "dest".[1:4].[1] ::= ((EF 2 1) * "tb") ;;
    "dest".[2:4].[2] ::= "fn" ;;
    "dest".[3:4].[0] ::= ((- ("right" + "left")) * "rl") ;;
    "dest".[3:4].[1] ::= ((- ("top" + "bottom")) * "tb") ;;
    "dest".[3:4].[2] ::= ("nearZ" * "fn") ;;
    "dest".[3:4].[3] ::= (EF 1 1)
  ).

(* clipspace/ortho_rh_zo.h:82-87 *)
Definition avx_glm_ortho_aabb_rh_zo : fundef := Fun
  [("box", None); ("dest", None)]
  [] (
    SExp avx_glm_ortho_rh_zo$(!"box".[0:3].[0], !"box".[1:3].[0], !"box".[0:3].[1], !"box".[1:3].[1], (- !"box".[1:3].[2]), (- !"box".[0:3].[2]), "dest")
  ).

(* clipspace/ortho_rh_zo.h:102-107 *)
Definition avx_glm_ortho_aabb_p_rh_zo : fundef := Fun
  [("box", None); ("padding", None); ("dest", None)]
  [] (
    SExp avx_glm_ortho_rh_zo$((!"box".[0:3].[0] - "padding"), (!"box".[1:3].[0] + "padding"), (!"box".[0:3].[1] - "padding"), (!"box".[1:3].[1] + "padding"), (- (!"box".[1:3].[2] + "padding")), (- (!"box".[0:3].[2] - "padding")), "dest")
  ).

(* clipspace/ortho_rh_zo.h:122-127 *)
Definition avx_glm_ortho_aabb_pz_rh_zo : fundef := Fun
  [("box", None); ("padding", None); ("dest", None)]
  [] (
    SExp avx_glm_ortho_rh_zo$(!"box".[0:3].[0], !"box".[1:3].[0], !"box".[0:3].[1], !"box".[1:3].[1], (- (!"box".[1:3].[2] + "padding")), (- (!"box".[0:3].[2] - "padding")), "dest")
  ).

(* clipspace/ortho_rh_zo.h:138-147 *)
Definition avx_glm_ortho_default_rh_zo : fundef := Fun
  [("aspect", None); ("dest", None)]
  [] (
    (SIf ("aspect" >= (EF 1 1)) (
      SExp avx_glm_ortho_rh_zo$((- "aspect"), "aspect", (- (EF 1 1)), (EF 1 1), (- (EF 100 1)), (EF 100 1), "dest") ;;
      SRet0
    ) (
      SSkip
    )) ;;
    "aspect" <~ ((EF 1 1) / "aspect") ;;
    SExp avx_glm_ortho_rh_zo$((- (EF 1 1)), (EF 1 1), (- "aspect"), "aspect", (- (EF 100 1)), (EF 100 1), "dest")
  ).

(* clipspace/ortho_rh_zo.h:160-179 *)
Definition avx_glm_ortho_default_s_rh_zo : fundef := Fun
  [("aspect", None); ("size", None); ("dest", None)]
  [] (
    (SIf ("aspect" >= (EF 1 1)) (
      SExp avx_glm_ortho_rh_zo$(((- "size") * "aspect"), ("size" * "aspect"), (- "size"), "size", ((- "size") - (EF 100 1)), ("size" + (EF 100 1)), "dest") ;;
      SRet0
    ) (
      SSkip
    )) ;;
    SExp avx_glm_ortho_rh_zo$((- "size"), "size", ((- "size") / "aspect"), ("size" / "aspect"), ((- "size") - (EF 100 1)), ("size" + (EF 100 1)), "dest")
  ).

(* clipspace/persp_lh_no.h:67-87 *)
Definition avx_glm_frustum_lh_no : fundef := Fun
  [("left", None); ("right", None); ("bottom", None); ("top", None); ("nearZ", None); ("farZ", None); ("dest", None)]
  [("rl", None); ("tb", None); ("fn", None); ("nv", None)] (
    SExp avx_glm_mat4_zero$("dest") ;;
    "rl" <~ ((EF 1 1) / ("right" - "left")) ;;
    "tb" <~ ((EF 1 1) / ("top" - "bottom")) ;;
    "fn" <~ ((- (EF 1 1)) / ("farZ" - "nearZ")) ;;
    "nv" <~ ((EF 2 1) * "nearZ") ;;
    "dest".[0:4].[0] ::= ("nv" * "rl") ;;
    "dest".[1:4].[1] ::= ("nv" * "tb") ;;
    "dest".[2:4].[0] ::= (("right" + "left") * "rl") ;;
    "dest".[2:4].[1] ::= (("top" + "bottom") * "tb") ;;
    "dest".[2:4].[2] ::= ((- ("farZ" + "nearZ")) * "fn") ;;
    "dest".[2:4].[3] ::= (EF 1 1) ;;
    "dest".[3:4].[2] ::= (("farZ" * "nv") * "fn")
  ).

(* clipspace/persp_lh_no.h:102-120 *)
Definition avx_glm_perspective_lh_no : fundef := Fun
  [("fovy", None); ("aspect", None); ("nearZ", None); ("farZ", None); ("dest", None)]
  [("f", None); ("fn", None)] (
    SExp avx_glm_mat4_zero$("dest") ;;
    "f" <~ ((EF 1 1) / builtin (PF1 OTan)$(("fovy" * (EF 1 2)))) ;;
    "fn" <~ ((EF 1 1) / ("nearZ" - "farZ")) ;;
    "dest".[0:4].[0] ::= ("f" / "aspect") ;;
    "dest".[1:4].[1] ::= "f" ;;
    "dest".[2:4].[2] ::= ((- ("nearZ" + "farZ")) * "fn") ;;
    "dest".[2:4].[3] ::= (EF 1 1) ;;
    "dest".[3:4].[2] ::= ((((EF 2 1) * "nearZ") * "farZ") * "fn")
  ).

(* clipspace/persp_lh_no.h:132-134 *)
Definition avx_glm_perspective_default_lh_no : fundef := Fun
  [("aspect", None); ("dest", None)]
  [] (
    SExp avx_glm_perspective_lh_no$((EPi 1 4), "aspect", (EF 1 100), (EF 100 1), "dest")
  ).

(* clipspace/persp_lh_zo.h:66-86 *)
Definition avx_glm_frustum_lh_zo : fundef := Fun
  [("left", None); ("right", None); ("bottom", None); ("top", None); ("nearZ", None); ("farZ", None); ("dest", None)]
  [("rl", None); ("tb", None); ("fn", None); ("nv", None)] (
    SExp avx_glm_mat4_zero$("dest") ;;
    "rl" <~ ((EF 1 1) / ("right" - "left")) ;;
    "tb" <~ ((EF 1 1) / ("top" - "bottom")) ;;
    "fn" <~ ((- (EF 1 1)) / ("farZ" - "nearZ")) ;;
    "nv" <~ ((EF 2 1) * "nearZ") ;;
    "dest".[0:4].[0] ::= ("nv" * "rl") ;;
    "dest".[1:4].[1] ::= ("nv" * "tb") ;;
    "dest".[2:4].[0] ::= (("right" + "left") * "rl") ;;
    "dest".[2:4].[1] ::= (("top" + "bottom") * "tb") ;;
    "dest".[2:4].[2] ::= ((- "farZ") * "fn") ;;
    "dest".[2:4].[3] ::= (EF 1 1) ;;
    "dest".[3:4].[2] ::= (("farZ" * "nearZ") * "fn")
  ).

(* clipspace/persp_lh_zo.h:100-117 *)
Definition avx_glm_perspective_lh_zo : fundef := Fun
  [("fovy", None); ("aspect", None); ("nearZ", None); ("farZ", None); ("dest", None)]
  [("f", None); ("fn", None)] (
    SExp avx_glm_mat4_zero$("dest") ;;
    "f" <~ ((EF 1 1) / builtin (PF1 OTan)$(("fovy" * (EF 1 2)))) ;;
    "fn" <~ ((EF 1 1) / ("nearZ" - "farZ")) ;;
    "dest".[0:4].[0] ::= ("f" / "aspect") ;;
    "dest".[1:4].[1] ::= "f" ;;
    "dest".[2:4].[2] ::= ((- "farZ") * "fn") ;;
    "dest".[2:4].[3] ::= (EF 1 1) ;;
    "dest".[3:4].[2] ::= (("nearZ" * "farZ") * "fn")
  ).

(* clipspace/persp_lh_zo.h:155-157 *)
Definition avx_glm_perspective_default_lh_zo : fundef := Fun
  [("aspect", None); ("dest", None)]
  [] (
    SExp avx_glm_perspective_lh_zo$((EPi 1 4), "aspect", (EF 1 100), (EF 100 1), "dest")
  ).

(* clipspace/persp_rh_zo.h:66-86 *)
Definition avx_glm_frustum_rh_zo : fundef := Fun
  [("left", None); ("right", None); ("bottom", None); ("top", None); ("nearZ", None); ("farZ", None); ("dest", None)]
  [("rl", None); ("tb", None); ("fn", None); ("nv", None)] (
    SExp avx_glm_mat4_zero$("dest") ;;
    "rl" <~ ((EF 1 1) / ("right" - "left")) ;;
    "tb" <~ ((EF 1 1) / ("top" - "bottom")) ;;
    "fn" <~ ((- (EF 1 1)) / ("farZ" - "nearZ")) ;;
    "nv" <~ ((EF 2 1) * "nearZ") ;;
    "dest".[0:4].[0] ::= ("nv" * "rl") ;;
    "dest".[1:4].[1] ::= ("nv" * "tb") ;;
    "dest".[2:4].[0] ::= (("right" + "left") * "rl") ;;
    "dest".[2:4].[1] ::= (("top" + "bottom") * "tb") ;;
    "dest".[2:4].[2] ::= ("farZ" * "fn") ;;
    "dest".[2:4].[3] ::= (- (EF 1 1)) ;;
    "dest".[3:4].[2] ::= (("farZ" * "nearZ") * "fn")
  ).

(* clipspace/persp_rh_zo.h:100-117 *)
Definition avx_glm_perspective_rh_zo : fundef := Fun
  [("fovy", None); ("aspect", None); ("nearZ", None); ("farZ", None); ("dest", None)]
  [("f", None); ("fn", None)] (
    SExp avx_glm_mat4_zero$("dest") ;;
    "f" <~ ((EF 1 1) / builtin (PF1 OTan)$(("fovy" * (EF 1 2)))) ;;
    "fn" <~ ((EF 1 1) / ("nearZ" - "farZ")) ;;
    "dest".[0:4].[0] ::= ("f" / "aspect") ;;
    "dest".[1:4].[1] ::= "f" ;;
    "dest".[2:4].[2] ::= ("farZ" * "fn") ;;
    "dest".[2:4].[3] ::= (- (EF 1 1)) ;;
    "dest".[3:4].[2] ::= (("nearZ" * "farZ") * "fn")
  ).

(* clipspace/persp_rh_zo.h:129-131 *)
Definition avx_glm_perspective_default_rh_zo : fundef := Fun
  [("aspect", None); ("dest", None)]
  [] (
    SExp avx_glm_perspective_rh_zo$((EPi 1 4), "aspect", (EF 1 100), (EF 100 1), "dest")
  ).

(* clipspace/project_zo.h:44-55 *)
Definition avx_glm_unprojecti_zo : fundef := Fun
  [("pos", None); ("invMat", None); ("vp", None); ("dest", None)]
  [("v", Some 4%nat)] (
    "v".[0] ::= ((((EF 2 1) * (!"pos".[0] - !"vp".[0])) / !"vp".[2]) - (EF 1 1)) ;;
    "v".[1] ::= ((((EF 2 1) * (!"pos".[1] - !"vp".[1])) / !"vp".[3]) - (EF 1 1)) ;;
    "v".[2] ::= !"pos".[2] ;;
    "v".[3] ::= (EF 1 1) ;;
    SExp avx_glm_mat4_mulv$("invMat", "v", "v") ;;
    SExp avx_glm_vec4_scale$("v", ((EF 1 1) / !"v".[3]), "v") ;;
    SExp glm_vec3$("v", "dest")
  ).

(* clipspace/project_zo.h:71-86 *)
Definition avx_glm_project_zo : fundef := Fun
  [("pos", None); ("m", None); ("vp", None); ("dest", None)]
  [("pos4", Some 4%nat)] (
    SExp glm_vec4$("pos", (EF 1 1), "pos4") ;;
    SExp avx_glm_mat4_mulv$("m", "pos4", "pos4") ;;
    SExp avx_glm_vec4_scale$("pos4", ((EF 1 1) / !"pos4".[3]), "pos4") ;;
    "dest".[2] ::= !"pos4".[2] ;;
    SExp avx_glm_vec4_scale$("pos4", (EF 1 2), "pos4") ;;
    SExp avx_glm_vec4_adds$("pos4", (EF 1 2), "pos4") ;;
    "dest".[0] ::= ((!"pos4".[0] * !"vp".[2]) + !"vp".[0]) ;;
    "dest".[1] ::= ((!"pos4".[1] * !"vp".[3]) + !"vp".[1])
  ).

