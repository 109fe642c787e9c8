(** * Agreement of the SIMD builds with the scalar build (C55) *)

From Coq Require Import List ZArith Reals.
From Verif Require Import MiniC RScalar Contract Cglm.
From Verif.Spec Require Import Types Agree Builds.
From Verif.Proofs Require Import Safe SimdTac.
From Verif.Simd Require sse2 avx fma neon neon32 wasm.
Import ListNotations.

(** Many functions are the same in several builds: the checks run on a list without repetitions. *)
Definition pick {A} (ix : list nat) (l : list A) : list A := flat_map (fun i => match nth_error l i with Some x => [x] | None => [] end) ix.
Lemma pick_ok : forall A (P : A -> Prop) ix l, Forall P l -> Forall P (pick ix l).
Proof.
  intros A P ix l H. rewrite Forall_forall in *. unfold pick. intros x I. apply in_flat_map in I. destruct I as (i & _ & I).
  destruct (nth_error l i) eqn:E; [|destruct I]. destruct I as [<-|[]]. apply H. eapply nth_error_In. exact E.
Qed.
Definition pool_exact : list (fundef * fundef * list param) := Eval cbv [pick flat_map nth_error app] in
  (sse2_exact
  ++ pick [29; 30; 31; 32; 33; 35; 37; 39; 44; 46; 47; 48; 49; 50; 51; 52; 53; 54; 55; 56; 57; 58; 59; 60; 61; 62; 63; 64; 72; 73; 74; 75; 76; 77; 78; 79; 80; 81; 82; 83; 84; 85; 86; 87; 88; 89; 90; 91; 92; 93; 94; 95; 96; 97; 98; 99]%nat avx_exact
  ++ pick [0; 15; 16; 17; 18; 19; 20; 21; 22; 27; 28; 29; 30; 39; 40; 61; 62; 64; 67; 70; 71; 72; 73; 75; 103; 104]%nat neon_exact
  ++ pick [2; 5; 33; 37; 38; 39; 40; 41; 43; 44; 72]%nat wasm_exact).
Lemma pool_exact_ok : Forall (fun p => forall S, agree_on S p) pool_exact.
Proof. exact_all 30%nat. Qed.
Definition pool_real : list (fundef * fundef * list param) := Eval cbv [pick flat_map nth_error app] in
  (sse2_real
  ++ pick [1; 2; 3; 4; 5; 6; 12; 13; 19; 20; 21; 24; 25; 28; 29; 34; 43; 44; 50; 53; 57; 58; 59; 61; 62; 63; 64; 66; 67; 68; 69; 71; 72; 73; 80]%nat avx_real
  ++ pick [8; 9; 12; 13; 24; 25; 26; 27; 29; 30; 31; 32; 33; 34; 36; 37; 38; 39; 40; 41; 42; 43; 44; 45; 46; 47; 48; 49; 50; 51; 52; 53; 54; 55; 56; 64; 73; 75; 76; 77; 78; 79; 80; 81; 82; 83; 84; 85; 86]%nat fma_real
  ++ pick [0; 1; 2; 3; 4; 8; 9; 12; 13; 14; 15; 16; 17; 18; 19; 20; 21; 22; 23; 24; 25; 26; 27; 28; 29; 30; 31; 32; 33; 35; 39; 40; 41; 42; 43; 44; 45; 46; 47; 48; 49; 50; 51; 52; 53; 54; 55; 56; 57; 58; 59; 60; 61; 62; 63; 64; 65; 66; 67; 68; 69; 70; 71; 72; 73; 74; 75]%nat neon_real
  ++ pick [0; 1; 2; 3; 4; 5; 6; 11; 12; 13; 14; 18; 19; 20; 21; 22; 24; 25; 26; 27; 28; 29; 30; 36; 37; 38; 39; 40; 41; 42; 43; 44; 45; 46; 47; 48; 49; 50; 51; 52; 53; 54; 55; 56; 57; 58; 59; 60; 61; 62; 63; 64; 65; 66; 67; 68; 71; 72]%nat neon32_real
  ++ pick [0; 1; 2; 3; 4; 5; 11; 12; 18; 19; 20; 21; 22; 23; 24; 25; 26; 27; 28; 29; 30; 31; 32; 38; 39; 40; 41; 42; 43; 44; 45; 46; 47; 48; 49; 50; 51; 52; 53; 54; 55; 56; 57; 58; 59; 60; 61; 62; 63; 64; 66; 67; 68; 69; 70; 71; 72; 73; 74; 75; 76; 77; 78; 79; 80; 81; 82]%nat wasm_real).
Lemma pool_real_ok : Forall (agree_on RS) pool_real.
Proof. real_all 30%nat. Qed.

(** SSE2 build: the functions that do the same operations in the same order agree with the
    scalar ones for every arithmetic. *)
Lemma C55_sse2_exact_ok : Forall (fun p => forall S, agree_on S p) sse2_exact.
Proof. exact (pick_ok _ _ [0; 1; 2; 3; 4; 5; 6; 7; 8; 9; 10; 11; 12; 13; 14; 15; 16; 17; 18; 19; 20; 21; 22; 23; 24; 25; 26; 27; 28; 29; 30; 31; 32; 33; 34; 35; 36; 37; 38; 39; 40; 41; 42; 43; 44; 45; 46; 47; 48; 49; 50; 51; 52; 53; 54; 55; 56; 57; 58; 59; 60; 61; 62; 63; 64; 65; 66; 67; 68; 69; 70; 71; 72; 73; 74; 75; 76; 77; 78; 79; 80; 81; 82; 83; 84; 85; 86; 87; 88; 89; 90; 91; 92; 93; 94; 95; 96; 97; 98; 99]%nat pool_exact pool_exact_ok). Qed.
(** SSE2 build: the functions that reorder operations agree with the scalar ones over the
    reals, including on where an operation is undefined. *)
Lemma C55_sse2_real_ok : Forall (agree_on RS) sse2_real.
Proof. exact (pick_ok _ _ [0; 1; 2; 3; 4; 5; 6; 7; 8; 9; 10; 11; 12; 13; 14; 15; 16; 17; 18; 19; 20; 21; 22; 23; 24; 25; 26; 27; 28; 29; 30; 31; 32; 33; 34; 35; 36; 37; 38; 39; 40; 41; 42; 43; 44; 45; 46; 47; 48; 49; 50; 51; 52; 53; 54; 55; 56; 57; 58; 59; 60; 61; 62; 63; 64; 65; 66; 67; 68; 69; 70; 71; 72; 73; 74; 75; 76; 77; 78; 79; 80; 81; 82; 83]%nat pool_real pool_real_ok). Qed.

(** AVX build: the functions that do the same operations in the same order agree with the
    scalar ones for every arithmetic. *)
Lemma C55_avx_exact_ok : Forall (fun p => forall S, agree_on S p) avx_exact.
Proof. exact (pick_ok _ _ [0; 1; 2; 3; 4; 5; 6; 7; 8; 9; 10; 11; 12; 13; 14; 15; 16; 17; 18; 19; 20; 21; 22; 23; 24; 25; 26; 27; 28; 100; 101; 102; 103; 104; 34; 105; 36; 106; 38; 107; 40; 41; 42; 43; 108; 45; 109; 110; 111; 112; 113; 114; 115; 116; 117; 118; 119; 120; 121; 122; 123; 124; 125; 126; 127; 65; 66; 67; 68; 69; 70; 71; 128; 129; 130; 131; 132; 133; 134; 135; 136; 137; 138; 139; 140; 141; 142; 143; 144; 145; 146; 147; 148; 149; 150; 151; 152; 153; 154; 155]%nat pool_exact pool_exact_ok). Qed.
(** AVX build: the functions that reorder operations agree with the scalar ones over the
    reals, including on where an operation is undefined. *)
Lemma C55_avx_real_ok : Forall (agree_on RS) avx_real.
Proof. exact (pick_ok _ _ [0; 84; 85; 86; 87; 88; 89; 7; 8; 9; 10; 11; 90; 91; 14; 15; 16; 17; 18; 92; 93; 94; 22; 23; 95; 96; 26; 27; 97; 98; 30; 31; 33; 34; 99; 36; 37; 38; 39; 40; 41; 42; 43; 100; 101; 46; 47; 48; 49; 50; 102; 52; 53; 103; 55; 56; 57; 104; 105; 106; 61; 107; 108; 109; 110; 66; 111; 112; 113; 114; 71; 115; 116; 117; 75; 76; 77; 78; 79; 80; 118; 82; 83]%nat pool_real pool_real_ok). Qed.

(** FMA (with AVX) build: the functions that do the same operations in the same order agree with the
    scalar ones for every arithmetic. *)
Lemma C55_fma_exact_ok : Forall (fun p => forall S, agree_on S p) fma_exact.
Proof. exact (pick_ok _ _ [0; 1; 2; 3; 4; 5; 6; 7; 8; 9; 10; 11; 12; 13; 14; 15; 18; 19; 22; 23; 24; 25; 26; 27; 28; 100; 101; 102; 103; 104; 34; 105; 36; 106; 38; 107; 40; 41; 42; 43; 108; 45; 109; 110; 111; 112; 113; 114; 115; 116; 117; 118; 119; 120; 121; 122; 123; 124; 125; 126; 127; 65; 66; 67; 68; 69; 70; 71; 128; 129; 130; 131; 132; 133; 134; 135; 136; 137; 138; 139; 140; 141; 142; 143; 144; 145; 146; 147; 148; 149; 150; 151; 152; 153; 154; 155]%nat pool_exact pool_exact_ok). Qed.
(** FMA (with AVX) build: the functions that reorder operations agree with the scalar ones over the
    reals, including on where an operation is undefined. *)
Lemma C55_fma_real_ok : Forall (agree_on RS) fma_real.
Proof. exact (pick_ok _ _ [0; 84; 85; 86; 87; 88; 89; 7; 119; 120; 8; 9; 121; 122; 10; 11; 90; 91; 14; 15; 16; 17; 18; 92; 123; 124; 125; 126; 95; 127; 128; 129; 130; 131; 132; 31; 133; 134; 135; 136; 137; 138; 139; 140; 141; 142; 143; 144; 145; 146; 147; 148; 149; 150; 151; 152; 153; 103; 55; 56; 57; 104; 105; 106; 154; 107; 108; 109; 110; 66; 111; 112; 113; 155; 71; 156; 157; 158; 159; 160; 161; 162; 163; 164; 165; 166; 167]%nat pool_real pool_real_ok). Qed.

(** NEON, 64-bit build: the functions that do the same operations in the same order agree with the
    scalar ones for every arithmetic. *)
Lemma C55_neon_exact_ok : Forall (fun p => forall S, agree_on S p) neon_exact.
Proof. exact (pick_ok _ _ [156; 4; 5; 6; 7; 8; 9; 10; 11; 12; 13; 14; 15; 18; 19; 157; 158; 159; 160; 161; 162; 163; 164; 28; 29; 30; 31; 165; 166; 167; 168; 34; 35; 36; 37; 38; 39; 40; 41; 169; 170; 44; 45; 46; 47; 48; 49; 50; 51; 52; 53; 54; 55; 56; 57; 58; 59; 60; 61; 62; 63; 171; 172; 65; 173; 66; 67; 174; 69; 70; 175; 176; 177; 178; 72; 179; 73; 74; 75; 76; 77; 78; 79; 80; 81; 82; 83; 84; 85; 86; 87; 88; 89; 90; 91; 92; 93; 94; 95; 96; 97; 98; 99; 180; 181]%nat pool_exact pool_exact_ok). Qed.
(** NEON, 64-bit build: the functions that reorder operations agree with the scalar ones over the
    reals, including on where an operation is undefined. *)
Lemma C55_neon_real_ok : Forall (agree_on RS) neon_real.
Proof. exact (pick_ok _ _ [168; 169; 170; 171; 172; 7; 119; 120; 173; 174; 121; 122; 175; 176; 177; 178; 179; 180; 181; 182; 183; 184; 185; 186; 187; 188; 189; 190; 191; 192; 193; 194; 195; 196; 134; 197; 136; 137; 138; 198; 199; 200; 201; 202; 203; 204; 205; 206; 207; 208; 209; 210; 211; 212; 213; 214; 215; 216; 217; 218; 219; 220; 221; 222; 223; 224; 225; 226; 227; 228; 229; 230; 231; 232; 233; 234]%nat pool_real pool_real_ok). Qed.

(** NEON, 32-bit build: the functions that do the same operations in the same order agree with the
    scalar ones for every arithmetic. *)
Lemma C55_neon32_exact_ok : Forall (fun p => forall S, agree_on S p) neon32_exact.
Proof. exact (pick_ok _ _ [156; 4; 5; 6; 7; 8; 9; 10; 11; 12; 14; 15; 16; 17; 18; 19; 20; 21; 157; 158; 159; 160; 161; 162; 163; 164; 28; 29; 30; 31; 165; 166; 167; 168; 34; 35; 36; 37; 38; 39; 40; 41; 169; 170; 44; 45; 46; 47; 48; 49; 50; 51; 52; 53; 54; 55; 56; 57; 58; 59; 60; 61; 62; 63; 171; 172; 65; 173; 66; 67; 174; 69; 70; 175; 176; 177; 178; 72; 179; 73; 74; 75; 76; 77; 78; 79; 80; 81; 82; 83; 84; 85; 86; 87; 88; 89; 90; 91; 92; 93; 94; 95; 96; 97; 98; 99; 180; 181]%nat pool_exact pool_exact_ok). Qed.
(** NEON, 32-bit build: the functions that reorder operations agree with the scalar ones over the
    reals, including on where an operation is undefined. *)
Lemma C55_neon32_real_ok : Forall (agree_on RS) neon32_real.
Proof. exact (pick_ok _ _ [235; 236; 237; 238; 239; 240; 241; 173; 174; 175; 176; 242; 243; 244; 245; 181; 182; 183; 246; 247; 248; 249; 250; 189; 251; 252; 253; 254; 255; 256; 257; 34; 35; 36; 37; 38; 258; 259; 260; 261; 262; 263; 264; 265; 266; 267; 268; 269; 270; 271; 272; 273; 274; 275; 276; 277; 278; 279; 280; 281; 282; 283; 284; 285; 286; 287; 288; 289; 290; 231; 232; 291; 292]%nat pool_real pool_real_ok). Qed.

(** WebAssembly build: the functions that do the same operations in the same order agree with the
    scalar ones for every arithmetic. *)
Lemma C55_wasm_exact_ok : Forall (fun p => forall S, agree_on S p) wasm_exact.
Proof. exact (pick_ok _ _ [0; 1; 182; 3; 4; 183; 5; 6; 7; 8; 9; 10; 11; 12; 13; 14; 15; 16; 17; 18; 19; 20; 21; 157; 158; 24; 25; 26; 27; 28; 29; 30; 31; 184; 33; 34; 35; 185; 186; 187; 188; 189; 36; 190; 191; 37; 38; 39; 40; 41; 169; 170; 44; 45; 46; 47; 48; 49; 50; 51; 52; 53; 54; 55; 56; 57; 58; 59; 60; 61; 62; 63; 192; 65; 66; 67; 174; 69; 70; 71; 72; 73; 74; 75; 76; 77; 78; 79; 80; 81; 82; 83; 84; 85; 86; 87; 88; 89; 90; 91; 92; 93; 94; 95; 96; 97; 98; 99]%nat pool_exact pool_exact_ok). Qed.
(** WebAssembly build: the functions that reorder operations agree with the scalar ones over the
    reals, including on where an operation is undefined. *)
Lemma C55_wasm_real_ok : Forall (agree_on RS) wasm_real.
Proof. exact (pick_ok _ _ [293; 294; 295; 296; 297; 298; 7; 8; 9; 10; 11; 299; 300; 14; 15; 16; 17; 18; 301; 302; 303; 304; 305; 306; 307; 308; 309; 310; 311; 312; 313; 314; 315; 34; 35; 36; 37; 38; 316; 317; 318; 319; 320; 321; 322; 323; 324; 325; 326; 327; 328; 329; 330; 331; 332; 333; 334; 335; 336; 337; 338; 339; 340; 341; 342; 66; 343; 344; 345; 346; 347; 348; 349; 350; 351; 352; 353; 354; 355; 356; 357; 358; 359]%nat pool_real pool_real_ok). Qed.

Lemma C55_builds_ex :
  map (@length _) [sse2_exact; avx_exact; fma_exact; neon_exact; neon32_exact; wasm_exact] = [100; 100; 96; 105; 108; 108]%nat /\
  map (@length _) [sse2_real; avx_real; fma_real; neon_real; neon32_real; wasm_real] = [84; 83; 87; 76; 73; 83]%nat /\
  List.In (glm_mat4_inv, sse2.sse2_glm_mat4_inv, [Reads Flt 16; Writes 16]) sse2_real /\
  List.In (glm_vec4_addadd, neon.neon_glm_vec4_addadd, [Reads Flt 4; Reads Flt 4; Updates Flt 4]) neon_exact /\
  Forall2 (@fits R) [Reads Flt 4; Float] [InA (fl [1; 2; 3; 4]%R); Val (VF (1 / 2)%R)].
Proof.
  split; [reflexivity|]. split; [reflexivity|]. split; [|split].
  - apply (nth_error_In sse2_real 26). reflexivity.
  - apply (nth_error_In neon_exact 11). reflexivity.
  - constructor; [|constructor; [|constructor]]; cbn [fits cells]; [|eauto]. eexists. split; [|reflexivity]. eexists. split; [|reflexivity]. reflexivity.
Qed.
Definition pool_safe : list (fundef * list param) := Eval cbv [pick flat_map nth_error app simd_signatures] in pick [0; 1; 2; 3; 4; 5; 6; 7; 8; 9; 10; 11; 12; 13; 14; 15; 16; 17; 18; 19; 20; 21; 22; 23; 24; 25; 26; 27; 28; 29; 30; 31; 32; 33; 34; 35; 36; 37; 38; 39; 40; 41; 42; 43; 44; 45; 46; 47; 48; 49; 50; 51; 52; 53; 54; 55; 56; 57; 58; 59; 60; 61; 62; 63; 64; 65; 66; 67; 68; 69; 70; 71; 72; 73; 74; 75; 76; 77; 78; 79; 80; 81; 82; 83; 84; 85; 86; 87; 88; 89; 90; 91; 92; 93; 94; 95; 96; 97; 98; 99; 100; 101; 102; 103; 104; 105; 106; 107; 108; 109; 110; 111; 112; 113; 114; 115; 116; 117; 118; 119; 120; 121; 122; 123; 124; 125; 126; 127; 128; 129; 130; 131; 132; 133; 134; 135; 136; 137; 138; 139; 140; 141; 144; 145; 146; 147; 148; 149; 150; 151; 152; 153; 154; 155; 156; 157; 158; 159; 160; 161; 162; 163; 164; 165; 166; 167; 168; 169; 170; 171; 172; 173; 174; 175; 176; 177; 178; 179; 180; 181; 182; 183; 184; 185; 186; 187; 188; 189; 190; 191; 195; 200; 201; 202; 203; 211; 230; 231; 242; 243; 246; 247; 248; 249; 252; 253; 254; 255; 259; 260; 261; 265; 268; 270; 276; 285; 286; 287; 293; 295; 296; 297; 298; 299; 300; 301; 302; 303; 304; 305; 306; 307; 308; 309; 310; 311; 312; 313; 317; 323; 324; 326; 330; 331; 332; 333; 336; 337; 338; 339; 341; 342; 343; 344; 352; 354; 355; 356; 357; 358; 359; 360; 361; 362; 363; 364; 365; 366; 367; 368; 369; 370; 371; 372; 373; 374; 375; 376; 377; 378; 379; 380; 381; 408; 409; 414; 415; 435; 436; 437; 441; 442; 443; 447; 448; 449; 451; 453; 454; 458; 459; 467; 468; 469; 470; 471; 472; 473; 474; 475; 476; 477; 478; 480; 481; 482; 483; 484; 485; 506; 508; 521; 531; 533; 534; 535; 539; 540; 541; 542; 543; 545; 546; 574; 575; 576; 580; 581; 582; 583; 584; 591; 598; 599; 604; 605; 606; 607; 608; 609; 610; 611; 612; 613; 614; 615; 616; 617; 618; 619; 620; 622; 623; 624; 625; 629; 630; 631; 632; 633; 634; 635; 636; 637; 639; 641; 643; 644; 645; 651; 652; 654; 658; 659; 660; 661; 662; 663; 664; 666; 667; 668; 669; 670; 671; 691; 692; 694; 695; 698; 699; 700; 701; 702; 703; 704; 707; 708; 709; 710; 711; 714; 715; 716; 717; 718; 719; 720; 721; 722; 723; 724; 725; 726; 727; 728; 729; 731; 732; 760; 761; 766; 767; 768; 769; 777; 778; 779; 794; 795; 796; 797; 808; 809; 810; 811; 815; 821; 822; 823; 825; 827; 829; 830; 831; 844; 845; 846; 847; 848; 849; 850; 852; 853; 854; 855; 856; 857; 881; 884; 885; 886; 887; 888; 890; 893; 894; 895; 896; 897; 900; 901; 902; 903; 904; 905; 906; 907; 908; 910; 914; 918; 950; 951; 957; 958; 959; 960; 961; 968; 985; 986; 987; 988; 999; 1000; 1001; 1002; 1006; 1007; 1008; 1009; 1010; 1012; 1013; 1016; 1018; 1019; 1020; 1021; 1022; 1023; 1024; 1025; 1027; 1028; 1029; 1030; 1031; 1044; 1045; 1046; 1047; 1048; 1049; 1050; 1052; 1053; 1054; 1055; 1056; 1057; 1077; 1078; 1080; 1081; 1084; 1085; 1086; 1087; 1088; 1090; 1093; 1094; 1095; 1096; 1097; 1100; 1101; 1102; 1103; 1104; 1105; 1106; 1107; 1108; 1109; 1110; 1111; 1112; 1113; 1114; 1115; 1117; 1118; 1146; 1147]%nat simd_signatures.
Lemma pool_safe_ok : Forall (fun p => safe (fst p) (snd p)) pool_safe.
Proof. apply Forall_forall. intros p I. apply safeb_ok with 2%nat. revert p I. apply forallb_forall. vm_cast_no_check (eq_refl true). Qed.
(** The SIMD versions are memory safe for every arithmetic, all argument values and all
    addresses that fit the declared parameters. *)
Lemma C58_simd_ok : Forall (fun p => safe (fst p) (snd p)) simd_signatures.
Proof. exact (pick_ok _ _ [0; 1; 2; 3; 4; 5; 6; 7; 8; 9; 10; 11; 12; 13; 14; 15; 16; 17; 18; 19; 20; 21; 22; 23; 24; 25; 26; 27; 28; 29; 30; 31; 32; 33; 34; 35; 36; 37; 38; 39; 40; 41; 42; 43; 44; 45; 46; 47; 48; 49; 50; 51; 52; 53; 54; 55; 56; 57; 58; 59; 60; 61; 62; 63; 64; 65; 66; 67; 68; 69; 70; 71; 72; 73; 74; 75; 76; 77; 78; 79; 80; 81; 82; 83; 84; 85; 86; 87; 88; 89; 90; 91; 92; 93; 94; 95; 96; 97; 98; 99; 100; 101; 102; 103; 104; 105; 106; 107; 108; 109; 110; 111; 112; 113; 114; 115; 116; 117; 118; 119; 120; 121; 122; 123; 124; 125; 126; 127; 128; 129; 130; 131; 132; 133; 134; 135; 136; 137; 138; 139; 140; 141; 45; 46; 142; 143; 144; 145; 146; 147; 148; 149; 150; 151; 152; 153; 154; 155; 156; 157; 158; 159; 160; 161; 162; 163; 164; 165; 166; 167; 168; 169; 170; 171; 172; 173; 174; 175; 176; 177; 178; 179; 180; 181; 182; 183; 184; 185; 186; 187; 188; 189; 0; 1; 2; 190; 4; 5; 6; 7; 191; 192; 193; 194; 12; 13; 14; 15; 16; 17; 18; 195; 20; 21; 22; 23; 24; 25; 26; 27; 28; 29; 30; 31; 32; 33; 34; 35; 36; 37; 196; 197; 40; 41; 42; 43; 44; 45; 46; 47; 48; 49; 198; 199; 52; 53; 200; 201; 202; 203; 58; 59; 204; 205; 206; 207; 64; 65; 66; 208; 209; 210; 70; 71; 72; 211; 74; 75; 212; 77; 213; 79; 80; 81; 82; 83; 214; 85; 86; 87; 88; 89; 90; 91; 92; 215; 216; 217; 96; 97; 98; 99; 100; 218; 102; 219; 220; 221; 222; 223; 224; 225; 226; 227; 228; 229; 230; 231; 232; 233; 234; 235; 236; 237; 122; 123; 124; 238; 126; 127; 128; 129; 130; 239; 240; 133; 241; 135; 136; 137; 242; 243; 244; 245; 45; 46; 246; 247; 248; 249; 146; 250; 251; 252; 253; 151; 152; 153; 154; 155; 156; 157; 254; 159; 255; 256; 257; 258; 259; 260; 261; 262; 263; 264; 265; 266; 267; 268; 269; 270; 271; 272; 273; 274; 275; 276; 277; 278; 279; 280; 281; 282; 188; 189; 0; 1; 2; 190; 4; 5; 6; 7; 191; 192; 193; 194; 12; 13; 14; 15; 16; 17; 18; 195; 20; 21; 22; 23; 283; 284; 26; 27; 28; 29; 285; 286; 32; 33; 34; 35; 36; 37; 196; 197; 40; 41; 42; 43; 44; 45; 46; 47; 48; 49; 198; 287; 288; 289; 200; 201; 202; 290; 291; 292; 204; 205; 206; 293; 294; 295; 66; 296; 209; 297; 298; 71; 72; 211; 299; 300; 212; 77; 213; 79; 80; 81; 82; 301; 302; 303; 304; 305; 306; 307; 308; 309; 310; 311; 312; 217; 313; 314; 315; 316; 317; 318; 102; 219; 220; 221; 222; 223; 224; 225; 226; 227; 228; 229; 230; 231; 232; 233; 234; 235; 236; 237; 319; 123; 320; 238; 126; 127; 128; 129; 130; 239; 240; 133; 241; 135; 136; 321; 242; 243; 244; 245; 45; 46; 246; 247; 248; 322; 146; 323; 324; 325; 253; 151; 152; 326; 327; 328; 329; 330; 254; 331; 332; 256; 257; 258; 259; 260; 261; 262; 263; 264; 265; 266; 267; 268; 269; 270; 271; 272; 273; 274; 275; 276; 277; 278; 279; 280; 281; 282; 333; 334; 335; 5; 6; 7; 336; 337; 338; 339; 340; 13; 14; 15; 16; 17; 18; 341; 20; 21; 22; 23; 283; 284; 342; 343; 28; 29; 285; 286; 344; 345; 346; 347; 348; 349; 350; 351; 352; 353; 354; 355; 356; 357; 358; 359; 360; 49; 361; 362; 363; 364; 54; 55; 56; 365; 366; 367; 368; 369; 370; 371; 372; 373; 66; 374; 68; 375; 72; 376; 377; 378; 76; 77; 78; 79; 80; 379; 380; 301; 381; 303; 304; 305; 382; 383; 384; 385; 386; 387; 388; 95; 389; 390; 391; 392; 393; 394; 102; 103; 104; 105; 106; 107; 108; 109; 110; 111; 112; 113; 114; 115; 116; 117; 118; 119; 120; 395; 396; 123; 397; 398; 126; 127; 399; 400; 401; 402; 403; 404; 405; 135; 136; 406; 407; 408; 409; 410; 357; 358; 411; 412; 413; 414; 415; 416; 417; 418; 419; 420; 421; 422; 423; 424; 425; 426; 158; 427; 428; 161; 162; 163; 164; 165; 166; 167; 168; 169; 170; 171; 172; 173; 174; 175; 176; 177; 178; 179; 180; 181; 182; 183; 184; 185; 186; 187; 429; 430; 335; 5; 6; 7; 431; 432; 433; 434; 340; 13; 14; 15; 16; 17; 18; 435; 436; 437; 22; 23; 24; 25; 342; 343; 28; 29; 30; 31; 344; 345; 346; 347; 438; 439; 440; 441; 352; 353; 354; 355; 356; 357; 358; 359; 360; 49; 442; 443; 444; 445; 54; 55; 56; 446; 366; 367; 368; 369; 370; 447; 448; 449; 66; 450; 68; 451; 72; 452; 453; 454; 76; 77; 78; 79; 80; 379; 380; 83; 84; 85; 86; 87; 455; 456; 457; 458; 459; 460; 461; 95; 462; 463; 464; 465; 466; 467; 102; 103; 104; 105; 106; 107; 108; 109; 110; 111; 112; 113; 114; 115; 116; 117; 118; 119; 120; 395; 396; 123; 397; 468; 126; 127; 469; 470; 471; 472; 473; 404; 474; 135; 136; 475; 476; 477; 478; 479; 357; 358; 480; 481; 482; 483; 484; 485; 486; 487; 488; 420; 489; 422; 423; 424; 490; 426; 158; 427; 491; 161; 162; 163; 164; 165; 166; 167; 168; 169; 170; 171; 172; 173; 174; 175; 176; 177; 178; 179; 180; 181; 182; 183; 184; 185; 186; 187; 429; 430; 0; 1; 492; 493; 4; 5; 5; 6; 7; 494; 495; 496; 497; 498; 13; 14; 15; 16; 17; 18; 499; 20; 21; 22; 23; 24; 25; 26; 27; 28; 29; 30; 31; 32; 33; 346; 347; 500; 501; 502; 503; 40; 41; 42; 43; 44; 45; 46; 47; 48; 49; 504; 505; 506; 507; 54; 55; 56; 508; 509; 510; 511; 512; 62; 513; 514; 514; 66; 515; 68; 516; 517; 518; 519; 520; 521; 522; 523; 72; 524; 525; 526; 527; 528; 76; 77; 78; 79; 80; 379; 380; 83; 84; 85; 86; 87; 529; 530; 531; 532; 533; 534; 535; 95; 536; 537; 538; 539; 540; 541; 102; 103; 104; 105; 106; 107; 108; 109; 110; 111; 112; 113; 114; 115; 116; 117; 118; 119; 120; 542; 543; 123; 544; 545; 126; 127; 546; 547; 548; 549; 550; 404; 551; 135; 136; 552; 553; 554; 555; 556; 45; 46; 557; 558; 559; 560; 561; 562; 563; 564; 565; 566; 567; 568; 569; 570; 571; 572; 158; 573; 574; 161; 162; 163; 164; 165; 166; 167; 168; 169; 170; 171; 172; 173; 174; 175; 176; 177; 178; 179; 180; 181; 182; 183; 184; 185; 186; 187; 575; 576]%nat pool_safe pool_safe_ok). Qed.
