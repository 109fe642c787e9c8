(** * The largest finite float (FLT_MAX) as a real number *)

From Coq Require Import Reals.
Local Open Scope R_scope.

Definition flt_max : R := (2 - / 2 ^ 23) * 2 ^ 127.
