(** * Doubles of either sign: how the JSON printer writes them (src/common/cJSON.c:545-612)
    No proofs here. As in Jdbl_Model a finite double is an integer multiple of 2^-1074. -0 is
    not told from 0: cJSON.c:565 finds both equal to the int 0 and prints "0". *)
From Verif Require Import Base Jprint_Model Jdbl_Model.
Open Scope Z_scope.

Definition is_signed (X : Z) : Prop := is_double (Z.abs X).
(** "%1.<s>g": a minus sign and the digits of the absolute value *)
Definition shown_s (s X D q : Z) : Prop := (0 < X /\ shown s X D q) \/ (X < 0 /\ shown s (- X) (- D) q).
(** "%lg", strtod: no double of either sign is nearer *)
Definition taken_s (D q Y : Z) : Prop :=
  is_signed Y /\ forall W, is_signed W -> Z.abs (D * sc q - Y * sb q) <= Z.abs (D * sc q - W * sb q).
(** cJSON.c:565-580 *)
Inductive printed_s (rd : Z -> Z -> Z) (X : Z) : Z -> Z -> Prop :=
| ps_int v : - INT_MAX - 1 <= v <= INT_MAX -> X = v * 2 ^ 1074 -> printed_s rd X v 0
| ps_15 D q : shown_s 15 X D q -> taken_s D q (rd D q) -> compare_double (rd D q) X = true -> printed_s rd X D q
| ps_17 D q D' q' : shown_s 15 X D q -> taken_s D q (rd D q) -> compare_double (rd D q) X = false -> shown_s 17 X D' q' ->
    printed_s rd X D' q'.
