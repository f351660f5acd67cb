(** * How the JSON printer writes a double (src/common/cJSON.c:537-542, 545-612), and how a reader
    takes it. No proofs here.

    A finite double is an integer multiple of 2^-1074; the model has that integer. The sign
    is printed in front of the digits, so only positive doubles appear. The C library is
    taken at its word: sprintf and sscanf (strtod) round correctly. A printed decimal is
    [d * 10^q]. *)
From Verif Require Import Base Jprint_Model.
Open Scope Z_scope.

Definition is_double (X : Z) : Prop := exists m k, 0 <= m < 2 ^ 53 /\ 0 <= k <= 2045 /\ X = m * 2 ^ k.

(** to compare [d * 10^q] with [X * 2^-1074] in integers: compare [d * sc q] with [X * sb q] *)
Definition sc (q : Z) : Z := 10 ^ Z.max 0 q * 2 ^ 1074.
Definition sb (q : Z) : Z := 10 ^ Z.max 0 (- q).

(** "%1.<s>g": [s] digits, the decimal is not farther away than half a unit of the last one *)
Definition shown (s X d q : Z) : Prop :=
  10 ^ (s - 1) <= d <= 10 ^ s /\ 10 ^ (s - 1) * sc q <= X * sb q /\ 2 * Z.abs (d * sc q - X * sb q) <= sc q.
(** "%lg", strtod: no double is nearer *)
Definition taken (d q Y : Z) : Prop :=
  is_double Y /\ forall W, is_double W -> Z.abs (d * sc q - Y * sb q) <= Z.abs (d * sc q - W * sb q).

(** [max * DBL_EPSILON] in double arithmetic: nearest multiple of 2^-1074, ties to even *)
Definition times_eps (m : Z) : Z :=
  let q := m / 2 ^ 52 in
  let r := m mod 2 ^ 52 in
  if (2 * r <? 2 ^ 52) || ((2 * r =? 2 ^ 52) && Z.even q) then q else q + 1.
(** cJSON.c:537-542; the subtraction is exact if the result can be that small *)
Definition compare_double (a b : Z) : bool := Z.abs (a - b) <=? times_eps (Z.max (Z.abs a) (Z.abs b)).

(** cJSON.c:568-585: [printed rd X d q]: the double [X] may be printed as [d * 10^q]; [rd] is
    the reading function of the C library *)
Inductive printed (rd : Z -> Z -> Z) (X : Z) : Z -> Z -> Prop :=
| pr_int v : 0 <= v <= INT_MAX -> X = v * 2 ^ 1074 -> printed rd X v 0
| pr_15 d q : shown 15 X d q -> taken d q (rd d q) -> compare_double (rd d q) X = true -> printed rd X d q
| pr_17 d q d' q' : shown 15 X d q -> taken d q (rd d q) -> compare_double (rd d q) X = false -> shown 17 X d' q' ->
    printed rd X d' q'.
