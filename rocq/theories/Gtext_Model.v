(** * The text of a number (src/common/cJSON.c:545-612): what sprintf writes for "%d" and
    "%1.15g", "%1.17g". No proofs here.

    The conversion %g as the C standard has it (C11 7.21.6.1): the first digit, the others
    behind a point and an exponent, or no exponent if it is from -4 up to the precision; zeros
    at the end of the fraction are left out. The digits themselves are those of [shown_s]. The
    locale is "C" (nobody calls setlocale), so the decimal point is a point. *)
From Verif Require Import Base Jprint_Model Jdbl_Model Jsign_Model.
Open Scope Z_scope.

(** the last [n] decimal digits *)
Fixpoint dig (n : nat) (d : Z) : list Z :=
  match n with O => [] | S k => dig k (d / 10) ++ [d mod 10] end.
(** digits as characters *)
Definition txt (l : list Z) : list Z := map (fun x => 48 + x) l.
(** zeros at the end and at the beginning are left out *)
Fixpoint strip (l : list Z) : list Z :=
  match l with
  | [] => []
  | x :: r => match strip r with [] => if x =? 0 then [] else [x] | t => x :: t end
  end.
Fixpoint lead (l : list Z) : list Z :=
  match l with [] => [] | x :: r => if x =? 0 then lead r else l end.
Definition frac (l : list Z) : list Z := match strip l with [] => [] | t => 46 :: txt t end.
(** the exponent: a sign and at least two digits; those of doubles have at most three *)
Definition expo (x : Z) : list Z :=
  101 :: (if x <? 0 then 45 else 43) :: txt (if Z.abs x <? 100 then dig 2 (Z.abs x) else dig 3 (Z.abs x)).
(** [s] digits [d] times 10^q *)
Definition gbody (s d q : Z) : list Z :=
  let x := q + s - 1 in
  let ds := dig (Z.to_nat s) d in
  if (x <? -4) || (s <=? x) then txt (ztake 1 ds) ++ frac (zdrop 1 ds) ++ expo x
  else if 0 <=? x then txt (ztake (x + 1) ds) ++ frac (zdrop (x + 1) ds)
  else [48] ++ frac (zrepeat 0 (- x - 1) ++ ds).
(** a number that is rounded up to a power of ten has its first digit one place higher *)
Definition gtext (s D q : Z) : list Z :=
  let up := Z.abs D =? 10 ^ s in
  (if D <? 0 then [45] else []) ++ gbody s (if up then 10 ^ (s - 1) else Z.abs D) (if up then q + 1 else q).
(** cJSON.c:566: "%d" *)
Definition itext (v : Z) : list Z :=
  (if v <? 0 then [45] else []) ++ txt (match lead (dig 10 (Z.abs v)) with [] => [0] | l => l end).

(** cJSON.c:565-580: the text and the decimal it is made from; [rd] is the reading function of
    the C library, as in [printed_s] *)
Inductive prints (rd : Z -> Z -> Z) (X : Z) : Z -> Z -> list Z -> Prop :=
| pt_int v : - INT_MAX - 1 <= v <= INT_MAX -> X = v * 2 ^ 1074 -> prints rd X v 0 (itext v)
| pt_15 D q : shown_s 15 X D q -> taken_s D q (rd D q) -> compare_double (rd D q) X = true -> prints rd X D q (gtext 15 D q)
| pt_17 D q D' q' : shown_s 15 X D q -> taken_s D q (rd D q) -> compare_double (rd D q) X = false -> shown_s 17 X D' q' ->
    prints rd X D' q' (gtext 17 D' q').
