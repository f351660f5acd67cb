(** * cJSON_Compare: does it tell whether two values are the same? *)
From Coq Require Import String.
From Verif Require Import Base Str_Spec Conf_Model Jdbl_Model Jcmp_Model Jcmp_Spec Jcmp_Proofs.
Open Scope Z_scope.

(** ** C142 *)
(** Every comparison ends. *)
Theorem C142_ends cs a b : exists N r c, forall fuel, (N <= fuel)%nat -> compare fuel cs a b = Ok (r, c).
Proof.
  destruct (compare_ends cs (Nat.max (height a) (height b)) a b) as (r & c & E); [lia|lia|]. exists (Nat.max (height a) (height b)), r, c.
  intros fuel F. apply (compare_more cs _ fuel a b _ F E).
Qed.
Print Assumptions C142_ends.

(** The answer is right for values whose objects have no name twice (if letter case is to be
    ignored: not even then), whose strings and names are there and whose numbers are integers
    below 2^52. Missing: what is refuted below. *)
Theorem C142_partial cs a b fuel r c : proper cs a -> proper cs b -> numbers whole a -> numbers whole b ->
  compare fuel cs a b = Ok (r, c) -> (r = true <-> same cs eq a b).
Proof.
  intros PA PB NA NB. apply (compare_right cs eq whole); auto.
  intros x y X Y. rewrite (near_dbl x y (whole_normal x X) (whole_normal y Y)). apply near_whole; auto.
Qed.
Print Assumptions C142_partial.

(** With any numbers that are 0 or at least 2^-969 in size, "the same" means: not more than
    2^-52 of the larger one apart. *)
Theorem C142_near_partial cs a b fuel r c : proper cs a -> proper cs b -> numbers normal a -> numbers normal b ->
  compare fuel cs a b = Ok (r, c) -> (r = true <-> same cs near a b).
Proof. intros PA PB NA NB. apply (compare_right cs near normal); auto; [apply near_dbl|apply near_sym]. Qed.
Print Assumptions C142_near_partial.

Definition int (n : Z) : item := INum (Fin (n * 2 ^ 1074)).
Definition mem (n : string) (v : item) : option (list Z) * item := (Some (str n), v).
(** {"a":[1,"x"],"b":null} and the same the other way round; and with another number *)
Definition ex1 : item := IObj [mem "a" (IArr [int 1; IStr (Some (str "x"))]); mem "b" INull].
Definition ex2 : item := IObj [mem "b" INull; mem "a" (IArr [int 1; IStr (Some (str "x"))])].
Definition ex3 : item := IObj [mem "b" INull; mem "a" (IArr [int 2; IStr (Some (str "x"))])].
Lemma whole_int n : Z.abs n < 2 ^ 52 -> whole (Fin (n * 2 ^ 1074)). Proof. exists n. auto. Qed.
Ltac all_in := let p := fresh in let H0 := fresh in intros p; cbn [In]; intros H0;
  repeat match goal with X : _ \/ _ |- _ => destruct X as [X|X] end; try contradiction; subst p; cbn [snd].
Example ex_C142 : proper true ex1 /\ numbers whole ex1 /\ proper true ex2 /\ numbers whole ex2 /\
  compare 5 true ex1 ex2 = Ok (true, 9) /\ compare 5 true ex1 ex3 = Ok (false, 3) /\ compare 5 true ex3 ex2 = Ok (false, 4).
Proof.
  split; [|split; [|split; [|split]]].
  - apply (p_obj true _ [str "a"; str "b"]); [|reflexivity|].
    + all_in; [|constructor]. apply p_arr. all_in; constructor.
    + constructor; [intros [H|[]]; discriminate|]. constructor; [intros []|constructor].
  - apply n_obj. all_in; [|apply n_other; discriminate]. apply n_arr. all_in; [apply n_num, whole_int; reflexivity|apply n_other; discriminate].
  - apply (p_obj true _ [str "b"; str "a"]); [|reflexivity|].
    + all_in; [constructor|]. apply p_arr. all_in; constructor.
    + constructor; [intros [H|[]]; discriminate|]. constructor; [intros []|constructor].
  - apply n_obj. all_in; [apply n_other; discriminate|]. apply n_arr. all_in; [apply n_num, whole_int; reflexivity|apply n_other; discriminate].
  - repeat split; vm_compute; reflexivity.
Qed.

(** the property for all values *)
Definition C142_property : Prop := forall cs a b fuel r c, compare fuel cs a b = Ok (r, c) -> (r = true <-> same cs eq a b).

(** Objects with a name twice: {"a":1,"a":2} is not the same as itself (read twice from the
    same text), {"a":1} is the same as {"a":1,"a":1}; {"a":1,"A":2} is not the same as itself
    if letter case is ignored. *)
Theorem C142_refuted_names : ~ C142_property /\
  (exists c, compare 5 true (IObj [mem "a" (int 1); mem "a" (int 2)]) (IObj [mem "a" (int 1); mem "a" (int 2)]) = Ok (false, c)) /\
  (exists c, compare 5 true (IObj [mem "a" (int 1)]) (IObj [mem "a" (int 1); mem "a" (int 1)]) = Ok (true, c)) /\
  (exists c, compare 5 false (IObj [mem "a" (int 1); mem "A" (int 2)]) (IObj [mem "a" (int 1); mem "A" (int 2)]) = Ok (false, c)).
Proof.
  assert (E : exists c, compare 5 true (IObj [mem "a" (int 1); mem "a" (int 2)]) (IObj [mem "a" (int 1); mem "a" (int 2)]) = Ok (false, c))
    by (eexists; vm_compute; reflexivity).
  split; [|split; [exact E|split; eexists; vm_compute; reflexivity]].
  intros P. destruct E as (c & E). apply P in E. assert (F : false = true); [|discriminate]. apply E.
  assert (M : forall n x, In (Some n, x) [mem "a" (int 1); mem "a" (int 2)] -> same true eq x x).
  { intros n x [[= <- <-]|[[= <- <-]|[]]]; constructor; reflexivity. }
  constructor; intros n x X; exists n, x; (split; [exact X|split; [reflexivity|apply (M n x X)]]).
Qed.
Print Assumptions C142_refuted_names.

(** Numbers: what a number too large for a double becomes is the same as every finite number
    and not the same as itself; and there are three numbers next to each other of which the
    second is the same as the first and the third, but the first is not the same as the third. *)
Theorem C142_refuted_numbers :
  (forall cs s X fuel, compare (S fuel) cs (INum (Inf s)) (INum (Fin X)) = Ok (true, 1)) /\
  (forall cs s fuel, compare (S fuel) cs (INum (Inf s)) (INum (Inf s)) = Ok (false, 1)) /\
  (exists x y z, is_double x /\ is_double y /\ is_double z /\
    forall cs fuel, compare (S fuel) cs (INum (Fin x)) (INum (Fin y)) = Ok (true, 1) /\
      compare (S fuel) cs (INum (Fin y)) (INum (Fin z)) = Ok (true, 1) /\
      compare (S fuel) cs (INum (Fin x)) (INum (Fin z)) = Ok (false, 1)).
Proof.
  split; [reflexivity|]. split; [intros cs [|] fuel; reflexivity|].
  exists (2 ^ 1074), (2 ^ 1074 + 2 ^ 1022), (2 ^ 1074 + 2 * 2 ^ 1022).
  split; [exists (2 ^ 52), 1022; split; [lia|split; [lia|vm_compute; reflexivity]]|].
  split; [exists (2 ^ 52 + 1), 1022; split; [lia|split; [lia|vm_compute; reflexivity]]|].
  split; [exists (2 ^ 52 + 2), 1022; split; [lia|split; [lia|vm_compute; reflexivity]]|].
  intros cs fuel. cbn [compare dbl_eq]. repeat split; f_equal; f_equal; vm_compute; reflexivity.
Qed.
Print Assumptions C142_refuted_numbers.

(** Time: each level of nested objects doubles the number of calls. The text of [nest n] has
    5 n + 2 bytes; for the 1000 levels that the parser takes no computer comes to an end. *)
Fixpoint nest (n : nat) : item := match n with O => IObj [] | S n => IObj [mem "a" (nest n)] end.
Theorem C142_refuted_time cs n : forall fuel, (n < fuel)%nat -> compare fuel cs (nest n) (nest n) = Ok (true, 2 ^ (Z.of_nat n + 1) - 1).
Proof.
  induction n as [|n IH]; intros [|f] F; try lia; [reflexivity|].
  assert (N : name_eq cs (str "a") (str "a") = true) by (destruct cs; reflexivity).
  change (nest (S n)) with (IObj [mem "a" (nest n)]). cbn [compare obj find mem]. rewrite N, (IH f) by lia. cbn [bind fst snd].
  f_equal. f_equal. replace (Z.of_nat (S n) + 1) with ((Z.of_nat n + 1) + 1) by lia. rewrite (Z.pow_add_r 2 (Z.of_nat n + 1) 1) by lia.
  change (2 ^ 1) with 2. lia.
Qed.
Print Assumptions C142_refuted_time.
Example ex_C142_time : compare 11 true (nest 10) (nest 10) = Ok (true, 2047). Proof. vm_compute; reflexivity. Qed.
