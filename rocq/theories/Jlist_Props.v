(** * cJSON: arrays and objects built by a program. *)
From Verif Require Import Base Jlist_Model Jlist_Spec Jlist_Proofs.
Open Scope Z_scope.

(** ** C141 *)

(** Every history of allowed calls, of any length, on any number of trees, does what the same
    calls do to sequences: each call returns what it should, nothing that does not exist is
    touched, no walk along a list fails to end, nothing is released twice, and in the end
    exactly the items that should exist are allocated. Allowed are: adding an item that
    belongs to nobody, below which the array is not; inserting and replacing likewise;
    detaching an item of the array; deleting an item that belongs to nobody; asking. Adding
    NULL, adding to NULL, adding an array to itself, negative positions and positions
    behind the end are allowed too and answered with false or NULL. *)
Theorem C141_lists : forall l rs k, calls nothing l rs k ->
  exists N h, (forall fuel, (N <= fuel)%nat -> run fuel empty l = Ok (h, rs)) /\
    (forall y, live h y = true <-> k y <> None).
Proof.
  intros l rs k C.
  assert (R : rep empty nothing).
  { constructor; try discriminate; [|intros x (A & _); destruct A; reflexivity].
    intros y. split; [discriminate|]. intros A. destruct A. reflexivity. }
  destruct (run_ok l empty nothing rs k wf_nothing R C) as (N & h & S0 & R'). exists N, h. split; [exact S0|apply (p_live h k R')].
Qed.
Print Assumptions C141_lists.

(** a history with every kind of call, and the last array taken down *)
Definition tour : list op :=
  [New 1; New 2; New 3; New 4; New 5; Add 1 2; Add 1 3; Insert 1 0 4; Size 1; Item 1 1; Detach 1 1; Item 1 1; Replace 1 1 5; Add 5 2;
   DetachVia 1 4; Insert 5 9 4; Size 5; Delete 1; New 3; Add 3 0; Delete 3].
Definition ex_results : list Z := [1; 2; 3; 4; 5; 1; 1; 1; 3; 2; 2; 3; 1; 1; 4; 1; 2; 0; 3; 0; 0].
Example ex_run : exists h, run 20 empty tour = Ok (h, ex_results) /\ forallb (fun y => negb (live h y)) [1; 2; 3; 4; 5] = true.
Proof. eexists. split; [vm_compute; reflexivity|reflexivity]. Qed.

(** the hypotheses of C141 are met by such histories *)
Lemma root_by k x : k x <> None -> (forall a l, k a = Some l -> ~ In x l) -> root k x. Proof. intros; split; auto. Qed.
Lemma not_below_leaf k x a : k x = Some [] -> a <> x -> ~ below k x a.
Proof. intros K N B. destruct (below_top k x a B) as [->|(c & (l & L & I0) & _)]; [congruence|]. rewrite K in L. injection L as <-. destruct I0. Qed.
Definition k1 : forest := set nothing 1 (Some []).
Definition k2 : forest := set k1 2 (Some []).
Definition k3 : forest := set k2 1 (Some ([] ++ [2])).
Definition k4 : forest := fun _ => None.
Example ex_C141 : calls nothing [New 1; New 2; Add 1 2; Size 1; Delete 1] [1; 2; 1; 1; 0] k4.
Proof.
  assert (E3 : forall a l, k3 a = Some l -> a = 1 /\ l = [2] \/ a = 2 /\ l = []).
  { intros a l. unfold k3, k2, k1, set, nothing. destruct (Z.eqb_spec a 1); [intros [= <-]; auto|]. destruct (Z.eqb_spec a 2); [intros [= <-]; auto|discriminate]. }
  assert (B3 : forall y, below k3 1 y -> y = 1 \/ y = 2).
  { intros y B. induction B as [|a y l B IH K I0]; [auto|]. destruct (E3 a l K) as [(-> & ->)|(-> & ->)]; [destruct I0 as [<-|[]]; auto|destruct I0]. }
  econstructor; [apply (c_new nothing 1 k1); [lia|reflexivity|intros y; reflexivity]|].
  econstructor; [apply (c_new k1 2 k2); [lia|reflexivity|intros y; reflexivity]|].
  econstructor.
  { apply (c_add k2 1 2 [] k3); [reflexivity| |intros y; reflexivity]. split; [|apply not_below_leaf; [reflexivity|lia]].
    apply root_by; [discriminate|]. intros a l. unfold k2, k1, set, nothing.
    destruct (a =? 2); [intros [= <-] []|]. destruct (a =? 1); [intros [= <-] []|discriminate]. }
  econstructor; [apply (c_size k3 1 [2] k3); [reflexivity|intros y; reflexivity]|].
  econstructor; [|constructor]. apply c_delete.
  - apply root_by; [discriminate|]. intros a l K. destruct (E3 a l K) as [(-> & ->)|(-> & ->)]; [intros [H|[]]; discriminate|intros []].
  - split; [reflexivity|]. intros y NB. unfold k4, k3, k2, k1, set, nothing. destruct (Z.eqb_spec y 1) as [->|]; [destruct NB; constructor|].
    destruct (Z.eqb_spec y 2) as [->|]; [|reflexivity]. destruct NB. apply (below_child k3 1 1 2 [2]); [constructor|reflexivity|left; reflexivity].
Qed.

(** The claim for all histories is false: nothing stops a program from adding the same item
    twice. The second call also answers true; then the array has no end: asking for its size
    never returns, and deleting it uses the item after its release. *)
Lemma count_loop h : nx h 2 = 2 -> live h 2 = true -> forall fuel, count fuel h 2 = NoFuel.
Proof. intros N L. induction fuel as [|f IH]; [reflexivity|]. cbn [count]. change (2 =? 0) with false. cbv iota.
  unfold rd, check. change (2 =? 0) with false. cbv iota. rewrite L. cbn [bind]. rewrite N, IH. reflexivity. Qed.
Theorem C141_refuted_twice :
  exists l h, (forall fuel, run fuel empty l = Ok (h, [1; 2; 1; 1])) /\
    (forall fuel, step fuel h (Size 1) = NoFuel) /\
    (forall fuel, (5 <= fuel)%nat -> step fuel h (Delete 1) = Fault FUaf).
Proof.
  exists [New 1; New 2; Add 1 2; Add 1 2]. eexists. split; [intros fuel; vm_compute; reflexivity|]. split.
  - intros fuel. unfold step, get_size. change (1 =? 0) with false. cbv iota. unfold rd, check. change (1 =? 0) with false. cbv iota.
    cbn [live ch]. cbn [Z.eqb Pos.eqb bind]. rewrite count_loop; reflexivity.
  - intros fuel F. destruct fuel as [|[|[|[|[|f]]]]]; try lia. reflexivity.
Qed.
Print Assumptions C141_refuted_twice.

(** Adding NULL is answered with false, inserting NULL at the end too; inserting NULL at a
    position that is taken writes through NULL. *)
Theorem C141_refuted_insert_null :
  exists l h, (forall fuel, run (3 + fuel) empty l = Ok (h, [1; 2; 1; 0; 0])) /\
    (forall fuel, step (3 + fuel) h (Insert 1 0 0) = Fault FNull).
Proof. exists [New 1; New 2; Add 1 2; Add 1 0; Insert 1 1 0]. eexists. split; [intros fuel; vm_compute; reflexivity|intros fuel; reflexivity]. Qed.
Print Assumptions C141_refuted_insert_null.

(** An item that still belongs to an array can be put into a second one. The call answers
    true; the second array then has all that was behind the item in the first one as well
    (size 3 after one item was added to an array of 1), and when both arrays are deleted
    the item is used after its release. *)
Theorem C141_refuted_two_arrays :
  exists l h, (forall fuel, (5 <= fuel)%nat -> run fuel empty l = Ok (h, [1; 2; 3; 4; 5; 1; 1; 1; 1; 1; 3])) /\
    l = [New 1; New 2; New 3; New 4; New 5; Add 1 2; Add 1 3; Add 4 5; Size 4; Add 4 2; Size 4] /\
    (forall fuel, (5 <= fuel)%nat -> run fuel h [Delete 1; Delete 4] = Fault FUaf).
Proof.
  do 2 eexists. split; [|split; [reflexivity|]]; intros fuel F; destruct fuel as [|[|[|[|[|f]]]]]; try lia; [vm_compute; reflexivity|reflexivity].
Qed.
Print Assumptions C141_refuted_two_arrays.
