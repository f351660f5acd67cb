(** * C149: copies of cJSON items *)
From Verif Require Import Base Jdup_Model Jdup_Spec Jdup_Proofs.
Open Scope Z_scope.

(** Whatever malloc answers: if NULL is never answered, the copy is a tree of new blocks with
    the value of the original (for [recurse = false] without children), in no list, and nothing
    else has changed; if NULL is answered once, NULL is returned and memory is as before. The
    original may contain references and shared parts, and may be an element of a list. *)
Theorem C149_copy : forall h x v os recurse, reads h x v ->
  exists N p s, (forall fuel, (N <= fuel)%nat -> dup fuel (Ms h os false) x recurse = Ok (p, s)) /\
    ((p = 0 /\ ms_no s = true /\ same h (ms_h s)) \/
     (p <> 0 /\ ms_no s = false /\ exists F, tree (ms_h s) p (copy recurse v) F /\ more h F (ms_h s))).
Proof.
  intros h x v os recurse R. assert (A : agree h (Ms h os false)) by (intros a _; reflexivity).
  destruct recurse; [exact (proj1 (dup_ok h) x v R _ A)|exact (dup_alone h x v _ R A)].
Qed.
Print Assumptions C149_copy.

(** Deleting a tree releases its blocks, each once, and nothing else. *)
Theorem C149_delete : forall h p v F, tree h p v F ->
  exists N h', (forall fuel, (N <= fuel)%nat -> delete fuel h p = Ok h') /\ gone F h h'.
Proof. exact tree_delete. Qed.
Print Assumptions C149_delete.

Lemma tree_frame h h' p v F : tree h p v F -> (forall a, In a F -> h' a = h a) -> tree h' p v F.
Proof.
  intros (O & ND & it & E & X) H. split; [eapply owns_frame; eassumption|]. split; [exact ND|]. exists it. split; [|exact X].
  rewrite H; [exact E|]. eapply owns_self; exact O.
Qed.
(** The copy does not depend on the original: it stays what it is whatever becomes of the
    blocks that were there before, in particular when the original is deleted; and when the
    copy is deleted, memory is what it was before. *)
Theorem C149_apart : forall h x v F0 os, tree h x v F0 ->
  exists N p s, (forall fuel, (N <= fuel)%nat -> dup fuel (Ms h os false) x true = Ok (p, s)) /\
    (p <> 0 -> exists F,
       (forall h', (forall a, h a = Free -> h' a = ms_h s a) -> tree h' p v F) /\
       (exists N1 h1, (forall fuel, (N1 <= fuel)%nat -> delete fuel (ms_h s) x = Ok h1) /\ tree h1 p v F /\ gone F0 (ms_h s) h1) /\
       (exists N2 h2, (forall fuel, (N2 <= fuel)%nat -> delete fuel (ms_h s) p = Ok h2) /\ same h h2)).
Proof.
  intros h x v F0 os T. pose proof T as (O & ND & it & E & X).
  destruct (C149_copy h x v os true (proj1 (owns_reads h) _ _ _ O)) as (N & p & s & D & R). exists N, p, s. split; [exact D|].
  intros PZ. destruct R as [(P0 & _)|(_ & _ & F & TF & M)]; [congruence|]. exists F. cbn [copy] in TF.
  assert (DJ : forall a, In a F0 -> ~ In a F) by (intros a J K; exact (owns_full _ _ _ _ _ O J (proj1 M a K))).
  split; [|split].
  - intros h' H. eapply tree_frame; [exact TF|]. intros a J. apply H. apply (proj1 M). exact J.
  - assert (T0 : tree (ms_h s) x v F0) by (eapply tree_frame; [exact T|]; intros a J; apply (proj2 M); apply DJ; exact J).
    destruct (tree_delete _ _ _ _ T0) as (N1 & h1 & D1 & G1). exists N1, h1. split; [exact D1|]. split; [|exact G1].
    eapply tree_frame; [exact TF|]. intros a J. apply (proj2 G1). intros K. exact (DJ a K J).
  - destruct (tree_delete _ _ _ _ TF) as (N2 & h2 & D2 & G2). exists N2, h2. split; [exact D2|]. eapply more_gone; eassumption.
Qed.
Print Assumptions C149_apart.

(** {"a": "x", "b": 7}: the object is 1, its members 2 and 3, strings 4, 5 and the constant 9 *)
Definition h1 : mem := fun a =>
  if a =? 1 then BI (It 64 false false 0 0 0 0 2)
  else if a =? 2 then BI (It 16 false false 4 5 3 3 0)
  else if a =? 3 then BI (It 7 false true 0 9 0 2 0)
  else if a =? 4 then BS [120] else if a =? 5 then BS [97] else if a =? 9 then BS [98] else Free.
Definition v1 : jv := JV 64 None (NText None) [JV 16 (Some [120]) (NText (Some [97])) []; JV 7 None (NConst 9) []].
Lemma h1_owns : owns h1 1 v1 [1; 2; 4; 5; 3].
Proof.
  apply (o_item h1 1 (It 64 false false 0 0 0 0 2) None (NText None) _ [] [] [2; 4; 5; 3] 3 3); try reflexivity; try discriminate.
  - constructor.
  - constructor. constructor.
  - apply (c_cons h1 3 2 (It 16 false false 4 5 3 3 0) _ _ [2; 4; 5] [3] 3); try reflexivity.
    + apply (o_item h1 2 (It 16 false false 4 5 3 3 0) (Some [120]) (NText (Some [97])) [] [4] [5] [] 0 0); try reflexivity; try discriminate.
      * constructor; [discriminate|reflexivity].
      * constructor. constructor; [discriminate|reflexivity].
      * constructor.
      * left. reflexivity.
    + apply (c_cons h1 2 3 (It 7 false true 0 9 0 2 0) _ [] [3] [] 3); try reflexivity; [|constructor].
      apply (o_item h1 3 (It 7 false true 0 9 0 2 0) None (NConst 9) [] [] [] [] 0 0); try reflexivity; try discriminate; try constructor. reflexivity.
  - right. reflexivity.
Qed.
Example ex_C149 : tree h1 1 v1 [1; 2; 4; 5; 3] /\ reads h1 1 v1.
Proof.
  split; [|exact (proj1 (owns_reads h1) _ _ _ h1_owns)]. split; [exact h1_owns|]. split; [|eexists; split; [reflexivity|split; reflexivity]].
  repeat constructor; cbn; intuition discriminate.
Qed.
(** copied to 11 to 15; and what happens when there are only four blocks to be had *)
Example ex_C149_runs :
  (exists s, dup 10 (Ms h1 [Some 11; Some 12; Some 14; Some 15; Some 13] false) 1 true = Ok (11, s) /\
     ms_h s 11 = BI (It 64 false false 0 0 0 0 12) /\ ms_h s 12 = BI (It 16 false false 14 15 13 13 0) /\
     ms_h s 13 = BI (It 7 false true 0 9 0 12 0) /\ ms_h s 14 = BS [120] /\ ms_h s 15 = BS [97]) /\
  (exists s, dup 10 (Ms h1 [Some 11; Some 12; Some 14; Some 15; None] false) 1 true = Ok (0, s) /\
     ms_h s 11 = Free /\ ms_h s 12 = Free /\ ms_h s 14 = Free /\ ms_h s 15 = Free /\ ms_h s 1 = h1 1).
Proof. split; eexists; (split; [vm_compute; reflexivity|]); vm_compute; tauto. Qed.
