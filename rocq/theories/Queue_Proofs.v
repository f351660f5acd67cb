(** * Intrusive queues are sequences: representation and preservation *)
From Verif Require Import Base Queue_Model.
From Coq Require Import Permutation.

(** ** Specification: queues as lists, addressed by their heads *)
Definition queues := list (Z * list Z).
Definition addrs (qs : queues) : list Z := concat (map (fun e => fst e :: snd e) qs).
Definition heads (qs : queues) : list Z := map fst qs.
Definition elems (qs : queues) : list Z := concat (map snd qs).
Definition on (h : Z) (f : list Z -> list Z) (qs : queues) : queues :=
  map (fun e => if fst e =? h then (fst e, f (snd e)) else e) qs.
Definition del (q : Z) (l : list Z) : list Z := filter (fun x => negb (x =? q)) l.
Definition spec_step (qs : queues) (o : qop) : queues :=
  match o with
  | QInit h => if existsb (Z.eqb h) (heads qs) then qs else qs ++ [(h, [])]
  | QIns h q => on h (cons q) qs
  | QInsT h q => on h (fun l => l ++ [q]) qs
  | QRem q => map (fun e => (fst e, del q (snd e))) qs
  end.

(** ** Representation *)
Fixpoint seg (m : qmem) (a : Z) (l : list Z) (b : Z) : Prop :=
  match l with
  | [] => nx m a = b /\ pv m b = a
  | x :: r => nx m a = x /\ pv m x = a /\ seg m x r b
  end.
Definition rep (m : qmem) (qs : queues) : Prop :=
  NoDup (addrs qs) /\ ~ In 0 (addrs qs) /\ Forall (fun e => seg m (fst e) (snd e) (fst e)) qs.

Lemma upd_same {A} (f : Z -> A) i v : upd f i v i = v.
Proof. unfold upd. rewrite Z.eqb_refl. reflexivity. Qed.
Lemma upd_other {A} (f : Z -> A) i v j : j <> i -> upd f i v j = f j.
Proof. intros. unfold upd. destruct (Z.eqb_spec j i); [contradiction|reflexivity]. Qed.

Lemma seg_frame m m' : forall l a b,
  (forall y, In y (a :: l) -> nx m' y = nx m y) -> (forall y, In y (l ++ [b]) -> pv m' y = pv m y) ->
  seg m a l b -> seg m' a l b.
Proof.
  induction l as [|x l IH]; intros a b N P S; simpl in *.
  - destruct S as (S1 & S2). rewrite N, P by auto. auto.
  - destruct S as (S1 & S2 & S3). rewrite N, P by auto. split; [exact S1|]. split; [exact S2|].
    apply IH; auto.
Qed.
Lemma seg_app m : forall l1 a x l2 b, seg m a (l1 ++ x :: l2) b <-> seg m a l1 x /\ seg m x l2 b.
Proof.
  induction l1 as [|y l1 IH]; intros a x l2 b; simpl; [tauto|]. rewrite IH. tauto.
Qed.

Lemma addrs_app q1 q2 : addrs (q1 ++ q2) = addrs q1 ++ addrs q2.
Proof. unfold addrs. rewrite map_app, concat_app. reflexivity. Qed.
Lemma addrs_cons h l q : addrs ((h, l) :: q) = h :: l ++ addrs q.
Proof. reflexivity. Qed.
Lemma heads_in h qs : In h (heads qs) <-> exists qa l qb, qs = qa ++ (h, l) :: qb.
Proof.
  unfold heads. rewrite in_map_iff. split.
  - intros ((h', l) & <- & I). apply in_split in I as (qa & qb & ->). eauto.
  - intros (qa & l & qb & ->). exists (h, l). split; [reflexivity|]. apply in_or_app. right. left. reflexivity.
Qed.
Lemma on_skip h f qa : ~ In h (heads qa) -> on h f qa = qa.
Proof.
  induction qa as [|(h', l) qa IH]; simpl; intros N; [reflexivity|]. destruct (Z.eqb_spec h' h) as [->|]; [tauto|]. f_equal. apply IH. tauto.
Qed.
Lemma heads_addrs h qs : In h (heads qs) -> In h (addrs qs).
Proof.
  intros H. apply heads_in in H as (qa & l & qb & ->). rewrite addrs_app, addrs_cons. apply in_or_app. right. left. reflexivity.
Qed.
Lemma on_split h f qa l qb : NoDup (addrs (qa ++ (h, l) :: qb)) -> on h f (qa ++ (h, l) :: qb) = qa ++ (h, f l) :: qb.
Proof.
  intros N. rewrite addrs_app, addrs_cons in N. apply NoDup_remove in N as (_ & N).
  unfold on. rewrite map_app. simpl. rewrite Z.eqb_refl. f_equal; [|f_equal].
  - apply on_skip. intros H. apply N. apply in_or_app. left. apply heads_addrs. exact H.
  - apply on_skip. intros H. apply N. apply in_or_app. right. apply in_or_app. right. apply heads_addrs. exact H.
Qed.
Lemma elems_in q qs : In q (elems qs) <-> exists qa h l1 l2 qb, qs = qa ++ (h, l1 ++ q :: l2) :: qb.
Proof.
  unfold elems. rewrite in_concat. split.
  - intros (l & I & Q). apply in_map_iff in I as ((h, l') & <- & I). simpl in Q. apply in_split in I as (qa & qb & ->).
    apply in_split in Q as (l1 & l2 & ->). eauto 6.
  - intros (qa & h & l1 & l2 & qb & ->). exists (l1 ++ q :: l2). split; [|apply in_or_app; right; left; reflexivity].
    apply in_map_iff. exists (h, l1 ++ q :: l2). split; [reflexivity|]. apply in_or_app. right. left. reflexivity.
Qed.
Lemma del_skip q l : ~ In q l -> del q l = l.
Proof.
  induction l as [|x l IH]; simpl; intros N; [reflexivity|]. destruct (Z.eqb_spec x q) as [->|]; [tauto|]. simpl. f_equal. apply IH. tauto.
Qed.
Lemma del_app q l1 l2 : del q (l1 ++ l2) = del q l1 ++ del q l2.
Proof. unfold del. apply filter_app. Qed.
Lemma map_del_skip q qa : ~ In q (addrs qa) -> map (fun e => (fst e, del q (snd e))) qa = qa.
Proof.
  induction qa as [|(h', l) qa IH]; intros N; [reflexivity|]. rewrite addrs_cons in N. simpl in N. simpl. rewrite del_skip, IH.
  - reflexivity.
  - intros I. apply N. right. apply in_or_app. right. exact I.
  - intros I. apply N. right. apply in_or_app. left. exact I.
Qed.
Lemma del_split q qa h l1 l2 qb : NoDup (addrs (qa ++ (h, l1 ++ q :: l2) :: qb)) ->
  map (fun e => (fst e, del q (snd e))) (qa ++ (h, l1 ++ q :: l2) :: qb) = qa ++ (h, l1 ++ l2) :: qb.
Proof.
  intros N. rewrite addrs_app, addrs_cons in N.
  replace (addrs qa ++ h :: (l1 ++ q :: l2) ++ addrs qb) with ((addrs qa ++ h :: l1) ++ q :: (l2 ++ addrs qb)) in N
    by (repeat (rewrite <- app_assoc; simpl); reflexivity).
  apply NoDup_remove in N as (_ & N). rewrite map_app. simpl.
  assert (NI : ~ In q (addrs qa) /\ ~ In q l1 /\ ~ In q l2 /\ ~ In q (addrs qb)).
  { rewrite !in_app_iff in N. simpl in N. tauto. }
  destruct NI as (N1 & N2 & N3 & N4). rewrite (map_del_skip q qa N1), (map_del_skip q qb N4).
  rewrite del_app. simpl. rewrite Z.eqb_refl. simpl. rewrite (del_skip q l1 N2), (del_skip q l2 N3). reflexivity.
Qed.

(** changing one queue: the others are framed *)
Lemma rep_change m m' qa h l l' qb (D : list Z) :
  rep m (qa ++ (h, l) :: qb) ->
  NoDup (addrs (qa ++ (h, l') :: qb)) -> ~ In 0 (addrs (qa ++ (h, l') :: qb)) ->
  (forall y, ~ In y D -> nx m' y = nx m y /\ pv m' y = pv m y) ->
  (forall y, In y D -> In y (addrs qa ++ addrs qb) -> False) ->
  seg m' h l' h ->
  rep m' (qa ++ (h, l') :: qb).
Proof.
  intros (N & Z0 & F) N' Z' C DJ S. split; [exact N'|]. split; [exact Z'|].
  apply Forall_app in F as (F1 & F2). pose proof (Forall_inv_tail F2) as F3.
  assert (FR : forall qs, (forall y, In y (addrs qs) -> In y (addrs qa ++ addrs qb)) -> Forall (fun e => seg m (fst e) (snd e) (fst e)) qs -> Forall (fun e => seg m' (fst e) (snd e) (fst e)) qs).
  { intros qs I G. rewrite Forall_forall in *. intros (h1, l1) IE. specialize (G _ IE). simpl in *.
    assert (IA : forall y, In y (h1 :: l1) -> In y (addrs qs)).
    { intros y Y. unfold addrs. apply in_concat. exists (h1 :: l1). split; [|exact Y]. apply in_map_iff. exists (h1, l1). auto. }
    eapply seg_frame; [| |exact G].
    - intros y Y. apply C. intros YD. eapply DJ; eauto.
    - intros y Y. apply C. intros YD. eapply DJ; eauto. apply I, IA. rewrite in_app_iff in Y. simpl in *. tauto. }
  apply Forall_app. split; [apply FR; auto; intros; apply in_or_app; auto|].
  constructor; [exact S|]. apply FR; auto. intros. apply in_or_app. auto.
Qed.

Lemma z0 a : a <> 0 -> (a =? 0) = false.
Proof. intros. apply Z.eqb_neq. assumption. Qed.

(** the common core of the two insertions: [q] goes between [a] and its successor *)
Definition linked_after (m : qmem) (a q : Z) : qmem :=
  mkQ (upd (upd (pv m) q a) (nx m a) q) (upd (upd (nx m) q (nx m a)) a q).

Ltac upds := repeat first [rewrite upd_same | rewrite upd_other by (try congruence; try (intros ->; tauto); try (intros <-; tauto))].


Ltac us := unfold linked_after, upd; cbn [pv nx]; repeat (match goal with |- context [?a =? ?b] => destruct (Z.eqb_spec a b) end); try congruence; try (exfalso; subst; simpl in *; rewrite ?in_app_iff in *; simpl in *; intuition congruence); auto.

Lemma exists_last' (l : list Z) : l = [] \/ exists l' x, l = l' ++ [x].
Proof. destruct l as [|a l]; [auto|]. right. destruct (exists_last (l := a :: l)) as (l' & x & E); [discriminate|eauto]. Qed.

(** insertion at the front *)
Lemma seg_insert_front m h l q :
  seg m h l h -> NoDup (h :: l) -> ~ In q (h :: l) -> seg (linked_after m h q) h (q :: l) h.
Proof.
  intros S N NI. destruct l as [|x l]; simpl in S.
  - destruct S as (S1 & S2). assert (QH : q <> h) by (intros ->; simpl in NI; tauto). simpl. rewrite S1. split; [us|]. split; [us|]. split; us.
  - destruct S as (S1 & S2 & S3).
    pose proof (proj1 (NoDup_cons_iff _ _) N) as (NH & NX). pose proof (proj1 (NoDup_cons_iff _ _) NX) as (NXX & NL).
    assert (QX : q <> x) by (intros ->; simpl in NI; tauto). assert (QH : q <> h) by (intros ->; simpl in NI; tauto).
    simpl. split; [us|]. split; [us|]. split; [us|]. split; [us|].
    eapply seg_frame; [| |exact S3]; intros y Y; us.
Qed.

(** insertion at the back *)
Lemma seg_insert_back m h l q :
  seg m h l h -> NoDup (h :: l) -> ~ In q (h :: l) -> seg (linked_after m (pv m h) q) h (l ++ [q]) h.
Proof.
  intros S N NI. destruct (exists_last' l) as [->|(l1 & x & ->)].
  - simpl in S. destruct S as (S1 & S2). rewrite S2. apply (seg_insert_front m h [] q); auto. simpl. auto.
  - apply seg_app in S as (S1 & S2). simpl in S2. destruct S2 as (S2 & S3).
    rewrite S3. rewrite <- app_assoc. simpl. apply seg_app.
    pose proof (proj1 (NoDup_cons_iff _ _) N) as (NH & NX).
    apply NoDup_remove in NX as (_ & NX). rewrite app_nil_r in NX.
    assert (QX : q <> x) by (intros ->; simpl in NI; rewrite in_app_iff in NI; simpl in NI; tauto).
    assert (QH : q <> h) by (intros ->; simpl in NI; tauto).
    split.
    + eapply seg_frame; [| |exact S1]; intros y Y; us.
    + simpl. split; [us|]. split; [us|]. split; us.
Qed.

(** removal *)
Definition unlinked (m : qmem) (q : Z) : qmem :=
  mkQ (upd (upd (pv m) (nx m q) (pv m q)) q 0) (upd (upd (nx m) (pv m q) (nx m q)) q 0).

Lemma seg_hd m a l b : seg m a l b -> nx m a = hd b l.
Proof. destruct l; simpl; tauto. Qed.
Lemma seg_lst m a l b : seg m a l b -> pv m b = last l a.
Proof.
  revert a. induction l as [|x l IH]; intros a; [simpl; tauto|]. intros (_ & _ & S). rewrite (IH _ S).
  destruct l as [|y l]; [reflexivity|]. simpl. clear. revert y. induction l; intros; simpl; auto.
Qed.
Lemma seg_shorten m h l1 q l2 :
  seg m h (l1 ++ q :: l2) h -> NoDup (h :: l1 ++ q :: l2) -> seg (unlinked m q) h (l1 ++ l2) h.
Proof.
  intros S N. apply seg_app in S as (S1 & S2). pose proof (proj1 (NoDup_cons_iff _ _) N) as (NH & NX).
  pose proof (NoDup_remove _ _ _ NX) as (NL & NQ).
  assert (QH : q <> h) by (intros ->; rewrite in_app_iff in NH; simpl in NH; tauto).
  destruct (exists_last' l1) as [->|(l1' & a & ->)]; destruct l2 as [|b l2].
  - simpl in *. destruct S1 as (A1 & A2), S2 as (B1 & B2). unfold unlinked. rewrite B1, A2. split; us.
  - simpl in *. destruct S1 as (A1 & A2), S2 as (B1 & B2 & B3). unfold unlinked. rewrite A2, B1.
    pose proof (proj1 (NoDup_cons_iff _ _) NL) as (NB & NL2). split; [us|]. split; [us|].
    eapply seg_frame; [| |exact B3]; intros y Y; us.
  - apply seg_app in S1 as (A0 & A1 & A2). simpl in S2. destruct S2 as (B1 & B2). rewrite app_nil_r. apply seg_app.
    rewrite app_nil_r in NL, NQ. apply NoDup_remove in NL as (NL & NA). rewrite app_nil_r in NL, NA.
    unfold unlinked. rewrite A2, B1.
    split; [|simpl; split; us]. eapply seg_frame; [| |exact A0]; intros y Y; us.
  - apply seg_app in S1 as (A0 & A1 & A2). simpl in S2. destruct S2 as (B1 & B2 & B3). rewrite <- app_assoc. simpl. apply seg_app.
    rewrite <- app_assoc in NL, NQ. simpl in NL, NQ. pose proof (NoDup_remove _ _ _ NL) as (NL1 & NA).
    replace (l1' ++ a :: b :: l2) with ((l1' ++ [a]) ++ b :: l2) in NL by (rewrite <- app_assoc; reflexivity).
    apply NoDup_remove in NL as (_ & NB).
    unfold unlinked. rewrite A2, B1.
    split; [|simpl; split; [us|split; [us|]]].
    + eapply seg_frame; [| |exact A0]; intros y Y; us.
    + eapply seg_frame; [| |exact B3]; intros y Y; us.
Qed.

Lemma nodup_l (l1 l2 : list Z) : NoDup (l1 ++ l2) -> NoDup l1.
Proof.
  induction l2 as [|x l2 IH] using rev_ind; [rewrite app_nil_r; auto|]. intros N. rewrite app_assoc in N.
  apply NoDup_remove in N as (N & _). rewrite app_nil_r in N. auto.
Qed.

(** ** Operations *)
Lemma rep_nodup_ring m qa h l qb : rep m (qa ++ (h, l) :: qb) ->
  NoDup (h :: l) /\ seg m h l h /\ h <> 0 /\ (forall y, In y (h :: l) -> y <> 0 /\ ~ In y (addrs qa ++ addrs qb)).
Proof.
  intros (N & Z0 & F). rewrite addrs_app, addrs_cons in N, Z0.
  assert (P : Permutation (addrs qa ++ h :: l ++ addrs qb) ((h :: l) ++ addrs qa ++ addrs qb)).
  { simpl. symmetry. rewrite (app_assoc l). etransitivity; [|apply Permutation_middle]. apply perm_skip.
    rewrite app_assoc. apply Permutation_app_tail. apply Permutation_app_comm. }
  pose proof (Permutation_NoDup P N) as N'.
  assert (ND : NoDup (h :: l)) by (eapply nodup_l; exact N').
  split; [exact ND|]. apply Forall_app in F as (_ & F). pose proof (Forall_inv F) as S. simpl in S.
  split; [exact S|]. split; [intros ->; apply Z0; apply in_or_app; right; left; reflexivity|].
  intros y Y. split.
  - intros ->. apply Z0. apply (Permutation_in 0 (Permutation_sym P)). apply in_or_app. left. exact Y.
  - intros I. apply in_split in Y as (y1 & y2 & EY). rewrite EY in N'. rewrite <- app_assoc in N'. simpl in N'.
    apply NoDup_remove in N' as (_ & N'). apply N'. rewrite !in_app_iff in *. tauto.
Qed.

Lemma addrs_ins qa h l q qb l' : Permutation l' (q :: l) -> NoDup (addrs (qa ++ (h, l) :: qb)) -> ~ In q (addrs (qa ++ (h, l) :: qb)) ->
  NoDup (addrs (qa ++ (h, l') :: qb)).
Proof.
  intros PL N NI. eapply Permutation_NoDup; [|constructor; [exact NI|exact N]].
  rewrite !addrs_app, !addrs_cons. etransitivity; [apply Permutation_middle|]. apply Permutation_app_head.
  etransitivity; [apply perm_swap|]. apply perm_skip. rewrite PL. reflexivity.
Qed.
Lemma addrs_ins0 qa h l q qb l' : Permutation l' (q :: l) -> q <> 0 -> ~ In 0 (addrs (qa ++ (h, l) :: qb)) -> ~ In 0 (addrs (qa ++ (h, l') :: qb)).
Proof.
  intros PL Q N I. apply N. rewrite addrs_app, addrs_cons in *. rewrite in_app_iff in *. simpl in *. rewrite in_app_iff in *.
  destruct I as [I|[I|[I|I]]]; auto. apply (Permutation_in 0 PL) in I. simpl in I. destruct I; [congruence|auto].
Qed.

Lemma linked_after_outside m a q y : y <> q -> y <> a -> y <> nx m a ->
  nx (linked_after m a q) y = nx m y /\ pv (linked_after m a q) y = pv m y.
Proof. intros. split; us. Qed.

Definition fresh (qs : queues) (q : Z) : Prop := q <> 0 /\ ~ In q (addrs qs).

Lemma queue_insert_ok m qs h q : rep m qs -> In h (heads qs) -> fresh qs q ->
  exists m', queue_insert m h q = Ok m' /\ rep m' (on h (cons q) qs) /\
    (forall y, ~ In y (addrs qs) -> y <> q -> nx m' y = nx m y /\ pv m' y = pv m y).
Proof.
  intros R I (Q0 & QN). apply heads_in in I as (qa & l & qb & ->).
  pose proof (rep_nodup_ring _ _ _ _ _ R) as (ND & S & H0 & DJ). pose proof R as (N & Z0 & F).
  rewrite on_split by exact N.
  assert (NI : ~ In q (h :: l)). { intros Y. apply QN. rewrite addrs_app, addrs_cons, in_app_iff. right. simpl in *. rewrite in_app_iff. tauto. }
  assert (QH : q <> h) by (intros ->; apply NI; left; reflexivity).
  pose proof (seg_hd _ _ _ _ S) as SN.
  assert (NN : In (nx m h) (h :: l)) by (rewrite SN; destruct l; simpl; auto).
  exists (linked_after m h q). split; [|split].
  - unfold queue_insert, rd_nx, wr_nx, wr_pv. rewrite (z0 h H0), (z0 q Q0). cbn [bind nx pv].
    rewrite upd_other by congruence. rewrite (z0 (nx m h)) by (apply DJ; exact NN). reflexivity.
  - eapply rep_change with (D := q :: h :: l); [exact R| | | | |].
    + eapply addrs_ins; [reflexivity|exact N|exact QN].
    + eapply addrs_ins0; [reflexivity|exact Q0|exact Z0].
    + intros y Y. simpl in Y. apply linked_after_outside; [intros ->; tauto|intros ->; tauto|]. intros ->. simpl in NN. tauto.
    + intros y [<-|Y] I.
      * apply QN. rewrite addrs_app, addrs_cons. rewrite in_app_iff in *. simpl. rewrite in_app_iff. tauto.
      * destruct (DJ y Y). tauto.
    + apply seg_insert_front; auto.
  - intros y Y YQ. apply linked_after_outside; [exact YQ| |]; intros ->; apply Y; rewrite addrs_app, addrs_cons, in_app_iff; right; [left; reflexivity|].
    change (h :: l ++ addrs qb) with ((h :: l) ++ addrs qb). apply in_or_app. left. exact NN.
Qed.

Lemma last_in_cons (l : list Z) (h : Z) : In (last l h) (h :: l).
Proof.
  destruct (exists_last' l) as [->|(l1 & x & ->)]; [left; reflexivity|]. rewrite last_last. right. apply in_or_app. right. left. reflexivity.
Qed.

Lemma queue_insert_tail_ok m qs h q : rep m qs -> In h (heads qs) -> fresh qs q ->
  exists m', queue_insert_tail m h q = Ok m' /\ rep m' (on h (fun l => l ++ [q]) qs) /\
    (forall y, ~ In y (addrs qs) -> y <> q -> nx m' y = nx m y /\ pv m' y = pv m y).
Proof.
  intros R I (Q0 & QN). apply heads_in in I as (qa & l & qb & ->).
  pose proof (rep_nodup_ring _ _ _ _ _ R) as (ND & S & H0 & DJ). pose proof R as (N & Z0 & F).
  rewrite on_split by exact N.
  assert (NI : ~ In q (h :: l)). { intros Y. apply QN. rewrite addrs_app, addrs_cons, in_app_iff. right. simpl in *. rewrite in_app_iff. tauto. }
  assert (QH : q <> h) by (intros ->; apply NI; left; reflexivity).
  pose proof (seg_lst _ _ _ _ S) as SP.
  assert (PP : In (pv m h) (h :: l)) by (rewrite SP; apply last_in_cons).
  assert (NPE : nx m (pv m h) = h).
  { rewrite SP. destruct (exists_last' l) as [->|(l1 & x & ->)]; [simpl in *; tauto|]. rewrite last_last.
    apply seg_app in S as (_ & S). simpl in S. tauto. }
  exists (linked_after m (pv m h) q). split; [|split].
  - unfold queue_insert_tail, rd_nx, rd_pv, wr_nx, wr_pv. rewrite (z0 h H0), (z0 q Q0). cbn [bind nx pv].
    rewrite (z0 (pv m h)) by (apply DJ; exact PP). cbn [bind nx pv]. rewrite upd_other by (intros E; apply NI; rewrite <- E; exact PP).
    rewrite NPE, (z0 h H0). unfold linked_after. rewrite NPE. reflexivity.
  - eapply rep_change with (D := q :: h :: l); [exact R| | | | |].
    + eapply addrs_ins; [|exact N|exact QN]. symmetry. apply Permutation_cons_append.
    + eapply addrs_ins0; [|exact Q0|exact Z0]. symmetry. apply Permutation_cons_append.
    + intros y Y. simpl in Y. apply linked_after_outside; [intros ->; tauto| |].
      * intros ->. simpl in PP. tauto.
      * rewrite NPE. intros ->. tauto.
    + intros y [<-|Y] I.
      * apply QN. rewrite addrs_app, addrs_cons. rewrite in_app_iff in *. simpl. rewrite in_app_iff. tauto.
      * destruct (DJ y Y). tauto.
    + apply seg_insert_back; auto.
  - intros y Y YQ. apply linked_after_outside; [exact YQ| |]; intros ->; apply Y; rewrite addrs_app, addrs_cons, in_app_iff; right.
    + change (h :: l ++ addrs qb) with ((h :: l) ++ addrs qb). apply in_or_app. left. exact PP.
    + rewrite NPE. left. reflexivity.
Qed.

Lemma queue_remove_ok m qs q : rep m qs -> In q (elems qs) ->
  exists m', queue_remove m q = Ok m' /\ rep m' (map (fun e => (fst e, del q (snd e))) qs) /\ pv m' q = 0 /\ nx m' q = 0 /\
    (forall y, ~ In y (addrs qs) -> nx m' y = nx m y /\ pv m' y = pv m y).
Proof.
  intros R I. apply elems_in in I as (qa & h & l1 & l2 & qb & ->).
  pose proof (rep_nodup_ring _ _ _ _ _ R) as (ND & S & H0 & DJ). pose proof R as (N & Z0 & F).
  rewrite del_split by exact N.
  assert (IQ : In q (h :: l1 ++ q :: l2)) by (right; apply in_or_app; right; left; reflexivity).
  destruct (DJ q IQ) as (Q0 & QD). pose proof S as S'. apply seg_app in S' as (S1 & S2).
  pose proof (seg_lst _ _ _ _ S1) as SP. pose proof (seg_hd _ _ _ _ S2) as SN.
  assert (PP : In (pv m q) (h :: l1)) by (rewrite SP; apply last_in_cons).
  assert (NN : In (nx m q) (h :: l2)) by (rewrite SN; destruct l2; simpl; auto).
  assert (NQ : ~ In q (h :: l1 ++ l2)).
  { change (h :: l1 ++ q :: l2) with ((h :: l1) ++ q :: l2) in ND. apply NoDup_remove in ND. tauto. }
  assert (PPI : In (pv m q) (h :: l1 ++ q :: l2)) by (simpl in *; rewrite in_app_iff; tauto).
  assert (NNI : In (nx m q) (h :: l1 ++ q :: l2)) by (simpl in *; rewrite in_app_iff; simpl; tauto).
  assert (PQ : pv m q <> q) by (intros E; apply NQ; rewrite E in PP; simpl in *; rewrite in_app_iff; tauto).
  assert (NQ' : nx m q <> q) by (intros E; apply NQ; rewrite E in NN; simpl in *; rewrite in_app_iff; tauto).
  assert (OUT : forall y, ~ In y (h :: l1 ++ q :: l2) -> nx (unlinked m q) y = nx m y /\ pv (unlinked m q) y = pv m y).
  { intros y Y. unfold unlinked. cbn [nx pv]. rewrite !upd_other; [auto|intros ->; tauto ..]. }
  exists (unlinked m q). split; [|split; [|split; [|split]]].
  - unfold queue_remove, rd_pv, rd_nx, wr_nx, wr_pv. rewrite (z0 q Q0). cbn [bind].
    destruct (DJ _ PPI) as (P0 & _). destruct (DJ _ NNI) as (N0 & _). rewrite (z0 _ P0). cbn [bind nx pv].
    rewrite upd_other by congruence. rewrite (z0 _ N0). reflexivity.
  - assert (PM : Permutation (l1 ++ q :: l2) (q :: l1 ++ l2)) by (symmetry; apply Permutation_middle).
    eapply rep_change with (D := h :: l1 ++ q :: l2); [exact R| | | | |].
    + rewrite addrs_app, addrs_cons in *.
      assert (P2 : Permutation (addrs qa ++ h :: (l1 ++ q :: l2) ++ addrs qb) (q :: addrs qa ++ h :: (l1 ++ l2) ++ addrs qb)).
      { rewrite PM. simpl. rewrite perm_swap. symmetry. apply Permutation_middle. }
      apply (Permutation_NoDup P2) in N. inversion N. assumption.
    + intros X. apply Z0. rewrite addrs_app, addrs_cons in *. rewrite !in_app_iff in *. simpl in *. rewrite !in_app_iff in *. simpl. clear - X. tauto.
    + exact OUT.
    + intros y Y I. destruct (DJ y Y). tauto.
    + apply seg_shorten; auto.
  - unfold unlinked. cbn [pv]. apply upd_same.
  - unfold unlinked. cbn [nx]. apply upd_same.
  - intros y Y. apply OUT. intros X. apply Y. rewrite addrs_app, addrs_cons, in_app_iff. right.
    change (h :: (l1 ++ q :: l2) ++ addrs qb) with ((h :: l1 ++ q :: l2) ++ addrs qb). apply in_or_app. left. exact X.
Qed.

(** removing an element whose links are NULL *)
Lemma queue_remove_null m q : q <> 0 -> pv m q = 0 -> nx m q = 0 ->
  exists m', queue_remove m q = Ok m' /\ forall y, pv m' y = pv m y /\ nx m' y = nx m y.
Proof.
  intros Q P N. unfold queue_remove, rd_pv, rd_nx, wr_nx, wr_pv. rewrite (z0 q Q). cbn [bind]. rewrite P. cbn [Z.eqb bind]. rewrite N. cbn [Z.eqb bind].
  eexists. split; [reflexivity|]. intros y. cbn [pv nx]. split; us.
Qed.

Lemma queue_init_fresh m qs h : rep m qs -> fresh qs h ->
  exists m', queue_init m h = Ok m' /\ rep m' (qs ++ [(h, [])]) /\ (forall y, y <> h -> nx m' y = nx m y /\ pv m' y = pv m y).
Proof.
  intros (N & Z0 & F) (H0 & HN). unfold queue_init, wr_pv, wr_nx. rewrite (z0 h H0). cbn [bind].
  eexists. split; [reflexivity|]. cbn [pv nx]. split; [|intros; split; us].
  split; [|split].
  - rewrite addrs_app. eapply Permutation_NoDup; [apply Permutation_cons_append|]. constructor; assumption.
  - rewrite addrs_app, in_app_iff. simpl. intuition.
  - apply Forall_app. split; [|constructor; [|constructor]].
    + rewrite Forall_forall in *. intros (h1, l1) I. specialize (F _ I). simpl in *.
      assert (IA : forall y, In y (h1 :: l1) -> y <> h).
      { intros y Y ->. apply HN. unfold addrs. apply in_concat. exists (h1 :: l1). split; [|exact Y]. apply in_map_iff. exists (h1, l1). auto. }
      eapply seg_frame; [| |exact F]; intros y Y; cbn [nx pv]; apply upd_other; apply IA; auto.
      rewrite in_app_iff in Y. simpl in *. tauto.
    + simpl. split; us.
Qed.
Lemma queue_init_empty m qs h : rep m qs -> In (h, []) qs ->
  exists m', queue_init m h = Ok m' /\ forall y, pv m' y = pv m y /\ nx m' y = nx m y.
Proof.
  intros R I. apply in_split in I as (qa & qb & ->). pose proof (rep_nodup_ring _ _ _ _ _ R) as (ND & (S1 & S2) & H0 & DJ).
  unfold queue_init, wr_pv, wr_nx. rewrite (z0 h H0). cbn [bind]. eexists. split; [reflexivity|]. intros y. cbn [pv nx]. split; us.
Qed.
Lemma rep_ext m m' qs : (forall y, pv m' y = pv m y /\ nx m' y = nx m y) -> rep m qs -> rep m' qs.
Proof.
  intros E (N & Z0 & F). split; [exact N|]. split; [exact Z0|]. rewrite Forall_forall in *. intros e I. specialize (F e I).
  eapply seg_frame; [| |exact F]; intros y _; apply E.
Qed.

(** ** Observations *)
Lemma walk_next_seg m : forall l a b, seg m a l b -> ~ In b l -> ~ In 0 l -> forall f, (length l <= f)%nat -> walk queue_next f m (nx m a) b = Ok l.
Proof.
  induction l as [|x l IH]; intros a b S NB N0 f F.
  - destruct S as (-> & _). destruct f; simpl; rewrite Z.eqb_refl; reflexivity.
  - destruct S as (-> & S2 & S3). simpl in NB, N0, F. destruct f as [|f]; [lia|]. simpl.
    destruct (Z.eqb_spec x b) as [E|NE]; [tauto|]. unfold queue_next, rd_nx. rewrite z0 by tauto. cbn [bind].
    assert (W : walk queue_next f m (nx m x) b = Ok l) by (apply (IH x b); [exact S3|tauto|tauto|lia]). fold queue_next.
    unfold queue_next, rd_nx in W. rewrite W. reflexivity.
Qed.
Lemma walk_prev_seg m : forall l a b, seg m a l b -> ~ In a l -> ~ In 0 l -> forall f, (length l <= f)%nat -> walk queue_prev f m (pv m b) a = Ok (rev l).
Proof.
  induction l as [|x l IH] using rev_ind; intros a b S NA N0 f F.
  - destruct S as (_ & ->). destruct f; simpl; rewrite Z.eqb_refl; reflexivity.
  - apply seg_app in S as (S1 & _ & ->). rewrite in_app_iff in NA, N0. simpl in NA, N0. rewrite app_length in F. simpl in F. destruct f as [|f]; [lia|]. simpl.
    destruct (Z.eqb_spec x a) as [E|NE]; [tauto|]. unfold queue_prev, rd_pv. rewrite z0 by tauto. cbn [bind].
    assert (W : walk queue_prev f m (pv m x) a = Ok (rev l)) by (apply (IH a x); [exact S1|tauto|tauto|lia]).
    unfold queue_prev, rd_pv in W. rewrite W, rev_app_distr. reflexivity.
Qed.

Definition isnil {A} (l : list A) : bool := match l with [] => true | _ => false end.
Lemma rep_observe m qs h l : rep m qs -> In (h, l) qs ->
  (forall f, (length l <= f)%nat -> walk_fwd f m h = Ok l /\ walk_bwd f m h = Ok (rev l)) /\
  queue_empty m h = Ok (isnil l) /\ queue_head m h = Ok (hd h l).
Proof.
  intros R I. apply in_split in I as (qa & qb & ->). pose proof (rep_nodup_ring _ _ _ _ _ R) as (ND & S & H0 & DJ).
  pose proof (proj1 (NoDup_cons_iff _ _) ND) as (NH & NL).
  assert (N0 : ~ In 0 l). { intros X. destruct (DJ 0); [right; exact X|]. congruence. }
  split; [|split].
  - intros f F. unfold walk_fwd, walk_bwd, queue_head, queue_prev, queue_tail, rd_nx, rd_pv. rewrite (z0 h H0). cbn [bind]. split.
    + eapply walk_next_seg; eauto.
    + eapply (walk_prev_seg m l h h); eauto.
  - unfold queue_empty, rd_pv. rewrite (z0 h H0). cbn [bind]. rewrite (seg_lst _ _ _ _ S). destruct (exists_last' l) as [->|(l1 & x & ->)].
    + simpl. rewrite Z.eqb_refl. reflexivity.
    + rewrite last_last. replace (isnil (l1 ++ [x])) with false by (destruct l1; reflexivity).
      destruct (Z.eqb_spec h x) as [->|]; [|reflexivity]. exfalso. apply NH. apply in_or_app. right. left. reflexivity.
  - unfold queue_head, rd_nx. rewrite (z0 h H0). rewrite (seg_hd _ _ _ _ S). reflexivity.
Qed.
