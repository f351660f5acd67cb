(** * Properties of the intrusive queue: C01, C02 *)
From Verif Require Import Base Queue_Model Queue_Proofs.

(** Specification state: the queues as sequences, and the elements that were removed
    and not linked again. *)
Definition sstate := (queues * list Z)%type.
Definition sdel (x : Z) (l : list Z) := filter (fun y => negb (y =? x)) l.
Definition spec (s : sstate) (o : qop) : sstate :=
  (spec_step (fst s) o,
   match o with
   | QInit h => sdel h (snd s)
   | QIns _ q | QInsT _ q => sdel q (snd s)
   | QRem q => q :: sdel q (snd s)
   end).
(** what a caller may do: initialise an address that is not linked (or an empty queue
    again), insert an unlinked element in an initialised queue, remove an element that is
    in a queue or has been removed before *)
Definition allowed (s : sstate) (o : qop) : Prop :=
  match o with
  | QInit h => h <> 0 /\ (~ In h (addrs (fst s)) \/ In (h, []) (fst s))
  | QIns h q | QInsT h q => In h (heads (fst s)) /\ q <> 0 /\ ~ In q (addrs (fst s))
  | QRem q => In q (elems (fst s)) \/ In q (snd s)
  end.
Fixpoint spec_run (s : sstate) (os : list qop) : sstate :=
  match os with [] => s | o :: r => spec_run (spec s o) r end.
Fixpoint allowed_run (s : sstate) (os : list qop) : Prop :=
  match os with [] => True | o :: r => allowed s o /\ allowed_run (spec s o) r end.

Lemma sdel_in x y l : In y (sdel x l) <-> In y l /\ y <> x.
Proof. unfold sdel. rewrite filter_In. destruct (Z.eqb_spec y x); simpl; intuition discriminate. Qed.

Definition QI (m : qmem) (s : sstate) : Prop :=
  rep m (fst s) /\ (forall q, In q (snd s) -> q <> 0 /\ pv m q = 0 /\ nx m q = 0 /\ ~ In q (addrs (fst s))).

Lemma addrs_in y qs : In y (addrs qs) <-> In y (heads qs) \/ In y (elems qs).
Proof.
  unfold addrs, heads, elems. induction qs as [|(h, l) qs IH]; simpl; [tauto|]. rewrite !in_app_iff, IH. tauto.
Qed.
Lemma heads_del q qs : heads (map (fun e => (fst e, del q (snd e))) qs) = heads qs.
Proof. unfold heads. rewrite map_map. reflexivity. Qed.
Lemma elems_del q y qs : In y (elems (map (fun e => (fst e, del q (snd e))) qs)) -> In y (elems qs) /\ y <> q.
Proof.
  unfold elems. rewrite map_map. simpl. intros I. apply in_concat in I as (l & I & Y). apply in_map_iff in I as ((h, l') & <- & I). simpl in Y.
  apply (sdel_in q y l') in Y as (Y & N). split; [|exact N]. apply in_concat. exists l'. split; [|exact Y]. apply in_map_iff. exists (h, l'). auto.
Qed.
Lemma addrs_on h f qs y : In y (addrs (on h f qs)) -> In y (addrs qs) \/ exists l, In y (f l) /\ ~ In y l /\ In (h, l) qs.
Proof.
  unfold addrs, on. induction qs as [|(h', l) qs IH]; [intros []|]. intros Y. cbn [map List.concat] in Y |- *. apply in_app_iff in Y as [Y|Y].
  - cbn [fst snd] in *. destruct (Z.eqb_spec h' h) as [E|NE].
    + subst h'. cbn [fst snd] in Y. destruct Y as [<-|Y]; [left; left; reflexivity|]. destruct (in_dec Z.eq_dec y l) as [J|J].
      * left. right. apply in_or_app. left. exact J.
      * right. exists l. split; [exact Y|]. split; [exact J|]. left. reflexivity.
    + left. apply in_or_app. left. exact Y.
  - apply IH in Y as [Y|(l' & A & B & C)]; [left; apply in_or_app; right; exact Y|right; exists l'; split; [exact A|split; [exact B|right; exact C]]].
Qed.

Lemma QI_step m s o : QI m s -> allowed s o -> exists m', qstep m o = Ok m' /\ QI m' (spec s o).
Proof.
  intros (R & RM) A. destruct s as (qs, rm). cbn [fst snd] in *. destruct o as [h|h q|h q|q]; cbn [allowed fst snd] in A.
  - destruct A as (H0 & [A|A]).
    + destruct (queue_init_fresh m qs h R) as (m' & E & R' & FR); [split; assumption|].
      exists m'. split; [exact E|]. unfold spec, spec_step. cbn [fst snd].
      destruct (existsb (Z.eqb h) (heads qs)) eqn:X.
      { apply existsb_exists in X as (x & X & XE). apply Z.eqb_eq in XE. subst x. exfalso. apply A. apply heads_addrs. exact X. }
      split; [exact R'|]. cbn [fst snd]. intros q I. apply sdel_in in I as (I & NE). destruct (RM q I) as (Q0 & P & N & NI).
      destruct (FR q NE) as (F1 & F2). rewrite F1, F2. repeat (split; [assumption|]). rewrite addrs_app, in_app_iff. simpl. intuition.
    + destruct (queue_init_empty m qs h R A) as (m' & E & FR). exists m'. split; [exact E|]. unfold spec, spec_step. cbn [fst snd].
      assert (X : existsb (Z.eqb h) (heads qs) = true).
      { apply existsb_exists. exists h. split; [|apply Z.eqb_refl]. unfold heads. apply in_map_iff. exists (h, []). auto. }
      rewrite X. split; [eapply rep_ext; eauto|]. cbn [fst snd]. intros q I. apply sdel_in in I as (I & NE). destruct (RM q I) as (Q0 & P & N & NI).
      destruct (FR q) as (F1 & F2). rewrite F1, F2. auto.
  - destruct A as (H & Q0 & QN). destruct (queue_insert_ok m qs h q R H (conj Q0 QN)) as (m' & E & R' & FR).
    exists m'. split; [exact E|]. split; [exact R'|]. cbn [spec fst snd]. intros y I. apply sdel_in in I as (I & NE). destruct (RM y I) as (Y0 & P & N & NI).
    destruct (FR y NI NE) as (F1 & F2). rewrite F1, F2. repeat (split; [assumption|]). intros X. apply addrs_on in X as [X|(l & X & XN & _)]; [tauto|].
    simpl in X. destruct X; [congruence|tauto].
  - destruct A as (H & Q0 & QN). destruct (queue_insert_tail_ok m qs h q R H (conj Q0 QN)) as (m' & E & R' & FR).
    exists m'. split; [exact E|]. split; [exact R'|]. cbn [spec fst snd]. intros y I. apply sdel_in in I as (I & NE). destruct (RM y I) as (Y0 & P & N & NI).
    destruct (FR y NI NE) as (F1 & F2). rewrite F1, F2. repeat (split; [assumption|]). intros X. apply addrs_on in X as [X|(l & X & XN & _)]; [tauto|].
    rewrite in_app_iff in X. simpl in X. destruct X as [X|[X|[]]]; [tauto|congruence].
  - destruct (in_dec Z.eq_dec q (elems qs)) as [I|NI].
    + destruct (queue_remove_ok m qs q R I) as (m' & E & R' & P0 & N0 & FR). exists m'. split; [exact E|]. split; [exact R'|].
      cbn [spec fst snd]. assert (QQ : q <> 0). { destruct R as (_ & Z0 & _). intros ->. apply Z0. apply addrs_in. auto. }
      intros y [<-|Y].
      * repeat (split; [assumption|]). intros X. apply addrs_in in X as [X|X].
        -- cbn [spec_step] in X. rewrite heads_del in X. destruct R as (N & _ & _).
           apply heads_in in X as (qa & l & qb & ->). rewrite addrs_app, addrs_cons in N. apply NoDup_remove in N as (_ & N). apply N.
           unfold elems in I. rewrite map_app, concat_app in I. simpl in I. rewrite !in_app_iff in *. destruct I as [I|[I|I]].
           ++ left. apply addrs_in. right. exact I.
           ++ right. left. exact I.
           ++ right. right. apply addrs_in. right. exact I.
        -- apply elems_del in X. tauto.
      * apply sdel_in in Y as (Y & NE). destruct (RM y Y) as (Y0 & P & N & YI). destruct (FR y YI) as (F1 & F2). rewrite F1, F2.
        repeat (split; [assumption|]). intros X. apply YI. apply addrs_in. apply addrs_in in X as [X|X].
        -- cbn [spec_step] in X. rewrite heads_del in X. auto.
        -- apply elems_del in X. tauto.
    + destruct A as [A|A]; [contradiction|]. destruct (RM q A) as (Q0 & P & N & QI'). destruct (queue_remove_null m q Q0 P N) as (m' & E & FR).
      exists m'. split; [exact E|]. unfold spec, spec_step. cbn [fst snd]. rewrite map_del_skip by exact QI'. split; [eapply rep_ext; eauto|].
      cbn [fst snd]. intros y Y. assert (YI : In y rm). { destruct Y as [<-|Y]; [exact A|]. apply sdel_in in Y. tauto. }
      destruct (FR y) as (F1 & F2). rewrite F1, F2. apply RM. exact YI.
Qed.

Lemma QI_run os : forall m s, QI m s -> allowed_run s os -> exists m', qrun m os = Ok m' /\ QI m' (spec_run s os).
Proof.
  induction os as [|o os IH]; intros m s I A; simpl; [eauto|]. destruct A as (A & AR). destruct (QI_step m s o I A) as (m1 & E & I1).
  rewrite E. cbn [bind]. apply IH; assumption.
Qed.
Lemma QI_start m : QI m ([], []).
Proof. split; [|intros q []]. split; [constructor|]. split; [intros []|constructor]. Qed.

(** C01. From any memory, any history of permitted operations on any number of queues
    runs without dereferencing NULL, and afterwards every queue, walked with the loop its
    users are written with, gives exactly the specified sequence forwards and its reverse
    backwards; the emptiness test and the head agree. *)
Theorem C01_queues_are_sequences : forall m os,
  allowed_run ([], []) os ->
  exists m', qrun m os = Ok m' /\
    forall h l, In (h, l) (fst (spec_run ([], []) os)) ->
      (forall fuel, (length l <= fuel)%nat -> walk_fwd fuel m' h = Ok l /\ walk_bwd fuel m' h = Ok (rev l)) /\
      queue_empty m' h = Ok (isnil l) /\ queue_head m' h = Ok (hd h l).
Proof.
  intros m os A. destruct (QI_run os m _ (QI_start m) A) as (m' & E & (R & _)). exists m'. split; [exact E|].
  intros h l I. exact (rep_observe _ _ _ _ R I).
Qed.
Print Assumptions C01_queues_are_sequences.

(** the specification keeps queues apart *)
Lemma spec_step_apart : forall qs o h l,
  In (h, l) qs ->
  match o with QInit _ => True | QIns h' _ | QInsT h' _ => h' <> h | QRem q => ~ In q l end ->
  In (h, l) (spec_step qs o).
Proof.
  intros qs o h l I D. destruct o as [h'|h' q|h' q|q]; cbn [spec_step].
  - destruct (existsb _ _); [exact I|apply in_or_app; auto].
  - unfold on. apply in_map_iff. exists (h, l). split; [|exact I]. simpl. destruct (Z.eqb_spec h h'); [congruence|reflexivity].
  - unfold on. apply in_map_iff. exists (h, l). split; [|exact I]. simpl. destruct (Z.eqb_spec h h'); [congruence|reflexivity].
  - apply in_map_iff. exists (h, l). split; [|exact I]. simpl. rewrite del_skip by exact D. reflexivity.
Qed.
Lemma allowed_run_snoc os o : forall s, allowed_run s (os ++ [o]) -> allowed_run s os /\ allowed (spec_run s os) o.
Proof.
  induction os as [|x os IH]; intros s A; cbn [app allowed_run spec_run] in *; [tauto|].
  destruct A as (A & B). apply IH in B. tauto.
Qed.
(** After any history, a further operation that concerns another queue (or removes an element
    that is not in this one) leaves this queue as its users see it. *)
Theorem C01_other_queues_unchanged : forall m os o h l,
  allowed_run ([], []) (os ++ [o]) -> In (h, l) (fst (spec_run ([], []) os)) ->
  match o with QInit _ => True | QIns h' _ | QInsT h' _ => h' <> h | QRem q => ~ In q l end ->
  exists m1 m2, qrun m os = Ok m1 /\ qstep m1 o = Ok m2 /\
    (forall fuel, (length l <= fuel)%nat -> walk_fwd fuel m1 h = Ok l /\ walk_fwd fuel m2 h = Ok l /\
       walk_bwd fuel m2 h = walk_bwd fuel m1 h) /\
    queue_empty m2 h = queue_empty m1 h /\ queue_head m2 h = queue_head m1 h.
Proof.
  intros m os o h l A I D. apply allowed_run_snoc in A as (A & AO).
  destruct (QI_run os m _ (QI_start m) A) as (m1 & E1 & Q1). destruct (QI_step m1 _ o Q1 AO) as (m2 & E2 & Q2).
  exists m1, m2. split; [exact E1|]. split; [exact E2|].
  destruct (rep_observe _ _ _ _ (proj1 Q1) I) as (W1 & P1 & H1).
  destruct (rep_observe _ _ _ _ (proj1 Q2) (spec_step_apart _ o h l I D)) as (W2 & P2 & H2).
  split; [|split; congruence]. intros fuel F. destruct (W1 fuel F) as (X1 & Y1). destruct (W2 fuel F) as (X2 & Y2). split; [exact X1|]. split; congruence.
Qed.
Print Assumptions C01_other_queues_unchanged.

Definition qhist : list qop :=
  [QInit 10; QInit 20; QInsT 10 1; QInsT 10 2; QIns 10 3; QInsT 20 4; QRem 1; QInsT 20 1; QRem 3; QRem 3; QInit 20].
Ltac qlegal := simpl; repeat (split; try lia; try tauto; try (intuition discriminate)).
Example C01_case :
  allowed_run ([], []) (firstn 10 qhist) /\
  fst (spec_run ([], []) (firstn 10 qhist)) = [(10, [2]); (20, [4; 1])] /\
  match qrun (mkQ (fun _ => 77) (fun _ => 78)) (firstn 10 qhist) with
  | Ok m => walk_fwd 5 m 20 = Ok [4; 1] /\ walk_bwd 5 m 20 = Ok [1; 4]
  | _ => False
  end.
Proof.
  split; [qlegal|]. split; [reflexivity|]. vm_compute. auto.
Qed.

Example C01_other_case : allowed_run ([], []) (firstn 7 qhist ++ [QInsT 20 1]) /\
  In (10, [3; 2]) (fst (spec_run ([], []) (firstn 7 qhist))) /\ 20 <> 10.
Proof. split; [qlegal|]. split; [simpl; auto|lia]. Qed.

(** C02. Removing an element that was removed before and not linked since changes no
    link of any queue, in any reachable memory. *)
Theorem C02_remove_twice : forall m os q,
  allowed_run ([], []) os -> In q (snd (spec_run ([], []) os)) ->
  exists m', qrun m os = Ok m' /\
  exists m'', queue_remove m' q = Ok m'' /\ (forall y, pv m'' y = pv m' y /\ nx m'' y = nx m' y) /\
    forall h l, In (h, l) (fst (spec_run ([], []) os)) -> walk_fwd (length l) m'' h = Ok l.
Proof.
  intros m os q A I. destruct (QI_run os m _ (QI_start m) A) as (m' & E & (R & RM)). exists m'. split; [exact E|].
  destruct (RM q I) as (Q0 & P & N & _). destruct (queue_remove_null m' q Q0 P N) as (m'' & E2 & EX).
  exists m''. split; [exact E2|]. split; [exact EX|]. intros h l J.
  pose proof (rep_ext _ _ _ EX R) as R2. destruct (rep_observe _ _ _ _ R2 J) as (W & _). apply W. lia.
Qed.
Print Assumptions C02_remove_twice.

Example C02_case : In 3 (snd (spec_run ([], []) (firstn 9 qhist))) /\ allowed_run ([], []) (firstn 9 qhist).
Proof. split; [simpl; auto|]. qlegal. Qed.
