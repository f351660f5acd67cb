(** * Invariants of the event table *)
From Verif Require Import Base Hash_Props Ev_Model.
Local Arguments Z.add : simpl never.
Local Arguments Z.sub : simpl never.
Local Arguments Z.mul : simpl never.
Local Arguments zlen : simpl never.

Lemma upd_same {A} (m : Z -> A) i v : upd m i v i = v.
Proof. unfold upd. rewrite Z.eqb_refl. reflexivity. Qed.
Lemma upd_other {A} (m : Z -> A) i v j : j <> i -> upd m i v j = m j.
Proof. unfold upd. intros. destruct (Z.eqb_spec j i); [contradiction|reflexivity]. Qed.

(** the slots a batch fills: connection and direction *)
Definition slots1 (x : report) : list (Z * bool) :=
  let '(e, (r, w)) := x in (if r then [(e, false)] else []) ++ (if w then [(e, true)] else []).
Definition flat (b : list report) : list (Z * bool) := flat_map slots1 b.

Record wf (s : st) : Prop := Wf {
  w_len : zlen (tab s) = TABLE;
  w_idx : forall e, 0 <= idxr (evm s e) < TABLE /\ 0 <= idxw (evm s e) < TABLE }.

(** ** Releasing a connection *)
Lemma clear_spec s e g i : zlen (tab s) = TABLE -> 0 <= i < TABLE ->
  exists s', clear s e g i = Ok s' /\ evn s' = evn s /\ evm s' = evm s /\ zlen (tab s') = TABLE /\
    (forall j, zget (tab s') j = if (j =? i) && negb (i =? 0) then Some None else zget (tab s) j) /\
    (hit s' = false -> hit s = false /\
       (i = 0 \/ evn s <= i \/ exists x, zget (tab s) i = Some x /\ same x e g = true)) /\
    (hit s = false -> (i = 0 \/ exists x, zget (tab s) i = Some x /\ same x e g = true) -> hit s' = false).
Proof.
  intros L R. unfold clear. destruct (Z.eqb_spec i 0) as [E|E].
  - exists s. repeat split; auto. intros j. rewrite andb_false_r. reflexivity.
  - destruct (zget_in_range (tab s) i) as [x Hx]; [lia|]. rewrite Hx.
    assert (exists t, zput (tab s) i [None] = Some t) as [t Ht].
    { eexists. apply zput_ok; [lia|]. change (zlen [@None (Z*Z)]) with 1. lia. }
    rewrite Ht. eexists. split; [reflexivity|]. cbn [evn evm tab hit].
    split; [auto|]. split; [auto|]. split; [rewrite (zput_len _ _ _ _ Ht); auto|].
    split; [intros j; rewrite (zget_zput1 _ _ _ _ _ Ht); destruct (j =? i); reflexivity|].
    split.
    + intros H. apply orb_false_iff in H as [H1 H2]. split; auto. right.
      destruct (Z.ltb_spec i (evn s)); [right|left; lia]. exists x. split; auto.
      simpl in H2. destruct (same x e g); auto.
    + intros H1 [H|(y & Hy & Sy)]; [contradiction|]. inversion Hy; subst.
      rewrite H1, Sy. simpl. apply andb_false_r.
Qed.

(** what [ev_free] does *)
Lemma free_spec s e : wf s ->
  exists s', ev_free s e = Ok s' /\ evn s' = evn s /\ zlen (tab s') = TABLE /\
    (forall e', e' <> e -> evm s' e' = evm s e') /\
    evm s' e = Ev false (gen (evm s e)) (idxr (evm s e)) (idxw (evm s e)) (fread (evm s e))
                 (fwrite (evm s e)) (rcb (evm s e)) (wcb (evm s e)) /\
    (forall j, zget (tab s') j = zget (tab s) j \/ zget (tab s') j = Some None) /\
    (forall j, j <> 0 -> j = idxr (evm s e) \/ j = idxw (evm s e) -> zget (tab s') j = Some None) /\
    (hit s' = false -> hit s = false /\ forall j e' g', j < evn s ->
       zget (tab s) j = Some (Some (e', g')) -> e' <> e \/ g' <> gen (evm s e) -> zget (tab s') j = zget (tab s) j) /\
    (hit s = false -> (forall i, i = idxr (evm s e) \/ i = idxw (evm s e) ->
        i = 0 \/ exists x, zget (tab s) i = Some x /\ same x e (gen (evm s e)) = true) -> hit s' = false).
Proof.
  intros [L I]. unfold ev_free. destruct (I e) as [I1 I2].
  destruct (clear_spec s e (gen (evm s e)) (idxr (evm s e)) L I1) as (s1 & E1 & N1 & M1 & L1 & T1 & H1 & H1').
  destruct (clear_spec s1 e (gen (evm s e)) (idxw (evm s e)) L1 I2) as (s2 & E2 & N2 & M2 & L2 & T2 & H2 & H2').
  rewrite E1. cbn [bind]. rewrite E2. cbn [bind]. eexists. split; [reflexivity|].
  unfold set_ev. cbn [evn evm tab hit]. rewrite M2, M1.
  split; [congruence|]. split; [auto|]. split; [intros; apply upd_other; auto|].
  split; [apply upd_same|].
  split; [|split; [|split]].
  - intros j. rewrite T2, T1. destruct (_ && _); auto. destruct (_ && _); auto.
  - intros j J0 [J|J]; rewrite T2, T1; subst j;
      rewrite ?Z.eqb_refl; destruct (Z.eqb_spec (idxr (evm s e)) 0); try contradiction;
      destruct (Z.eqb_spec (idxw (evm s e)) 0); try contradiction; simpl;
      try reflexivity; destruct (_ && _); try reflexivity; rewrite ?andb_true_r; try reflexivity.
  - intros H. apply H2 in H as [H HW]. apply H1 in H as [H HR]. split; auto.
    intros j e' g' J T D. rewrite T2, T1.
    assert (NS : same (Some (e', g')) e (gen (evm s e)) = false).
    { simpl. destruct (Z.eqb_spec e' e); auto. destruct (Z.eqb_spec g' (gen (evm s e))); auto. tauto. }
    destruct (Z.eqb_spec j (idxw (evm s e))) as [E|E]; simpl.
    + destruct (Z.eqb_spec (idxw (evm s e)) 0) as [Z0|Z0]; simpl.
      * destruct (Z.eqb_spec j (idxr (evm s e))); simpl; auto.
        destruct (Z.eqb_spec (idxr (evm s e)) 0); simpl; auto. lia.
      * destruct HW as [HW|[HW|(x & Hx & Sx)]]; [contradiction|lia|].
        rewrite T1 in Hx. rewrite <- E in Hx.
        destruct (Z.eqb_spec j (idxr (evm s e))) as [E'|E']; simpl in Hx.
        -- destruct (Z.eqb_spec (idxr (evm s e)) 0); simpl in Hx; [lia|].
           destruct HR as [HR|[HR|(y & Hy & Sy)]]; [contradiction|lia|].
           rewrite <- E', T in Hy. inversion Hy; subst. congruence.
        -- rewrite T in Hx. inversion Hx; subst. congruence.
    + destruct (Z.eqb_spec j (idxr (evm s e))) as [E'|E']; simpl; auto.
      destruct (Z.eqb_spec (idxr (evm s e)) 0); simpl; auto.
      destruct HR as [HR|[HR|(y & Hy & Sy)]]; [contradiction|lia|].
      rewrite <- E', T in Hy. inversion Hy; subst. congruence.
  - intros H A. apply H2'; [apply H1'; auto|].
    destruct (A (idxw (evm s e)) (or_intror eq_refl)) as [Q|(x & Hx & Sx)]; auto.
    right. rewrite T1. destruct (_ && _); [exists None; split; reflexivity|eauto].
Qed.

(** ** The dispatch phase. [fl]: the slots of the batch; [G]: generations at its start *)
Record safe (fl : list (Z * bool)) (G : Z -> Z) (s : st) (i : Z) : Prop := Safe {
  a_wf : wf s;
  a_evn : evn s = zlen fl;
  a_max : zlen fl <= TABLE;
  a_gen : forall e, G e <= gen (evm s e);
  a_tab : forall j e g, i <= j -> j < evn s -> zget (tab s) j = Some (Some (e, g)) ->
    live (evm s e) = true /\ gen (evm s e) = g /\ g = G e /\
    (j <> 0 -> idxr (evm s e) = j \/ idxw (evm s e) = j) /\
    exists k, zget fl j = Some (e, k) }.

(** every event still to come is in the table, and the flags say which ones these are *)
Record full (fl : list (Z * bool)) (G : Z -> Z) (s : st) (i : Z) : Prop := Full {
  b_del : forall j e k, i <= j -> zget fl j = Some (e, k) -> live (evm s e) = true ->
    gen (evm s e) = G e -> zget (tab s) j = Some (Some (e, G e));
  b_fl : forall e, live (evm s e) = true -> gen (evm s e) = G e ->
    (fread (evm s e) = true <-> In (e, false) (zdrop i fl)) /\
    (fwrite (evm s e) = true <-> In (e, true) (zdrop i fl));
  b_new : forall e, live (evm s e) = true -> gen (evm s e) <> G e ->
    fread (evm s e) = false /\ fwrite (evm s e) = false }.

(** a connection of the batch points at its own entries only *)
Definition own (ids : list Z) (s : st) : Prop :=
  forall e i, In e ids -> live (evm s e) = true -> i = idxr (evm s e) \/ i = idxw (evm s e) ->
    i = 0 \/ exists x, zget (tab s) i = Some x /\ same x e (gen (evm s e)) = true.

Lemma act_wf s a s' : wf s -> do_act s a = Ok s' -> wf s' /\ evn s' = evn s.
Proof.
  intros W H. destruct a as [e|e|e r w]; simpl in H; destruct (live (evm s e)); try discriminate.
  - destruct (free_spec s e W) as (s1 & E & N & L & O & S & _). rewrite E in H. inversion H; subst.
    split; [|auto]. destruct W as [WL WI]. split; auto. intros e'. destruct (Z.eq_dec e' e) as [->|D].
    + rewrite S. simpl. apply WI.
    + rewrite O by auto. apply WI.
  - inversion H; subst. split; [|reflexivity]. destruct W as [WL WI]. split; auto.
    intros e'. simpl. unfold upd. destruct (e' =? e); [simpl; unfold TABLE, BATCH; lia|apply WI].
  - inversion H; subst. split; [|reflexivity]. destruct W as [WL WI]. split; auto.
    intros e'. simpl. unfold upd. destruct (e' =? e) eqn:E; [simpl; apply WI|apply WI].
Qed.

Lemma act_no_mem s a : wf s -> (exists s', do_act s a = Ok s') \/ do_act s a = Fault FAbort.
Proof.
  intros W. destruct a as [e|e|e r w]; simpl; destruct (live (evm s e)); eauto.
  destruct (free_spec s e W) as (s1 & E & _). eauto.
Qed.

Lemma act_gen s a s' e : wf s -> do_act s a = Ok s' ->
  gen (evm s e) <= gen (evm s' e) /\
  (live (evm s' e) = true -> gen (evm s' e) = gen (evm s e) -> live (evm s e) = true).
Proof.
  intros W H. destruct a as [e0|e0|e0 r w]; simpl in H; destruct (live (evm s e0)) eqn:L; try discriminate.
  - destruct (free_spec s e0 W) as (s1 & E & N & LL & O & S & _). rewrite E in H. inversion H; subst.
    destruct (Z.eq_dec e e0) as [->|D].
    + rewrite S. simpl. split; [lia|auto].
    + rewrite O by auto. split; [lia|auto].
  - inversion H; subst. simpl. unfold upd. destruct (Z.eqb_spec e e0); simpl; [subst; split; lia|split; [lia|auto]].
  - inversion H; subst. simpl. unfold upd. destruct (Z.eqb_spec e e0); simpl; [subst; split; [lia|auto]|split; [lia|auto]].
Qed.

Lemma act_safe fl G s i a s' : 1 <= i -> safe fl G s i -> do_act s a = Ok s' -> safe fl G s' i.
Proof.
  intros Hi A H. destruct (act_wf _ _ _ (a_wf _ _ _ _ A) H) as [W' N'].
  pose proof (fun e => act_gen _ _ _ e (a_wf _ _ _ _ A) H) as GG.
  destruct A as [W N Mx Ge T]. constructor; auto; [congruence|intros e; specialize (GG e); specialize (Ge e); lia|].
  intros j e g J1 J2 Hj. rewrite N' in J2.
  destruct a as [e0|e0|e0 r w]; simpl in H; destruct (live (evm s e0)) eqn:L; try discriminate.
  - destruct (free_spec s e0 W) as (s1 & E & _ & LL & O & S & T1 & T2 & _). rewrite E in H. inversion H; subst.
    destruct (T1 j) as [Q|Q]; [|rewrite Q in Hj; discriminate]. rewrite Q in Hj.
    destruct (T j e g J1 J2 Hj) as (A1 & A2 & A3 & A4 & A5).
    destruct (Z.eq_dec e e0) as [->|D].
    + assert (j <> 0) by lia. rewrite (T2 j) in Q; auto; [congruence|].
      destruct (A4 H0); auto.
    + rewrite O by auto. auto.
  - inversion H; subst. simpl in Hj. destruct (T j e g J1 J2 Hj) as (A1 & A2 & A3 & A4 & A5).
    simpl. rewrite upd_other by congruence. auto.
  - inversion H; subst. simpl in Hj. destruct (T j e g J1 J2 Hj) as (A1 & A2 & A3 & A4 & A5).
    simpl. unfold upd. destruct (Z.eqb_spec e e0); simpl; [subst e0; auto|auto].
Qed.

Lemma act_full fl G s i a s' : 1 <= i -> safe fl G s i -> full fl G s i -> do_act s a = Ok s' ->
  hit s' = false -> hit s = false /\ full fl G s' i.
Proof.
  intros Hi A B H HH. destruct A as [W N Mx Ge T]. destruct B as [D F Nw].
  destruct a as [e0|e0|e0 r w]; simpl in H; destruct (live (evm s e0)) eqn:L; try discriminate.
  - destruct (free_spec s e0 W) as (s1 & E & N1 & LL & O & S & T1 & T2 & H1 & _). rewrite E in H. inversion H; subst.
    apply H1 in HH as [HH KK]. split; auto.
    assert (ALL : forall e, live (evm s' e) = true -> e <> e0 /\ evm s' e = evm s e).
    { intros e Q. destruct (Z.eq_dec e e0) as [->|Df]; [rewrite S in Q; discriminate|auto]. }
    constructor.
    + intros j e k J Hf Lv Ev. destruct (ALL e Lv) as [Df Q]. rewrite Q in *.
      pose proof (D j e k J Hf Lv Ev) as TT.
      pose proof (zget_some_range _ _ _ Hf). rewrite (KK j e (G e)); auto. lia.
    + intros e Lv Ev. destruct (ALL e Lv) as [Df Q]. rewrite Q in *. auto.
    + intros e Lv Ev. destruct (ALL e Lv) as [Df Q]. rewrite Q in *. auto.
  - inversion H; subst. simpl in HH. split; auto. unfold ev_alloc, set_ev in *.
    constructor; cbn [evm tab].
    + intros j e k J Hf Lv Ev. destruct (Z.eq_dec e e0) as [->|Df].
      * rewrite upd_same in Ev. simpl in Ev. specialize (Ge e0). lia.
      * rewrite upd_other in * by auto. eauto.
    + intros e Lv Ev. destruct (Z.eq_dec e e0) as [->|Df].
      * rewrite upd_same in Ev. simpl in Ev. specialize (Ge e0). lia.
      * rewrite upd_other in * by auto. auto.
    + intros e Lv Ev. destruct (Z.eq_dec e e0) as [->|Df].
      * rewrite upd_same. auto.
      * rewrite upd_other in * by auto. auto.
  - inversion H; subst. simpl in HH. split; auto. unfold set_ev in *.
    constructor; cbn [evm tab].
    + intros j e k J Hf Lv Ev. destruct (Z.eq_dec e e0) as [->|Df].
      * rewrite upd_same in *. simpl in *. eauto.
      * rewrite upd_other in * by auto. eauto.
    + intros e Lv Ev. destruct (Z.eq_dec e e0) as [->|Df].
      * rewrite upd_same in *. simpl in *. auto.
      * rewrite upd_other in * by auto. auto.
    + intros e Lv Ev. destruct (Z.eq_dec e e0) as [->|Df].
      * rewrite upd_same in *. simpl in *. auto.
      * rewrite upd_other in * by auto. auto.
Qed.

Lemma act_own ids s a s' : wf s -> own ids s -> do_act s a = Ok s' ->
  own ids s' /\ ((forall e, a = AFree e -> In e ids) -> hit s = false -> hit s' = false).
Proof.
  intros W O H.
  destruct a as [e0|e0|e0 r w]; simpl in H; destruct (live (evm s e0)) eqn:L; try discriminate.
  - destruct (free_spec s e0 W) as (s1 & E & N1 & LL & Ot & S & T1 & T2 & _ & H2). rewrite E in H. inversion H; subst.
    split.
    + intros e i Hin Lv Hi. destruct (Z.eq_dec e e0) as [->|Df]; [rewrite S in Lv; discriminate|].
      rewrite Ot in * by auto. destruct (O e i Hin Lv Hi) as [Q|(x & Hx & Sx)]; auto.
      right. destruct (T1 i) as [Q|Q]; rewrite Q; [eauto|exists None; auto].
    + intros Hin HH. apply H2; [exact HH|]. intros i Hi. apply O; auto.
  - inversion H; subst. unfold ev_alloc, set_ev. split; [|auto].
    intros e i Hin. cbn [evm tab]. destruct (Z.eq_dec e e0) as [->|Df].
    + rewrite upd_same. simpl. tauto.
    + rewrite upd_other by auto. apply O; auto.
  - inversion H; subst. unfold set_ev. split; [|auto].
    intros e i Hin. cbn [evm tab]. destruct (Z.eq_dec e e0) as [->|Df].
    + rewrite upd_same. simpl. intros _. apply O; auto.
    + rewrite upd_other by auto. apply O; auto.
Qed.

(** sequences of actions *)
Lemma acts_ind (P : st -> Prop) : (forall s a s', wf s -> P s -> do_act s a = Ok s' -> P s') ->
  forall l s s', wf s -> P s -> do_acts s l = Ok s' -> wf s' /\ P s'.
Proof.
  intros Step. induction l as [|a l IH]; simpl; intros s s' W Hp H.
  - inversion H; subst; auto.
  - apply bind_ok in H as (s1 & H1 & H2). destruct (act_wf _ _ _ W H1). eauto.
Qed.

Lemma acts_no_mem l : forall s, wf s -> (exists s', do_acts s l = Ok s') \/ do_acts s l = Fault FAbort.
Proof.
  induction l as [|a l IH]; simpl; intros s W; eauto.
  destruct (act_no_mem s a W) as [[s1 E]|E]; rewrite E; cbn [bind]; auto.
  destruct (act_wf _ _ _ W E). auto.
Qed.

Lemma acts_safe fl G i l s s' : 1 <= i -> safe fl G s i -> do_acts s l = Ok s' -> safe fl G s' i.
Proof.
  intros Hi A H. apply (acts_ind (fun s => safe fl G s i)) in H; auto; [tauto| |apply A].
  intros. eapply act_safe; eauto.
Qed.

Lemma acts_hit l : forall s s', wf s -> do_acts s l = Ok s' -> hit s' = false -> hit s = false.
Proof.
  induction l as [|a l IH]; simpl; intros s s' W H HH; [inversion H; subst; auto|].
  apply bind_ok in H as (s1 & H1 & H2). destruct (act_wf _ _ _ W H1) as [W1 _].
  specialize (IH _ _ W1 H2 HH).
  destruct a as [e0|e0|e0 r w]; simpl in H1; destruct (live (evm s e0)) eqn:L; try discriminate.
  - destruct (free_spec s e0 W) as (s2 & E & N1 & LL & Ot & S & T1 & T2 & H3 & _). rewrite E in H1.
    inversion H1; subst. apply H3 in IH. tauto.
  - inversion H1; subst. exact IH.
  - inversion H1; subst. exact IH.
Qed.

Lemma acts_full fl G i l : 1 <= i -> forall s s', safe fl G s i -> full fl G s i -> do_acts s l = Ok s' ->
  hit s' = false -> full fl G s' i.
Proof.
  intros Hi. induction l as [|a l IH]; simpl; intros s s' A B H HH; [inversion H; subst; auto|].
  apply bind_ok in H as (s1 & H1 & H2).
  pose proof (act_safe _ _ _ _ _ _ Hi A H1) as A1.
  pose proof (acts_hit _ _ _ (a_wf _ _ _ _ A1) H2 HH) as HH1.
  destruct (act_full _ _ _ _ _ _ Hi A B H1 HH1). eauto.
Qed.

Lemma acts_own ids l : forall s s', wf s -> own ids s -> do_acts s l = Ok s' ->
  own ids s' /\ ((forall e, In (AFree e) l -> In e ids) -> hit s = false -> hit s' = false).
Proof.
  induction l as [|a l IH]; simpl; intros s s' W O H; [inversion H; subst; auto|].
  apply bind_ok in H as (s1 & H1 & H2). destruct (act_wf _ _ _ W H1) as [W1 _].
  destruct (act_own _ _ _ _ W O H1) as [O1 K1]. destruct (IH _ _ W1 O1 H2) as [O2 K2].
  split; [exact O2|]. intros F HH. apply K2; [intros; apply F; auto|]. apply K1; [|exact HH]. intros e ->. apply F; auto.
Qed.

Lemma acts_gen l : forall s s' e, wf s -> do_acts s l = Ok s' ->
  gen (evm s e) <= gen (evm s' e) /\
  (live (evm s' e) = true -> gen (evm s' e) = gen (evm s e) -> live (evm s e) = true).
Proof.
  induction l as [|a l IH]; simpl; intros s s' e W H; [inversion H; subst; split; [lia|auto]|].
  apply bind_ok in H as (s1 & H1 & H2). destruct (act_wf _ _ _ W H1) as [W1 _].
  destruct (IH _ _ e W1 H2) as [G2 L2]. destruct (act_gen _ _ _ e W H1) as [G1 L1].
  split; [lia|]. intros Lv Ge. apply L1; [apply L2; auto; lia|lia].
Qed.

(** ** Taking one slot *)
Definition set_flags (s : st) (e : Z) (r w : bool) : st :=
  let v := evm s e in set_ev s e (Ev (live v) (gen v) (idxr v) (idxw v) r w (rcb v) (wcb v)).

Lemma flags_ev s e r w e' :
  let v := evm (set_flags s e r w) e' in let v0 := evm s e' in
  live v = live v0 /\ gen v = gen v0 /\ idxr v = idxr v0 /\ idxw v = idxw v0 /\ rcb v = rcb v0 /\ wcb v = wcb v0 /\
  fread v = (if e' =? e then r else fread v0) /\ fwrite v = (if e' =? e then w else fwrite v0).
Proof. unfold set_flags, set_ev, upd. simpl. destruct (Z.eqb_spec e' e); subst; simpl; auto 10. Qed.

Lemma flags_wf s e r w : wf s -> wf (set_flags s e r w).
Proof.
  intros [L I]. split; auto. intros e'. destruct (flags_ev s e r w e') as (_ & _ & Q1 & Q2 & _).
  rewrite Q1, Q2. apply I.
Qed.

Lemma flags_safe fl G s e r w i : safe fl G s i -> safe fl G (set_flags s e r w) i.
Proof.
  intros [W N Mx Ge T]. constructor; auto using flags_wf.
  - intros e'. destruct (flags_ev s e r w e') as (_ & Q & _). rewrite Q. auto.
  - intros j e' g J1 J2 Hj. destruct (flags_ev s e r w e') as (Q1 & Q2 & Q3 & Q4 & _).
    rewrite Q1, Q2, Q3, Q4. apply T; auto.
Qed.

Lemma flags_own ids s e r w : own ids s -> own ids (set_flags s e r w).
Proof.
  intros O e' i. destruct (flags_ev s e r w e') as (Q1 & Q2 & Q3 & Q4 & _).
  rewrite Q1, Q2, Q3, Q4. apply O.
Qed.

Lemma safe_next fl G s i : safe fl G s i -> safe fl G s (i + 1).
Proof. intros [W N Mx Ge T]. constructor; auto. intros j e g J. apply T. lia. Qed.

(** unfolding of one slot *)
Lemma dispatch_eq n s i progs :
  dispatch (S n) s i progs =
  match zget (tab s) i with
  | None => Fault FOob
  | Some None => dispatch n s (i + 1) progs
  | Some (Some (e, g)) =>
      let v := evm s e in
      if live v then
        if fread v || fwrite v then
          let k := negb (fread v) in
          let s1 := set_flags s e false (fread v && fwrite v) in
          if (if k then wcb v else rcb v) then
            let* s2 := do_acts s1 (hd [] progs) in
            let* r := dispatch n s2 (i + 1) (tl progs) in
            Ok (fst r, Called e g (gen v) k :: snd r)
          else
            let* r := dispatch n s1 (i + 1) progs in
            Ok (fst r, NoCb e g (gen v) k :: snd r)
        else
          let* r := dispatch n s (i + 1) progs in
          Ok (fst r, Idle e :: snd r)
      else Fault FUaf
  end.
Proof.
  cbn [dispatch]. destruct (zget (tab s) i) as [[[e g]|]|]; auto. cbv zeta. unfold set_flags. cbv zeta.
  destruct (live (evm s e)), (fread (evm s e)), (fwrite (evm s e)); cbn [orb negb andb]; reflexivity.
Qed.

Definition fresh_log (log : list what) : Prop :=
  forall x, In x log -> match x with Called _ g now _ | NoCb _ g now _ => g = now | Idle _ => True end.

Lemma dispatch_safe fl G : forall n s i progs, 0 <= i -> i + Z.of_nat n = zlen fl -> safe fl G s i ->
  dispatch n s i progs = Fault FAbort \/
  exists s' log, dispatch n s i progs = Ok (s', log) /\ wf s' /\ fresh_log log /\
    (hit s' = false -> hit s = false) /\
    (forall e, gen (evm s e) <= gen (evm s' e) /\
       (live (evm s' e) = true -> gen (evm s' e) = gen (evm s e) -> live (evm s e) = true)).
Proof.
  induction n as [|n IH]; intros s i progs Hi Hn A.
  - right. exists s, []. simpl. split; auto. split; [apply A|]. split; [intros x []|]. split; auto.
    intros e. split; [lia|auto].
  - rewrite dispatch_eq.
    pose proof (a_wf _ _ _ _ A) as W. pose proof (a_tab _ _ _ _ A) as T.
    pose proof (a_evn _ _ _ _ A) as N. pose proof (a_max _ _ _ _ A) as Mx. pose proof (w_len _ W) as WL.
    destruct (zget (tab s) i) as [x|] eqn:Ex.
    2:{ exfalso. apply zget_none in Ex. lia. }
    destruct x as [[e g]|].
    2:{ apply IH; [lia|lia|apply safe_next; auto]. }
    destruct (T i e g) as (Lv & Gv & GG & _); [lia|lia|auto|].
    cbv zeta. rewrite Lv.
    destruct (fread (evm s e) || fwrite (evm s e)).
    + set (s1 := set_flags s e false (fread (evm s e) && fwrite (evm s e))).
      assert (A1 : safe fl G s1 (i + 1)) by (apply safe_next, flags_safe; auto).
      assert (F1 : forall e', live (evm s1 e') = live (evm s e') /\ gen (evm s1 e') = gen (evm s e')).
      { intros e'. destruct (flags_ev s e false (fread (evm s e) && fwrite (evm s e)) e') as (Q1 & Q2 & _). auto. }
      assert (H1 : hit s1 = hit s) by reflexivity.
      destruct (if negb (fread (evm s e)) then wcb (evm s e) else rcb (evm s e)).
      * destruct (acts_no_mem (hd [] progs) s1 (a_wf _ _ _ _ A1)) as [[s2 E2]|E2]; rewrite E2; cbn [bind]; [|auto].
        assert (A2 : safe fl G s2 (i + 1)) by (eapply acts_safe; eauto; lia).
        destruct (IH s2 (i + 1) (tl progs)) as [E3|(s3 & log & E3 & W3 & L3 & H3 & G3)]; [lia|lia|auto| |];
          rewrite E3; cbn [bind fst snd]; [auto|].
        right. exists s3, (Called e g (gen (evm s e)) (negb (fread (evm s e))) :: log).
        split; auto. split; auto. split; [intros x [<-|Hx]; [auto|apply L3; auto]|].
        split; [intros HH; rewrite <- H1; eapply acts_hit; eauto; apply A1|].
        intros e'. destruct (G3 e') as [P1 P2]. destruct (acts_gen _ _ _ e' (a_wf _ _ _ _ A1) E2) as [P3 P4].
        destruct (F1 e') as [P5 P6]. rewrite P5, P6 in *. split; [clear - P1 P3; lia|].
        intros X Y. assert (gen (evm s2 e') = gen (evm s e')) by (clear - P1 P3 Y; lia).
        apply P4; [apply P2; congruence|assumption].
      * destruct (IH s1 (i + 1) progs) as [E3|(s3 & log & E3 & W3 & L3 & H3 & G3)]; [lia|lia|auto| |];
          rewrite E3; cbn [bind fst snd]; [auto|].
        right. exists s3, (NoCb e g (gen (evm s e)) (negb (fread (evm s e))) :: log).
        split; auto. split; auto. split; [intros x [<-|Hx]; [auto|apply L3; auto]|].
        split; [intros HH; rewrite <- H1; auto|].
        intros e'. destruct (G3 e') as [P1 P2]. destruct (F1 e') as [P5 P6]. rewrite P5, P6 in *. auto.
    + destruct (IH s (i + 1) progs) as [E3|(s3 & log & E3 & W3 & L3 & H3 & G3)]; [lia|lia|apply safe_next; auto| |];
          rewrite E3; cbn [bind fst snd]; [auto|].
      right. exists s3, (Idle e :: log). split; auto. split; auto.
      split; [intros x [<-|Hx]; [exact Logic.I|apply L3; auto]|]. auto.
Qed.

(** readable comes before writable *)
Definition ordered (fl : list (Z * bool)) : Prop :=
  forall j e, zget fl j = Some (e, true) -> ~ In (e, false) (zdrop j fl).

Lemma nodup_drop (fl : list (Z * bool)) i x : NoDup fl -> zget fl i = Some x ->
  (In x (zdrop (i + 1) fl) -> False) /\ forall y, y <> x -> (In y (zdrop i fl) <-> In y (zdrop (i + 1) fl)).
Proof.
  intros ND E. pose proof (zdrop_cons_get _ _ _ E) as D. split.
  - assert (NoDup (zdrop i fl)) as ND'.
    { rewrite <- (ztake_zdrop i fl) in ND. clear - ND. induction (ztake i fl); simpl in ND; auto.
      inversion ND; auto. }
    rewrite D in ND'. inversion ND'; auto.
  - intros y Y. rewrite D. simpl. split; [intros [Q|Q]; [congruence|auto]|auto].
Qed.

Lemma full_take fl G s i e k : NoDup fl -> ordered fl -> safe fl G s i -> full fl G s i ->
  0 <= i -> zget fl i = Some (e, k) -> live (evm s e) = true -> gen (evm s e) = G e ->
  (fread (evm s e) || fwrite (evm s e)) = true /\ negb (fread (evm s e)) = k /\
  full fl G (set_flags s e false (fread (evm s e) && fwrite (evm s e))) (i + 1).
Proof.
  intros ND OR A B Hi E Lv Gv. destruct B as [D F Nw].
  destruct (F e Lv Gv) as [F1 F2].
  destruct (nodup_drop fl i (e, k) ND E) as [X1 X2].
  assert (IN : In (e, k) (zdrop i fl)) by (rewrite (zdrop_cons_get _ _ _ E); left; auto).
  assert (KK : negb (fread (evm s e)) = k).
  { destruct k.
    - specialize (OR i e E). destruct (fread (evm s e)); auto. exfalso. apply OR, F1. auto.
    - apply F1 in IN. rewrite IN. reflexivity. }
  split; [|split; [exact KK|]].
  { destruct k; [apply F2 in IN; rewrite IN; apply orb_true_r|apply F1 in IN; rewrite IN; reflexivity]. }
  constructor.
  - intros j e' k' J Hf. destruct (flags_ev s e false (fread (evm s e) && fwrite (evm s e)) e') as (Q1 & Q2 & _).
    rewrite Q1, Q2. intros. apply (D j e' k'); auto. lia.
  - intros e'. destruct (flags_ev s e false (fread (evm s e) && fwrite (evm s e)) e') as (Q1 & Q2 & _ & _ & _ & _ & Q7 & Q8).
    rewrite Q1, Q2, Q7, Q8. intros L' G'. destruct (F e' L' G') as [F3 F4].
    destruct (Z.eqb_spec e' e) as [->|Df].
    + destruct k; cbn [negb] in *.
      * apply negb_true_iff in KK. rewrite KK. cbn [andb]. split; split; try discriminate; intros Q.
        -- exfalso. apply (OR i e E). apply (X2 (e, false)); [congruence|auto].
        -- tauto.
      * apply negb_false_iff in KK. rewrite KK. cbn [andb]. split; split; try discriminate; intros Q.
        -- tauto.
        -- apply (X2 (e, true)); [congruence|]. apply F2; auto.
        -- apply F2. apply (X2 (e, true)); [congruence|auto].
    + rewrite F3, F4. split; apply X2; congruence.
  - intros e'. destruct (flags_ev s e false (fread (evm s e) && fwrite (evm s e)) e') as (Q1 & Q2 & _ & _ & _ & _ & Q7 & Q8).
    rewrite Q1, Q2, Q7, Q8. intros L' G'. destruct (Z.eqb_spec e' e); [subst; contradiction|auto].
Qed.

(** a slot that is empty belongs to a connection that is gone *)
Lemma full_skip fl G s i : full fl G s i -> zget (tab s) i = Some None -> full fl G s (i + 1).
Proof.
  intros [D F Nw] E. constructor; auto.
  - intros j e k J. apply D. lia.
  - intros e Lv Gv. destruct (F e Lv Gv) as [F1 F2].
    assert (Q : forall k, In (e, k) (zdrop i fl) <-> In (e, k) (zdrop (i + 1) fl)).
    { intros k. destruct (zget fl i) as [[e' k']|] eqn:Ef.
      - rewrite (zdrop_cons_get _ _ _ Ef). simpl. split; auto. intros [Q|Q]; auto. inversion Q; subst.
        exfalso. assert (zget (tab s) i = Some (Some (e, G e))) by (eapply D; eauto; lia). congruence.
      - apply zget_none in Ef as [Ef|Ef].
        + rewrite !zdrop_le0 by lia. tauto.
        + rewrite !zdrop_all by lia. tauto. }
    rewrite F1, F2. split; apply Q.
Qed.

Lemma dispatch_full fl G : NoDup fl -> ordered fl -> forall n s i progs s' log,
  0 <= i -> i + Z.of_nat n = zlen fl -> safe fl G s i -> full fl G s i ->
  dispatch n s i progs = Ok (s', log) -> hit s' = false ->
  full fl G s' (zlen fl) /\
  forall j e k, i <= j -> zget fl j = Some (e, k) -> live (evm s' e) = true -> gen (evm s' e) = G e ->
    In (Called e (G e) (G e) k) log \/ In (NoCb e (G e) (G e) k) log.
Proof.
  intros ND OR. induction n as [|n IH]; intros s i progs s' log Hi Hn A B H HH.
  - simpl in H. inversion H; subst. replace (zlen fl) with i by lia. split; auto.
    intros j e k J Hj. apply zget_some_range in Hj. lia.
  - pose proof (dispatch_safe fl G (S n) s i progs Hi Hn A) as [X|(s'' & log' & X & _ & _ & Hh & Gh)];
      rewrite H in X; [discriminate|]. inversion X; subst s'' log'; clear X.
    rewrite dispatch_eq in H. pose proof (a_wf _ _ _ _ A) as W. pose proof (a_tab _ _ _ _ A) as T.
    pose proof (a_evn _ _ _ _ A) as N. pose proof (a_gen _ _ _ _ A) as Ge.
    assert (BACK : forall e, live (evm s' e) = true -> gen (evm s' e) = G e ->
       live (evm s e) = true /\ gen (evm s e) = G e).
    { intros e L1 G1. destruct (Gh e) as [P1 P2]. specialize (Ge e).
      assert (gen (evm s e) = G e) by lia. split; auto. apply P2; auto. lia. }
    destruct (zget (tab s) i) as [x|] eqn:Ex; [|discriminate].
    destruct x as [[e g]|].
    + destruct (T i e g) as (Lv & Gv & GG & _ & k & Ek); [lia|lia|auto|]. subst g.
      destruct (full_take fl G s i e k ND OR A B Hi Ek Lv ltac:(congruence)) as (FT & KK & FF).
      cbv zeta in H. rewrite Lv, FT, KK in H.
      set (s1 := set_flags s e false (fread (evm s e) && fwrite (evm s e))) in *.
      assert (A1 : safe fl G s1 (i + 1)) by (apply safe_next, flags_safe; auto).
      destruct (if k then wcb (evm s e) else rcb (evm s e)).
      * apply bind_ok in H as (s2 & E2 & H). apply bind_ok in H as ([s3 log3] & E3 & H).
        cbn [fst snd] in H. inversion H; subst s3 log; clear H.
        assert (A2 : safe fl G s2 (i + 1)) by (eapply acts_safe; eauto; lia).
        assert (HH2 : hit s2 = false).
        { destruct (dispatch_safe fl G n s2 (i + 1) (tl progs)) as [X|(a & b & X & _ & _ & Q & _)]; [lia|lia|auto| |];
            rewrite E3 in X; [discriminate|]. inversion X; subst. auto. }
        assert (B2 : full fl G s2 (i + 1)) by (apply (acts_full fl G (i+1) (hd [] progs) ltac:(lia) s1 s2 A1 FF E2 HH2)).
        destruct (IH s2 (i + 1) (tl progs) s' log3) as [R1 R2]; [lia|lia|auto|auto|auto|auto|].
        split; auto. intros j e' k' J Hj L' G'. destruct (Z.eq_dec j i) as [->|].
        -- rewrite Ek in Hj. inversion Hj; subst. left. left. congruence.
        -- destruct (R2 j e' k' ltac:(lia) Hj L' G') as [Q|Q]; [left; right; auto|right; right; auto].
      * apply bind_ok in H as ([s3 log3] & E3 & H).
        cbn [fst snd] in H. inversion H; subst s3 log; clear H.
        destruct (IH s1 (i + 1) progs s' log3) as [R1 R2]; auto; try lia.
        split; auto. intros j e' k' J Hj L' G'. destruct (Z.eq_dec j i) as [->|].
        -- rewrite Ek in Hj. inversion Hj; subst. right. left. congruence.
        -- destruct (R2 j e' k' ltac:(lia) Hj L' G') as [Q|Q]; [left; right; auto|right; right; auto].
    + assert (A1 : safe fl G s (i + 1)) by (apply safe_next; auto).
      assert (B1 : full fl G s (i + 1)) by (apply full_skip; auto).
      destruct (IH s (i + 1) progs s' log) as [R1 R2]; auto; try lia.
      split; auto. intros j e' k' J Hj L' G'. destruct (Z.eq_dec j i) as [->|].
      * destruct (BACK e' L' G') as [L0 G0].
        pose proof (b_del _ _ _ _ B i e' k' ltac:(lia) Hj L0 G0). congruence.
      * apply (R2 j); auto. lia.
Qed.

Lemma dispatch_own fl G ids : forall n s i progs s' log,
  0 <= i -> i + Z.of_nat n = zlen fl -> safe fl G s i -> own ids s ->
  (forall p e, In p progs -> In (AFree e) p -> In e ids) ->
  dispatch n s i progs = Ok (s', log) -> hit s = false -> hit s' = false.
Proof.
  induction n as [|n IH]; intros s i progs s' log Hi Hn A O FR H HH.
  - simpl in H. inversion H; subst; auto.
  - rewrite dispatch_eq in H.
    destruct (zget (tab s) i) as [x|] eqn:Ex; [|discriminate].
    destruct x as [[e g]|].
    + cbv zeta in H. destruct (live (evm s e)); [|discriminate].
      destruct (fread (evm s e) || fwrite (evm s e)).
      * set (s1 := set_flags s e false (fread (evm s e) && fwrite (evm s e))) in *.
        assert (A1 : safe fl G s1 (i + 1)) by (apply safe_next, flags_safe; auto).
        assert (O1 : own ids s1) by (apply flags_own; auto).
        destruct (if negb (fread (evm s e)) then _ else _).
        -- apply bind_ok in H as (s2 & E2 & H). apply bind_ok in H as ([s3 log3] & E3 & H).
           cbn [fst snd] in H. inversion H; subst s3 log; clear H.
           assert (A2 : safe fl G s2 (i + 1)) by (eapply acts_safe; eauto; lia).
           destruct (acts_own ids _ _ _ (a_wf _ _ _ _ A1) O1 E2) as [O2 K2].
           eapply IH; [| |exact A2|exact O2| |exact E3|]; try lia.
           ++ intros p e' Hp. apply FR. destruct progs; [destruct Hp|right; auto].
           ++ apply K2; auto. intros e' He. destruct progs as [|p progs]; [destruct He|].
              apply (FR p); [left; auto|auto].
        -- apply bind_ok in H as ([s3 log3] & E3 & H).
           cbn [fst snd] in H. inversion H; subst s3 log; clear H.
           eapply IH; [| |exact A1|exact O1| |exact E3|]; auto; lia.
      * apply bind_ok in H as ([s3 log3] & E3 & H).
        cbn [fst snd] in H. inversion H; subst s3 log; clear H.
        eapply IH; [| |apply safe_next; exact A|exact O| |exact E3|]; auto; lia.
    + eapply IH; [| |apply safe_next; exact A|exact O| |exact H|]; auto; lia.
Qed.

(** ** Entering the kernel's batch *)
Lemma push_spec s e : zlen (tab s) = TABLE -> 0 <= evn s < TABLE ->
  exists s', push s e = Ok s' /\ evn s' = evn s + 1 /\ evm s' = evm s /\ hit s' = hit s /\
    zlen (tab s') = TABLE /\
    forall j, zget (tab s') j = if j =? evn s then Some (Some (e, gen (evm s e))) else zget (tab s) j.
Proof.
  intros L R. unfold push.
  assert (exists t, zput (tab s) (evn s) [Some (e, gen (evm s e))] = Some t) as [t Ht].
  { eexists. apply zput_ok; [lia|]. change (zlen [Some (e, gen (evm s e))]) with 1. lia. }
  rewrite Ht. eexists. split; [reflexivity|]. cbn [evn evm tab hit].
  split; [auto|]. split; [auto|]. split; [auto|]. split; [rewrite (zput_len _ _ _ _ Ht); auto|].
  intros j. apply (zget_zput1 _ _ _ _ _ Ht).
Qed.

Lemma enter_spec s e r w : zlen (tab s) = TABLE -> 0 <= evn s ->
  evn s + zlen (slots1 (e, (r, w))) <= TABLE -> live (evm s e) = true ->
  exists s', enter s (e, (r, w)) = Ok s' /\ evn s' = evn s + zlen (slots1 (e, (r, w))) /\ hit s' = hit s /\
    zlen (tab s') = TABLE /\
    (forall e', e' <> e -> evm s' e' = evm s e') /\
    evm s' e = Ev true (gen (evm s e)) (if r then evn s else 0) (if w then evn s + (if r then 1 else 0) else 0)
      (r || fread (evm s e)) (w || fwrite (evm s e)) (rcb (evm s e)) (wcb (evm s e)) /\
    (forall j, j < evn s -> zget (tab s') j = zget (tab s) j) /\
    (forall j x, zget (slots1 (e, (r, w))) j = Some x -> zget (tab s') (evn s + j) = Some (Some (e, gen (evm s e)))).
Proof.
  intros L N M Lv. unfold enter. rewrite Lv.
  set (s1 := set_ev s e (Ev true (gen (evm s e)) 0 0 (fread (evm s e)) (fwrite (evm s e)) (rcb (evm s e)) (wcb (evm s e)))).
  assert (V1 : evm s1 e = Ev true (gen (evm s e)) 0 0 (fread (evm s e)) (fwrite (evm s e)) (rcb (evm s e)) (wcb (evm s e)))
    by apply upd_same.
  assert (O1 : forall e', e' <> e -> evm s1 e' = evm s e') by (intros; apply upd_other; auto).
  destruct r.
  - set (s2 := set_ev s1 e _).
    assert (V2 : evm s2 e = Ev true (gen (evm s e)) (evn s) 0 true (fwrite (evm s e)) (rcb (evm s e)) (wcb (evm s e))).
    { unfold s2, set_ev. cbn [evm]. rewrite upd_same, V1. reflexivity. }
    assert (O2 : forall e', e' <> e -> evm s2 e' = evm s e').
    { intros. unfold s2, set_ev. cbn [evm]. rewrite upd_other by auto. auto. }
    assert (P : 1 <= zlen (slots1 (e, (true, w)))) by (destruct w; vm_compute; discriminate).
    destruct (push_spec s2 e L) as (s3 & E3 & N3 & M3 & H3 & L3 & T3); [cbn; lia|].
    rewrite E3. cbn [bind]. change (evn s2) with (evn s) in *. change (tab s2) with (tab s) in *.
    rewrite V2 in T3. cbn [gen] in T3.
    destruct w.
    + set (s4 := set_ev s3 e _).
      assert (V4 : evm s4 e = Ev true (gen (evm s e)) (evn s) (evn s + 1) true true (rcb (evm s e)) (wcb (evm s e))).
      { unfold s4, set_ev. cbn [evm]. rewrite upd_same, M3, V2, N3. reflexivity. }
      assert (O4 : forall e', e' <> e -> evm s4 e' = evm s e').
      { intros. unfold s4, set_ev. cbn [evm]. rewrite upd_other by auto. rewrite M3. auto. }
      change (zlen (slots1 (e, (true, true)))) with 2 in *.
      destruct (push_spec s4 e L3) as (s5 & E5 & N5 & M5 & H5 & L5 & T5); [cbn; lia|].
      change (evn s4) with (evn s3) in *. change (tab s4) with (tab s3) in *. rewrite V4 in T5. cbn [gen] in T5.
      rewrite E5. exists s5. split; [auto|]. split; [lia|]. split; [rewrite H5; exact H3|]. split; [auto|].
      split; [intros; rewrite M5; auto|]. split; [rewrite M5, V4; reflexivity|]. split.
      * intros j Hj. rewrite T5, T3. destruct (Z.eqb_spec j (evn s3)); [lia|]. destruct (Z.eqb_spec j (evn s)); [lia|auto].
      * intros j x Hj. apply zget_some_range in Hj. change (zlen (slots1 (e, (true, true)))) with 2 in Hj.
        rewrite T5, T3. destruct (Z.eqb_spec (evn s + j) (evn s3)); auto. destruct (Z.eqb_spec (evn s + j) (evn s)); auto. lia.
    + change (zlen (slots1 (e, (true, false)))) with 1 in *.
      exists s3. split; [auto|]. split; [lia|]. split; [exact H3|]. split; [auto|].
      split; [intros; rewrite M3; auto|]. split; [rewrite M3, V2; reflexivity|]. split.
      * intros j Hj. rewrite T3. destruct (Z.eqb_spec j (evn s)); [lia|auto].
      * intros j x Hj. apply zget_some_range in Hj. change (zlen (slots1 (e, (true, false)))) with 1 in Hj.
        rewrite T3. destruct (Z.eqb_spec (evn s + j) (evn s)); auto. lia.
  - cbn [bind]. destruct w.
    + set (s4 := set_ev s1 e _).
      assert (V4 : evm s4 e = Ev true (gen (evm s e)) 0 (evn s) (fread (evm s e)) true (rcb (evm s e)) (wcb (evm s e))).
      { unfold s4, set_ev. cbn [evm]. rewrite upd_same, V1. reflexivity. }
      assert (O4 : forall e', e' <> e -> evm s4 e' = evm s e').
      { intros. unfold s4, set_ev. cbn [evm]. rewrite upd_other by auto. auto. }
      change (zlen (slots1 (e, (false, true)))) with 1 in *.
      destruct (push_spec s4 e L) as (s5 & E5 & N5 & M5 & H5 & L5 & T5); [cbn; lia|].
      change (evn s4) with (evn s) in *. change (tab s4) with (tab s) in *. rewrite V4 in T5. cbn [gen] in T5.
      rewrite E5. exists s5. split; [auto|]. split; [lia|]. split; [exact H5|]. split; [auto|].
      split; [intros; rewrite M5; auto|]. split; [rewrite M5, V4; cbn; f_equal; lia|]. split.
      * intros j Hj. rewrite T5. destruct (Z.eqb_spec j (evn s)); [lia|auto].
      * intros j x Hj. apply zget_some_range in Hj. change (zlen (slots1 (e, (false, true)))) with 1 in Hj.
        rewrite T5. destruct (Z.eqb_spec (evn s + j) (evn s)); auto. lia.
    + change (zlen (slots1 (e, (false, false)))) with 0 in *.
      exists s1. split; [auto|]. split; [cbn; lia|]. split; [auto|]. split; [auto|].
      split; [auto|]. split; [rewrite V1; reflexivity|]. split; [auto|].
      intros j x Hj. apply zget_some_range in Hj. change (zlen (slots1 (e, (false, false)))) with 0 in Hj. lia.
Qed.

Record entered (s0 s : st) (done : list report) : Prop := Entered {
  n_wf : wf s; n_evn : evn s = zlen (flat done); n_hit : hit s = hit s0;
  n_ev : forall e, live (evm s e) = live (evm s0 e) /\ gen (evm s e) = gen (evm s0 e);
  n_other : forall e, ~ In e (map fst done) -> evm s e = evm s0 e;
  n_tab : forall j e k, zget (flat done) j = Some (e, k) ->
    In e (map fst done) /\ live (evm s0 e) = true /\
    zget (tab s) j = Some (Some (e, gen (evm s0 e))) /\ (if k then idxw (evm s e) else idxr (evm s e)) = j;
  n_idx : forall e, In e (map fst done) ->
    (idxr (evm s e) = 0 \/ zget (flat done) (idxr (evm s e)) = Some (e, false)) /\
    (idxw (evm s e) = 0 \/ zget (flat done) (idxw (evm s e)) = Some (e, true));
  n_fl : forall e,
    (fread (evm s e) = true <-> fread (evm s0 e) = true \/ In (e, false) (flat done)) /\
    (fwrite (evm s e) = true <-> fwrite (evm s0 e) = true \/ In (e, true) (flat done)) }.

Lemma flat_app b c : flat (b ++ c) = flat b ++ flat c.
Proof. apply flat_map_app. Qed.
Lemma flat_ids b e k : In (e, k) (flat b) -> In e (map fst b).
Proof.
  intros H. apply in_flat_map in H as ([e' [r w]] & H1 & H2). apply in_map_iff. exists (e', (r, w)).
  split; auto. simpl in *. destruct r, w; simpl in H2; intuition congruence.
Qed.

Lemma slots_len e r w : zlen (slots1 (e, (r, w))) = (if r then 1 else 0) + (if w then 1 else 0).
Proof. destruct r, w; reflexivity. Qed.

Lemma enter_step s0 s done x : entered s0 s done -> ~ In (fst x) (map fst done) ->
  live (evm s0 (fst x)) = true -> zlen (flat (done ++ [x])) <= TABLE ->
  exists s', enter s x = Ok s' /\ entered s0 s' (done ++ [x]).
Proof.
  intros [W N H V O T I F] Ni Lv M. destruct x as [e [r w]]. cbn [fst] in *.
  assert (FA : flat (done ++ [(e, (r, w))]) = flat done ++ slots1 (e, (r, w))).
  { rewrite flat_app. unfold flat at 2. cbn [flat_map]. rewrite app_nil_r. reflexivity. }
  rewrite FA in *. rewrite zlen_app in M.
  pose proof (zlen_nonneg (flat done)) as Nf.
  destruct (V e) as [V1 V2].
  destruct (enter_spec s e r w (w_len _ W)) as (s' & E' & N' & H' & L' & O' & S' & T1 & T2); [lia|lia|congruence|].
  exists s'. split; auto.
  assert (NF : forall k, ~ In (e, k) (flat done)) by (intros k Q; apply flat_ids in Q; contradiction).
  assert (SL : forall j e' k, zget (slots1 (e, (r, w))) j = Some (e', k) ->
     e' = e /\ (if k then idxw (evm s' e) else idxr (evm s' e)) = evn s + j).
  { rewrite S'. cbn [idxr idxw]. intros j e' k Q. pose proof (zget_some_range _ _ _ Q) as R.
    destruct r, w; simpl in Q, R.
    - change (zlen [(e, false); (e, true)]) with 2 in R. assert (j = 0 \/ j = 1) as [-> | ->] by lia; vm_compute in Q;
        inversion Q; subst; split; auto; lia.
    - change (zlen [(e, false)]) with 1 in R. assert (j = 0) as -> by lia; vm_compute in Q;
        inversion Q; subst; split; auto; lia.
    - change (zlen [(e, true)]) with 1 in R. assert (j = 0) as -> by lia; vm_compute in Q;
        inversion Q; subst; split; auto; lia.
    - change (zlen (@nil (Z * bool))) with 0 in R. lia. }
  constructor.
  - split; auto. intros e'. destruct (Z.eq_dec e' e) as [->|D]; [|rewrite O' by auto; apply W].
    rewrite S'. cbn [idxr idxw]. rewrite slots_len in M. unfold TABLE, BATCH in *. destruct r, w; lia.
  - rewrite FA, zlen_app. lia.
  - congruence.
  - intros e'. destruct (Z.eq_dec e' e) as [->|D]; [rewrite S'; cbn; split; congruence|rewrite O' by auto; auto].
  - intros e' Q. rewrite map_app, in_app_iff in Q. cbn in Q. rewrite O' by (intros ->; tauto). apply O. tauto.
  - intros j e' k Hj. rewrite FA in Hj. rewrite map_app, in_app_iff. cbn [map fst].
    destruct (Z_lt_ge_dec j (zlen (flat done))) as [C|C].
    + rewrite zget_app_l in Hj by auto. destruct (T j e' k Hj) as (P1 & P2 & P3 & P4).
      assert (e' <> e) by (intros ->; contradiction).
      rewrite T1 by lia. rewrite O' by auto. auto.
    + rewrite zget_app_r in Hj by lia. destruct (SL _ _ _ Hj) as [-> Q].
      split; [right; left; auto|]. split; [auto|]. split; [|rewrite Q; lia].
      replace j with (evn s + (j - zlen (flat done))) by lia. erewrite T2 by eauto. congruence.
  - intros e' Q. rewrite FA. rewrite map_app, in_app_iff in Q. cbn in Q.
    destruct (Z.eq_dec e' e) as [->|D].
    + rewrite S'. cbn [idxr idxw]. rewrite N.
      split.
      * destruct r; [right|left; auto]. rewrite zget_app_r by lia. rewrite Z.sub_diag. destruct w; reflexivity.
      * destruct w; [right|left; auto]. rewrite zget_app_r by (destruct r; lia).
        destruct r; [replace (zlen (flat done) + 1 - zlen (flat done)) with 1 by lia|
                     replace (zlen (flat done) + 0 - zlen (flat done)) with 0 by lia]; reflexivity.
    + assert (In e' (map fst done)) as Q' by (destruct Q as [Q|[Q|[]]]; [auto|congruence]). destruct (I e' Q') as [I1 I2]. rewrite O' by auto.
      split; [destruct I1 as [I1|I1]|destruct I2 as [I2|I2]]; auto; right;
        rewrite zget_app_l; auto; eapply zget_some_range; eauto.
  - intros e'. rewrite FA. rewrite !in_app_iff. destruct (Z.eq_dec e' e) as [->|D].
    + rewrite S'. cbn [fread fwrite]. destruct (F e) as [F1 F2].
      rewrite !orb_true_iff, F1, F2. pose proof (NF true). pose proof (NF false).
      destruct r, w; cbn [slots1 app In]; intuition congruence.
    + rewrite O' by auto. destruct (F e') as [F1 F2]. rewrite F1, F2.
      assert (Q : forall k, ~ In (e', k) (slots1 (e, (r, w)))).
      { intros k Q. destruct r, w; cbn in Q; intuition congruence. }
      pose proof (Q true). pose proof (Q false). tauto.
Qed.

Lemma enter_all_spec s0 : forall todo s done, entered s0 s done -> NoDup (map fst (done ++ todo)) ->
  (forall e, In e (map fst todo) -> live (evm s0 e) = true) -> zlen (flat (done ++ todo)) <= TABLE ->
  exists s', enter_all s todo = Ok s' /\ entered s0 s' (done ++ todo).
Proof.
  induction todo as [|x todo IH]; intros s done E ND LV M.
  - rewrite app_nil_r. exists s. split; auto.
  - assert (ND' := ND). rewrite map_app in ND'. cbn [map] in ND'.
    apply NoDup_remove in ND' as [_ ND'].
    replace (done ++ x :: todo) with ((done ++ [x]) ++ todo) in * by (rewrite <- app_assoc; reflexivity).
    destruct (enter_step s0 s done x E) as (s1 & E1 & E2).
    + intros Q. apply ND'. apply in_or_app. auto.
    + apply LV. left. auto.
    + rewrite (flat_app (done ++ [x]) todo), zlen_app in M. pose proof (zlen_nonneg (flat todo)). unfold report in *. lia.
    + cbn [enter_all]. rewrite E1. cbn [bind]. apply IH; auto. intros e Q. apply LV. right. auto.
Qed.

Lemma flat_len b : zlen (flat b) <= 2 * zlen b.
Proof.
  induction b as [|[e [r w]] b IH]; [change (zlen (flat [])) with 0; change (zlen (@nil report)) with 0; lia|].
  change (flat ((e, (r, w)) :: b)) with (slots1 (e, (r, w)) ++ flat b). rewrite zlen_app, zlen_cons.
  assert (zlen (slots1 (e, (r, w))) <= 2) by (destruct r, w; vm_compute; discriminate). lia.
Qed.

Lemma flat_nodup b : NoDup (map fst b) -> NoDup (flat b) /\ ordered (flat b).
Proof.
  induction b as [|[e [r w]] b IH]; intros ND.
  - split; [constructor|]. intros j e H. apply zget_some_range in H. change (zlen (flat [])) with 0 in H. lia.
  - cbn [map fst] in ND. inversion ND as [|? ? N1 N2]; subst. destruct (IH N2) as [I1 I2].
    change (flat ((e, (r, w)) :: b)) with (slots1 (e, (r, w)) ++ flat b).
    assert (NI : forall k, ~ In (e, k) (flat b)) by (intros k Q; apply flat_ids in Q; contradiction).
    split.
    + destruct r, w; simpl; auto; repeat constructor; auto; simpl; intuition (try congruence); eapply NI; eauto.
    + intros j e' Hj Q.
      destruct (Z_lt_ge_dec j (zlen (slots1 (e, (r, w))))) as [C|C].
      * rewrite zget_app_l in Hj by auto. pose proof (zget_some_range _ _ _ Hj) as R.
        destruct r, w; cbn [slots1 app] in *.
        -- change (zlen [(e, false); (e, true)]) with 2 in R.
           assert (j = 0 \/ j = 1) as [-> | ->] by lia; vm_compute in Hj; inversion Hj; subst.
           change (zdrop 1 ((e', false) :: (e', true) :: flat b)) with ((e', true) :: flat b) in Q.
           destruct Q as [Q|Q]; [congruence|eapply NI; eauto].
        -- change (zlen [(e, false)]) with 1 in R. assert (j = 0) as -> by lia. vm_compute in Hj. inversion Hj.
        -- change (zlen [(e, true)]) with 1 in R. assert (j = 0) as -> by lia. vm_compute in Hj. inversion Hj; subst.
           change (zdrop 0 ((e', true) :: flat b)) with ((e', true) :: flat b) in Q.
           destruct Q as [Q|Q]; [congruence|eapply NI; eauto].
        -- change (zlen (@nil (Z * bool))) with 0 in R. lia.
      * rewrite zget_app_r in Hj by lia. pose proof (zlen_nonneg (slots1 (e, (r, w)))).
        rewrite zdrop_app_r in Q by lia. eapply I2; eauto.
Qed.

(** ** From the batch to the dispatch phase *)
Lemma entered_safe s0 s b : entered s0 s b -> zlen (flat b) <= TABLE ->
  safe (flat b) (fun e => gen (evm s0 e)) s 0.
Proof.
  intros [W N H V O T I F] M. constructor; auto.
  - intros e. destruct (V e). lia.
  - intros j e g J1 J2 Hj. rewrite N in J2.
    destruct (zget_in_range (flat b) j) as [[e' k] Ek]; [lia|].
    destruct (T j e' k Ek) as (P1 & P2 & P3 & P4). rewrite Hj in P3. inversion P3; subst.
    destruct (V e') as [V1 V2]. split; [congruence|]. split; [congruence|]. split; [auto|].
    split; [|eauto]. intros _. destruct k; auto.
Qed.

Lemma entered_full s0 s b : entered s0 s b ->
  (forall e, live (evm s0 e) = true -> fread (evm s0 e) = false /\ fwrite (evm s0 e) = false) ->
  full (flat b) (fun e => gen (evm s0 e)) s 0.
Proof.
  intros [W N H V O T I F] C. constructor.
  - intros j e k _ Hj _ _. apply (T j e k Hj).
  - intros e Lv _. destruct (V e) as [V1 V2]. rewrite V1 in Lv. destruct (C e Lv) as [C1 C2].
    destruct (F e) as [F1 F2]. rewrite C1 in F1. rewrite C2 in F2.
    change (zdrop 0 (flat b)) with (flat b). rewrite F1, F2. intuition congruence.
  - intros e _ G. destruct (V e). congruence.
Qed.

Lemma entered_own s0 s b : entered s0 s b -> own (map fst b) s.
Proof.
  intros [W N H V O T I F] e i He Lv Hi. destruct (I e He) as [I1 I2]. destruct (V e) as [V1 V2].
  destruct Hi as [-> | ->].
  - destruct I1 as [I1|I1]; auto. right. destruct (T _ _ _ I1) as (_ & _ & P & _). eexists. split; [exact P|].
    simpl. rewrite V2, !Z.eqb_refl. reflexivity.
  - destruct I2 as [I2|I2]; auto. right. destruct (T _ _ _ I2) as (_ & _ & P & _). eexists. split; [exact P|].
    simpl. rewrite V2, !Z.eqb_refl. reflexivity.
Qed.
