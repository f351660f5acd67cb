(** * C109: timeouts and steps of the system clock

    sys_time.c:22 reads the calendar clock (gettimeofday), which an administrator or a
    time service may set; every deadline is such a reading plus the delay
    (timer.c:13-24).  The theorems below are about the timer machine of Timer_Model.v
    with every event stamped with the true time at which it happened.  The stamps are
    the environment's: the model never looks at them. *)
From Verif Require Import Base Heap_Model Heap_Proofs Timer_Model Timer_Props.
Local Arguments Z.add : simpl never.
Local Arguments Z.sub : simpl never.
Local Arguments Z.mul : simpl never.

(** ** Specification *)
Definition stamped := list (Z * tev).
Definition evs (h : stamped) : list tev := map snd h.

(** true time of the latest update of the cached clock *)
Definition tick1 (cur : Z) (p : Z * tev) : Z := match snd p with ETick _ => fst p | _ => cur end.
Definition seen (h : stamped) : Z := fold_left tick1 h 0.

(** the first event is an update of the clock; every later update comes directly after a
    run of [timer_expire] (process.c:54-63: timer_expire, then ev_loop), at most the
    wait which that run asked for plus [delta] after the previous update.  [delta] covers
    the callbacks and the slack of the kernel. *)
Definition paced (delta : Z) (h : stamped) : Prop :=
  (exists r t h', h = (r, ETick t) :: h') /\
  forall h1 r t h2, h = h1 ++ (r, ETick t) :: h2 ->
  h1 = [] \/ exists h0 r0 w tn, h1 = h0 ++ [(r0, EDone w tn)] /\ seen h0 <= r <= seen h0 + w + delta.

(** the clock is never set: it differs from true time by a constant *)
Definition steady (off : Z) (h : stamped) : Prop := forall r t, In (r, ETick t) h -> t = r + off.
(** the delays are non-negative ints, and the clock is past 1970 *)
Definition delays_ok (h : stamped) : Prop := forall r x d t ok, In (r, EArm x d t ok) h -> 0 <= d < 2147483648.
Definition past_1970 (h : stamped) : Prop := forall r t, In (r, ETick t) h -> 0 <= t.

(** a timer armed with delay [d] while the cached clock dates from true time [a] fires when
    the cached clock dates from [a + d], or up to [delta] later *)
Definition on_time (delta : Z) (h : stamped) : Prop :=
  forall h1 ra x d t h2 rf tf h3,
  h = h1 ++ (ra, EArm x d t true) :: h2 ++ (rf, EFire x tf) :: h3 ->
  Forall (fun p => ~ about x (snd p)) h2 ->
  let a := seen h1 in let f := seen (h1 ++ (ra, EArm x d t true) :: h2) in
  a + d <= f <= a + d + delta.

Definition runs (h : stamped) (is : list tin) : Prop :=
  exists s', trun (timers0 1536) is = Ok (evs h, s') /\ Forall accepted (evs h) /\ tvalid false is (evs h).

Definition C109_property : Prop := forall delta h is, 0 <= delta ->
  runs h is -> gentle [] (evs h) -> delays_ok h -> past_1970 h -> paced delta h -> on_time delta h.

(** ** Proof for a steady clock *)
Lemma seen_app a b : seen (a ++ [b]) = tick1 (seen a) b.
Proof. unfold seen. rewrite fold_left_app. reflexivity. Qed.

Definition reading1 (cur : Z) (e : tev) : Z := match e with ETick t => t | _ => cur end.
Definition reading (es : list tev) : Z := fold_left reading1 es 0.
Lemma reading_app a b : reading (a ++ [b]) = reading1 (reading a) b.
Proof. unfold reading. rewrite fold_left_app. reflexivity. Qed.

(** the time shown in the events is the latest reading *)
Definition shows (e : tev) (now : Z) : Prop :=
  match e with EArm _ _ t _ => t = now | EFire _ t => t = now | EDone _ t => t = now | _ => True end.

Lemma del_now s x s' : tm_del s x = Ok s' -> t_now s' = t_now s.
Proof.
  unfold tm_del. destruct (t_set s x); [|intros [= <-]; reflexivity].
  intros E. apply bind_ok in E as (p & _ & E). injection E as <-. reflexivity.
Qed.
Lemma step_now s i e s' : tstep s i = Ok (e, s') -> shows e (t_now s) /\ t_now s' = reading1 (t_now s) e.
Proof.
  destruct i as [t|x d|x| |]; cbn [tstep]; intros E.
  - injection E as <- <-. cbn. auto.
  - apply bind_ok in E as ((ok, s1) & E1 & E). injection E as <- <-. cbn.
    unfold tm_add in E1. apply bind_ok in E1 as (s2 & E2 & E1). apply bind_ok in E1 as (p & _ & E1). injection E1 as _ <-. cbn.
    apply del_now in E2. auto.
  - apply bind_ok in E as (s1 & E1 & E). injection E as <- <-. cbn. apply del_now in E1. auto.
  - injection E as <- <-. cbn. auto.
  - unfold timer_iter in E. apply bind_ok in E as ([x|] & _ & E).
    + destruct (t_now s <? hkey (t_heap s) x).
      * injection E as <- <-. cbn. auto.
      * apply bind_ok in E as (s1 & E1 & E). injection E as <- <-. cbn. apply del_now in E1. auto.
    + injection E as <- <-. cbn. auto.
Qed.
Lemma run_now : forall is s es s' es0, trun s is = Ok (es, s') -> t_now s = reading es0 ->
  t_now s' = reading (es0 ++ es) /\
  forall h1 e h2, es = h1 ++ e :: h2 -> shows e (reading (es0 ++ h1)).
Proof.
  induction is as [|i is IH]; intros s es s' es0 R N; simpl in R.
  - injection R as <- <-. rewrite app_nil_r. split; [exact N|]. intros [|? ?] e h2; discriminate.
  - apply bind_ok in R as ((e1, s1) & R1 & R). apply bind_ok in R as ((es1, s2) & R2 & R). injection R as <- <-. simpl in *.
    destruct (step_now _ _ _ _ R1) as (S & N1). rewrite N in *.
    destruct (IH _ _ _ (es0 ++ [e1]) R2) as (A & B); [rewrite reading_app; exact N1|].
    rewrite <- app_assoc in A. split; [exact A|].
    intros [|e0 h1] e h2 E; simpl in E; injection E as -> ->.
    + rewrite app_nil_r. exact S.
    + specialize (B h1 e h2 eq_refl). rewrite <- app_assoc in B. exact B.
Qed.

Lemma evs_app a b : evs (a ++ b) = evs a ++ evs b.
Proof. apply map_app. Qed.

(** under a steady clock the reading is the true time plus the offset, once it was read *)
Lemma steady_reading off h : steady off h -> (exists r t h', h = (r, ETick t) :: h') ->
  forall h1 h2, h = h1 ++ h2 -> h1 <> [] -> reading (evs h1) = seen h1 + off.
Proof.
  intros S (r & t & h' & E0) h1. induction h1 as [|p h1 IH] using rev_ind; intros h2 E NE; [congruence|].
  rewrite evs_app. simpl. rewrite reading_app, seen_app. unfold tick1. destruct p as (rp, ep). cbn [snd fst].
  destruct (list_eq_dec (fun (a b : unit) => left (match a, b with tt, tt => eq_refl end)) (map (fun _ => tt) h1) []) as [N|N].
  - destruct h1 as [|? ?]; [|discriminate]. rewrite E0 in E. injection E as <- <- <-. cbn. apply S. rewrite E0. left. reflexivity.
  - assert (NN : h1 <> []) by (intros ->; apply N; reflexivity).
    rewrite <- app_assoc in E. specialize (IH _ E NN).
    destruct ep as [te| | | | |]; cbn; try exact IH.
    apply S. rewrite E. apply in_or_app. right. left. reflexivity.
Qed.

Lemma evs_split h a e b : evs h = a ++ e :: b -> exists h1 r h2, h = h1 ++ (r, e) :: h2 /\ evs h1 = a /\ evs h2 = b.
Proof.
  intros E. apply map_eq_app in E as (h1 & h2 & -> & E1 & E2).
  apply map_eq_cons in E2 as ((r, e') & h3 & -> & E & E3). simpl in E. subst e'. exists h1, r, h3. auto.
Qed.

(** readings which never go back, in terms of the inputs *)
Lemma ticks_clock : forall is s es s' es0, trun s is = Ok (es, s') -> t_now s = reading es0 ->
  (forall h1 t h2, es = h1 ++ ETick t :: h2 -> reading (es0 ++ h1) <= t) ->
  (forall x d t ok, In (EArm x d t ok) es -> -2147483648 <= d < 2147483648) -> clock_ok (reading es0) is.
Proof.
  induction is as [|i is IH]; intros s es s' es0 R N MONO DEL; simpl in R; [exact I|].
  apply bind_ok in R as ((e1, s1) & R1 & R). apply bind_ok in R as ((es1, s2) & R2 & R). injection R as <- <-. simpl in *.
  destruct (step_now _ _ _ _ R1) as (_ & N1). rewrite N in N1.
  assert (Q : clock_ok (reading (es0 ++ [e1])) is).
  { eapply IH; [exact R2|rewrite reading_app; exact N1| |].
    - intros h1 t h2 E. subst es1. rewrite <- app_assoc. apply (MONO (e1 :: h1) t h2). reflexivity.
    - intros x d t ok Hin. eapply DEL. right. exact Hin. }
  rewrite reading_app in Q.
  destruct i as [t|x d|x| |]; cbn [tstep] in R1.
  - injection R1 as <- <-. split; [|exact Q]. specialize (MONO [] t es1 eq_refl). rewrite app_nil_r in MONO. exact MONO.
  - apply bind_ok in R1 as ((ok, s3) & R3 & R1). injection R1 as <- <-. split; [eapply DEL; left; reflexivity|exact Q].
  - apply bind_ok in R1 as (s3 & R3 & R1). injection R1 as <- <-. exact Q.
  - injection R1 as <- <-. exact Q.
  - unfold timer_iter in R1. apply bind_ok in R1 as ([x|] & _ & R1); [|injection R1 as <- <-; exact Q].
    destruct (t_now s <? hkey (t_heap s) x); [injection R1 as <- <-; exact Q|].
    apply bind_ok in R1 as (s3 & R3 & R1). injection R1 as <- <-. exact Q.
Qed.

(** every pending deadline is less than [delta] behind the reading *)
Definition fresh (delta : Z) (es : list tev) : Prop := forall x k, deadline es x = Some k -> reading es <= k + delta.

Theorem C109_partial : forall off delta h is, 0 <= delta ->
  runs h is -> gentle [] (evs h) -> delays_ok h -> past_1970 h -> paced delta h ->
  steady off h -> on_time delta h.
Proof.
  intros off delta h is PD (s' & R & AC & _) G DL P70 (FIRST & PC) ST.
  assert (CL : clock_ok 0 is).
  { apply (ticks_clock is _ _ _ [] R eq_refl).
    - intros g1 t g2 E. simpl. destruct (evs_split _ _ _ _ E) as (h1 & r & h2 & EH & <- & <-).
      assert (T0 : 0 <= t) by (apply (P70 r); rewrite EH; apply in_or_app; right; left; reflexivity).
      destruct (PC _ _ _ _ EH) as [->|(h0 & r0 & w & tn & -> & P)]; [exact T0|].
      assert (T : t = r + off) by (apply ST; rewrite EH; apply in_or_app; right; left; reflexivity).
      rewrite <- app_assoc in EH. simpl in EH.
      assert (NE : h0 <> []) by (intros ->; destruct FIRST as (? & ? & ? & F); rewrite EH in F; discriminate).
      pose proof (steady_reading _ _ ST FIRST _ _ EH NE) as RD.
      rewrite evs_app. simpl. rewrite reading_app. simpl. lia.
    - intros x d t ok I. apply in_map_iff in I as ((r, e) & E & I). simpl in E. subst e.
      pose proof (DL _ _ _ _ _ I). lia. }
  destruct (run_now _ _ _ _ [] R eq_refl) as (_ & SH). simpl in SH.
  assert (FR : forall h1 h2, h = h1 ++ h2 -> fresh delta (evs h1)).
  { intros h1. induction h1 as [|(r, e) h1 IH] using rev_ind; intros h2 E; [intros x k D; discriminate|].
    rewrite <- app_assoc in E. simpl in E. specialize (IH _ E).
    assert (EV : evs h = evs h1 ++ e :: evs h2) by (rewrite E, evs_app; reflexivity).
    pose proof (SH _ _ _ EV) as SHE.
    intros x k D. rewrite evs_app in *. simpl in *. rewrite reading_app. rewrite deadline_app in D.
    destruct e as [t|y d t ok|y| |y t|w t]; simpl in *; try (apply (IH x k); exact D).
    - destruct (PC _ _ _ _ E) as [->|(h0 & r0 & w & tn & -> & P)]; [discriminate|].
      rewrite <- app_assoc in E. simpl in E.
      assert (EV0 : evs h = evs h0 ++ EDone w tn :: ETick t :: evs h2) by (rewrite E, evs_app; reflexivity).
      pose proof (SH _ _ _ EV0) as TN. simpl in TN.
      assert (D0 : deadline (evs h0) x = Some k).
      { rewrite evs_app in D. simpl in D. rewrite deadline_app in D. exact D. }
      assert (NE : h0 <> []) by (intros ->; discriminate).
      pose proof (steady_reading _ _ ST FIRST _ _ E NE) as RD.
      assert (T : t = r + off) by (apply ST; rewrite E; apply in_or_app; right; right; left; reflexivity).
      destruct (C14_due_timers_fire_partial 1536 _ _ _ ltac:(lia) R AC G CL _ _ _ _ EV0 _ _ D0). lia.
    - destruct (Z.eqb_spec y x) as [->|]; [|apply (IH x k); exact D]. destruct ok; [|discriminate]. injection D as <-.
      assert (0 <= d) by (eapply (DL r x d t true); rewrite E; apply in_or_app; right; left; reflexivity). lia.
    - destruct (y =? x); [discriminate|]. apply (IH x k). exact D.
    - destruct (y =? x); [discriminate|]. apply (IH x k). exact D. }
  intros h1 ra x d t h2 rf tf h3 E NA a f.
  assert (E2 : h = (h1 ++ (ra, EArm x d t true) :: h2) ++ (rf, EFire x tf) :: h3) by (rewrite E, <- app_assoc; reflexivity).
  assert (EV1 : evs h = evs h1 ++ EArm x d t true :: evs (h2 ++ (rf, EFire x tf) :: h3)) by (rewrite E, evs_app; reflexivity).
  assert (EV2 : evs h = evs (h1 ++ (ra, EArm x d t true) :: h2) ++ EFire x tf :: evs h3) by (rewrite E2, evs_app; reflexivity).
  pose proof (SH _ _ _ EV1) as S1. pose proof (SH _ _ _ EV2) as S2. simpl in S1, S2.
  assert (NE1 : h1 <> []).
  { intros ->. destruct FIRST as (r0 & t0 & h' & F). rewrite E in F. discriminate. }
  pose proof (steady_reading _ _ ST FIRST _ _ E NE1) as R1.
  pose proof (steady_reading _ _ ST FIRST _ _ E2 ltac:(destruct h1; discriminate)) as R2.
  assert (D : deadline (evs (h1 ++ (ra, EArm x d t true) :: h2)) x = Some (t + d)).
  { apply deadline_meaning. exists (evs h1), d, t, (evs h2). rewrite evs_app. split; [reflexivity|]. split; [reflexivity|].
    unfold evs. rewrite Forall_map. exact NA. }
  pose proof (FR _ _ E2 _ _ D) as FRE.
  destruct (C13_no_spurious_fire 1536 _ _ _ ltac:(lia) R AC _ _ _ _ EV2) as (g1 & d' & t0 & g2 & EG & LE & NG).
  assert (D' : deadline (evs (h1 ++ (ra, EArm x d t true) :: h2)) x = Some (t0 + d')).
  { apply deadline_meaning. exists g1, d', t0, g2. auto. }
  rewrite D in D'. injection D' as D'. subst a f. lia.
Qed.
Print Assumptions C109_partial.

(** ** When the clock is set *)

(** What the clock was put back between the arming and the firing of a timer is added to
    its delay, in every history. *)
Definition offset (h : stamped) : Z := reading (evs h) - seen h.
Theorem C109_set_back_delays : forall h is, runs h is ->
  forall h1 ra x d t h2 rf tf h3, h = h1 ++ (ra, EArm x d t true) :: h2 ++ (rf, EFire x tf) :: h3 ->
  Forall (fun p => ~ about x (snd p)) h2 ->
  let a := h1 in let f := h1 ++ (ra, EArm x d t true) :: h2 in
  seen f >= seen a + d + (offset a - offset f).
Proof.
  intros h is (s' & R & AC & _) h1 ra x d t h2 rf tf h3 E NA a f.
  destruct (run_now _ _ _ _ [] R eq_refl) as (_ & SH). simpl in SH.
  assert (E2 : h = f ++ (rf, EFire x tf) :: h3) by (unfold f; rewrite E, <- app_assoc; reflexivity).
  assert (EV1 : evs h = evs h1 ++ EArm x d t true :: evs (h2 ++ (rf, EFire x tf) :: h3)) by (rewrite E, evs_app; reflexivity).
  assert (EV2 : evs h = evs f ++ EFire x tf :: evs h3) by (rewrite E2, evs_app; reflexivity).
  pose proof (SH _ _ _ EV1) as S1. pose proof (SH _ _ _ EV2) as S2. simpl in S1, S2.
  assert (D : deadline (evs f) x = Some (t + d)).
  { apply deadline_meaning. exists (evs h1), d, t, (evs h2). unfold f. rewrite evs_app. split; [reflexivity|]. split; [reflexivity|].
    unfold evs. rewrite Forall_map. exact NA. }
  destruct (C13_no_spurious_fire 1536 _ _ _ ltac:(lia) R AC _ _ _ _ EV2) as (g1 & d' & t0 & g2 & EG & LE & NG).
  assert (D' : deadline (evs f) x = Some (t0 + d')) by (apply deadline_meaning; exists g1, d', t0, g2; auto).
  rewrite D in D'. injection D' as D'. unfold offset, a. lia.
Qed.
Print Assumptions C109_set_back_delays.

(** a decidable form of [runs] for the examples *)
Definition tev_eqb (a b : tev) : bool :=
  match a, b with
  | ETick t, ETick t' => t =? t'
  | EArm x d t ok, EArm x' d' t' ok' => (x =? x') && (d =? d') && (t =? t') && Bool.eqb ok ok'
  | EDel x, EDel x' => x =? x'
  | EExpire, EExpire => true
  | EFire x t, EFire x' t' => (x =? x') && (t =? t')
  | EDone w t, EDone w' t' => (w =? w') && (t =? t')
  | _, _ => false
  end.
Lemma tev_eqb_ok a b : tev_eqb a b = true -> a = b.
Proof.
  destruct a as [|x d t ok|x| |x t|w t], b as [|x' d' t' ok'|x'| |x' t'|w' t']; cbn [tev_eqb]; intros H;
    rewrite ?andb_true_iff, ?Z.eqb_eq, ?Bool.eqb_true_iff in H; intuition (subst; congruence).
Qed.
Fixpoint tevs_eqb (a b : list tev) : bool :=
  match a, b with [], [] => true | x :: a, y :: b => tev_eqb x y && tevs_eqb a b | _, _ => false end.
Lemma tevs_eqb_ok : forall a b, tevs_eqb a b = true -> a = b.
Proof.
  induction a as [|x a IH]; intros [|y b] H; try discriminate; [reflexivity|]. cbn in H. apply andb_prop in H as (A & B).
  f_equal; [apply tev_eqb_ok; exact A|apply IH; exact B].
Qed.
Definition runsb (h : stamped) (is : list tin) : bool :=
  match trun (timers0 1536) is with Ok (es, _) => tevs_eqb es (evs h) | _ => false end &&
  forallb (fun e => match e with EArm _ _ _ ok => ok | _ => true end) (evs h) && tvalidb false is (evs h).
Lemma runsb_ok h is : runsb h is = true -> runs h is.
Proof.
  unfold runsb. intros H. apply andb_prop in H as (H & V). apply andb_prop in H as (H & A).
  destruct (trun (timers0 1536) is) as [(es, s')| |] eqn:E; try discriminate. apply tevs_eqb_ok in H. subst es.
  exists s'. split; [exact E|]. split; [|apply tvalidb_ok; exact V].
  rewrite Forall_forall. rewrite forallb_forall in A. intros e I. specialize (A e I). destruct e; simpl; auto.
Qed.

Fixpoint pb (delta sn : Z) (prev : option Z) (h : stamped) : bool :=
  match h with
  | [] => true
  | (r, ETick _) :: h' => match prev with Some w => (sn <=? r) && (r <=? sn + w + delta) && pb delta r None h' | None => false end
  | (_, EDone w _) :: h' => pb delta sn (Some w) h'
  | (_, _) :: h' => pb delta sn None h'
  end.
Definition pacedb (delta : Z) (h : stamped) : bool := match h with (r, ETick _) :: h' => pb delta r None h' | _ => false end.

Lemma pb_ok delta : forall h h0 prev, pb delta (seen h0) prev h = true ->
  match prev with Some w => exists g r0 tn, h0 = g ++ [(r0, EDone w tn)] | None => True end ->
  forall h1 r t h2, h = h1 ++ (r, ETick t) :: h2 ->
  exists g r0 w tn, h0 ++ h1 = g ++ [(r0, EDone w tn)] /\ seen g <= r <= seen g + w + delta.
Proof.
  induction h as [|(r1, e1) h IH]; intros h0 prev B P h1 r t h2 E; [destruct h1; discriminate|].
  destruct h1 as [|p h1]; simpl in E.
  - injection E as -> -> ->. cbn [pb] in B. destruct prev as [w|]; [|discriminate].
    apply andb_prop in B as (B & _). apply andb_prop in B as (B1 & B2). apply Z.leb_le in B1, B2.
    destruct P as (g & r0 & tn & ->). rewrite seen_app in B1, B2. cbn in B1, B2. exists g, r0, w, tn.
    rewrite app_nil_r. auto.
  - injection E as <- E. pose proof (seen_app h0 (r1, e1)) as SA. unfold tick1 in SA. cbn [snd fst] in SA.
    replace (h0 ++ (r1, e1) :: h1) with ((h0 ++ [(r1, e1)]) ++ h1) by (rewrite <- app_assoc; reflexivity).
    destruct e1 as [t1|x d t1 ok|x| |x t1|w t1]; cbn [pb] in B.
    + destruct prev as [w|]; [|discriminate]. apply andb_prop in B as (_ & B).
      eapply (IH _ None); [rewrite SA; exact B|exact I|exact E].
    + eapply (IH _ None); [rewrite SA; exact B|exact I|exact E].
    + eapply (IH _ None); [rewrite SA; exact B|exact I|exact E].
    + eapply (IH _ None); [rewrite SA; exact B|exact I|exact E].
    + eapply (IH _ None); [rewrite SA; exact B|exact I|exact E].
    + eapply (IH _ (Some w)); [rewrite SA; exact B|eauto|exact E].
Qed.
Lemma pacedb_ok delta h : pacedb delta h = true -> paced delta h.
Proof.
  unfold pacedb. destruct h as [|(r, e) h]; [discriminate|]. destruct e as [t| | | | |]; try discriminate. intros B.
  split; [eauto|]. intros h1 r1 t1 h2 E. destruct h1 as [|p h1]; [left; reflexivity|right]. simpl in E. injection E as <- E.
  destruct (pb_ok delta h [(r, ETick t)] None B I _ _ _ _ E) as (g & r0 & w & tn & EQ & LE). simpl in EQ.
  exists g, r0, w, tn. auto.
Qed.

Definition past70b (h : stamped) : bool := forallb (fun p => match snd p with ETick t => 0 <=? t | _ => true end) h.
Lemma past70b_ok h : past70b h = true -> past_1970 h.
Proof. unfold past70b. rewrite forallb_forall. intros F r t Hin. apply Z.leb_le. exact (F _ Hin). Qed.
Definition delaysb (h : stamped) : bool :=
  forallb (fun p => match snd p with EArm _ d _ _ => (0 <=? d) && (d <? 2147483648) | _ => true end) h.
Lemma delaysb_ok h : delaysb h = true -> delays_ok h.
Proof.
  unfold delaysb. rewrite forallb_forall. intros F r x d t ok Hin. specialize (F _ Hin). cbn in F.
  apply andb_prop in F as (A & B). apply Z.leb_le in A. apply Z.ltb_lt in B. lia.
Qed.

(** two timers, of which one is armed again, and a run whenever the wait is over *)
Definition cin : list tin :=
  [TTick 1000; TArm 1 50; TArm 2 20; TExpire; TIter; TTick 1020; TArm 1 100; TExpire; TIter; TIter; TTick 1121; TExpire; TIter; TIter].
Definition crec : stamped :=
  [(0, ETick 1000); (0, EArm 1 50 1000 true); (0, EArm 2 20 1000 true); (1, EExpire); (1, EDone 20 1000);
   (20, ETick 1020); (20, EArm 1 100 1020 true); (21, EExpire); (21, EFire 2 1020); (22, EDone 100 1020);
   (121, ETick 1121); (121, EExpire); (121, EFire 1 1121); (121, EDone 200 1121)].
Example C109_ex : runs crec cin /\ gentle [] (evs crec) /\ delays_ok crec /\ past_1970 crec /\ paced 1 crec /\ steady 1000 crec.
Proof.
  split; [apply runsb_ok; vm_compute; reflexivity|]. split.
  - simpl. repeat match goal with |- True /\ _ => split; [exact I|] | |- (?a = None \/ _) /\ _ => split end; try exact I;
      try (left; reflexivity); right; left; exists [1; 2]; (split; [unfold zlen; cbn; lia|]);
      intros x; unfold deadline; cbn [fold_left deadline1 app];
      repeat match goal with |- context [?a =? x] => destruct (Z.eqb_spec a x) end; subst; simpl; auto; congruence.
  - split; [apply delaysb_ok; reflexivity|]. split; [apply past70b_ok; reflexivity|]. split; [apply pacedb_ok; reflexivity|].
    intros r t Hin. 
    repeat (destruct Hin as [Hin|Hin]; [first [discriminate Hin|injection Hin as <- <-; reflexivity]|]). destruct Hin.
Qed.

(** The clock is put back by an hour a second after a timer of a minute was armed: it
    fires after an hour and a minute. *)
Definition back_in : list tin :=
  [TTick 10000000; TArm 1 60000; TExpire; TIter; TTick 6401000; TExpire; TIter; TTick 10060000; TExpire; TIter].
Definition back_rec : stamped :=
  [(0, ETick 10000000); (0, EArm 1 60000 10000000 true); (0, EExpire); (0, EDone 60000 10000000);
   (1000, ETick 6401000); (1000, EExpire); (1000, EDone 3659000 6401000);
   (3660000, ETick 10060000); (3660000, EExpire); (3660000, EFire 1 10060000)].
Theorem C109_refuted : ~ C109_property.
Proof.
  intros P.
  assert (O : on_time 1000 back_rec).
  { apply (P 1000 back_rec back_in); [lia|apply runsb_ok; vm_compute; reflexivity| |apply delaysb_ok; reflexivity
      |apply past70b_ok; reflexivity|apply pacedb_ok; reflexivity].
    simpl. repeat split. left. reflexivity. }
  specialize (O [(0, ETick 10000000)] 0 1 60000 10000000
    [(0, EExpire); (0, EDone 60000 10000000); (1000, ETick 6401000); (1000, EExpire); (1000, EDone 3659000 6401000);
     (3660000, ETick 10060000); (3660000, EExpire)] 3660000 10060000 [] eq_refl).
  destruct O as (_ & O); [repeat constructor; cbn; auto|]. vm_compute in O. apply O. reflexivity.
Qed.
Print Assumptions C109_refuted.

(** Put forward: a timer of a minute fires after a second, which closes a connection in
    use. *)
Definition ahead_in : list tin :=
  [TTick 10000000; TArm 1 60000; TExpire; TIter; TTick 13601000; TExpire; TIter].
Definition ahead_rec : stamped :=
  [(0, ETick 10000000); (0, EArm 1 60000 10000000 true); (0, EExpire); (0, EDone 60000 10000000);
   (1000, ETick 13601000); (1000, EExpire); (1000, EFire 1 13601000)].
Theorem C109_refuted_early : exists h is, runs h is /\ gentle [] (evs h) /\ delays_ok h /\ past_1970 h /\ paced 0 h /\
  exists h1 ra d t h2 rf tf, h = h1 ++ (ra, EArm 1 d t true) :: h2 ++ [(rf, EFire 1 tf)] /\
    seen h1 = 0 /\ d = 60000 /\ seen (h1 ++ (ra, EArm 1 d t true) :: h2) = 1000.
Proof.
  exists ahead_rec, ahead_in. split; [apply runsb_ok; vm_compute; reflexivity|].
  split; [simpl; repeat split; left; reflexivity|]. split; [apply delaysb_ok; reflexivity|].
  split; [apply past70b_ok; reflexivity|]. split; [apply pacedb_ok; reflexivity|].
  exists [(0, ETick 10000000)], 0, 60000, 10000000,
    [(0, EExpire); (0, EDone 60000 10000000); (1000, ETick 13601000); (1000, EExpire)], 1000, 13601000.
  repeat split.
Qed.
Print Assumptions C109_refuted_early.

(** A machine which starts with the clock a month fast and then has it set right: the
    difference no longer fits an int (timer.c:47) and the wait is negative, which
    epoll_wait takes as "until something happens": from then on no timer is looked
    at until some descriptor is ready. *)
Definition month_in : list tin :=
  [TTick 5000000000; TArm 1 60000; TExpire; TIter; TTick 2400000000; TExpire; TIter].
Definition month_rec : stamped :=
  [(0, ETick 5000000000); (0, EArm 1 60000 5000000000 true); (0, EExpire); (0, EDone 60000 5000000000);
   (1000, ETick 2400000000); (1000, EExpire); (1000, EDone (-1694907296) 2400000000)].
Theorem C109_refuted_blocks : exists h is, runs h is /\ gentle [] (evs h) /\ delays_ok h /\ past_1970 h /\ paced 0 h /\
  exists h1 r w t k, h = h1 ++ [(r, EDone w t)] /\ deadline (evs h1) 1 = Some k /\ w < 0.
Proof.
  exists month_rec, month_in. split; [apply runsb_ok; vm_compute; reflexivity|].
  split; [simpl; repeat split; left; reflexivity|]. split; [apply delaysb_ok; reflexivity|].
  split; [apply past70b_ok; reflexivity|]. split; [apply pacedb_ok; reflexivity|].
  exists (ztake 6 month_rec), 1000, (-1694907296), 2400000000, 5000060000. repeat split.
Qed.
Print Assumptions C109_refuted_blocks.
