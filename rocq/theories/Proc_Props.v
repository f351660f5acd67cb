(** * The master process: C69-C71, C87, C88 *)
From Verif Require Import Base Proc_Model Proc_Proofs.

(** ** Specification vocabulary, read off states and traces only *)
Definition all_workers (P : wk -> Prop) (s : ms) : Prop := forall i x, nth_error (ws s) i = Some x -> P x.
Definition running x := wst x = KRun.
Definition dead x := wst x = KZomb \/ wst x = KGone.
Definition ended (s : ms) := at_ s = PEnd.
Definition asleep (s : ms) := at_ s = PSusp.

(** some fork of the initial loop failed *)
Definition bad_start (n : nat) (t : list act) : Prop :=
  exists t1 r t2 s1 i, t = t1 ++ AGo false r :: t2 /\ run (start n) t1 = Some s1 /\
    at_ s1 = PFork i /\ (i < n)%nat.
Definition forks_ok (t : list act) : Prop := forall r, ~ In (AGo false r) t.

Lemma run_app s t1 t2 :
  run s (t1 ++ t2) = match run s t1 with Some s1 => run s1 t2 | None => None end.
Proof. revert s; induction t1; intros; simpl; auto. destruct (step s a); auto. Qed.

Lemma kill_len s i r p q s' : kill_at s i r p q = Some s' -> length (ws s') = length (ws s).
Proof.
  intros H. apply kill_at_inv in H as (x & Hx & [[D ->]|[D ->]]); unfold_set; rewrite ?upd_nth_len; auto.
  destruct r; reflexivity.
Qed.

Lemma step_len s a s' : step s a = Some s' -> length (ws s') = length (ws s).
Proof.
  intros H. destruct a as [i|i| | | |c k|ok r]; cbn [step] in H.
  - destruct (nth_error (ws s) i) as [[[] e g]|]; inversion H; subst; unfold_set; apply upd_nth_len.
  - destruct (nth_error (ws s) i) as [[[] e []]|]; inversion H; subst; unfold_set; apply upd_nth_len.
  - inversion H; subst; reflexivity.
  - inversion H; subst. destruct (at_ s); reflexivity.
  - destruct (at_ s); inversion H; subst; reflexivity.
  - destruct (at_ s); try discriminate.
    destruct (implb c (pchld s) && implb k (pint s) && (c || k)); inversion H; subst.
    destruct c, k; unfold_set; auto; unfold wait_all; apply map_length.
  - destruct (at_ s) eqn:E; try discriminate; try (inversion H; subst; reflexivity).
    + destruct (Nat.ltb i (length (ws s))); [|inversion H; subst; reflexivity].
      destruct ok; inversion H; subst; unfold_set; auto. apply upd_nth_len.
    + destruct (Nat.ltb i (length (ws s))); [|inversion H; subst; reflexivity].
      apply (kill_len _ _ _ _ _ _ H).
    + destruct (forallb exited (ws s)); inversion H; subst; reflexivity.
    + destruct (nth_error (ws s) i); [|inversion H; subst; reflexivity].
      destruct (exited w && negb (quit s)); [|inversion H; subst; reflexivity].
      destruct ok; inversion H; subst; unfold_set; auto. apply upd_nth_len.
    + destruct (Nat.ltb i (length (ws s))); [|inversion H; subst; reflexivity].
      destruct (kill_at s i r (PHup (S i)) PLoop) as [s1|] eqn:K; [|discriminate].
      rewrite <- (kill_len _ _ _ _ _ _ K).
      destruct (at_ s1); inversion H; subst; reflexivity.
Qed.

Lemma run_len s t s' : run s t = Some s' -> length (ws s') = length (ws s).
Proof.
  revert s; induction t; intros s H; simpl in H; [inversion H; auto|].
  destruct (step s a) eqn:E; [|discriminate]. rewrite (IHt _ H). apply (step_len _ _ _ E).
Qed.

Lemma run_inv n t s :
  run (start n) t = Some s -> inv s \/ bad_start n t.
Proof.
  revert s. induction t as [|a t IH] using rev_ind; intros s H.
  - simpl in H. inversion H; subst. left. apply inv_start.
  - rewrite run_app in H. destruct (run (start n) t) as [s1|] eqn:R; [|discriminate].
    simpl in H. destruct (step s1 a) as [s2|] eqn:E; inversion H; subst.
    destruct (IH s1 eq_refl) as [I|(t1 & r & t2 & s0 & i & -> & B)].
    + destruct (inv_step _ _ _ I E) as [I2|(i & r & A1 & A2 & ->)]; [left; auto|].
      right. exists t, r, [], s1, i. repeat split; auto.
      apply run_len in R. simpl in R. rewrite repeat_length in R. lia.
    + right. exists t1, r, (t2 ++ [a]), s0, i. split; [|auto]. rewrite <- app_assoc. reflexivity.
Qed.

(** a stop is recorded only if one was requested *)
Lemma step_quit s a s' :
  step s a = Some s' -> quit s' = true \/ pint s' = true ->
  quit s = true \/ pint s = true \/ a = AInt.
Proof.
  intros H Q. destruct a as [i|i| | | |c k|ok r]; cbn [step] in H; auto.
  - destruct (nth_error (ws s) i) as [[[] e g]|]; inversion H; subst; unfold_set; tauto.
  - destruct (nth_error (ws s) i) as [[[] e []]|]; inversion H; subst; unfold_set; tauto.
  - inversion H; subst. destruct (at_ s); unfold_set; tauto.
  - destruct (at_ s); inversion H; subst; unfold_set; tauto.
  - destruct (at_ s); try discriminate.
    destruct (implb c (pchld s) && implb k (pint s) && (c || k)) eqn:B; inversion H; subst.
    destruct c, k; unfold_set; try tauto; destruct (pint s); auto;
      rewrite ?andb_false_r in B; simpl in B; discriminate.
  - assert (G : quit s' = quit s /\ pint s' = pint s); [|destruct G as [<- <-]; tauto].
    clear Q.
    assert (K : forall i p q s1, kill_at s i r p q = Some s1 -> quit s1 = quit s /\ pint s1 = pint s).
    { intros i p q s1 K. apply kill_at_inv in K as (x & Hx & [[D ->]|[D ->]]); [split; reflexivity|].
      destruct r; split; reflexivity. }
    destruct (at_ s) eqn:E; try discriminate; try (inversion H; subst; split; reflexivity).
    + destruct (Nat.ltb i (length (ws s))); [|inversion H; subst; split; reflexivity].
      destruct ok; inversion H; subst; split; reflexivity.
    + destruct (Nat.ltb i (length (ws s))); [|inversion H; subst; split; reflexivity].
      apply (K _ _ _ _ H).
    + destruct (forallb exited (ws s)); inversion H; subst; split; reflexivity.
    + destruct (nth_error (ws s) i); [|inversion H; subst; split; reflexivity].
      destruct (exited w && negb (quit s)); [|inversion H; subst; split; reflexivity].
      destruct ok; inversion H; subst; split; reflexivity.
    + destruct (Nat.ltb i (length (ws s))); [|inversion H; subst; split; reflexivity].
      destruct (kill_at s i r (PHup (S i)) PLoop) as [s1|] eqn:K1; [|discriminate].
      destruct (K _ _ _ _ K1) as [<- <-].
      destruct (at_ s1); inversion H; subst; split; reflexivity.
Qed.

Lemma run_quit s t s' :
  run s t = Some s' -> quit s' = true \/ pint s' = true ->
  quit s = true \/ pint s = true \/ In AInt t.
Proof.
  revert s; induction t as [|a t IH]; intros s H Q; simpl in H; [inversion H; subst; tauto|].
  destruct (step s a) as [s1|] eqn:E; [|discriminate].
  destruct (IH _ H Q) as [A|[A|A]]; [| |right; right; right; auto];
    (destruct (step_quit _ _ _ E) as [B|[B|B]]; [tauto| | |]; auto; right; right; left; auto).
Qed.

(** ** C69: the master ends only if it was told to stop and all workers are gone
    -- unless a fork failed while starting *)
Theorem C69_partial : forall n t s,
  run (start n) t = Some s -> ended s ->
  (In AInt t /\ all_workers (fun x => wst x = KGone) s) \/ bad_start n t.
Proof.
  intros n t s R E. unfold ended in E. destruct (run_inv _ _ _ R) as [I|B]; [left|right; auto].
  destruct I as [Z1 Z2 Z3]. unfold phase in Z3. rewrite E in Z3. destruct Z3 as [Q X]. split.
  - destruct (run_quit _ _ _ R (or_introl Q)) as [A|[A|A]]; auto; discriminate.
  - intros i x Hx. apply (Z2 ltac:(unfold started; rewrite E; exact Logic.I) _ _ Hx). apply (X _ _ Hx).
Qed.
Print Assumptions C69_partial.

(** two workers, a stop request, both workers stop, the master ends *)
Definition go := AGo true false.
Definition up2 : list act := [go; go; go].
Definition stop2 : list act :=
  up2 ++ [AInt; ADeliver false true] ++ repeat go 8 ++ [AStop 1; AStop 0; ADeliver true false] ++ repeat go 3.
Example C69_example :
  exists s, run (start 2) stop2 = Some s /\ ended s /\ In AInt stop2 /\
    all_workers (fun x => wst x = KGone) s.
Proof.
  eexists. split; [vm_compute; reflexivity|]. split; [reflexivity|].
  split; [vm_compute; tauto|].
  intros [|[|[|i]]] x; simpl; intros H; inversion H; reflexivity.
Qed.

(** if the second fork fails at start-up the master ends with the first worker running *)
Theorem C69_refuted : exists n t s,
  run (start n) t = Some s /\ ended s /\ ~ In AInt t /\ exists x, nth_error (ws s) 0 = Some x /\ running x.
Proof.
  exists 2%nat, [go; AGo false false]. eexists. split; [vm_compute; reflexivity|].
  split; [reflexivity|]. split; [intros [H|[H|[]]]; discriminate|].
  eexists. split; reflexivity.
Qed.
Print Assumptions C69_refuted.

(** ** C70: restarting *)
(** a dead and waited-for worker is waiting to be restarted in the current pass *)
Definition to_restart (s : ms) : Prop :=
  quit s = false -> forall i x, nth_error (ws s) i = Some x -> wst x = KGone ->
  (at_ s = PWake \/ at_ s = PReapT \/ exists k, at_ s = PReap k /\ (k <= i)%nat) /\ reap s = true.

Lemma kill_keeps s i r p q s1 :
  kill_at s i r p q = Some s1 ->
  quit s1 = quit s /\ reap s1 = reap s /\
  (forall j x, nth_error (ws s1) j = Some x -> exists y, nth_error (ws s) j = Some y /\ wst y = wst x) /\
  (at_ s1 = p \/ at_ s1 = q).
Proof.
  intros K. apply kill_at_inv in K as (x & Hx & [[D ->]|[D ->]]).
  - unfold_set. repeat split; auto. intros j y Hj. apply upd_nth_inv in Hj as [[-> ->]|[Ne Hj]]; eauto.
  - destruct r; unfold_set; repeat split; eauto.
Qed.

Lemma step_restart s a s' :
  inv s -> to_restart s -> step s a = Some s' -> (forall r, a <> AGo false r) -> to_restart s'.
Proof.
  intros I T H NF Q'.
  assert (Q : quit s = false).
  { destruct (quit s) eqn:Q; auto. exfalso.
    assert (quit s' = true); [|congruence]. clear - H Q.
    destruct a as [i|i| | | |c k|ok r]; cbn [step] in H.
    - destruct (nth_error (ws s) i) as [[[] e g]|]; inversion H; subst; unfold_set; auto.
    - destruct (nth_error (ws s) i) as [[[] e []]|]; inversion H; subst; unfold_set; auto.
    - inversion H; subst; auto.
    - inversion H; subst. destruct (at_ s); unfold_set; auto.
    - destruct (at_ s); inversion H; subst; unfold_set; auto.
    - destruct (at_ s); try discriminate.
      destruct (implb c (pchld s) && implb k (pint s) && (c || k)) eqn:B; inversion H; subst.
      destruct c, k; unfold_set; auto.
    - destruct (at_ s) eqn:E; try discriminate; try (inversion H; subst; exact Q).
      + destruct (Nat.ltb i (length (ws s))); [|inversion H; subst; exact Q].
        destruct ok; inversion H; subst; exact Q.
      + destruct (Nat.ltb i (length (ws s))); [|inversion H; subst; exact Q].
        apply kill_keeps in H. destruct H as [-> _]. exact Q.
      + destruct (forallb exited (ws s)); inversion H; subst; exact Q.
      + destruct (nth_error (ws s) i); [|inversion H; subst; exact Q].
        destruct (exited w && negb (quit s)); [|inversion H; subst; exact Q].
        destruct ok; inversion H; subst; exact Q.
      + destruct (Nat.ltb i (length (ws s))); [|inversion H; subst; exact Q].
        destruct (kill_at s i r (PHup (S i)) PLoop) as [s1|] eqn:K1; [|discriminate].
        apply kill_keeps in K1. destruct K1 as [K1 _].
        destruct (at_ s1); inversion H; subst; unfold_set; rewrite K1; exact Q. }
  specialize (T Q). intros j x Hj G.
  destruct a as [i|i| | | |c k|ok r]; cbn [step] in H.
  - destruct (nth_error (ws s) i) as [[[] e g]|] eqn:E; inversion H; subst; unfold_set.
    apply upd_nth_inv in Hj as [[-> ->]|[Ne Hj]]; [discriminate|]. eauto.
  - destruct (nth_error (ws s) i) as [[[] e []]|] eqn:E; inversion H; subst; unfold_set.
    apply upd_nth_inv in Hj as [[-> ->]|[Ne Hj]]; [discriminate|]. eauto.
  - inversion H; subst; unfold_set; eauto.
  - inversion H; subst. destruct (at_ s) eqn:E; unfold_set; try rewrite E; try (apply (T _ _ Hj G)).
    destruct (T _ _ Hj G) as [[A|[A|(k & A & _)]] _]; discriminate.
  - destruct (at_ s) eqn:E; inversion H; subst; unfold_set; try rewrite E; try (apply (T _ _ Hj G)).
    destruct (T _ _ Hj G) as [[A|[A|(k & A & _)]] _]; discriminate.
  - destruct (at_ s) eqn:E; try discriminate.
    destruct (implb c (pchld s) && implb k (pint s) && (c || k)) eqn:B; inversion H; subst.
    destruct c, k; unfold_set; auto.
    all: destruct (T _ _ Hj G) as [[A|[A|(k & A & _)]] _]; discriminate.
  - assert (KK : forall i p q s1, kill_at s i r p q = Some s1 ->
               (at_ s = PQuit i \/ at_ s = PHup i) -> forall j x, nth_error (ws s1) j = Some x -> wst x = KGone -> False).
    { intros i p q s1 K A j0 x0 Hj0 G0. apply kill_keeps in K as (_ & _ & K & _).
      destruct (K _ _ Hj0) as (y & Hy & Ey). rewrite G0 in Ey.
      destruct (T _ _ Hy Ey) as [[A1|[A1|(k & A1 & _)]] _]; rewrite A1 in A; destruct A; discriminate. }
    destruct (at_ s) eqn:E; try discriminate.
    + destruct (Nat.ltb i (length (ws s))); [|inversion H; subst; unfold_set].
      * destruct ok; [|exfalso; apply (NF r); reflexivity].
        inversion H; subst; unfold_set. apply upd_nth_inv in Hj as [[-> ->]|[Ne Hj]]; [discriminate|].
        destruct (T _ _ Hj G) as [[A|[A|(k & A & _)]] _]; discriminate.
      * destruct (T _ _ Hj G) as [[A|[A|(k & A & _)]] _]; discriminate.
    + rewrite Q in H. inversion H; subst; unfold_set. destruct (T _ _ Hj G) as [_ B]. auto.
    + destruct (Nat.ltb i (length (ws s))).
      * exfalso. apply (KK _ _ _ _ H (or_introl eq_refl) _ _ Hj G).
      * inversion H; subst; unfold_set. destruct (T _ _ Hj G) as [[A|[A|(k & A & _)]] _]; discriminate.
    + exfalso. destruct (forallb exited (ws s)); inversion H; subst; unfold_set;
      destruct (T _ _ Hj G) as [[A|[A|(k & A & _)]] _]; discriminate.
    + destruct (reap s) eqn:Rp; inversion H; subst; unfold_set; destruct (T _ _ Hj G) as [A B]; [|congruence].
      split; auto. right. right. exists 0%nat. split; auto. lia.
    + assert (GO : j <> i -> nth_error (ws s) j = Some x ->
                 (PReap (S i) = PWake \/ PReap (S i) = PReapT \/ (exists k, PReap (S i) = PReap k /\ (k <= j)%nat)) /\ reap s = true).
      { intros N Hj'. destruct (T _ _ Hj' G) as [[A|[A|(k & A & L)]] B]; try discriminate.
        inversion A; subst. split; auto. right. right. exists (S k). split; auto. lia. }
      destruct (nth_error (ws s) i) as [w|] eqn:Hw.
      * destruct (exited w && negb (quit s)) eqn:X.
        -- destruct ok; [|exfalso; apply (NF r); reflexivity].
           inversion H; subst; unfold_set. apply upd_nth_inv in Hj as [[-> ->]|[Ne Hj]]; [discriminate|auto].
        -- inversion H; subst; unfold_set. apply GO; auto. intros ->. rewrite Hw in Hj. inversion Hj; subst.
           destruct I as [_ Z2 _]. destruct (Z2 ltac:(unfold started; rewrite E; exact Logic.I) i x Hw) as [_ [_ W]].
           rewrite (W G), Q in X. discriminate.
      * inversion H; subst; unfold_set. destruct (T _ _ Hj G) as [[A|[A|(k & A & L)]] B]; try discriminate.
        inversion A; subst. apply nth_lt in Hj. apply nth_error_None in Hw. lia.
    + exfalso. inversion H; subst; unfold_set.
      destruct (T _ _ Hj G) as [[A|[A|(k & A & L)]] B]; discriminate.
    + exfalso. destruct (Nat.ltb i (length (ws s))).
      * destruct (kill_at s i r (PHup (S i)) PLoop) as [s1|] eqn:K1; [|discriminate].
        apply (KK _ _ _ _ K1 (or_intror eq_refl) j x); auto.
        destruct (at_ s1); inversion H; subst; exact Hj.
      * inversion H; subst; unfold_set. destruct (T _ _ Hj G) as [[A|[A|(k & A & L)]] B]; discriminate.
    + exfalso. inversion H; subst; unfold_set.
      destruct (T _ _ Hj G) as [[A|[A|(k & A & L)]] B]; discriminate.
Qed.

Lemma forks_ok_start n t : forks_ok t -> ~ bad_start n t.
Proof. intros F (t1 & r & t2 & s1 & i & -> & _). apply (F r). apply in_or_app. right. left. auto. Qed.

Lemma run_restart n t s :
  run (start n) t = Some s -> forks_ok t -> inv s /\ to_restart s.
Proof.
  revert s. induction t as [|a t IH] using rev_ind; intros s H F.
  - simpl in H. inversion H; subst. split; [apply inv_start|].
    intros _ i x Hi. simpl in Hi. apply nth_error_In, repeat_spec in Hi. subst. discriminate.
  - pose proof H as H0.
    rewrite run_app in H. destruct (run (start n) t) as [s1|] eqn:R; [|discriminate].
    simpl in H. destruct (step s1 a) as [s2|] eqn:E; inversion H; subst.
    assert (F1 : forks_ok t) by (intros r X; apply (F r), in_or_app; auto).
    destruct (IH _ eq_refl F1) as [I T]. split.
    + destruct (run_inv _ _ _ H0) as [I2|B]; auto. destruct (forks_ok_start _ _ F B).
    + apply (step_restart _ _ _ I T E). intros r ->. apply (F r), in_or_app. right. left. auto.
Qed.

(** whenever the master sleeps and no stop was requested, every worker runs, or has
    just died and the signal that wakes the master is pending *)
Theorem C70_partial : forall n t s,
  run (start n) t = Some s -> forks_ok t -> ~ In AInt t -> asleep s ->
  all_workers (fun x => running x \/ (wst x = KZomb /\ pchld s = true)) s.
Proof.
  intros n t s R F NI E i x Hx. destruct (run_restart _ _ _ R F) as [I T]. unfold asleep in E.
  assert (Q : quit s = false).
  { destruct (quit s) eqn:Q; auto. destruct (run_quit _ _ _ R (or_introl Q)) as [A|[A|A]]; try discriminate. tauto. }
  destruct I as [Z1 Z2 Z3]. destruct (Z2 ltac:(unfold started; rewrite E; exact Logic.I) i x Hx) as [NN XG].
  unfold running. destruct (wst x) eqn:W; auto; [congruence| |].
  - right. split; auto. apply (Z1 _ _ Hx W).
  - exfalso. destruct (T Q _ _ Hx W) as [[A|[A|(k & A & L)]] B]; congruence.
Qed.
Print Assumptions C70_partial.

(** the master alone, no environment action in between *)
Definition goes (m : nat) : list act := repeat go m.

Lemma goes_app a b : goes (a + b) = goes a ++ goes b.
Proof. apply repeat_app. Qed.

Lemma run_goes s a b s1 : run s (goes a) = Some s1 -> run s (goes (a + b)) = run s1 (goes b).
Proof. intros H. rewrite goes_app, run_app, H. reflexivity. Qed.

Definition fixw (x : wk) : wk := if exited x then Wk KRun false false else x.

Lemma reap_loop k : forall s i, at_ s = PReap i -> quit s = false -> (length (ws s) - i = k)%nat ->
  exists s', run s (goes (S k)) = Some s' /\ at_ s' = PHupT /\ quit s' = false /\
    (forall j, nth_error (ws s') j = if Nat.ltb j i then nth_error (ws s) j
                                     else option_map fixw (nth_error (ws s) j)).
Proof.
  induction k; intros s i E Q L.
  - assert (N : nth_error (ws s) i = None) by (apply nth_error_None; lia).
    exists (set_pc (set_reap s false) PHupT). split; [|split; [reflexivity|split; [exact Q|]]].
    + simpl. rewrite E, N. reflexivity.
    + intros j. unfold_set. destruct (Nat.ltb_spec j i); auto.
      assert (nth_error (ws s) j = None) as -> by (apply nth_error_None; lia). reflexivity.
  - destruct (nth_error (ws s) i) as [x|] eqn:N; [|apply nth_error_None in N; lia].
    set (s1 := if exited x then set_pc (set_ws s (upd_nth (ws s) i (Wk KRun false false))) (PReap (S i))
               else set_pc s (PReap (S i))).
    assert (R1 : step s go = Some s1).
    { unfold go. cbn [step]. rewrite E, N, Q. subst s1. destruct (exited x); reflexivity. }
    assert (L1 : length (ws s1) = length (ws s)) by (apply (step_len _ _ _ R1)).
    destruct (IHk s1 (S i)) as (s' & R & A & B & C).
    + subst s1. destruct (exited x); reflexivity.
    + subst s1. destruct (exited x); exact Q.
    + lia.
    + exists s'. split; [|split; [auto|split; [auto|]]].
      * change (goes (S (S k))) with (go :: goes (S k)). cbn [run]. rewrite R1. exact R.
      * intros j. rewrite C. destruct (Nat.ltb_spec j (S i)); destruct (Nat.ltb_spec j i); try lia.
        -- subst s1. destruct (exited x); unfold_set; auto. apply upd_nth_other. lia.
        -- assert (j = i) as -> by lia. rewrite N. simpl. unfold fixw. subst s1.
           destruct (exited x); unfold_set; auto. apply upd_nth_same. apply (nth_lt _ _ _ N).
        -- f_equal. subst s1. destruct (exited x); unfold_set; auto. apply upd_nth_other. lia.
Qed.

Lemma hup_loop k : forall s i, at_ s = PHup i -> (length (ws s) - i = k)%nat ->
  all_workers running s ->
  exists s', run s (goes (S k)) = Some s' /\ at_ s' = PLoop /\ all_workers running s'.
Proof.
  induction k; intros s i E L W.
  - exists (set_pc (set_reload s false) PLoop). split; [|split; [reflexivity|exact W]].
    simpl. rewrite E. assert (Nat.ltb i (length (ws s)) = false) as -> by (apply Nat.ltb_ge; lia). reflexivity.
  - destruct (nth_error (ws s) i) as [x|] eqn:N; [|apply nth_error_None in N; lia].
    set (s1 := set_pc (set_ws s (upd_nth (ws s) i (Wk KRun (exited x) true))) (PHup (S i))).
    assert (R1 : step s go = Some s1).
    { unfold go. cbn [step]. rewrite E.
      assert (Nat.ltb i (length (ws s)) = true) as -> by (apply Nat.ltb_lt; lia).
      unfold kill_at. rewrite N, (W _ _ N). reflexivity. }
    assert (L1 : length (ws s1) = length (ws s)) by (apply (step_len _ _ _ R1)).
    destruct (IHk s1 (S i)) as (s' & R & A & B).
    + reflexivity.
    + lia.
    + intros j y Hj. subst s1. unfold_set. apply upd_nth_inv in Hj as [[-> ->]|[Ne Hj]]; [reflexivity|eauto].
    + exists s'. split; [|auto].
      change (goes (S (S k))) with (go :: goes (S k)). cbn [run]. rewrite R1. exact R.
Qed.

(** once woken, the master by itself brings every worker back to life *)
Theorem C70_progress_partial : forall n t s,
  run (start n) t = Some s -> forks_ok t -> ~ In AInt t -> asleep s -> pchld s = true ->
  exists m s', run s (ADeliver true false :: goes m) = Some s' /\ asleep s' /\ all_workers running s'.
Proof.
  intros n t s R F NI E P.
  pose proof (C70_partial _ _ _ R F NI E) as W. unfold asleep in *.
  assert (Q : quit s = false).
  { destruct (quit s) eqn:Q; auto. destruct (run_quit _ _ _ R (or_introl Q)) as [A|[A|A]]; try discriminate. tauto. }
  destruct (run_restart _ _ _ R F) as [[Z1 Z2 Z3] T].
  specialize (Z2 ltac:(unfold started; rewrite E; exact Logic.I)).
  set (s1 := set_pc (set_reap (set_pchld (set_ws s (wait_all (ws s))) false) true) PWake).
  assert (S1 : step s (ADeliver true false) = Some s1).
  { cbn [step]. rewrite E, P. reflexivity. }
  set (s2 := set_pc s1 (PReap 0)).
  assert (S2 : run s1 (goes 2) = Some s2).
  { simpl. rewrite Q. reflexivity. }
  destruct (reap_loop (length (ws s2)) s2 0 eq_refl Q ltac:(lia)) as (s3 & R3 & A3 & Q3 & C3).
  assert (W3 : all_workers running s3).
  { intros j y Hj. rewrite C3 in Hj. cbn [Nat.ltb Nat.leb] in Hj. subst s2 s1. unfold_set. rewrite wait_all_nth in Hj.
    destruct (nth_error (ws s) j) as [x|] eqn:N; [|discriminate]. simpl in Hj. inversion Hj; subst. clear Hj.
    unfold fixw, running. destruct (W _ _ N) as [X|[X _]]; unfold running in X; rewrite X; simpl; auto.
    destruct (Z2 _ _ N) as [_ G]. destruct (exited x) eqn:EX; auto. }
  set (s4 := set_pc s3 (if reload s3 then PHup 0 else PLoop)).
  assert (S4 : run s3 (goes 1) = Some s4) by (simpl; rewrite A3; reflexivity).
  assert (exists m s5, run s4 (goes m) = Some s5 /\ at_ s5 = PLoop /\ all_workers running s5) as (m & s5 & R5 & A5 & W5).
  { destruct (reload s3) eqn:RL.
    - destruct (hup_loop (length (ws s4)) s4 0) as (s5 & R5 & A5 & W5).
      + subst s4. reflexivity.
      + lia.
      + exact W3.
      + eauto.
    - exists 0%nat, s4. split; [reflexivity|]. split; [reflexivity|exact W3]. }
  exists (2 + (S (length (ws s2)) + (1 + (m + 1))))%nat, (set_pc s5 PSusp).
  split; [|split; [reflexivity|exact W5]].
  cbn [run]. rewrite S1. rewrite (run_goes _ _ _ _ S2), (run_goes _ _ _ _ R3), (run_goes _ _ _ _ S4), (run_goes _ _ _ _ R5).
  simpl. rewrite A5. reflexivity.
Qed.
Print Assumptions C70_progress_partial.

(** both workers die, the second while the first one's death is being handled *)
Definition crash2 : list act := up2 ++ [ACrash 0; ADeliver true false; go; ACrash 1; go; go; go; go; go; go].
Example C70_example : exists s, run (start 2) crash2 = Some s /\ forks_ok crash2 /\ ~ In AInt crash2 /\
  asleep s /\ pchld s = true /\ nth_error (ws s) 0 = Some (Wk KRun false false) /\
  nth_error (ws s) 1 = Some (Wk KZomb false false).
Proof.
  eexists. split; [vm_compute; reflexivity|].
  split; [intros r; vm_compute; intuition discriminate|].
  split; [vm_compute; intuition discriminate|]. repeat split.
Qed.

(** if the fork fails once, the worker stays dead until another one dies: no other
    event makes the master try again *)
Definition lost_worker : list act := up2 ++ [ACrash 0; ADeliver true false; go; go; AGo false false; go; go; go; go].

Definition idle (s : ms) : Prop :=
  reap s = false /\ pchld s = false /\ started s /\ (forall i, at_ s <> PReap i) /\
  (exists x, nth_error (ws s) 0 = Some x /\ wst x = KGone) /\
  (forall i x, nth_error (ws s) i = Some x -> wst x <> KZomb).

Lemma idle_step s a s' :
  idle s -> step s a = Some s' -> (forall i, a <> ACrash i /\ a <> AStop i) -> idle s'.
Proof.
  intros ID H NX. pose proof ID as (A & B & St & NR & (x & X1 & X2) & NZ).
  destruct a as [i|i| | | |c k|ok r]; cbn [step] in H.
  - destruct (NX i); congruence.
  - destruct (NX i); congruence.
  - inversion H; subst. unfold idle, started in *; unfold_set. eauto 10.
  - inversion H; subst. assert (IDR : idle (set_reload s true)) by exact ID.
    destruct (at_ s) eqn:E; try exact IDR.
    unfold idle, started in *; unfold_set. repeat split; eauto; discriminate.
  - destruct (at_ s) eqn:E; inversion H; subst; try exact ID.
    unfold idle, started in *; unfold_set. repeat split; eauto; discriminate.
  - destruct (at_ s) eqn:E; try discriminate. rewrite B in H.
    destruct c, k; simpl in H; try discriminate.
    destruct (pint s); simpl in H; inversion H; subst. unfold idle, started in *; unfold_set. repeat split; eauto. discriminate.
  - assert (KK : forall i p q s1, kill_at s i r p q = Some s1 -> (forall k, p <> PReap k /\ q <> PReap k) ->
              match p with PFork _ => False | _ => True end -> match q with PFork _ => False | _ => True end -> idle s1).
    { intros i p q s1 K P1 P2 P3. unfold idle, started in *.
      apply kill_at_inv in K as (y & Hy & [[D ->]|[D ->]]).
      - unfold_set. repeat split; auto.
        + apply P1.
        + destruct (Nat.eq_dec i 0) as [->|N].
          * exfalso. unfold slot in Hy. rewrite X1 in Hy. inversion Hy; subst. rewrite X2 in D. destruct D; discriminate.
          * exists x. rewrite upd_nth_other by auto. auto.
        + intros j z Hj. apply upd_nth_inv in Hj as [[-> ->]|[Ne Hj]]; [apply (NZ _ _ Hy)|eauto].
      - destruct r; unfold_set; repeat split; eauto; apply P1. }
    destruct (at_ s) eqn:E; try discriminate.
    + unfold started in St. rewrite E in St. destruct St.
    + inversion H; subst. unfold idle, started in *; unfold_set.
      destruct (quit s); repeat split; eauto; discriminate.
    + destruct (Nat.ltb i (length (ws s))).
      * eapply KK; eauto; try exact Logic.I. intros; split; discriminate.
      * inversion H; subst. unfold idle, started in *; unfold_set. repeat split; eauto; discriminate.
    + destruct (forallb exited (ws s)); inversion H; subst; unfold idle, started in *; unfold_set;
      repeat split; eauto; discriminate.
    + rewrite A in H. inversion H; subst. unfold idle, started in *; unfold_set. repeat split; eauto; discriminate.
    + destruct (NR i eq_refl).
    + inversion H; subst. unfold idle, started in *; unfold_set. destruct (reload s); repeat split; eauto; discriminate.
    + destruct (Nat.ltb i (length (ws s))).
      * destruct (kill_at s i r (PHup (S i)) PLoop) as [s1|] eqn:K1; [|discriminate].
        apply KK in K1; [|intros; split; discriminate|exact Logic.I|exact Logic.I].
        destruct (at_ s1) eqn:E1; inversion H; subst; auto.
      * inversion H; subst. unfold idle, started in *; unfold_set. repeat split; eauto; discriminate.
    + inversion H; subst. unfold idle, started in *; unfold_set. repeat split; eauto; discriminate.
Qed.

Theorem C70_refuted : exists n t s, run (start n) t = Some s /\ ~ In AInt t /\ asleep s /\
  forall t' s', run s t' = Some s' -> (forall i, ~ In (ACrash i) t' /\ ~ In (AStop i) t') ->
  exists x, nth_error (ws s') 0 = Some x /\ wst x = KGone.
Proof.
  exists 2%nat, lost_worker. eexists. split; [vm_compute; reflexivity|].
  split; [vm_compute; intuition discriminate|]. split; [reflexivity|].
  intros t' s'. match goal with |- run ?s _ = _ -> _ => set (s0 := s) end.
  assert (I0 : idle s0).
  { unfold idle. subst s0. simpl. repeat split; try discriminate; eauto.
    intros [|[|[|i]]] x; simpl; intros H; inversion H; discriminate. }
  clearbody s0. revert s0 I0. induction t' as [|a t' IH]; intros s0 I0 R NC.
  - simpl in R. inversion R; subst. apply I0.
  - simpl in R. destruct (step s0 a) as [s1|] eqn:E; [|discriminate].
    apply (IH s1); auto.
    + apply (idle_step _ _ _ I0 E). intros i. destruct (NC i) as [N1 N2]. split; intros ->; [apply N1|apply N2]; left; auto.
    + intros i. destruct (NC i) as [N1 N2]. split; intros X; [apply N1|apply N2]; right; auto.
Qed.
Print Assumptions C70_refuted.

(** ** C71: a stop request reaches the workers in front of the first dead one *)
Definition told (s : ms) : Prop :=
  match at_ s with
  | PQuit k => forall i x, nth_error (ws s) i = Some x -> (i < k)%nat -> running x -> sent x = true
  | PAlive => forall i x, nth_error (ws s) i = Some x -> running x ->
      (forall j y, (j < i)%nat -> nth_error (ws s) j = Some y -> wst y <> KGone) -> sent x = true
  | _ => True
  end.

Lemma told_step s a s' : inv s -> told s -> step s a = Some s' -> told s'.
Proof.
  intros I T H. unfold told, running in *.
  assert (EX : forall i e g w, nth_error (ws s) i = Some (Wk KRun e g) ->
     w = upd_nth (ws s) i (Wk KZomb e g) ->
     match at_ s with
     | PQuit k => forall i x, nth_error w i = Some x -> (i < k)%nat -> wst x = KRun -> sent x = true
     | PAlive => forall i x, nth_error w i = Some x -> wst x = KRun ->
         (forall j y, (j < i)%nat -> nth_error w j = Some y -> wst y <> KGone) -> sent x = true
     | _ => True
     end).
  { intros i e g w Hi ->. destruct (at_ s); auto.
    - intros j x Hj L R. apply upd_nth_inv in Hj as [[-> ->]|[Ne Hj]]; [discriminate|eauto].
    - intros j x Hj R N. apply upd_nth_inv in Hj as [[-> ->]|[Ne Hj]]; [discriminate|].
      apply (T _ _ Hj R). intros q y Lq Hq. destruct (Nat.eq_dec q i) as [->|D].
      + rewrite Hi in Hq. inversion Hq. discriminate.
      + apply (N q y Lq). rewrite upd_nth_other by auto. exact Hq. }
  destruct a as [i|i| | | |c k|ok r]; cbn [step] in H.
  - destruct (nth_error (ws s) i) as [[[] e g]|] eqn:E; inversion H; subst; unfold_set. eapply EX; eauto.
  - destruct (nth_error (ws s) i) as [[[] e []]|] eqn:E; inversion H; subst; unfold_set. eapply EX; eauto.
  - inversion H; subst; unfold_set; auto.
  - inversion H; subst. destruct (at_ s) eqn:E; unfold_set; try rewrite E; auto.
  - destruct (at_ s) eqn:E; inversion H; subst; unfold_set; rewrite ?E; auto.
  - destruct (at_ s) eqn:E; try discriminate.
    destruct (implb c (pchld s) && implb k (pint s) && (c || k)); inversion H; subst. exact Logic.I.
  - destruct (at_ s) eqn:E; try discriminate; try (inversion H; subst; exact Logic.I).
    + destruct (Nat.ltb i (length (ws s))); [|inversion H; subst; exact Logic.I].
      destruct ok; inversion H; subst; exact Logic.I.
    + inversion H; subst; unfold_set. destruct (quit s); auto. intros; lia.
    + destruct (Nat.ltb i (length (ws s))) eqn:L.
      * apply kill_at_inv in H as (x & Hx & [[D ->]|[D ->]]).
        -- unfold_set. intros j y Hj Lj Ry. apply upd_nth_inv in Hj as [[-> ->]|[Ne Hj]]; [reflexivity|].
           apply (T _ _ Hj); auto. lia.
        -- destruct r; unfold_set.
           ++ intros j y Hj Lj Ry. destruct (Nat.eq_dec j i) as [->|N].
              ** unfold slot in Hx. rewrite Hj in Hx. inversion Hx; subst. rewrite Ry in D. destruct D; discriminate.
              ** apply (T _ _ Hj); auto. lia.
           ++ intros j y Hj Ry N. destruct (Nat.lt_ge_cases j i) as [Lj|Lj]; [eauto|exfalso].
              assert (wst x = KGone) as G.
              { destruct D as [D|D]; auto. destruct I as [_ Z2 _].
                destruct (Z2 ltac:(unfold started; rewrite E; exact Logic.I) _ _ Hx). congruence. }
              destruct (Nat.eq_dec j i) as [->|Nj].
              ** unfold slot in Hx. rewrite Hj in Hx. inversion Hx; subst. congruence.
              ** apply (N i x); auto. lia.
      * apply Nat.ltb_ge in L. inversion H; subst; unfold_set. intros j y Hj Ry _.
        apply (T _ _ Hj); auto. apply nth_lt in Hj. lia.
    + destruct (forallb exited (ws s)); inversion H; subst; exact Logic.I.
    + inversion H; subst; unfold_set. destruct (reap s); exact Logic.I.
    + destruct (nth_error (ws s) i); [|inversion H; subst; exact Logic.I].
      destruct (exited w && negb (quit s)); [|inversion H; subst; exact Logic.I].
      destruct ok; inversion H; subst; exact Logic.I.
    + inversion H; subst; unfold_set. destruct (reload s); exact Logic.I.
    + destruct (Nat.ltb i (length (ws s))); [|inversion H; subst; exact Logic.I].
      destruct (kill_at s i r (PHup (S i)) PLoop) as [s1|] eqn:K1; [|discriminate].
      apply kill_keeps in K1 as (_ & _ & _ & [A|A]); rewrite A in H; inversion H; subst; unfold_set;
      rewrite A; exact Logic.I.
Qed.

Lemma run_told n t s : run (start n) t = Some s -> told s \/ bad_start n t.
Proof.
  revert s. induction t as [|a t IH] using rev_ind; intros s H.
  - simpl in H. inversion H; subst. left. exact Logic.I.
  - rewrite run_app in H. destruct (run (start n) t) as [s1|] eqn:R; [|discriminate].
    simpl in H. destruct (step s1 a) as [s2|] eqn:E; inversion H; subst.
    destruct (IH s1 eq_refl) as [T|(t1 & r & t2 & s0 & i & -> & B)].
    + destruct (run_inv _ _ _ R) as [I|(t1 & r & t2 & s0 & i & -> & B)].
      * left. apply (told_step _ _ _ I T E).
      * right. exists t1, r, (t2 ++ [a]), s0, i. split; [|auto]. rewrite <- app_assoc. reflexivity.
    + right. exists t1, r, (t2 ++ [a]), s0, i. split; [|auto]. rewrite <- app_assoc. reflexivity.
Qed.

(** after the broadcast every live worker that has no dead (waited-for) worker in
    front of it has been sent SIGINT; in particular all of them if none is dead *)
Theorem C71_partial : forall n t s,
  run (start n) t = Some s -> at_ s = PAlive ->
  forall i x, nth_error (ws s) i = Some x -> running x ->
  (forall j y, (j < i)%nat -> nth_error (ws s) j = Some y -> wst y <> KGone) -> sent x = true.
Proof.
  intros n t s R E. destruct (run_told _ _ _ R) as [T|(t1 & r & t2 & s1 & i & -> & R1 & A & L)].
  - unfold told in T. rewrite E in T. exact T.
  - exfalso. rewrite run_app, R1 in R. cbn [run step] in R. rewrite A in R.
    assert (length (ws s1) = n) as Ln by (rewrite (run_len _ _ _ R1); simpl; apply repeat_length).
    assert (Nat.ltb i (length (ws s1)) = true) as W by (apply Nat.ltb_lt; lia). rewrite W in R.
    assert (X : forall t s s', run s t = Some s' -> at_ s = PEnd -> at_ s' = PEnd).
    { clear. induction t as [|a t IH]; intros s s' R E; simpl in R; [inversion R; subst; auto|].
      destruct (step s a) as [s1|] eqn:S1; [|discriminate]. apply (IH _ _ R). clear - S1 E.
      destruct a as [i|i| | | |c k|ok r]; cbn [step] in S1; rewrite ?E in S1.
      - destruct (nth_error (ws s) i) as [[[] e g]|]; inversion S1; subst; auto.
      - destruct (nth_error (ws s) i) as [[[] e []]|]; inversion S1; subst; auto.
      - inversion S1; subst; auto.
      - inversion S1; subst; auto.
      - inversion S1; subst; auto.
      - discriminate.
      - discriminate. }
    rewrite (X _ _ _ R eq_refl) in E. discriminate.
Qed.
Print Assumptions C71_partial.

Example C71_example : exists s, run (start 2) (up2 ++ [AInt; ADeliver false true; go; go; go; go]) = Some s /\
  at_ s = PAlive /\ exists x, nth_error (ws s) 1 = Some x /\ running x /\
  (forall j y, (j < 1)%nat -> nth_error (ws s) j = Some y -> wst y <> KGone).
Proof.
  eexists. split; [vm_compute; reflexivity|]. split; [reflexivity|]. eexists. split; [reflexivity|].
  split; [reflexivity|]. intros [|j] y L H; [|lia]. simpl in H. inversion H. discriminate.
Qed.

(** worker 0 dies at the moment of the stop request: the broadcast gives up at its
    pid, worker 1 is never told (unless the pid is taken over by a stranger) and the
    master never ends on its own *)
Definition half_stop : list act := up2 ++ [ACrash 0; AInt; ADeliver true true].
Definition stuck (s : ms) : Prop :=
  quit s = true /\ started s /\ ~ ended s /\
  (exists x, nth_error (ws s) 0 = Some x /\ wst x = KGone) /\
  nth_error (ws s) 1 = Some (Wk KRun false false) /\
  match at_ s with PQuit (S _) | PHup (S _) => False | _ => True end.

Lemma stuck_step s a s' : stuck s -> step s a = Some s' -> a <> ACrash 1 ->
  (forall f, a <> AGo f true) -> stuck s'.
Proof.
  intros ID H N1 N2. pose proof ID as (Q & St & NE & (x & X1 & X2) & Y & P).
  unfold ended in NE.
  assert (IDR : forall b, stuck (set_reload s b)) by (intros; exact ID).
  destruct a as [i|i| | | |c k|ok r]; cbn [step] in H.
  - destruct (nth_error (ws s) i) as [[[] e g]|] eqn:E; inversion H; subst.
    destruct i as [|[|i]]; [rewrite X1 in E; inversion E; subst; discriminate|congruence|].
    unfold stuck in *; unfold_set. repeat split; auto.
    + exists x. rewrite upd_nth_other by lia. auto.
    + rewrite upd_nth_other by lia. auto.
  - destruct (nth_error (ws s) i) as [[[] e []]|] eqn:E; inversion H; subst.
    destruct i as [|[|i]]; [rewrite X1 in E; inversion E; subst; discriminate|congruence|].
    unfold stuck in *; unfold_set. repeat split; auto.
    + exists x. rewrite upd_nth_other by lia. auto.
    + rewrite upd_nth_other by lia. auto.
  - inversion H; subst. exact ID.
  - inversion H; subst. destruct (at_ s) eqn:E; try apply IDR.
    unfold stuck, started, ended in *; unfold_set. repeat split; eauto. discriminate.
  - destruct (at_ s) eqn:E; inversion H; subst; try exact ID.
    unfold stuck, started, ended in *; unfold_set. repeat split; eauto. discriminate.
  - destruct (at_ s) eqn:E; try discriminate.
    destruct (implb c (pchld s) && implb k (pint s) && (c || k)); inversion H; subst.
    assert (W0 : exists z, nth_error (wait_all (ws s)) 0 = Some z /\ wst z = KGone).
    { exists x. rewrite wait_all_nth, X1. simpl. rewrite X2. auto. }
    assert (W1 : nth_error (wait_all (ws s)) 1 = Some (Wk KRun false false)).
    { rewrite wait_all_nth, Y. reflexivity. }
    destruct c, k; unfold stuck, started, ended in *; unfold_set; repeat split; eauto; discriminate.
  - destruct r; [destruct (N2 ok eq_refl)|].
    assert (Z : forall p, match p with PEnd | PFork _ | PQuit (S _) | PHup (S _) => False | _ => True end ->
                stuck (set_pc s p)).
    { intros p Pp. unfold stuck, started, ended in *; unfold_set.
      destruct p as [i| | |[|i]| | | | |[|i]| |]; try contradiction; repeat split; eauto; discriminate. }
    destruct (at_ s) eqn:E; try discriminate.
    + unfold started in St. rewrite E in St. destruct St.
    + rewrite Q in H. inversion H; subst. apply Z. exact Logic.I.
    + destruct i as [|i]; [|contradiction].
      destruct (Nat.ltb 0 (length (ws s))) eqn:L; [|inversion H; subst; apply Z; exact Logic.I].
      unfold kill_at in H. rewrite X1, X2 in H. inversion H; subst. apply Z. exact Logic.I.
    + destruct (forallb exited (ws s)) eqn:F.
      * rewrite forallb_forall in F. specialize (F _ (nth_error_In _ _ Y)). discriminate.
      * inversion H; subst. apply Z. exact Logic.I.
    + inversion H; subst. apply Z. destruct (reap s); exact Logic.I.
    + destruct (nth_error (ws s) i).
      * rewrite Q, andb_false_r in H. inversion H; subst. apply Z. exact Logic.I.
      * inversion H; subst. apply (Z PHupT Logic.I).
    + inversion H; subst. apply Z. destruct (reload s); exact Logic.I.
    + destruct i as [|i]; [|contradiction].
      destruct (Nat.ltb 0 (length (ws s))) eqn:L.
      * unfold kill_at in H. rewrite X1, X2 in H. inversion H; subst. apply (Z PLoop Logic.I).
      * inversion H; subst. apply (Z PLoop Logic.I).
    + inversion H; subst. apply Z. exact Logic.I.
Qed.

Theorem C71_refuted : exists n t s, run (start n) t = Some s /\ In AInt t /\
  forall t' s', run s t' = Some s' -> ~ In (ACrash 1) t' -> (forall f, ~ In (AGo f true) t') ->
  nth_error (ws s') 1 = Some (Wk KRun false false) /\ ~ ended s'.
Proof.
  exists 2%nat, half_stop. eexists. split; [vm_compute; reflexivity|].
  split; [vm_compute; tauto|].
  intros t' s'. match goal with |- run ?s _ = _ -> _ => set (s0 := s) end.
  assert (I0 : stuck s0).
  { unfold stuck, started, ended. subst s0. simpl. repeat split; try discriminate; eauto. }
  clearbody s0. revert s0 I0. induction t' as [|a t' IH]; intros s0 I0 R NC NR.
  - simpl in R. inversion R; subst. destruct I0 as (_ & _ & E & _ & Y & _). auto.
  - simpl in R. destruct (step s0 a) as [s1|] eqn:E; [|discriminate].
    apply (IH s1); auto.
    + apply (stuck_step _ _ _ I0 E).
      * intros ->. apply NC. left. auto.
      * intros f ->. apply (NR f). left. auto.
    + intros X. apply NC. right. auto.
    + intros f X. apply (NR f). right. auto.
Qed.
Print Assumptions C71_refuted.

(** and if the pid of the dead worker has been taken over, a stranger is interrupted *)
Theorem C71_refuted_stranger : exists n t s, run (start n) t = Some s /\ stray s = true.
Proof. exists 2%nat, (half_stop ++ [go; AGo true true]). eexists. split; vm_compute; reflexivity. Qed.
Print Assumptions C71_refuted_stranger.

(** ** The stop completes: once told to stop and with all workers dead, the master
    ends by itself as soon as the pending SIGCHLD is delivered *)
Theorem C69_finish : forall n t s,
  run (start n) t = Some s -> forks_ok t -> asleep s -> quit s = true -> pchld s = true ->
  all_workers dead s ->
  exists m s', run s (ADeliver true false :: goes m) = Some s' /\ ended s'.
Proof.
  intros n t s R F E Q P W. destruct (run_restart _ _ _ R F) as [[Z1 Z2 Z3] _]. unfold asleep in E.
  specialize (Z2 ltac:(unfold started; rewrite E; exact Logic.I)).
  set (s1 := set_pc (set_reap (set_pchld (set_ws s (wait_all (ws s))) false) true) PWake).
  assert (S1 : step s (ADeliver true false) = Some s1) by (cbn [step]; rewrite E, P; reflexivity).
  assert (G : forall j y, nth_error (wait_all (ws s)) j = Some y -> wst y = KGone /\ exited y = true).
  { intros j y Hj. apply wait_all_inv in Hj as (z & Hz & [[A ->]|[A ->]]); auto.
    destruct (W _ _ Hz) as [B|B]; [contradiction|]. split; auto. apply (Z2 _ _ Hz). exact B. }
  assert (X : forallb exited (wait_all (ws s)) = true).
  { apply forallb_forall. intros y Hy. apply In_nth_error in Hy as [j Hj]. apply (G _ _ Hj). }
  assert (A1 : step s1 go = Some (set_pc s1 (PQuit 0))).
  { unfold go. cbn [step]. replace (at_ s1) with PWake by reflexivity.
    replace (quit s1) with true by (symmetry; exact Q). reflexivity. }
  assert (A2 : step (set_pc s1 (PQuit 0)) go = Some (set_pc s1 PAlive)).
  { unfold go. cbn [step]. replace (at_ (set_pc s1 (PQuit 0))) with (PQuit 0) by reflexivity.
    destruct (Nat.ltb 0 (length (ws (set_pc s1 (PQuit 0))))) eqn:L; [|reflexivity].
    apply Nat.ltb_lt in L. unfold kill_at.
    destruct (nth_error (ws (set_pc s1 (PQuit 0))) 0) as [y|] eqn:Hy.
    + destruct (G 0%nat y Hy) as [-> _]. reflexivity.
    + apply nth_error_None in Hy. lia. }
  assert (A3 : step (set_pc s1 PAlive) go = Some (set_pc s1 PEnd)).
  { unfold go. cbn [step]. replace (at_ (set_pc s1 PAlive)) with PAlive by reflexivity.
    replace (forallb exited (ws (set_pc s1 PAlive))) with true by (symmetry; exact X). reflexivity. }
  exists 3%nat, (set_pc s1 PEnd). split; [|reflexivity].
  unfold goes. cbn [run repeat]. rewrite S1, A1, A2, A3. reflexivity.
Qed.
Print Assumptions C69_finish.

Example C69_finish_example : exists s,
  run (start 2) (up2 ++ [AInt; ADeliver false true] ++ goes 8 ++ [AStop 1; AStop 0]) = Some s /\
  forks_ok (up2 ++ [AInt; ADeliver false true] ++ goes 8 ++ [AStop 1; AStop 0]) /\
  asleep s /\ quit s = true /\ pchld s = true /\ all_workers dead s.
Proof.
  eexists. split; [vm_compute; reflexivity|].
  split; [intros r; vm_compute; intuition discriminate|]. repeat split.
  intros [|[|[|i]]] x; simpl; intros H; inversion H; left; reflexivity.
Qed.

(** ** C87: the command line reaches the running master *)
Lemma step_pidf s a s' : step s a = Some s' ->
  pidf s' = match a with AStop _ => false | _ => pidf s end.
Proof.
  intros H. destruct a as [i|i| | | |c k|ok r]; cbn [step] in H.
  - destruct (nth_error (ws s) i) as [[[] e g]|]; inversion H; subst; reflexivity.
  - destruct (nth_error (ws s) i) as [[[] e []]|]; inversion H; subst; reflexivity.
  - inversion H; subst; reflexivity.
  - inversion H; subst. destruct (at_ s); reflexivity.
  - destruct (at_ s); inversion H; subst; reflexivity.
  - destruct (at_ s); try discriminate.
    destruct (implb c (pchld s) && implb k (pint s) && (c || k)); inversion H; subst.
    destruct c, k; reflexivity.
  - assert (K : forall i p q s1, kill_at s i r p q = Some s1 -> pidf s1 = pidf s).
    { intros i p q s1 K. apply kill_at_inv in K as (x & Hx & [[D ->]|[D ->]]); [reflexivity|].
      destruct r; reflexivity. }
    destruct (at_ s) eqn:E; try discriminate; try (inversion H; subst; reflexivity).
    + destruct (Nat.ltb i (length (ws s))); [|inversion H; subst; reflexivity].
      destruct ok; inversion H; subst; reflexivity.
    + destruct (Nat.ltb i (length (ws s))); [|inversion H; subst; reflexivity].
      apply (K _ _ _ _ H).
    + destruct (forallb exited (ws s)); inversion H; subst; reflexivity.
    + destruct (nth_error (ws s) i); [|inversion H; subst; reflexivity].
      destruct (exited w && negb (quit s)); [|inversion H; subst; reflexivity].
      destruct ok; inversion H; subst; reflexivity.
    + destruct (Nat.ltb i (length (ws s))); [|inversion H; subst; reflexivity].
      destruct (kill_at s i r (PHup (S i)) PLoop) as [s1|] eqn:K1; [|discriminate].
      rewrite <- (K _ _ _ _ K1). destruct (at_ s1); inversion H; subst; reflexivity.
Qed.

Lemma run_pidf s t s' : run s t = Some s' ->
  (pidf s' = true <-> pidf s = true /\ forall i, ~ In (AStop i) t).
Proof.
  revert s; induction t as [|a t IH]; intros s R; simpl in R.
  - inversion R; subst. simpl. tauto.
  - destruct (step s a) as [s1|] eqn:E; [|discriminate].
    rewrite (IH _ R), (step_pidf _ _ _ E). destruct a; simpl; split.
    all: try (intros [A B]; split; [exact A|]; intros j [X|X]; [discriminate|apply (B j X)]).
    all: try (intros [A B]; split; [exact A|]; intros j X; apply (B j); right; exact X).
    + intros [A _]. discriminate.
    + intros [_ B]. exfalso. apply (B i). left. reflexivity.
Qed.

(** commands reach the master as long as no worker has stopped on request *)
Theorem C87_partial : forall n t s stop, run (start n) t = Some s ->
  (forall i, ~ In (AStop i) t) ->
  command s stop = step s (if stop then AInt else AHup).
Proof.
  intros n t s stop R N. unfold command.
  assert (pidf s = true) as -> by (apply (run_pidf _ _ _ R); simpl; auto). reflexivity.
Qed.
Print Assumptions C87_partial.
Example C87_example : exists s, run (start 2) crash2 = Some s /\ (forall i, ~ In (AStop i) crash2).
Proof. eexists. split; [vm_compute; reflexivity|]. intros i; vm_compute; intuition discriminate. Qed.

(** after the first stop of a worker no command ever reaches the master again *)
Theorem C87_exact : forall n t s i stop, run (start n) t = Some s -> In (AStop i) t ->
  command s stop = Some s.
Proof.
  intros n t s i stop R N. unfold command. destruct (pidf s) eqn:P; auto.
  apply (run_pidf _ _ _ R) in P. destruct P as [_ P]. destruct (P i N).
Qed.
Print Assumptions C87_exact.

(** one reload is enough: master and worker are up again, a stop command does nothing *)
Definition reload1 : list act :=
  [go; go; AHup] ++ goes 6 ++ [AStop 0; ADeliver true false] ++ goes 6.
Theorem C87_refuted : exists s, run (start 1) reload1 = Some s /\ asleep s /\ ~ In AInt reload1 /\
  all_workers running s /\ quit s = false /\ command s true = Some s.
Proof.
  eexists. split; [vm_compute; reflexivity|]. split; [reflexivity|].
  split; [vm_compute; intuition discriminate|]. split; [|split; reflexivity].
  intros [|[|i]] x; simpl; intros H; inversion H; reflexivity.
Qed.
Print Assumptions C87_refuted.

(** ** C88: a reload request is acted upon *)
Lemma hup_loop2 k : forall s i, at_ s = PHup i -> (length (ws s) - i = k)%nat ->
  all_workers running s ->
  (forall j x, nth_error (ws s) j = Some x -> (j < i)%nat -> sent x = true) ->
  exists s', run s (goes (S k)) = Some s' /\ at_ s' = PLoop /\ all_workers running s' /\
    all_workers (fun x => sent x = true) s'.
Proof.
  induction k; intros s i E L W SE.
  - exists (set_pc (set_reload s false) PLoop). split; [|split; [reflexivity|split; [exact W|]]].
    + simpl. rewrite E. assert (Nat.ltb i (length (ws s)) = false) as -> by (apply Nat.ltb_ge; lia). reflexivity.
    + intros j x Hj. unfold_set. apply (SE _ _ Hj). apply nth_lt in Hj. lia.
  - destruct (nth_error (ws s) i) as [x|] eqn:N; [|apply nth_error_None in N; lia].
    set (s1 := set_pc (set_ws s (upd_nth (ws s) i (Wk KRun (exited x) true))) (PHup (S i))).
    assert (R1 : step s go = Some s1).
    { unfold go. cbn [step]. rewrite E.
      assert (Nat.ltb i (length (ws s)) = true) as -> by (apply Nat.ltb_lt; lia).
      unfold kill_at. rewrite N, (W _ _ N). reflexivity. }
    assert (L1 : length (ws s1) = length (ws s)) by (apply (step_len _ _ _ R1)).
    destruct (IHk s1 (S i)) as (s' & R & A & B).
    + reflexivity.
    + lia.
    + intros j y Hj. subst s1. unfold_set. apply upd_nth_inv in Hj as [[-> ->]|[Ne Hj]]; [reflexivity|eauto].
    + intros j y Hj Lj. subst s1. unfold_set. apply upd_nth_inv in Hj as [[-> ->]|[Ne Hj]]; [reflexivity|].
      apply (SE _ _ Hj). lia.
    + exists s'. split; [|auto].
      change (goes (S (S k))) with (go :: goes (S k)). cbn [run]. rewrite R1. exact R.
Qed.

Theorem C88_partial : forall n t s,
  run (start n) t = Some s -> forks_ok t -> ~ In AInt t -> asleep s -> all_workers running s ->
  exists m s', run s (AHup :: goes m) = Some s' /\ asleep s' /\
    all_workers running s' /\ all_workers (fun x => sent x = true) s'.
Proof.
  intros n t s R F NI E W. unfold asleep in *.
  assert (Q : quit s = false).
  { destruct (quit s) eqn:Q; auto. destruct (run_quit _ _ _ R (or_introl Q)) as [A|[A|A]]; try discriminate. tauto. }
  destruct (run_restart _ _ _ R F) as [[Z1 Z2 Z3] T].
  specialize (Z2 ltac:(unfold started; rewrite E; exact Logic.I)).
  set (s1 := set_pc (set_reload s true) PWake).
  assert (S1 : step s AHup = Some s1) by (cbn [step]; rewrite E; reflexivity).
  assert (exists m s3, run s1 (goes m) = Some s3 /\ at_ s3 = PHupT /\ reload s3 = true /\
            all_workers running s3) as (m1 & s3 & R3 & A3 & L3 & W3).
  { destruct (reap s) eqn:RP.
    - destruct (reap_loop (length (ws s)) (set_pc s1 (PReap 0)) 0 eq_refl Q) as (s3 & R3 & A3 & Q3 & C3).
      { subst s1. unfold_set. lia. }
      exists (2 + S (length (ws s)))%nat, s3.
      assert (R2 : run s1 (goes 2) = Some (set_pc s1 (PReap 0))) by (simpl; rewrite Q; simpl; rewrite RP; reflexivity).
      rewrite (run_goes _ _ _ _ R2). split; [exact R3|]. split; [exact A3|]. split.
      + assert (RL : forall k s i s', run s (goes k) = Some s' -> at_ s = PReap i ->
                   (exists i', at_ s' = PReap i') \/ at_ s' = PHupT -> reload s' = reload s).
        { clear. induction k; intros s i s' R A X; simpl in R; [inversion R; subst; auto|].
          rewrite A in R. destruct (nth_error (ws s) i) eqn:N.
          - destruct (exited w && negb (quit s)); simpl in R; (erewrite (IHk _ (S i) _ R); [reflexivity|reflexivity|exact X]).
          - clear IHk. destruct k; simpl in R; [inversion R; reflexivity|].
            unfold_set. destruct (reload s) eqn:RS.
            + clear - R X. exfalso.
              assert (forall k s s', run s (goes k) = Some s' ->
                 (exists i, at_ s = PHup i) \/ at_ s = PLoop \/ at_ s = PSusp ->
                 (exists i, at_ s' = PHup i) \/ at_ s' = PLoop \/ at_ s' = PSusp) as G.
              { clear. induction k; intros s s' R A; simpl in R; [inversion R; subst; auto|].
                destruct A as [[i A]|[A|A]]; rewrite A in R; try discriminate.
                - destruct (Nat.ltb i (length (ws s))) eqn:L.
                  + destruct (kill_at s i false (PHup (S i)) PLoop) as [s1|] eqn:K; [|discriminate].
                    apply kill_keeps in K as (_ & _ & _ & [K|K]); rewrite K in R.
                    * apply (IHk _ _ R). left; eauto.
                    * apply (IHk _ _ R). right. left. exact K.
                  + apply (IHk _ _ R). right. left. reflexivity.
                - apply (IHk _ _ R). right. right. reflexivity. }
              apply G in R; [|left; exists 0%nat; reflexivity].
              destruct X as [[i' X]|X]; destruct R as [[i2 R]|[R|R]]; congruence.
            + exfalso. destruct k; simpl in R.
              * inversion R; subst. simpl in X. destruct X as [[i' X]|X]; discriminate.
              * destruct k; simpl in R; inversion R; subst. simpl in X. destruct X as [[i' X]|X]; discriminate. }
        rewrite (RL _ _ 0%nat _ R3 eq_refl (or_intror A3)). reflexivity.
      + intros j y Hj. rewrite C3 in Hj. cbn [Nat.ltb Nat.leb] in Hj. subst s1. unfold_set.
        destruct (nth_error (ws s) j) as [x|] eqn:N; [|discriminate]. simpl in Hj. inversion Hj; subst.
        unfold fixw, running. destruct (exited x) eqn:EX; [reflexivity|apply (W _ _ N)].
    - exists 2%nat, (set_pc s1 PHupT). split; [|split; [reflexivity|split; [reflexivity|exact W]]].
      simpl. rewrite Q. simpl. rewrite RP. reflexivity. }
  destruct (hup_loop2 (length (ws s3)) (set_pc s3 (PHup 0)) 0 eq_refl) as (s5 & R5 & A5 & W5 & E5).
  { unfold_set. lia. }
  { exact W3. }
  { intros; lia. }
  exists (m1 + (1 + (S (length (ws s3)) + 1)))%nat, (set_pc s5 PSusp).
  split; [|split; [reflexivity|split; [exact W5|exact E5]]].
  cbn [run]. rewrite S1, (run_goes _ _ _ _ R3).
  assert (S4 : run s3 (goes 1) = Some (set_pc s3 (PHup 0))) by (simpl; rewrite A3, L3; reflexivity).
  rewrite (run_goes _ _ _ _ S4), (run_goes _ _ _ _ R5). simpl. rewrite A5. reflexivity.
Qed.
Print Assumptions C88_partial.

Example C88_example : exists s, run (start 2) up2 = Some s /\ forks_ok up2 /\ ~ In AInt up2 /\
  asleep s /\ all_workers running s.
Proof.
  eexists. split; [vm_compute; reflexivity|].
  split; [intros r; vm_compute; intuition discriminate|].
  split; [vm_compute; intuition discriminate|]. split; [reflexivity|].
  intros [|[|[|i]]] x; simpl; intros H; inversion H; reflexivity.
Qed.

(** SIGHUP is not blocked: arriving between the test of the flag and sigsuspend it is
    recorded but the master goes to sleep, with no signal pending that would wake it *)
Definition lost_hup : list act := up2 ++ [AOther; go; go; go; AHup; go].
Theorem C88_refuted : exists s, run (start 2) lost_hup = Some s /\ In AHup lost_hup /\ asleep s /\
  pchld s = false /\ pint s = false /\ (forall ok r, step s (AGo ok r) = None) /\
  (forall c k, step s (ADeliver c k) = None) /\
  all_workers (fun x => running x /\ sent x = false) s.
Proof.
  eexists. split; [vm_compute; reflexivity|]. split; [vm_compute; tauto|].
  split; [reflexivity|]. split; [reflexivity|]. split; [reflexivity|]. split; [reflexivity|].
  split; [intros [] []; reflexivity|].
  intros [|[|[|i]]] x; simpl; intros H; inversion H; split; reflexivity.
Qed.
Print Assumptions C88_refuted.
