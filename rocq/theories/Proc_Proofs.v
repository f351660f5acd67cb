(** * Invariants of the master loop *)
From Verif Require Import Base Proc_Model.

Lemma upd_nth_len {A} (l : list A) i a : length (upd_nth l i a) = length l.
Proof. revert i; induction l; intros [|i]; simpl; auto. Qed.

Lemma upd_nth_same {A} (l : list A) i a :
  (i < length l)%nat -> nth_error (upd_nth l i a) i = Some a.
Proof. revert i; induction l; intros [|i] H; simpl in *; try lia; auto. apply IHl. lia. Qed.

Lemma upd_nth_other {A} (l : list A) i j a :
  i <> j -> nth_error (upd_nth l i a) j = nth_error l j.
Proof. revert i j; induction l; intros [|i] [|j] H; simpl in *; try lia; auto. Qed.

Lemma upd_nth_inv {A} (l : list A) i a j x :
  nth_error (upd_nth l i a) j = Some x ->
  (j = i /\ x = a) \/ (j <> i /\ nth_error l j = Some x).
Proof.
  intros H. destruct (Nat.eq_dec i j).
  - subst. left. split; auto. rewrite upd_nth_same in H; [congruence|].
    rewrite <- (upd_nth_len l j a). apply nth_error_Some. congruence.
  - right. rewrite upd_nth_other in H; auto.
Qed.

Lemma wait_all_nth w j :
  nth_error (wait_all w) j =
  option_map (fun x => match wst x with KZomb => Wk KGone true (sent x) | _ => x end) (nth_error w j).
Proof. unfold wait_all. apply nth_error_map. Qed.

Lemma wait_all_inv w j x :
  nth_error (wait_all w) j = Some x ->
  exists y, nth_error w j = Some y /\
    ((wst y = KZomb /\ x = Wk KGone true (sent y)) \/ (wst y <> KZomb /\ x = y)).
Proof.
  rewrite wait_all_nth. destruct (nth_error w j) as [y|]; simpl; [|discriminate].
  intros H. exists y. split; auto. destruct (wst y) eqn:E; inversion H; subst; auto;
    right; split; auto; congruence.
Qed.

(** the invariant *)
Definition slot (s : ms) (i : nat) (x : wk) : Prop := nth_error (ws s) i = Some x.

Definition phase (s : ms) : Prop :=
  match at_ s with
  | PFork k => quit s = false /\ reap s = false /\
      forall i x, slot s i x -> exited x = false /\
        ((i < k)%nat -> wst x = KRun \/ wst x = KZomb) /\ ((k <= i)%nat -> wst x = KNone)
  | PQuit _ | PAlive => quit s = true
  | PEnd => quit s = true /\ forall i x, slot s i x -> exited x = true
  | _ => True
  end.

Definition started (s : ms) : Prop := match at_ s with PFork _ => False | _ => True end.

Record inv (s : ms) : Prop := Inv {
  iz : forall i x, slot s i x -> wst x = KZomb -> pchld s = true;
  is_ : started s -> forall i x, slot s i x -> wst x <> KNone /\ (exited x = true <-> wst x = KGone);
  ip : phase s }.

Definition start_fork_fails (s : ms) (a : act) : Prop :=
  exists i r, at_ s = PFork i /\ (i < length (ws s))%nat /\ a = AGo false r.

Lemma inv_start n : inv (start n).
Proof.
  assert (R : forall i x, slot (start n) i x -> x = Wk KNone false false).
  { intros i x H. unfold slot in H. simpl in H. apply nth_error_In in H. apply repeat_spec in H. exact H. }
  constructor.
  - intros i x H E. rewrite (R _ _ H) in E. discriminate.
  - intros [].
  - simpl. repeat split; auto; rewrite (R _ _ H); auto; intros; lia.
Qed.

Ltac unfold_set := unfold set_ws, set_pc, set_reap, set_reload, set_pidf, set_stray, set_pchld, set_pint, set_quit in *;
  cbn [ws quit reap reload pchld pint at_ pidf stray] in *.

Lemma nth_lt {A} (l : list A) i x : nth_error l i = Some x -> (i < length l)%nat.
Proof. intros H. apply nth_error_Some. congruence. Qed.

(** an exit of a running worker changes its slot only *)
Lemma inv_exit s i e g pf :
  inv s -> slot s i (Wk KRun e g) ->
  inv (Ms (upd_nth (ws s) i (Wk KZomb e g)) (quit s) (reap s) (reload s) true (pint s) (at_ s) pf (stray s)).
Proof.
  intros [Z1 Z2 Z3] Hs. constructor; unfold slot, started, phase in *; cbn [ws quit reap reload pchld pint at_ pidf stray] in *.
  - auto.
  - intros St j x Hj. apply upd_nth_inv in Hj as [[-> ->]|[Ne Hj]].
    + simpl. destruct (Z2 St i _ Hs) as [_ Q]. simpl in Q.
      split; [discriminate|]. split; [intros E; apply Q in E; discriminate|discriminate].
    + apply (Z2 St j _ Hj).
  - destruct (at_ s); auto.
    + destruct Z3 as (A & B & C). repeat split; auto.
      * apply upd_nth_inv in H as [[-> ->]|[Ne H]]; simpl; [apply (C i _ Hs)|apply (C _ _ H)].
      * intros L. apply upd_nth_inv in H as [[-> ->]|[Ne H]]; simpl; auto. apply (C _ _ H); auto.
      * intros L. apply upd_nth_inv in H as [[-> ->]|[Ne H]]; simpl.
        -- destruct (C i _ Hs) as (_ & _ & N). specialize (N L). discriminate.
        -- apply (C _ _ H); auto.
    + destruct Z3 as [A B]. split; auto. intros j x Hj.
      apply upd_nth_inv in Hj as [[-> ->]|[Ne Hj]]; [apply (B i _ Hs)|apply (B _ _ Hj)].
Qed.

Lemma kill_at_inv s i r nx fl s' :
  kill_at s i r nx fl = Some s' ->
  exists x, slot s i x /\
   (((wst x = KRun \/ wst x = KZomb) /\
      s' = set_pc (set_ws s (upd_nth (ws s) i (Wk (wst x) (exited x) true))) nx) \/
    ((wst x = KGone \/ wst x = KNone) /\
      s' = if r then set_pc (set_stray s true) nx else set_pc s fl)).
Proof.
  unfold kill_at, slot. destruct (nth_error (ws s) i) as [x|]; [|discriminate].
  intros H. exists x. split; auto. destruct (wst x); inversion H; subst; auto; right; split; auto;
  destruct r; inversion H; auto.
Qed.

(** statements that leave the slots' states alone *)
Lemma inv_kill s i x p b :
  inv s -> started s -> slot s i x -> (wst x = KRun \/ wst x = KZomb) ->
  match p with PQuit _ | PAlive => quit s = true | PEnd | PFork _ => False | _ => True end ->
  inv (set_pc (set_stray (set_ws s (upd_nth (ws s) i (Wk (wst x) (exited x) true))) b) p).
Proof.
  intros [Z1 Z2 Z3] St Hs Hr Hp. constructor; unfold slot in *; unfold_set.
  - intros j y Hj. apply upd_nth_inv in Hj as [[-> ->]|[Ne Hj]]; [apply (Z1 i x Hs)|apply (Z1 _ _ Hj)].
  - intros _ j y Hj. apply upd_nth_inv in Hj as [[-> ->]|[Ne Hj]]; [apply (Z2 St i x Hs)|apply (Z2 St _ _ Hj)].
  - destruct p; simpl in *; auto; contradiction.
Qed.

Lemma inv_pc s p b :
  inv s -> started s ->
  match p with PQuit _ | PAlive => quit s = true
             | PEnd => quit s = true /\ forall i x, slot s i x -> exited x = true
             | PFork _ => False | _ => True end ->
  inv (set_pc (set_stray s b) p).
Proof.
  intros [Z1 Z2 Z3] St Hp. constructor; unfold slot in *; unfold_set; [exact Z1|intros _; exact (Z2 St)|].
  destruct p; try contradiction; exact Hp || exact Logic.I.
Qed.

Lemma inv_flags s q1 q2 q3 pi pf :
  inv s -> (started s \/ (q1 = quit s /\ q2 = reap s)) ->
  (quit s = true -> q1 = true) ->
  inv (Ms (ws s) q1 q2 q3 (pchld s) pi (at_ s) pf (stray s)).
Proof.
  intros [Z1 Z2 Z3] St Hq. constructor; unfold slot, started, phase in *; cbn [ws quit reap reload pchld pint at_ pidf stray] in *; auto.
  destruct (at_ s); auto.
  - destruct St as [[]|[-> ->]]. exact Z3.
  - destruct Z3; auto.
Qed.

Lemma inv_fork s i p :
  inv s -> (i < length (ws s))%nat -> started s ->
  match p with PReap _ => True | _ => False end ->
  inv (set_pc (set_ws s (upd_nth (ws s) i (Wk KRun false false))) p).
Proof.
  intros [Z1 Z2 Z3] L St Hp. constructor; unfold slot in *; unfold_set.
  - intros j y Hj. apply upd_nth_inv in Hj as [[-> ->]|[Ne Hj]]; [discriminate|apply (Z1 _ _ Hj)].
  - intros _ j y Hj. apply upd_nth_inv in Hj as [[-> ->]|[Ne Hj]].
    + simpl. split; [discriminate|]. split; discriminate.
    + apply (Z2 St _ _ Hj).
  - destruct p; simpl in *; auto; contradiction.
Qed.

Lemma set_stray_same s : set_stray s (stray s) = s.
Proof. destruct s; reflexivity. Qed.

Lemma inv_step s a s' :
  inv s -> step s a = Some s' -> inv s' \/ start_fork_fails s a.
Proof.
  intros I H. destruct a as [i|i| | | |c k|ok r]; simpl in H.
  - left. destruct (nth_error (ws s) i) as [[[] e g]|] eqn:E; inversion H; subst. unfold_set.
    apply (inv_exit s i e g); auto.
  - left. destruct (nth_error (ws s) i) as [[[] e []]|] eqn:E; inversion H; subst. unfold_set.
    apply (inv_exit s i e true); auto.
  - left. inversion H; subst. unfold_set. apply inv_flags; auto.
  - left. inversion H; subst. clear H.
    destruct (at_ s) eqn:E;
      try (unfold_set; rewrite <- ?E; apply inv_flags; auto; fail).
    replace (set_pc (set_reload s true) PWake)
      with (set_pc (set_stray (set_reload s true) (stray s)) PWake) by (destruct s; reflexivity).
    apply inv_pc; simpl; auto.
    + unfold set_reload. apply inv_flags; auto.
    + unfold started. simpl. rewrite E. exact Logic.I.
  - left. destruct (at_ s) eqn:E; inversion H; subst; auto.
    replace (set_pc s PWake) with (set_pc (set_stray s (stray s)) PWake) by (destruct s; reflexivity).
    apply inv_pc; simpl; auto. unfold started. rewrite E. exact Logic.I.
  - left. destruct (at_ s) eqn:E; try discriminate.
    destruct (implb c (pchld s) && implb k (pint s) && (c || k)) eqn:B; [|discriminate].
    inversion H; subst; clear H.
    assert (St : started s) by (unfold started; rewrite E; exact Logic.I).
    assert (W : inv (Ms (wait_all (ws s)) (quit s) true (reload s) false (pint s) PWake (pidf s) (stray s))).
    { destruct I as [Z1 Z2 Z3]. constructor; unfold slot in *; cbn [ws quit reap reload pchld pint at_ pidf stray].
      - intros i x Hi Ez. apply wait_all_inv in Hi as (y & Hy & [[A ->]|[A ->]]); [discriminate|].
        congruence.
      - intros _ i x Hi. apply wait_all_inv in Hi as (y & Hy & [[A ->]|[A ->]]).
        + simpl. split; [discriminate|]. tauto.
        + apply (Z2 St _ _ Hy).
      - simpl. exact Logic.I. }
    assert (W2 : inv (Ms (ws s) (quit s) (reap s) (reload s) (pchld s) (pint s) PWake (pidf s) (stray s))).
    { destruct I as [Z1 Z2 Z3]. constructor; unfold slot in *; cbn [ws quit reap reload pchld pint at_ pidf stray].
      - exact Z1.
      - intros _. exact (Z2 St).
      - exact Logic.I. }
    destruct c, k; unfold_set; try discriminate.
    + apply (inv_flags _ true true (reload s) false (pidf s)) in W; auto. left; exact Logic.I.
    + exact W.
    + apply (inv_flags _ true (reap s) (reload s) false (pidf s)) in W2; auto. left; exact Logic.I.
  - destruct (at_ s) eqn:E; try discriminate.
    + (* PFork *)
      destruct (Nat.ltb i (length (ws s))) eqn:L.
      * apply Nat.ltb_lt in L. destruct ok.
        -- left. inversion H; subst; clear H.
           destruct I as [Z1 Z2 Z3]. unfold phase in Z3. rewrite E in Z3. destruct Z3 as (A & B & C).
           constructor; unfold slot in *; unfold_set.
           ++ intros j y Hj. apply upd_nth_inv in Hj as [[-> ->]|[Ne Hj]]; [discriminate|apply (Z1 _ _ Hj)].
           ++ intros [].
           ++ simpl. repeat split; auto.
              ** apply upd_nth_inv in H as [[-> ->]|[Ne H]]; simpl; auto. apply (C _ _ H).
              ** intros L'. apply upd_nth_inv in H as [[-> ->]|[Ne H]]; simpl; auto. apply (C _ _ H). lia.
              ** intros L'. apply upd_nth_inv in H as [[-> ->]|[Ne H]]; simpl; [lia|]. apply (C _ _ H). lia.
        -- right. exists i, r. repeat split; auto.
      * left. apply Nat.ltb_ge in L. inversion H; subst; clear H.
        destruct I as [Z1 Z2 Z3]. unfold phase in Z3. rewrite E in Z3. destruct Z3 as (A & B & C).
        constructor; unfold slot in *; unfold_set; auto; [|simpl; exact Logic.I].
        intros _ j y Hj. pose proof (nth_lt _ _ _ Hj). destruct (C _ _ Hj) as (D1 & D2 & D3).
        destruct D2 as [D|D]; [lia| |]; rewrite D, D1; split; try discriminate; split; discriminate.
    + (* PWake *)
      left. inversion H; subst; clear H.
      rewrite <- (set_stray_same s) at 1.
      apply inv_pc; auto.
      * unfold started. rewrite E. exact Logic.I.
      * destruct (quit s); exact Logic.I || reflexivity.
    + (* PQuit *)
      left.
      assert (Q : quit s = true) by (destruct I as [_ _ Z3]; unfold phase in Z3; rewrite E in Z3; exact Z3).
      assert (St : started s) by (unfold started; rewrite E; exact Logic.I).
      destruct (Nat.ltb i (length (ws s))) eqn:L.
      * apply kill_at_inv in H as (x & Hx & [[D ->]|[D ->]]).
        -- pose proof (inv_kill s i x (PQuit (S i)) (stray s) I St Hx D Q) as K.
           replace (set_pc (set_ws s (upd_nth (ws s) i (Wk (wst x) (exited x) true))) (PQuit (S i)))
             with (set_pc (set_stray (set_ws s (upd_nth (ws s) i (Wk (wst x) (exited x) true))) (stray s)) (PQuit (S i)))
             by reflexivity. exact K.
        -- destruct r; [apply inv_pc; auto|].
           rewrite <- (set_stray_same s). apply inv_pc; auto.
      * inversion H; subst. rewrite <- (set_stray_same s). apply inv_pc; auto.
    + (* PAlive *)
      left.
      assert (Q : quit s = true) by (destruct I as [_ _ Z3]; unfold phase in Z3; rewrite E in Z3; exact Z3).
      assert (St : started s) by (unfold started; rewrite E; exact Logic.I).
      destruct (forallb exited (ws s)) eqn:F; inversion H; subst; rewrite <- (set_stray_same s); apply inv_pc; auto.
      split; auto. intros i x Hx. rewrite forallb_forall in F. apply F. unfold slot in Hx. eapply nth_error_In; eauto.
    + (* PReapT *)
      left. inversion H; subst. rewrite <- (set_stray_same s) at 1. apply inv_pc; auto.
      * unfold started. rewrite E. exact Logic.I.
      * destruct (reap s); exact Logic.I.
    + (* PReap *)
      left. assert (St : started s) by (unfold started; rewrite E; exact Logic.I).
      assert (N : inv (set_pc s (PReap (S i)))).
      { rewrite <- (set_stray_same s). apply inv_pc; auto. }
      destruct (nth_error (ws s) i) as [x|] eqn:Hx.
      * destruct (exited x && negb (quit s)); [|inversion H; subst; auto].
        destruct ok; inversion H; subst; auto.
        apply inv_fork; auto. apply (nth_lt _ _ _ Hx).
      * inversion H; subst.
        replace (set_pc (set_reap s false) PHupT)
          with (set_pc (set_stray (set_reap s false) (stray s)) PHupT) by (destruct s; reflexivity).
        apply inv_pc; auto. unfold set_reap. apply inv_flags; auto.
    + (* PHupT *)
      left. inversion H; subst. rewrite <- (set_stray_same s) at 1. apply inv_pc; auto.
      * unfold started. rewrite E. exact Logic.I.
      * destruct (reload s); exact Logic.I.
    + (* PHup *)
      left. assert (St : started s) by (unfold started; rewrite E; exact Logic.I).
      destruct (Nat.ltb i (length (ws s))) eqn:L.
      * destruct (kill_at s i r (PHup (S i)) PLoop) as [s1|] eqn:K; [|discriminate].
        assert (I1 : inv s1 /\ started s1).
        { apply kill_at_inv in K as (x & Hx & [[D ->]|[D ->]]).
          - split; [|exact Logic.I].
            pose proof (inv_kill s i x (PHup (S i)) (stray s) I St Hx D Logic.I) as K.
            exact K.
          - destruct r; (split; [|exact Logic.I]); [apply inv_pc; auto|].
            rewrite <- (set_stray_same s). apply inv_pc; auto. }
        destruct I1 as [I1 St1].
        destruct (at_ s1) eqn:E1; inversion H; subst; auto.
        unfold set_reload. rewrite <- E1 in *. apply inv_flags; auto.
      * inversion H; subst.
        replace (set_pc (set_reload s false) PLoop)
          with (set_pc (set_stray (set_reload s false) (stray s)) PLoop) by (destruct s; reflexivity).
        apply inv_pc; auto. unfold set_reload. apply inv_flags; auto.
    + (* PLoop *)
      left. inversion H; subst. rewrite <- (set_stray_same s). apply inv_pc; auto.
      unfold started. rewrite E. exact Logic.I.
Qed.
