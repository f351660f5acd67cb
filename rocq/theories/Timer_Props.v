(** * Theorems about timers: C13-C15 *)
From Coq Require FinFun.
From Verif Require Import Base Heap_Model Heap_Proofs Timer_Model.
Local Arguments Z.add : simpl never.
Local Arguments Z.sub : simpl never.
Local Arguments Z.mul : simpl never.
Local Arguments Z.div : simpl never.
Ltac Zify.zify_post_hook ::= Z.div_mod_to_equations.

(** ** Specification: the deadline a timer has after a history of events.
    [Some k]: it was armed successfully to fire at [k] and since then neither armed
    again, cancelled nor fired. *)
Definition deadline1 (x : Z) (cur : option Z) (e : tev) : option Z :=
  match e with
  | EArm y d t ok => if y =? x then (if ok then Some (t + d) else None) else cur
  | EDel y => if y =? x then None else cur
  | EFire y _ => if y =? x then None else cur
  | _ => cur
  end.
Definition deadline (es : list tev) (x : Z) : option Z := fold_left (deadline1 x) es None.

(** the table was never full when a timer was armed *)
Definition accepted (e : tev) : Prop := match e with EArm _ _ _ ok => ok = true | _ => True end.

Lemma deadline_app es e x : deadline (es ++ [e]) x = deadline1 x (deadline es x) e.
Proof. unfold deadline. rewrite fold_left_app. reflexivity. Qed.

(** what [deadline] means, in terms of the events themselves *)
Definition about (x : Z) (e : tev) : Prop :=
  match e with EArm y _ _ _ | EDel y | EFire y _ => y = x | _ => False end.
Lemma deadline_meaning x k : forall es, deadline es x = Some k <->
  exists g1 d t g2, es = g1 ++ EArm x d t true :: g2 /\ k = t + d /\ Forall (fun e => ~ about x e) g2.
Proof.
  intros es. split.
  - revert k. induction es as [|e es IH] using rev_ind; intros k H; [discriminate|]. rewrite deadline_app in H.
    assert (OLD : deadline es x = Some k -> ~ about x e ->
      exists g1 d t g2, es ++ [e] = g1 ++ EArm x d t true :: g2 /\ k = t + d /\ Forall (fun e => ~ about x e) g2).
    { intros D A. destruct (IH k D) as (g1 & d & t & g2 & -> & K & F). exists g1, d, t, (g2 ++ [e]).
      rewrite <- app_assoc. split; [reflexivity|]. split; [exact K|]. apply Forall_app. split; [exact F|]. constructor; auto. }
    destruct e as [t|y d t ok|y| |y t|w t]; simpl in H.
    + apply OLD; auto.
    + destruct (Z.eqb_spec y x) as [->|N].
      * destruct ok; [|discriminate]. injection H as <-. exists es, d, t, []. auto.
      * apply OLD; auto.
    + destruct (Z.eqb_spec y x) as [->|N]; [discriminate|]. apply OLD; auto.
    + apply OLD; auto.
    + destruct (Z.eqb_spec y x) as [->|N]; [discriminate|]. apply OLD; auto.
    + apply OLD; auto.
  - intros (g1 & d & t & g2 & -> & -> & F). unfold deadline. rewrite fold_left_app. simpl. rewrite Z.eqb_refl.
    clear g1. induction g2 as [|e g2 IH]; [reflexivity|]. simpl. pose proof (Forall_inv F) as A.
    replace (deadline1 x (Some (t + d)) e) with (Some (t + d)).
    + apply IH. exact (Forall_inv_tail F).
    + destruct e as [|y ? ? ?|y| |y ?|]; simpl in *; auto; destruct (Z.eqb_spec y x); auto; contradiction.
Qed.

(** ** Invariant *)
Definition TI (s : tst) (es : list tev) : Prop :=
  hwf (t_heap s) /\
  forall x, match deadline es x with
            | Some k => inh (t_heap s) x /\ hkey (t_heap s) x = k /\ t_set s x = true
            | None => ~ inh (t_heap s) x /\ t_set s x = false
            end.

Lemma TI_del s es x e : TI s es -> (forall c y, deadline1 y c e = if x =? y then None else c) ->
  exists s', tm_del s x = Ok s' /\ TI s' (es ++ [e]) /\ t_now s' = t_now s /\ t_running s' = t_running s /\
    hspace (t_heap s') = hspace (t_heap s) /\ t_set s' x = false /\ ~ inh (t_heap s') x /\
    (hord (t_heap s) -> t_set s x = false \/ fits_below (t_heap s) x -> hord (t_heap s')).
Proof.
  intros (W & I) D. unfold tm_del. pose proof (I x) as IX. destruct (t_set s x) eqn:SX.
  - destruct (deadline es x) as [k|] eqn:DX; [|destruct IX; congruence]. destruct IX as (IN & K & _).
    destruct (heap_del_spec (t_heap s) x W IN) as (h' & E & W' & M & KK & N & SP & O). rewrite E. cbn [bind snd].
    eexists. split; [reflexivity|]. split; [|simpl; repeat split; auto].
    + split; [exact W'|]. simpl. intros y. rewrite deadline_app, D. specialize (I y). destruct (Z.eqb_spec x y) as [<-|NE].
      * split; [|apply upd_same]. intros Y. apply M in Y. tauto.
      * rewrite upd_other by congruence. destruct (deadline es y) as [ky|].
        -- destruct I as (I1 & I2 & I3). split; [apply M; auto|]. split; [rewrite KK; exact I2|exact I3].
        -- destruct I as (I1 & I2). split; [|exact I2]. intros Y. apply M in Y. tauto.
    + apply upd_same.
    + intros Y. apply M in Y. tauto.
    + intros O1 [Q|Q]; [congruence|]. apply O; auto.
  - exists s. split; [reflexivity|].
    assert (DX : deadline es x = None) by (destruct (deadline es x); [destruct IX as (_ & _ & ?); congruence|reflexivity]).
    rewrite DX in IX. split; [|split; [reflexivity|split; [reflexivity|split; [reflexivity|split; [exact SX|split; [tauto|auto]]]]]].
    split; [exact W|]. intros y. rewrite deadline_app, D. destruct (Z.eqb_spec x y) as [<-|NE]; [rewrite SX; tauto|]. apply I.
Qed.

Lemma set_key_hord h x k : hwf h -> ~ inh h x -> hord h -> hord (set_key h x k).
Proof.
  intros (R & W) NM O j J. simpl in J. specialize (O j J). unfold slotkey in *. simpl.
  destruct (W j ltac:(lia)) as (y & E & X). destruct (W (j / 2) ltac:(lia)) as (y2 & E2 & X2).
  rewrite E, E2 in *. rewrite !upd_other; [exact O| |].
  - intros ->. apply NM. split; rewrite X; auto; lia.
  - intros ->. apply NM. split; rewrite X2; auto; lia.
Qed.

Lemma TI_arm s es x d : TI s es ->
  exists ok s', tm_add s x d = Ok (ok, s') /\ t_now s' = t_now s /\ t_running s' = t_running s /\
    hspace (t_heap s') = hspace (t_heap s) /\ hwf (t_heap s') /\
    (ok = true -> TI s' (es ++ [EArm x d (t_now s) true])) /\
    (hord (t_heap s) -> t_set s x = false \/ fits_below (t_heap s) x -> hord (t_heap s')).
Proof.
  intros T. unfold tm_add. destruct (TI_del s es x (EDel x) T) as (s1 & E1 & T1 & NOW & RUN & SP & S1 & N1 & O1).
  { intros c y. simpl. reflexivity. }
  rewrite E1. cbn [bind]. destruct T1 as (W1 & I1).
  assert (W2 : hwf (set_key (t_heap s1) x (t_now s1 + d))) by exact W1.
  assert (N2 : ~ inh (set_key (t_heap s1) x (t_now s1 + d)) x) by exact N1.
  destruct (Z_lt_ge_dec (hn (t_heap s1)) (hspace (t_heap s1))) as [L|L].
  - destruct (heap_add_spec _ x W2 N2) as (h' & E & W' & M & KK & N & SP' & O); [exact L|].
    rewrite E. cbn [bind fst snd]. eexists true, _. split; [reflexivity|]. simpl.
    split; [exact NOW|]. split; [exact RUN|]. split; [rewrite SP'; exact SP|]. split; [exact W'|]. split.
    + intros _. split; [exact W'|]. simpl. intros y. rewrite deadline_app. simpl. specialize (I1 y). rewrite deadline_app in I1. simpl in I1.
      destruct (Z.eqb_spec x y) as [EQ|NE]; [subst y|].
      * split; [apply M; auto|]. rewrite KK. simpl. split; [rewrite upd_same, NOW; reflexivity|apply upd_same].
      * rewrite upd_other by congruence. destruct (deadline es y) as [ky|].
        -- destruct I1 as (A & B & C). split; [apply M; left; exact A|]. split; [|exact C]. rewrite KK. simpl. rewrite upd_other by congruence. exact B.
        -- destruct I1 as (A & B). split; [|exact B]. intros Y. apply M in Y as [Y|Y]; [exact (A Y)|congruence].
    + intros HO C. apply O. apply set_key_hord; auto.
  - rewrite heap_add_full by (simpl; lia). cbn [bind fst snd]. eexists false, _. split; [reflexivity|]. simpl.
    split; [exact NOW|]. split; [exact RUN|]. split; [exact SP|]. split; [exact W1|]. split; [discriminate|].
    intros HO C. apply set_key_hord; auto.
Qed.

Lemma TI_skip s s' es e : TI s es -> t_heap s' = t_heap s -> t_set s' = t_set s -> (forall c y, deadline1 y c e = c) -> TI s' (es ++ [e]).
Proof. intros (W & I) E1 E2 D. split; [rewrite E1; exact W|]. intros y. rewrite deadline_app, D, E1, E2. apply I. Qed.

Lemma TI_step s es i : TI s es ->
  exists e s', tstep s i = Ok (e, s') /\ hspace (t_heap s') = hspace (t_heap s) /\ (accepted e -> TI s' (es ++ [e])) /\
    match e with
    | EFire x t => exists k, deadline es x = Some k /\ k <= t /\ t = t_now s
    | EDone w t => t = t_now s /\
        ((w = 200 /\ forall x, deadline es x = None) \/
         (exists x k, deadline es x = Some k /\ t < k /\ w = cast_int (k - t) /\ heap_min (t_heap s) = Ok (Some x)))
    | _ => True
    end.
Proof.
  intros T. destruct i as [t|x d|x| |]; simpl.
  - do 2 eexists. split; [reflexivity|]. split; [reflexivity|]. split; [|exact I].
    intros _. eapply TI_skip; eauto.
  - destruct (TI_arm s es x d T) as (ok & s' & E & NOW & _ & SP & _ & TT & _). rewrite E. cbn [bind fst snd].
    do 2 eexists. split; [reflexivity|]. split; [exact SP|]. split; [|exact I]. intros A. simpl in A. subst ok. auto.
  - destruct (TI_del s es x (EDel x) T) as (s1 & E1 & T1 & NOW & RUN & SP & _); [reflexivity|]. rewrite E1. cbn [bind].
    do 2 eexists. split; [reflexivity|]. split; [exact SP|]. split; [auto|exact I].
  - do 2 eexists. split; [reflexivity|]. split; [reflexivity|]. split; [|exact I]. intros _. eapply TI_skip; eauto.
  - unfold timer_iter. destruct (heap_min_ok (t_heap s) (proj1 T)) as (m & EM & MM). rewrite EM. cbn [bind]. destruct m as [x|].
    + destruct MM as (IN & ROOT). pose proof (proj2 T x) as IX. destruct (deadline es x) as [k|] eqn:DX; [|tauto].
      destruct IX as (_ & K & S). destruct (Z.ltb_spec (t_now s) (hkey (t_heap s) x)) as [L|L].
      * do 2 eexists. split; [reflexivity|]. split; [reflexivity|]. split; [intros _; eapply TI_skip; eauto|].
        split; [reflexivity|]. right. exists x, k. subst k. auto.
      * destruct (TI_del s es x (EFire x (t_now s)) T) as (s1 & E1 & T1 & NOW & RUN & SP & _); [reflexivity|]. rewrite E1. cbn [bind].
        do 2 eexists. split; [reflexivity|]. split; [exact SP|]. split; [auto|]. exists k. subst k. auto.
    + do 2 eexists. split; [reflexivity|]. split; [reflexivity|]. split; [intros _; eapply TI_skip; eauto|].
      split; [reflexivity|]. left. split; [reflexivity|]. intros x. pose proof (proj2 T x) as IX.
      destruct (deadline es x); [|reflexivity]. destruct IX as ((A & _) & _). lia.
Qed.

Lemma TI_init space : 0 <= space -> TI (timers0 space) [].
Proof.
  intros L. destruct (heap_create_wf space L) as (W & _ & E). split; [exact W|]. intros x. simpl. split; [apply E|reflexivity].
Qed.

(** the state after any prefix without refusals *)
Lemma TI_run : forall is s es0 es s', TI s es0 -> trun s is = Ok (es, s') -> Forall accepted es -> TI s' (es0 ++ es).
Proof.
  induction is as [|i is IH]; intros s es0 es s' T R F; simpl in R.
  - injection R as <- <-. rewrite app_nil_r. exact T.
  - apply bind_ok in R as ((e, s1) & R1 & R). apply bind_ok in R as ((es1, s2) & R2 & R). injection R as <- <-. simpl in *.
    destruct (TI_step s es0 i T) as (e' & s1' & E & _ & TT & _). rewrite R1 in E. injection E as <- <-.
    pose proof (IH s1 (es0 ++ [e]) es1 s2 (TT (Forall_inv F)) R2 (Forall_inv_tail F)) as X. rewrite <- app_assoc in X. exact X.
Qed.

Lemma trun_app : forall a b s es s', trun s (a ++ b) = Ok (es, s') ->
  exists e1 s1 e2, trun s a = Ok (e1, s1) /\ trun s1 b = Ok (e2, s') /\ es = e1 ++ e2.
Proof.
  induction a as [|i a IH]; intros b s es s' R; simpl in *.
  - exists [], s, es. auto.
  - apply bind_ok in R as ((e, s1) & R1 & R). apply bind_ok in R as ((es1, s2) & R2 & R). injection R as <- <-. simpl in *.
    destruct (IH _ _ _ _ R2) as (e1 & s3 & e2 & A & B & ->). rewrite R1. cbn [bind snd]. rewrite A. cbn [bind fst snd].
    exists (e :: e1), s3, e2. auto.
Qed.
Lemma trun_len : forall a s es s', trun s a = Ok (es, s') -> length es = length a.
Proof.
  induction a as [|i a IH]; intros s es s' R; simpl in R; [injection R as <- <-; reflexivity|].
  apply bind_ok in R as ((e, s1) & R1 & R). apply bind_ok in R as ((es1, s2) & R2 & R). injection R as <- <-. simpl. f_equal. eauto.
Qed.
(** split a run at an event *)
Lemma trun_split is s es s' h1 e h2 : trun s is = Ok (es, s') -> es = h1 ++ e :: h2 ->
  exists i1 i i2 s1 s2, is = i1 ++ i :: i2 /\ trun s i1 = Ok (h1, s1) /\ tstep s1 i = Ok (e, s2) /\ trun s2 i2 = Ok (h2, s').
Proof.
  intros R E. pose proof (trun_len _ _ _ _ R) as L. subst es. rewrite app_length in L. simpl in L.
  assert (EQ : is = firstn (length h1) is ++ skipn (length h1) is) by (symmetry; apply firstn_skipn).
  destruct (skipn (length h1) is) as [|i i2] eqn:SK.
  { apply (f_equal (@length _)) in EQ. rewrite app_length, firstn_length in EQ. simpl in EQ. lia. }
  rewrite EQ in R. destruct (trun_app _ _ _ _ _ R) as (e1 & s1 & e2 & A & B & C).
  pose proof (trun_len _ _ _ _ A) as LA. rewrite firstn_length in LA.
  simpl in B. apply bind_ok in B as ((e', s2) & B1 & B). apply bind_ok in B as ((es2, s3) & B2 & B). injection B as <- <-. simpl in *.
  assert (X : h1 = e1 /\ e :: h2 = e' :: es2).
  { assert (LE : length h1 = length e1) by lia. clear - C LE. revert e1 C LE. induction h1 as [|a h1 IH]; intros [|b e1] C LE; simpl in *; try discriminate; auto.
    injection C as -> C. injection LE as LE. destruct (IH _ C LE) as (-> & ?). auto. }
  destruct X as (-> & X). injection X as <- <-. exists (firstn (length e1) is), i, i2, s1, s2. auto.
Qed.

(** ** C13: timers never fire early, twice or after being cancelled *)
Theorem C13_no_spurious_fire : forall space is es s', 0 <= space ->
  trun (timers0 space) is = Ok (es, s') -> Forall accepted es ->
  forall h1 x t h2, es = h1 ++ EFire x t :: h2 ->
  exists g1 d t0 g2, h1 = g1 ++ EArm x d t0 true :: g2 /\ t0 + d <= t /\ Forall (fun e => ~ about x e) g2.
Proof.
  intros space is es s' L R F h1 x t h2 E.
  destruct (trun_split _ _ _ _ _ _ _ R E) as (i1 & i & i2 & s1 & s2 & -> & A & B & C).
  subst es. apply Forall_app in F as (F1 & F2).
  pose proof (TI_run _ _ [] _ _ (TI_init space L) A F1) as T.
  destruct (TI_step s1 ([] ++ h1) i T) as (e' & s2' & E & _ & _ & M). rewrite B in E. injection E as <- <-.
  destruct M as (k & D & K & _). apply deadline_meaning in D as (g1 & d & t0 & g2 & EQ & KK & FA).
  exists g1, d, t0, g2. split; [exact EQ|]. split; [lia|exact FA].
Qed.
Print Assumptions C13_no_spurious_fire.

(** no run faults, up to the first refused arming *)
Theorem C13_no_fault : forall space is, 0 <= space ->
  (exists es s', trun (timers0 space) is = Ok (es, s') /\ Forall accepted es) \/
  (exists i1 i2 es s', is = i1 ++ i2 /\ trun (timers0 space) i1 = Ok (es, s') /\ ~ Forall accepted es).
Proof.
  intros space is L. induction is as [|i is IH] using rev_ind.
  - left. exists [], (timers0 space). auto.
  - destruct IH as [(es & s' & R & F)|(i1 & i2 & es & s' & E & R & F)].
    + pose proof (TI_run _ _ [] _ _ (TI_init space L) R F) as T. destruct (TI_step s' _ i T) as (e & s2 & E & _).
      assert (R2 : trun (timers0 space) (is ++ [i]) = Ok (es ++ [e], s2)).
      { clear - R E. revert es R. generalize (timers0 space). induction is as [|j is IH]; intros s es R; simpl in *.
        - injection R as <- <-. rewrite E. reflexivity.
        - apply bind_ok in R as ((e1, s1) & R1 & R). apply bind_ok in R as ((es1, s3) & R2 & R). injection R as <- <-. simpl in *.
          rewrite R1. cbn [bind snd]. rewrite (IH _ _ R2). reflexivity. }
      assert (DEC : accepted e \/ ~ accepted e) by (destruct e as [|? ? ? []| | | |]; simpl; auto; right; discriminate).
      destruct DEC as [A|A].
      * left. exists (es ++ [e]), s2. split; [exact R2|]. apply Forall_app. split; [exact F|]. auto.
      * right. exists (is ++ [i]), [], (es ++ [e]), s2. rewrite app_nil_r. split; [reflexivity|]. split; [exact R2|].
        intros F'. apply Forall_app in F' as (_ & F'). exact (A (Forall_inv F')).
    + right. exists i1, (i2 ++ [i]), es, s'. subst is. rewrite <- app_assoc. auto.
Qed.
Print Assumptions C13_no_fault.

(** a callback (after the first fire) cancels one timer and re-arms another and itself *)
Definition tdemo : list tin :=
  [TTick 100; TArm 1 50; TArm 2 10; TArm 3 20; TTick 120; TExpire; TIter; TDel 3; TArm 1 200; TArm 2 5; TIter; TTick 125; TExpire; TIter; TIter].
Example C13_demo : exists s', trun (timers0 1536) tdemo =
  Ok ([ETick 100; EArm 1 50 100 true; EArm 2 10 100 true; EArm 3 20 100 true; ETick 120; EExpire; EFire 2 120; EDel 3;
       EArm 1 200 120 true; EArm 2 5 120 true; EDone 5 120; ETick 125; EExpire; EFire 2 125; EDone 195 125], s').
Proof.
  destruct (trun (timers0 1536) tdemo) as [[es s']| |] eqn:E.
  2, 3: exfalso; vm_compute in E; discriminate E.
  exists s'. do 2 f_equal.
  transitivity (match trun (timers0 1536) tdemo with Ok (o, h) => o | _ => [] end); [rewrite E; reflexivity|vm_compute; reflexivity].
Qed.

(** ** C14: every due timer fires *)
Definition C14_property : Prop := forall is es s',
  trun (timers0 1536) is = Ok (es, s') -> Forall accepted es -> tvalid false is es ->
  forall h1 w t h2 x k, es = h1 ++ EDone w t :: h2 -> deadline h1 x = Some k -> t < k /\ w <= k - t.

(** six timers; the fourth is cancelled and the last takes its place, out of order. At time 8
    timer 6 (due at 3) is overdue, but the run ends and asks to wait until 10. *)
Definition tbad : list tin :=
  [TArm 1 1; TArm 2 10; TArm 3 2; TArm 4 20; TArm 5 30; TArm 6 3; TDel 4; TArm 7 100; TTick 8; TExpire; TIter; TIter; TIter].
Theorem C14_due_timer_missed_refuted : exists es s',
  trun (timers0 1536) tbad = Ok (es, s') /\ Forall accepted es /\ tvalid false tbad es /\
  zdrop 10 es = [EFire 1 8; EFire 3 8; EDone 2 8] /\ deadline es 6 = Some 3.
Proof.
  destruct (trun (timers0 1536) tbad) as [[es s']| |] eqn:E.
  2, 3: exfalso; vm_compute in E; discriminate E.
  exists es, s'. split; [reflexivity|].
  assert (Q : es = match trun (timers0 1536) tbad with Ok (o, h) => o | _ => [] end) by (rewrite E; reflexivity).
  clear E. vm_compute in Q. subst es. repeat split; repeat constructor.
Qed.
Print Assumptions C14_due_timer_missed_refuted.

Theorem C14_refuted : ~ C14_property.
Proof.
  intros P. destruct C14_due_timer_missed_refuted as (es & s' & R & A & V & D & DL).
  assert (EQ : es = ztake 12 es ++ [EDone 2 8]).
  { rewrite <- (ztake_zdrop 12 es) at 1. f_equal. replace 12 with (2 + 10) by lia. rewrite <- zdrop_zdrop by lia. rewrite D. reflexivity. }
  assert (DL' : deadline (ztake 12 es) 6 = Some 3).
  { rewrite EQ in DL. rewrite deadline_app in DL. exact DL. }
  destruct (P _ _ _ R A V (ztake 12 es) 2 8 [] 6 3 EQ DL'). lia.
Qed.
Print Assumptions C14_refuted.

(** The timers of the program mostly share a few delays.  Equal delays and a clock that
    only moves forward do not help: here every arming asks for the same 60 s, and at 68 s
    the run fires timers 1 and 5 and goes to sleep for a second, although timer 7 is due. *)
Definition teq : list tin :=
  [TTick 1000; TArm 1 60000; TTick 2000; TArm 2 60000; TTick 3000; TArm 3 60000; TTick 4000; TArm 4 60000; TTick
   5000; TArm 5 60000; TTick 6000; TArm 6 60000; TTick 7000; TArm 5 60000; TTick 8000; TArm 7 60000; TTick 9000;
   TArm 8 60000; TTick 10000; TArm 3 60000; TTick 11000; TArm 4 60000; TTick 12000; TArm 6 60000; TTick 13000;
   TDel 2; TTick 14000; TArm 4 60000; TTick 68000; TExpire; TIter; TIter; TIter].
Definition same_delay (d : Z) (i : tin) : Prop := match i with TArm _ d' => d' = d | _ => True end.
Fixpoint forward (now : Z) (is : list tin) : Prop :=
  match is with [] => True | TTick t :: r => now <= t /\ forward t r | _ :: r => forward now r end.
Theorem C14_equal_delays_refuted : exists is d es s',
  trun (timers0 1536) is = Ok (es, s') /\ Forall accepted es /\ tvalid false is es /\
  Forall (same_delay d) is /\ forward 0 is /\
  exists h1 w t x k, es = h1 ++ [EDone w t] /\ deadline h1 x = Some k /\ k <= t /\ 0 < w.
Proof.
  exists teq, 60000. destruct (trun (timers0 1536) teq) as [[es s']| |] eqn:E.
  2, 3: exfalso; vm_compute in E; discriminate E.
  exists es, s'. split; [reflexivity|].
  assert (Q : es = match trun (timers0 1536) teq with Ok (o, h) => o | _ => [] end) by (rewrite E; reflexivity).
  clear E. vm_compute in Q. split; [subst es; repeat constructor|]. split; [subst es; repeat split|].
  split; [repeat constructor|]. split; [simpl; lia|].
  exists (ztake 32 es), 1000, 68000, 7, 68000. subst es. split; [vm_compute; reflexivity|].
  split; [vm_compute; reflexivity|lia].
Qed.
Print Assumptions C14_equal_delays_refuted.

(** What holds for every history: a run never ends while every armed timer is due. *)
Theorem C14_some_timer_waits_partial : forall space is es s', 0 <= space ->
  trun (timers0 space) is = Ok (es, s') -> Forall accepted es ->
  forall h1 w t h2, es = h1 ++ EDone w t :: h2 ->
  (forall x, deadline h1 x = None) \/ (exists x k, deadline h1 x = Some k /\ t < k).
Proof.
  intros space is es s' L R F h1 w t h2 E.
  destruct (trun_split _ _ _ _ _ _ _ R E) as (i1 & i & i2 & s1 & s2 & -> & A & B & C).
  subst es. apply Forall_app in F as (F1 & F2).
  pose proof (TI_run _ _ [] _ _ (TI_init space L) A F1) as T.
  destruct (TI_step s1 ([] ++ h1) i T) as (e' & s2' & E & _ & _ & M). rewrite B in E. injection E as <- <-.
  destruct M as (_ & [(_ & N)|(x & k & D & K & _)]); [left; exact N|right; eauto].
Qed.
Print Assumptions C14_some_timer_waits_partial.

(** The full property, for histories which cancel or re-arm a pending timer only while
    at most five timers are pending ([few]) or when no pending timer is due before that
    one ([earliest]).  The bound is tight: [tbad] above has six. *)
Definition few (es : list tev) : Prop :=
  exists l, zlen l <= 5 /\ forall x, deadline es x <> None -> In x l.
Definition earliest (es : list tev) (x : Z) : Prop :=
  forall k y ky, deadline es x = Some k -> deadline es y = Some ky -> k <= ky.
Fixpoint gentle (es0 es : list tev) : Prop :=
  match es with
  | [] => True
  | e :: r => match e with EArm x _ _ _ | EDel x => deadline es0 x = None \/ few es0 \/ earliest es0 x | _ => True end /\
      gentle (es0 ++ [e]) r
  end.

Lemma few_slots s es : TI s es -> few es -> hn (t_heap s) <= 5.
Proof.
  intros ((R & W) & I) (l & L & F).
  assert (P : incl (map Z.of_nat (seq 1 (Z.to_nat (hn (t_heap s))))) (map (hidx (t_heap s)) l)).
  { intros i Hi. apply in_map_iff in Hi as (n & <- & Hn). apply in_seq in Hn.
    destruct (W (Z.of_nat n)) as (x & E & X); [lia|]. apply in_map_iff. exists x. split; [exact X|].
    apply F. intros D. specialize (I x). rewrite D in I. destruct I as (I & _). apply I. split; rewrite X; [lia|exact E]. }
  apply NoDup_incl_length in P.
  - rewrite !map_length, seq_length in P. unfold zlen in L. lia.
  - apply FinFun.Injective_map_NoDup; [intros a b; lia|apply seq_NoDup].
Qed.

Lemma gentle_fits s es x : TI s es -> hord (t_heap s) ->
  deadline es x = None \/ few es \/ earliest es x -> t_set s x = false \/ fits_below (t_heap s) x.
Proof.
  intros T O G. pose proof (proj2 T x) as IX. destruct (deadline es x) as [k|] eqn:D; [|left; apply IX].
  right. destruct IX as (IN & K & _). pose proof T as ((R & W) & I). pose proof IN as (B & EX).
  destruct (Z.eq_dec (hidx (t_heap s) x) 1) as [E1|E1]; [left; exact E1|]. right.
  pose proof (O (hidx (t_heap s) x) ltac:(lia)) as O1.
  destruct G as [G|[G|G]]; [discriminate| |].
  - pose proof (few_slots _ _ T G) as L.
    assert (O3 : forall j, 2 <= j <= hn (t_heap s) -> slotkey (t_heap s) (j / 2) <= slotkey (t_heap s) j) by exact O.
    set (i := hidx (t_heap s) x) in *. set (n := hn (t_heap s)) in *.
    assert (C : i / 2 = 1 \/ (i / 2 = 2 /\ (n = 4 \/ n = 5))).
    { assert (2 <= i <= 5) by lia. assert (i = 2 \/ i = 3 \/ i = 4 \/ i = 5) as [->|[->|[->| ->]]] by lia; cbn; lia. }
    assert (TOP : forall m j, (Z.to_nat j <= m)%nat -> 1 <= j <= n -> slotkey (t_heap s) 1 <= slotkey (t_heap s) j).
    { induction m as [|m IHm]; intros j Hm Hj; [lia|]. destruct (Z.eq_dec j 1) as [->|]; [lia|].
      pose proof (O3 j ltac:(lia)). pose proof (IHm (j / 2) ltac:(lia) ltac:(lia)). lia. }
    destruct C as [-> | (-> & [N4|N5])].
    + apply (TOP (Z.to_nat n)); lia.
    + rewrite N4. apply (O3 4); lia.
    + rewrite N5. apply (O3 5); lia.
  - destruct (W (hn (t_heap s))) as (y & EY & XY); [lia|].
    assert (IY : inh (t_heap s) y) by (split; rewrite XY; [lia|exact EY]).
    pose proof (I y) as IYY. destruct (deadline es y) as [ky|] eqn:DY; [|destruct IYY as (N & _); contradiction].
    destruct IYY as (_ & KY & _). pose proof (G k y ky D DY) as LE.
    assert (slotkey (t_heap s) (hn (t_heap s)) = ky) by (unfold slotkey; rewrite EY; exact KY).
    assert (slotkey (t_heap s) (hidx (t_heap s) x) = k) by (unfold slotkey; rewrite EX; exact K).
    lia.
Qed.
Fixpoint clock_ok (now : Z) (is : list tin) : Prop :=
  match is with
  | [] => True
  | TTick t :: r => now <= t /\ clock_ok t r
  | TArm _ d :: r => -2147483648 <= d < 2147483648 /\ clock_ok now r
  | _ :: r => clock_ok now r
  end.

(** deadlines are at most 2^31-1 ms ahead of the clock *)
Definition near (s : tst) (es : list tev) : Prop := forall x k, deadline es x = Some k -> k - t_now s < 2147483648.

Lemma gentle_run : forall is s es0 es s', TI s es0 -> hord (t_heap s) -> near s es0 ->
  trun s is = Ok (es, s') -> Forall accepted es -> gentle es0 es -> clock_ok (t_now s) is ->
  TI s' (es0 ++ es) /\ hord (t_heap s') /\ near s' (es0 ++ es).
Proof.
  induction is as [|i is IH]; intros s es0 es s' T O NR R F G C; simpl in R.
  - injection R as <- <-. rewrite app_nil_r. auto.
  - apply bind_ok in R as ((e, s1) & R1 & R). apply bind_ok in R as ((es1, s2) & R2 & R). injection R as <- <-. simpl in *.
    destruct (TI_step s es0 i T) as (e' & s1' & E & _ & TT & MM). rewrite R1 in E. injection E as <- <-.
    destruct G as (G1 & G). specialize (TT (Forall_inv F)).
    assert (ST : hord (t_heap s1) /\ near s1 (es0 ++ [e]) /\ clock_ok (t_now s1) is).
    { destruct i as [t|x d|x| |]; simpl in R1, C.
      - injection R1 as <- <-. split; [exact O|]. split; [|apply C]. intros x k D. rewrite deadline_app in D. simpl in D.
        specialize (NR x k D). simpl. lia.
      - destruct (TI_arm s es0 x d T) as (ok & s3 & E & NOW & _ & _ & _ & _ & OO). rewrite E in R1. injection R1 as <- <-. simpl in *.
        split; [apply OO; [exact O|apply (gentle_fits _ _ _ T O G1)]|]. rewrite NOW. split; [|apply C].
        intros y k D. rewrite deadline_app in D. simpl in D. rewrite NOW. destruct (Z.eqb_spec x y) as [<-|].
        + destruct ok; [|discriminate]. injection D as <-. lia.
        + apply NR with y. exact D.
      - destruct (TI_del s es0 x (EDel x) T) as (s3 & E & _ & NOW & _ & _ & _ & _ & OO); [reflexivity|]. rewrite E in R1. injection R1 as <- <-. simpl in *.
        split; [apply OO; [exact O|apply (gentle_fits _ _ _ T O G1)]|]. rewrite NOW. split; [|exact C].
        intros y k D. rewrite deadline_app in D. simpl in D. rewrite NOW. destruct (Z.eqb_spec x y); [discriminate|]. apply NR with y. exact D.
      - injection R1 as <- <-. split; [exact O|]. split; [|apply C]. intros x k D. rewrite deadline_app in D. simpl in D. apply NR with x. exact D.
      - unfold timer_iter in R1. destruct (heap_min_ok (t_heap s) (proj1 T)) as (m & EM & M2). rewrite EM in R1. cbn [bind] in R1.
        assert (SAME : forall w, Ok (EDone w (t_now s), {| t_heap := t_heap s; t_set := t_set s; t_now := t_now s; t_running := false |}) = Ok (e, s1) ->
           hord (t_heap s1) /\ near s1 (es0 ++ [e]) /\ clock_ok (t_now s1) is).
        { intros w [= <- <-]. split; [exact O|]. split; [|exact C]. intros x k D. rewrite deadline_app in D. simpl in D. apply NR with x. exact D. }
        destruct m as [x|]; [|eapply SAME; exact R1].
        destruct (t_now s <? hkey (t_heap s) x); [eapply SAME; exact R1|].
        destruct (TI_del s es0 x (EFire x (t_now s)) T) as (s3 & E & _ & NOW & _ & _ & _ & _ & OO); [reflexivity|]. rewrite E in R1. injection R1 as <- <-.
        split; [apply OO; [exact O|right; left; apply M2]|]. rewrite NOW. split; [|exact C].
        intros y k D. rewrite deadline_app in D. simpl in D. rewrite NOW. destruct (Z.eqb_spec x y); [discriminate|]. apply NR with y. exact D. }
    destruct ST as (O1 & N1 & C1).
    pose proof (IH s1 (es0 ++ [e]) es1 s2 TT O1 N1 R2 (Forall_inv_tail F) G C1) as X. rewrite <- app_assoc in X. exact X.
Qed.

Lemma gentle_app es0 a b : gentle es0 (a ++ b) -> gentle es0 a.
Proof. revert es0. induction a as [|e a IH]; intros es0 G; simpl in *; [exact I|]. destruct G as (G1 & G). split; [exact G1|]. eapply IH; eauto. Qed.
Lemma clock_app a b now : clock_ok now (a ++ b) -> clock_ok now a.
Proof.
  revert now. induction a as [|i a IH]; intros now C; simpl in *; [exact I|].
  destruct i; simpl in *; try (eapply IH; eassumption); destruct C; split; eauto.
Qed.

Theorem C14_due_timers_fire_partial : forall space is es s', 0 <= space ->
  trun (timers0 space) is = Ok (es, s') -> Forall accepted es -> gentle [] es -> clock_ok 0 is ->
  forall h1 w t h2, es = h1 ++ EDone w t :: h2 ->
  forall x k, deadline h1 x = Some k -> t < k /\ 0 < w <= k - t.
Proof.
  intros space is es s' L R F G CL h1 w t h2 E x k D.
  destruct (trun_split _ _ _ _ _ _ _ R E) as (i1 & i & i2 & s1 & s2 & -> & A & B & C).
  subst es. apply Forall_app in F as (F1 & F2). apply gentle_app in G. apply clock_app in CL.
  assert (N0 : near (timers0 space) []) by (intros y ky Dy; discriminate).
  destruct (gentle_run _ _ [] _ _ (TI_init space L) (proj1 (proj2 (heap_create_wf space L))) N0 A F1 G CL) as (T & O & NR).
  destruct (TI_step s1 ([] ++ h1) i T) as (e' & s2' & E & _ & _ & M). rewrite B in E. injection E as <- <-.
  destruct M as (-> & [(_ & N)|(m & km & D' & K & W & HM)]); [simpl in N; rewrite N in D; discriminate|].
  pose proof (proj2 T x) as IX. simpl in IX, D'. rewrite D in IX. destruct IX as (IN & KX & _).
  pose proof (proj2 T m) as IM. simpl in IM. rewrite D' in IM. destruct IM as (_ & KM & _).
  pose proof (hord_min _ _ (proj1 T) O HM x IN) as MIN.
  pose proof (NR m km D') as B1. simpl in B1.
  assert (W2 : w = km - t_now s1). { rewrite W. unfold cast_int. lia. }
  lia.
Qed.
Print Assumptions C14_due_timers_fire_partial.

Definition tgood : list tin :=
  [TTick 100; TArm 1 50; TArm 2 10; TArm 3 20; TTick 130; TDel 9; TExpire; TIter; TArm 4 40; TIter; TArm 2 500; TArm 1 60; TDel 4; TIter].
Example C14_demo : exists es s', trun (timers0 1536) tgood = Ok (es, s') /\ Forall accepted es /\ gentle [] es /\ clock_ok 0 tgood /\
  zdrop 7 es = [EFire 2 130; EArm 4 40 130 true; EFire 3 130; EArm 2 500 130 true; EArm 1 60 130 true; EDel 4; EDone 60 130].
Proof.
  destruct (trun (timers0 1536) tgood) as [[es s']| |] eqn:E.
  2, 3: exfalso; vm_compute in E; discriminate E.
  exists es, s'. split; [reflexivity|].
  assert (Q : es = match trun (timers0 1536) tgood with Ok (o, h) => o | _ => [] end) by (rewrite E; reflexivity).
  clear E. vm_compute in Q. subst es. split; [repeat constructor|]. 
  split; [|split; [simpl; lia|reflexivity]].
  simpl. repeat match goal with |- True /\ _ => split; [exact I|] | |- (?a = None \/ _) /\ _ => split end; try exact I;
    try (left; reflexivity); right; left; exists [1; 2; 3; 4]; (split; [unfold zlen; cbn; lia|]);
    intros x; unfold deadline; cbn [fold_left deadline1 app];
    repeat match goal with |- context [?a =? x] => destruct (Z.eqb_spec a x) end; subst; simpl; auto; congruence.
Qed.

(** ** C15: a refused arming and the other timers *)
Definition fill : list tin := map (fun i => TArm (Z.of_nat i) (if (i =? 1)%nat then 1000 else 60000)) (seq 1 (Z.to_nat 1536)).

Fixpoint tvalidb (running : bool) (is : list tin) (es : list tev) : bool :=
  match is, es with
  | TTick _ :: r, _ :: e => negb running && tvalidb running r e
  | TExpire :: r, _ :: e => negb running && tvalidb true r e
  | TIter :: r, EFire _ _ :: e => running && tvalidb true r e
  | TIter :: r, _ :: e => running && tvalidb false r e
  | _ :: r, _ :: e => tvalidb running r e
  | _, _ => true
  end.
Lemma tvalidb_ok : forall is running es, tvalidb running is es = true -> tvalid running is es.
Proof.
  induction is as [|i is IH]; intros running [|e es0] H; simpl in *; auto.
  - destruct i; exact I.
  - destruct i; try (apply IH; exact H).
    + apply andb_prop in H as (A & B). split; [destruct running; [discriminate|reflexivity]|apply IH; exact B].
    + apply andb_prop in H as (A & B). split; [destruct running; [discriminate|reflexivity]|apply IH; exact B].
    + destruct e; apply andb_prop in H as (A & B); (split; [exact A|apply IH; exact B]).
Qed.

(** A timer used before (its recorded position is 1) is armed while the table is full and then
    cancelled: this removes timer 1. At 5000 timer 1 is overdue and the run does not fire it. *)
Definition tfull : list tin :=
  [TArm 5000 10; TTick 20; TExpire; TIter; TIter] ++ fill ++ [TArm 5000 10; TDel 5000; TTick 5000; TExpire; TIter].
Theorem C15_refused_arming_refuted : exists es s',
  trun (timers0 1536) tfull = Ok (es, s') /\ tvalid false tfull es /\
  zdrop 1541 es = [EArm 5000 10 20 false; EDel 5000; ETick 5000; EExpire; EDone 55020 5000] /\
  deadline es 1 = Some 1020 /\ ~ In (EDel 1) es.
Proof.
  destruct (trun (timers0 1536) tfull) as [[es s']| |] eqn:E.
  2, 3: exfalso; assert (X : match trun (timers0 1536) tfull with Ok _ => true | _ => false end = true) by (vm_compute; reflexivity);
        rewrite E in X; discriminate X.
  exists es, s'. split; [reflexivity|].
  assert (Q : match trun (timers0 1536) tfull with
    | Ok (o, _) => tvalidb false tfull o && forallb (fun e => match e with EDel 1 => false | _ => true end) o &&
        (match deadline o 1 with Some k => k =? 1020 | None => false end)
    | _ => false end = true) by (vm_compute; reflexivity).
  assert (Q2 : match trun (timers0 1536) tfull with Ok (o, _) => zdrop 1541 o | _ => [] end =
    [EArm 5000 10 20 false; EDel 5000; ETick 5000; EExpire; EDone 55020 5000]) by (vm_compute; reflexivity).
  rewrite E in Q, Q2. clear E. apply andb_prop in Q as (Q & Q4). apply andb_prop in Q as (Q1 & Q3).
  split; [apply tvalidb_ok; exact Q1|]. split; [exact Q2|]. split.
  - destruct (deadline es 1); [f_equal; lia|discriminate].
  - intros IN. rewrite forallb_forall in Q3. specialize (Q3 _ IN). discriminate.
Qed.
Print Assumptions C15_refused_arming_refuted.

(** A timer never used before (position 0): cancelling it after the refusal dereferences NULL. *)
Theorem C15_refused_arming_crash_refuted : 
  trun (timers0 1536) (fill ++ [TArm 5000 10; TDel 5000]) = Fault FNull.
Proof. vm_compute. reflexivity. Qed.
Print Assumptions C15_refused_arming_crash_refuted.

(** What holds: the refusal itself changes nothing for the other timers, and cancelling the
    refused timer is harmless if its recorded position is beyond the timers in use. *)
Theorem C15_refused_arming_partial : forall s es x d s', TI s es -> tm_add s x d = Ok (false, s') ->
  deadline es x = None /\
  (forall y, inh (t_heap s') y <-> inh (t_heap s) y) /\
  (forall y, y <> x -> hkey (t_heap s') y = hkey (t_heap s) y /\ t_set s' y = t_set s y).
Proof.
  intros s es x d s' T E. pose proof T as (W & I). unfold tm_add, tm_del in E.
  pose proof (I x) as IX. destruct (deadline es x) as [k|] eqn:DX.
  - (* it was pending: its slot is free again, so arming cannot be refused *)
    exfalso. destruct IX as (IN & K & S). rewrite S in E.
    destruct (heap_del_spec (t_heap s) x W IN) as (h' & E1 & W' & M & KK & N & SP & O). rewrite E1 in E. cbn [bind snd t_heap t_now] in E.
    destruct (heap_add_spec (set_key h' x (t_now s + d)) x W') as (h2 & E2 & _).
    + intros Y. apply M in Y. tauto.
    + simpl. destruct W. lia.
    + rewrite E2 in E. discriminate.
  - destruct IX as (NI & S). rewrite S in E. cbn [bind] in E. split; [reflexivity|].
    destruct (Z_lt_ge_dec (hn (t_heap s)) (hspace (t_heap s))) as [L|L].
    + destruct (heap_add_spec (set_key (t_heap s) x (t_now s + d)) x W NI L) as (h2 & E2 & _). rewrite E2 in E. discriminate.
    + rewrite heap_add_full in E by (simpl; lia). injection E as <-. split; [reflexivity|]. intros y NE. simpl.
      rewrite !upd_other by exact NE. auto.
Qed.
Print Assumptions C15_refused_arming_partial.

Theorem C15_cancel_beyond_partial : forall s x, hn (t_heap s) < hidx (t_heap s) x ->
  exists s', tm_del s x = Ok s' /\ t_heap s' = t_heap s /\ forall y, y <> x -> t_set s' y = t_set s y.
Proof.
  intros s x L. unfold tm_del. destruct (t_set s x); [|exists s; auto].
  unfold heap_del. destruct ((hspace (t_heap s) <? 1) || (hn (t_heap s) <? 1)).
  - cbn [bind snd]. eexists. split; [reflexivity|]. split; [reflexivity|]. intros. simpl. apply upd_other. assumption.
  - destruct (Z.ltb_spec (hn (t_heap s)) (hidx (t_heap s) x)); [|lia].
    cbn [bind snd]. eexists. split; [reflexivity|]. split; [reflexivity|]. intros. simpl. apply upd_other. assumption.
Qed.
Print Assumptions C15_cancel_beyond_partial.

Example C15_demo : exists es s s', trun (timers0 2) [TArm 1 10; TArm 2 20] = Ok (es, s) /\ TI s es /\ tm_add s 3 5 = Ok (false, s').
Proof.
  destruct (trun (timers0 2) [TArm 1 10; TArm 2 20]) as [[es s]| |] eqn:E.
  2, 3: exfalso; vm_compute in E; discriminate E.
  assert (A : Forall accepted es).
  { assert (Q : es = match trun (timers0 2) [TArm 1 10; TArm 2 20] with Ok (o, h) => o | _ => [] end) by (rewrite E; reflexivity).
    clear E. vm_compute in Q. subst es. repeat constructor. }
  pose proof (TI_run _ _ [] _ _ (TI_init 2 ltac:(lia)) E A) as T. simpl in T.
  assert (Q : match trun (timers0 2) [TArm 1 10; TArm 2 20] with Ok (o, h) => match tm_add h 3 5 with Ok (b, _) => negb b | _ => false end | _ => false end = true)
    by (vm_compute; reflexivity).
  rewrite E in Q. destruct (tm_add s 3 5) as [[[|] s']| |] eqn:E2; try discriminate Q. exists es, s, s'. auto.
Qed.
Example C15_demo2 : exists es s, trun (timers0 2) [TArm 1 10; TArm 2 20; TDel 2] = Ok (es, s) /\ hn (t_heap s) < hidx (t_heap s) 2.
Proof.
  destruct (trun (timers0 2) [TArm 1 10; TArm 2 20; TDel 2]) as [[es s]| |] eqn:E.
  2, 3: exfalso; vm_compute in E; discriminate E.
  exists es, s. split; [reflexivity|].
  assert (Q : match trun (timers0 2) [TArm 1 10; TArm 2 20; TDel 2] with Ok (o, s) => hn (t_heap s) <? hidx (t_heap s) 2 | _ => false end = true)
    by (vm_compute; reflexivity).
  rewrite E in Q. lia.
Qed.
