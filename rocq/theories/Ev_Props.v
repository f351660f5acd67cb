(** * The event table: C62-C65 *)
From Verif Require Import Base Hash_Props Ev_Model Ev_Proofs.
Local Arguments Z.add : simpl never.
Local Arguments Z.sub : simpl never.
Local Arguments Z.mul : simpl never.
Local Arguments zlen : simpl never.

(** what the kernel guarantees about a batch: at most as many records as asked for
    (event.c:57), one per descriptor, each for a registered (so existing) connection *)
Record valid (s : st) (b : list report) : Prop := Valid {
  v_len : zlen b <= BATCH;
  v_one : NoDup (map fst b);
  v_live : forall e, In e (map fst b) -> live (evm s e) = true }.

(** states between two rounds: after any number of rounds, and of timers and other
    actions between them *)
Inductive reach : st -> Prop :=
| reach0 : reach st0
| reach_acts s l s' : reach s -> do_acts s l = Ok s' -> reach s'
| reach_loop s b progs s' log : reach s -> valid s b -> ev_loop s b progs = Ok (s', log) -> reach s'.

Definition idle_flags (s : st) : Prop :=
  forall e, live (evm s e) = true -> fread (evm s e) = false /\ fwrite (evm s e) = false.
Record ready (s : st) : Prop := Ready {
  r_wf : wf s; r_evn : evn s = 0; r_fl : hit s = false -> idle_flags s }.

Lemma valid_max s b : valid s b -> zlen (flat b) <= TABLE.
Proof. intros [L _ _]. pose proof (flat_len b). unfold TABLE. lia. Qed.

Lemma start_ok s b : ready s -> valid s b -> exists s1, enter_all s b = Ok s1 /\ entered s s1 b.
Proof.
  intros [W N F] V. apply (enter_all_spec s b s []); try apply V.
  - constructor; auto; cbn [map flat flat_map]; try tauto.
    + intros j e k H. apply zget_some_range in H. change (zlen (@nil (Z * bool))) with 0 in H. lia.
    + intros e []. 
    + intros e. cbn. tauto.
  - apply valid_max with s; auto.
Qed.

Lemma acts_ready l : forall s s', ready s -> do_acts s l = Ok s' -> ready s'.
Proof.
  induction l as [|a l IH]; simpl; intros s s' R H; [inversion H; subst; auto|].
  apply bind_ok in H as (s1 & H1 & H2). apply (IH s1); auto. clear IH H2. destruct R as [W N F].
  destruct (act_wf _ _ _ W H1) as [W1 N1]. constructor; auto; [congruence|].
  intros HH e Lv.
  destruct a as [e0|e0|e0 r w]; simpl in H1; destruct (live (evm s e0)) eqn:L; try discriminate.
  - destruct (free_spec s e0 W) as (s2 & E & _ & _ & O & S & _ & _ & H3 & _). rewrite E in H1. inversion H1; subst.
    apply H3 in HH as [HH _]. destruct (Z.eq_dec e e0) as [->|D]; [rewrite S in Lv; discriminate|].
    rewrite O in * by auto. apply F; auto.
  - inversion H1; subst. cbn in HH. unfold ev_alloc, set_ev, upd in *. cbn [evm] in *.
    destruct (e =? e0); [auto|apply F; auto].
  - inversion H1; subst. cbn in HH. unfold ev_alloc, set_ev, upd in *. cbn [evm] in *.
    destruct (Z.eqb_spec e e0); [subst; cbn; apply F; auto|apply F; auto].
Qed.

Lemma loop_ready s b progs s' log : ready s -> valid s b -> ev_loop s b progs = Ok (s', log) -> ready s'.
Proof.
  intros R V H. destruct (start_ok s b R V) as (s1 & E1 & En). unfold ev_loop in H. rewrite E1 in H. cbn [bind] in H.
  apply bind_ok in H as ([s2 log2] & E2 & H). cbn [fst snd] in H. inversion H; subst; clear H.
  pose proof (valid_max _ _ V) as M. pose proof (entered_safe s s1 b En M) as A.
  pose proof (n_evn _ _ _ En) as N. pose proof (zlen_nonneg (flat b)).
  destruct (dispatch_safe (flat b) (fun e => gen (evm s e)) (Z.to_nat (evn s1)) s1 0 progs) as [X|(a & l & X & W & _ & Hh & _)];
    [lia|lia|exact A| |]; rewrite E2 in X; [discriminate|]. inversion X; subst a l; clear X.
  constructor; cbn [evn tab evm hit]; auto.
  - destruct W as [W1 W2]. split; auto.
  - intros HH. pose proof (Hh HH) as H1. rewrite (n_hit _ _ _ En) in H1.
    pose proof (entered_full s s1 b En (r_fl _ R H1)) as B.
    destruct (flat_nodup b (v_one _ _ V)) as [ND OR].
    destruct (dispatch_full (flat b) (fun e => gen (evm s e)) ND OR (Z.to_nat (evn s1)) s1 0 progs s2 log ltac:(lia) ltac:(lia) A B E2 HH) as [[D F Nw] _].
    intros e Lv. cbn [evm] in *. destruct (Z.eq_dec (gen (evm s2 e)) (gen (evm s e))) as [Q|Q]; [|auto].
    destruct (F e Lv Q) as [F1 F2]. rewrite zdrop_all in F1, F2 by lia. cbn [In] in *.
    destruct (fread (evm s2 e)), (fwrite (evm s2 e)); intuition congruence.
Qed.

Lemma reach_ready s : reach s -> ready s.
Proof.
  induction 1.
  - constructor; auto.
    + split; [reflexivity|]. intros e. cbn. unfold TABLE, BATCH. lia.
    + intros _ e H. discriminate.
  - eapply acts_ready; eauto.
  - eapply loop_ready; eauto.
Qed.

(** ** C62, C65: in every reachable state and for every batch and whatever the callbacks
    do, a round ends (or a callback itself releases something twice), memory outside the
    table or of released connections is never touched, and every callback that runs is
    one of the very connection the event was reported for (same address and same
    allocation) *)
Theorem C62 : forall s b progs, reach s -> valid s b ->
  ev_loop s b progs = Fault FAbort \/
  exists s' log, ev_loop s b progs = Ok (s', log) /\
    forall e g now k, In (Called e g now k) log -> g = now /\ now = gen (evm s e) /\ In e (map fst b).
Proof.
  intros s b progs R V. apply reach_ready in R. destruct (start_ok s b R V) as (s1 & E1 & En).
  unfold ev_loop. rewrite E1. cbn [bind].
  pose proof (valid_max _ _ V) as M. pose proof (entered_safe s s1 b En M) as A.
  pose proof (n_evn _ _ _ En) as N. pose proof (zlen_nonneg (flat b)).
  destruct (dispatch_safe (flat b) (fun e => gen (evm s e)) (Z.to_nat (evn s1)) s1 0 progs) as [X|(s' & log & X & W & L & _)];
    [lia|lia|exact A| |]; rewrite X; cbn [bind fst snd]; auto.
  right. eexists _, _. split; [reflexivity|].
  intros e g now k Hin. split; [apply (L _ Hin)|].
  assert (Q : forall n s i progs s' log, 0 <= i -> i + Z.of_nat n = zlen (flat b) ->
     safe (flat b) (fun e => gen (evm s1 e)) s i -> dispatch n s i progs = Ok (s', log) ->
     In (Called e g now k) log -> now = gen (evm s1 e) /\ In e (map fst b)).
  { clear. induction n as [|n IH]; intros s i progs s' log Hi Hn A H Hin.
    - cbn in H. inversion H; subst. destruct Hin.
    - rewrite dispatch_eq in H. destruct (zget (tab s) i) as [[[e0 g0]|]|] eqn:Ex; [| |discriminate].
      + cbv zeta in H. destruct (live (evm s e0)); [|discriminate].
        destruct (a_tab _ _ _ _ A i e0 g0) as (T1 & T2 & T3 & _ & kk & T5);
          [lia|rewrite (a_evn _ _ _ _ A); lia|auto|].
        assert (A1 : forall r w, safe (flat b) (fun e => gen (evm s1 e)) (set_flags s e0 r w) (i + 1))
          by (intros; apply safe_next, flags_safe; auto).
        destruct (fread (evm s e0) || fwrite (evm s e0)).
        * destruct (if negb (fread (evm s e0)) then wcb (evm s e0) else rcb (evm s e0)).
          -- apply bind_ok in H as (s2 & E2 & H). apply bind_ok in H as ([s3 log3] & E3 & H).
             cbn [fst snd] in H. inversion H; subst s3 log; clear H. destruct Hin as [Q|Q].
             ++ inversion Q; subst. split; [auto|]. apply zget_In in T5. eapply flat_ids; eauto.
             ++ eapply (IH s2 (i + 1)); [lia|lia| |eauto|auto]. eapply acts_safe; [lia|apply A1|eauto].
          -- apply bind_ok in H as ([s3 log3] & E3 & H). cbn [fst snd] in H. inversion H; subst s3 log; clear H.
             destruct Hin as [Q|Q]; [discriminate|]. eapply (IH _ (i + 1)); [lia|lia|apply A1|eauto|auto].
        * apply bind_ok in H as ([s3 log3] & E3 & H). cbn [fst snd] in H. inversion H; subst s3 log; clear H.
          destruct Hin as [Q|Q]; [discriminate|]. eapply (IH _ (i + 1)); [lia|lia|apply safe_next; eauto|eauto|auto].
      + eapply (IH _ (i + 1)); [lia|lia|apply safe_next; eauto|eauto|auto]. }
  assert (A' : safe (flat b) (fun e => gen (evm s1 e)) s1 0).
  { destruct A as [a1 a2 a3 a4 a5]. constructor; auto; [intros; lia|].
    intros j e' g' J1 J2 Hj. destruct (a5 j e' g' J1 J2 Hj) as (P1 & P2 & P3 & P4). auto. }
  destruct (Q (Z.to_nat (evn s1)) s1 0 progs s' log ltac:(lia) ltac:(lia) A' X Hin) as [Q1 Q2].
  split; auto. destruct (n_ev _ _ _ En e). congruence.
Qed.
Print Assumptions C62.

Theorem C65 : forall s b progs, reach s -> valid s b ->
  ev_loop s b progs <> Fault FOob /\ ev_loop s b progs <> Fault FUaf /\
  exists s1, enter_all s b = Ok s1 /\ 0 <= evn s1 <= zlen (tab s1).
Proof.
  intros s b progs R V.
  destruct (C62 s b progs R V) as [X|(s' & log & X & _)]; rewrite X; (split; [discriminate|split; [discriminate|]]);
    apply reach_ready in R; destruct (start_ok s b R V) as (s1 & E1 & En); exists s1; (split; [auto|]);
    pose proof (valid_max _ _ V); rewrite (n_evn _ _ _ En), (w_len _ (n_wf _ _ _ En));
    pose proof (zlen_nonneg (flat b)); lia.
Qed.
Print Assumptions C65.

(** four connections with callbacks *)
Definition setup : list act := [ANew 1; ANew 2; ANew 3; ANew 4;
    ASet 1 true true; ASet 2 true true; ASet 3 true true; ASet 4 true true].
Definition four : st := match do_acts st0 setup with Ok s => s | _ => st0 end.
Lemma reach_four : reach four.
Proof. apply (reach_acts st0 setup); [constructor|reflexivity]. Qed.
Lemma valid_small s b : forallb (fun e => live (evm s e)) (map fst b) = true -> zlen b <= 4 ->
  NoDup (map fst b) -> valid s b.
Proof.
  intros H L N. constructor; [unfold BATCH, report in *; lia|auto|apply forallb_forall; exact H].
Qed.

(** a batch whose first callback releases the connections of the later events and gets
    new ones at their addresses *)
Definition b1 : list report := [(1, (true, false)); (2, (true, true)); (3, (false, true))].
Definition p1 : list (list act) := [[AFree 2; AFree 3; ANew 3; ASet 3 true true; ANew 2]].
Example C62_example : valid four b1 /\ exists s' log, ev_loop four b1 p1 = Ok (s', log) /\
  log = [Called 1 1 1 false].
Proof.
  split.
  - apply valid_small; [reflexivity|vm_compute; discriminate|repeat constructor; cbn; intuition discriminate].
  - eexists _, _. split; vm_compute; reflexivity.
Qed.
Example C65_example : exists s b, reach s /\ valid s b /\ zlen b = 3.
Proof. exists four, b1. split; [apply reach_four|split; [apply C62_example|reflexivity]]. Qed.

(** ** C63. An event was delivered if a callback ran for it, or there was none to run *)
Definition delivered (log : list what) (e g : Z) (k : bool) : Prop :=
  In (Called e g g k) log \/ In (NoCb e g g k) log.
(** not released during the round *)
Definition stays (s s' : st) (e : Z) : Prop :=
  live (evm s' e) = true /\ gen (evm s' e) = gen (evm s e).

(** exactly the events are lost whose entry was cleared through the stale index of some
    other connection; as long as that has not happened, none is *)
Theorem C63_exact : forall s b progs s' log, reach s -> valid s b ->
  ev_loop s b progs = Ok (s', log) -> hit s' = false ->
  forall e r w, In (e, (r, w)) b -> stays s s' e ->
    (r = true -> delivered log e (gen (evm s e)) false) /\
    (w = true -> delivered log e (gen (evm s e)) true).
Proof.
  intros s b progs s' log R V H HH e r w Hin [S1 S2]. apply reach_ready in R.
  destruct (start_ok s b R V) as (s1 & E1 & En). unfold ev_loop in H. rewrite E1 in H. cbn [bind] in H.
  apply bind_ok in H as ([s2 log2] & E2 & H). cbn [fst snd] in H. inversion H; subst; clear H.
  cbn [hit evm] in *.
  pose proof (valid_max _ _ V) as M. pose proof (entered_safe s s1 b En M) as A.
  pose proof (n_evn _ _ _ En) as N. pose proof (zlen_nonneg (flat b)).
  destruct (dispatch_safe (flat b) (fun e => gen (evm s e)) (Z.to_nat (evn s1)) s1 0 progs) as [X|(a & l & X & _ & _ & Hh & _)];
    [lia|lia|exact A| |]; rewrite E2 in X; [discriminate|]. inversion X; subst a l; clear X.
  pose proof (Hh HH) as H1. rewrite (n_hit _ _ _ En) in H1.
  pose proof (entered_full s s1 b En (r_fl _ R H1)) as B.
  destruct (flat_nodup b (v_one _ _ V)) as [ND OR].
  destruct (dispatch_full (flat b) (fun e => gen (evm s e)) ND OR (Z.to_nat (evn s1)) s1 0 progs s2 log ltac:(lia) ltac:(lia) A B E2 HH) as [_ D].
  assert (IX : forall k, In (e, k) (flat b) -> delivered log e (gen (evm s e)) k).
  { intros k Q. apply In_nth_error in Q as [n Q].
    assert (zget (flat b) (Z.of_nat n) = Some (e, k)).
    { unfold zget. destruct (Z.ltb_spec (Z.of_nat n) 0); [lia|]. rewrite Nat2Z.id. exact Q. }
    apply (D (Z.of_nat n)); auto. lia. }
  split; intros ->; apply IX; apply in_flat_map; eexists; (split; [exact Hin|]); destruct r || destruct w; cbn; auto.
Qed.
Print Assumptions C63_exact.

(** A condition on the callbacks: they release only connections of the same batch *)
Definition tidy (b : list report) (progs : list (list act)) : Prop :=
  forall p e, In p progs -> In (AFree e) p -> In e (map fst b).
Inductive reach_tidy : st -> Prop :=
| rt0 : reach_tidy st0
| rt_acts s l s' : reach_tidy s -> do_acts s l = Ok s' -> reach_tidy s'
| rt_loop s b progs s' log : reach_tidy s -> valid s b -> tidy b progs ->
    ev_loop s b progs = Ok (s', log) -> reach_tidy s'.

Lemma tidy_loop s b progs s' log : ready s -> valid s b -> tidy b progs ->
  ev_loop s b progs = Ok (s', log) -> hit s = false -> hit s' = false.
Proof.
  intros R V T H HH. destruct (start_ok s b R V) as (s1 & E1 & En). unfold ev_loop in H. rewrite E1 in H. cbn [bind] in H.
  apply bind_ok in H as ([s2 log2] & E2 & H). cbn [fst snd] in H. inversion H; subst; clear H. cbn [hit].
  pose proof (valid_max _ _ V) as M. pose proof (entered_safe s s1 b En M) as A.
  pose proof (n_evn _ _ _ En) as N. pose proof (zlen_nonneg (flat b)).
  eapply (dispatch_own (flat b) (fun e => gen (evm s e)) (map fst b)); [| |exact A|eapply entered_own; exact En|exact T|exact E2| ]; try lia.
  rewrite (n_hit _ _ _ En). auto.
Qed.

Lemma acts_idle_hit l : forall s s', ready s -> do_acts s l = Ok s' -> hit s = false -> hit s' = false.
Proof.
  induction l as [|a l IH]; simpl; intros s s' R H HH; [inversion H; subst; auto|].
  apply bind_ok in H as (s1 & H1 & H2). 
  assert (R1 : ready s1) by (apply (acts_ready [a] s s1 R); cbn; rewrite H1; reflexivity).
  apply (IH s1); auto. clear IH H2.
  destruct a as [e0|e0|e0 r w]; simpl in H1; destruct (live (evm s e0)) eqn:L; try discriminate;
    [|inversion H1; subst; exact HH|inversion H1; subst; exact HH].
  assert (CH : forall s i g s', wf s -> evn s = 0 -> 0 <= i < TABLE -> clear s e0 g i = Ok s' -> hit s = false ->
     hit s' = false /\ evn s' = 0 /\ evm s' = evm s /\ zlen (tab s') = TABLE).
  { intros t i g t' W N I H Ht. destruct (clear_spec t e0 g i (w_len _ W) I) as (t2 & E & N2 & M2 & L2 & _).
    rewrite E in H. inversion H; subst t2. split; [|split; [congruence|auto]]. unfold clear in E.
    destruct (i =? 0); [inversion E; subst; auto|]. destruct (zget (tab t) i), (zput (tab t) i [None]); try discriminate.
    inversion E; subst. cbn [hit]. rewrite Ht, N. destruct (Z.ltb_spec i 0); [lia|reflexivity]. }
  destruct R as [W N F]. unfold ev_free in H1. destruct (w_idx _ W e0) as [I1 I2].
  apply bind_ok in H1 as (t1 & X1 & H1). apply bind_ok in H1 as (t2 & X2 & H1). inversion H1; subst. cbn [set_ev hit].
  destruct (CH _ _ _ _ W N I1 X1 HH) as (C1 & C2 & C3 & C4).
  assert (W1 : wf t1) by (split; auto; rewrite C3; apply W).
  destruct (CH _ _ _ _ W1 C2 I2 X2 C1) as (C5 & _). auto.
Qed.

Lemma reach_tidy_ok s : reach_tidy s -> reach s /\ hit s = false.
Proof.
  induction 1 as [|s l s' R [R1 H1] E|s b progs s' log R [R1 H1] V T E].
  - split; [constructor|reflexivity].
  - split; [eapply reach_acts; eauto|]. eapply acts_idle_hit; eauto. apply reach_ready; auto.
  - split; [eapply reach_loop; eauto|]. eapply tidy_loop; eauto. apply reach_ready; auto.
Qed.

(** then every event of a connection that stays is delivered *)
Theorem C63_partial : forall s b progs s' log, reach_tidy s -> valid s b -> tidy b progs ->
  ev_loop s b progs = Ok (s', log) ->
  forall e r w, In (e, (r, w)) b -> stays s s' e ->
    (r = true -> delivered log e (gen (evm s e)) false) /\
    (w = true -> delivered log e (gen (evm s e)) true).
Proof.
  intros s b progs s' log R V T H. apply reach_tidy_ok in R as [R HH].
  eapply C63_exact; eauto. eapply tidy_loop; eauto. apply reach_ready; auto.
Qed.
Print Assumptions C63_partial.

Definition p2 : list (list act) := [[AFree 2]; []].
Example C63_example : exists s' log, reach_tidy four /\ valid four b1 /\ tidy b1 p2 /\
  ev_loop four b1 p2 = Ok (s', log) /\ stays four s' 3 /\ delivered log 3 1 true.
Proof.
  eexists _, _. split; [|split; [apply C62_example|split; [|split; [vm_compute; reflexivity|]]]].
  - apply (rt_acts st0 setup); [constructor|reflexivity].
  - intros p e [<-|[<-|[]]] H; cbn in H; [|contradiction]. destruct H as [H|[]]. inversion H. cbn. auto.
  - split; [split; reflexivity|]. left. cbn. auto.
Qed.

(** False in general: connection 2 was part of the first batch (slot 1) and is idle in
    the second; the callback of connection 4 releases it; the event of connection 1,
    which is now in slot 1, is lost *)
Definition first : list report := [(1, (true, false)); (2, (true, false))].
Definition second : list report := [(4, (true, false)); (1, (true, false))].
Theorem C63_refuted : exists s b progs s' log, reach s /\ valid s b /\
  ev_loop s b progs = Ok (s', log) /\
  exists e, In (e, (true, false)) b /\ stays s s' e /\ rcb (evm s' e) = true /\
    ~ delivered log e (gen (evm s e)) false.
Proof.
  destruct (ev_loop four first []) as [[s log]| |] eqn:E; try (vm_compute in E; discriminate).
  assert (R : reach s).
  { eapply reach_loop; [apply reach_four| |exact E].
    apply valid_small; [reflexivity|vm_compute; discriminate|repeat constructor; cbn; intuition discriminate]. }
  vm_compute in E. inversion E; subst; clear E.
  eexists _, second, [[AFree 2]], _, _. split; [exact R|]. split.
  { apply valid_small; [reflexivity|vm_compute; discriminate|repeat constructor; cbn; intuition discriminate]. }
  split; [vm_compute; reflexivity|]. exists 1. split; [right; left; reflexivity|].
  split; [split; reflexivity|]. split; [reflexivity|].
  intros [H|H]; cbn in H; intuition discriminate.
Qed.
Print Assumptions C63_refuted.

(** ** C64. Histories in which a descriptor is given to a connection once and is not in use
    already; the kernel may refuse *)
Definition kok (s : kst) (o : kop) : Prop :=
  match o with
  | KOpen c d => fd (conm s c) = 0 /\ d <> 0 /\ (forall c', fd (conm s c') <> d)
  | KOpt c _ _ => fd (conm s c) <> 0
  | KClose c => fd (conm s c) <> 0
  end.
Fixpoint kall (s : kst) (l : list kop) : Prop :=
  match l with [] => True | o :: t => kok s o /\ kall (kstep s o) t end.
(** the last interest asked for, from the history alone; 0 if none *)
Definition last_asked (l : list kop) (c : Z) : Z :=
  fold_left (fun a o => match o with
    | KOpt c' w _ => if c' =? c then w else a
    | KClose c' => if c' =? c then 0 else a
    | KOpen _ _ => a end) l 0.

(** the last interest asked for without being refused *)
Definition last_granted (l : list kop) (c : Z) : Z :=
  fold_left (fun a o => match o with
    | KOpt c' w ok => if (c' =? c) && ok then w else a
    | KClose c' => if c' =? c then 0 else a
    | KOpen _ _ => a end) l 0.

Record kinv (s : kst) (l : list kop) : Prop := Kinv {
  k_reg : forall c, fd (conm s c) <> 0 ->
    reg s (fd (conm s c)) = (if last_granted l c =? 0 then None else Some (last_granted l c));
  k_opt : forall c, opt (conm s c) = last_granted l c;
  k_none : forall c, fd (conm s c) = 0 -> last_granted l c = 0;
  k_inj : forall c c', fd (conm s c) <> 0 -> fd (conm s c) = fd (conm s c') -> c = c';
  k_free : forall d, d <> 0 -> (forall c, fd (conm s c) <> d) -> reg s d = None }.

Lemma last_snoc l o c : last_granted (l ++ [o]) c =
  match o with KOpt c' w ok => if (c' =? c) && ok then w else last_granted l c
  | KClose c' => if c' =? c then 0 else last_granted l c | KOpen _ _ => last_granted l c end.
Proof. unfold last_granted. rewrite fold_left_app. destruct o; reflexivity. Qed.

Lemma kinv_step s l o : kinv s l -> kok s o -> kinv (kstep s o) (l ++ [o]).
Proof.
  intros [R O N J F] K. destruct o as [c d|c want ok|c]; cbn [kstep kok] in *.
  - destruct K as (K1 & K2 & K3).
    assert (FD : forall c', fd (upd (conm s) c (Con d (opt (conm s c)) (asked (conm s c))) c') = if c' =? c then d else fd (conm s c')).
    { intros c'. unfold upd. destruct (c' =? c); reflexivity. }
    assert (OP : forall c', opt (upd (conm s) c (Con d (opt (conm s c)) (asked (conm s c))) c') = opt (conm s c')).
    { intros c'. unfold upd. destruct (Z.eqb_spec c' c); subst; reflexivity. }
    constructor; cbn [reg conm]; intros; rewrite ?last_snoc, ?FD, ?OP in *.
    + destruct (Z.eqb_spec c0 c); [subst; rewrite (N c K1); rewrite F; auto|apply R; auto].
    + auto.
    + destruct (Z.eqb_spec c0 c); [contradiction|auto].
    + destruct (Z.eqb_spec c0 c), (Z.eqb_spec c' c); subst; auto; exfalso; eapply K3; eauto.
    + apply F; auto. intros c' Q. specialize (H0 c'). rewrite FD in H0. destruct (Z.eqb_spec c' c); [subst; congruence|contradiction].
  - rename K into K1. unfold ev_opt. set (v := conm s c) in *.
    destruct (Z.eqb_spec (opt v) want) as [E|E]; cbn [fst].
    + assert (FD : forall c', fd (upd (conm s) c (Con (fd v) (opt v) want) c') = fd (conm s c')).
      { intros c'. unfold upd. destruct (Z.eqb_spec c' c); subst; reflexivity. }
      assert (OP : forall c', opt (upd (conm s) c (Con (fd v) (opt v) want) c') = opt (conm s c')).
      { intros c'. unfold upd. destruct (Z.eqb_spec c' c); subst; reflexivity. }
      assert (LA : forall c', last_granted (l ++ [KOpt c want ok]) c' = last_granted l c').
      { intros c'. rewrite last_snoc. destruct (Z.eqb_spec c c'); auto. subst c'. destruct ok; [|reflexivity]. cbn [andb]. rewrite <- E. symmetry. rewrite <- O. reflexivity. }
      constructor; cbn [reg conm]; intros; rewrite ?LA, ?FD, ?OP in *; auto.
      apply F; auto. intros c' Q. specialize (H0 c'). rewrite FD in H0. contradiction.
    + assert (G : Bool.eqb (match reg s (fd v) with Some _ => true | None => false end)
                   (negb ((opt v =? 0) && negb (want =? 0))) = true).
      { unfold v in *. rewrite (R c K1), <- O. destruct (Z.eqb_spec (opt (conm s c)) 0) as [E0|E0]; cbn [andb negb Bool.eqb].
        - destruct (Z.eqb_spec want 0); [congruence|reflexivity].
        - reflexivity. }
      destruct ok; cbn [andb]; [|
        assert (FD : forall c', fd (upd (conm s) c (Con (fd v) (opt v) want) c') = fd (conm s c')) by
          (intros c'; unfold upd; destruct (Z.eqb_spec c' c); subst; reflexivity);
        assert (OP : forall c', opt (upd (conm s) c (Con (fd v) (opt v) want) c') = opt (conm s c')) by
          (intros c'; unfold upd; destruct (Z.eqb_spec c' c); subst; reflexivity);
        constructor; cbn [reg conm fst]; intros; rewrite ?last_snoc, ?Bool.andb_false_r, ?FD, ?OP in *; auto;
        apply F; auto; intros c' Q; specialize (H0 c'); rewrite FD in H0; contradiction].
      rewrite G. cbn [fst].
      assert (FD : forall c', fd (upd (conm s) c (Con (fd v) want want) c') = fd (conm s c')).
      { intros c'. unfold upd. destruct (Z.eqb_spec c' c); subst; reflexivity. }
      constructor; cbn [reg conm]; intros; rewrite ?last_snoc, ?Bool.andb_true_r, ?FD in *.
      * destruct (Z.eqb_spec c c0) as [->|D].
        -- apply upd_same.
        -- rewrite upd_other; [apply R; auto|]. intros Q. apply D. symmetry. apply J; auto.
      * unfold upd. rewrite (Z.eqb_sym c0 c). destruct (Z.eqb_spec c c0); auto.
      * destruct (Z.eqb_spec c c0); [subst; contradiction|auto].
      * eapply J; eauto.
      * rewrite upd_other; [apply F; auto; intros c' Q; specialize (H0 c'); rewrite FD in H0; contradiction|].
        intros ->. apply (H0 c). rewrite FD. reflexivity.
  - assert (FD : forall c', fd (upd (conm s) c (Con 0 0 0) c') = if c' =? c then 0 else fd (conm s c')).
    { intros c'. unfold upd. destruct (Z.eqb_spec c' c); subst; reflexivity. }
    constructor; cbn [reg conm]; intros; rewrite ?last_snoc, ?FD in *.
    + destruct (Z.eqb_spec c0 c); [contradiction|]. destruct (Z.eqb_spec c c0); [congruence|].
      rewrite upd_other; [apply R; auto|]. intros Q. apply n. apply J; auto.
    + unfold upd. rewrite (Z.eqb_sym c0 c). destruct (Z.eqb_spec c c0); auto.
    + rewrite (Z.eqb_sym c0 c) in H. destruct (Z.eqb_spec c c0); auto.
    + destruct (Z.eqb_spec c0 c); [contradiction|]. destruct (Z.eqb_spec c' c); [congruence|]. apply J; auto.
    + unfold upd. destruct (Z.eqb_spec d (fd (conm s c))); auto. apply F; auto.
      intros c' Q. specialize (H0 c'). rewrite FD in H0. destruct (Z.eqb_spec c' c); [subst; congruence|contradiction].
Qed.

Theorem C64_granted : forall l, kall kst0 l -> forall c, fd (conm (krun kst0 l) c) <> 0 ->
  reg (krun kst0 l) (fd (conm (krun kst0 l) c)) = (if last_granted l c =? 0 then None else Some (last_granted l c)).
Proof.
  assert (G : forall l s pre, kinv s pre -> kall s l -> kinv (krun s l) (pre ++ l)).
  { induction l as [|o l IH]; intros s pre I K; cbn [krun fold_left kall] in *.
    - rewrite app_nil_r. auto.
    - destruct K as [K1 K2]. replace (pre ++ o :: l) with ((pre ++ [o]) ++ l) by (rewrite <- app_assoc; reflexivity).
      apply IH; auto. apply kinv_step; auto. }
  intros l K c H. apply (k_reg _ _ (G l kst0 [] ltac:(constructor; cbn; auto; try congruence) K)). auto.
Qed.
Print Assumptions C64_granted.

(** if the kernel has no reason to refuse, that is the interest asked for *)
Definition granted (o : kop) : Prop := match o with KOpt _ _ ok => ok = true | _ => True end.
Theorem C64_partial : forall l, kall kst0 l -> Forall granted l -> forall c, fd (conm (krun kst0 l) c) <> 0 ->
  reg (krun kst0 l) (fd (conm (krun kst0 l) c)) = (if last_asked l c =? 0 then None else Some (last_asked l c)).
Proof.
  intros l K F c H. rewrite (C64_granted l K c H). replace (last_granted l c) with (last_asked l c); [reflexivity|].
  clear K H. unfold last_asked, last_granted. generalize 0 at 2 4. induction F as [|o l Fo F IH]; intros a; [reflexivity|].
  cbn [fold_left]. rewrite IH. destruct o as [| |]; try reflexivity. cbn in Fo. subst. rewrite Bool.andb_true_r. reflexivity.
Qed.
Print Assumptions C64_partial.

Definition kex : list kop :=
  [KOpen 1 5; KOpt 1 EV_R true; KOpt 1 (EV_R + EV_W) true; KOpen 2 6; KOpt 2 EV_W true; KOpt 1 0 true; KOpt 1 EV_R true;
   KClose 2; KOpen 3 6; KOpt 3 EV_R true].
Local Arguments Z.add : simpl nomatch.
Example C64_example : kall kst0 kex /\ Forall granted kex /\ fd (conm (krun kst0 kex) 1) <> 0 /\ last_asked kex 1 = EV_R.
Proof.
  split; [|split; [repeat constructor|split; [vm_compute; discriminate|reflexivity]]].
  cbn. unfold upd. repeat split; auto; try discriminate;
    intros c'; cbn; repeat (match goal with |- context [?a =? ?b] => destruct (Z.eqb_spec a b) end; cbn); try discriminate; try lia.
Qed.

(** a refusal, then the same interest again: this time it is registered *)
Example C64_granted_example : kall kst0 [KOpen 1 5; KOpt 1 EV_R false; KOpt 1 EV_R true; KOpt 1 EV_W false] /\
  last_granted [KOpen 1 5; KOpt 1 EV_R false; KOpt 1 EV_R true; KOpt 1 EV_W false] 1 = EV_R.
Proof. split; [|reflexivity]. cbn. repeat split; try discriminate. Qed.

(** the kernel refuses once (no memory, too many watches): nobody looks at the result,
    and the connection stays without the events asked for *)
Theorem C64_refuted : exists l c, fd (conm (krun kst0 l) c) <> 0 /\ last_asked l c = EV_R /\
  reg (krun kst0 l) (fd (conm (krun kst0 l) c)) = None.
Proof. exists [KOpen 1 5; KOpt 1 EV_R false], 1. vm_compute. repeat split; discriminate. Qed.
Print Assumptions C64_refuted.

(** a connection that connects again on a new descriptor: the cached interest belongs to
    the old one, the new one is never registered *)
Theorem C64_refuted_again : exists l c, fd (conm (krun kst0 l) c) = 7 /\ last_asked l c = EV_W /\
  Forall (fun o => match o with KOpt _ _ ok => ok = true | _ => True end) l /\
  reg (krun kst0 l) 7 = None.
Proof.
  exists [KOpen 1 5; KOpt 1 EV_W true; KOpen 1 7; KOpt 1 EV_W true], 1.
  split; [reflexivity|]. split; [reflexivity|]. split; [repeat constructor|reflexivity].
Qed.
Print Assumptions C64_refuted_again.
