(** * C148: which traffic keeps a session alive, and when a quiet session ends *)
From Verif Require Import Base Meta_Model Meta_Proofs S5_Model Relay_Model Relay_Proofs Idle_Model.
Open Scope Z_scope.
Local Arguments Z.add : simpl never.
Local Arguments Z.mul : simpl never.
Local Arguments Z.sub : simpl never.

(** ** What is seen from outside, with the time
    [AGot]: bytes received from the source of direction [b]; [ASent]: bytes sent to its sink,
    and how many bytes then still wait to be sent; [ACall]: a function of the relay is running *)
Inductive act := ACall | AGot (b : bool) (n : Z) | ASent (b : bool) (n rest : Z).
Definition seen (s : timed) (x : iin) : list (Z * act) :=
  match x with
  | IIn i =>
      match r_pc (i_relay s), i with
      | PRecv b, RRecv (RxData bs) => [(i_now s, ACall); (i_now s, AGot b (zlen bs))]
      | PSend b, RSend (TxSent n) =>
          [(i_now s, ACall); (i_now s, ASent b n (meta_getlen (d_buf (get (i_relay s) b)) - n))]
      | PRecv _, RRecv _ | PSend _, RSend _ => [(i_now s, ACall)]
      | PIdle, RReadable b => if d_rcb (get (i_relay s) b) then [(i_now s, ACall)] else []
      | PIdle, RWritable b => if d_wcb (get (i_relay s) b) then [(i_now s, ACall)] else []
      | _, _ => []
      end
  | _ => []
  end.
Fixpoint trace (s : timed) (l : list iin) : list (Z * act) :=
  match l with
  | [] => []
  | x :: l => seen s x ++ match istep s x with Ok s' => trace s' l | _ => [] end
  end.
(** hand-over itself counts as a call *)
Definition session (m : meta) (cap t0 : Z) (l : list iin) : list (Z * act) :=
  (t0, ACall) :: trace (idle_init m cap t0) l.

(** bytes came in, or the last waiting byte went out *)
Definition progress (a : act) : Prop :=
  match a with AGot _ n => 0 < n | ASent _ n rest => 0 < n /\ rest = 0 | ACall => False end.

(** ** Without the timers this is the relay of Relay_Model.v *)
Lemma er_after_recv s b d : i_relay (i_after_recv s b d) = after_recv (i_relay s) b d.
Proof. unfold i_after_recv, after_recv. destruct (0 <? _); [reflexivity|]. destruct (d_err d); reflexivity. Qed.
Lemma er_recv_loop s b d : i_relay (i_recv_loop s b d) = recv_loop (i_relay s) b d.
Proof. unfold i_recv_loop, recv_loop. destruct (0 <? _); [reflexivity|apply er_after_recv]. Qed.
Lemma er_send_loop s b d : i_relay (i_send_loop s b d) = send_loop (i_relay s) b d.
Proof.
  unfold i_send_loop, send_loop, i_after_send, after_send. destruct (0 <? _); [reflexivity|].
  destruct (d_err d); [reflexivity|]. unfold i_recv_enter. rewrite er_recv_loop. reflexivity.
Qed.
Definition rin_of (s : timed) (x : iin) : option rin :=
  match x with IIn i => Some i | IFire _ => Some RTimer | ITick _ => None end.
Lemma er_step s x s' : i_enabled s x -> istep s x = Ok s' ->
  match rin_of s x with Some i => relay_step (i_relay s) i = Ok (i_relay s') | None => i_relay s' = i_relay s end.
Proof.
  intros E H. destruct x as [i|t|c]; cbn [rin_of].
  - destruct E as (E & NT). unfold istep in H. unfold relay_step.
    destruct (r_pc (i_relay s)) as [|b|b|w] eqn:PC; destruct i as [x|x|b0|b0|]; try congruence;
      try (unfold r_enabled in E; rewrite PC in E; contradiction).
    + destruct (d_rcb _); inversion H; subst; [|reflexivity]. unfold i_recv_enter. rewrite er_recv_loop. reflexivity.
    + destruct (d_wcb _); inversion H; subst; [|reflexivity]. rewrite er_send_loop. reflexivity.
    + destruct (meta_getfree _ <? 1); [discriminate|]. destruct x as [bs| |].
      * apply bind_ok in H. destruct H as (m & H1 & H2). rewrite H1. inversion H2; subst.
        cbn [bind]. rewrite er_recv_loop. reflexivity.
      * inversion H; subst. rewrite er_after_recv. reflexivity.
      * inversion H; subst. rewrite er_after_recv. reflexivity.
    + destruct (meta_getlen _ <? 1); [discriminate|]. destruct x; inversion H; subst; try reflexivity.
      rewrite er_send_loop. reflexivity.
  - unfold istep in H. destruct (r_pc (i_relay s)); inversion H; subst; reflexivity.
  - destruct E as (E & _). unfold istep in H. unfold relay_step. rewrite E in *. inversion H; subst. reflexivity.
Qed.

(** ** The invariant *)
Definition due (s : timed) (c : bool) (t : Z) : Prop := exists k, i_at s c = Some k /\ t + tunnel_tmout <= k.
Definition base (s : timed) (tr : list (Z * act)) : Prop :=
  (forall t a, In (t, a) tr -> t <= i_now s) /\ (exists k, i_at s true = Some k) /\
  (forall c k, i_at s c = Some k -> In (k - tunnel_tmout) (map fst tr)).
Definition kept (s : timed) (tr : list (Z * act)) (c : bool) : Prop :=
  forall t a, In (t, a) tr -> progress a -> due s c t.
Definition good (s : timed) (tr : list (Z * act)) : Prop :=
  base s tr /\
  match r_pc (i_relay s) with
  | PIdle => kept s tr true /\ kept s tr false
  | PRecv b => In (i_now s) (map fst tr) /\ due s b (i_now s) /\
               (0 < meta_getlen (d_buf (get (i_relay s) b)) \/ kept s tr (negb b))
  | PSend b => In (i_now s) (map fst tr) /\ due s (negb b) (i_now s) /\ kept s tr b
  | PDead _ => True
  end.

Lemma due_le s c t t' : due s c t -> t' <= t -> due s c t'.
Proof. intros (k & K & L) H. exists k. split; [exact K|lia]. Qed.
Lemma kept_now s tr c : base s tr -> due s c (i_now s) -> kept s tr c.
Proof. intros (B & _) D t a H _. eapply due_le; [exact D|]. eapply B; exact H. Qed.
Lemma due_to s r c t : due (to s r) c t = due s c t.
Proof. reflexivity. Qed.
Lemma base_to s r tr : base s tr -> base (to s r) tr.
Proof. exact (fun H => H). Qed.
Lemma due_arm s c : due (arm s c) c (i_now s).
Proof. exists (i_now s + tunnel_tmout). cbn. rewrite Bool.eqb_reflx. split; [reflexivity|lia]. Qed.
Lemma due_arm_mono s c x : due s x (i_now s) -> due (arm s c) x (i_now s).
Proof.
  intros (k & K & L). unfold due. cbn. destruct (Bool.eqb x c); [|exists k; auto].
  exists (i_now s + tunnel_tmout). split; [reflexivity|lia].
Qed.
Lemma base_arm s c tr : base s tr -> In (i_now s) (map fst tr) -> base (arm s c) tr.
Proof.
  intros (B & (k & K) & C) H. split; [exact B|]. split.
  - cbn. destruct c; [eexists; reflexivity|exists k; exact K].
  - intros x y. cbn. destruct (Bool.eqb x c).
    + intros E. inversion E; subst. replace (_ - _) with (i_now s) by lia. exact H.
    + apply C.
Qed.
Lemma kept_arm s tr c x : base s tr -> kept s tr x -> kept (arm s c) tr x.
Proof.
  intros (B & _) K t a H P. specialize (B _ _ H). destruct (K t a H P) as (k & E & L). unfold due. cbn.
  destruct (Bool.eqb x c); [|exists k; auto]. exists (i_now s + tunnel_tmout). split; [reflexivity|lia].
Qed.
Lemma kept_both s tr b : kept s tr b -> kept s tr (negb b) -> kept s tr true /\ kept s tr false.
Proof. destruct b; auto. Qed.

Lemma after_recv_good s b d tr : base s tr -> In (i_now s) (map fst tr) -> due s b (i_now s) ->
  (0 < meta_getlen (d_buf d) \/ kept s tr (negb b)) -> good (i_after_recv s b d) tr.
Proof.
  intros B N D K. unfold i_after_recv. destruct (Z.ltb_spec 0 (meta_getlen (d_buf d))) as [L|L].
  - set (q := to s _). assert (base (arm q (negb b)) tr) as BA by (apply base_arm; [exact B|exact N]).
    split; [exact BA|]. replace (r_pc (i_relay (arm q (negb b)))) with (PSend b) by (symmetry; apply pc_put).
    split; [exact N|]. split; [apply (due_arm q)|]. apply kept_now; [exact BA|]. apply (due_arm_mono q). exact D.
  - destruct K as [K|K]; [lia|]. destruct (d_err d); split; try exact B; cbn [to i_relay]; rewrite pc_put; [exact I|].
    apply (kept_both _ _ b); [|exact K]. apply kept_now; [exact B|exact D].
Qed.
Lemma recv_loop_good s b d tr : base s tr -> In (i_now s) (map fst tr) -> due s b (i_now s) ->
  (0 < meta_getlen (d_buf d) \/ kept s tr (negb b)) -> good (i_recv_loop s b d) tr.
Proof.
  intros B N D K. unfold i_recv_loop. destruct (0 <? meta_getfree (d_buf d)); [|apply after_recv_good; assumption].
  split; [exact B|]. cbn [to i_relay i_now]. rewrite pc_put, get_put_same. split; [exact N|]. split; [exact D|exact K].
Qed.
Lemma recv_enter_good s b d tr : base s tr -> In (i_now s) (map fst tr) ->
  (0 < meta_getlen (d_buf d) \/ kept s tr (negb b)) -> good (i_recv_enter s b d) tr.
Proof.
  intros B N K. apply recv_loop_good; [apply base_arm; assumption|exact N|exact (due_arm s b)|].
  destruct K as [K|K]; [left; exact K|right; apply kept_arm; assumption].
Qed.
Lemma send_loop_good s b d tr : base s tr -> In (i_now s) (map fst tr) -> due s (negb b) (i_now s) ->
  (0 < meta_getlen (d_buf d) -> kept s tr b) -> good (i_send_loop s b d) tr.
Proof.
  intros B N D K. unfold i_send_loop. destruct (Z.ltb_spec 0 (meta_getlen (d_buf d))) as [L|L].
  - split; [exact B|]. cbn [to i_relay i_now]. rewrite pc_put. split; [exact N|]. split; [exact D|exact (K L)].
  - unfold i_after_send. destruct (d_err d); [split; [exact B|]; cbn [to i_relay]; rewrite pc_put; exact I|].
    apply recv_enter_good; [exact B|exact N|]. right. apply kept_now; assumption.
Qed.

Lemma base_more s tr l : base s tr -> (forall t a, In (t, a) l -> t = i_now s) -> base s (tr ++ l).
Proof.
  intros (B & X & C) H. split; [|split; [exact X|]].
  - intros t a J. apply in_app_or in J. destruct J as [J|J]; [eapply B; exact J|]. rewrite (H _ _ J). lia.
  - intros c k E. rewrite map_app. apply in_or_app. left. eapply C; exact E.
Qed.
Lemma kept_more s tr l c : kept s tr c -> (forall t a, In (t, a) l -> ~ progress a) -> kept s (tr ++ l) c.
Proof. intros K H t a J P. apply in_app_or in J. destruct J as [J|J]; [eapply K; eassumption|]. destruct (H _ _ J P). Qed.
Lemma now_in s (tr : list (Z * act)) a l : In (i_now s) (map fst (tr ++ (i_now s, a) :: l)).
Proof. rewrite map_app. apply in_or_app. right. left. reflexivity. Qed.
Lemma seen_now s x t a : In (t, a) (seen s x) -> t = i_now s.
Proof.
  unfold seen. destruct x as [i| |]; try contradiction. destruct (r_pc (i_relay s)), i as [[]|[]| | |]; cbn; try contradiction;
    try (destruct (d_rcb _)); try (destruct (d_wcb _)); cbn; intuition; try match goal with H : (_, _) = _ |- _ => inversion H; reflexivity end.
Qed.

Lemma good_step pd pu s x s' tr : rinv pd pu (i_relay s) -> good s tr -> i_enabled s x -> istep s x = Ok s' ->
  good s' (tr ++ seen s x).
Proof.
  intros RI (B & G) E H. pose proof (base_more s tr (seen s x) B (seen_now s x)) as B'.
  destruct x as [i|t|c].
  - destruct E as (E & NT). unfold istep in H. unfold seen in *. unfold r_enabled in E.
    destruct (r_pc (i_relay s)) as [|b|b|w] eqn:PC; destruct i as [x|x|b0|b0|]; try congruence; try contradiction.
    + destruct (d_rcb (get (i_relay s) b0)) eqn:RC; inversion H; subst.
      * apply recv_enter_good; [exact B'|apply now_in|]. right. apply kept_more; [destruct G; destruct b0; assumption|].
        intros ? ? [J|[]]. inversion J; subst. exact (fun x => x).
      * rewrite app_nil_r. split; [exact B|]. rewrite PC. exact G.
    + destruct (d_wcb (get (i_relay s) b0)) eqn:RC; inversion H; subst.
      * apply send_loop_good; [apply base_arm; [exact B'|apply now_in]|exact (now_in s tr ACall [])|exact (due_arm s (negb b0))|].
        intros _. apply kept_arm; [exact B'|]. apply kept_more; [destruct G; destruct b0; assumption|].
        intros ? ? [J|[]]. inversion J; subst. exact (fun x => x).
      * rewrite app_nil_r. split; [exact B|]. rewrite PC. exact G.
    + destruct G as (N & D & K). destruct (meta_getfree _ <? 1); [discriminate|]. destruct x as [bs| |].
      * apply bind_ok in H. destruct H as (m & H1 & H2). inversion H2; subst.
        apply recv_loop_good; [exact B'|apply now_in|exact D|]. left. cbn [d_recvd d_buf].
        unfold meta_store in H1. apply bind_ok in H1. destruct H1 as (bf & _ & H1). inversion H1; subst. unfold meta_getlen. cbn.
        destruct E as (NE & _). assert (0 < zlen bs) by (destruct bs; [congruence|rewrite zlen_cons; pose proof (zlen_nonneg bs); lia]).
        destruct RI as (DW & _). destruct (DW b) as ((? & ?) & _). lia.
      * inversion H; subst. apply after_recv_good; [exact B'|apply now_in|exact D|]. destruct K as [K|K]; [left; exact K|right].
        apply kept_more; [exact K|]. intros ? ? [J|[]]. inversion J; subst. exact (fun x => x).
      * inversion H; subst. apply after_recv_good; [exact B'|apply now_in|exact D|]. destruct K as [K|K]; [left; exact K|right].
        apply kept_more; [exact K|]. intros ? ? [J|[]]. inversion J; subst. exact (fun x => x).
    + destruct G as (N & D & K). destruct (meta_getlen _ <? 1) eqn:L1; [discriminate|]. destruct x as [n| |]; inversion H; subst.
      * apply send_loop_good; [exact B'|apply now_in|exact D|]. cbn [d_sent d_buf]. intros L. apply kept_more; [exact K|].
        intros ? ? [J|[J|[]]]; inversion J; subst; [exact (fun x => x)|]. cbn [progress]. unfold meta_getlen, meta_consume in *. cbn in L. lia.
      * split; [exact B'|]. cbn. apply (kept_both _ _ b).
        -- apply kept_more; [exact K|]. intros ? ? [J|[]]. inversion J; subst. exact (fun x => x).
        -- apply kept_now; [exact B'|exact D].
      * split; [exact B'|]. exact I.
  - destruct E as (E & T). unfold istep in H. rewrite E in *. inversion H; subst. cbn [seen]. rewrite app_nil_r.
    destruct B as (B1 & B2 & B3). split; [split; [|split; [exact B2|exact B3]]|cbn; rewrite E; exact G].
    intros t0 a J. specialize (B1 _ _ J). cbn. lia.
  - destruct E as (E & _). unfold istep in H. rewrite E in *. inversion H; subst. cbn [seen]. rewrite app_nil_r. split; [exact B|exact I].
Qed.

Lemma rinv_istep pd pu s x s' : rinv pd pu (i_relay s) -> i_enabled s x -> istep s x = Ok s' -> rinv pd pu (i_relay s').
Proof.
  intros RI E H. pose proof (er_step s x s' E H) as R. destruct x as [i|t|c]; cbn [rin_of] in R.
  - destruct (relay_step_inv pd pu _ i RI (proj1 E)) as (r & R1 & R2). rewrite R in R1. inversion R1; subst. exact R2.
  - rewrite R. exact RI.
  - assert (r_enabled (i_relay s) RTimer) as E' by (unfold r_enabled; destruct E as (-> & _); exact I).
    destruct (relay_step_inv pd pu _ RTimer RI E') as (r & R1 & R2). rewrite R in R1. inversion R1; subst. exact R2.
Qed.
Lemma good_run pd pu : forall l s s' tr, rinv pd pu (i_relay s) -> good s tr -> i_valid s l -> irun s l = Ok s' ->
  good s' (tr ++ trace s l) /\ rinv pd pu (i_relay s').
Proof.
  induction l as [|x l IH]; intros s s' tr RI G V H; cbn [irun trace] in *.
  - inversion H; subst. rewrite app_nil_r. auto.
  - apply bind_ok in H. destruct H as (s1 & H1 & H2). destruct V as (E & V). rewrite H1.
    rewrite app_assoc. apply (IH s1).
    + eapply rinv_istep; eassumption.
    + eapply good_step; eassumption.
    + apply V. exact H1.
    + exact H2.
Qed.
Lemma good_init m cap t0 : good (idle_init m cap t0) [(t0, ACall)].
Proof.
  unfold idle_init. set (s := Ti _ _ _). set (d := r_dn _).
  assert (base (arm s true) [(t0, ACall)]) as B.
  { split; [|split].
    - intros t a [J|[]]. inversion J; subst. cbn. lia.
    - eexists. reflexivity.
    - intros c k. cbn. destruct c; cbn; [|discriminate]. intros E. inversion E; subst. left. lia. }
  apply recv_loop_good; [exact B|left; reflexivity|exact (due_arm s true)|].
  right. intros t a [J|[]] P. inversion J; subst. destruct P.
Qed.
Lemma rinv_init m cap t0 : handover_ok m -> 0 < cap -> rinv (mdata m) [] (i_relay (idle_init m cap t0)).
Proof. intros H C. unfold idle_init, i_recv_enter. rewrite er_recv_loop. exact (relay_init_inv m cap H C). Qed.
Lemma good_session m cap t0 l s : handover_ok m -> 0 < cap -> i_valid (idle_init m cap t0) l ->
  irun (idle_init m cap t0) l = Ok s -> good s (session m cap t0 l).
Proof.
  intros H C V R. exact (proj1 (good_run _ _ l _ _ [(t0, ACall)] (rinv_init m cap t0 H C) (good_init m cap t0) V R)).
Qed.

(** ** C148 *)
(** A session is cut by a timer only if for ten seconds no byte came in from either side and
    no direction sent the last byte it had waiting. *)
Theorem C148_partial : forall m cap t0 l s c,
  handover_ok m -> 0 < cap -> i_valid (idle_init m cap t0) l -> irun (idle_init m cap t0) l = Ok s ->
  i_enabled s (IFire c) ->
  forall t a, In (t, a) (session m cap t0 l) -> progress a -> t + 10000 <= i_now s.
Proof.
  intros m cap t0 l s c H C V R (PC & k & K & L) t a J P.
  pose proof (good_session m cap t0 l s H C V R) as (_ & G). rewrite PC in G.
  assert (due s c t) as (k' & K' & L') by (destruct G as (G1 & G2); destruct c; [eapply G1|eapply G2]; eassumption).
  rewrite K in K'. inversion K'; subst. unfold tunnel_tmout in *. lia.
Qed.
Print Assumptions C148_partial.

(** A session in which none of its functions has run for ten seconds is due to end. *)
Theorem C148_ends : forall m cap t0 l s t,
  handover_ok m -> 0 < cap -> i_valid (idle_init m cap t0) l -> irun (idle_init m cap t0) l = Ok s ->
  r_pc (i_relay s) = PIdle -> (forall t' a, In (t', a) (session m cap t0 l) -> t' <= t) -> t + 10000 <= i_now s ->
  exists c s', i_enabled s (IFire c) /\ istep s (IFire c) = Ok s' /\ r_pc (i_relay s') = PDead DTimeout.
Proof.
  intros m cap t0 l s t H C V R PC B L. pose proof (good_session m cap t0 l s H C V R) as ((_ & (k & K) & J) & _).
  exists true, (Ti (with_pc (i_relay s) (PDead DTimeout)) (i_now s) (i_at s)). split; [|split].
  - split; [exact PC|]. exists k. split; [exact K|]. specialize (J true k K). apply in_map_iff in J.
    destruct J as ((t' & a) & E & J). specialize (B _ _ J). cbn in E. unfold tunnel_tmout in *. lia.
  - unfold istep. rewrite PC. reflexivity.
  - reflexivity.
Qed.
Print Assumptions C148_ends.

(** In full it is false: a byte is sent to a slow receiver one second before the session is cut. *)
Definition slow : list iin :=
  [IIn (RRecv RxAgain);                                     (* hand-over at time 0 *)
   IIn (RReadable false); IIn (RRecv (RxData [1; 2; 3; 4])); IIn (RSend (TxSent 1)); IIn (RSend TxAgain);
   ITick 9000; IIn (RWritable false); IIn (RSend (TxSent 1)); IIn (RSend TxAgain);
   ITick 10000].
Lemma slow_runs : exists s, irun (idle_init (meta_new 4) 4 0) slow = Ok s /\ i_enabled s (IFire false) /\
  i_valid (idle_init (meta_new 4) 4 0) slow /\ i_now s = 10000 /\
  In (9000, ASent false 1 2) (session (meta_new 4) 4 0 slow).
Proof.
  eexists. split; [vm_compute; reflexivity|]. split; [|split; [|split]].
  - split; [reflexivity|]. exists 10000. split; [reflexivity|]. cbn. lia.
  - repeat (split; [repeat split; try discriminate; try exact I; try lia; try (vm_compute; intuition congruence); try (cbn; unfold bytes; repeat constructor; lia)|intros s' E; vm_compute in E; inversion E; subst; clear E]).
    exact I.
  - reflexivity.
  - vm_compute. intuition.
Qed.
Lemma buf4_ok : handover_ok (meta_new 4).
Proof. split; [vm_compute; repeat split; congruence|]. split; [reflexivity|right; reflexivity]. Qed.
Theorem C148_refuted : exists m cap l s c t b n rest,
  handover_ok m /\ 0 < cap /\ i_valid (idle_init m cap 0) l /\ irun (idle_init m cap 0) l = Ok s /\
  i_enabled s (IFire c) /\ In (t, ASent b n rest) (session m cap 0 l) /\ 0 < n /\ t + 1000 = i_now s.
Proof.
  destruct slow_runs as (s & R & E & V & N & J). exists (meta_new 4), 4, slow, s, false, 9000, false, 1, 2.
  split; [exact buf4_ok|]. split; [lia|]. split; [exact V|]. split; [exact R|]. split; [exact E|].
  split; [exact J|]. split; [lia|]. rewrite N. reflexivity.
Qed.
Print Assumptions C148_refuted.

(** the byte of time 9000 was not the last one waiting, what came in came in ten seconds before *)
Example ex_C148_partial : exists s, irun (idle_init (meta_new 4) 4 0) slow = Ok s /\ i_enabled s (IFire false) /\
  i_valid (idle_init (meta_new 4) 4 0) slow /\ i_now s = 10000 /\
  In (0, AGot false 4) (session (meta_new 4) 4 0 slow) /\ ~ i_enabled s (IFire true).
Proof.
  destruct slow_runs as (s & R & E & V & N & J). exists s. split; [exact R|]. split; [exact E|]. split; [exact V|]. split; [exact N|].
  split; [vm_compute; tauto|]. intros (_ & k & K & L). vm_compute in R. inversion R; subst. vm_compute in K. inversion K; subst. cbn in L. lia.
Qed.
Example ex_C148_ends : exists s, irun (idle_init (meta_new 4) 4 0) (slow ++ [ITick 19000]) = Ok s /\
  i_valid (idle_init (meta_new 4) 4 0) (slow ++ [ITick 19000]) /\
  r_pc (i_relay s) = PIdle /\ i_now s = 9000 + 10000 /\
  forall t a, In (t, a) (session (meta_new 4) 4 0 (slow ++ [ITick 19000])) -> t <= 9000.
Proof.
  eexists. split; [vm_compute; reflexivity|]. split; [|split; [reflexivity|split; [reflexivity|]]].
  1: { repeat (split; [repeat split; try discriminate; try exact I; try lia; try (vm_compute; intuition congruence); try (cbn; unfold bytes; repeat constructor; lia)|intros s' E; vm_compute in E; inversion E; subst; clear E]). exact I. }
  intros t a J. vm_compute in J. repeat (destruct J as [J|J]; [inversion J; subst; lia|]). destruct J.
Qed.
