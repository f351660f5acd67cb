(** * C36 and C38 for a relay above TLS: the streams do not depend on which callbacks are
      installed *)
From Verif Require Import Base Meta_Model Meta_Proofs S5_Model Relay_Model Relay_Proofs Relay_Props.

(** what [observe] sees along a run *)
Fixpoint any_trace (r : relay) (xs : list ain) : list ioev :=
  match xs with
  | [] => []
  | x :: l => match x with AIn i => observe r i | ASet _ _ _ => [] end ++
              match any_step r x with Ok r' => any_trace r' l | _ => [] end
  end.

Definition winv (pd pu : list Z) (r : relay) : Prop :=
  (forall b : bool, dwf (if b then pd else pu) (get r b)) /\
  match r_pc r with
  | PRecv b => 0 < meta_getfree (d_buf (get r b))
  | PSend b => 0 < meta_getlen (d_buf (get r b))
  | PDead (DClosed b) => d_err (get r b) = true /\ meta_getlen (d_buf (get r b)) = 0
  | _ => True
  end.

Lemma winv_put pd pu r (b : bool) d p : dwf (if b then pd else pu) d ->
  (forall b : bool, dwf (if b then pd else pu) (get r b)) ->
  match p with
  | PRecv b' => b' = b /\ 0 < meta_getfree (d_buf d)
  | PSend b' => b' = b /\ 0 < meta_getlen (d_buf d)
  | PDead (DClosed b') => b' = b /\ d_err d = true /\ meta_getlen (d_buf d) = 0
  | _ => True
  end -> winv pd pu (put r b d p).
Proof.
  intros D O P. split.
  - both b; [rewrite get_put_same; exact D|rewrite get_put_other; apply O].
  - rewrite pc_put. destruct p as [|b'|b'|[b'|b'|]]; try exact I; destruct P as (-> & P); rewrite get_put_same; exact P.
Qed.
Lemma after_recv_w pd pu r (b : bool) d : dwf (if b then pd else pu) d ->
  (forall b : bool, dwf (if b then pd else pu) (get r b)) -> winv pd pu (after_recv r b d).
Proof.
  intros D O. unfold after_recv. pose proof D as (WF & C & E). destruct (Z.ltb_spec 0 (meta_getlen (d_buf d))) as [L|L].
  - apply winv_put; auto.
  - destruct (d_err d) eqn:ER; apply winv_put; auto. split; [reflexivity|]. split; [exact ER|].
    destruct WF as (? & ?). unfold meta_getlen in *. lia.
Qed.
Lemma recv_loop_w pd pu r (b : bool) d : dwf (if b then pd else pu) d ->
  (forall b : bool, dwf (if b then pd else pu) (get r b)) -> winv pd pu (recv_loop r b d).
Proof.
  intros D O. unfold recv_loop. destruct (Z.ltb_spec 0 (meta_getfree (d_buf d))); [apply winv_put; auto|apply after_recv_w; auto].
Qed.
Lemma send_loop_w pd pu r (b : bool) d : dwf (if b then pd else pu) d ->
  (forall b : bool, dwf (if b then pd else pu) (get r b)) -> winv pd pu (send_loop r b d).
Proof.
  intros D O. unfold send_loop. destruct (Z.ltb_spec 0 (meta_getlen (d_buf d))) as [L|L]; [apply winv_put; auto|].
  pose proof D as (WF & C & EQ).
  assert (Z0 : meta_getlen (d_buf d) = 0) by (destruct WF as (? & ?); unfold meta_getlen in *; lia).
  unfold after_send. destruct (d_err d) eqn:ER; [apply winv_put; auto|].
  destruct (meta_clr_wf _ WF) as (WF' & MD). apply recv_loop_w; auto.
  split; [exact WF'|]. split; [exact C|]. simpl. rewrite MD. rewrite (mdata_nil _ WF Z0) in EQ. exact EQ.
Qed.

Lemma any_step_inv pd pu r x : winv pd pu r -> match x with AIn i => r_enabled r i | ASet _ _ _ => True end ->
  exists r', any_step r x = Ok r' /\ winv pd pu r'.
Proof.
  intros (D & PC) EN. destruct x as [i|b rc wc].
  - unfold r_enabled in EN. cbn [any_step]. unfold relay_step.
    destruct (r_pc r) as [|b|b|why] eqn:Epc; destruct i as [x|x|b'|b'|]; try contradiction.
    + destruct (d_rcb (get r b')); eexists; (split; [reflexivity|]); [apply recv_loop_w; auto|]. split; [exact D|rewrite Epc; exact I].
    + destruct (d_wcb (get r b')); eexists; (split; [reflexivity|]); [apply send_loop_w; auto|]. split; [exact D|rewrite Epc; exact I].
    + eexists. split; [reflexivity|]. split; [intros b; rewrite get_with_pc; apply D|exact I].
    + destruct (Z.ltb_spec (meta_getfree (d_buf (get r b))) 1); [lia|]. pose proof (D b) as (WF & C & EQ).
      destruct x as [bs| |].
      * destruct EN as (NE & BY & LE). destruct (meta_store_ok _ bs WF LE) as (m' & S1 & S2 & S3 & S4 & S5 & S6).
        rewrite S1. cbn [bind]. eexists. split; [reflexivity|]. apply recv_loop_w; auto.
        split; [exact S2|]. simpl. split; [rewrite S4; exact C|]. rewrite S3, !app_assoc, EQ. reflexivity.
      * eexists. split; [reflexivity|]. apply after_recv_w; auto.
      * eexists. split; [reflexivity|]. apply after_recv_w; auto. exact (D b).
    + destruct (Z.ltb_spec (meta_getlen (d_buf (get r b))) 1); [lia|]. pose proof (D b) as (WF & C & EQ).
      destruct x as [n| |].
      * destruct (meta_consume_ok _ n WF EN) as (WF' & MD). eexists. split; [reflexivity|]. apply send_loop_w; auto.
        split; [exact WF'|]. simpl. split; [exact C|]. rewrite MD, <- app_assoc, ztake_zdrop. exact EQ.
      * eexists. split; [reflexivity|]. split; [intros b'; rewrite get_with_pc; apply D|exact I].
      * eexists. split; [reflexivity|]. split; [intros b'; rewrite get_with_pc; apply D|exact I].
  - cbn [any_step]. eexists. split; [reflexivity|].
    assert (K : forall b', d_buf (get (put r b (d_setcb (get r b) rc wc) (r_pc r)) b') = d_buf (get r b') /\
                           d_err (get (put r b (d_setcb (get r b) rc wc) (r_pc r)) b') = d_err (get r b') /\
                           d_in (get (put r b (d_setcb (get r b) rc wc) (r_pc r)) b') = d_in (get r b') /\
                           d_out (get (put r b (d_setcb (get r b) rc wc) (r_pc r)) b') = d_out (get r b')).
    { both b; [rewrite get_put_same|rewrite get_put_other]; auto. }
    split.
    + intros b'. destruct (K b') as (K1 & _ & K3 & K4). unfold dwf. rewrite K1, K3, K4. apply D.
    + rewrite pc_put. destruct (r_pc r) as [|b'|b'|[b'|b'|]]; try exact I; destruct (K b') as (K1 & K2 & _); rewrite K1, ?K2; exact PC.
Qed.

Lemma any_step_spec r x r' : match x with AIn i => r_enabled r i | ASet _ _ _ => True end -> any_step r x = Ok r' ->
  step_spec r r' (match x with AIn i => observe r i | ASet _ _ _ => [] end).
Proof.
  destruct x as [i|b rc wc]; intros EN E; [apply relay_step_spec0; assumption|].
  injection E as <-. pose proof (get_put_same r b (d_setcb (get r b) rc wc) (r_pc r)) as G1.
  pose proof (get_put_other r b (d_setcb (get r b) rc wc) (r_pc r)) as G2.
  split; [|split; [|split; [|split]]].
  - both b; [rewrite G1|rewrite G2]; simpl; rewrite app_nil_r; reflexivity.
  - both b; [rewrite G1|rewrite G2]; simpl; rewrite app_nil_r; reflexivity.
  - both b; [rewrite G1|rewrite G2]; simpl; auto.
  - intros b'. rewrite pc_put. auto.
  - rewrite pc_put. auto.
Qed.
Lemma any_run_all pd pu : forall xs r, winv pd pu r -> any_valid r xs ->
  exists r', any_run r xs = Ok r' /\ winv pd pu r' /\ step_spec r r' (any_trace r xs).
Proof.
  induction xs as [|x l IH]; intros r W V.
  - exists r. split; [reflexivity|]. split; [exact W|apply step_spec_refl].
  - destruct V as (EN & V). destruct (any_step_inv pd pu r x W EN) as (r1 & E1 & W1).
    destruct (IH r1 W1 (V r1 E1)) as (r' & E & W' & S). exists r'. cbn [any_run any_trace]. rewrite E1. cbn [bind].
    split; [exact E|]. split; [exact W'|]. eapply step_spec_trans; [apply any_step_spec; eassumption|exact S].
Qed.

(** ** C36: whatever the callbacks, what is sent is a prefix of what was received *)
Theorem C36_any_callbacks : forall m cap xs, handover_ok m -> 0 < cap -> any_valid (relay_init m cap) xs ->
  exists r, any_run (relay_init m cap) xs = Ok r /\
    (exists rest, mdata m ++ ins (any_trace (relay_init m cap) xs) true = outs (any_trace (relay_init m cap) xs) true ++ rest) /\
    (exists rest, ins (any_trace (relay_init m cap) xs) false = outs (any_trace (relay_init m cap) xs) false ++ rest) /\
    (** C38: closed because one side has ended only after everything received from it was sent *)
    (forall b, r_pc r = PDead (DClosed b) -> In (EvInErr b) (any_trace (relay_init m cap) xs) /\
       (if b then mdata m else []) ++ ins (any_trace (relay_init m cap) xs) b = outs (any_trace (relay_init m cap) xs) b).
Proof.
  intros m cap xs H C V. pose proof (relay_init_inv m cap H C) as (D0 & PC0).
  assert (W : winv (mdata m) [] (relay_init m cap)).
  { split; [exact D0|]. destruct (r_pc (relay_init m cap)) as [|b|b|[b|b|]]; try exact I.
    - destruct PC0 as (_ & _ & _ & F & _). exact F.
    - destruct PC0 as ((_ & _ & L) & _). exact L.
    - destruct PC0 as (E & L & _). split; assumption. }
  destruct (any_run_all _ _ xs _ W V) as (r & E & (D & PC) & S1 & S2 & S3 & _). exists r. split; [exact E|].
  assert (Z : forall b, d_in (get (relay_init m cap) b) = [] /\ d_out (get (relay_init m cap) b) = [] /\
                        d_err (get (relay_init m cap) b) = false).
  { intros b. unfold relay_init, recv_loop, after_recv. simpl.
    destruct (_ <? _); [|destruct (_ <? _)]; destruct b; repeat split; reflexivity. }
  assert (Q : forall b : bool, (if b then mdata m else []) ++ ins (any_trace (relay_init m cap) xs) b =
    outs (any_trace (relay_init m cap) xs) b ++ mdata (d_buf (get r b))).
  { intros b. destruct (D b) as (_ & _ & Q). rewrite S1, S2 in Q. destruct (Z b) as (Z1 & Z2 & _). rewrite Z1, Z2 in Q. exact Q. }
  split; [exists (mdata (d_buf (get r true))); exact (Q true)|].
  split; [exists (mdata (d_buf (get r false))); exact (Q false)|].
  intros b Eb. rewrite Eb in PC. destruct PC as (ER & L). split.
  - destruct (S3 b ER) as [X|X]; [|exact X]. destruct (Z b) as (_ & _ & Z3). congruence.
  - rewrite Q. destruct (D b) as (WF & _). rewrite (mdata_nil _ WF L), app_nil_r. reflexivity.
Qed.
Print Assumptions C36_any_callbacks.

(** bytes for upstream wait; a write to the TLS client puts the receive callback back, the
    client sends more, and everything leaves in order *)
Definition tls_sched : list ain :=
  [ AIn (RRecv (RxData [1; 2])); AIn (RRecv RxAgain); AIn (RSend (TxSent 2)); AIn (RSend TxAgain);
    AIn (RReadable false); AIn (RRecv (RxData [9; 8; 7])); AIn (RRecv RxAgain); AIn (RSend (TxSent 3)); AIn (RRecv RxAgain);
    ASet true true true;
    AIn (RReadable true); AIn (RRecv (RxData [3; 4])); AIn (RRecv RxAgain); AIn (RSend (TxSent 5)); AIn (RRecv RxErr) ].
Fixpoint any_validb (r : relay) (xs : list ain) : bool :=
  match xs with
  | [] => true
  | x :: l => match x with AIn i => r_enabledb r i | _ => true end &&
              match any_step r x with Ok r' => any_validb r' l | _ => true end
  end.
Lemma any_validb_ok : forall xs r, any_validb r xs = true -> any_valid r xs.
Proof.
  induction xs as [|x l IH]; intros r H; cbn [any_validb any_valid] in *; [exact I|].
  apply andb_prop in H as (H1 & H2). split; [destruct x; [apply r_enabledb_ok; exact H1|exact I]|].
  intros r' E. rewrite E in H2. apply IH. exact H2.
Qed.
Example C36_any_ex : any_valid (relay_init demo_meta 12288) tls_sched /\
  outs (any_trace (relay_init demo_meta 12288) tls_sched) true = [71; 69; 84; 1; 2; 3; 4] /\
  (exists r, any_run (relay_init demo_meta 12288) tls_sched = Ok r /\ r_pc r = PDead (DClosed true)).
Proof.
  split; [apply any_validb_ok; vm_compute; reflexivity|].
  split; [vm_compute; reflexivity|]. eexists. split; [vm_compute; reflexivity|reflexivity]. Qed.
