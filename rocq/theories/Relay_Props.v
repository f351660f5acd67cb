(** * Theorems about the relay phase: C36-C39 *)
From Verif Require Import Base Meta_Model Meta_Proofs S5_Model Relay_Model Relay_Proofs.

(** ** C36: each byte stream is transported unchanged

    [ins tr b] / [outs tr b] are read off the observable trace of recv and send
    calls; [m] is the client's buffer at hand-over. *)
Theorem C36_relay_integrity : forall m cap is,
  handover_ok m -> 0 < cap -> r_valid (relay_init m cap) is ->
  exists r, relay_run (relay_init m cap) is = Ok r /\
    (exists rest, mdata m ++ ins (trace (relay_init m cap) is) true =
                  outs (trace (relay_init m cap) is) true ++ rest) /\
    (exists rest, ins (trace (relay_init m cap) is) false =
                  outs (trace (relay_init m cap) is) false ++ rest).
Proof.
  intros m cap is H C V. pose proof (relay_init_inv m cap H C) as I.
  destruct (relay_run_inv _ _ is _ I V) as (r & E & (D & _)). exists r. split; [exact E|].
  destruct (relay_run_spec _ _ is _ _ I V E) as (S1 & S2 & _).
  assert (Z : forall b, d_in (get (relay_init m cap) b) = [] /\ d_out (get (relay_init m cap) b) = []).
  { intros b. unfold relay_init, recv_loop, after_recv. simpl.
    destruct (_ <? _); [|destruct (_ <? _)]; destruct b; split; reflexivity. }
  destruct (Z true) as (Z1 & Z2). destruct (Z false) as (Z3 & Z4).
  pose proof (S1 true) as A1. pose proof (S2 true) as A2. pose proof (S1 false) as A3. pose proof (S2 false) as A4.
  rewrite Z1 in A1. rewrite Z2 in A2. rewrite Z3 in A3. rewrite Z4 in A4. simpl in A1, A2, A3, A4.
  split.
  - exists (mdata (d_buf (get r true))). destruct (D true) as (_ & _ & Q).
    change (get r true) with (r_dn r) in *. rewrite A1, A2 in Q. exact Q.
  - exists (mdata (d_buf (get r false))). destruct (D false) as (_ & _ & Q).
    change (get r false) with (r_up r) in *. rewrite A3, A4 in Q. exact Q.
Qed.
Print Assumptions C36_relay_integrity.

(** a schedule: three bytes buffered at hand-over, more arrive, a short send, a
    would-block, and traffic in the other direction in between *)
Definition demo_meta : meta := mkMeta ([71; 69; 84] ++ zrepeat 0 61) 0 3.
Definition demo_sched : list rin :=
  [ RRecv (RxData [1; 2]); RRecv RxAgain; RSend (TxSent 2); RSend TxAgain;
    RReadable false; RRecv (RxData [9; 8; 7]); RRecv RxAgain; RSend (TxSent 3); RRecv RxAgain;
    RWritable true; RSend (TxSent 3); RRecv RxErr ].

Example C36_demo :
  handover_ok demo_meta /\ r_valid (relay_init demo_meta 12288) demo_sched /\
  outs (trace (relay_init demo_meta 12288) demo_sched) true = [71; 69; 84; 1; 2] /\
  outs (trace (relay_init demo_meta 12288) demo_sched) false = [9; 8; 7].
Proof.
  split; [|split; [|split]].
  - split; [|split].
    + split; [split|]; vm_compute; discriminate.
    + vm_compute. reflexivity.
    + left. vm_compute. reflexivity.
  - apply r_validb_ok. vm_compute. reflexivity.
  - vm_compute. reflexivity.
  - vm_compute. reflexivity.
Qed.

(** ** C37: the relay never stalls and its buffers never overflow

    First with arbitrary I/O results: whenever control is back in the event loop,
    each direction either has an empty buffer with room, its receive callback
    installed and no close pending, or holds data with its send callback
    installed. No recv or send is ever called with an empty buffer and nothing is
    stored past the end (no run faults). *)
Theorem C37_waiting_modes : forall m cap is r,
  handover_ok m -> 0 < cap -> r_valid (relay_init m cap) is ->
  relay_run (relay_init m cap) is = Ok r ->
  (forall b, 0 <= mpos (d_buf (get r b)) <= mlast (d_buf (get r b)) /\
             mlast (d_buf (get r b)) <= (if b then meta_cap m else cap)) /\
  (r_pc r = PIdle -> forall b,
     let d := get r b in
     (d_rcb d = true /\ d_wcb d = false /\ mpos (d_buf d) = mlast (d_buf d) /\ d_err d = false) \/
     (d_rcb d = false /\ d_wcb d = true /\ mpos (d_buf d) < mlast (d_buf d))).
Proof.
  intros m cap is r H C V E. pose proof (relay_init_inv m cap H C) as I.
  destruct (relay_run_inv _ _ is _ I V) as (r2 & E2 & (D & P)). rewrite E in E2. injection E2 as <-.
  split.
  - intros b. pose proof (cap_run _ _ _ E b) as CC. destruct (D b) as ((A & B) & _). split; [exact A|].
    rewrite CC in B. eapply Z.le_trans; [exact B|].
    destruct H as (WF & _). destruct (meta_new_wf cap) as (_ & C2 & _); [lia|].
    unfold relay_init, recv_loop, after_recv. simpl.
    destruct (_ <? _); [|destruct (_ <? _)]; destruct b; simpl; try rewrite C2; lia.
  - intros PI b. rewrite PI in P. destruct (P b) as [(A & B & F & L & _)|(A & B & L)]; unfold meta_getlen in L.
    + left. repeat split; auto. lia.
    + right. repeat split; auto. lia.
Qed.
Print Assumptions C37_waiting_modes.

(** With edge-triggered sockets: if the relay rests in the event loop and epoll has
    no event left to report, then in each direction either the source has nothing
    to read, is not closed and everything received was passed on, or the sink
    accepts no byte. So no event that would be needed is ever lost. *)
Theorem C37_no_lost_wakeup : forall m cap kd ku acts,
  handover_ok m -> 0 < cap -> bytes (k_avail kd) -> bytes (k_avail ku) -> Forall act_ok acts ->
  exists w, wrun (winit m cap kd ku) acts = Ok w /\
    (r_pc (w_relay w) = PIdle ->
     (forall b, k_er (kget w b) = false /\ k_ew (kget w b) = false) ->
     forall b,
       (k_avail (kget w b) = [] /\ k_eof (kget w b) = false /\ mdata (d_buf (get (w_relay w) b)) = [] /\
        d_out (get (w_relay w) b) = (if b then mdata m else []) ++ d_in (get (w_relay w) b)) \/
       (k_room (kget w b) <= 0 /\ d_wcb (get (w_relay w) b) = true)).
Proof.
  intros m cap kd ku acts H C B1 B2 F.
  destruct (wrun_inv _ _ acts _ (winit_inv m cap kd ku H C B1 B2) F) as (w & E & (I & KB & CO)).
  exists w. split; [exact E|]. intros PI ED b.
  assert (AL : alive (r_pc (w_relay w))) by (rewrite PI; apply idle_alive).
  assert (NR : ~ runs (r_pc (w_relay w)) b) by (rewrite PI; apply idle_not_run).
  destruct (ED b) as (E1 & E2). destruct I as (D & _). destruct (D b) as (WF & _ & Q).
  destruct (CO AL b NR) as [((_ & _ & _ & L & _) & [K|(K1 & K2)])|((_ & W & _) & [K|K])].
  - congruence.
  - left. pose proof (mdata_nil _ WF L) as MN. rewrite MN, app_nil_r in Q. auto.
  - congruence.
  - right. auto.
Qed.
Print Assumptions C37_no_lost_wakeup.

(** and every callback returns: in every reachable state a bounded number of I/O
    results brings control back to the event loop, whatever the results are *)
Theorem C37_callbacks_return : forall m cap kd ku acts,
  handover_ok m -> 0 < cap -> bytes (k_avail kd) -> bytes (k_avail ku) -> Forall act_ok acts ->
  exists w N, wrun (winit m cap kd ku) acts = Ok w /\
    forall ns, N <= zlen ns ->
      exists w', wrun w (map WIo ns) = Ok w' /\
        (r_pc (w_relay w') = PIdle \/ exists why, r_pc (w_relay w') = PDead why).
Proof.
  intros m cap kd ku acts H C B1 B2 F.
  destruct (wrun_inv _ _ acts _ (winit_inv m cap kd ku H C B1 B2) F) as (w & E & WI).
  exists w, (measure w). split; [exact E|]. intros ns L.
  destruct (wrun_inv _ _ (map WIo ns) w WI) as (w' & E' & _).
  { apply Forall_forall. intros a Ha. apply in_map_iff in Ha as (n & <- & _). exact I. }
  exists w'. split; [exact E'|]. pose proof (io_returns _ _ ns w w' WI L E') as R.
  destruct (r_pc (w_relay w')); simpl in R; try contradiction; eauto.
Qed.
Print Assumptions C37_callbacks_return.

(** a run that really blocks and resumes: the sink takes 2 bytes, then 10 more *)
Definition demo_acts : list wact :=
  [ WIo 100; WIo 100; WIo 100; WIo 100; WRead true; WWrite true; WIo 100;
    WRoom true 10; WWrite true; WIo 100; WIo 100; WRead false; WIo 100; WWrite false ].
Definition demo_kd := mkK [1; 2] false 2 false false.
Definition demo_ku := mkK [] false 100 false false.
Definition demo_check (w : world) : bool :=
  match r_pc (w_relay w) with PIdle => true | _ => false end &&
  negb (k_er (w_dn w)) && negb (k_ew (w_dn w)) && negb (k_er (w_up w)) && negb (k_ew (w_up w)) &&
  bseq (d_out (r_dn (w_relay w))) [71; 69; 84; 1; 2].
Example C37_demo :
  exists w, wrun (winit demo_meta 12288 demo_kd demo_ku) demo_acts = Ok w /\
    r_pc (w_relay w) = PIdle /\ (forall b, k_er (kget w b) = false /\ k_ew (kget w b) = false) /\
    d_out (r_dn (w_relay w)) = [71; 69; 84; 1; 2].
Proof.
  assert (P : match wrun (winit demo_meta 12288 demo_kd demo_ku) demo_acts with Ok w => demo_check w | _ => false end = true)
      by (vm_compute; reflexivity).
  destruct (wrun (winit demo_meta 12288 demo_kd demo_ku) demo_acts) as [w| |]; [|discriminate P|discriminate P].
  exists w. split; [reflexivity|]. unfold demo_check in P.
  apply andb_prop in P as (P & P6). apply andb_prop in P as (P & P5). apply andb_prop in P as (P & P4).
  apply andb_prop in P as (P & P3). apply andb_prop in P as (P1 & P2).
  apply bseq_spec in P6. apply Bool.negb_true_iff in P2, P3, P4, P5.
  split; [destruct (r_pc (w_relay w)); [reflexivity|discriminate P1|discriminate P1|discriminate P1]|].
  split; [intros []; auto|exact P6].
Qed.

(** ** C38: everything received from the side that closes was sent before teardown

    The session ends, no send failed, no timer fired and only side [b] reported
    close or error: then all its bytes were delivered. *)
Definition dead (r : relay) : Prop := exists why, r_pc r = PDead why.

Theorem C38_drained_before_close : forall m cap is r b,
  handover_ok m -> 0 < cap -> r_valid (relay_init m cap) is ->
  relay_run (relay_init m cap) is = Ok r -> dead r ->
  let tr := trace (relay_init m cap) is in
  (forall b', ~ In (EvOutErr b') tr) -> ~ In EvTimer tr -> ~ In (EvInErr (negb b)) tr ->
  outs tr b = (if b then mdata m else []) ++ ins tr b.
Proof.
  intros m cap is r b H C V E DD tr N1 N2 N3. pose proof (relay_init_inv m cap H C) as I.
  destruct (relay_run_inv _ _ is _ I V) as (r2 & E2 & (D & P)). rewrite E in E2. injection E2 as <-.
  destruct (relay_run_spec _ _ is _ _ I V E) as (S1 & S2 & S3 & S4 & S5). fold tr in S1, S2, S3, S4, S5.
  assert (Z : forall b, d_in (get (relay_init m cap) b) = [] /\ d_out (get (relay_init m cap) b) = [] /\
              d_err (get (relay_init m cap) b) = false).
  { intros b0. unfold relay_init, recv_loop, after_recv. simpl.
    destruct (_ <? _); [|destruct (_ <? _)]; destruct b0; repeat split; reflexivity. }
  assert (NPC : forall why, r_pc (relay_init m cap) <> PDead why).
  { intros why. unfold relay_init, recv_loop, after_recv. simpl.
    destruct (_ <? _); [|destruct (_ <? _)]; simpl; discriminate. }
  destruct DD as (why & PD). rewrite PD in P. destruct why as [b'|b'|].
  - destruct P as (ER & L & _). destruct (S3 b' ER) as [Q|Q]; [destruct (Z b') as (_ & _ & Z3); congruence|].
    assert (b' = b) as -> by (destruct b, b'; auto; exfalso; apply N3; exact Q).
    destruct (D b) as (WF & _ & EQ). rewrite (mdata_nil _ WF L), app_nil_r in EQ.
    destruct (Z b) as (Z1 & Z2 & _). rewrite (S1 b), (S2 b), Z1, Z2 in EQ. simpl in EQ. symmetry. exact EQ.
  - exfalso. destruct (S4 b' PD) as [Q|Q]; [apply (NPC _ Q)|apply (N1 _ Q)].
  - exfalso. destruct (S5 PD) as [Q|Q]; [apply (NPC _ Q)|apply (N2 Q)].
Qed.
Print Assumptions C38_drained_before_close.

(** the client closes while five of its bytes are stuck; they are all delivered *)
Definition demo_close : list rin :=
  [ RRecv (RxData [1; 2]); RRecv RxErr; RSend (TxSent 2); RSend TxAgain;
    RReadable true; RWritable true; RSend (TxSent 3) ].
Example C38_demo :
  r_valid (relay_init demo_meta 12288) demo_close /\
  (exists r, relay_run (relay_init demo_meta 12288) demo_close = Ok r /\ dead r) /\
  outs (trace (relay_init demo_meta 12288) demo_close) true = [71; 69; 84; 1; 2].
Proof.
  split; [apply r_validb_ok; vm_compute; reflexivity|]. split; [|vm_compute; reflexivity].
  destruct (relay_run (relay_init demo_meta 12288) demo_close) as [r| |] eqn:E.
  - exists r. split; [reflexivity|].
    assert (K : match relay_run (relay_init demo_meta 12288) demo_close with
                | Ok r => match r_pc r with PDead _ => true | _ => false end | _ => false end = true)
      by (vm_compute; reflexivity).
    rewrite E in K. unfold dead. destruct (r_pc r); [discriminate K|discriminate K|discriminate K|]. eauto.
  - exfalso. assert (P : match relay_run (relay_init demo_meta 12288) demo_close with Ok _ => true | _ => false end = true)
      by (vm_compute; reflexivity). rewrite E in P. discriminate P.
  - exfalso. assert (P : match relay_run (relay_init demo_meta 12288) demo_close with Ok _ => true | _ => false end = true)
      by (vm_compute; reflexivity). rewrite E in P. discriminate P.
Qed.

(** ** C39: half-close loses the opposite direction

    The property: when only side [b] closes and nothing else fails, the bytes
    already received from the other side are delivered as well. *)
Definition C39_property : Prop := forall m cap is r b,
  handover_ok m -> 0 < cap -> r_valid (relay_init m cap) is ->
  relay_run (relay_init m cap) is = Ok r -> dead r ->
  let tr := trace (relay_init m cap) is in
  (forall b', ~ In (EvOutErr b') tr) -> ~ In EvTimer tr -> ~ In (EvInErr (negb b)) tr ->
  outs tr (negb b) = (if negb b then mdata m else []) ++ ins tr (negb b).

(** the client shuts down its sending side while an answer of three bytes waits
    for it to become writable: the answer is dropped *)
Definition half_close : list rin :=
  [ RRecv RxAgain; RReadable false; RRecv (RxData [1; 2; 3]); RRecv RxAgain; RSend TxAgain;
    RReadable true; RRecv RxErr ].
Theorem C39_half_close_refuted :
  exists m cap is r,
    handover_ok m /\ 0 < cap /\ r_valid (relay_init m cap) is /\
    relay_run (relay_init m cap) is = Ok r /\ dead r /\
    trace (relay_init m cap) is = [EvIn false [1; 2; 3]; EvOutAgain false; EvInErr true] /\
    outs (trace (relay_init m cap) is) false = [].
Proof.
  exists (meta_new 12288), 12288, half_close.
  destruct (relay_run (relay_init (meta_new 12288) 12288) half_close) as [r| |] eqn:E.
  - exists r. split.
    { split; [|split].
      - split; [split|]; vm_compute; discriminate.
      - vm_compute. reflexivity.
      - right. vm_compute. reflexivity. }
    split; [lia|]. split; [apply r_validb_ok; vm_compute; reflexivity|]. split; [reflexivity|].
    split; [|split; vm_compute; reflexivity].
    assert (K : match relay_run (relay_init (meta_new 12288) 12288) half_close with
                | Ok r => match r_pc r with PDead _ => true | _ => false end | _ => false end = true)
      by (vm_compute; reflexivity).
    rewrite E in K. unfold dead. destruct (r_pc r); [discriminate K|discriminate K|discriminate K|]. eauto.
  - exfalso. assert (P : match relay_run (relay_init (meta_new 12288) 12288) half_close with Ok _ => true | _ => false end = true)
      by (vm_compute; reflexivity). rewrite E in P. discriminate P.
  - exfalso. assert (P : match relay_run (relay_init (meta_new 12288) 12288) half_close with Ok _ => true | _ => false end = true)
      by (vm_compute; reflexivity). rewrite E in P. discriminate P.
Qed.
Print Assumptions C39_half_close_refuted.

Theorem C39_refuted : ~ C39_property.
Proof.
  intros P. destruct C39_half_close_refuted as (m & cap & is & r & H & C & V & E & DD & T & O).
  specialize (P m cap is r true H C V E DD). cbv zeta in P. rewrite T in P. simpl in P.
  assert (K : [] = [1; 2; 3]).
  { apply P.
    - intros b' [Q|[Q|[Q|[]]]]; discriminate.
    - intros [Q|[Q|[Q|[]]]]; discriminate.
    - intros [Q|[Q|[Q|[]]]]; discriminate. }
  discriminate K.
Qed.
Print Assumptions C39_refuted.

(** what holds: the loss is at most one buffer, and nothing is lost if no send
    towards the closing side ever had to wait *)
Theorem C39_half_close_partial : forall m cap is r b,
  handover_ok m -> 0 < cap -> r_valid (relay_init m cap) is ->
  relay_run (relay_init m cap) is = Ok r -> dead r ->
  let tr := trace (relay_init m cap) is in
  (forall b', ~ In (EvOutErr b') tr) -> ~ In EvTimer tr -> ~ In (EvInErr (negb b)) tr ->
  (exists lost, (if negb b then mdata m else []) ++ ins tr (negb b) = outs tr (negb b) ++ lost /\
                zlen lost <= (if negb b then meta_cap m else cap)) /\
  (~ In (EvOutAgain (negb b)) tr ->
   outs tr (negb b) = (if negb b then mdata m else []) ++ ins tr (negb b)).
Proof.
  intros m cap is r b H C V E DD tr N1 N2 N3. pose proof (relay_init_inv m cap H C) as I.
  destruct (relay_run_inv _ _ is _ I V) as (r2 & E2 & (D & P)). rewrite E in E2. injection E2 as <-.
  destruct (relay_run_spec _ _ is _ _ I V E) as (S1 & S2 & S3 & S4 & S5). fold tr in S1, S2, S3, S4, S5.
  assert (Z : forall b, d_in (get (relay_init m cap) b) = [] /\ d_out (get (relay_init m cap) b) = [] /\
              d_err (get (relay_init m cap) b) = false).
  { intros b0. unfold relay_init, recv_loop, after_recv. simpl.
    destruct (_ <? _); [|destruct (_ <? _)]; destruct b0; repeat split; reflexivity. }
  split.
  - exists (mdata (d_buf (get r (negb b)))). destruct (D (negb b)) as (WF & _ & EQ).
    destruct (Z (negb b)) as (Z1 & Z2 & _). rewrite (S1 (negb b)), (S2 (negb b)), Z1, Z2 in EQ. split; [exact EQ|].
    rewrite (mdata_len _ WF). pose proof (cap_run _ _ _ E (negb b)) as CC. destruct WF as (A & B).
    unfold meta_getlen. rewrite CC in B. eapply Z.le_trans with (mlast (d_buf (get r (negb b)))); [lia|].
    eapply Z.le_trans; [exact B|].
    destruct (meta_new_wf cap) as (_ & C2 & _); [lia|].
    unfold relay_init, recv_loop, after_recv. simpl.
    destruct (_ <? _); [|destruct (_ <? _)]; destruct b; simpl; try rewrite C2; lia.
  - intros NA.
    assert (W : d_wcb (get r (negb b)) = false).
    { destruct (d_wcb (get r (negb b))) eqn:W; [|reflexivity]. exfalso.
      destruct (wcb_run _ _ is _ _ [] I V E (wcb_init m cap H) (negb b) W) as [Q|[Q|[Q|Q]]].
      + destruct DD as (why & DD). congruence.
      + rewrite Q in P. destruct P as (ER & _). destruct (S3 _ ER) as [K|K]; [destruct (Z (negb b)) as (_&_&K2); congruence|].
        apply N3. exact K.
      + destruct (S4 _ Q) as [K|K]; [|apply (N1 _ K)].
        unfold relay_init, recv_loop, after_recv in K. simpl in K.
        destruct (_ <? _) in K; [|destruct (_ <? _) in K]; discriminate.
      + apply NA. exact Q. }
    assert (NPC : forall why, r_pc (relay_init m cap) <> PDead why).
    { intros why. unfold relay_init, recv_loop, after_recv. simpl.
      destruct (_ <? _); [|destruct (_ <? _)]; simpl; discriminate. }
    destruct DD as (why & PD). rewrite PD in P. destruct why as [b'|b'|].
    + destruct P as (ER & L & PK). destruct (S3 b' ER) as [Q|Q]; [destruct (Z b') as (_ & _ & Z3); congruence|].
      assert (b' = b) as -> by (destruct b, b'; auto; exfalso; apply N3; exact Q).
      destruct PK as [(_ & _ & _ & L2 & _)|(_ & K & _)]; [|congruence].
      destruct (D (negb b)) as (WF & _ & EQ). rewrite (mdata_nil _ WF L2), app_nil_r in EQ.
      destruct (Z (negb b)) as (Z1 & Z2 & _). rewrite (S1 (negb b)), (S2 (negb b)), Z1, Z2 in EQ. simpl in EQ. symmetry. exact EQ.
    + exfalso. destruct (S4 b' PD) as [Q|Q]; [apply (NPC _ Q)|apply (N1 _ Q)].
    + exfalso. destruct (S5 PD) as [Q|Q]; [apply (NPC _ Q)|apply (N2 Q)].
Qed.
Print Assumptions C39_half_close_partial.

(** an exchange without waiting: request forwarded, answer delivered, client closes *)
Definition demo_quiet : list rin :=
  [ RRecv (RxData [1; 2]); RRecv RxAgain; RSend (TxSent 5); RRecv RxAgain;
    RReadable false; RRecv (RxData [4; 5]); RRecv RxAgain; RSend (TxSent 2); RRecv RxAgain;
    RReadable true; RRecv RxErr ].
Example C39_demo :
  r_valid (relay_init demo_meta 12288) demo_quiet /\
  trace (relay_init demo_meta 12288) demo_quiet =
    [EvIn true [1; 2]; EvOut true [71; 69; 84; 1; 2]; EvIn false [4; 5]; EvOut false [4; 5]; EvInErr true] /\
  match relay_run (relay_init demo_meta 12288) demo_quiet with Ok r => dead r | _ => False end.
Proof.
  split; [apply r_validb_ok; vm_compute; reflexivity|]. split; [vm_compute; reflexivity|].
  assert (K : match relay_run (relay_init demo_meta 12288) demo_quiet with
              | Ok r => match r_pc r with PDead _ => true | _ => false end | _ => false end = true)
    by (vm_compute; reflexivity).
  destruct (relay_run (relay_init demo_meta 12288) demo_quiet) as [r| |]; [|discriminate K|discriminate K].
  unfold dead. destruct (r_pc r); [discriminate K|discriminate K|discriminate K|]. eauto.
Qed.
