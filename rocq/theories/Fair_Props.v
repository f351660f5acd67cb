(** * C158: while one session transfers, the others are served too *)
From Verif Require Import Base Meta_Model Meta_Proofs S5_Model Relay_Model Relay_Proofs Relay_Props Fair_Model.
Local Arguments Z.add : simpl never.
Local Arguments Z.sub : simpl never.
Local Arguments Z.mul : simpl never.
Local Arguments zlen : simpl never.

(** the call moved something: bytes were received, or the socket took what was sent *)
Definition moves (i : rin) : Prop :=
  match i with RRecv (RxData _) => True | RSend (TxSent _) => True | _ => False end.
(** a recv or a send, none without effect *)
Definition io (i : rin) : Prop :=
  match i with RRecv _ => True | RSend (TxSent n) => 1 <= n | RSend _ => True | _ => False end.
(** bytes received in a run *)
Fixpoint received (is : list rin) : Z :=
  match is with
  | [] => 0
  | RRecv (RxData bs) :: l => zlen bs + received l
  | _ :: l => received l
  end.

(** ** A run that moves something in every call goes on *)
Definition busy (r : relay) : Prop :=
  exists b, (r_pc r = PRecv b \/ r_pc r = PSend b) /\ d_err (get r b) = false.

Lemma busy_running r : busy r -> running r = true.
Proof. intros (b & [E|E] & _); unfold running; rewrite E; reflexivity. Qed.
Lemma recv_loop_busy r b d : d_err d = false -> 0 < meta_getlen (d_buf d) \/ 0 < meta_getfree (d_buf d) -> busy (recv_loop r b d).
Proof.
  intros E C. exists b. unfold recv_loop, after_recv. destruct (Z.ltb_spec 0 (meta_getfree (d_buf d))).
  - rewrite pc_put, get_put_same. auto.
  - destruct (Z.ltb_spec 0 (meta_getlen (d_buf d))); [|lia]. rewrite pc_put, get_put_same. auto.
Qed.
Lemma send_loop_busy r b d : d_err d = false -> 0 < meta_cap (d_buf d) -> busy (send_loop r b d).
Proof.
  intros E C. unfold send_loop, after_send. destruct (_ <? _).
  - exists b. rewrite pc_put, get_put_same. auto.
  - rewrite E. apply recv_loop_busy; [exact E|]. right. unfold meta_getfree. cbn. unfold meta_cap in *. cbn. lia.
Qed.
Lemma busy_step pd pu r i : rinv pd pu r -> busy r -> r_enabled r i -> moves i ->
  exists r', relay_step r i = Ok r' /\ rinv pd pu r' /\ busy r'.
Proof.
  intros RI (b & PC & ER) EN MV. destruct (relay_step_inv pd pu r i RI EN) as (r' & E & RI').
  exists r'. split; [exact E|]. split; [exact RI'|]. destruct RI as (D & _). pose proof (D b) as (WF & C & _).
  unfold r_enabled in EN. unfold relay_step in E. destruct PC as [PC|PC]; rewrite PC in *.
  - destruct i as [x|x| | |]; try contradiction. destruct x as [bs| |]; try contradiction.
    destruct (_ <? 1); [discriminate|]. destruct EN as (NE & _ & LE).
    destruct (meta_store_ok _ bs WF LE) as (m' & T1 & T2 & T3 & T4 & T5 & T6). rewrite T1 in E. cbn [bind] in E. injection E as <-.
    apply recv_loop_busy; [exact ER|]. left. cbn [d_buf d_recvd]. unfold meta_getlen. rewrite T5, T6. destruct WF as (? & _).
    destruct bs as [|z bs]; [congruence|]. rewrite zlen_cons. pose proof (zlen_nonneg bs). lia.
  - destruct i as [x|x| | |]; try contradiction. destruct x as [n| |]; try contradiction.
    destruct (_ <? 1); [discriminate|]. injection E as <-. apply send_loop_busy; [exact ER|exact C].
Qed.

Lemma init_busy m cap : handover_ok m -> busy (relay_init m cap).
Proof. intros (WF & C & L). unfold relay_init. apply recv_loop_busy; [reflexivity|exact L]. Qed.

Lemma pair_busy pd pu B xs : r_pc B = PIdle -> forall a, rinv pd pu a -> busy a -> p_valid (mkPair a B) xs ->
  Forall (fun x => fst x = true -> moves (snd x)) xs ->
  exists a', prun (mkPair a B) xs = Ok (mkPair a' B) /\ rinv pd pu a' /\ busy a'.
Proof.
  intros PB. induction xs as [|(who, i) xs IH]; intros a RI BA V F; [exists a; auto|].
  destruct V as (EN & V). pose proof (Forall_inv F) as M. cbn [fst snd] in M. cbn [prun].
  unfold pstep in *. cbn [fst snd] in *. destruct who; cbn [negb] in *.
  - assert (RB : running B = false) by (unfold running; rewrite PB; reflexivity).
    cbn [pget p_a p_b] in *. unfold p_enabled in EN. cbn [pget p_a fst snd] in EN.
    destruct (busy_step pd pu a i RI BA EN (M eq_refl)) as (a1 & E & RI1 & B1).
    rewrite RB in *. rewrite E in *. cbn [bind pput p_b] in *.
    apply IH; auto. exact (Forall_inv_tail F).
  - cbn [pget p_a] in *. rewrite (busy_running a BA) in *. cbn [bind]. apply IH; auto. exact (Forall_inv_tail F).
Qed.

(** ** C158 is false
    As long as every recv of one session brings bytes and every send passes bytes on, that
    session alone runs, however long: whatever happens to the other session in the meantime,
    it is not called. *)
Theorem C158_refuted : forall m cap B xs,
  handover_ok m -> 0 < cap -> r_pc B = PIdle ->
  p_valid (mkPair (relay_init m cap) B) xs -> Forall (fun x => fst x = true -> moves (snd x)) xs ->
  exists a, prun (mkPair (relay_init m cap) B) xs = Ok (mkPair a B) /\ running a = true.
Proof.
  intros m cap B xs H C PB V F.
  destruct (pair_busy _ _ B xs PB _ (relay_init_inv m cap H C) (init_busy m cap H) V F) as (a & E & _ & BA).
  exists a. split; [exact E|apply busy_running; exact BA].
Qed.
Print Assumptions C158_refuted.

(** and such runs exist, of every length: one byte comes in, what there is goes out *)
Definition next_move (r : relay) : rin :=
  match r_pc r with
  | PSend b => RSend (TxSent (meta_getlen (d_buf (get r b))))
  | _ => RRecv (RxData [65])
  end.
Fixpoint feed (n : nat) (r : relay) : list rin :=
  match n with
  | O => []
  | S k => next_move r :: match relay_step r (next_move r) with Ok r' => feed k r' | _ => [] end
  end.
Lemma feed_ok pd pu B n : r_pc B = PIdle -> forall a, rinv pd pu a -> busy a ->
  length (feed n a) = n /\ p_valid (mkPair a B) (map (Datatypes.pair true) (feed n a)) /\ Forall moves (feed n a) /\ Forall io (feed n a).
Proof.
  intros PB. induction n as [|n IH]; intros a RI BA; [split; [reflexivity|split; [exact I|split; constructor]]|].
  assert (EN : r_enabled a (next_move a) /\ moves (next_move a) /\ io (next_move a)).
  { destruct BA as (b & [PC|PC] & ER); unfold next_move, r_enabled; rewrite PC; destruct RI as (D & PP); rewrite PC in PP.
    - destruct PP as (_ & _ & _ & F & _). split; [|split; exact I]. split; [discriminate|]. split; [constructor; [unfold is_byte; lia|constructor]|]. change (zlen [65]) with 1. lia.
    - destruct PP as ((_ & _ & G) & _). split; [|split; [exact I|cbn; lia]]. cbn. lia. }
  destruct EN as (EN & MV & IO). destruct (busy_step pd pu a (next_move a) RI BA EN MV) as (a1 & E & RI1 & B1).
  destruct (IH a1 RI1 B1) as (Ln & V & F & G). cbn [feed]. rewrite E. cbn [length map p_valid].
  split; [congruence|]. split; [|split; constructor; assumption]. split; [exact EN|].
  intros p' EP. unfold pstep in EP. cbn [fst snd negb pget p_b p_a] in EP.
  assert (RB : running B = false) by (unfold running; rewrite PB; reflexivity). rewrite RB, E in EP. cbn [bind pput p_b] in EP.
  injection EP as <-. exact V.
Qed.
Theorem C158_refuted_long : forall m cap B n, handover_ok m -> 0 < cap -> r_pc B = PIdle -> 0 <= n ->
  exists is, zlen is = n /\ Forall moves is /\
    p_valid (mkPair (relay_init m cap) B) ((false, RReadable true) :: map (Datatypes.pair true) is) /\
    exists a, prun (mkPair (relay_init m cap) B) ((false, RReadable true) :: map (Datatypes.pair true) is) = Ok (mkPair a B) /\ running a = true.
Proof.
  intros m cap B n H C PB N. pose proof (init_busy m cap H) as IB.
  destruct (feed_ok _ _ B (Z.to_nat n) PB _ (relay_init_inv m cap H C) IB) as (Ln & V & F & _).
  exists (feed (Z.to_nat n) (relay_init m cap)). split; [unfold zlen; rewrite Ln; lia|]. split; [exact F|].
  assert (VV : p_valid (mkPair (relay_init m cap) B) ((false, RReadable true) :: map (Datatypes.pair true) (feed (Z.to_nat n) (relay_init m cap)))).
  { split; [unfold p_enabled; cbn [fst snd pget p_b]; unfold r_enabled; rewrite PB; exact I|].
    intros p' E. unfold pstep in E. cbn [fst snd negb pget p_a] in E. rewrite (busy_running _ IB) in E. injection E as <-. exact V. }
  split; [exact VV|]. apply C158_refuted; auto. constructor; [cbn; discriminate|].
  apply Forall_forall. intros x X. apply in_map_iff in X as (i & <- & X). rewrite Forall_forall in F. intros _. apply F. exact X.
Qed.
Print Assumptions C158_refuted_long.

(** ** What does hold
    A callback makes at most three calls per byte received, and two per byte that was in
    the buffer: it returns as soon as the source pauses or the sink takes no more. *)
Definition load (r : relay) : Z :=
  match r_pc r with
  | PRecv b => 2 * meta_getlen (d_buf (get r b)) + 1
  | PSend b => 2 * meta_getlen (d_buf (get r b))
  | _ => 0
  end.
Lemma load_nonneg pd pu r : rinv pd pu r -> 0 <= load r.
Proof.
  intros (D & _). unfold load. destruct (r_pc r) as [|b|b|]; try lia; destruct (D b) as (((?&?)&?)&_); unfold meta_getlen; lia.
Qed.
Lemma after_recv_load r b d : 0 <= meta_getlen (d_buf d) -> load (after_recv r b d) <= 2 * meta_getlen (d_buf d).
Proof.
  intros G. unfold load, after_recv. destruct (_ <? _); [|destruct (d_err d)]; rewrite pc_put; [|lia|lia].
  rewrite get_put_same. cbn. lia.
Qed.
Lemma recv_loop_load r b d : 0 <= meta_getlen (d_buf d) -> load (recv_loop r b d) <= 2 * meta_getlen (d_buf d) + 1.
Proof.
  intros G. unfold recv_loop. destruct (_ <? _); [|pose proof (after_recv_load r b d G); lia].
  unfold load. rewrite pc_put, get_put_same. lia.
Qed.
Lemma send_loop_load r b d : 0 <= meta_getlen (d_buf d) -> load (send_loop r b d) <= 2 * meta_getlen (d_buf d) + 1.
Proof.
  intros G. unfold send_loop. destruct (_ <? _).
  - unfold load. rewrite pc_put, get_put_same. lia.
  - unfold after_send. destruct (d_err d); [unfold load; rewrite pc_put; lia|].
    eapply Z.le_trans; [apply recv_loop_load; cbn; unfold meta_getlen; cbn; lia|].
    unfold meta_getlen in *. cbn. lia.
Qed.
Lemma load_step pd pu r i r' : rinv pd pu r -> r_enabled r i -> io i -> relay_step r i = Ok r' ->
  load r' + 1 <= load r + 3 * received [i].
Proof.
  intros (D & PP) EN IO E. unfold r_enabled in EN. unfold relay_step in E. unfold load at 2.
  destruct (r_pc r) as [|b|b|] eqn:PC; destruct i as [x|x| | |]; try contradiction; pose proof (D b) as (WF & C & _);
    assert (G : 0 <= meta_getlen (d_buf (get r b))) by (destruct WF as ((?&?)&?); unfold meta_getlen; lia).
  - destruct (_ <? 1); [discriminate|]. destruct x as [bs| |].
    + destruct EN as (NE & _ & LE). destruct (meta_store_ok _ bs WF LE) as (m' & T1 & T2 & T3 & T4 & T5 & T6).
      rewrite T1 in E. cbn [bind] in E. injection E as <-.
      assert (GL : meta_getlen m' = meta_getlen (d_buf (get r b)) + zlen bs) by (unfold meta_getlen; rewrite T5, T6; lia).
      pose proof (recv_loop_load r b (d_recvd (get r b) m' bs)) as Q. cbn [d_buf d_recvd] in Q. rewrite GL in Q.
      cbn [received]. destruct bs as [|z bs]; [congruence|]. rewrite zlen_cons in *. pose proof (zlen_nonneg bs). lia.
    + injection E as <-. pose proof (after_recv_load r b (get r b) G). cbn [received]. lia.
    + injection E as <-. pose proof (after_recv_load r b (d_seterr (get r b)) G) as Q. cbn [d_buf d_seterr] in Q. cbn [received]. lia.
  - destruct (_ <? 1) eqn:L1; [discriminate|]. apply Z.ltb_ge in L1. destruct x as [n| |].
    + injection E as <-. cbn in EN, IO.
      pose proof (send_loop_load r b (d_sent (get r b) (meta_consume (d_buf (get r b)) n) (ztake n (mdata (d_buf (get r b)))))) as Q.
      cbn [d_buf d_sent] in Q.
      assert (GL : meta_getlen (meta_consume (d_buf (get r b)) n) = meta_getlen (d_buf (get r b)) - n) by (unfold meta_getlen; cbn [mpos mlast meta_consume]; lia).
      rewrite GL in Q. cbn [received]. lia.
    + injection E as <-. unfold load, with_pc. cbn [r_pc received]. lia.
    + injection E as <-. unfold load, with_pc. cbn [r_pc received]. lia.
Qed.
Theorem C158_partial : forall m cap is,
  handover_ok m -> 0 < cap -> r_valid (relay_init m cap) is -> Forall io is ->
  zlen is <= 2 * meta_getlen m + 1 + 3 * received is.
Proof.
  assert (G : forall pd pu is r, rinv pd pu r -> r_valid r is -> Forall io is -> zlen is <= load r + 3 * received is).
  { intros pd pu. induction is as [|i is IH]; intros r RI V F.
    - pose proof (load_nonneg pd pu r RI). change (zlen (@nil rin)) with 0. cbn [received]. lia.
    - destruct V as (EN & V). destruct (relay_step_inv pd pu r i RI EN) as (r1 & E & RI1).
      pose proof (load_step pd pu r i r1 RI EN (Forall_inv F) E) as LS.
      pose proof (IH r1 RI1 (V r1 E) (Forall_inv_tail F)) as LI. rewrite zlen_cons.
      assert (RC : received (i :: is) = received [i] + received is) by (destruct i as [[bs| |]| | | |]; cbn [received]; lia).
      lia. }
  intros m cap is H C V F. pose proof (G _ _ is _ (relay_init_inv m cap H C) V F) as Q.
  destruct H as (WF & _ & _). pose proof (recv_loop_load (mkRelay PIdle (mkDir m true false false [] []) (mkDir (meta_new cap) true false false [] [])) true (mkDir m true false false [] [])) as LI.
  cbn [d_buf] in LI. destruct WF as ((? & ?) & ?). unfold relay_init in Q. cbn [r_dn] in Q. unfold meta_getlen in *. lia.
Qed.
Print Assumptions C158_partial.

(** a first session that is handed over with three bytes, a second one that waits *)
Definition waiting : relay := mkRelay PIdle (mkDir (meta_new 64) true false false [] []) (mkDir (meta_new 64) true false false [] []).
Example ex_C158 : handover_ok demo_meta /\ r_pc waiting = PIdle /\
  r_valid (relay_init demo_meta 12288) [RRecv (RxData [1; 2]); RRecv RxAgain; RSend (TxSent 2); RSend (TxSent 3); RRecv RxAgain] /\
  Forall io [RRecv (RxData [1; 2]); RRecv RxAgain; RSend (TxSent 2); RSend (TxSent 3); RRecv RxAgain] /\
  exists a, prun (mkPair (relay_init demo_meta 12288) waiting)
    [(true, RRecv (RxData [1; 2])); (false, RReadable true); (true, RRecv RxAgain); (true, RSend (TxSent 2)); (true, RSend (TxSent 3));
     (false, RReadable true); (true, RRecv RxAgain)] = Ok (mkPair a waiting) /\ running a = false.
Proof.
  split; [exact (proj1 C36_demo)|]. split; [reflexivity|]. split; [apply r_validb_ok; vm_compute; reflexivity|].
  split; [repeat (apply Forall_cons; [cbn; try lia; exact I|]); apply Forall_nil|].
  eexists. split; [reflexivity|reflexivity].
Qed.
