(** * Proofs for C121: the tunnel can always deliver what was written *)
From Verif Require Import Base Str_Spec Ac_Model Meta_Model Meta_Proofs S5_Model S5_Spec S5_Proofs S5_Req_Props
  S5_Auth_Props S5_Dial_Props Relay_Model Relay_Proofs Relay_Any_Props Tun_Model Tun_Spec Tun_Proofs Tun_Polite_Proofs Tun_Props
  Tun_Live_Spec.

Local Arguments Z.add : simpl never.
Local Arguments Z.sub : simpl never.

(** ** The relay by itself *)
Definition rest (r : relay) : Prop := r_pc r = PIdle /\ forall b, waits_read (get r b).

(** inputs that take nothing from a source and end nothing *)
Definition quiet_in (i : rin) : Prop :=
  match i with RRecv RxAgain | RSend (TxSent _) | RWritable _ => True | _ => False end.
Inductive quiet_run : relay -> relay -> Prop :=
| q_nil r : quiet_run r r
| q_step r i r1 r2 : quiet_in i -> r_enabled r i -> relay_step r i = Ok r1 -> quiet_run r1 r2 -> quiet_run r r2.
Lemma quiet_trans r1 r2 r3 : quiet_run r1 r2 -> quiet_run r2 r3 -> quiet_run r1 r3.
Proof. induction 1; intros Q; [exact Q|]. econstructor; eauto. Qed.

(** the receive finds nothing *)
Lemma quiet_again r (b : bool) d : r_pc r = PRecv b -> get r b = d -> d_err d = false -> d_rcb d = true -> d_wcb d = false ->
  meta_getlen (d_buf d) = 0 -> 0 < meta_getfree (d_buf d) -> quiet_run r (put r b d PIdle).
Proof.
  intros P G E _ _ L F. apply (q_step r (RRecv RxAgain) (put r b d PIdle)); [exact I| | |apply q_nil].
  - unfold r_enabled. rewrite P. exact I.
  - unfold relay_step. rewrite P, G. destruct (Z.ltb_spec (meta_getfree (d_buf d)) 1); [lia|]. unfold after_recv. rewrite L, E. reflexivity.
Qed.

(** everything in the buffer is accepted *)
Lemma quiet_flush r (b : bool) : r_pc r = PSend b -> dwf [] (get r b) \/ (exists p, dwf p (get r b)) -> d_err (get r b) = false -> 0 < meta_getlen (d_buf (get r b)) ->
  exists r', quiet_run r r' /\ r_pc r' = PIdle /\ waits_read (get r' b) /\ get r' (negb b) = get r (negb b).
Proof.
  intros P W E L. assert (X : exists p, dwf p (get r b)) by (destruct W; eauto). clear W. destruct X as (p & WF & CP & _).
  set (d := get r b) in *. set (n := meta_getlen (d_buf d)) in *.
  set (d1 := d_sent d (meta_consume (d_buf d) n) (ztake n (mdata (d_buf d)))).
  set (d2 := d_setcb (d_setbuf d1 (meta_clr (d_buf d1))) true false).
  assert (C2 : meta_getfree (d_buf d2) = meta_cap (d_buf d)) by (unfold meta_getfree; cbn; unfold meta_cap; cbn; lia).
  assert (S1 : relay_step r (RSend (TxSent n)) = Ok (put r b d2 (PRecv b))).
  { unfold relay_step. rewrite P. fold d. fold n. destruct (Z.ltb_spec n 1); [lia|]. fold d1. unfold send_loop.
    assert (Z0 : meta_getlen (d_buf d1) = 0) by (unfold d1, n, meta_getlen; cbn [d_sent d_buf meta_consume mlast mpos]; lia).
    rewrite Z0. change (0 <? 0) with false. cbv iota. unfold after_send. change (d_err d1) with (d_err d). rewrite E. fold d2. unfold recv_loop. rewrite C2.
    destruct (Z.ltb_spec 0 (meta_cap (d_buf d))); [reflexivity|lia]. }
  exists (put (put r b d2 (PRecv b)) b d2 PIdle). split; [|split; [|split]].
  - econstructor; [| |exact S1|].
    + exact I.
    + unfold r_enabled. rewrite P. fold d. cbn [tx_ok]. fold n. lia.
    + apply quiet_again; auto using pc_put, get_put_same. rewrite C2. exact CP.
  - apply pc_put.
  - rewrite get_put_same. split; [reflexivity|]. split; [reflexivity|]. split; [exact E|]. split; [reflexivity|]. rewrite C2. exact CP.
  - rewrite !get_put_other. reflexivity.
Qed.

Lemma quiet_parked pd pu r (b : bool) : rinv pd pu r -> rel_alive r -> r_pc r = PIdle ->
  exists r', quiet_run r r' /\ r_pc r' = PIdle /\ waits_read (get r' b) /\ get r' (negb b) = get r (negb b).
Proof.
  intros (D & PC) (_ & A) P. rewrite P in PC. destruct (PC b) as [W|W].
  - exists r. split; [apply q_nil|]. auto.
  - destruct W as (R & W & L). set (r1 := put r b (get r b) (PSend b)).
    assert (S1 : relay_step r (RWritable b) = Ok r1).
    { unfold relay_step. rewrite P, W. unfold send_loop. destruct (Z.ltb_spec 0 (meta_getlen (d_buf (get r b)))); [reflexivity|lia]. }
    destruct (quiet_flush r1 b) as (r2 & Q & P2 & W2 & O2).
    + apply pc_put.
    + right. unfold r1. rewrite get_put_same. eauto.
    + unfold r1. rewrite get_put_same. destruct b; apply A.
    + unfold r1. rewrite get_put_same. exact L.
    + exists r2. split; [econstructor; [| |exact S1|exact Q]|].
      * exact I.
      * unfold r_enabled. rewrite P. exact I.
      * split; [exact P2|]. split; [exact W2|]. rewrite O2. unfold r1. apply get_put_other.
Qed.

Lemma quiet_inv pd pu r r' : quiet_run r r' -> rinv pd pu r -> rel_alive r -> rinv pd pu r' /\ rel_alive r'.
Proof.
  induction 1 as [r|r i r1 r2 Q E ST _ IH]; intros V A; [auto|].
  destruct (relay_step_inv _ _ _ _ V E) as (r1' & ST' & V1). rewrite ST in ST'. injection ST' as <-. apply IH; [exact V1|].
  eapply (alive_step r (AIn i) r1); eauto. destruct i as [[| |]|[| |]| | |]; cbn in *; tauto.
Qed.

Lemma settle pd pu r : rinv pd pu r -> rel_alive r -> exists r', quiet_run r r' /\ rest r'.
Proof.
  intros V A.
  assert (ID : exists r1, quiet_run r r1 /\ r_pc r1 = PIdle).
  { pose proof V as (D & PC). pose proof A as (AL & AE). destruct (r_pc r) as [|b|b|w] eqn:P; [| | |contradiction].
    - exists r. split; [apply q_nil|exact P].
    - destruct PC as (R & W & E & F & _). destruct (D b) as (WF & CP & _).
      assert (X : exists r1, relay_step r (RRecv RxAgain) = Ok r1 /\ (r_pc r1 = PIdle \/ (r_pc r1 = PSend b /\ get r1 b = d_setcb (get r b) false true /\ 0 < meta_getlen (d_buf (get r b))))).
      { unfold relay_step. rewrite P. destruct (Z.ltb_spec (meta_getfree (d_buf (get r b))) 1); [lia|]. eexists. split; [reflexivity|]. unfold after_recv.
        destruct (Z.ltb_spec 0 (meta_getlen (d_buf (get r b)))) as [L|L]; [right|left].
        - rewrite pc_put, get_put_same. auto.
        - rewrite E. apply pc_put. }
      assert (EN : r_enabled r (RRecv RxAgain)) by (unfold r_enabled; rewrite P; exact I).
      destruct X as (r1 & ST & [I1|(I1 & G1 & L1)]).
      + exists r1. split; [|exact I1]. econstructor; [| |exact ST|apply q_nil]; [exact I|exact EN].
      + destruct (quiet_flush r1 b) as (r2 & Q & P2 & _).
        * exact I1.
        * right. rewrite G1. exists (if b then pd else pu). apply (D b).
        * rewrite G1. exact E.
        * rewrite G1. exact L1.
        * exists r2. split; [|exact P2]. econstructor; [| |exact ST|exact Q]; [exact I|exact EN].
    - destruct PC as ((_ & _ & L) & _). destruct (quiet_flush r b) as (r2 & Q & P2 & _); auto.
      + right. eexists. apply (D b).
      + destruct b; apply AE.
      + eauto. }
  destruct ID as (r1 & Q1 & P1). destruct (quiet_inv _ _ _ _ Q1 V A) as (V1 & A1).
  destruct (quiet_parked _ _ _ true V1 A1 P1) as (r2 & Q2 & P2 & W2 & O2). destruct (quiet_inv _ _ _ _ Q2 V1 A1) as (V2 & A2).
  destruct (quiet_parked _ _ _ false V2 A2 P2) as (r3 & Q3 & P3 & W3 & O3).
  exists r3. split; [eapply quiet_trans; [exact Q1|]; eapply quiet_trans; eauto|]. split; [exact P3|].
  intros []; [|exact W3]. change true with (negb false). rewrite O3. exact W2.
Qed.

Lemma ask r (b : bool) : rest r -> relay_step r (RReadable b) = Ok (put r b (get r b) (PRecv b)).
Proof.
  intros (P & W). destruct (W b) as (R & _ & _ & _ & F). unfold relay_step. rewrite P, R. unfold recv_loop.
  destruct (Z.ltb_spec 0 (meta_getfree (d_buf (get r b)))); [reflexivity|lia].
Qed.
Lemma rest_data pd pu r b : rinv pd pu r -> rest r -> mdata (d_buf (get r b)) = [].
Proof. intros (D & _) (_ & W). destruct (W b) as (_ & _ & _ & L & _). apply mdata_nil; [apply (D b)|exact L]. Qed.

(** ** The invariant of a tunnel in which nothing has failed *)
Definition ctl_cl (c : client) : Prop := match c with CRel r => exists pd pu, rinv pd pu r | _ => True end.
Definition ctl_sv (s : server) : Prop := match s with SRel _ r => exists pd pu, rinv pd pu r | _ => True end.

Section Live.
Context (g q : list Z) (c : ac) (key : list Z) (LK : 1 <= zlen key <= 16) (NK : no_nul key) (BK : bytes key).
Context (FK : exists c', ezac_find c key = Ok (true, c')).
Context (HG : hello g) (HQ : connect_to q).
Notation hdr := (header_of key).

Definition linv (t : tun) : Prop :=
  pinv hdr g q c t /\ cl_alive (t_cl t) /\ sv_alive (t_sv t) /\ ctl_cl (t_cl t) /\ ctl_sv (t_sv t) /\ bytes (t_app t) /\ bytes (t_ans t).

Lemma LH : zlen hdr = AUTH_LEN.
Proof. exact (header_len key (proj2 LK)). Qed.
Lemma bytes_repeat n : bytes (zrepeat 0 n).
Proof. unfold zrepeat. apply Forall_forall. intros x H. apply repeat_spec in H. subst x. unfold is_byte. lia. Qed.
Lemma bytes_hdr : bytes hdr.
Proof.
  unfold header_of. apply bytes_app. split; [repeat constructor; unfold is_byte; lia|]. apply bytes_app. split; [exact BK|].
  apply bytes_app. split; apply bytes_repeat.
Qed.

Lemma live_step t a : linv t -> polite g q t a -> ~ fails a -> plain a -> exists t', tun_step hdr t a = Ok t' /\ linv t'.
Proof.
  intros (PV & A1 & A2 & K1 & K2 & B1 & B2) PO NF PL.
  destruct (pinv_step g q c key t a LK NK FK HG HQ PV PO) as (t1 & E & V1). exists t1. split; [exact E|]. split; [exact V1|].
  destruct PV as (TV & SV & MW). destruct PO as (OK & PO). pose proof LH as LH'.
  destruct a as [bs|bs|i|i]; cbn [tun_step] in E.
  - injection E as <-. cbn [t_cl t_sv t_app t_ans]. repeat (split; [assumption|]). split; [|assumption]. apply bytes_app. split; [exact B1|exact OK].
  - injection E as <-. cbn [t_cl t_sv t_app t_ans]. repeat (split; [assumption|]). apply bytes_app. split; [exact B2|exact OK].
  - destruct (client_step hdr (t_cl t) i) as [c1| |] eqn:ST; try discriminate. injection E as <-. cbn [t_cl t_sv t_app t_ans].
    assert (A1' : cl_alive c1).
    { eapply cl_alive_step; eauto. intros G0. pose proof (hello_len g HG).
      destruct MW as [M|[(L & M)|(L & M)]]; [apply prefix_len in M; lia|rewrite G0, zlen_nil in L; lia|rewrite G0, zlen_nil in L; lia]. }
    split; [exact A1'|]. split; [exact A2|]. split; [|auto]. destruct OK as (EN & _).
    destruct (t_cl t) as [p m l|r|] eqn:EC.
    + destruct TV as (took & cin & tt & C & _). rewrite EC in C. cbn [cl_inv] in C. destruct C as (W & _). cbn [cl_alive] in A1. destruct A1 as (M0 & CP).
      assert (HO : handover_ok m).
      { split; [exact W|]. rewrite CP. split; [unfold TLS_TUNNEL_METAN; lia|]. unfold meta_getlen, meta_getfree. rewrite M0, CP. unfold TLS_TUNNEL_METAN. lia. }
      destruct c1 as [p1 m1 l1|r1|]; [exact I| |contradiction]. cbn [ctl_cl].
      assert (R1 : r1 = relay_init m TLS_TUNNEL_METAN).
      { destruct i as [x|ok|x|x| |x]; cbn [client_step] in ST; try discriminate; try (destruct p; discriminate).
        - destruct p; destruct (_ <? 1); try discriminate; destruct x; try discriminate;
            (destruct (meta_store m bs) as [m'| |]; try discriminate; cbn [bind] in ST; destruct (_ <? 1); discriminate).
        - destruct p; try discriminate. destruct ok; discriminate.
        - destruct p; try discriminate. destruct x; discriminate.
        - destruct p; try discriminate. destruct x as [n| |]; try discriminate. destruct (_ <? _); [discriminate|]. injection ST as <-. reflexivity. }
      subst r1. do 2 eexists. apply relay_init_inv; [exact HO|]. unfold TLS_TUNNEL_METAN. lia.
    + destruct i as [x|ok|x|x| |x]; try contradiction. cbn [client_step cl_enabled] in *. destruct x as [i|]; [|contradiction].
      cbn [any_step] in ST. destruct K1 as (pd & pu & K1). destruct (relay_step_inv _ _ _ _ K1 EN) as (r' & E' & K'). rewrite E' in ST. injection ST as <-.
      cbn [ctl_cl]. eauto.
    + contradiction.
  - destruct (server_step (t_sv t) i) as [s1| |] eqn:ST; try discriminate. injection E as <-. cbn [t_cl t_sv t_app t_ans].
    split; [exact A1|].
    destruct (tun_take _ t _ LH' TV OK) as (P1 & P2). pose proof (tinv_sent _ _ TV) as SP.
    destruct OK as (E & _). destruct (t_sv t) as [h|h r] eqn:ES; destruct i as [i|x]; try contradiction; cbn [server_step sv_alive] in *.
    + destruct (hs_step h i) as [h'| |] eqn:HS; try discriminate. cbn [bind] in ST.
      assert (NC : h_ph h' <> PhClosed).
      { specialize (SP h eq_refl). apply prefix_len in SP. cbn [svp] in SV.
        assert (EB : sv_takes_tls (SHs h) (SHsIn i) = in_bytes i) by (destruct i as [[| |]| | | | | | | |]; reflexivity). rewrite EB in P1, P2.
        eapply (phs_open hdr g q c key); eauto. intros seen EQ S0. rewrite EQ, <- app_assoc in P1. eapply prefix_trans; [exact (prefix_cancel _ _ _ P1)|].
        destruct MW as [M|[(L & M)|(L & M)]]; [apply prefix_app_r; exact M|exact M|lia]. }
      split; [destruct (h_ph h') eqn:P'; injection ST as <-; cbn [sv_alive]; rewrite ?P'; try discriminate; [apply alive_init|congruence]|].
      split; [exact K1|]. split; [|auto].
      destruct (h_ph h') eqn:P'; injection ST as <-; try exact I. cbn [ctl_sv]. do 2 eexists. apply relay_init_inv; [|unfold TLS_TUNNEL_METAN; lia].
      destruct TV as (took & cin & tt & _ & TS & _). rewrite ES in TS. cbn [sv_inv] in TS. destruct TS as (_ & _ & _ & MK & AU).
      assert (W : mok TLS_TUNNEL_METAN (h_meta h') /\ mpos (h_meta h') = 0 /\ mlast (h_meta h') = 0).
      { destruct (h_ph h) eqn:Ph; try (destruct (hs_step_other TLS_TUNNEL_METAN h i h' ltac:(congruence) ltac:(congruence) ltac:(congruence) MK E HS) as (_ & W' & _ & X); split; [exact W'|apply X; exact P']); try contradiction.
        - exfalso. unfold hs_step in HS. rewrite Ph in HS. destruct i; try (injection HS as <-; cbn in P'; congruence); try (rewrite <- Ph in P'; injection HS as <-; congruence).
          unfold do_recv in HS. destruct (_ <? 1); [discriminate|]. destruct r as [bs| |].
          + destruct (meta_store (h_meta h) bs) as [m| |]; try discriminate. cbn [bind] in HS. destruct (_ <? _); [injection HS as <-; discriminate|].
            unfold auth_check in HS. destruct (bseq _ _); [|injection HS as <-; discriminate]. destruct (of_opt _ _) as [tx| |]; try discriminate. cbn [bind] in HS.
            destruct (ezac_find (h_ac h) tx) as [f| |]; try discriminate. cbn [bind] in HS. destruct (fst f); injection HS as <-; discriminate.
          + injection HS as <-. congruence.
          + injection HS as <-. discriminate. }
      destruct W as ((W & CP) & M1 & M2). split; [exact W|]. rewrite CP. split; [unfold TLS_TUNNEL_METAN; lia|]. right. unfold meta_getfree. rewrite CP, M2. unfold TLS_TUNNEL_METAN. lia.
    + destruct x as [i|]; [|contradiction]. cbn [any_step] in ST. destruct K2 as (pd & pu & K2). destruct (relay_step_inv _ _ _ _ K2 E) as (r' & E' & K').
      rewrite E' in ST. injection ST as <-. cbn [sv_alive ctl_sv]. split; [eapply (alive_step r (AIn i)); eauto|]. split; [exact K1|]. split; [eauto|auto].
Qed.

Lemma live_init : linv (tun_init c).
Proof.
  split; [apply pinv_init; exact LK|]. unfold tun_init. cbn [t_cl t_sv t_app t_ans cl_alive sv_alive ctl_cl ctl_sv hs_init h_ph].
  destruct (meta_new_wf TLS_TUNNEL_METAN) as (_ & CP & _); [unfold TLS_TUNNEL_METAN; lia|].
  split; [split; [reflexivity|exact CP]|]. split; [discriminate|]. repeat split; constructor.
Qed.

Lemma live_run acts : forall t, linv t -> tun_along hdr (polite g q) t acts -> Forall (fun a => ~ fails a /\ plain a) acts ->
  exists t', tun_run hdr t acts = Ok t' /\ linv t'.
Proof.
  induction acts as [|a acts IH]; intros t V AL NF; cbn [tun_run]; [eauto|]. destruct AL as (PO & AL).
  destruct (Forall_inv NF) as (N1 & N2). apply Forall_inv_tail in NF.
  destruct (live_step t a V PO N1 N2) as (t1 & E & V1). rewrite E. cbn [bind]. apply IH; auto.
Qed.

(** ** Continuations *)
Definition goes (t t' : tun) : Prop :=
  exists l, Forall calm l /\ tun_along hdr tun_ok t l /\ tun_run hdr t l = Ok t' /\ linv t'.

Lemma goes_refl t : linv t -> goes t t.
Proof. intros V. exists []. split; [constructor|]. split; [exact I|]. split; [reflexivity|exact V]. Qed.
Lemma goes_trans t1 t2 t3 : goes t1 t2 -> goes t2 t3 -> goes t1 t3.
Proof.
  intros (l1 & C1 & A1 & R1 & V1) (l2 & C2 & A2 & R2 & V2). exists (l1 ++ l2). split; [apply Forall_app; auto|]. revert t1 A1 R1.
  induction l1 as [|a l1 IH]; intros t1 A1 R1; cbn [app tun_along tun_run] in *.
  - injection R1 as ->. auto.
  - destruct A1 as (OK & A1). apply Forall_inv_tail in C1. destruct (tun_step hdr t1 a) as [u| |] eqn:ST; try discriminate. cbn [bind] in *.
    destruct (IH C1 u (A1 u eq_refl) R1) as (X & Y & Z). split; [split; [exact OK|]|auto]. intros t' [= <-]. exact X.
Qed.
Lemma goes_step t a t' : linv t -> calm a -> tun_ok t a -> tun_step hdr t a = Ok t' -> goes t t'.
Proof.
  intros V C OK ST. exists [a]. split; [constructor; [exact C|constructor]|]. cbn [tun_along tun_run]. rewrite ST. cbn [bind]. split; [auto|]. split; [reflexivity|].
  destruct C as (NF & PL & NW). destruct (live_step t a V) as (t1 & E & V1); auto.
  - split; [exact OK|]. destruct a; try exact I. contradiction.
  - rewrite ST in E. injection E as <-. exact V1.
Qed.
Lemma goes_inv t t' : goes t t' -> linv t'.
Proof. intros (l & _ & _ & _ & V). exact V. Qed.

(** what the application and the target wrote, and what the server has *)
Definition same_up (t t' : tun) : Prop := t_app t' = t_app t /\ t_ans t' = t_ans t.

(** ** The client *)
Definition cl_keeps (t t' : tun) : Prop :=
  t_sv t' = t_sv t /\ t_ts t' = t_ts t /\ t_app t' = t_app t /\ t_ans t' = t_ans t /\ t_rcv t' = t_rcv t /\ t_tgt t' = t_tgt t.
Lemma cl_keeps_trans t1 t2 t3 : cl_keeps t1 t2 -> cl_keeps t2 t3 -> cl_keeps t1 t3.
Proof. intros (A1&A2&A3&A4&A5&A6) (B1&B2&B3&B4&B5&B6). repeat split; congruence. Qed.

Definition cli_to (t : tun) (i : cin) (c' : client) : tun :=
  mkTun c' (t_sv t) (zdrop (zlen (cl_takes_app (t_cl t) i)) (t_ac t)) (rec_put (t_cs t) (cl_gives_tls (t_cl t) i))
        (zdrop (zlen (cl_takes_tls (t_cl t) i)) (t_sc t)) (t_ts t)
        (t_app t) (t_got t ++ cl_gives_app (t_cl t) i) (t_tgt t) (t_ans t) (t_rcv t) (t_fnd t).
Lemma cli_step t i c' : client_step hdr (t_cl t) i = Ok c' -> tun_step hdr t (TCli i) = Ok (cli_to t i c').
Proof. intros E. cbn [tun_step]. rewrite E. reflexivity. Qed.
Lemma cli_keeps t i c' : cl_keeps t (cli_to t i c').
Proof. repeat split. Qed.

Lemma zdrop0 {A} (l : list A) : zdrop 0 l = l.
Proof. apply zdrop_le0. lia. Qed.
Lemma nil_prefix (l : list Z) : prefix [] l.
Proof. exists l. reflexivity. Qed.

Lemma cl_quiet r r' : quiet_run r r' -> forall t, linv t -> t_cl t = CRel r ->
  exists t', goes t t' /\ t_cl t' = CRel r' /\ cl_keeps t t' /\ t_ac t' = t_ac t /\ t_sc t' = t_sc t.
Proof.
  induction 1 as [r|r i r1 r2 Q E ST _ IH]; intros t V EC.
  - exists t. split; [apply goes_refl; exact V|]. repeat split; auto.
  - assert (T : forall b, rel_takes r (AIn i) b = []) by (intros b; destruct i as [[| |]|[| |]| | |]; try contradiction; reflexivity).
    assert (CS : client_step hdr (t_cl t) (CRelay (AIn i)) = Ok (CRel r1)) by (rewrite EC; cbn [client_step any_step]; rewrite ST; reflexivity).
    pose proof (cli_step _ _ _ CS) as TS. set (t1 := cli_to t (CRelay (AIn i)) (CRel r1)) in *.
    assert (G : goes t t1).
    { eapply goes_step; [exact V| | |exact TS].
      - destruct i as [[| |]|[| |]| | |]; try contradiction; repeat split; cbn; tauto.
      - cbn [tun_ok]. rewrite EC. cbn [cl_enabled rel_enabled cl_takes_app cl_takes_tls]. rewrite !T. split; [exact E|]. split; apply nil_prefix. }
    destruct (IH t1 (goes_inv _ _ G) eq_refl) as (t2 & G2 & C2 & K2 & Q1 & Q2).
    exists t2. split; [eapply goes_trans; eauto|]. split; [exact C2|]. split; [eapply cl_keeps_trans; [apply cli_keeps|exact K2]|].
    rewrite Q1, Q2. unfold t1, cli_to. cbn [t_ac t_sc]. rewrite EC. cbn [cl_takes_app cl_takes_tls]. rewrite !T, zlen_nil, !zdrop0. auto.
Qed.

Definition cl_rest (t : tun) : Prop := exists r, t_cl t = CRel r /\ rest r.

Lemma cl_settle t r : linv t -> t_cl t = CRel r ->
  exists t', goes t t' /\ cl_rest t' /\ cl_keeps t t' /\ t_ac t' = t_ac t /\ t_sc t' = t_sc t.
Proof.
  intros V EC. pose proof V as (_ & A & _ & K & _). rewrite EC in A, K. cbn [cl_alive ctl_cl] in *. destruct K as (pd & pu & K).
  destruct (settle _ _ _ K A) as (r' & Q & RE). destruct (cl_quiet _ _ Q t V EC) as (t' & G & C' & K' & E1 & E2).
  exists t'. split; [exact G|]. split; [exists r'; auto|]. auto.
Qed.

(** the bytes in the queues are bytes *)
Lemma bytes_cut a b l : bytes l -> l = a ++ b -> bytes a /\ bytes b.
Proof. intros B ->. apply bytes_app in B. exact B. Qed.
Lemma queues_bytes t : linv t -> bytes (t_ac t) /\ bytes (concat (t_cs t)).
Proof.
  intros ((TV & _) & _ & _ & _ & _ & B1 & B2). destruct (tinv_up _ _ TV) as (lost & EU & _).
  assert (B : bytes (hdr ++ t_app t)) by (apply bytes_app; split; [apply bytes_hdr|exact B1]).
  rewrite EU in B. apply bytes_app in B as (_ & B). apply bytes_app in B as (BC & B). apply bytes_app in B as (_ & B). auto.
Qed.

Lemma bytes_reply a p : bytes (p2_reply a p).
Proof.
  unfold p2_reply, le32, le16. assert (M : forall x, is_byte (x mod 256)) by (intros x; unfold is_byte; apply Z.mod_pos_bound; lia).
  repeat (apply bytes_app; split); repeat constructor; try apply M; unfold is_byte; lia.
Qed.
Lemma sent_bytes t : linv t -> bytes (h_sent (sv_hs (t_sv t))).
Proof.
  intros ((_ & SV & _) & _ & A & _).
  assert (P5 : bytes [5; 0]) by (repeat constructor; unfold is_byte; lia).
  assert (PR : forall a p, bytes ([5; 0] ++ p2_reply a p)) by (intros; apply bytes_app; split; [exact P5|apply bytes_reply]).
  destruct (t_sv t) as [h|h r]; cbn [svp sv_hs sv_alive] in *.
  - unfold phs in SV. destruct (h_ph h); try congruence.
    + destruct SV as (_ & _ & _ & _ & -> & _). constructor.
    + destruct SV as (seen & _ & -> & _). constructor.
    + destruct SV as (_ & E & _). rewrite <- E in P5. apply bytes_app in P5. apply P5.
    + destruct SV as (s2 & _ & -> & _). exact P5.
    + destruct SV as (_ & -> & _). exact P5.
    + destruct SV as (_ & -> & _). exact P5.
    + destruct SV as (_ & -> & _). exact P5.
    + destruct SV as (_ & -> & _). exact P5.
    + destruct SV as (_ & -> & _). exact P5.
    + destruct SV as (_ & -> & _). exact P5.
    + destruct SV as (_ & E & _). pose proof (PR (h_addr h) (h_port h)) as X. rewrite <- E in X. apply bytes_app in X. apply X.
    + destruct SV as (_ & -> & _). apply PR.
  - destruct SV as (SV & P & _). unfold phs in SV. rewrite P in SV. destruct SV as (_ & -> & _). apply PR.
Qed.
Lemma queues_bytes_down t : linv t -> bytes (t_sc t) /\ bytes (t_ts t).
Proof.
  intros V. pose proof (sent_bytes t V) as BS. destruct V as ((TV & _) & _ & _ & _ & _ & _ & B2). pose proof (tinv_down _ _ TV) as ED.
  assert (B : bytes (h_sent (sv_hs (t_sv t)) ++ t_ans t)) by (apply bytes_app; auto).
  rewrite ED in B. repeat (apply bytes_app in B as (? & B)). auto.
Qed.

Lemma take_bytes n l : bytes l -> bytes (ztake n l).
Proof. intros B. rewrite <- (ztake_zdrop n l) in B. apply bytes_app in B. apply B. Qed.
Lemma take_ne n (l : list Z) : 0 < n -> l <> [] -> ztake n l <> [].
Proof. intros N L. destruct l as [|x l]; [congruence|]. rewrite ztake_cons by lia. discriminate. Qed.
Lemma take_prefix n (l : list Z) : prefix (ztake n l) l.
Proof. exists (zdrop n l). symmetry. apply ztake_zdrop. Qed.
Lemma ne_len (l : list Z) : l <> [] -> 0 < zlen l.
Proof. destruct l; [congruence|]. intros _. rewrite zlen_cons. pose proof (zlen_nonneg l). lia. Qed.

(** a relay at rest takes a piece *)
Lemma piece r (b : bool) (qu : list Z) pd pu : rinv pd pu r -> rest r -> bytes qu -> qu <> [] ->
  exists bs r1 r2, bs <> [] /\ prefix bs qu /\
    r_enabled r (RReadable b) /\ relay_step r (RReadable b) = Ok r1 /\
    r_enabled r1 (RRecv (RxData bs)) /\ relay_step r1 (RRecv (RxData bs)) = Ok r2 /\
    (forall b', rel_takes r (AIn (RReadable b)) b' = []) /\
    (forall b', rel_takes r1 (AIn (RRecv (RxData bs))) b' = if Bool.eqb b' b then bs else []).
Proof.
  intros V RE B N. pose proof (ask r b RE) as S1. set (r1 := put r b (get r b) (PRecv b)) in *.
  destruct RE as (P & W). destruct (W b) as (_ & _ & _ & _ & F).
  exists (ztake (meta_getfree (d_buf (get r b))) qu), r1.
  assert (E1 : r_enabled r (RReadable b)) by (unfold r_enabled; rewrite P; exact I).
  assert (E2 : r_enabled r1 (RRecv (RxData (ztake (meta_getfree (d_buf (get r b))) qu)))).
  { unfold r_enabled, r1. rewrite pc_put, get_put_same. cbn [rx_ok]. split; [apply take_ne; assumption|]. split; [apply take_bytes; exact B|].
    rewrite zlen_ztake by lia. lia. }
  destruct (relay_step_inv _ _ _ _ V E1) as (r1' & S1' & V1). rewrite S1 in S1'. injection S1' as <-.
  destruct (relay_step_inv _ _ _ _ V1 E2) as (r2 & S2 & V2). exists r2.
  split; [apply take_ne; assumption|]. split; [apply take_prefix|]. repeat (split; [assumption|]). split.
  - intros b'. reflexivity.
  - intros b'. unfold rel_takes, r1. rewrite pc_put. reflexivity.
Qed.

Lemma drop_less (bs qu : list Z) : bs <> [] -> prefix bs qu -> zlen (zdrop (zlen bs) qu) < zlen qu.
Proof. intros N P. pose proof (ne_len _ N). apply prefix_len in P. rewrite zlen_zdrop by lia. lia. Qed.

Lemma cl_relay_step t r i r1 : linv t -> t_cl t = CRel r -> r_enabled r i -> relay_step r i = Ok r1 -> ~ fails_relay (AIn i) ->
  prefix (rel_takes r (AIn i) true) (t_ac t) -> prefix (rel_takes r (AIn i) false) (t_sc t) ->
  exists t', goes t t' /\ t_cl t' = CRel r1 /\ cl_keeps t t' /\
    t_ac t' = zdrop (zlen (rel_takes r (AIn i) true)) (t_ac t) /\ t_sc t' = zdrop (zlen (rel_takes r (AIn i) false)) (t_sc t).
Proof.
  intros V EC EN ST NF P1 P2.
  assert (CS : client_step hdr (t_cl t) (CRelay (AIn i)) = Ok (CRel r1)) by (rewrite EC; cbn [client_step any_step]; rewrite ST; reflexivity).
  pose proof (cli_step _ _ _ CS) as TS. exists (cli_to t (CRelay (AIn i)) (CRel r1)). split; [|split; [reflexivity|split; [apply cli_keeps|]]].
  - eapply goes_step; [exact V| | |exact TS].
    + split; [exact NF|]. split; [exact I|]. intros X; exact X.
    + cbn [tun_ok]. rewrite EC. cbn [cl_enabled rel_enabled cl_takes_app cl_takes_tls]. auto.
  - unfold cli_to. cbn [t_ac t_sc]. rewrite EC. cbn [cl_takes_app cl_takes_tls]. auto.
Qed.

Lemma cl_drain_n n : forall t, linv t -> cl_rest t -> zlen (t_ac t) + zlen (t_sc t) <= Z.of_nat n ->
  exists t', goes t t' /\ cl_rest t' /\ cl_keeps t t' /\ t_ac t' = [] /\ t_sc t' = [].
Proof.
  induction n as [|n IH]; intros t V RE L; pose proof (zlen_nonneg (t_ac t)) as N1; pose proof (zlen_nonneg (t_sc t)) as N2.
  - exists t. split; [apply goes_refl; exact V|]. split; [exact RE|]. split; [repeat split|]. split; apply zlen_0_nil; lia.
  - assert (X : (t_ac t = [] /\ t_sc t = []) \/ exists b : bool, (if b then t_ac t else t_sc t) <> []).
    { destruct (t_ac t); [destruct (t_sc t); [auto|]|]; right; [exists false|exists true]; discriminate. }
    destruct X as [(X1 & X2)|(b & NE)].
    { exists t. split; [apply goes_refl; exact V|]. split; [exact RE|]. split; [repeat split|]. auto. }
    destruct RE as (r & EC & RE). pose proof V as (_ & _ & _ & K & _). rewrite EC in K. destruct K as (pd & pu & K).
    assert (BQ : bytes (if b then t_ac t else t_sc t)) by (destruct b; [apply queues_bytes|apply queues_bytes_down]; exact V).
    destruct (piece r b _ _ _ K RE BQ NE) as (bs & r1 & r2 & NB & PB & E1 & S1 & E2 & S2 & T1 & T2).
    destruct (cl_relay_step t r _ _ V EC E1 S1) as (t1 & G1 & C1 & K1 & Q1 & Q1').
    { exact (fun X => X). } { rewrite T1. apply nil_prefix. } { rewrite T1. apply nil_prefix. }
    rewrite T1, zlen_nil, zdrop0 in Q1, Q1'.
    destruct (cl_relay_step t1 r1 _ _ (goes_inv _ _ G1) C1 E2 S2) as (t2 & G2 & C2 & K2 & Q2 & Q2').
    { exact (fun X => X). } { rewrite T2, Q1. destruct b; [exact PB|apply nil_prefix]. } { rewrite T2, Q1'. destruct b; [apply nil_prefix|exact PB]. }
    rewrite T2, Q1 in Q2. rewrite T2, Q1' in Q2'.
    destruct (cl_settle t2 r2 (goes_inv _ _ G2) C2) as (t3 & G3 & R3 & K3 & Q3 & Q3').
    destruct (IH t3 (goes_inv _ _ G3) R3) as (t4 & G4 & R4 & K4 & Q4).
    { rewrite Q3, Q3', Q2, Q2'. destruct b; cbn [Bool.eqb] in *; rewrite ?zlen_nil, ?zdrop0; pose proof (drop_less _ _ NB PB); lia. }
    exists t4. split; [eapply goes_trans; [exact G1|]; eapply goes_trans; [exact G2|]; eapply goes_trans; eauto|]. split; [exact R4|]. split; [|exact Q4].
    eapply cl_keeps_trans; [exact K1|]. eapply cl_keeps_trans; [exact K2|]. eapply cl_keeps_trans; eauto.
Qed.

(** the client reaches the relay *)
Lemma cl_pre_step t i c' : linv t -> client_step hdr (t_cl t) i = Ok c' -> calm (TCli i) -> cl_enabled (t_cl t) i ->
  cl_takes_app (t_cl t) i = [] -> cl_takes_tls (t_cl t) i = [] ->
  exists t', goes t t' /\ t_cl t' = c' /\ cl_keeps t t'.
Proof.
  intros V CS CA EN T1 T2. exists (cli_to t i c'). split; [|split; [reflexivity|apply cli_keeps]].
  eapply goes_step; [exact V|exact CA| |apply cli_step; exact CS]. cbn [tun_ok]. rewrite T1, T2. split; [exact EN|]. split; apply nil_prefix.
Qed.
Lemma cl_start t : linv t -> exists t' r, goes t t' /\ t_cl t' = CRel r /\ cl_keeps t t'.
Proof.
  assert (AU : forall t m l, linv t -> t_cl t = CPre CpAuth m l -> exists t' r, goes t t' /\ t_cl t' = CRel r /\ cl_keeps t t').
  { intros t0 m l V EC. destruct (cl_pre_step t0 (CSend (TxSent (zlen l))) (CRel (relay_init m TLS_TUNNEL_METAN)) V) as (t1 & G & C1 & K1); try (rewrite EC; reflexivity).
    - rewrite EC. cbn [client_step]. rewrite Z.ltb_irrefl. reflexivity.
    - repeat split; exact (fun X => X).
    - rewrite EC. cbn [cl_enabled]. pose proof (zlen_nonneg l). lia.
    - eauto. }
  assert (SH : forall t m l, linv t -> t_cl t = CPre CpShake m l -> exists t' r, goes t t' /\ t_cl t' = CRel r /\ cl_keeps t t').
  { intros t0 m l V EC. destruct (cl_pre_step t0 (CShake ConOk) (CPre CpAuth m hdr) V) as (t1 & G & C1 & K1); try (rewrite EC; reflexivity).
    - repeat split; exact (fun X => X).
    - destruct (AU t1 m hdr (goes_inv _ _ G) C1) as (t2 & r & G2 & C2 & K2). exists t2, r. split; [eapply goes_trans; eauto|]. split; [exact C2|eapply cl_keeps_trans; eauto]. }
  intros V. destruct (t_cl t) as [p m l|r|] eqn:EC.
  - destruct p.
    + destruct (cl_pre_step t (CConn true) (CPre CpShake m l) V) as (t1 & G & C1 & K1); try (rewrite EC; reflexivity).
      * repeat split; exact (fun X => X).
      * destruct (SH t1 m l (goes_inv _ _ G) C1) as (t2 & r & G2 & C2 & K2). exists t2, r. split; [eapply goes_trans; eauto|]. split; [exact C2|eapply cl_keeps_trans; eauto].
    + eauto.
    + eauto.
  - exists t, r. split; [apply goes_refl; exact V|]. split; [exact EC|repeat split].
  - exfalso. destruct V as (_ & A & _). rewrite EC in A. exact A.
Qed.

Lemma cl_up t : linv t -> exists t', goes t t' /\ cl_rest t' /\ cl_keeps t t' /\ t_ac t' = [] /\ t_sc t' = [].
Proof.
  intros V. destruct (cl_start t V) as (t1 & r & G1 & C1 & K1).
  destruct (cl_settle t1 r (goes_inv _ _ G1) C1) as (t2 & G2 & R2 & K2 & _).
  destruct (cl_drain_n (Z.to_nat (zlen (t_ac t2) + zlen (t_sc t2))) t2 (goes_inv _ _ G2) R2) as (t3 & G3 & R3 & K3 & Q3).
  { pose proof (zlen_nonneg (t_ac t2)). pose proof (zlen_nonneg (t_sc t2)). lia. }
  exists t3. split; [eapply goes_trans; [exact G1|]; eapply goes_trans; eauto|]. split; [exact R3|]. split; [|exact Q3].
  eapply cl_keeps_trans; [exact K1|]. eapply cl_keeps_trans; eauto.
Qed.

(** with the client at rest and nothing on the way to it, all is at the server or in TLS *)
Lemma up_rest t : linv t -> cl_rest t -> t_ac t = [] -> t_rcv t ++ concat (t_cs t) = hdr ++ t_app t.
Proof.
  intros V (r & EC & RE) EA. destruct V as ((TV & _) & _ & _ & K & _). destruct (tinv_up _ _ TV) as (lost & EU & EL).
  rewrite EC in K. destruct K as (pd & pu & K). rewrite EU, EA, EL by (rewrite EC; discriminate). rewrite EC. cbn [cl_pending].
  rewrite (rest_data _ _ _ true K RE), !app_nil_r. reflexivity.
Qed.

(** ** The server *)
Definition sv_keeps (t t' : tun) : Prop := t_cl t' = t_cl t /\ t_ac t' = t_ac t /\ t_app t' = t_app t /\ t_ans t' = t_ans t.
Lemma sv_keeps_trans t1 t2 t3 : sv_keeps t1 t2 -> sv_keeps t2 t3 -> sv_keeps t1 t3.
Proof. intros (A1&A2&A3&A4) (B1&B2&B3&B4). repeat split; congruence. Qed.
Definition srv_to (t : tun) (i : sin) (s' : server) : tun :=
  mkTun (t_cl t) s' (t_ac t)
        (match sv_takes_tls (t_sv t) i with [] => t_cs t | bs => rec_drop (zlen bs) (t_cs t) end)
        (t_sc t ++ sv_gives_tls (t_sv t) i) (zdrop (zlen (sv_takes_tgt (t_sv t) i)) (t_ts t))
        (t_app t) (t_got t) (t_tgt t ++ sv_gives_tgt (t_sv t) i) (t_ans t)
        (t_rcv t ++ sv_takes_tls (t_sv t) i) (t_fnd t ++ sv_found i).
Lemma srv_step t i s' : server_step (t_sv t) i = Ok s' -> tun_step hdr t (TSrv i) = Ok (srv_to t i s').
Proof. intros E. cbn [tun_step]. rewrite E. reflexivity. Qed.

Lemma sv_relay_step t h r i r1 : linv t -> t_sv t = SRel h r -> r_enabled r i -> relay_step r i = Ok r1 -> ~ fails_relay (AIn i) ->
  match rel_takes r (AIn i) true with [] => True | bs => match t_cs t with r0 :: _ => prefix bs r0 | [] => False end end ->
  prefix (rel_takes r (AIn i) false) (t_ts t) ->
  exists t', goes t t' /\ t_sv t' = SRel h r1 /\ sv_keeps t t' /\
    t_cs t' = match rel_takes r (AIn i) true with [] => t_cs t | bs => rec_drop (zlen bs) (t_cs t) end /\
    t_ts t' = zdrop (zlen (rel_takes r (AIn i) false)) (t_ts t).
Proof.
  intros V EC EN ST NF P1 P2.
  assert (CS : server_step (t_sv t) (SRelay (AIn i)) = Ok (SRel h r1)) by (rewrite EC; cbn [server_step any_step]; rewrite ST; reflexivity).
  pose proof (srv_step _ _ _ CS) as TS. exists (srv_to t (SRelay (AIn i)) (SRel h r1)). split; [|split; [reflexivity|split; [repeat split|]]].
  - eapply goes_step; [exact V| | |exact TS].
    + split; [exact NF|]. split; [exact I|]. intros X; exact X.
    + cbn [tun_ok]. rewrite EC. cbn [sv_enabled rel_enabled sv_takes_tls sv_takes_tgt]. auto.
  - unfold srv_to. cbn [t_cs t_ts]. rewrite EC. cbn [sv_takes_tls sv_takes_tgt]. auto.
Qed.

Lemma sv_quiet h r r' : quiet_run r r' -> forall t, linv t -> t_sv t = SRel h r ->
  exists t', goes t t' /\ t_sv t' = SRel h r' /\ sv_keeps t t' /\ t_cs t' = t_cs t /\ t_ts t' = t_ts t.
Proof.
  induction 1 as [r|r i r1 r2 Q E ST _ IH]; intros t V EC.
  - exists t. split; [apply goes_refl; exact V|]. repeat split; auto.
  - assert (T : forall b, rel_takes r (AIn i) b = []) by (intros b; destruct i as [[| |]|[| |]| | |]; try contradiction; reflexivity).
    destruct (sv_relay_step t h r i r1 V EC E ST) as (t1 & G1 & C1 & K1 & Q1 & Q1').
    { destruct i as [[| |]|[| |]| | |]; cbn in *; tauto. } { rewrite T. exact I. } { rewrite T. apply nil_prefix. }
    rewrite T in Q1, Q1'. rewrite zlen_nil, zdrop0 in Q1'.
    destruct (IH t1 (goes_inv _ _ G1) C1) as (t2 & G2 & C2 & K2 & Q2 & Q2').
    exists t2. split; [eapply goes_trans; eauto|]. split; [exact C2|]. split; [eapply sv_keeps_trans; eauto|]. split; congruence.
Qed.
Definition sv_rest (t : tun) : Prop := exists h r, t_sv t = SRel h r /\ rest r.
Lemma sv_settle t h r : linv t -> t_sv t = SRel h r ->
  exists t', goes t t' /\ sv_rest t' /\ sv_keeps t t' /\ t_cs t' = t_cs t /\ t_ts t' = t_ts t.
Proof.
  intros V EC. pose proof V as (_ & _ & A & _ & K & _). rewrite EC in A, K. cbn [sv_alive ctl_sv] in *. destruct K as (pd & pu & K).
  destruct (settle _ _ _ K A) as (r' & Q & RE). destruct (sv_quiet h _ _ Q t V EC) as (t' & G & C' & K' & E1 & E2).
  exists t'. split; [exact G|]. split; [exists h, r'; auto|]. auto.
Qed.

Lemma rec_less qu bs r0 q' : qu = r0 :: q' -> prefix bs r0 -> bs <> [] -> zlen (concat (rec_drop (zlen bs) qu)) < zlen (concat qu).
Proof.
  intros E P N. pose proof (rec_drop_spec qu bs r0 q' E P) as X. apply (f_equal zlen) in X. rewrite zlen_app in X. pose proof (ne_len _ N). lia.
Qed.
Lemma records t : linv t -> Forall nonempty (t_cs t).
Proof. intros ((TV & _) & _). destruct TV as (took & cin & tt & _ & _ & _ & _ & NE & _). exact NE. Qed.
Lemma first_bytes t r0 l : linv t -> t_cs t = r0 :: l -> bytes r0 /\ r0 <> [].
Proof.
  intros V E. destruct (queues_bytes t V) as (_ & B). pose proof (records t V) as NE. rewrite E in *. cbn [concat] in B. apply bytes_app in B.
  split; [apply B|]. exact (Forall_inv NE).
Qed.

Lemma sv_drain_n n : forall t, linv t -> sv_rest t -> zlen (concat (t_cs t)) + zlen (t_ts t) <= Z.of_nat n ->
  exists t', goes t t' /\ sv_rest t' /\ sv_keeps t t' /\ t_cs t' = [] /\ t_ts t' = [].
Proof.
  induction n as [|n IH]; intros t V RE L; pose proof (zlen_nonneg (concat (t_cs t))) as N1; pose proof (zlen_nonneg (t_ts t)) as N2.
  - exists t. split; [apply goes_refl; exact V|]. split; [exact RE|]. split; [repeat split|]. split; [|apply zlen_0_nil; lia].
    destruct (t_cs t) as [|r0 l] eqn:E; [reflexivity|]. exfalso. destruct (first_bytes t r0 l V E) as (_ & NE). apply ne_len in NE.
    cbn [concat] in L. rewrite zlen_app in L. pose proof (zlen_nonneg (concat l)). lia.
  - assert (X : (t_cs t = [] /\ t_ts t = []) \/ (exists r0 l, t_cs t = r0 :: l) \/ t_ts t <> []).
    { destruct (t_cs t); [destruct (t_ts t); [auto|]|]; right; [right; discriminate|left; eauto]. }
    destruct X as [(X1 & X2)|X].
    { exists t. split; [apply goes_refl; exact V|]. split; [exact RE|]. split; [repeat split|]. auto. }
    destruct RE as (h & r & EC & RE). pose proof V as (_ & _ & _ & _ & K & _). rewrite EC in K. destruct K as (pd & pu & K).
    assert (Y : exists t2 r2, goes t t2 /\ t_sv t2 = SRel h r2 /\ sv_keeps t t2 /\ zlen (concat (t_cs t2)) + zlen (t_ts t2) < zlen (concat (t_cs t)) + zlen (t_ts t)).
    { destruct X as [(r0 & l & EQ)|NE].
      - destruct (first_bytes t r0 l V EQ) as (B0 & N0).
        destruct (piece r true r0 _ _ K RE B0 N0) as (bs & r1 & r2 & NB & PB & E1 & S1 & E2 & S2 & T1 & T2).
        destruct (sv_relay_step t h r _ _ V EC E1 S1) as (t1 & G1 & C1 & K1 & Q1 & Q1').
        { exact (fun X => X). } { rewrite T1. exact I. } { rewrite T1. apply nil_prefix. }
        rewrite T1 in Q1, Q1'. rewrite zlen_nil, zdrop0 in Q1'. specialize (T2 true) as T2t. specialize (T2 false) as T2f. cbn [Bool.eqb] in T2t, T2f.
        destruct (sv_relay_step t1 h r1 _ _ (goes_inv _ _ G1) C1 E2 S2) as (t2 & G2 & C2 & K2 & Q2 & Q2').
        { exact (fun X => X). } { rewrite T2t, Q1, EQ. destruct bs; [exact I|exact PB]. } { rewrite T2f. apply nil_prefix. }
        rewrite T2t, Q1 in Q2. rewrite T2f, Q1', zlen_nil, zdrop0 in Q2'.
        exists t2, r2. split; [eapply goes_trans; eauto|]. split; [exact C2|]. split; [eapply sv_keeps_trans; eauto|].
        rewrite Q2'. assert (Q2b : t_cs t2 = rec_drop (zlen bs) (t_cs t)) by (destruct bs; [congruence|exact Q2]). rewrite Q2b.
        pose proof (rec_less _ bs r0 l EQ PB NB). lia.
      - destruct (queues_bytes_down t V) as (_ & BT).
        destruct (piece r false _ _ _ K RE BT NE) as (bs & r1 & r2 & NB & PB & E1 & S1 & E2 & S2 & T1 & T2).
        destruct (sv_relay_step t h r _ _ V EC E1 S1) as (t1 & G1 & C1 & K1 & Q1 & Q1').
        { exact (fun X => X). } { rewrite T1. exact I. } { rewrite T1. apply nil_prefix. }
        rewrite T1 in Q1, Q1'. rewrite zlen_nil, zdrop0 in Q1'. specialize (T2 true) as T2t. specialize (T2 false) as T2f. cbn [Bool.eqb] in T2t, T2f.
        destruct (sv_relay_step t1 h r1 _ _ (goes_inv _ _ G1) C1 E2 S2) as (t2 & G2 & C2 & K2 & Q2 & Q2').
        { exact (fun X => X). } { rewrite T2t. exact I. } { rewrite T2f, Q1'. exact PB. }
        rewrite T2t, Q1 in Q2. rewrite T2f, Q1' in Q2'.
        exists t2, r2. split; [eapply goes_trans; eauto|]. split; [exact C2|]. split; [eapply sv_keeps_trans; eauto|].
        rewrite Q2, Q2'. pose proof (drop_less _ _ NB PB). lia. }
    destruct Y as (t2 & r2 & G2 & C2 & K2 & L2).
    destruct (sv_settle t2 h r2 (goes_inv _ _ G2) C2) as (t3 & G3 & R3 & K3 & Q3 & Q3').
    destruct (IH t3 (goes_inv _ _ G3) R3) as (t4 & G4 & R4 & K4 & Q4).
    { rewrite Q3, Q3'. lia. }
    exists t4. split; [eapply goes_trans; [exact G2|]; eapply goes_trans; eauto|]. split; [exact R4|]. split; [|exact Q4].
    eapply sv_keeps_trans; [exact K2|]. eapply sv_keeps_trans; eauto.
Qed.

(** *** The handshake *)
Definition rank (p : phase) : Z :=
  match p with
  | PhAuth => 12 | PhP1 => 11 | PhP1Rsp => 10 | PhP2 => 9 | PhAddr => 8 | PhLookup => 7 | PhDns => 6
  | PhConnect => 5 | PhConnWait => 4 | PhConnChk => 3 | PhP2Rsp => 2 | PhRelay => 1 | PhClosed => 0
  end.
Definition sv_rank (s : server) : Z := match s with SHs h => rank (h_ph h) | SRel _ _ => 1 end.
Lemma rank_nonneg p : 0 <= rank p.
Proof. destruct p; cbn; lia. Qed.

Lemma recv_rank h r h' : hs_step h (InRecv r) = Ok h' -> rank (h_ph h') <= rank (h_ph h).
Proof.
  intros HS. unfold hs_step in HS. destruct (h_ph h) eqn:Ph; try (injection HS as <-; rewrite Ph; cbn; lia).
  - unfold do_recv in HS. destruct (_ <? 1); [discriminate|]. destruct r as [bs| |].
    + destruct (meta_store (h_meta h) bs) as [m| |]; try discriminate. cbn [bind] in HS. destruct (_ <? _); [injection HS as <-; cbn; lia|].
      unfold auth_check in HS. destruct (bseq _ _); [|injection HS as <-; cbn; lia]. destruct (of_opt _ _) as [tx| |]; try discriminate. cbn [bind] in HS.
      destruct (ezac_find (h_ac h) tx) as [f| |]; try discriminate. cbn [bind] in HS. destruct (fst f); injection HS as <-; cbn; lia.
    + injection HS as <-. rewrite Ph. lia.
    + injection HS as <-. cbn. lia.
  - unfold do_recv in HS. destruct (_ <? 1); [discriminate|]. destruct r as [bs| |].
    + destruct (meta_store (h_meta h) bs) as [m| |]; try discriminate. cbn [bind] in HS. unfold p1_feed in HS.
      destruct (p1_loop _ _) as [p| |]; try discriminate. cbn [bind] in HS. destruct (snd p); [|injection HS as <-; cbn; lia].
      destruct (meta_store (meta_clr m) _) as [m2| |]; try discriminate. cbn [bind] in HS. injection HS as <-. cbn. lia.
    + injection HS as <-. rewrite Ph. lia.
    + injection HS as <-. cbn. lia.
  - unfold do_recv in HS. destruct (_ <? 1); [discriminate|]. destruct r as [bs| |].
    + destruct (meta_store (h_meta h) bs) as [m| |]; try discriminate. cbn [bind] in HS. unfold p2_feed in HS.
      destruct (p2_loop _ _) as [p| |]; try discriminate. cbn [bind] in HS. destruct (snd p); injection HS as <-; cbn; try lia.
      destruct (p2_accept _); cbn; lia.
    + injection HS as <-. rewrite Ph. lia.
    + injection HS as <-. cbn. lia.
Qed.

(** the input that takes a phase further *)
Definition next_in (h : hs) : inp :=
  match h_ph h with
  | PhP1Rsp | PhP2Rsp => InSend (TxSent (meta_getlen (h_meta h)))
  | PhAddr => InAlloc true
  | PhLookup => InLookup (Some [127; 0; 0; 1])
  | PhDns => InDns (Some [127; 0; 0; 1])
  | PhConnect => InConnect ConOk
  | _ => InSockUp true
  end.
Definition receiving (p : phase) : Prop := match p with PhAuth | PhP1 | PhP2 => True | _ => False end.

Lemma next_rank h h' : ~ receiving (h_ph h) -> h_ph h <> PhClosed -> h_ph h <> PhRelay -> hs_step h (next_in h) = Ok h' -> rank (h_ph h') < rank (h_ph h).
Proof.
  intros NR NC NL HS. unfold hs_step, next_in in HS. destruct (h_ph h) eqn:Ph; cbn [receiving] in NR; try tauto.
  - unfold do_send in HS. rewrite (proj2 (Z.ltb_ge 0 _)) in HS by (unfold meta_getlen; cbn; lia). injection HS as <-. cbn. lia.
  - destruct (_ =? _); injection HS as <-; cbn; lia.
  - destruct (of_opt _ _) as [x| |]; try discriminate. cbn [bind] in HS. injection HS as <-. cbn. lia.
  - injection HS as <-. cbn. lia.
  - injection HS as <-. cbn. lia.
  - destruct (meta_store _ _) as [m| |]; try discriminate. cbn [bind] in HS. injection HS as <-. cbn. lia.
  - destruct (meta_store _ _) as [m| |]; try discriminate. cbn [bind] in HS. injection HS as <-. cbn. lia.
  - unfold do_send in HS. rewrite (proj2 (Z.ltb_ge 0 _)) in HS by (unfold meta_getlen; cbn; lia). injection HS as <-. cbn. lia.
Qed.

Lemma sv_hs_step t h i : linv t -> t_sv t = SHs h -> enabled h i -> ~ fails (TSrv (SHsIn i)) ->
  match in_bytes i with [] => True | bs => match t_cs t with r0 :: _ => prefix bs r0 | [] => False end end ->
  exists t' h', goes t t' /\ hs_step h i = Ok h' /\ sv_keeps t t' /\ sv_rank (t_sv t') = rank (h_ph h') /\
    t_cs t' = match in_bytes i with [] => t_cs t | bs => rec_drop (zlen bs) (t_cs t) end.
Proof.
  intros V ES EN NF P1.
  assert (EB : sv_takes_tls (SHs h) (SHsIn i) = in_bytes i) by (destruct i as [[| |]| | | | | | | |]; reflexivity).
  assert (OK : tun_ok t (TSrv (SHsIn i))).
  { cbn [tun_ok]. rewrite ES, EB. cbn [sv_enabled sv_takes_tgt]. split; [exact EN|]. split; [exact P1|apply nil_prefix]. }
  assert (CA : calm (TSrv (SHsIn i))) by (split; [exact NF|]; split; [exact I|exact (fun X => X)]).
  destruct (live_step t _ V (conj OK I) NF I) as (t1 & ST & V1).
  pose proof ST as ST'. cbn [tun_step] in ST'. rewrite ES in ST'. cbn [server_step] in ST'.
  destruct (hs_step h i) as [h'| |] eqn:HS; try discriminate. cbn [bind] in ST'. exists t1, h'.
  split; [eapply goes_step; eauto|]. split; [reflexivity|]. rewrite EB in ST'.
  destruct (h_ph h') eqn:Ph; cbn [bind] in ST'; injection ST' as <-; (split; [repeat split|]); cbn [t_sv sv_rank t_cs]; rewrite ?Ph; split; reflexivity.
Qed.

(** the server has nothing more to do *)
Definition sv_done (t : tun) : Prop :=
  t_cs t = [] /\ ((exists h, t_sv t = SHs h /\ (h_ph h = PhP1 \/ h_ph h = PhP2)) \/ (sv_rest t /\ t_ts t = [])).

Lemma sv_up_n n : forall t, linv t -> cl_rest t -> t_ac t = [] -> zlen (concat (t_cs t)) + sv_rank (t_sv t) <= Z.of_nat n ->
  exists t', goes t t' /\ sv_keeps t t' /\ sv_done t'.
Proof.
  induction n as [|n IH]; intros t V CR EA L; pose proof (zlen_nonneg (concat (t_cs t))) as N1.
  - exfalso. destruct (t_sv t) as [h|h r] eqn:ES; cbn [sv_rank] in L; [|lia]. pose proof V as (_ & _ & A & _). rewrite ES in A. cbn [sv_alive] in A.
    destruct (h_ph h); cbn [rank] in L; try lia. congruence.
  - destruct (t_sv t) as [h|h r] eqn:ES; cbn [sv_rank] in L.
    2:{ destruct (sv_settle t h r V ES) as (t1 & G1 & R1 & K1 & Q1 & Q1').
        destruct (sv_drain_n (Z.to_nat (zlen (concat (t_cs t1)) + zlen (t_ts t1))) t1 (goes_inv _ _ G1) R1) as (t2 & G2 & R2 & K2 & Q2 & Q2').
        { pose proof (zlen_nonneg (concat (t_cs t1))). pose proof (zlen_nonneg (t_ts t1)). lia. }
        exists t2. split; [eapply goes_trans; eauto|]. split; [eapply sv_keeps_trans; eauto|]. split; [exact Q2|]. right. auto. }
    pose proof V as (PV & _ & A & _). destruct PV as (TV & SV & _). rewrite ES in A, SV. cbn [sv_alive svp] in A, SV.
    assert (MK : mok TLS_TUNNEL_METAN (h_meta h) /\ h_ph h <> PhRelay).
    { destruct TV as (took & cin & tt & _ & TS & _). rewrite ES in TS. cbn [sv_inv] in TS. destruct TS as (_ & _ & _ & M & X). split; [exact M|].
      intros E. rewrite E in X. exact X. }
    destruct MK as (MK & NR).
    assert (STEP : (exists t' h' i, goes t t' /\ hs_step h i = Ok h' /\ sv_keeps t t' /\ zlen (concat (t_cs t')) + sv_rank (t_sv t') < zlen (concat (t_cs t)) + rank (h_ph h)) ->
      exists t', goes t t' /\ sv_keeps t t' /\ sv_done t').
    { intros (t1 & h' & i & G1 & HS & K1 & L1). pose proof K1 as (KC & KA & _). destruct (IH t1 (goes_inv _ _ G1)) as (t2 & G2 & K2 & D2).
      - destruct CR as (r & EC & RE). exists r. split; [congruence|exact RE].
      - congruence.
      - lia.
      - exists t2. split; [eapply goes_trans; eauto|]. split; [eapply sv_keeps_trans; eauto|exact D2]. }
    assert (RCV : receiving (h_ph h) -> (t_cs t = [] /\ h_ph h <> PhAuth) \/ exists r0 l, t_cs t = r0 :: l).
    { intros _. destruct (t_cs t) as [|r0 l] eqn:EQ; [left|right; eauto]. split; [reflexivity|]. intros P. pose proof (up_rest t V CR EA) as U.
      rewrite EQ in U. cbn [concat] in U. rewrite app_nil_r in U. unfold phs in SV. rewrite P in SV. destruct SV as (_ & LR & _).
      rewrite U, zlen_app, LH in LR. pose proof (zlen_nonneg (t_app t)). lia. }
    assert (ROOM : receiving (h_ph h) -> 0 < meta_getfree (h_meta h)).
    { intros R. unfold phs in SV. destruct (h_ph h) eqn:P; try contradiction.
      - destruct SV as (-> & LR & _). destruct MK as (_ & CP). unfold meta_getfree. destruct TV as (took & cin & tt & _ & TS & _). rewrite ES in TS. cbn [sv_inv] in TS.
        rewrite P in TS. destruct TS as (_ & _ & _ & (_ & CP') & EM & _). rewrite EM in CP'. rewrite CP'. unfold buf_of. cbn [mlast]. unfold TLS_TUNNEL_METAN, AUTH_LEN in *. lia.
      - destruct SV as (seen & _ & _ & _ & PS & _ & (_ & E2 & E3)). unfold meta_getfree. rewrite E2, E3. apply prefix_len in PS. pose proof (hello_len g HG). unfold TLS_TUNNEL_METAN. lia.
      - destruct SV as (s2 & _ & _ & PS & _ & (_ & E2 & E3)). unfold meta_getfree. rewrite E2, E3. apply prefix_len in PS.
        assert (LQ : zlen q <= 262).
        { destruct HQ as [(rsv & ip & port & -> & L4 & L2)|(rsv & name & port & -> & Ln & L2)]; [unfold request_v4|unfold request_dom]; cbn [app]; rewrite !zlen_cons, zlen_app; lia. }
        unfold TLS_TUNNEL_METAN. lia. }
    assert (RSTEP : receiving (h_ph h) -> forall r0 l, t_cs t = r0 :: l -> exists t', goes t t' /\ sv_keeps t t' /\ sv_done t').
    { intros R r0 l EQ. apply STEP. destruct (first_bytes t r0 l V EQ) as (B0 & N0). specialize (ROOM R).
      set (bs := ztake (meta_getfree (h_meta h)) r0).
      assert (NB : bs <> []) by (apply take_ne; assumption). assert (PB : prefix bs r0) by apply take_prefix.
      destruct (sv_hs_step t h (InRecv (RxData bs)) V ES) as (t1 & h' & G1 & HS & K1 & RK & Q1).
      - assert (X : rx_ok (h_meta h) (RxData bs)).
        { cbn [rx_ok]. split; [exact NB|]. split; [apply take_bytes; exact B0|]. unfold bs. rewrite zlen_ztake by lia. lia. }
        unfold enabled. destruct (h_ph h); try contradiction; exact X.
      - exact (fun X => X).
      - cbn [in_bytes rx_bytes]. rewrite EQ. destruct bs; [exact I|exact PB].
      - exists t1, h', (InRecv (RxData bs)). repeat (split; [assumption|]). rewrite RK. pose proof (recv_rank _ _ _ HS).
        assert (Q1b : t_cs t1 = rec_drop (zlen bs) (t_cs t)) by (cbn [in_bytes rx_bytes] in Q1; destruct bs; [congruence|exact Q1]).
        rewrite Q1b. pose proof (rec_less _ bs r0 l EQ PB NB). lia. }
    assert (NSTEP : ~ receiving (h_ph h) -> exists t', goes t t' /\ sv_keeps t t' /\ sv_done t').
    { intros NRc. apply STEP. assert (IB : in_bytes (next_in h) = []) by (unfold next_in; destruct (h_ph h); reflexivity).
      destruct (sv_hs_step t h (next_in h) V ES) as (t1 & h' & G1 & HS & K1 & RK & Q1).
      - assert (I4 : ip4 [127; 0; 0; 1]) by (split; [reflexivity|]; repeat constructor; unfold is_byte; lia).
        assert (TX : tx_ok (h_meta h) (TxSent (meta_getlen (h_meta h)))) by (cbn [tx_ok]; destruct MK as ((? & ?) & _); unfold meta_getlen; lia).
        unfold enabled, next_in. destruct (h_ph h); cbn [receiving] in NRc; try tauto.
      - unfold next_in. destruct (h_ph h); exact (fun X => X).
      - rewrite IB. exact I.
      - exists t1, h', (next_in h). repeat (split; [assumption|]). rewrite IB in Q1. rewrite Q1, RK. pose proof (next_rank h h' NRc A NR HS). lia. }
    destruct (h_ph h) eqn:P; try (apply NSTEP; exact (fun X => X)).
    + destruct (RCV I) as [(_ & X)|(r0 & l & EQ)]; [congruence|]. exact (RSTEP I r0 l EQ).
    + destruct (RCV I) as [(X & _)|(r0 & l & EQ)]; [|exact (RSTEP I r0 l EQ)].
      exists t. split; [apply goes_refl; exact V|]. split; [repeat split|]. split; [exact X|]. left. exists h. auto.
    + destruct (RCV I) as [(X & _)|(r0 & l & EQ)]; [|exact (RSTEP I r0 l EQ)].
      exists t. split; [apply goes_refl; exact V|]. split; [repeat split|]. split; [exact X|]. left. exists h. auto.
Qed.

(** ** Everything arrives *)
Lemma all_delivered t : linv t -> cl_rest t -> t_ac t = [] -> t_sc t = [] -> sv_done t -> delivered g q t.
Proof.
  intros V CR EA EC (ECS & D). pose proof (up_rest t V CR EA) as U. rewrite ECS in U. cbn [concat] in U. rewrite app_nil_r in U.
  destruct CR as (rc & ECL & RC). pose proof V as ((TV & SV & _) & _ & _ & KC & KS & _). rewrite ECL in KC. destruct KC as (pd & pu & KC).
  assert (PD : cl_pending_down (t_cl t) = []) by (rewrite ECL; cbn [cl_pending_down]; exact (rest_data _ _ _ false KC RC)).
  destruct D as [(h & ES & P)|((h & r & ES & RE) & ET)].
  - pose proof (tinv_tgt _ _ TV) as T. rewrite ES in T, SV. cbn [svp] in SV.
    assert (GOT : t_got t = h_sent h).
    { destruct TV as (took & cin & tt & C & TS & _). rewrite ES in TS. cbn [sv_inv] in TS. destruct TS as (_ & _ & E & _).
      destruct (cl_account _ _ _ _ _ _ C) as (_ & E2). rewrite EC, app_nil_r in E. rewrite E2, PD, app_nil_r in E. exact E. }
    unfold phs in SV. unfold delivered. rewrite T, GOT. destruct P as [P|P]; rewrite P in SV.
    + destruct SV as (seen & E1 & E2 & _ & PG & P1 & _). rewrite U in E1. apply app_inv_head in E1. subst seen.
      destruct (p1_part g (t_app t) s5_zero HG s5_zero_p1 PG) as (s' & P1' & _). rewrite P1 in P1'. injection P1' as _ LE. symmetry in LE.
      apply Z.leb_gt in LE. pose proof (zlen_nonneg q). split; [rewrite zdrop_all; [reflexivity|rewrite zlen_app; lia]|]. split; [lia|rewrite zlen_app; lia].
    + destruct SV as (s2 & E1 & E2 & PQ & G & _). rewrite U in E1. apply app_inv_head in E1.
      unfold inv33 in G. rewrite P in G. destruct G as (_ & _ & _ & s0 & F & P2 & _).
      destruct (p2_part q s2 s0 HQ F PQ) as (s' & P2' & _). rewrite P2 in P2'. injection P2' as _ LE.
      destruct (Z.leb_spec (zlen q) (zlen s2)) as [L|L]; [discriminate|]. rewrite E1, E2, !zlen_app.
      split; [rewrite zdrop_all; [reflexivity|rewrite zlen_app; lia]|]. split; [intros _; exists []; reflexivity|lia].
  - rewrite ES in KS. destruct KS as (pd' & pu' & KS). pose proof (tinv_tgt _ _ TV) as T. pose proof (tinv_down _ _ TV) as DN. rewrite ES in T, SV, DN. cbn [svp] in SV.
    destruct SV as (S1 & S2 & S3). unfold phs in S1. rewrite S2 in S1. destruct S1 as (_ & S4 & _). destruct T as (E1 & _).
    cbn [sv_pending sv_pending_down sv_hs] in *. rewrite (rest_data _ _ _ true KS RE), app_nil_r in E1. rewrite (rest_data _ _ _ false KS RE), ET, EC, PD, !app_nil_r, S4 in DN.
    rewrite U, E1 in S3. apply app_inv_head in S3. unfold delivered. rewrite S3, app_assoc. split.
    + rewrite zdrop_app_r, Z.sub_diag, zdrop0 by lia. reflexivity.
    + rewrite <- DN, <- app_assoc. split; [intros _; eexists; reflexivity|]. intros _. eexists. split; [apply p2_reply_ok|reflexivity].
Qed.

Lemma live_all t : linv t -> exists t', goes t t' /\ t_app t' = t_app t /\ t_ans t' = t_ans t /\ delivered g q t'.
Proof.
  intros V. destruct (cl_up t V) as (t1 & G1 & R1 & K1 & A1 & _).
  destruct (sv_up_n (Z.to_nat (zlen (concat (t_cs t1)) + sv_rank (t_sv t1))) t1 (goes_inv _ _ G1) R1 A1) as (t2 & G2 & K2 & D2).
  { pose proof (zlen_nonneg (concat (t_cs t1))). assert (0 <= sv_rank (t_sv t1)) by (destruct (t_sv t1); cbn [sv_rank]; [apply rank_nonneg|lia]). lia. }
  pose proof (goes_inv _ _ G2) as V2. destruct (cl_up t2 V2) as (t3 & G3 & R3 & K3 & A3 & C3). pose proof (goes_inv _ _ G3) as V3.
  destruct K1 as (_ & _ & KA1 & KN1 & _). destruct K2 as (KC2 & KAC2 & KA2 & KN2). destruct K3 as (KS3 & KT3 & KA3 & KN3 & KR3 & _).
  assert (R2 : cl_rest t2) by (destruct R1 as (r & EC & RE); exists r; split; [congruence|exact RE]).
  exists t3. split; [eapply goes_trans; [exact G1|]; eapply goes_trans; eauto|]. split; [congruence|]. split; [congruence|].
  apply all_delivered; auto. destruct D2 as (CS2 & D2). split.
  - pose proof (up_rest t2 V2 R2 ltac:(congruence)) as U2. pose proof (up_rest t3 V3 R3 A3) as U3. rewrite KA3, <- U2, KR3, CS2 in U3. apply app_inv_head in U3.
    destruct (t_cs t3) as [|r0 l] eqn:EQ; [reflexivity|]. exfalso. destruct (first_bytes t3 r0 l V3 EQ) as (_ & N0). cbn [concat] in U3.
    apply app_eq_nil in U3. tauto.
  - destruct D2 as [(h & ES & P)|((h & r & ES & RE) & ET)]; [left; exists h|right; split; [exists h, r|]]; rewrite ?KS3, ?KT3; auto.
Qed.
End Live.
