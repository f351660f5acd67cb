(** * Proofs for the whole tunnel with an application that follows the protocol *)
From Verif Require Import Base Str_Spec Ac_Model Meta_Model Meta_Proofs S5_Model S5_Spec S5_Proofs S5_Props S5_Req_Props
  S5_Auth_Props S5_Dial_Props Relay_Model Relay_Proofs Relay_Props Relay_Any_Props Tun_Model Tun_Spec Tun_Proofs.

Local Arguments Z.add : simpl never.
Local Arguments Z.sub : simpl never.

(** ** Prefixes *)
Lemma prefix_len (a b : list Z) : prefix a b -> zlen a <= zlen b.
Proof. intros (z & ->). rewrite zlen_app. pose proof (zlen_nonneg z). lia. Qed.
Lemma prefix_trans (a b c : list Z) : prefix a b -> prefix b c -> prefix a c.
Proof. intros (x & ->) (y & ->). exists (x ++ y). rewrite app_assoc. reflexivity. Qed.
Lemma prefix_eq (a b : list Z) : prefix a b -> zlen b <= zlen a -> a = b.
Proof. intros (z & ->) L. rewrite zlen_app in L. pose proof (zlen_nonneg z). rewrite (zlen_0_nil z) by lia. rewrite app_nil_r. reflexivity. Qed.
Lemma prefix_cancel (a b c : list Z) : prefix (a ++ b) (a ++ c) -> prefix b c.
Proof. intros (z & E). rewrite <- app_assoc in E. apply app_inv_head in E. exists z. exact E. Qed.
Lemma prefix_app_r (a b c : list Z) : prefix a b -> prefix a (b ++ c).
Proof. intros (z & ->). exists (z ++ c). rewrite app_assoc. reflexivity. Qed.
Lemma prefix_same (a b c : list Z) : prefix a c -> prefix b c -> zlen a <= zlen b -> prefix a b.
Proof.
  intros (x & ->) (y & E) L. revert a b x y E L. induction a as [|u a IH]; intros b x y E L; [exists b; reflexivity|].
  destruct b as [|v b]; [rewrite zlen_cons, zlen_nil in L; pose proof (zlen_nonneg a); lia|].
  cbn [app] in E. injection E as <- E. rewrite !zlen_cons in L. destruct (IH b x y E) as (z & ->); [lia|]. exists z. reflexivity.
Qed.

(** ** The parsers on parts of the messages *)
Lemma p1_part g l s : hello g -> p1_fresh s -> prefix l g ->
  exists s', p1_loop s l = Ok (s', zlen g <=? zlen l) /\ p2_fields s' = p2_fields s /\ (l = g -> s_state s' = 0).
Proof.
  intros (ms & -> & Lm) F (z & E). destruct l as [|v [|n l]].
  - exists s. cbn [p1_loop]. rewrite zlen_nil. unfold greeting. rewrite !zlen_cons. pose proof (zlen_nonneg ms).
    destruct (Z.leb_spec (1 + (1 + zlen ms)) 0); [lia|]. repeat split. discriminate.
  - destruct (p1_loop_short s [v] F) as (s' & P & Q); [reflexivity|]. exists s'. unfold greeting. rewrite P, !zlen_cons, zlen_nil.
    pose proof (zlen_nonneg ms). destruct (Z.leb_spec (1 + (1 + zlen ms)) (1 + 0)); [lia|]. repeat split; auto. discriminate.
  - unfold greeting in *. cbn [app] in E. injection E as <- <- E.
    destruct (p1_loop_greeting 5 (zlen ms) l s F Lm) as (s' & P & Q & R). exists s'. rewrite P. split.
    + do 2 f_equal. rewrite !zlen_cons. destruct (Z.leb_spec (zlen ms) (zlen l)), (Z.leb_spec (1 + (1 + zlen ms)) (1 + (1 + zlen l))); auto; lia.
    + split; [exact Q|]. intros X. injection X as X. apply R. rewrite X. lia.
Qed.

Lemma p2_part q l s : connect_to q -> p2_fresh s -> prefix l q ->
  exists s', p2_loop s l = Ok (s', if zlen q <=? zlen l then P2Done else P2More) /\ (l = q -> p2_accept s' = true).
Proof.
  intros Q F (z & E).
  assert (LQ : 10 <= zlen q \/ exists rsv name port, q = request_dom 5 1 rsv name port /\ 1 <= zlen name <= 254 /\ zlen port = 2).
  { destruct Q as [(rsv & ip & port & -> & L4 & L2)|Q]; [left|right; exact Q]. unfold request_v4. cbn [app]. rewrite !zlen_cons, zlen_app. lia. }
  assert (L8 : 8 <= zlen q).
  { destruct LQ as [LQ|(rsv & name & port & -> & Ln & L2)]; [lia|]. unfold request_dom. cbn [app]. rewrite !zlen_cons, zlen_app. lia. }
  destruct (Z_le_gt_dec (zlen l) 3) as [Sh|Sh].
  { destruct (p2_short s l F Sh) as (s' & P). exists s'. destruct (Z.leb_spec (zlen q) (zlen l)); [lia|]. split; [exact P|]. intros ->. lia. }
  destruct l as [|v [|c [|r [|t rest]]]]; try (rewrite ?zlen_cons, ?zlen_nil in Sh; lia).
  destruct Q as [(rsv & ip & port & -> & L4 & L2)|(rsv & name & port & -> & Ln & L2)].
  - unfold request_v4 in *. cbn [app] in E. injection E as <- <- <- <- E.
    pose proof (p2_v4 s 5 1 rsv rest F) as H. cbn [app]. rewrite !zlen_cons, zlen_app.
    destruct (Z.ltb_spec (zlen rest) 6) as [L|L].
    + destruct H as (s' & P). exists s'. rewrite P. destruct (Z.leb_spec (1 + (1 + (1 + (1 + (zlen ip + zlen port))))) (1 + (1 + (1 + (1 + zlen rest))))); [lia|].
      split; [reflexivity|]. intros X. injection X as X. rewrite X, zlen_app in L. lia.
    + destruct H as (s' & p & q & rest' & P & _ & _ & _ & _ & _ & V & C & T). exists s'. rewrite P.
      destruct (Z.leb_spec (1 + (1 + (1 + (1 + (zlen ip + zlen port))))) (1 + (1 + (1 + (1 + zlen rest))))); [|lia].
      split; [reflexivity|]. intros _. unfold p2_accept. rewrite V, C, T. reflexivity.
  - unfold request_dom in *. cbn [app] in E. injection E as <- <- <- <- E.
    destruct rest as [|n rest].
    + destruct (p2_dom0 s 5 1 rsv F) as (s' & P). exists s'. rewrite P. cbn [app]. rewrite !zlen_cons, zlen_nil, zlen_app.
      destruct (Z.leb_spec (1 + (1 + (1 + (1 + (1 + (zlen name + zlen port)))))) (1 + (1 + (1 + (1 + 0))))); [lia|].
      split; [reflexivity|]. intros X. discriminate X.
    + cbn [app] in E. injection E as <- E.
      pose proof (p2_dom s 5 1 rsv (zlen name) rest F ltac:(lia)) as H. cbn [app]. rewrite !zlen_cons, zlen_app.
      destruct (Z.ltb_spec (zlen rest) (zlen name + 2)) as [L|L].
      * destruct H as (s' & P). exists s'. rewrite P. destruct (Z.leb_spec (1 + (1 + (1 + (1 + (1 + (zlen name + zlen port)))))) (1 + (1 + (1 + (1 + (1 + zlen rest)))))); [lia|].
        split; [reflexivity|]. intros X. injection X as X. rewrite X, zlen_app in L. lia.
      * destruct H as (s' & p & q & rest' & P & _ & _ & _ & _ & _ & V & C & T). exists s'. rewrite P.
        destruct (Z.leb_spec (1 + (1 + (1 + (1 + (1 + (zlen name + zlen port)))))) (1 + (1 + (1 + (1 + (1 + zlen rest)))))); [|lia].
        split; [reflexivity|]. intros _. unfold p2_accept. rewrite V, C, T. reflexivity.
Qed.

(** a stored name of the request has a terminator in its field *)
Lemma stored_name q s : connect_to q -> stored s q -> p2_atyp s <> 1 -> exists t, cstr (p2_addr s) = Some t.
Proof.
  intros Q [(T & _)|(T & rsv & name & rest & E & Ln & Ad)] N; [contradiction|].
  assert (L : zlen name <= 254).
  { destruct Q as [(rsv' & ip & port & -> & _)|(rsv' & name' & port & -> & Ln' & _)]; unfold request_v4, request_dom in E; cbn [app] in E.
    - discriminate E.
    - injection E as _ E _. lia. }
  rewrite Ad. clear - L Ln. assert (0 < 255 - zlen name) as H by lia. revert H. generalize (255 - zlen name). clear. intros n H.
  induction name as [|b l IH]; cbn [app].
  - exists []. unfold zrepeat. replace (Z.to_nat n) with (S (Z.to_nat (n - 1))) by lia. reflexivity.
  - cbn [cstr]. destruct (b =? 0); [eexists; reflexivity|]. destruct IH as (t & ->). eexists. reflexivity.
Qed.

Lemma p2_reply_ok a p : reply_ok (p2_reply a p).
Proof. split; [reflexivity|]. unfold p2_reply. eexists. reflexivity. Qed.

(** ** The server during the handshake with such an application *)
Section Polite.
Context (hdr g q : list Z) (c : ac).
Context (key : list Z) (HK : hdr = header_of key) (LK : 1 <= zlen key <= 16) (NK : no_nul key).
Context (FK : exists c', ezac_find c key = Ok (true, c')).
Context (HG : hello g) (HQ : connect_to q).

Notation CAP := TLS_TUNNEL_METAN.

Definition quiet (h : hs) : Prop := h_asked h = [] /\ h_dialled h = [].
Definition phs (h : hs) (rcv : list Z) (fnd : list (list Z)) : Prop :=
  match h_ph h with
  | PhAuth => h_meta h = buf_of CAP rcv /\ zlen rcv < AUTH_LEN /\ h_ac h = c /\ h_s5 h = s5_zero /\ h_sent h = [] /\ quiet h
  | PhP1 => exists seen, rcv = hdr ++ seen /\ h_sent h = [] /\ quiet h /\ prefix seen g /\
      p1_loop s5_zero seen = Ok (h_s5 h, false) /\ at_end (h_meta h) CAP (zlen seen)
  | PhP1Rsp => rcv = hdr ++ g /\ h_sent h ++ mdata (h_meta h) = [5; 0] /\ mdata (h_meta h) <> [] /\ mok CAP (h_meta h) /\
      p2_fresh (h_s5 h) /\ quiet h
  | PhP2 => exists s2, rcv = hdr ++ g ++ s2 /\ h_sent h = [5; 0] /\ prefix s2 q /\ inv33 h s2 fnd /\ at_end (h_meta h) CAP (zlen s2)
  | PhAddr | PhLookup | PhDns | PhConnect | PhConnWait | PhConnChk =>
      rcv = hdr ++ g ++ q /\ h_sent h = [5; 0] /\ inv33 h q fnd /\ at_end (h_meta h) CAP 0
  | PhP2Rsp => rcv = hdr ++ g ++ q /\ h_sent h ++ mdata (h_meta h) = [5; 0] ++ p2_reply (h_addr h) (h_port h) /\
      mdata (h_meta h) <> [] /\ mok CAP (h_meta h) /\ inv33 h q fnd
  | PhRelay => rcv = hdr ++ g ++ q /\ h_sent h = [5; 0] ++ p2_reply (h_addr h) (h_port h) /\ inv33 h q fnd /\
      mpos (h_meta h) = 0 /\ mlast (h_meta h) = 0
  | PhClosed => (exists r, reply_ok r /\ prefix (h_sent h) ([5; 0] ++ r)) /\
      exists s2, prefix s2 q /\ as_requested s2 fnd (h_asked h) (h_dialled h)
  end.

Definition p2_zero (s : s5) : Prop := p2_addr s = zrepeat 0 DST_SIZE.

Lemma s5_zero_p1 : p1_fresh s5_zero.
Proof. split; [reflexivity|]. apply zlen_zrepeat. unfold METHODS_SIZE. lia. Qed.

Lemma inv33_not h l fnd : inv33 h l fnd -> h_ph h <> PhAuth /\ h_ph h <> PhP1 /\ h_ph h <> PhP1Rsp.
Proof. unfold inv33. destruct (h_ph h); try contradiction; repeat split; congruence. Qed.

(** closing *)
Lemma phs_close0 h rcv fnd : prefix (h_sent h) [5; 0] -> quiet h -> phs (close h) rcv fnd.
Proof.
  intros P (A & B). unfold phs. cbn [close with_ph h_ph h_sent h_asked h_dialled]. split.
  - exists ([5; 0; 0; 1] ++ zrepeat 0 6). split; [split; [reflexivity|eexists; reflexivity]|]. apply prefix_app_r. exact P.
  - exists []. split; [exists q; reflexivity|]. left. auto.
Qed.

Lemma as_requested_app d x f a l : as_requested d f a l -> as_requested (d ++ x) f a l.
Proof.
  intros [H|[(rsv & ip & port & rest & -> & H)|(rsv & name & port & rest & pre & -> & H)]]; [left; exact H|right; left|right; right].
  - exists rsv, ip, port, (rest ++ x). rewrite <- app_assoc. split; [reflexivity|exact H].
  - exists rsv, name, port, (rest ++ x), pre. rewrite <- app_assoc. split; [reflexivity|exact H].
Qed.

Lemma inv33_closed h l fnd : inv33 h l fnd -> as_requested l fnd (h_asked h) (h_dialled h).
Proof.
  unfold inv33. intros G. destruct (h_ph h); try contradiction.
  - destruct G as (A & B & _). left. auto.
  - destruct G as (A & B & _). left. auto.
  - destruct G as (A & B & _). left. auto.
  - destruct G as (A & rsv & name & rest & pre & D & Ln & BN & As). rewrite A. right. right.
    exists rsv, name, (s5_port (h_s5 h)), rest, pre. repeat (split; [assumption || reflexivity|]). left. reflexivity.
  - destruct G as (-> & T). exact (as_requested_undial _ _ _ _ T).
  - destruct G as (-> & T). exact T.
  - destruct G as (-> & T). exact T.
  - destruct G as (-> & T). exact T.
  - destruct G as (-> & T). exact T.
  - exact G.
Qed.

Lemma phs_close h rcv fnd s2 f : (exists r, reply_ok r /\ prefix (h_sent h) ([5; 0] ++ r)) -> prefix s2 q -> inv33 h s2 fnd -> phs (close h) rcv (fnd ++ f).
Proof.
  intros R P G. unfold phs. cbn [close with_ph h_ph h_sent h_asked h_dialled]. split; [exact R|].
  exists s2. split; [exact P|]. apply as_requested_more, inv33_closed, G.
Qed.

Lemma phs_closen h rcv fnd s2 : (exists r, reply_ok r /\ prefix (h_sent h) ([5; 0] ++ r)) -> prefix s2 q -> inv33 h s2 fnd -> phs (close h) rcv fnd.
Proof. intros R P G. rewrite <- (app_nil_r fnd). eapply phs_close; eauto. Qed.

Lemma dummy_reply : exists r, reply_ok r /\ prefix [5; 0] ([5; 0] ++ r).
Proof. exists ([5; 0; 0; 1] ++ zrepeat 0 6). split; [split; [reflexivity|eexists; reflexivity]|eexists; reflexivity]. Qed.

Lemma inv33_more h l f x : inv33 h l f -> inv33 h l (f ++ x).
Proof.
  unfold inv33, target. destruct (h_ph h); auto.
  - intros (A & B). split; [exact A|apply as_requested_more; exact B].
  - intros (A & B). split; [exact A|apply as_requested_more; exact B].
  - intros (A & B). split; [exact A|apply as_requested_more; exact B].
  - intros (A & B). split; [exact A|apply as_requested_more; exact B].
  - intros (A & B). split; [exact A|apply as_requested_more; exact B].
  - apply as_requested_more.
Qed.

(** one step of the server: no fault, and the state is as described again. What it receives is
    the header, then parts of the greeting, then parts of the request. *)
Lemma phs_step h rcv fnd i : phs h rcv fnd -> enabled h i ->
  (h_ph h = PhAuth -> prefix (rcv ++ in_bytes i) hdr) ->
  (forall seen, rcv = hdr ++ seen -> h_sent h = [] -> prefix (seen ++ in_bytes i) g) ->
  (forall seen, rcv = hdr ++ seen -> zlen (h_sent h) <= 2 -> prefix (seen ++ in_bytes i) (g ++ q)) ->
  exists h', hs_step h i = Ok h' /\ phs h' (rcv ++ in_bytes i) (fnd ++ answers [i]).
Proof.
  intros V E B0 B1 B2. assert (LH : zlen hdr = 36) by (rewrite HK; apply header_len; lia).
  assert (LG : zlen g <= 257). { destruct HG as (ms & -> & Lm). unfold greeting. rewrite !zlen_cons. lia. }
  assert (LQ : zlen q <= 262).
  { destruct HQ as [(rsv & ip & port & -> & L4 & L2)|(rsv & name & port & -> & Ln & L2)]; unfold request_v4, request_dom; cbn [app]; rewrite !zlen_cons, !zlen_app; lia. }
  unfold phs in V. unfold enabled in E. destruct (h_ph h) eqn:Ph.
  - (* PhAuth *)
    destruct V as (M & L & AC & S0 & SE & QU). specialize (B0 eq_refl). destruct i; try contradiction; cbn [in_bytes answers].
    + destruct r as [bs| |]; cbn [rx_bytes in_bytes] in *.
      * pose proof (prefix_len _ _ B0) as LL. rewrite zlen_app, LH in LL.
        rewrite (auth_recv h CAP rcv (RxData bs)); [|split; assumption|exact L|unfold TLS_TUNNEL_METAN; lia| |exact I]; cbn [rx_bytes].
        2:{ unfold TLS_TUNNEL_METAN; lia. }
        destruct (Z.ltb_spec (zlen (rcv ++ bs)) AUTH_LEN) as [LT|GE].
        -- eexists. split; [reflexivity|]. unfold phs. cbn [with_pm h_ph h_meta h_ac h_s5 h_sent]. repeat (split; [assumption || reflexivity|]). exact QU.
        -- assert (EQ : rcv ++ bs = hdr). { apply prefix_eq; [exact B0|]. rewrite LH. exact GE. }
           destruct FK as (c' & F). rewrite EQ, HK. rewrite (auth_check_key h CAP key c'); [|exact NK|lia|unfold TLS_TUNNEL_METAN; lia|rewrite AC; exact F].
           eexists. split; [reflexivity|]. unfold phs. cbn [with_ac h_ph h_meta h_ac h_s5 h_sent]. exists []. rewrite <- HK, app_nil_r.
           split; [reflexivity|]. split; [exact SE|]. split; [exact QU|]. split; [exists g; reflexivity|]. rewrite S0. split; [reflexivity|].
           repeat split. unfold meta_cap, meta_clr. cbn [mbuf]. change (zlen (mbuf (buf_of CAP hdr))) with (meta_cap (buf_of CAP hdr)).
           apply buf_of_cap. rewrite LH. unfold TLS_TUNNEL_METAN. lia.
      * rewrite app_nil_r.
        rewrite (auth_recv h CAP rcv RxAgain); [|split; assumption|exact L|unfold TLS_TUNNEL_METAN; lia| |exact I]; cbn [rx_bytes]; rewrite ?app_nil_r.
        2:{ rewrite zlen_nil. unfold AUTH_LEN, TLS_TUNNEL_METAN in *. lia. }
        destruct (Z.ltb_spec (zlen rcv) AUTH_LEN); [|lia]. eexists. split; [reflexivity|]. unfold phs. cbn [with_pm h_ph h_meta h_ac h_s5 h_sent].
        repeat (split; [assumption || reflexivity|]). exact QU.
      * unfold hs_step. rewrite Ph. unfold do_recv, meta_getfree. rewrite M, buf_of_cap by (unfold AUTH_LEN, TLS_TUNNEL_METAN in *; lia).
        cbn [buf_of mlast]. destruct (Z.ltb_spec (CAP - zlen rcv) 1); [unfold AUTH_LEN, TLS_TUNNEL_METAN in *; lia|].
        eexists. split; [reflexivity|]. apply phs_close0; [rewrite SE; eexists; reflexivity|exact QU].
    + unfold hs_step. rewrite Ph. eexists. split; [reflexivity|]. apply phs_close0; [rewrite SE; eexists; reflexivity|exact QU].
  - (* PhP1 *)
    destruct V as (seen & -> & SE & QU & PX & P & AE). specialize (B1 seen eq_refl SE). pose proof (prefix_len _ _ PX) as LS.
    assert (LC : zlen seen < CAP) by (unfold TLS_TUNNEL_METAN; lia).
    destruct (p1_again h CAP (zlen seen) Ph AE LC) as (EA & EE).
    destruct i; try contradiction; cbn [in_bytes answers].
    + destruct r as [bs| |]; cbn [rx_bytes in_bytes] in *.
      * destruct (p1_part g (seen ++ bs) s5_zero HG s5_zero_p1 B1) as (s1 & P1 & PF & ST). pose proof P1 as P1'.
        rewrite p1_loop_app, P in P1'. pose proof (prefix_len _ _ B1) as L1. rewrite zlen_app in L1. pose proof (zlen_nonneg seen).
        destruct (p1_recv h CAP (zlen seen) bs s1 _ Ph AE ltac:(lia) ltac:(unfold TLS_TUNNEL_METAN; lia) ltac:(unfold TLS_TUNNEL_METAN; lia) P1') as (h1 & HS & S1 & CX & D).
        rewrite HS. exists h1. split; [reflexivity|]. unfold ctx in CX. injection CX as C1 C2 C3 C4 C5 C6. unfold phs, quiet. rewrite C1, C2, C3.
        destruct (Z.leb_spec (zlen g) (zlen (seen ++ bs))) as [GE|LT].
        -- destruct D as (D1 & D2 & D3 & D4 & D5). rewrite D1, D2, SE. pose proof (prefix_eq _ _ B1 GE) as EQ.
           split; [rewrite <- app_assoc, EQ; reflexivity|]. split; [reflexivity|]. split; [discriminate|]. split; [split; assumption|].
           split; [|exact QU]. rewrite S1. split; [apply ST; exact EQ|]. unfold p2_fields in PF. injection PF as _ _ _ _ _ _ PF _ _. exact PF.
        -- destruct D as (D1 & D2). rewrite D1. exists (seen ++ bs). rewrite S1, zlen_app, <- app_assoc. auto 10.
      * rewrite EA. exists h. split; [reflexivity|]. unfold phs. rewrite Ph, !app_nil_r. exists seen. auto 10.
      * rewrite EE. exists (close h). split; [reflexivity|]. apply phs_close0; [rewrite SE; eexists; reflexivity|exact QU].
    + unfold hs_step. rewrite Ph. eexists. split; [reflexivity|]. apply phs_close0; [rewrite SE; eexists; reflexivity|exact QU].
  - (* PhP1Rsp *)
    destruct V as (-> & SE & NE & W & FR & QU). assert (PS : prefix (h_sent h) [5; 0]) by (eexists; symmetry; exact SE).
    destruct i; try contradiction; cbn [in_bytes answers]; rewrite !app_nil_r.
    + unfold hs_step. rewrite Ph. unfold do_send. destruct r as [n| |].
      * destruct W as (W & CW). destruct (meta_consume_ok (h_meta h) n W E) as (W2 & D2). pose proof (mdata_len _ W2) as ML2.
        destruct (Z.ltb_spec 0 (meta_getlen (meta_consume (h_meta h) n))) as [GT|LE]; eexists; (split; [reflexivity|]); unfold phs; cbn [with_sent h_ph h_sent h_meta]; rewrite ?Ph.
        -- split; [reflexivity|]. split; [rewrite D2, <- app_assoc, ztake_zdrop; exact SE|]. split.
           { intros X. rewrite X, zlen_nil in ML2. lia. }
           split; [split; [exact W2|exact CW]|]. auto.
        -- assert (MN : mdata (meta_consume (h_meta h) n) = []). { apply zlen_0_nil. rewrite ML2. destruct W2 as (? & ?). unfold meta_getlen in *. lia. }
           rewrite D2 in MN. exists []. rewrite app_nil_r. split; [reflexivity|]. split.
           { rewrite <- SE. f_equal. rewrite <- (ztake_zdrop n (mdata (h_meta h))) at 2. rewrite MN, app_nil_r. reflexivity. }
           split; [exists q; reflexivity|]. split.
           { unfold inv33. cbn [with_sent h_ph h_asked h_dialled h_s5 h_meta meta_clr mpos mlast]. split; [apply QU|]. split; [apply QU|].
             split; [constructor|]. exists (h_s5 h). split; [exact FR|]. split; [reflexivity|]. split; [reflexivity|]. apply meta_clr_wf. exact W2. }
           repeat split. exact CW.
      * eexists. split; [reflexivity|]. unfold phs. rewrite Ph. auto 10.
      * eexists. split; [reflexivity|]. apply phs_close0; assumption.
    + unfold hs_step. rewrite Ph. eexists. split; [reflexivity|]. apply phs_close0; assumption.
  - (* PhP2 *)
    destruct V as (s2 & -> & SE & PX & V33 & AE).
    assert (B2' : prefix (s2 ++ in_bytes i) q).
    { specialize (B2 (g ++ s2) eq_refl). rewrite SE in B2. change (zlen [5; 0]) with 2 in B2. rewrite <- app_assoc in B2.
      apply (prefix_cancel g). apply B2. lia. }
    clear B2. assert (LC : zlen s2 < CAP). { pose proof (prefix_len _ _ PX). unfold TLS_TUNNEL_METAN. lia. }
    destruct (p2_again h CAP (zlen s2) Ph AE LC) as (EA & EE).
    assert (RS : exists r, reply_ok r /\ prefix (h_sent h) ([5; 0] ++ r)) by (rewrite SE; exact dummy_reply).
    destruct i; try contradiction; cbn [in_bytes] in *.
    + destruct r as [bs| |]; cbn [rx_bytes in_bytes] in *.
      * pose proof V33 as V33'. unfold inv33 in V33'. rewrite Ph in V33'. destruct V33' as (_ & _ & _ & s0 & F0 & P0 & _).
        destruct (p2_part q (s2 ++ bs) s0 HQ F0 B2') as (s1 & P1 & AC). pose proof P1 as P1'. rewrite p2_loop_app, P0 in P1'.
        pose proof (prefix_len _ _ B2') as L1. rewrite zlen_app in L1. pose proof (zlen_nonneg s2).
        destruct (p2_recv h CAP (zlen s2) bs s1 _ Ph AE ltac:(lia) ltac:(unfold TLS_TUNNEL_METAN; lia) P1') as (h1 & HS & S1 & CX & D).
        rewrite HS. exists h1. split; [reflexivity|].
        assert (V1 : inv33 h1 (s2 ++ bs) (fnd ++ [])).
        { refine (inv33_step h s2 fnd (InRecv (RxData bs)) h1 V33 _ HS). unfold enabled. rewrite Ph. exact E. }
        cbn [answers]. unfold ctx in CX. injection CX as C1 C2 C3 C4 C5 C6. unfold phs. rewrite C1.
        destruct (Z.leb_spec (zlen q) (zlen (s2 ++ bs))) as [GE|LT].
        -- pose proof (prefix_eq _ _ B2' GE) as EQ. rewrite (AC EQ) in D. destruct D as (D1 & D2). rewrite D1. rewrite EQ in V1.
           rewrite <- !app_assoc, EQ. auto.
        -- destruct D as (D1 & D2). rewrite D1. exists (s2 ++ bs). rewrite zlen_app, <- !app_assoc. auto.
      * rewrite EA. exists h. split; [reflexivity|]. unfold phs. cbn [answers]. rewrite Ph, !app_nil_r. exists s2. auto.
      * rewrite EE. exists (close h). split; [reflexivity|]. eapply phs_close; [exact RS|exact PX|exact V33].
    + unfold hs_step. rewrite Ph. eexists. split; [reflexivity|]. eapply phs_close; [exact RS|exact PX|exact V33].
  - (* PhAddr *)
    destruct V as (-> & SE & V33 & AE). destruct i; try contradiction.
    assert (EN : enabled h (InAlloc ok)) by (unfold enabled; rewrite Ph; exact I).
    assert (RS : exists r, reply_ok r /\ prefix (h_sent h) ([5; 0] ++ r)) by (rewrite SE; exact dummy_reply).
    destruct (hs_step h (InAlloc ok)) as [h'| |] eqn:HS.
    2,3: unfold hs_step in HS; rewrite Ph in HS; destruct ok; [destruct (_ =? _)|]; discriminate HS.
    exists h'. split; [reflexivity|]. pose proof (inv33_step h q fnd _ h' V33 EN HS) as V1.
    cbn [in_bytes answers] in *. rewrite !app_nil_r in *. unfold hs_step in HS. rewrite Ph in HS.
    destruct ok; [destruct (_ =? _)|]; injection HS as <-; [| |rewrite <- (app_nil_r fnd); eapply phs_close; [exact RS|exists []; rewrite app_nil_r; reflexivity|exact V33]]; unfold phs; cbn [with_addr with_ph h_ph h_sent h_meta]; auto.
  - (* PhLookup *)
    destruct V as (-> & SE & V33 & AE). destruct i; try contradiction.
    assert (EN : enabled h (InLookup a)) by (unfold enabled; rewrite Ph; exact E).
    pose proof V33 as V33'. unfold inv33 in V33'. rewrite Ph in V33'. destruct V33' as (_ & _ & TY & STO).
    destruct (stored_name q (h_s5 h) HQ STO TY) as (nm & CS).
    destruct (hs_step h (InLookup a)) as [h'| |] eqn:HS.
    2,3: unfold hs_step in HS; rewrite Ph, CS in HS; cbn [of_opt bind] in HS; destruct a; discriminate HS.
    exists h'. split; [reflexivity|]. pose proof (inv33_step h q fnd _ h' V33 EN HS) as V1.
    cbn [in_bytes] in *. rewrite app_nil_r in *. unfold hs_step in HS. rewrite Ph, CS in HS. cbn [of_opt bind] in HS.
    destruct a; injection HS as <-; unfold phs; cbn [with_addr with_asked h_ph h_sent h_meta]; auto.
  - (* PhDns *)
    destruct V as (-> & SE & V33 & AE).
    assert (RS : exists r, reply_ok r /\ prefix (h_sent h) ([5; 0] ++ r)) by (rewrite SE; exact dummy_reply).
    assert (PQ : prefix q q) by (exists []; rewrite app_nil_r; reflexivity).
    destruct i; try contradiction; cbn [in_bytes]; rewrite ?app_nil_r.
    + assert (EN : enabled h (InDns a)) by (unfold enabled; rewrite Ph; exact E).
      destruct (hs_step h (InDns a)) as [h'| |] eqn:HS.
      2,3: unfold hs_step in HS; rewrite Ph in HS; destruct a; discriminate HS.
      exists h'. split; [reflexivity|]. pose proof (inv33_step h q fnd _ h' V33 EN HS) as V1. cbn [in_bytes] in V1. rewrite app_nil_r in V1.
      unfold hs_step in HS. rewrite Ph in HS. destruct a; injection HS as <-; [|first [eapply phs_closen; solve [eauto] | eapply phs_close; solve [eauto]]].
      unfold phs; cbn [with_addr h_ph h_sent h_meta]; auto.
    + unfold hs_step. rewrite Ph. destruct ok; eexists; (split; [reflexivity|]); [|first [eapply phs_closen; solve [eauto] | eapply phs_close; solve [eauto]]].
      unfold phs. rewrite Ph. cbn [answers]. rewrite ?app_nil_r. auto.
    + unfold hs_step. rewrite Ph. eexists. split; [reflexivity|]. first [eapply phs_closen; solve [eauto] | eapply phs_close; solve [eauto]].
  - (* PhConnect *)
    destruct V as (-> & SE & V33 & AE). destruct i; try contradiction.
    assert (EN : enabled h (InConnect r)) by (unfold enabled; rewrite Ph; exact I).
    destruct (hs_step h (InConnect r)) as [h'| |] eqn:HS.
    2,3: unfold hs_step in HS; rewrite Ph in HS; destruct r; discriminate HS.
    exists h'. split; [reflexivity|]. pose proof (inv33_step h q fnd _ h' V33 EN HS) as V1.
    cbn [in_bytes answers] in *. rewrite !app_nil_r in *. unfold hs_step in HS. rewrite Ph in HS.
    destruct r; injection HS as <-; unfold phs; cbn [close with_ph with_dial h_ph h_sent h_meta h_asked h_dialled]; auto.
    rewrite SE. split; [exact dummy_reply|]. exists q. split; [exists []; rewrite app_nil_r; reflexivity|exact V1].
  - (* PhConnWait *)
    destruct V as (-> & SE & V33 & AE).
    assert (RS : exists r, reply_ok r /\ prefix (h_sent h) ([5; 0] ++ r)) by (rewrite SE; exact dummy_reply).
    assert (PQ : prefix q q) by (exists []; rewrite app_nil_r; reflexivity).
    destruct i; try contradiction; cbn [in_bytes]; rewrite ?app_nil_r.
    + unfold hs_step. rewrite Ph. destruct ok; [|eexists; split; [reflexivity|]; first [eapply phs_closen; solve [eauto] | eapply phs_close; solve [eauto]]].
      destruct (at_end_store _ _ _ (p2_reply (h_addr h) (h_port h)) AE) as (m & Sm & Dm & Lm & Cm & Wm); [lia|unfold TLS_TUNNEL_METAN; change (zlen (p2_reply (h_addr h) (h_port h))) with 10; lia|].
      rewrite Sm. cbn [bind]. eexists. split; [reflexivity|]. cbn [answers]. rewrite ?app_nil_r. unfold phs. cbn [with_pm h_ph h_sent h_meta h_addr h_port].
      split; [reflexivity|]. rewrite SE, Dm. split; [reflexivity|]. split; [discriminate|]. split; [split; assumption|].
      unfold inv33 in *. rewrite Ph in V33. exact V33.
    + unfold hs_step. rewrite Ph. destruct ok; eexists; (split; [reflexivity|]); [|first [eapply phs_closen; solve [eauto] | eapply phs_close; solve [eauto]]].
      unfold phs. rewrite Ph. cbn [answers]. rewrite ?app_nil_r. auto.
    + unfold hs_step. rewrite Ph. eexists. split; [reflexivity|]. first [eapply phs_closen; solve [eauto] | eapply phs_close; solve [eauto]].
  - (* PhConnChk *)
    destruct V as (-> & SE & V33 & AE).
    assert (RS : exists r, reply_ok r /\ prefix (h_sent h) ([5; 0] ++ r)) by (rewrite SE; exact dummy_reply).
    assert (PQ : prefix q q) by (exists []; rewrite app_nil_r; reflexivity).
    destruct i; try contradiction; cbn [in_bytes]; rewrite ?app_nil_r.
    unfold hs_step. rewrite Ph. destruct ok; [|eexists; split; [reflexivity|]; first [eapply phs_closen; solve [eauto] | eapply phs_close; solve [eauto]]].
    destruct (at_end_store _ _ _ (p2_reply (h_addr h) (h_port h)) AE) as (m & Sm & Dm & Lm & Cm & Wm); [lia|unfold TLS_TUNNEL_METAN; change (zlen (p2_reply (h_addr h) (h_port h))) with 10; lia|].
    rewrite Sm. cbn [bind]. eexists. split; [reflexivity|]. cbn [answers]. rewrite ?app_nil_r. unfold phs. cbn [with_pm h_ph h_sent h_meta h_addr h_port].
    split; [reflexivity|]. rewrite SE, Dm. split; [reflexivity|]. split; [discriminate|]. split; [split; assumption|].
    unfold inv33 in *. rewrite Ph in V33. exact V33.
  - (* PhP2Rsp *)
    destruct V as (-> & SE & NE & W & V33).
    assert (RS : exists r, reply_ok r /\ prefix (h_sent h) ([5; 0] ++ r)).
    { exists (p2_reply (h_addr h) (h_port h)). split; [apply p2_reply_ok|]. rewrite <- SE. eexists. reflexivity. }
    assert (PQ : prefix q q) by (exists []; rewrite app_nil_r; reflexivity).
    destruct i; try contradiction; cbn [in_bytes]; rewrite ?app_nil_r.
    + unfold hs_step. rewrite Ph. unfold do_send. destruct r as [n| |]; cbn [answers]; rewrite ?app_nil_r.
      * destruct W as (W & CW). destruct (meta_consume_ok (h_meta h) n W E) as (W2 & D2). pose proof (mdata_len _ W2) as ML2.
        unfold inv33 in V33. rewrite Ph in V33.
        destruct (Z.ltb_spec 0 (meta_getlen (meta_consume (h_meta h) n))) as [GT|LE]; eexists; (split; [reflexivity|]); unfold phs; cbn [with_sent h_ph h_sent h_meta h_addr h_port]; rewrite ?Ph.
        -- split; [reflexivity|]. split; [rewrite D2, <- app_assoc, ztake_zdrop; exact SE|]. split.
           { intros X. rewrite X, zlen_nil in ML2. lia. }
           split; [split; [exact W2|exact CW]|]. unfold inv33. cbn [with_sent h_ph h_dialled h_addr h_port]. rewrite ?Ph. exact V33.
        -- assert (MN : mdata (meta_consume (h_meta h) n) = []). { apply zlen_0_nil. rewrite ML2. destruct W2 as (? & ?). unfold meta_getlen in *. lia. }
           rewrite D2 in MN. split; [reflexivity|]. split.
           { rewrite <- SE. f_equal. rewrite <- (ztake_zdrop n (mdata (h_meta h))) at 2. rewrite MN, app_nil_r. reflexivity. }
           split; [exact V33|]. split; reflexivity.
      * eexists. split; [reflexivity|]. unfold phs. rewrite Ph. auto 10.
      * eexists. split; [reflexivity|]. eapply phs_closen; eauto.
    + unfold hs_step. rewrite Ph. eexists. split; [reflexivity|]. first [eapply phs_closen; solve [eauto] | eapply phs_close; solve [eauto]].
  - contradiction.
  - contradiction.
Qed.

(** a step closes the session only after a failure *)
Lemma phs_open h rcv fnd i h' : phs h rcv fnd -> enabled h i ->
  (h_ph h = PhAuth -> prefix (rcv ++ in_bytes i) hdr) ->
  (forall seen, rcv = hdr ++ seen -> zlen (h_sent h) <= 2 -> prefix (seen ++ in_bytes i) (g ++ q)) ->
  hs_step h i = Ok h' -> ~ fails (TSrv (SHsIn i)) -> h_ph h' <> PhClosed.
Proof.
  intros V E B0 B2 ST NF. assert (LH : zlen hdr = 36) by (rewrite HK; apply header_len; lia).
  unfold phs in V. unfold enabled in E. destruct (h_ph h) eqn:Ph; try contradiction; destruct i; try contradiction; cbn [fails] in NF; try tauto.
  - destruct V as (M & L & AC & _). specialize (B0 eq_refl). destruct r as [bs| |]; cbn [rx_bytes in_bytes] in *; [| |tauto].
    + pose proof (prefix_len _ _ B0) as LL. rewrite zlen_app, LH in LL.
      rewrite (auth_recv h CAP rcv (RxData bs)) in ST; [|split; assumption|exact L|unfold TLS_TUNNEL_METAN; lia| |exact I]; cbn [rx_bytes] in *.
      2:{ unfold TLS_TUNNEL_METAN; lia. }
      destruct (Z.ltb_spec (zlen (rcv ++ bs)) AUTH_LEN) as [LT|GE]; [injection ST as <-; discriminate|].
      assert (EQ : rcv ++ bs = hdr). { apply prefix_eq; [exact B0|]. rewrite LH. exact GE. }
      destruct FK as (c' & F). rewrite EQ, HK in ST. rewrite (auth_check_key h CAP key c') in ST; [|exact NK|lia|unfold TLS_TUNNEL_METAN; lia|rewrite AC; exact F].
      injection ST as <-. discriminate.
    + unfold hs_step, do_recv in ST. rewrite Ph in ST. destruct (_ <? 1); [discriminate|]. injection ST as <-. rewrite Ph. discriminate.
  - unfold hs_step, do_recv in ST. rewrite Ph in ST. destruct (_ <? 1); [discriminate|]. destruct r as [bs| |]; [| |tauto].
    + destruct (meta_store (h_meta h) bs) as [m| |]; try discriminate. cbn [bind] in ST. unfold p1_feed in ST. destruct (p1_loop _ _) as [[s d]| |]; try discriminate. cbn [bind snd fst] in ST.
      destruct d; [destruct (meta_store (meta_clr m) [5; 0]); try discriminate; cbn [bind] in ST|]; injection ST as <-; discriminate.
    + injection ST as <-. rewrite Ph. discriminate.
  - unfold hs_step, do_send in ST. rewrite Ph in ST. destruct r as [n| |]; [| |tauto].
    + destruct (0 <? _); injection ST as <-; cbn [with_sent h_ph]; rewrite ?Ph; discriminate.
    + injection ST as <-. rewrite Ph. discriminate.
  - destruct V as (s2 & -> & SE & PX & V33 & AE).
    assert (LC : zlen s2 < CAP).
    { pose proof (prefix_len _ _ PX). destruct HQ as [(rsv & ip & port & -> & L4 & L2)|(rsv & name & port & -> & Ln & L2)];
        unfold request_v4, request_dom in *; cbn [app] in *; rewrite !zlen_cons, !zlen_app in *; unfold TLS_TUNNEL_METAN; lia. }
    destruct (p2_again h CAP (zlen s2) Ph AE LC) as (EA & _). destruct r as [bs| |]; [| |tauto].
    + assert (B2' : prefix (s2 ++ bs) q).
      { specialize (B2 (g ++ s2) eq_refl). rewrite SE in B2. change (zlen [5; 0]) with 2 in B2. rewrite <- app_assoc in B2.
        apply (prefix_cancel g). apply B2. lia. }
      unfold inv33 in V33. rewrite Ph in V33. destruct V33 as (_ & _ & _ & s0 & F0 & P0 & _).
      destruct (p2_part q (s2 ++ bs) s0 HQ F0 B2') as (s1 & P1 & AC). pose proof P1 as P1'. rewrite p2_loop_app, P0 in P1'.
      assert (LQ : zlen (s2 ++ bs) <= 262).
      { pose proof (prefix_len _ _ B2') as L1. destruct HQ as [(rsv & ip & port & -> & L4 & L2)|(rsv & name & port & -> & Ln & L2)];
          unfold request_v4, request_dom in L1; cbn [app] in L1; rewrite !zlen_cons, !(zlen_app _ port) in L1; lia. }
      rewrite zlen_app in LQ. pose proof (zlen_nonneg s2).
      destruct (p2_recv h CAP (zlen s2) bs s1 _ Ph AE ltac:(lia) ltac:(unfold TLS_TUNNEL_METAN; lia) P1') as (h1 & HS & S1 & CX & D).
      rewrite HS in ST. injection ST as <-. destruct (Z.leb_spec (zlen q) (zlen (s2 ++ bs))) as [GE|LT].
      * rewrite (AC (prefix_eq _ _ B2' GE)) in D. destruct D as (-> & _). discriminate.
      * destruct D as (-> & _). discriminate.
    + rewrite EA in ST. injection ST as <-. rewrite Ph. discriminate.
  - unfold hs_step in ST. rewrite Ph in ST. destruct ok; [|tauto]. destruct (_ =? _); injection ST as <-; discriminate.
  - unfold hs_step in ST. rewrite Ph in ST. destruct (cstr _); [|discriminate]. cbn [of_opt bind] in ST. destruct a; injection ST as <-; discriminate.
  - unfold hs_step in ST. rewrite Ph in ST. destruct a; [|tauto]. injection ST as <-; discriminate.
  - unfold hs_step in ST. rewrite Ph in ST. destruct ok; [|tauto]. injection ST as <-. rewrite Ph. discriminate.
  - unfold hs_step in ST. rewrite Ph in ST. destruct r; [| |tauto]; injection ST as <-; discriminate.
  - unfold hs_step in ST. rewrite Ph in ST. destruct ok; [|tauto]. destruct (meta_store _ _); try discriminate. injection ST as <-; discriminate.
  - unfold hs_step in ST. rewrite Ph in ST. destruct ok; [|tauto]. injection ST as <-. rewrite Ph. discriminate.
  - unfold hs_step in ST. rewrite Ph in ST. destruct ok; [|tauto]. destruct (meta_store _ _); try discriminate. injection ST as <-; discriminate.
  - unfold hs_step, do_send in ST. rewrite Ph in ST. destruct r as [n| |]; [| |tauto].
    + destruct (0 <? _); injection ST as <-; cbn [with_sent h_ph]; rewrite ?Ph; discriminate.
    + injection ST as <-. rewrite Ph. discriminate.
Qed.
End Polite.
