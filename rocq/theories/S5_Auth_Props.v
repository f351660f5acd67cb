(** * Theorems about authentication and the whole handshake: C25, C26, C27, C35, C78. *)
From Verif Require Import Base Str_Spec Ac_Model Ac_Proofs Ac_Props Ac_Any_Props Meta_Model Meta_Proofs
  S5_Model S5_Spec S5_Proofs S5_Props S5_Req_Props.
From Coq Require Import String.

Lemma zrepeat_app {A} (a : A) n m : 0 <= n -> 0 <= m -> zrepeat a (n + m) = zrepeat a n ++ zrepeat a m.
Proof. intros. unfold zrepeat. rewrite Z2Nat.inj_add by lia. apply repeat_app. Qed.

Lemma zput_app_zeros (acc bs : list Z) n : zlen bs <= n ->
  zput (acc ++ zrepeat 0 n) (zlen acc) bs = Some ((acc ++ bs) ++ zrepeat 0 (n - zlen bs)).
Proof.
  intros H. pose proof (zlen_nonneg acc). pose proof (zlen_nonneg bs).
  rewrite zput_ok by (rewrite ?zlen_app, ?zlen_zrepeat; lia). f_equal.
  rewrite ztake_app_l by lia. rewrite ztake_all by lia. rewrite <- app_assoc. do 2 f_equal.
  rewrite zdrop_app_r by lia. replace (zlen acc + zlen bs - zlen acc) with (zlen bs) by lia.
  replace n with (zlen bs + (n - zlen bs)) at 1 by lia. rewrite zrepeat_app by lia.
  rewrite zdrop_app_r by (rewrite zlen_zrepeat; lia). rewrite zlen_zrepeat by lia. apply zdrop_le0. lia.
Qed.

(** the buffer of a session that has received [acc] and nothing was consumed *)
Definition buf_of (cap : Z) (acc : list Z) : meta := mkMeta (acc ++ zrepeat 0 (cap - zlen acc)) 0 (zlen acc).

Lemma buf_of_cap cap acc : zlen acc <= cap -> meta_cap (buf_of cap acc) = cap.
Proof. intros. unfold meta_cap, buf_of. cbn [mbuf]. rewrite zlen_app, zlen_zrepeat by lia. lia. Qed.

Lemma buf_of_store cap acc bs : zlen acc + zlen bs <= cap ->
  meta_store (buf_of cap acc) bs = Ok (buf_of cap (acc ++ bs)).
Proof.
  intros. unfold meta_store, buf_of. cbn [mbuf mpos mlast]. rewrite zput_app_zeros by lia. cbn [of_opt bind].
  rewrite zlen_app. replace (cap - zlen acc - zlen bs) with (cap - (zlen acc + zlen bs)) by lia. reflexivity.
Qed.

Definition auth_state (h : hs) (cap : Z) (acc : list Z) : Prop :=
  h_ph h = PhAuth /\ h_meta h = buf_of cap acc.

Lemma auth_recv h cap acc r : auth_state h cap acc -> zlen acc < AUTH_LEN -> 600 <= cap ->
  zlen acc + zlen (rx_bytes r) <= cap -> rx_live r ->
  hs_step h (InRecv r) =
    if zlen (acc ++ rx_bytes r) <? AUTH_LEN
    then Ok (with_pm h PhAuth (buf_of cap (acc ++ rx_bytes r)))
    else auth_check h (buf_of cap (acc ++ rx_bytes r)).
Proof.
  intros (Ph & M) La C L V. unfold hs_step. rewrite Ph. unfold do_recv.
  unfold AUTH_LEN in *.
  assert (F : meta_getfree (h_meta h) = cap - zlen acc).
  { rewrite M. unfold meta_getfree. rewrite buf_of_cap by lia. reflexivity. }
  rewrite F. destruct (Z.ltb_spec (cap - zlen acc) 1); [lia|].
  destruct r as [bs| |]; [| |contradiction]; cbn [rx_bytes] in *.
  - rewrite M, buf_of_store by lia. cbn [bind]. unfold meta_getlen, buf_of at 1. cbn [mpos mlast].
    rewrite Z.sub_0_r. reflexivity.
  - rewrite app_nil_r. destruct (Z.ltb_spec (zlen acc) 36); [|lia].
    rewrite <- M, <- Ph. destruct h; reflexivity.
Qed.

Lemma auth_run : forall rs h cap acc, auth_state h cap acc -> zlen acc < AUTH_LEN -> 600 <= cap ->
  Forall rx_live rs -> zlen (acc ++ rx_data rs) <= AUTH_LEN ->
  if zlen (acc ++ rx_data rs) <? AUTH_LEN
  then exists h', hs_run h (map InRecv rs) = Ok h' /\ auth_state h' cap (acc ++ rx_data rs) /\ h_ac h' = h_ac h /\
                  h_s5 h' = h_s5 h /\ h_sent h' = h_sent h /\ h_asked h' = h_asked h /\ h_dialled h' = h_dialled h
  else exists rs2 h0, Forall rx_live rs2 /\ rx_data rs2 = [] /\ h_ac h0 = h_ac h /\ h_s5 h0 = h_s5 h /\
       h_sent h0 = h_sent h /\ h_asked h0 = h_asked h /\ h_dialled h0 = h_dialled h /\
       hs_run h (map InRecv rs) =
       (let* h1 := auth_check h0 (buf_of cap (acc ++ rx_data rs)) in hs_run h1 (map InRecv rs2)).
Proof.
  unfold AUTH_LEN. induction rs as [|r rs IH]; intros h cap acc A La C LV LT.
  - unfold rx_data in *. cbn [map List.concat] in *. rewrite app_nil_r in *.
    destruct (Z.ltb_spec (zlen acc) 36); [|lia]. exists h. cbn [hs_run]. auto 10.
  - pose proof (Forall_inv LV) as Hr. pose proof (Forall_inv_tail LV) as LV'.
    change (rx_data (r :: rs)) with (rx_bytes r ++ rx_data rs) in *.
    pose proof (zlen_nonneg (rx_data rs)) as N. pose proof LT as LT0. rewrite !zlen_app in LT0.
    cbn [map hs_run]. rewrite (auth_recv h cap acc r A) by (unfold AUTH_LEN; auto; lia). unfold AUTH_LEN.
    rewrite app_assoc in *.
    destruct (Z.ltb_spec (zlen (acc ++ rx_bytes r)) 36) as [S1|S1].
    + cbn [bind]. specialize (IH (with_pm h PhAuth (buf_of cap (acc ++ rx_bytes r))) cap (acc ++ rx_bytes r)).
      specialize (IH ltac:(split; reflexivity) S1 C LV' LT).
      destruct (zlen ((acc ++ rx_bytes r) ++ rx_data rs) <? 36); exact IH.
    + assert (D : rx_data rs = []).
      { apply zlen_0_nil. rewrite zlen_app in S1. lia. }
      rewrite D, app_nil_r in *. destruct (Z.ltb_spec (zlen (acc ++ rx_bytes r)) 36); [lia|].
      exists rs, h. split; [exact LV'|]. split; [exact D|]. auto 10.
Qed.

Lemma p1_idle h rs : p1_start h -> Forall rx_live rs -> rx_data rs = [] ->
  exists h', hs_run h (map InRecv rs) = Ok h' /\ p1_start h' /\ h_sent h' = h_sent h.
Proof.
  intros (Ph & F1 & F2 & P0 & L0 & Cap & As & Di) LV D.
  destruct (p1_run rs h (h_s5 h) [] (meta_cap (h_meta h)) (h_s5 h) false) as (h' & R & S1 & Cx & Q1 & Q2 & Q3 & Q4); auto.
  - lia.
  - split; [exact P0|]. split; [exact L0|reflexivity].
  - rewrite D. cbn [app]. rewrite zlen_nil. lia.
  - rewrite D. reflexivity.
  - rewrite D in *. cbn [app] in *. rewrite zlen_nil in *.
    exists h'. split; [exact R|]. unfold ctx in Cx. unfold p1_start. rewrite S1.
    split; [|congruence]. repeat (split; [first [assumption|lia|congruence]|]). congruence.
Qed.

Lemma header_len key : zlen key <= 16 -> zlen (header_of key) = 36.
Proof.
  intros. unfold header_of. rewrite !zlen_app, !zlen_zrepeat by lia.
  change (zlen [160; 1; 190; 239]) with 4. lia.
Qed.

(** the client builds the specified header *)
Theorem C25_client_header :
  forall key, zlen key <= 16 -> auth_header (conf_auth key) = Ok (header_of key).
Proof.
  intros key L. pose proof (zlen_nonneg key). unfold auth_header, conf_auth.
  rewrite zlen_app, zlen_zrepeat by lia. destruct (Z.leb_spec 16 (zlen key + (33 - zlen key))); [|lia].
  unfold header_of, MAGIC. do 2 f_equal.
  replace (33 - zlen key) with ((16 - zlen key) + 17) by lia. rewrite zrepeat_app by lia.
  rewrite ztake_app_r by lia. rewrite ztake_app_l by (rewrite zlen_zrepeat; lia).
  rewrite ztake_all by (rewrite zlen_zrepeat; lia). rewrite <- app_assoc. reflexivity.
Qed.
Print Assumptions C25_client_header.

Lemma zslice_head {A} (a l : list A) n : n = zlen a -> zslice 0 n (a ++ l) = a.
Proof.
  intros ->. unfold zslice. rewrite zdrop_le0 by lia. rewrite Z.sub_0_r, ztake_app_l by lia. apply ztake_all. lia.
Qed.

Lemma auth_check_key h cap key c' : no_nul key -> zlen key <= 16 -> 600 <= cap ->
  ezac_find (h_ac h) key = Ok (true, c') ->
  auth_check h (buf_of cap (header_of key)) = Ok (with_ac h PhP1 (meta_clr (buf_of cap (header_of key))) c').
Proof.
  intros NN L C F. unfold auth_check.
  assert (E : mbuf (buf_of cap (header_of key)) =
              MAGIC ++ (key ++ zrepeat 0 (cap - 4 - zlen key))).
  { unfold buf_of. cbn [mbuf]. rewrite header_len by lia. unfold header_of. change MAGIC with [160; 1; 190; 239].
    rewrite <- !app_assoc. do 2 f_equal. pose proof (zlen_nonneg key).
    rewrite <- !zrepeat_app by lia. f_equal. lia. }
  rewrite E. change (mpos (buf_of cap (header_of key))) with 0.
  change (0 + 4) with 4. rewrite zslice_head by reflexivity.
  assert (B : bseq MAGIC MAGIC = true) by reflexivity. rewrite B.
  change (zdrop 4 (MAGIC ++ (key ++ zrepeat 0 (cap - 4 - zlen key)))) with (key ++ zrepeat 0 (cap - 4 - zlen key)).
  rewrite <- app_assoc. change [0] with (zrepeat 0 1). rewrite <- zrepeat_app by (pose proof (zlen_nonneg key); lia).
  rewrite cstr_zeros by (auto; lia). cbn [of_opt bind]. rewrite F. reflexivity.
Qed.

(** the header of a registered key, in any split, is accepted by a fresh server,
    which then waits for the greeting *)
Theorem C25_registered_key_accepted :
  forall keys c key cap rs, ac_build keys = Ok c -> In key keys -> 1 <= zlen key <= 16 -> no_nul key ->
    600 <= cap -> Forall rx_live rs -> rx_data rs = header_of key ->
    exists h, hs_run (hs_init cap c) (map InRecv rs) = Ok h /\ p1_start h /\ h_sent h = [].
Proof.
  intros keys c key cap rs B Hk Lk NN C LV D.
  assert (NE : key <> []) by (intros ->; rewrite zlen_nil in Lk; lia).
  destruct (C21_registered_key_accepted keys c key B Hk NE) as (c' & F).
  pose proof (header_len key ltac:(lia)) as HL.
  assert (AS : auth_state (hs_init cap c) cap []).
  { split; [reflexivity|]. unfold buf_of. change (zlen (@nil Z)) with 0. rewrite Z.sub_0_r. reflexivity. }
  pose proof (auth_run rs (hs_init cap c) cap [] AS) as R. unfold AUTH_LEN in R.
  cbn [app] in R. rewrite D, HL in R.
  specialize (R ltac:(reflexivity) C LV ltac:(lia)). change (36 <? 36) with false in R. cbv iota in R.
  destruct R as (rs2 & h0 & LV2 & D2 & Ea & Es & Et & Eq & Ed & R).
  rewrite (auth_check_key h0 cap key c') in R by (auto; try lia; rewrite Ea; exact F). cbn [bind] in R.
  match type of R with _ = hs_run ?x _ => set (h1 := x) in R end.
  destruct (p1_idle h1 rs2) as (h2 & R2 & P2 & S2); auto.
  { subst h1. unfold p1_start, p1_fresh, p2_fresh. cbn [h_ph h_s5 h_meta h_asked h_dialled with_ac].
    rewrite Es, Eq, Ed. split; [reflexivity|]. split; [split; [reflexivity|apply zlen_zrepeat; unfold METHODS_SIZE; lia]|].
    split; [split; reflexivity|]. split; [reflexivity|]. split; [reflexivity|].
    split; [|split; reflexivity]. unfold meta_cap, meta_clr. cbn [mbuf].
    change (zlen (mbuf (buf_of cap (header_of key)))) with (meta_cap (buf_of cap (header_of key))).
    rewrite buf_of_cap by lia. lia. }
  exists h2. rewrite R. split; [exact R2|]. split; [exact P2|]. rewrite S2. exact Et.
Qed.
Print Assumptions C25_registered_key_accepted.

(** any 36 bytes with another magic number, in any split, close the session *)
Theorem C25_other_magic_refused :
  forall c cap rs, 600 <= cap -> Forall rx_live rs -> zlen (rx_data rs) = 36 ->
    ztake 4 (rx_data rs) <> [160; 1; 190; 239] ->
    exists h, hs_run (hs_init cap c) (map InRecv rs) = Ok h /\ h_ph h = PhClosed /\ h_sent h = [].
Proof.
  intros c cap rs C LV L N.
  assert (AS : auth_state (hs_init cap c) cap []).
  { split; [reflexivity|]. unfold buf_of. change (zlen (@nil Z)) with 0. rewrite Z.sub_0_r. reflexivity. }
  pose proof (auth_run rs (hs_init cap c) cap [] AS) as R. unfold AUTH_LEN in R.
  cbn [app] in R. rewrite L in R.
  specialize (R ltac:(reflexivity) C LV ltac:(lia)). change (36 <? 36) with false in R. cbv iota in R.
  destruct R as (rs2 & h0 & LV2 & D2 & Ea & Es & Et & Eq & Ed & R).
  assert (CH : auth_check h0 (buf_of cap (rx_data rs)) = Ok (with_pm h0 PhClosed (buf_of cap (rx_data rs)))).
  { unfold auth_check. destruct (bseq _ MAGIC) eqn:E; [|reflexivity]. apply bseq_spec in E. exfalso. apply N.
    unfold buf_of in E. cbn [mpos mbuf] in E. unfold zslice in E. change (0 + 4 - 0) with 4 in E.
    rewrite zdrop_le0 in E by lia. rewrite ztake_app_l in E by lia. exact E. }
  rewrite CH in R. cbn [bind] in R. rewrite (run_ignored PhClosed ltac:(auto) rs2) in R by reflexivity.
  eexists. split; [exact R|]. split; [reflexivity|]. exact Et.
Qed.
Print Assumptions C25_other_magic_refused.

Example C25_example :
  (exists c, ac_build [str "auth_for_tanx"; str "guest"] = Ok c) /\ In (str "guest") [str "auth_for_tanx"; str "guest"] /\
  1 <= zlen (str "guest") <= 16 /\ no_nul (str "guest") /\
  rx_data [RxData [160]; RxAgain; RxData [1; 190]; RxData (239 :: str "guest" ++ zrepeat 0 27)] = header_of (str "guest").
Proof.
  split; [eexists; vm_compute; reflexivity|]. split; [simpl; auto|]. split; [split; vm_compute; discriminate|].
  split; [repeat (apply Forall_cons; [vm_compute; discriminate|]); apply Forall_nil|]. vm_compute. reflexivity.
Qed.

(** ** C26 *)
(** a 20-byte key, registered on the server and configured on the client, is refused *)
Theorem C26_long_keys_authenticate_refuted :
  exists key c hdr h, 1 <= zlen key <= 32 /\ no_nul key /\ ac_build [key] = Ok c /\
    auth_header (conf_auth key) = Ok hdr /\
    hs_run (hs_init TLS_TUNNEL_METAN c) [InRecv (RxData hdr)] = Ok h /\ h_ph h = PhClosed.
Proof.
  set (key := str "abcdefghijklmnopqrst").
  assert (P : match (let* c := ac_build [key] in let* hdr := auth_header (conf_auth key) in
                 hs_run (hs_init TLS_TUNNEL_METAN c) [InRecv (RxData hdr)]) with
              | Ok h => match h_ph h with PhClosed => true | _ => false end | _ => false end = true) by (vm_compute; reflexivity).
  destruct (ac_build [key]) as [c| |] eqn:B; [|discriminate P|discriminate P]. cbn [bind] in P.
  destruct (auth_header (conf_auth key)) as [hdr| |] eqn:A; [|discriminate P|discriminate P]. cbn [bind] in P.
  destruct (hs_run _ _) as [h| |] eqn:R; [|discriminate P|discriminate P].
  exists key, c, hdr, h. split; [subst key; split; vm_compute; discriminate|].
  split; [subst key; repeat (apply Forall_cons; [vm_compute; discriminate|]); apply Forall_nil|].
  split; [exact B|]. split; [exact A|]. split; [exact R|]. destruct (h_ph h); try discriminate P. reflexivity.
Qed.
Print Assumptions C26_long_keys_authenticate_refuted.

(** keys of up to 16 bytes do, for the header the client really builds *)
Theorem C26_long_keys_authenticate_partial :
  forall keys c key hdr, ac_build keys = Ok c -> In key keys -> 1 <= zlen key <= 16 -> no_nul key ->
    auth_header (conf_auth key) = Ok hdr ->
    exists h, hs_run (hs_init TLS_TUNNEL_METAN c) [InRecv (RxData hdr)] = Ok h /\ h_ph h = PhP1.
Proof.
  intros keys c key hdr B Hk L NN A. rewrite C25_client_header in A by lia. injection A as <-.
  destruct (C25_registered_key_accepted keys c key TLS_TUNNEL_METAN [RxData (header_of key)]) as (h & R & P & _); auto.
  - unfold TLS_TUNNEL_METAN. lia.
  - repeat constructor.
  - unfold rx_data. cbn [map List.concat rx_bytes]. apply app_nil_r.
  - exists h. split; [exact R|]. apply P.
Qed.
Print Assumptions C26_long_keys_authenticate_partial.

Example C26_example : (exists c, ac_build [str "0123456789abcdef"] = Ok c) /\ zlen (str "0123456789abcdef") = 16.
Proof. split; [eexists; vm_compute; reflexivity|reflexivity]. Qed.

(** ** C27 *)
(** a greeting received together with the header is dropped: the session waits for
    a greeting instead of answering it *)
Theorem C27_no_byte_lost_after_auth_refuted :
  exists c h1 h2, ac_build demo_keys = Ok c /\
    hs_run (hs_init TLS_TUNNEL_METAN c) [InRecv (RxData demo_hdr); InRecv (RxData (greeting 5 [0]))] = Ok h1 /\
    h_ph h1 = PhP1Rsp /\
    hs_run (hs_init TLS_TUNNEL_METAN c) [InRecv (RxData (demo_hdr ++ greeting 5 [0]))] = Ok h2 /\
    h_ph h2 = PhP1 /\ mdata (h_meta h2) = [] /\ s_state (h_s5 h2) = 0.
Proof.
  assert (P : match ac_build demo_keys with
     | Ok c => match hs_run (hs_init TLS_TUNNEL_METAN c) [InRecv (RxData demo_hdr); InRecv (RxData (greeting 5 [0]))],
                     hs_run (hs_init TLS_TUNNEL_METAN c) [InRecv (RxData (demo_hdr ++ greeting 5 [0]))] with
               | Ok h1, Ok h2 => match h_ph h1, h_ph h2 with PhP1Rsp, PhP1 => bseq (mdata (h_meta h2)) [] && (s_state (h_s5 h2) =? 0) | _, _ => false end
               | _, _ => false end
     | _ => false end = true) by (vm_compute; reflexivity).
  destruct (ac_build demo_keys) as [c| |]; [|discriminate P|discriminate P].
  destruct (hs_run _ [InRecv (RxData demo_hdr); _]) as [h1| |] eqn:R1; [|discriminate P|discriminate P].
  destruct (hs_run _ [InRecv (RxData (demo_hdr ++ _))]) as [h2| |] eqn:R2; [|discriminate P|discriminate P].
  exists c, h1, h2. destruct (h_ph h1), (h_ph h2); try discriminate P.
  apply andb_true_iff in P as (P1 & P2). apply bseq_spec in P1.
  repeat (split; [first [reflexivity|assumption]|]). lia.
Qed.
Print Assumptions C27_no_byte_lost_after_auth_refuted.

(** bytes that arrive in later receives are processed: header in any split, then the
    greeting in any split gets the reply *)
Theorem C27_no_byte_lost_after_auth_partial :
  forall keys c key cap rs1 rs2 ts ver ms, ac_build keys = Ok c -> In key keys -> 1 <= zlen key <= 16 -> no_nul key ->
    600 <= cap -> Forall rx_live rs1 -> Forall rx_live rs2 -> Forall tx_live ts ->
    rx_data rs1 = header_of key -> 1 <= zlen ms <= 255 -> rx_data rs2 = greeting ver ms -> tx_total ts = 2 ->
    exists h, hs_run (hs_init cap c) (map InRecv rs1 ++ map InRecv rs2 ++ map InSend ts) = Ok h /\
      h_sent h = [5; 0] /\ p2_start h.
Proof.
  intros keys c key cap rs1 rs2 ts ver ms B Hk L NN C LV1 LV2 LT D1 Lm D2 TT.
  destruct (C25_registered_key_accepted keys c key cap rs1) as (h & R & P & S0); auto.
  destruct (C28_greeting_any_split h ver ms rs2 P Lm LV2) as (_ & G).
  destruct (G D2 ts LT TT) as (h1 & h2 & R1 & S1 & R2 & S2 & P2).
  exists h2. rewrite !hs_run_app, R. cbn [bind]. rewrite hs_run_app, R1. cbn [bind].
  split; [exact R2|]. split; [rewrite S2, S0; reflexivity|exact P2].
Qed.
Print Assumptions C27_no_byte_lost_after_auth_partial.

(** ** C35 *)
(** greeting and request in one segment: the request is lost *)
Theorem C35_pipelined_handshake_refuted :
  exists h h1 h2, demo_auth = Ok h /\
    hs_run h [InRecv (RxData (greeting 5 [0])); InSend (TxSent 2); InRecv (RxData (request_v4 5 1 0 [192; 0; 2; 7] [0; 80]))] = Ok h1 /\
    h_ph h1 = PhAddr /\
    hs_run h [InRecv (RxData (greeting 5 [0] ++ request_v4 5 1 0 [192; 0; 2; 7] [0; 80])); InSend (TxSent 2)] = Ok h2 /\
    h_ph h2 = PhP2 /\ mdata (h_meta h2) = [] /\ s_state (h_s5 h2) = 0.
Proof.
  assert (P : match demo_auth with
     | Ok h => match hs_run h [InRecv (RxData (greeting 5 [0])); InSend (TxSent 2); InRecv (RxData (request_v4 5 1 0 [192; 0; 2; 7] [0; 80]))],
                     hs_run h [InRecv (RxData (greeting 5 [0] ++ request_v4 5 1 0 [192; 0; 2; 7] [0; 80])); InSend (TxSent 2)] with
               | Ok h1, Ok h2 => match h_ph h1, h_ph h2 with PhAddr, PhP2 => bseq (mdata (h_meta h2)) [] && (s_state (h_s5 h2) =? 0) | _, _ => false end
               | _, _ => false end
     | _ => false end = true) by (vm_compute; reflexivity).
  destruct demo_auth as [h| |]; [|discriminate P|discriminate P].
  destruct (hs_run _ [InRecv (RxData (greeting 5 [0])); _; _]) as [h1| |] eqn:R1; [|discriminate P|discriminate P].
  destruct (hs_run _ [InRecv (RxData (greeting 5 [0] ++ _)); _]) as [h2| |] eqn:R2; [|discriminate P|discriminate P].
  exists h, h1, h2. destruct (h_ph h1), (h_ph h2); try discriminate P.
  apply andb_true_iff in P as (P1 & P2). apply bseq_spec in P1.
  repeat (split; [first [reflexivity|assumption]|]). lia.
Qed.
Print Assumptions C35_pipelined_handshake_refuted.

(** the whole handshake, when no receive crosses a message boundary: for every split
    of every message and of the replies the session reaches the relay with exactly
    the requested peer dialled *)
Theorem C35_pipelined_handshake_partial :
  forall keys c key cap rs1 rs2 rs3 ts1 ts2 ver ms rsv a b c0 d p q r,
    ac_build keys = Ok c -> In key keys -> 1 <= zlen key <= 16 -> no_nul key -> 600 <= cap ->
    Forall rx_live rs1 -> Forall rx_live rs2 -> Forall rx_live rs3 -> Forall tx_live ts1 -> Forall tx_live ts2 ->
    rx_data rs1 = header_of key -> 1 <= zlen ms <= 255 -> rx_data rs2 = greeting ver ms ->
    bytes [a; b; c0; d] -> bytes [p; q] -> rx_data rs3 = request_v4 5 1 rsv [a; b; c0; d] [p; q] ->
    tx_total ts1 = 2 -> tx_total ts2 = 10 -> r = ConOk \/ r = ConAgain ->
    exists h, hs_run (hs_init cap c)
        (map InRecv rs1 ++ map InRecv rs2 ++ map InSend ts1 ++ map InRecv rs3 ++
         [InAlloc true; InConnect r; InSockUp true] ++ map InSend ts2) = Ok h /\
      h_ph h = PhRelay /\ h_dialled h = [([a; b; c0; d], [p; q])] /\ h_asked h = [] /\
      h_sent h = [5; 0] ++ [5; 0; 0; 1; b; a; 0; 0; q; p].
Proof.
  intros keys c key cap rs1 rs2 rs3 ts1 ts2 ver ms rsv a b c0 d p q r B Hk L NN C LV1 LV2 LV3 LT1 LT2
    D1 Lm D2 Bip Bpo D3 T1 T2 Hr.
  destruct (C27_no_byte_lost_after_auth_partial keys c key cap rs1 rs2 ts1 ver ms) as (h1 & R1 & S1 & P1); auto.
  assert (I4 : ip4 [a; b; c0; d]) by (split; [reflexivity|exact Bip]).
  destruct (C30_request_any_split h1 rsv rs3 P1 LV3) as (H & _).
  destruct (H [a; b; c0; d] [p; q] eq_refl eq_refl) as (_ & H2).
  destruct (H2 D3) as (h2 & R2 & Ph & Cx & AE & Ty & Ad & Po).
  destruct P1 as (_ & _ & _ & _ & Cap & As & Di). unfold ctx in Cx.
  set (h3 := with_addr h2 PhConnect [a; b; c0; d] [p; q]).
  assert (S3 : hs_step h2 (InAlloc true) = Ok h3).
  { unfold hs_step. rewrite Ph, Ty, Ad, Po, inet_addr_fmt by exact I4. reflexivity. }
  set (h4 := with_dial h3 (match r with ConOk => PhConnChk | _ => PhConnWait end)).
  assert (S4 : hs_step h3 (InConnect r) = Ok h4).
  { unfold h4. destruct Hr as [-> | ->]; reflexivity. }
  destruct (C34_connect_reply_partial h4 a b c0 d p q ts2) as (h5 & R5 & P5 & S5); auto.
  { unfold h4. cbn [h_ph with_dial]. destruct Hr as [-> | ->]; auto. }
  { destruct AE as (A1 & A2 & A3). unfold h4, h3. cbn [h_meta with_dial with_addr]. repeat split; auto. }
  { destruct AE as (A1 & A2 & A3). unfold h4, h3. cbn [h_meta with_dial with_addr]. lia. }
  exists h5. repeat rewrite hs_run_app in *.
  destruct (hs_run (hs_init cap c) (map InRecv rs1)) as [ha| |]; try discriminate R1. cbn [bind] in *.
  repeat rewrite hs_run_app in *.
  destruct (hs_run ha (map InRecv rs2)) as [hb| |]; try discriminate R1. cbn [bind] in *.
  repeat rewrite hs_run_app in *. rewrite R1. cbn [bind]. repeat rewrite hs_run_app. rewrite R2. cbn [bind app].
  cbn [hs_run]. rewrite S3. cbn [bind]. rewrite S4. cbn [bind].
  split; [exact R5|]. split; [exact P5|].
  (* the reply does not touch what was dialled *)
  assert (K : forall is h h', hs_run h is = Ok h' -> Forall (fun i => match i with InSend _ | InSockUp _ => True | _ => False end) is ->
            h_dialled h' = h_dialled h /\ h_asked h' = h_asked h).
  { clear. induction is as [|i is IH]; intros h h' R F; [injection R as <-; auto|].
    pose proof (Forall_inv F) as Fi. pose proof (Forall_inv_tail F) as Ft. cbn [hs_run] in R.
    destruct (hs_step h i) as [h1| |] eqn:S; try discriminate R. cbn [bind] in R.
    destruct (IH h1 h' R Ft) as (E1 & E2). rewrite E1, E2. clear - S Fi.
    unfold hs_step in S. destruct (h_ph h); destruct i; try contradiction; try (injection S as <-; auto; fail);
      try (unfold do_send in S; destruct r; [destruct (0 <? _)| |]; injection S as <-; auto; fail);
      (destruct ok; [|injection S as <-; auto]; destruct (meta_store _ _); try discriminate S; injection S as <-; auto). }
  destruct (K _ h4 h5 R5) as (E1 & E2).
  { apply Forall_cons; [exact I|]. clear. induction ts2; constructor; auto. }
  rewrite E1, E2, S5. unfold h4, h3. cbn [h_dialled h_asked h_sent h_addr h_port with_dial with_addr].
  assert (h_dialled h2 = []) as -> by congruence. assert (h_asked h2 = []) as -> by congruence.
  assert (h_sent h2 = [5; 0]) as -> by congruence. auto.
Qed.
Print Assumptions C35_pipelined_handshake_partial.

Example C35_example :
  rx_data [RxData [5; 1; 0]; RxData [1; 192; 0; 2]; RxAgain; RxData [7; 0; 80]] = request_v4 5 1 0 [192; 0; 2; 7] [0; 80] /\
  bytes [192; 0; 2; 7] /\ bytes [0; 80] /\ rx_data [RxData [5]; RxData [1; 0]] = greeting 5 [0].
Proof. split; [reflexivity|]. split; [apply bytesb_spec; reflexivity|]. split; [apply bytesb_spec; reflexivity|reflexivity]. Qed.

(** ** C78: nothing happens for a client without a key *)
Lemma cstr_prefix : forall l n t, cstr (l ++ zrepeat 0 n) = Some t -> exists r, l = t ++ r.
Proof.
  induction l as [|b l IH]; intros n t E; cbn [app] in E.
  - unfold zrepeat in E. destruct (Z.to_nat n); cbn in E; [discriminate|]. injection E as <-. exists []. reflexivity.
  - cbn [cstr] in E. destruct (b =? 0); [injection E as <-; exists (b :: l); reflexivity|].
    destruct (cstr (l ++ zrepeat 0 n)) as [s|] eqn:C; [|discriminate]. injection E as <-.
    destruct (IH n s C) as (r & ->). exists r. reflexivity.
Qed.

(** the bytes received so far start with the magic number, and [P] holds of the rest *)
Definition shown (P : list Z -> Prop) (data : list Z) : Prop :=
  exists rest, data = [160; 1; 190; 239] ++ rest /\ P rest.

(** [c] accepts only texts with [P] *)
Definition accepts_only (P : list Z -> Prop) (c : ac) : Prop :=
  forall t, bytes t -> exists ok c', ezac_find c t = Ok (ok, c') /\ (ok = true -> P t).

Definition extends (P : list Z -> Prop) : Prop := forall l r, P l -> P (l ++ r).

Lemma contains_key_app l r k : contains_key l k -> contains_key (l ++ r) k.
Proof.
  intros (a & b & E). exists a, (b ++ map collapse r). rewrite map_app, E, <- !app_assoc. reflexivity.
Qed.

Lemma shown_app P data x : extends P -> shown P data -> shown P (data ++ x).
Proof.
  intros X (rest & -> & C). exists (rest ++ x). rewrite <- app_assoc. split; [reflexivity|]. apply X, C.
Qed.

Definition inv78 (P : list Z -> Prop) (cap : Z) (c : ac) (h : hs) (data : list Z) : Prop :=
  match h_ph h with
  | PhAuth => h_meta h = buf_of cap data /\ zlen data < AUTH_LEN /\ h_ac h = c /\ bytes data /\
              h_sent h = [] /\ h_asked h = [] /\ h_dialled h = []
  | PhClosed => (h_sent h = [] /\ h_asked h = [] /\ h_dialled h = []) \/ shown P data
  | _ => shown P data
  end.

Lemma not_back_to_auth h i h' : h_ph h <> PhAuth -> h_ph h <> PhClosed -> hs_step h i = Ok h' -> h_ph h' <> PhAuth.
Proof.
  intros N N2 S. unfold hs_step in S. destruct (h_ph h) eqn:Ph; try congruence; destruct i;
    try (injection S as <-; cbn; congruence);
    try (unfold do_recv, p1_feed, p2_feed in S; destruct (meta_getfree _ <? 1); [discriminate|]; destruct r;
         try (injection S as <-; cbn; congruence); destruct (meta_store _ _); try discriminate S; cbn [bind] in S;
         (destruct (p1_loop _ _) as [[s1 d]| |] || destruct (p2_loop _ _) as [[s1 d]| |]); try discriminate S;
         cbn [bind fst snd] in S; destruct d; try (injection S as <-; cbn; try destruct (p2_accept _); congruence);
         destruct (meta_store _ _); try discriminate S; injection S as <-; cbn; congruence);
    try (unfold do_send in S; destruct r; [destruct (0 <? _)| |]; injection S as <-; cbn; congruence);
    try (destruct ok; [destruct (_ =? _)|]; injection S as <-; cbn; congruence);
    try (destruct (cstr _); [|discriminate S]; cbn in S; destruct a; injection S as <-; cbn; congruence);
    try (destruct a; injection S as <-; cbn; congruence);
    try (destruct ok; [|injection S as <-; cbn; congruence]; destruct (meta_store _ _); try discriminate S; injection S as <-; cbn; congruence);
    try (destruct ok; injection S as <-; cbn; congruence);
    try (destruct r; injection S as <-; cbn; congruence).
Qed.

Lemma inv78_step P cap c h data i h' :
  extends P -> accepts_only P c -> 600 <= cap ->
  inv78 P cap c h data -> enabled h i -> hs_step h i = Ok h' -> inv78 P cap c h' (data ++ in_bytes i).
Proof.
  intros X AO C I En S.
  assert (OTHER : h_ph h <> PhAuth -> h_ph h <> PhClosed -> inv78 P cap c h' (data ++ in_bytes i)).
  { intros N N2. assert (KS : shown P (data ++ in_bytes i)).
    { apply shown_app; [exact X|]. unfold inv78 in I. destruct (h_ph h); try exact I; congruence. }
    pose proof (not_back_to_auth h i h' N N2 S). unfold inv78. destruct (h_ph h'); try exact KS; try congruence. right. exact KS. }
  destruct (h_ph h) eqn:Ph; try (apply OTHER; congruence); clear OTHER.
  2:{ unfold enabled in En. rewrite Ph in En. contradiction. }
  unfold inv78 in I. rewrite Ph in I. destruct I as (M & L & Ac & Bd & Se & As & Di).
  unfold enabled in En. rewrite Ph in En. destruct i; try contradiction.
  2:{ unfold hs_step in S. rewrite Ph in S. injection S as <-. unfold inv78. cbn. auto. }
  destruct r as [bs| |]; cbn [in_bytes rx_bytes].
  3:{ unfold hs_step, do_recv in S. rewrite Ph in S. destruct (meta_getfree _ <? 1); [discriminate|].
      injection S as <-. unfold inv78. cbn. auto. }
  2:{ unfold hs_step, do_recv in S. rewrite Ph in S. destruct (meta_getfree _ <? 1); [discriminate|].
      injection S as <-. rewrite app_nil_r. unfold inv78. rewrite Ph. auto 10. }
  cbn [rx_ok] in En. destruct En as (NE & Bb & Lb).
  assert (FR : meta_getfree (h_meta h) = cap - zlen data).
  { rewrite M. unfold meta_getfree. unfold AUTH_LEN in L. rewrite buf_of_cap by lia. reflexivity. }
  rewrite (auth_recv h cap data (RxData bs)) in S; auto; cbn [rx_bytes rx_live] in *; try lia; [|split; assumption].
  destruct (Z.ltb_spec (zlen (data ++ bs)) AUTH_LEN) as [Lt|Ge].
  - injection S as <-. unfold inv78. cbn [h_ph with_pm h_meta h_ac h_sent h_asked h_dialled].
    split; [reflexivity|]. split; [exact Lt|]. split; [exact Ac|]. split; [apply bytes_app; auto|auto].
  - unfold auth_check in S. destruct (bseq _ MAGIC) eqn:EM.
    2:{ injection S as <-. unfold inv78. cbn. auto. }
    apply bseq_spec in EM. unfold AUTH_LEN in Ge.
    change (mpos (buf_of cap (data ++ bs))) with 0 in *. change (0 + 4) with 4 in *.
    assert (EMP : data ++ bs = MAGIC ++ zdrop 4 (data ++ bs)).
    { rewrite <- (ztake_zdrop 4 (data ++ bs)) at 1. f_equal. rewrite <- EM. unfold zslice, buf_of. cbn [mbuf].
      rewrite zdrop_le0 by lia. change (4 - 0) with 4. rewrite (ztake_app_l 4 (data ++ bs)) by lia. reflexivity. }
    destruct (cstr (zdrop 4 (mbuf (buf_of cap (data ++ bs))) ++ [0])) as [t|] eqn:CS; [|discriminate].
    cbn [of_opt bind] in S.
    assert (PT : exists r, zdrop 4 (data ++ bs) = t ++ r).
    { unfold buf_of in CS. cbn [mbuf] in CS. rewrite zdrop_app_l in CS by lia. rewrite <- app_assoc in CS.
      change [0] with (zrepeat 0 1) in CS. rewrite <- zrepeat_app in CS by (rewrite ?zlen_app; lia).
      eapply cstr_prefix; exact CS. }
    destruct PT as (r & PT).
    assert (Bt : bytes t).
    { assert (bytes (data ++ bs)) as BB by (apply bytes_app; auto). rewrite EMP, PT in BB.
      apply bytes_app in BB as (_ & BB). apply bytes_app in BB. tauto. }
    destruct (AO t Bt) as (ok & c2 & F & K).
    rewrite Ac, F in S. cbn [bind fst snd] in S. destruct ok.
    + injection S as <-. unfold inv78. cbn [h_ph with_ac].
      exists (zdrop 4 (data ++ bs)). split; [exact EMP|]. rewrite PT. apply X, K. reflexivity.
    + injection S as <-. unfold inv78. cbn. auto.
Qed.

Lemma access_shown P c cap is h : extends P -> accepts_only P c -> 600 <= cap ->
  valid (hs_init cap c) is -> hs_run (hs_init cap c) is = Ok h ->
  (h_ph h <> PhAuth /\ h_ph h <> PhClosed) \/ h_sent h <> [] \/ h_asked h <> [] \/ h_dialled h <> [] ->
  shown P (in_data is).
Proof.
  intros X AO C V R Q.
  assert (I : inv78 P cap c (hs_init cap c) []).
  { unfold inv78. cbn [h_ph hs_init]. unfold buf_of. change (zlen (@nil Z)) with 0. rewrite Z.sub_0_r.
    repeat split; try reflexivity. constructor. }
  assert (G : forall is h data h', inv78 P cap c h data -> valid h is -> hs_run h is = Ok h' -> inv78 P cap c h' (data ++ in_data is)).
  { clear I V R Q. clear is h. induction is as [|i is IH]; intros h data h' I V R.
    - injection R as <-. unfold in_data. cbn. rewrite app_nil_r. exact I.
    - cbn [valid] in V. destruct V as (E & V). cbn [hs_run] in R.
      destruct (hs_step h i) as [h1| |] eqn:ST; try discriminate. cbn [bind] in R.
      change (in_data (i :: is)) with (in_bytes i ++ in_data is). rewrite app_assoc.
      apply (IH h1); auto. eapply inv78_step; eauto. }
  specialize (G is _ [] h I V R). cbn [app] in G. unfold inv78 in G.
  destruct (h_ph h) eqn:Ph; try exact G.
  - destruct G as (_ & _ & _ & _ & A1 & A2 & A3). destruct Q as [[]|[|[|]]]; congruence.
  - destruct G as [(A1 & A2 & A3)|G]; [|exact G]. destruct Q as [[]|[|[|]]]; congruence.
Qed.

(** For key sets as in C22: whatever arrives in whatever segmentation, the session
    answers, resolves or dials something, or gets past authentication, only if the
    received bytes start with the magic number and contain a registered key. *)
Theorem C78_no_access_without_key_partial :
  forall keys c cap is h, Forall bytes keys -> first_unique keys -> total keys < 4096 ->
    ac_build keys = Ok c -> 600 <= cap ->
    valid (hs_init cap c) is -> hs_run (hs_init cap c) is = Ok h ->
    (h_ph h <> PhAuth /\ h_ph h <> PhClosed) \/ h_sent h <> [] \/ h_asked h <> [] \/ h_dialled h <> [] ->
    exists rest k, in_data is = [160; 1; 190; 239] ++ rest /\ In k keys /\ contains_key rest k.
Proof.
  intros keys c cap is h Hb FU TL B C V R Q.
  destruct (access_shown (fun l => exists k, In k keys /\ contains_key l k) c cap is h) as (rest & E & k & Hk & CK); auto.
  - intros l r (k & Hk & CK). exists k. split; [exact Hk|apply contains_key_app, CK].
  - intros t Bt. destruct (C22_accepts_only_texts_with_key_partial keys t Hb FU TL Bt) as (c1 & ok & c2 & B1 & F & K).
    assert (c1 = c) by congruence. subst c1. eauto.
  - exists rest, k. auto.
Qed.
Print Assumptions C78_no_access_without_key_partial.

(** For every key set, and after any number of refused attempts of other clients:
    only if the symbols of a registered key appear, in order but perhaps with
    others between them, in what those clients sent as keys and what this client
    sent behind the magic number. *)
Theorem C78_any_keys_partial :
  forall keys c0 ts oks c cap is h, Forall bytes keys -> ac_build keys = Ok c0 ->
    Forall bytes ts -> ac_attempts c0 ts = Ok (oks, c) -> Forall (eq false) oks -> 600 <= cap ->
    valid (hs_init cap c) is -> hs_run (hs_init cap c) is = Ok h ->
    (h_ph h <> PhAuth /\ h_ph h <> PhClosed) \/ h_sent h <> [] \/ h_asked h <> [] \/ h_dialled h <> [] ->
    exists rest k, in_data is = [160; 1; 190; 239] ++ rest /\ In k keys /\ k <> [] /\
      subseq (map collapse k) (map collapse (List.concat ts ++ rest)).
Proof.
  intros keys c0 ts oks c cap is h Hb B Hts A Hf C V R Q.
  destruct (access_shown (fun l => exists k, In k keys /\ k <> [] /\
      subseq (map collapse k) (map collapse (List.concat ts ++ l))) c cap is h) as (rest & E & k & Hk & NE & S); auto.
  - intros l r (k & Hk & NE & S). exists k. split; [exact Hk|]. split; [exact NE|].
    rewrite app_assoc, map_app. apply subseq_app_r, S.
  - intros t Bt. destruct (C22_any_keys_partial keys c0 Hb B ts t Hts Bt) as (oks' & c1 & ok & c2 & A' & F & K).
    rewrite A in A'. injection A' as <- <-. exists ok, c2. split; [exact F|]. intros O.
    destruct (K O) as (_ & K2). exact (K2 Hf).
  - exists rest, k. auto.
Qed.
Print Assumptions C78_any_keys_partial.

(** in general it is false: with the key aaab the header of aaaXab is let in *)
Theorem C78_no_access_without_key_refuted :
  exists keys c data h, Forall bytes keys /\ ac_build keys = Ok c /\
    (forall k, In k keys -> ~ occurs k data) /\
    hs_run (hs_init TLS_TUNNEL_METAN c) [InRecv (RxData data)] = Ok h /\ h_ph h = PhP1.
Proof.
  assert (P : match ac_build [str "aaab"] with
     | Ok c => match hs_run (hs_init TLS_TUNNEL_METAN c) [InRecv (RxData (header_of (str "aaaXab")))] with
               | Ok h => match h_ph h with PhP1 => true | _ => false end
               | _ => false end
     | _ => false end = true) by (vm_compute; reflexivity).
  destruct (ac_build [str "aaab"]) as [c| |] eqn:B; [|discriminate P|discriminate P].
  destruct (hs_run _ _) as [h| |] eqn:R; [|discriminate P|discriminate P].
  exists [str "aaab"], c, (header_of (str "aaaXab")), h. split; [all_bytes|]. split; [exact B|].
  split; [|split; [exact R|destruct (h_ph h); try discriminate P; reflexivity]].
  intros k [<-|[]]. apply not_occurs. vm_compute. reflexivity.
Qed.
Print Assumptions C78_no_access_without_key_refuted.

Example C78_example : exists c h, ac_build [str "Alice_2024"; str "Bob-keyB"] = Ok c /\
  Forall bytes [str "Alice_2024"; str "Bob-keyB"] /\ first_unique [str "Alice_2024"; str "Bob-keyB"] /\
  valid (hs_init TLS_TUNNEL_METAN c) [InRecv (RxData (header_of (str "Bob-keyB")))] /\
  hs_run (hs_init TLS_TUNNEL_METAN c) [InRecv (RxData (header_of (str "Bob-keyB")))] = Ok h /\ h_ph h = PhP1.
Proof.
  destruct C22_example as (HB & FU & TL & _).
  destruct (build_first_unique _ HB FU TL) as (c & B & _). exists c.
  destruct (C25_registered_key_accepted _ c (str "Bob-keyB") TLS_TUNNEL_METAN [RxData (header_of (str "Bob-keyB"))] B) as (h & R & P & _).
  - simpl; auto.
  - split; vm_compute; discriminate.
  - repeat (apply Forall_cons; [vm_compute; discriminate|]); apply Forall_nil.
  - unfold TLS_TUNNEL_METAN. lia.
  - repeat constructor.
  - vm_compute. reflexivity.
  - exists h. split; [exact B|]. split; [exact HB|]. split; [exact FU|]. split; [|split; [exact R|apply P]].
    cbn [valid]. split; [|intros; exact I]. cbn. split; [discriminate|].
    split; [apply bytesb_spec; vm_compute; reflexivity|]. vm_compute. discriminate.
Qed.


(** two attempts that are refused, and a third one that is let in though nobody
    ever sent the key in one piece *)
Example C78_any_ex : exists c0 c h, ac_build [str "auth_for_tanx"] = Ok c0 /\
  ac_attempts c0 [str "auth_"; str "for"] = Ok ([false; false], c) /\
  valid (hs_init TLS_TUNNEL_METAN c) [InRecv (RxData (header_of (str "_tanx")))] /\
  hs_run (hs_init TLS_TUNNEL_METAN c) [InRecv (RxData (header_of (str "_tanx")))] = Ok h /\ h_ph h = PhP1.
Proof.
  assert (P : match ac_build [str "auth_for_tanx"] with
     | Ok c0 => match ac_attempts c0 [str "auth_"; str "for"] with
       | Ok ([false; false], c) =>
           match hs_run (hs_init TLS_TUNNEL_METAN c) [InRecv (RxData (header_of (str "_tanx")))] with
               | Ok h => match h_ph h with PhP1 => true | _ => false end
               | _ => false end
       | _ => false end
     | _ => false end = true) by (vm_compute; reflexivity).
  destruct (ac_build [str "auth_for_tanx"]) as [c0| |]; [|discriminate P|discriminate P].
  destruct (ac_attempts c0 _) as [[[|[] [|[] [|? ?]]] c]| |] eqn:A; try discriminate P.
  destruct (hs_run (hs_init TLS_TUNNEL_METAN c) _) as [h| |] eqn:R; [|discriminate P|discriminate P].
  exists c0, c, h. split; [reflexivity|]. split; [exact A|]. split.
  - cbn [valid]. split; [|intros; exact I]. cbn. split; [discriminate|].
    split; [apply bytesb_spec; vm_compute; reflexivity|]. vm_compute. discriminate.
  - split; [exact R|]. destruct (h_ph h); try discriminate P; reflexivity.
Qed.
