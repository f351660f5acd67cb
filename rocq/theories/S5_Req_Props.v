(** * Theorems about SOCKS5 requests, dialling and replies: C30 - C34. *)
From Verif Require Import Base Str_Spec Ac_Model Ac_Proofs Meta_Model Meta_Proofs S5_Model S5_Spec S5_Proofs S5_Props.
From Coq Require Import String.

Lemma zput_zeros (l : list Z) n : zlen l <= n -> zput (zrepeat 0 n) 0 l = Some (l ++ zrepeat 0 (n - zlen l)).
Proof.
  intros H. pose proof (zlen_nonneg l).
  rewrite zput_ok by (rewrite ?zlen_zrepeat; lia). rewrite ztake_le0 by lia. cbn [app]. do 2 f_equal.
  rewrite Z.add_0_l. unfold zdrop, zrepeat, zlen in *.
  replace (Z.to_nat n) with (Datatypes.length l + Z.to_nat (n - Z.of_nat (Datatypes.length l)))%nat by lia.
  rewrite repeat_app, skipn_app, repeat_length.
  rewrite skipn_all2 by (rewrite repeat_length; lia). cbn [app].
  replace (Z.to_nat (Z.of_nat (Datatypes.length l)) - Datatypes.length l)%nat with 0%nat by lia. reflexivity.
Qed.

Lemma fresh_len s : p2_fresh s -> zlen (p2_addr s) = DST_SIZE.
Proof. intros (_ & E). rewrite E. apply zlen_zrepeat. unfold DST_SIZE. lia. Qed.

(** behaviour of the parser on every byte string, by address type *)
Lemma p2_v4 s v c r rest : p2_fresh s ->
  if zlen rest <? 6 then exists s', p2_loop s (v :: c :: r :: 1 :: rest) = Ok (s', P2More)
  else exists s' p q rest', p2_loop s (v :: c :: r :: 1 :: rest) = Ok (s', P2Done) /\
    rest = ztake 4 rest ++ p :: q :: rest' /\
    p2_addr s' = ztake 4 rest ++ zrepeat 0 251 /\ s_state s' = 0 /\ p2_port0 s' = p /\ p2_port1 s' = q /\
    p2_ver s' = v /\ p2_cmd s' = c /\ p2_atyp s' = 1.
Proof.
  intros F. pose proof (fresh_len s F) as L. destruct F as (St & Z0).
  rewrite (p2_loop_head s v c r 1 rest St). change (1 =? S5_IPV4) with true. cbv iota.
  match goal with |- context [p2_loop ?x rest] => set (s1 := x) end.
  pose proof (p2_loop_addr_port s1 4 rest) as H. subst s1.
  cbn [s_state set_state p2_cnt set_p2addr p2_addr] in H.
  specialize (H (or_introl eq_refl) eq_refl L eq_refl ltac:(lia)).
  destruct (zlen rest <? 4 + 2) eqn:E; replace (zlen rest <? 6) with (zlen rest <? 4 + 2) by reflexivity; rewrite E; [exact H|].
  destruct H as (s' & a' & p & q & rest' & A & B & C & D & E1 & E2 & E3 & E4 & E5 & E6 & E7).
  exists s', p, q, rest'. split; [exact A|]. split; [exact B|].
  assert (Lt : zlen (ztake 4 rest) = 4) by (rewrite zlen_ztake by lia; lia).
  rewrite Z0 in C. rewrite zput_zeros in C by (unfold DST_SIZE; lia). rewrite Lt in C.
  change (DST_SIZE - 4) with 251 in C. injection C as <-.
  split; [exact D|]. split; [exact E1|]. split; [exact E2|]. split; [exact E3|].
  cbn [p2_ver p2_cmd p2_atyp set_state set_p2addr set_p2hdr] in *. auto.
Qed.

Lemma p2_v6 s v c r rest : p2_fresh s ->
  if zlen rest <? 18 then exists s', p2_loop s (v :: c :: r :: 4 :: rest) = Ok (s', P2More)
  else exists s', p2_loop s (v :: c :: r :: 4 :: rest) = Ok (s', P2Done) /\ p2_accept s' = false.
Proof.
  intros F. pose proof (fresh_len s F) as L. destruct F as (St & Z0).
  rewrite (p2_loop_head s v c r 4 rest St). change (4 =? S5_IPV4) with false. change (4 =? S5_IPV6) with true. cbv iota.
  match goal with |- context [p2_loop ?x rest] => set (s1 := x) end.
  pose proof (p2_loop_addr_port s1 16 rest) as H. subst s1.
  cbn [s_state set_state p2_cnt set_p2addr p2_addr] in H.
  specialize (H (or_intror (or_introl eq_refl)) eq_refl L eq_refl ltac:(lia)).
  change (16 + 2) with 18 in H. destruct (zlen rest <? 18); [exact H|].
  destruct H as (s' & a' & p & q & rest' & A & B & C & D & E1 & E2 & E3 & E4 & E5 & E6 & E7).
  exists s'. split; [exact A|]. unfold p2_accept. rewrite E7. apply andb_false_r.
Qed.

Lemma p2_dom s v c r n rest : p2_fresh s -> 1 <= n <= 255 ->
  if zlen rest <? n + 2 then exists s', p2_loop s (v :: c :: r :: 3 :: n :: rest) = Ok (s', P2More)
  else exists s' p q rest', p2_loop s (v :: c :: r :: 3 :: n :: rest) = Ok (s', P2Done) /\
    rest = ztake n rest ++ p :: q :: rest' /\
    p2_addr s' = ztake n rest ++ zrepeat 0 (255 - n) /\ s_state s' = 0 /\ p2_port0 s' = p /\ p2_port1 s' = q /\
    p2_ver s' = v /\ p2_cmd s' = c /\ p2_atyp s' = 3.
Proof.
  intros F Hn. pose proof (fresh_len s F) as L. destruct F as (St & Z0).
  rewrite (p2_loop_head s v c r 3 _ St). change (3 =? S5_IPV4) with false. change (3 =? S5_IPV6) with false.
  change (3 =? S5_DOMAIN) with true. cbv iota.
  cbn [p2_loop]. unfold p2_byte at 1 2. cbn [s_state set_state].
  change (TYP_DOMAINN =? VER) with false. change (TYP_DOMAINN =? CMD) with false. change (TYP_DOMAINN =? RSV) with false.
  change (TYP_DOMAINN =? TYP) with false. change (TYP_DOMAINN =? TYP_V4) with false. change (TYP_DOMAINN =? TYP_V6) with false.
  change (TYP_DOMAINN =? TYP_DOMAINN) with true. cbv iota. cbn [bind fst snd].
  match goal with |- context [p2_loop ?x rest] => set (s1 := x) end.
  pose proof (p2_loop_addr_port s1 n rest) as H. subst s1.
  cbn [s_state set_state p2_cnt set_p2addr p2_addr p2_n] in H.
  specialize (H (or_intror (or_intror eq_refl)) eq_refl L eq_refl Hn).
  destruct (zlen rest <? n + 2) eqn:E; [exact H|].
  destruct H as (s' & a' & p & q & rest' & A & B & C & D & E1 & E2 & E3 & E4 & E5 & E6 & E7).
  exists s', p, q, rest'. split; [exact A|]. split; [exact B|].
  assert (Lt : zlen (ztake n rest) = n) by (rewrite zlen_ztake by lia; lia).
  rewrite Z0 in C. rewrite zput_zeros in C by (unfold DST_SIZE; lia). rewrite Lt in C.
  change (DST_SIZE - n) with (255 - n) in C. injection C as <-.
  split; [exact D|]. split; [exact E1|]. split; [exact E2|]. split; [exact E3|].
  cbn [p2_ver p2_cmd p2_atyp set_state set_p2addr set_p2hdr] in *. auto.
Qed.

Lemma p2_unknown s v c r t rest : p2_fresh s -> t <> 1 -> t <> 3 -> t <> 4 ->
  exists s', p2_loop s (v :: c :: r :: t :: rest) = Ok (s', P2Reject).
Proof.
  intros (St & _) N1 N3 N4. rewrite (p2_loop_head s v c r t rest St). unfold S5_IPV4, S5_IPV6, S5_DOMAIN.
  destruct (Z.eqb_spec t 1); [lia|]. destruct (Z.eqb_spec t 4); [lia|]. destruct (Z.eqb_spec t 3); [lia|]. eauto.
Qed.

Lemma p2_short s l : p2_fresh s -> zlen l <= 3 -> exists s', p2_loop s l = Ok (s', P2More).
Proof.
  intros (St & _) L.
  destruct l as [|a [|b [|c [|d l]]]]; try (eexists; reflexivity).
  - cbn [p2_loop]. unfold p2_byte at 1. rewrite St. eexists; reflexivity.
  - cbn [p2_loop]. unfold p2_byte at 1. rewrite St. eexists; reflexivity.
  - cbn [p2_loop]. unfold p2_byte at 1. rewrite St. eexists; reflexivity.
  - rewrite !zlen_cons in L. pose proof (zlen_nonneg l). lia.
Qed.

Lemma p2_dom0 s v c r : p2_fresh s -> exists s', p2_loop s [v; c; r; 3] = Ok (s', P2More).
Proof. intros (St & _). rewrite (p2_loop_head s v c r 3 [] St). eexists; reflexivity. Qed.

(** only a domain of length zero can fault; while unfinished the input is short *)
Definition no_empty_domain (l : list Z) : Prop :=
  forall v c r n rest, l = v :: c :: r :: 3 :: n :: rest -> n <> 0.

Lemma p2_total s l : p2_fresh s -> bytes l -> no_empty_domain l ->
  exists s' d, p2_loop s l = Ok (s', d) /\ (d = P2More -> zlen l < 300) /\
    (d = P2Done -> p2_accept s' = true ->
       exists r t rest, l = 5 :: 1 :: r :: t :: rest /\ (t = 1 \/ t = 3) /\ p2_atyp s' = t).
Proof.
  intros F B N.
  destruct (Z_le_gt_dec (zlen l) 3) as [Sh|Sh].
  { destruct (p2_short s l F Sh) as (s' & E). exists s', P2More. split; [exact E|]. split; [lia|discriminate]. }
  destruct l as [|v [|c [|r [|t rest]]]]; try (rewrite ?zlen_cons, ?zlen_nil in Sh; lia).
  destruct (Z.eq_dec t 1) as [->|N1].
  { pose proof (p2_v4 s v c r rest F) as H. destruct (Z.ltb_spec (zlen rest) 6).
    - destruct H as (s' & E). exists s', P2More. split; [exact E|]. split; [|discriminate].
      intros _. rewrite !zlen_cons. lia.
    - destruct H as (s' & p & q & rest' & E & _ & _ & _ & _ & _ & Ev & Ec & Et).
      exists s', P2Done. split; [exact E|]. split; [discriminate|]. intros _ A.
      unfold p2_accept in A. rewrite Ev, Ec in A. exists r, 1, rest.
      assert (v = 5 /\ c = 1) as [-> ->] by lia. auto. }
  destruct (Z.eq_dec t 4) as [->|N4].
  { pose proof (p2_v6 s v c r rest F) as H. destruct (Z.ltb_spec (zlen rest) 18).
    - destruct H as (s' & E). exists s', P2More. split; [exact E|]. split; [|discriminate].
      intros _. rewrite !zlen_cons. lia.
    - destruct H as (s' & E & A). exists s', P2Done. split; [exact E|]. split; [discriminate|].
      intros _ A'. congruence. }
  destruct (Z.eq_dec t 3) as [->|N3].
  { destruct rest as [|n rest].
    - destruct (p2_dom0 s v c r F) as (s' & E). exists s', P2More. split; [exact E|].
      split; [intros _; reflexivity|discriminate].
    - assert (n <> 0) by eauto.
      assert (is_byte n).
      { do 4 (apply Forall_inv_tail in B). exact (Forall_inv B). }
      unfold is_byte in *.
      pose proof (p2_dom s v c r n rest F ltac:(lia)) as H1. destruct (Z.ltb_spec (zlen rest) (n + 2)).
      + destruct H1 as (s' & E). exists s', P2More. split; [exact E|]. split; [|discriminate].
        intros _. rewrite !zlen_cons. lia.
      + destruct H1 as (s' & p & q & rest' & E & _ & _ & _ & _ & _ & Ev & Ec & Et).
        exists s', P2Done. split; [exact E|]. split; [discriminate|]. intros _ A.
        unfold p2_accept in A. rewrite Ev, Ec in A. exists r, 3, (n :: rest).
        assert (v = 5 /\ c = 1) as [-> ->] by lia. auto. }
  destruct (p2_unknown s v c r t rest F N1 N3 N4) as (s' & E). exists s', P2Reject.
  split; [exact E|]. split; discriminate.
Qed.

Lemma p2_at_end h : p2_start h -> at_end (h_meta h) (meta_cap (h_meta h)) (zlen (@nil Z)).
Proof. intros (Ph & F & P0 & L0 & Cap & _). repeat split; auto. Qed.

(** ** C30 *)
(** a request in any segmentation: while bytes are missing the server waits; at the
    last byte it goes on to dial with the address type, address and port sent *)
Theorem C30_request_any_split :
  forall h rsv rs, p2_start h -> Forall rx_live rs ->
    (forall ip port, zlen ip = 4 -> zlen port = 2 ->
       (forall rest, rest <> [] -> request_v4 5 1 rsv ip port = rx_data rs ++ rest ->
          exists h', hs_run h (map InRecv rs) = Ok h' /\ h_ph h' = PhP2 /\ ctx h' = ctx h) /\
       (rx_data rs = request_v4 5 1 rsv ip port ->
          exists h', hs_run h (map InRecv rs) = Ok h' /\ h_ph h' = PhAddr /\ ctx h' = ctx h /\
            at_end (h_meta h') (meta_cap (h_meta h)) 0 /\
            p2_atyp (h_s5 h') = 1 /\ ztake 4 (p2_addr (h_s5 h')) = ip /\ s5_port (h_s5 h') = port)) /\
    (forall name port, 1 <= zlen name <= 255 -> zlen port = 2 ->
       (forall rest, rest <> [] -> request_dom 5 1 rsv name port = rx_data rs ++ rest ->
          exists h', hs_run h (map InRecv rs) = Ok h' /\ h_ph h' = PhP2 /\ ctx h' = ctx h) /\
       (rx_data rs = request_dom 5 1 rsv name port ->
          exists h', hs_run h (map InRecv rs) = Ok h' /\ h_ph h' = PhAddr /\ ctx h' = ctx h /\
            at_end (h_meta h') (meta_cap (h_meta h)) 0 /\
            p2_atyp (h_s5 h') = 3 /\ p2_addr (h_s5 h') = name ++ zrepeat 0 (255 - zlen name) /\
            s5_port (h_s5 h') = port)).
Proof.
  intros h rsv rs ST LV. pose proof (p2_at_end h ST) as AE.
  destruct ST as (Ph & F & P0 & L0 & Cap & As & Di).
  assert (WAIT : forall req, 4 <= zlen req < 600 -> (forall rest, rest <> [] -> req = rx_data rs ++ rest ->
            exists s', p2_loop (h_s5 h) (rx_data rs) = Ok (s', P2More)) ->
          forall rest, rest <> [] -> req = rx_data rs ++ rest ->
          exists h', hs_run h (map InRecv rs) = Ok h' /\ h_ph h' = PhP2 /\ ctx h' = ctx h).
  { intros req Lr K rest NE E. destruct (K rest NE E) as (s' & P).
    destruct (p2_run rs h (h_s5 h) [] (meta_cap (h_meta h)) s' P2More) as (h' & R & _ & C & Q & _); auto.
    - cbn [app]. rewrite E, zlen_app in Lr. pose proof (zlen_nonneg rest). lia.
    - eauto. }
  split.
  - intros ip port Li Lp. split.
    + apply WAIT.
      { unfold request_v4. rewrite !zlen_app, Li, Lp. change (zlen [5; 1; rsv; 1]) with 4. lia. }
      intros rest NE E.
      destruct (Z_le_gt_dec (zlen (rx_data rs)) 3) as [Sh|Sh]; [apply p2_short; assumption|].
      destruct (rx_data rs) as [|v [|c [|r [|t d]]]]; try (rewrite ?zlen_cons, ?zlen_nil in Sh; lia).
      unfold request_v4 in E. cbn [app] in E. injection E as <- <- <- <- E.
      pose proof (p2_v4 (h_s5 h) 5 1 rsv d F) as H.
      assert (LL : zlen d + zlen rest = 6) by (rewrite <- zlen_app, <- E, zlen_app; lia).
      destruct rest; [congruence|]. rewrite zlen_cons in LL. pose proof (zlen_nonneg rest).
      destruct (Z.ltb_spec (zlen d) 6); [exact H|lia].
    + intros E. pose proof (p2_v4 (h_s5 h) 5 1 rsv (ip ++ port) F) as H.
      assert (L6 : zlen (ip ++ port) = 6) by (rewrite zlen_app; lia).
      destruct (Z.ltb_spec (zlen (ip ++ port)) 6); [lia|].
      destruct H as (s' & p & q & rest' & A & B & C & D1 & D2 & D3 & D4 & D5 & D6).
      rewrite ztake_app_l in B, C by lia. rewrite ztake_all in B, C by lia.
      apply app_inv_head in B.
      assert (rest' = []) as ->.
      { rewrite B in Lp. rewrite !zlen_cons in Lp. apply zlen_0_nil. lia. }
      destruct (p2_run rs h (h_s5 h) [] (meta_cap (h_meta h)) s' P2Done) as (h' & R & S1 & Cx & Q & AE'); auto.
      { cbn [app]. rewrite E. unfold request_v4. rewrite !zlen_app, Li, Lp. change (zlen [5; 1; rsv; 1]) with 4. lia. }
      { cbn [app]. rewrite E. exact A. }
      exists h'. split; [exact R|]. rewrite S1.
      assert (ACC : p2_accept s' = true) by (unfold p2_accept; rewrite D4, D5, D6; reflexivity).
      rewrite ACC in Q. split; [exact Q|]. split; [exact Cx|]. split; [exact AE'|].
      split; [exact D6|]. split.
      * rewrite C, ztake_app_l by lia. apply ztake_all. lia.
      * unfold s5_port. rewrite D2, D3. symmetry. exact B.
  - intros name port Ln Lp. split.
    + apply WAIT.
      { unfold request_dom. rewrite !zlen_app, Lp. change (zlen [5; 1; rsv; 3; zlen name]) with 5. lia. }
      intros rest NE E.
      destruct (Z_le_gt_dec (zlen (rx_data rs)) 3) as [Sh|Sh]; [apply p2_short; assumption|].
      destruct (rx_data rs) as [|v [|c [|r [|t d]]]]; try (rewrite ?zlen_cons, ?zlen_nil in Sh; lia).
      unfold request_dom in E. cbn [app] in E. injection E as <- <- <- <- E.
      destruct d as [|n d]; [apply p2_dom0; assumption|]. cbn [app] in E. injection E as <- E.
      pose proof (p2_dom (h_s5 h) 5 1 rsv (zlen name) d F Ln) as H.
      assert (LL : zlen d + zlen rest = zlen name + 2) by (rewrite <- zlen_app, <- E, zlen_app; lia).
      destruct rest; [congruence|]. rewrite zlen_cons in LL. pose proof (zlen_nonneg rest).
      destruct (Z.ltb_spec (zlen d) (zlen name + 2)); [exact H|lia].
    + intros E. pose proof (p2_dom (h_s5 h) 5 1 rsv (zlen name) (name ++ port) F Ln) as H.
      assert (L6 : zlen (name ++ port) = zlen name + 2) by (rewrite zlen_app; lia).
      destruct (Z.ltb_spec (zlen (name ++ port)) (zlen name + 2)); [lia|].
      destruct H as (s' & p & q & rest' & A & B & C & D1 & D2 & D3 & D4 & D5 & D6).
      rewrite ztake_app_l in B, C by lia. rewrite ztake_all in B, C by lia.
      apply app_inv_head in B.
      assert (rest' = []) as ->.
      { rewrite B in Lp. rewrite !zlen_cons in Lp. apply zlen_0_nil. lia. }
      destruct (p2_run rs h (h_s5 h) [] (meta_cap (h_meta h)) s' P2Done) as (h' & R & S1 & Cx & Q & AE'); auto.
      { cbn [app]. rewrite E. unfold request_dom. rewrite !zlen_app, Lp. change (zlen [5; 1; rsv; 3; zlen name]) with 5. lia. }
      { cbn [app]. rewrite E. exact A. }
      exists h'. split; [exact R|]. rewrite S1.
      assert (ACC : p2_accept s' = true) by (unfold p2_accept; rewrite D4, D5, D6; reflexivity).
      rewrite ACC in Q. split; [exact Q|]. split; [exact Cx|]. split; [exact AE'|].
      split; [exact D6|]. split; [exact C|].
      unfold s5_port. rewrite D2, D3. symmetry. exact B.
Qed.
Print Assumptions C30_request_any_split.

(** the session of [demo_auth] after the greeting and its reply *)
Definition demo_p2 : res hs :=
  let* h := demo_auth in hs_run h [InRecv (RxData [5; 1; 0]); InSend (TxSent 2)].

Definition p2_startb (h : hs) : bool :=
  match h_ph h with PhP2 => true | _ => false end && (s_state (h_s5 h) =? 0) &&
  bseq (p2_addr (h_s5 h)) (zrepeat 0 255) &&
  (mpos (h_meta h) =? 0) && (mlast (h_meta h) =? 0) && (600 <=? meta_cap (h_meta h)) &&
  match h_asked h with [] => true | _ => false end && match h_dialled h with [] => true | _ => false end.

Lemma p2_startb_spec h : p2_startb h = true -> p2_start h.
Proof.
  unfold p2_startb. rewrite !andb_true_iff. intros (((((((P1 & P2) & P3) & P4) & P5) & P6) & P7) & P8).
  destruct (h_ph h) eqn:Ph; try discriminate P1. destruct (h_asked h) eqn:A; [|discriminate P7].
  destruct (h_dialled h) eqn:D; [|discriminate P8]. apply bseq_spec in P3.
  unfold p2_start, p2_fresh, DST_SIZE. rewrite Ph, A, D. repeat split; auto; lia.
Qed.

Lemma demo_p2_start : exists h, demo_p2 = Ok h /\ p2_start h.
Proof.
  assert (P : match demo_p2 with Ok h => p2_startb h | _ => false end = true) by (vm_compute; reflexivity).
  destruct demo_p2 as [h| |]; try discriminate P. exists h. split; [reflexivity|]. apply p2_startb_spec, P.
Qed.

Example C30_example : exists h, demo_p2 = Ok h /\ p2_start h /\
  rx_data [RxData [5; 1]; RxAgain; RxData [0; 3; 11]; RxData (str "example.com"); RxData [1]; RxData [187]]
    = request_dom 5 1 0 (str "example.com") [1; 187].
Proof. destruct demo_p2_start as (h & A & B). exists h. split; [exact A|]. split; [exact B|reflexivity]. Qed.

(** ** C31 *)
Definition in_bytes (i : inp) : list Z := match i with InRecv r => rx_bytes r | _ => [] end.
Definition in_data (is : list inp) : list Z := List.concat (map in_bytes is).

Definition connect_request (l : list Z) : Prop :=
  exists r t rest, l = 5 :: 1 :: r :: t :: rest /\ (t = 1 \/ t = 3).

Lemma connect_request_app l x : connect_request l -> connect_request (l ++ x).
Proof. intros (r & t & rest & -> & H). exists r, t, (rest ++ x). auto. Qed.

(** after a request: dialling phases *)
Definition dialling (p : phase) : Prop :=
  match p with PhAddr | PhLookup | PhDns | PhConnect | PhConnWait | PhConnChk | PhP2Rsp | PhRelay => True | _ => False end.

Definition inv31 (h : hs) (data : list Z) : Prop :=
  match h_ph h with
  | PhP2 => h_asked h = [] /\ h_dialled h = [] /\
            exists s0, p2_fresh s0 /\ p2_loop s0 data = Ok (h_s5 h, P2More) /\ mpos (h_meta h) = mlast (h_meta h) /\
                       meta_wf (h_meta h)
  | PhClosed => (h_asked h = [] /\ h_dialled h = []) \/ connect_request data
  | p => dialling p /\ connect_request data
  end.

Lemma p2_done_connect s l s' : p2_fresh s -> p2_loop s l = Ok (s', P2Done) -> p2_accept s' = true -> connect_request l.
Proof.
  intros F P A.
  destruct (Z_le_gt_dec (zlen l) 3) as [Sh|Sh].
  { destruct (p2_short s l F Sh) as (s1 & E). congruence. }
  destruct l as [|v [|c [|r [|t rest]]]]; try (rewrite ?zlen_cons, ?zlen_nil in Sh; lia).
  assert (K : forall bs s, p2_ver s = v -> p2_cmd s = c -> p2_atyp s = t -> 4 <= s_state s ->
     forall s' d, p2_loop s bs = Ok (s', d) -> p2_ver s' = v /\ p2_cmd s' = c /\ p2_atyp s' = t).
  { clear. induction bs as [|b bs IH]; intros s Ev Ec Et Hs s' d P; cbn [p2_loop] in P.
    - injection P as <- <-. auto.
    - destruct (p2_byte s b) as [[s1 d1]| |] eqn:B; try discriminate. cbn [bind fst snd] in P.
      assert (X : p2_ver s1 = v /\ p2_cmd s1 = c /\ p2_atyp s1 = t /\ (d1 = P2More -> 4 <= s_state s1)).
      { clear P IH. unfold p2_byte, VER, CMD, RSV, TYP in B.
        destruct (Z.eqb_spec (s_state s) 0); [lia|]. destruct (Z.eqb_spec (s_state s) 1); [lia|].
        destruct (Z.eqb_spec (s_state s) 2); [lia|]. destruct (Z.eqb_spec (s_state s) 3); [lia|].
        assert (AB : forall stop, p2_addr_byte s b stop = Ok (s1, d1) ->
                  p2_ver s1 = v /\ p2_cmd s1 = c /\ p2_atyp s1 = t /\ (d1 = P2More -> 4 <= s_state s1)).
        { intros stop Q. unfold p2_addr_byte in Q. destruct (put1 _ _ _); try discriminate. cbn [bind] in Q.
          destruct (_ =? stop); injection Q as <- <-; cbn; unfold PORT; auto with zarith. }
        destruct (s_state s =? TYP_V4); [eauto|]. destruct (s_state s =? TYP_V6); [eauto|].
        destruct (s_state s =? TYP_DOMAINN).
        { injection B as <- <-. cbn. unfold TYP_DOMAIN. repeat split; auto; lia. }
        destruct (s_state s =? TYP_DOMAIN); [eauto|].
        destruct (s_state s =? PORT). { injection B as <- <-. cbn. unfold ENDS. repeat split; auto; lia. }
        destruct (s_state s =? ENDS). { injection B as <- <-. cbn. repeat split; auto; discriminate. }
        injection B as <- <-. auto. }
      destruct X as (X1 & X2 & X3 & X4). destruct d1.
      + eapply IH; eauto.
      + injection P as <- <-. auto.
      + injection P as <- <-. auto. }
  destruct F as (St & _). rewrite (p2_loop_head s v c r t rest St) in P.
  unfold S5_IPV4, S5_IPV6, S5_DOMAIN in P.
  assert (H : p2_ver s' = v /\ p2_cmd s' = c /\ p2_atyp s' = t /\ (t = 1 \/ t = 3 \/ t = 4)).
  { destruct (Z.eqb_spec t 1).
    { eapply K in P; auto; cbn; unfold TYP_V4; try lia. }
    destruct (Z.eqb_spec t 4).
    { eapply K in P; auto; cbn; unfold TYP_V6; try lia. }
    destruct (Z.eqb_spec t 3).
    { eapply K in P; auto; cbn; unfold TYP_DOMAINN; try lia. }
    discriminate. }
  destruct H as (H1 & H2 & H3 & H4). unfold p2_accept, S5_IPV6 in A. rewrite H1, H2, H3 in A.
  exists r, t, rest. assert (v = 5 /\ c = 1 /\ (t = 1 \/ t = 3)) as (-> & -> & Ht) by lia. auto.
Qed.

Lemma inv31_step h data i h' : inv31 h data -> enabled h i -> hs_step h i = Ok h' -> inv31 h' (data ++ in_bytes i).
Proof.
  unfold inv31. intros I E ST. unfold enabled in E. unfold hs_step in ST.
  destruct (h_ph h) eqn:Ph; try contradiction; cbn [dialling] in I; try (destruct I as ([] & _); fail).
  all: try (destruct i; try contradiction E).
  - (* PhP2 recv *)
    destruct I as (As & Di & s0 & F & P & PL & W). unfold do_recv in ST.
    destruct (meta_getfree (h_meta h) <? 1); [discriminate|].
    destruct r as [bs| |]; cbn [in_bytes rx_bytes] in *.
    + destruct E as (NE & Bb & Lb).
      destruct (meta_store_ok (h_meta h) bs W Lb) as (m & Sm & Wm & Dm & Cm & Pm & Lm).
      rewrite Sm in ST. cbn [bind] in ST. unfold p2_feed in ST.
      assert (Dm' : mdata m = bs).
      { rewrite Dm. unfold mdata. rewrite PL, zslice_empty. reflexivity. }
      rewrite Dm' in ST. destruct (p2_loop (h_s5 h) bs) as [[s1 d]| |] eqn:P1; try discriminate.
      cbn [bind fst snd] in ST.
      assert (PA : p2_loop s0 (data ++ bs) = Ok (s1, d)) by (rewrite p2_loop_app, P; exact P1).
      destruct d; injection ST as <-; cbn [h_ph with_s5 h_asked h_dialled h_s5 h_meta mpos mlast].
      * split; [exact As|]. split; [exact Di|]. exists s0. split; [exact F|]. split; [exact PA|].
        split; [reflexivity|]. unfold meta_wf in *. cbn [mpos mlast]. unfold meta_cap in *. cbn [mbuf]. lia.
      * left. auto.
      * destruct (p2_accept s1) eqn:A.
        -- split; [exact I|]. eapply p2_done_connect; eauto.
        -- left. auto.
    + injection ST as <-. rewrite app_nil_r, Ph. split; [exact As|]. split; [exact Di|]. exists s0. auto.
    + injection ST as <-. left. auto.
  - (* PhP2 timeout *)
    destruct I as (As & Di & _). injection ST as <-. left. auto.
  - destruct I as (_ & C). destruct ok; [destruct (p2_atyp (h_s5 h) =? S5_IPV4)|]; injection ST as <-;
      cbn [h_ph with_ph with_addr close dialling in_bytes]; rewrite app_nil_r; auto.
  - destruct I as (_ & C). destruct (cstr (p2_addr (h_s5 h))); [|discriminate]. cbn [of_opt bind] in ST.
    destruct a; injection ST as <-; cbn [h_ph with_addr with_asked dialling in_bytes]; rewrite app_nil_r; auto.
  - destruct I as (_ & C). destruct a; injection ST as <-; cbn [h_ph with_addr close with_ph dialling in_bytes]; rewrite app_nil_r; auto.
  - destruct I as (_ & C). destruct ok; injection ST as <-; cbn [h_ph close with_ph dialling in_bytes]; rewrite app_nil_r, ?Ph; cbn [dialling]; auto.
  - destruct I as (_ & C). injection ST as <-. cbn [h_ph close with_ph in_bytes]; rewrite app_nil_r; auto.
  - destruct I as (_ & C). destruct r; injection ST as <-; cbn [h_ph with_dial close with_ph dialling in_bytes]; rewrite app_nil_r; auto.
  - destruct I as (_ & C). destruct ok.
    + destruct (meta_store (h_meta h) (p2_reply (h_addr h) (h_port h))); try discriminate. cbn [bind] in ST.
      injection ST as <-. cbn [h_ph with_pm dialling in_bytes]. rewrite app_nil_r. auto.
    + injection ST as <-. cbn [h_ph close with_ph in_bytes]. rewrite app_nil_r. auto.
  - destruct I as (_ & C). destruct ok; injection ST as <-; cbn [h_ph close with_ph dialling in_bytes]; rewrite app_nil_r, ?Ph; cbn [dialling]; auto.
  - destruct I as (_ & C). injection ST as <-. cbn [h_ph close with_ph in_bytes]; rewrite app_nil_r; auto.
  - destruct I as (_ & C). destruct ok.
    + destruct (meta_store (h_meta h) (p2_reply (h_addr h) (h_port h))); try discriminate. cbn [bind] in ST.
      injection ST as <-. cbn [h_ph with_pm dialling in_bytes]. rewrite app_nil_r. auto.
    + injection ST as <-. cbn [h_ph close with_ph in_bytes]. rewrite app_nil_r. auto.
  - destruct I as (_ & C). unfold do_send in ST. destruct r.
    + destruct (0 <? _); injection ST as <-; cbn [h_ph with_sent in_bytes]; rewrite app_nil_r, ?Ph; cbn [dialling]; auto.
    + injection ST as <-. cbn [in_bytes]. rewrite app_nil_r, Ph. cbn [dialling]. auto.
    + injection ST as <-. cbn [h_ph close with_ph in_bytes]. rewrite app_nil_r. auto.
  - destruct I as (_ & C). injection ST as <-. cbn [h_ph close with_ph in_bytes]; rewrite app_nil_r; auto.
Qed.

(** whatever a client sends, in whatever segmentation and with whatever results of
    the other calls, a name is resolved or an address dialled only for CONNECT
    requests of version 5 to an IPv4 address or a domain *)
Theorem C31_only_connect_is_dialled :
  forall h is h', p2_start h -> valid h is -> hs_run h is = Ok h' ->
    h_asked h' <> [] \/ h_dialled h' <> [] ->
    exists rsv atyp rest, in_data is = [5; 1; rsv; atyp] ++ rest /\ (atyp = 1 \/ atyp = 3).
Proof.
  intros h is h' ST V R.
  assert (I : inv31 h []).
  { destruct ST as (Ph & F & P0 & L0 & Cap & As & Di). unfold inv31. rewrite Ph.
    split; [exact As|]. split; [exact Di|]. exists (h_s5 h). split; [exact F|]. split; [reflexivity|].
    unfold meta_wf. lia. }
  assert (G : forall is h data h', inv31 h data -> valid h is -> hs_run h is = Ok h' -> inv31 h' (data ++ in_data is)).
  { clear. induction is as [|i is IH]; intros h data h' I V R.
    - injection R as <-. unfold in_data. cbn. rewrite app_nil_r. exact I.
    - cbn [valid] in V. destruct V as (E & V). cbn [hs_run] in R.
      destruct (hs_step h i) as [h1| |] eqn:ST; try discriminate. cbn [bind] in R.
      change (in_data (i :: is)) with (in_bytes i ++ in_data is). rewrite app_assoc.
      apply (IH h1); auto. eapply inv31_step; eauto. }
  specialize (G is h [] h' I V R). cbn [app] in G. intros Q.
  assert (C : connect_request (in_data is)).
  { unfold inv31 in G. destruct (h_ph h'); try (destruct G as (_ & C); exact C).
    - destruct G as (A & B & _). destruct Q; congruence.
    - destruct G as [(A & B)|C]; [destruct Q; congruence|exact C]. }
  destruct C as (r & t & rest & -> & T). exists r, t, rest. auto.
Qed.
Print Assumptions C31_only_connect_is_dialled.

(** complete requests of any other kind close the session *)
Theorem C31_other_requests_are_closed :
  forall h rs ver cmd rsv port, p2_start h -> Forall rx_live rs -> zlen port = 2 ->
    (forall ip, zlen ip = 4 -> ver <> 5 \/ cmd <> 1 -> rx_data rs = request_v4 ver cmd rsv ip port ->
       exists h', hs_run h (map InRecv rs) = Ok h' /\ h_ph h' = PhClosed /\ h_asked h' = [] /\ h_dialled h' = []) /\
    (forall name, 1 <= zlen name <= 255 -> ver <> 5 \/ cmd <> 1 -> rx_data rs = request_dom ver cmd rsv name port ->
       exists h', hs_run h (map InRecv rs) = Ok h' /\ h_ph h' = PhClosed /\ h_asked h' = [] /\ h_dialled h' = []) /\
    (forall ip, zlen ip = 16 -> rx_data rs = request_v6 ver cmd rsv ip port ->
       exists h', hs_run h (map InRecv rs) = Ok h' /\ h_ph h' = PhClosed /\ h_asked h' = [] /\ h_dialled h' = []) /\
    (forall atyp, atyp <> 1 -> atyp <> 3 -> atyp <> 4 -> rx_data rs = [ver; cmd; rsv; atyp] ->
       exists h', hs_run h (map InRecv rs) = Ok h' /\ h_ph h' = PhClosed /\ h_asked h' = [] /\ h_dialled h' = []).
Proof.
  intros h rs ver cmd rsv port ST LV Lp. pose proof (p2_at_end h ST) as AE.
  destruct ST as (Ph & F & P0 & L0 & Cap & As & Di).
  assert (K : forall s' d, zlen (rx_data rs) < 600 -> p2_loop (h_s5 h) (rx_data rs) = Ok (s', d) ->
     (d = P2Done /\ p2_accept s' = false) \/ d = P2Reject ->
     exists h', hs_run h (map InRecv rs) = Ok h' /\ h_ph h' = PhClosed /\ h_asked h' = [] /\ h_dialled h' = []).
  { intros s' d L P D.
    destruct (p2_run rs h (h_s5 h) [] (meta_cap (h_meta h)) s' d) as (h' & R & S1 & Cx & Q); auto.
    { cbn [app]. lia. }
    exists h'. split; [exact R|]. unfold ctx in Cx.
    split; [|split; congruence].
    destruct D as [(-> & A)| ->]; [destruct Q as (Q & _); rewrite A in Q; exact Q|exact Q]. }
  split; [|split; [|split]].
  - intros ip Li Hv E. pose proof (p2_v4 (h_s5 h) ver cmd rsv (ip ++ port) F) as H.
    assert (L6 : zlen (ip ++ port) = 6) by (rewrite zlen_app; lia).
    destruct (Z.ltb_spec (zlen (ip ++ port)) 6); [lia|].
    destruct H as (s' & p & q & rest' & A & _ & _ & _ & _ & _ & D4 & D5 & D6).
    apply (K s' P2Done).
    + rewrite E. unfold request_v4. rewrite zlen_app, L6. change (zlen [ver; cmd; rsv; 1]) with 4. lia.
    + rewrite E. exact A.
    + left. split; [reflexivity|]. unfold p2_accept. rewrite D4, D5. lia.
  - intros name Ln Hv E. pose proof (p2_dom (h_s5 h) ver cmd rsv (zlen name) (name ++ port) F Ln) as H.
    assert (L6 : zlen (name ++ port) = zlen name + 2) by (rewrite zlen_app; lia).
    destruct (Z.ltb_spec (zlen (name ++ port)) (zlen name + 2)); [lia|].
    destruct H as (s' & p & q & rest' & A & _ & _ & _ & _ & _ & D4 & D5 & D6).
    apply (K s' P2Done).
    + rewrite E. unfold request_dom. rewrite zlen_app, L6. change (zlen [ver; cmd; rsv; 3; zlen name]) with 5. lia.
    + rewrite E. exact A.
    + left. split; [reflexivity|]. unfold p2_accept. rewrite D4, D5. lia.
  - intros ip Li E. pose proof (p2_v6 (h_s5 h) ver cmd rsv (ip ++ port) F) as H.
    assert (L6 : zlen (ip ++ port) = 18) by (rewrite zlen_app; lia).
    destruct (Z.ltb_spec (zlen (ip ++ port)) 18); [lia|].
    destruct H as (s' & A & B). apply (K s' P2Done).
    + rewrite E. unfold request_v6. rewrite zlen_app, L6. change (zlen [ver; cmd; rsv; 4]) with 4. lia.
    + rewrite E. exact A.
    + left. auto.
  - intros atyp N1 N3 N4 E. destruct (p2_unknown (h_s5 h) ver cmd rsv atyp [] F N1 N3 N4) as (s' & A).
    apply (K s' P2Reject); rewrite ?E; auto. change (zlen [ver; cmd; rsv; atyp]) with 4. lia.
Qed.
Print Assumptions C31_other_requests_are_closed.

Example C31_example : exists h, demo_p2 = Ok h /\ p2_start h /\
  rx_data [RxData [5; 2]; RxData ([0; 1] ++ [192; 0; 2; 7] ++ [0; 80])] = request_v4 5 2 0 [192; 0; 2; 7] [0; 80] /\
  valid h [InTimeout] /\ exists h2, hs_run h [InRecv (RxData (request_v4 5 1 0 [192; 0; 2; 7] [0; 80])); InAlloc true; InConnect ConOk] = Ok h2
    /\ h_dialled h2 <> [].
Proof.
  destruct demo_p2_start as (h & A & B). exists h. split; [exact A|]. split; [exact B|]. split; [reflexivity|].
  split. { destruct B as (Ph & _). cbn [valid]. unfold enabled. rewrite Ph. auto. }
  assert (P : match (let* h := demo_p2 in
      hs_run h [InRecv (RxData (request_v4 5 1 0 [192; 0; 2; 7] [0; 80])); InAlloc true; InConnect ConOk]) with
      Ok h2 => match h_dialled h2 with [] => false | _ => true end | _ => false end = true) by (vm_compute; reflexivity).
  rewrite A in P. cbn [bind] in P.
  destruct (hs_run h _) as [h2| |]; try discriminate P. exists h2. split; [reflexivity|].
  intros E. rewrite E in P. discriminate P.
Qed.

(** ** C32 *)
(** a domain of length zero makes the parser write behind the address array *)
Theorem C32_request_bounds_refuted :
  exists h rs, demo_p2 = Ok h /\ valid h (map InRecv rs) /\ hs_run h (map InRecv rs) = Fault FOob.
Proof.
  destruct demo_p2_start as (h & A & B). exists h, [RxData (5 :: 1 :: 0 :: 3 :: 0 :: zrepeat 97 256)].
  split; [exact A|].
  assert (P : match demo_p2 with
              | Ok h => (1000 <=? meta_getfree (h_meta h)) &&
                  match hs_run h (map InRecv [RxData (5 :: 1 :: 0 :: 3 :: 0 :: zrepeat 97 256)]) with Fault FOob => true | _ => false end
              | _ => false end = true) by (vm_compute; reflexivity).
  rewrite A in P. rewrite andb_true_iff in P. destruct P as (P2 & P3).
  split.
  - cbn [map valid]. split; [|intros; exact I].
    unfold enabled. destruct B as (Ph & _). rewrite Ph. cbn [rx_ok].
    split; [discriminate|]. split; [apply bytesb_spec; vm_compute; reflexivity|].
    change (zlen (5 :: 1 :: 0 :: 3 :: 0 :: zrepeat 97 256)) with 261. lia.
  - destruct (hs_run h _) as [|[]|]; try discriminate P3. reflexivity.
Qed.
Print Assumptions C32_request_bounds_refuted.

(** without an empty domain no byte sequence, in no segmentation, faults *)
Theorem C32_request_bounds_partial :
  forall h rs, p2_start h -> valid h (map InRecv rs) ->
    (forall v c r n rest, rx_data rs = [v; c; r; 3; n] ++ rest -> n <> 0) ->
    exists h', hs_run h (map InRecv rs) = Ok h'.
Proof.
  intros h rs ST. pose proof (p2_at_end h ST) as AE. destruct ST as (Ph & F & P0 & L0 & Cap & As & Di).
  assert (G : forall rs h acc s0 cap, p2_fresh s0 -> 600 <= cap -> h_ph h = PhP2 -> bytes acc ->
     p2_loop s0 acc = Ok (h_s5 h, P2More) -> at_end (h_meta h) cap (zlen acc) ->
     valid h (map InRecv rs) -> no_empty_domain (acc ++ rx_data rs) ->
     exists h', hs_run h (map InRecv rs) = Ok h').
  { clear. induction rs as [|r rs IH]; intros h acc s0 cap F C Ph B P AE V N; [exists h; reflexivity|].
    cbn [map valid] in V. destruct V as (En & V). unfold enabled in En. rewrite Ph in En.
    cbn [map hs_run].
    assert (SH : zlen acc < 300).
    { destruct (p2_total s0 acc F B) as (s1 & d & E & L & _).
      - intros v c r' n rest E. eapply (N v c r' n (rest ++ rx_data (r :: rs))). rewrite E. reflexivity.
      - rewrite P in E. injection E as <- <-. auto. }
    destruct (p2_again h cap (zlen acc) Ph AE) as (Ea & Ee); [lia|].
    destruct r as [bs| |].
    - destruct En as (NE & Bb & Lb).
      change (rx_data (RxData bs :: rs)) with (bs ++ rx_data rs) in *. rewrite app_assoc in N.
      destruct (p2_total s0 (acc ++ bs) F) as (s1 & d & T & _ & _).
      { apply bytes_app; auto. }
      { intros v c r n rest E. eapply (N v c r n (rest ++ rx_data rs)). rewrite E. reflexivity. }
      assert (T' := T). rewrite p2_loop_app, P in T'.
      destruct (p2_recv h cap (zlen acc) bs s1 d) as (h1 & ST & E1 & E2 & E3); auto; try lia.
      { pose proof (zlen_nonneg acc). lia. }
      { destruct AE as (A1 & A2 & A3). unfold meta_getfree in Lb. lia. }
      rewrite ST. cbn [bind]. destruct d.
      + destruct E3 as (E3 & E4). apply (IH h1 (acc ++ bs) s0 cap); auto.
        * apply bytes_app; auto.
        * rewrite T, E1. reflexivity.
        * rewrite zlen_app. exact E4.
      + exists h1. apply (run_ignored PhClosed); auto.
      + destruct E3 as (E3 & _). exists h1. apply (run_ignored (if p2_accept s1 then PhAddr else PhClosed)); auto.
        destruct (p2_accept s1); auto.
    - rewrite Ea in *. apply (IH h acc s0 cap); auto.
    - rewrite Ee in *. exists (close h). apply (run_ignored PhClosed); auto. }
  intros V N. apply (G rs h [] (h_s5 h) (meta_cap (h_meta h))); auto.
  - constructor.
Qed.
Print Assumptions C32_request_bounds_partial.

Example C32_example : exists h, demo_p2 = Ok h /\ p2_start h /\
  (forall v c r n rest, rx_data [RxData [5; 1; 0; 3]; RxData [2; 97; 98; 1; 2; 66; 66]] = [v; c; r; 3; n] ++ rest -> n <> 0).
Proof.
  destruct demo_p2_start as (h & A & B). exists h. split; [exact A|]. split; [exact B|].
  intros v c r n rest [= _ _ _ <- _]. discriminate.
Qed.

(** ** C33 *)
Lemma parse_octet b rest : 0 <= b < 256 -> (forall d r, rest = d :: r -> d = 46) ->
  parse_part (dec_octet b ++ rest) = Some (b, rest).
Proof.
  intros Hb Hr.
  assert (K : forall base acc, parse_num base acc true rest = Some (acc, rest)).
  { intros base acc. destruct rest as [|d r]; [reflexivity|]. rewrite (Hr d r eq_refl). reflexivity. }
  assert (D : forall base acc d s, (48 <=? d) && (d <? 48 + base) = true -> forall seen,
    parse_num base acc seen (d :: s) = parse_num base (acc * base + (d - 48)) true s).
  { intros base acc d s H seen. cbn [parse_num]. rewrite H. reflexivity. }
  pose proof (Z.div_mod b 10 ltac:(lia)). pose proof (Z.mod_pos_bound b 10 ltac:(lia)).
  unfold dec_octet.
  destruct (Z.leb_spec 100 b).
  - destruct (Z.leb_spec 10 b); [|lia].
    pose proof (Z.div_mod (b / 10) 10 ltac:(lia)). pose proof (Z.mod_pos_bound (b / 10) 10 ltac:(lia)).
    assert (E : b / 100 = b / 10 / 10) by (rewrite Z.div_div by lia; reflexivity).
    assert (1 <= b / 100 <= 2) by (split; [apply Z.div_le_lower_bound; lia|apply Z.lt_succ_r, Z.div_lt_upper_bound; lia]).
    cbn [app]. unfold parse_part.
    assert (N : 48 + b / 100 <> 48) by lia.
    transitivity (parse_num 10 0 false ((48 + b / 100) :: (48 + (b / 10) mod 10) :: (48 + b mod 10) :: rest)).
    { destruct (48 + b / 100) as [|p|p] eqn:EQ; try reflexivity.
      do 6 (destruct p as [p|p|]; try reflexivity; try lia). }
    rewrite D by lia. rewrite D by lia. rewrite D by lia. rewrite K. do 2 f_equal. lia.
  - cbn [app]. destruct (Z.leb_spec 10 b).
    + cbn [app].
      assert (1 <= b / 10 <= 9) by (split; [apply Z.div_le_lower_bound; lia|apply Z.lt_succ_r, Z.div_lt_upper_bound; lia]).
      rewrite (Z.mod_small (b / 10)) by lia.
      transitivity (parse_num 10 0 false ((48 + b / 10) :: (48 + b mod 10) :: rest)).
      { unfold parse_part. destruct (48 + b / 10) as [|p|p] eqn:EQ; try reflexivity.
        do 6 (destruct p as [p|p|]; try reflexivity; try lia). }
      rewrite D by lia. rewrite D by lia. rewrite K. do 2 f_equal. lia.
    + cbn [app]. rewrite Z.mod_small by lia.
      destruct (Z.eq_dec b 0) as [->|N0].
      * cbn [Z.add]. unfold parse_part. apply K.
      * transitivity (parse_num 10 0 false ((48 + b) :: rest)).
        { unfold parse_part. destruct (48 + b) as [|p|p] eqn:EQ; try reflexivity.
          do 6 (destruct p as [p|p|]; try reflexivity; try lia). }
        rewrite D by lia. rewrite K. do 2 f_equal. lia.
Qed.

Lemma inet_addr_fmt ip : ip4 ip -> inet_addr (fmt_ip ip) = ip.
Proof.
  intros (L & B). destruct ip as [|a [|b [|c [|d [|e l]]]]]; try discriminate L.
  2:{ exfalso. rewrite !zlen_cons in L. pose proof (zlen_nonneg l). lia. }
  pose proof (Forall_inv B) as Ba. apply Forall_inv_tail in B. pose proof (Forall_inv B) as Bb.
  apply Forall_inv_tail in B. pose proof (Forall_inv B) as Bc. apply Forall_inv_tail in B. pose proof (Forall_inv B) as Bd.
  unfold is_byte in *. unfold inet_addr, fmt_ip. cbn [app parse_parts].
  rewrite parse_octet by (auto; intros d0 r0 [= <- _]; reflexivity).
  destruct (Z.ltb_spec a 256); [|lia]. cbn [app parse_parts].
  rewrite parse_octet by (auto; intros d0 r0 [= <- _]; reflexivity).
  destruct (Z.ltb_spec b 256); [|lia]. cbn [app parse_parts].
  rewrite parse_octet by (auto; intros d0 r0 [= <- _]; reflexivity).
  destruct (Z.ltb_spec c 256); [|lia]. cbn [app parse_parts].
  rewrite <- (app_nil_r (dec_octet d)).
  rewrite parse_octet by (auto; intros d0 r0 [=]).
  destruct (Z.ltb_spec d 256); [|lia]. reflexivity.
Qed.

Lemma cstr_zeros name n : no_nul name -> 0 < n -> cstr (name ++ zrepeat 0 n) = Some name.
Proof.
  intros N Hn. induction N as [|b l Hb N IH]; cbn [app].
  - unfold zrepeat. replace (Z.to_nat n) with (S (Z.to_nat (n - 1))) by lia. reflexivity.
  - cbn [cstr]. destruct (Z.eqb_spec b 0); [contradiction|]. rewrite IH. reflexivity.
Qed.

(** IPv4: exactly the address and port of the request are dialled *)
Theorem C33_ipv4_dialled_as_requested :
  forall h rs rsv ip port r, p2_start h -> Forall rx_live rs -> ip4 ip -> zlen port = 2 ->
    rx_data rs = request_v4 5 1 rsv ip port ->
    exists h', hs_run h (map InRecv rs ++ [InAlloc true; InConnect r]) = Ok h' /\
      h_dialled h' = [(ip, port)] /\ h_asked h' = [].
Proof.
  intros h rs rsv ip port r ST LV I4 Lp E.
  destruct (C30_request_any_split h rsv rs ST LV) as (H & _).
  destruct (H ip port (proj1 I4) Lp) as (_ & H2). destruct (H2 E) as (h1 & R & Ph & Cx & AE & Ty & Ad & Po).
  destruct ST as (_ & _ & _ & _ & _ & As & Di). unfold ctx in Cx.
  assert (A1 : h_asked h1 = []) by congruence. assert (D1 : h_dialled h1 = []) by congruence.
  rewrite hs_run_app, R. cbn [bind hs_run]. unfold hs_step at 1. rewrite Ph, Ty.
  change (1 =? S5_IPV4) with true. cbv iota. cbn [bind]. unfold hs_step. cbn [h_ph with_addr].
  rewrite Ad, Po, inet_addr_fmt by exact I4.
  destruct r; cbn [bind]; eexists; (split; [reflexivity|]);
    cbn [h_dialled h_asked h_addr h_port with_dial with_addr close with_ph]; rewrite A1, D1; auto.
Qed.
Print Assumptions C33_ipv4_dialled_as_requested.

(** domains: false for names with a NUL byte (another name is resolved) and for
    names of 255 bytes (the port is read as part of the name) *)
Theorem C33_domain_resolved_as_requested_refuted :
  (exists h name port h', demo_p2 = Ok h /\ 1 <= zlen name <= 255 /\ bytes name /\
     hs_run h [InRecv (RxData (request_dom 5 1 0 name port)); InAlloc true; InLookup None] = Ok h' /\
     h_asked h' <> [name]) /\
  (exists h name port, demo_p2 = Ok h /\ 1 <= zlen name <= 255 /\ bytes name /\ no_nul name /\
     hs_run h [InRecv (RxData (request_dom 5 1 0 name port)); InAlloc true; InLookup None] = Fault FOob).
Proof.
  split.
  - destruct demo_p2_start as (h & A & _).
    assert (P : match (let* h := demo_p2 in hs_run h [InRecv (RxData (request_dom 5 1 0 [97; 0; 98] [0; 80])); InAlloc true; InLookup None]) with
      | Ok h' => match h_asked h' with [n] => negb (bseq n [97; 0; 98]) | _ => false end | _ => false end = true) by (vm_compute; reflexivity).
    rewrite A in P. cbn [bind] in P. destruct (hs_run h _) as [h'| |] eqn:R; try discriminate P.
    exists h, [97; 0; 98], [0; 80], h'. split; [exact A|]. split; [split; discriminate|].
    split; [apply bytesb_spec; reflexivity|]. split; [exact R|].
    intros E. rewrite E in P. discriminate P.
  - destruct demo_p2_start as (h & A & _). exists h, (zrepeat 97 255), [31; 144]. split; [exact A|].
    split; [vm_compute; split; discriminate|]. split; [apply bytesb_spec; vm_compute; reflexivity|].
    split.
    { unfold no_nul. apply Forall_forall. intros x Hx. apply repeat_spec in Hx. lia. }
    assert (P : match (let* h := demo_p2 in hs_run h [InRecv (RxData (request_dom 5 1 0 (zrepeat 97 255) [31; 144])); InAlloc true; InLookup None]) with
      | Fault FOob => true | _ => false end = true) by (vm_compute; reflexivity).
    rewrite A in P. cbn [bind] in P. destruct (hs_run h _) as [|[]|]; try discriminate P. reflexivity.
Qed.
Print Assumptions C33_domain_resolved_as_requested_refuted.

(** domains of 1..254 bytes without NUL: exactly this name is looked up, and the
    address found in the cache or by the resolver is dialled with the port sent *)
Theorem C33_domain_resolved_as_requested_partial :
  forall h rs rsv name port ip r, p2_start h -> Forall rx_live rs -> 1 <= zlen name <= 254 -> no_nul name ->
    ip4 ip -> zlen port = 2 -> rx_data rs = request_dom 5 1 rsv name port ->
    (exists h', hs_run h (map InRecv rs ++ [InAlloc true; InLookup (Some ip); InConnect r]) = Ok h' /\
      h_asked h' = [name] /\ h_dialled h' = [(ip, port)]) /\
    (exists h', hs_run h (map InRecv rs ++ [InAlloc true; InLookup None; InDns (Some ip); InConnect r]) = Ok h' /\
      h_asked h' = [name] /\ h_dialled h' = [(ip, port)]).
Proof.
  intros h rs rsv name port ip r ST LV Ln NN I4 Lp E.
  destruct (C30_request_any_split h rsv rs ST LV) as (_ & H).
  destruct (H name port ltac:(lia) Lp) as (_ & H2). destruct (H2 E) as (h1 & R & Ph & Cx & AE & Ty & Ad & Po).
  destruct ST as (_ & _ & _ & _ & _ & As & Di). unfold ctx in Cx.
  assert (A1 : h_asked h1 = []) by congruence. assert (D1 : h_dialled h1 = []) by congruence.
  assert (CS : cstr (p2_addr (h_s5 h1)) = Some name) by (rewrite Ad; apply cstr_zeros; [exact NN|lia]).
  assert (S1 : hs_step h1 (InAlloc true) = Ok (with_ph h1 PhLookup)).
  { unfold hs_step. rewrite Ph, Ty. reflexivity. }
  assert (S2 : forall a, hs_step (with_ph h1 PhLookup) (InLookup a) =
     Ok match a with
        | Some ip => with_addr (with_asked (with_ph h1 PhLookup) PhConnect name) PhConnect (inet_addr (fmt_ip ip)) port
        | None => with_asked (with_ph h1 PhLookup) PhDns name end).
  { intros a. unfold hs_step. cbn [h_ph with_ph h_s5]. rewrite CS. cbn [of_opt bind]. rewrite Po. destruct a; reflexivity. }
  rewrite !hs_run_app, R. cbn [bind hs_run]. rewrite S1. cbn [bind hs_run]. rewrite !S2. cbn [bind hs_run].
  split.
  - unfold hs_step. cbn [h_ph with_addr]. rewrite inet_addr_fmt by exact I4.
    destruct r; cbn [bind]; eexists; (split; [reflexivity|]);
      cbn [h_dialled h_asked h_addr h_port with_dial with_addr close with_ph with_asked h_s5]; rewrite A1, D1; auto.
  - unfold hs_step. cbn [h_ph with_asked bind with_addr h_s5 with_ph]. rewrite inet_addr_fmt by exact I4. rewrite Po.
    destruct r; cbn [bind]; eexists; (split; [reflexivity|]);
      cbn [h_dialled h_asked h_addr h_port with_dial with_addr close with_ph with_asked h_s5]; rewrite A1, D1; auto.
Qed.
Print Assumptions C33_domain_resolved_as_requested_partial.

Example C33_example : ip4 [192; 0; 2; 7] /\ no_nul (str "example.com") /\ 1 <= zlen (str "example.com") <= 254 /\
  inet_addr (fmt_ip [255; 255; 255; 255]) = [255; 255; 255; 255] /\ inet_addr (fmt_ip [8; 0; 100; 10]) = [8; 0; 100; 10].
Proof.
  split; [split; [reflexivity|apply bytesb_spec; reflexivity]|].
  split; [repeat (apply Forall_cons; [vm_compute; discriminate|]); apply Forall_nil|].
  split; [split; vm_compute; discriminate|]. split; vm_compute; reflexivity.
Qed.

(** ** C34 *)
Lemma p2_reply_value a b c d p q : ip4 [a; b; c; d] -> bytes [p; q] ->
  p2_reply [a; b; c; d] [p; q] = [5; 0; 0; 1; b; a; 0; 0; q; p].
Proof.
  intros (_ & B) Bp.
  pose proof (Forall_inv B) as Ba. apply Forall_inv_tail in B. pose proof (Forall_inv B) as Bb.
  apply Forall_inv_tail in B. pose proof (Forall_inv B) as Bc. apply Forall_inv_tail in B. pose proof (Forall_inv B) as Bd.
  pose proof (Forall_inv Bp) as B1. apply Forall_inv_tail in Bp. pose proof (Forall_inv Bp) as B2.
  unfold is_byte in *.
  unfold p2_reply, of_le, bswap16, le32, le16. cbn [fold_right].
  assert (D : forall x y, 0 <= x < 256 -> (x + 256 * y) mod 256 = x).
  { intros. rewrite Z.mul_comm, Z.mod_add by lia. apply Z.mod_small; lia. }
  assert (Q : forall x y, 0 <= x < 256 -> (x + 256 * y) / 256 = y).
  { intros. rewrite Z.mul_comm, Z.div_add by lia. rewrite Z.div_small by lia. lia. }
  replace (a + 256 * (b + 256 * (c + 256 * (d + 256 * 0)))) with ((a + 256 * b) + (c + 256 * d) * 65536) by lia.
  rewrite Z.mod_add by lia. rewrite (Z.mod_small (a + 256 * b)) by lia.
  rewrite !D, !Q by lia. rewrite Z.mul_0_r, Z.add_0_r.
  rewrite (Z.mod_small b), (Z.mod_small q) by lia.
  replace (a * 256 + b) with (b + 256 * a) by lia. replace (p * 256 + q) with (q + 256 * p) by lia.
  rewrite !D, !Q by lia. rewrite (Z.mod_small a), (Z.mod_small p) by lia.
  rewrite (Z.div_small _ 65536) by lia. rewrite (Z.div_small _ 16777216) by lia. reflexivity.
Qed.

(** the reply does not carry the address and port of the connected peer *)
Theorem C34_connect_reply_refuted :
  exists ip port, ip4 ip /\ bytes port /\ zlen port = 2 /\ p2_reply ip port <> success_reply ip port.
Proof.
  exists [192; 0; 2; 7], [0; 80]. split; [split; [reflexivity|apply bytesb_spec; reflexivity]|].
  split; [apply bytesb_spec; reflexivity|]. split; [reflexivity|]. vm_compute. discriminate.
Qed.
Print Assumptions C34_connect_reply_refuted.

(** what holds: after a successful connect the client receives exactly ten bytes, a
    success reply of type IPv4, then the relay starts. The address field is the
    first two octets swapped and then zeros, and the port is byte-swapped. *)
Theorem C34_connect_reply_partial :
  forall h a b c d p q ts, h_ph h = PhConnWait \/ h_ph h = PhConnChk ->
    at_end (h_meta h) (meta_cap (h_meta h)) 0 -> 600 <= meta_cap (h_meta h) ->
    h_addr h = [a; b; c; d] -> h_port h = [p; q] -> bytes [a; b; c; d] -> bytes [p; q] ->
    Forall tx_live ts -> tx_total ts = 10 ->
    exists h', hs_run h (InSockUp true :: map InSend ts) = Ok h' /\ h_ph h' = PhRelay /\
      h_sent h' = h_sent h ++ [5; 0; 0; 1; b; a; 0; 0; q; p].
Proof.
  intros h a b c d p q ts Ph AE Cap Ad Po Ba Bp LV TT.
  cbn [hs_run].
  destruct (at_end_store _ _ _ (p2_reply (h_addr h) (h_port h)) AE) as (m & Sm & Dm & Lm & Cm & Wm).
  { lia. }
  { rewrite Ad, Po, p2_reply_value by (auto; split; auto). change (zlen [5; 0; 0; 1; b; a; 0; 0; q; p]) with 10. lia. }
  assert (ST : hs_step h (InSockUp true) = Ok (with_pm h PhP2Rsp m)).
  { unfold hs_step. destruct Ph as [-> | ->]; rewrite Sm; reflexivity. }
  rewrite ST. cbn [bind].
  assert (Dv : mdata m = [5; 0; 0; 1; b; a; 0; 0; q; p]).
  { rewrite Dm, Ad, Po. apply p2_reply_value; auto. split; auto. }
  destruct (send_run PhP2Rsp PhRelay) with (ts := ts) (h := with_pm h PhP2Rsp m) (cap := meta_cap (h_meta h))
    as (h2 & R2 & C2 & K2 & S2 & F); cbn [h_ph h_meta with_pm h_sent] in *; auto.
  { rewrite Dv. discriminate. }
  { rewrite Dv, TT. reflexivity. }
  exists h2. split; [exact R2|]. rewrite Dv, TT in *.
  change (10 =? zlen [5; 0; 0; 1; b; a; 0; 0; q; p]) with true in F. cbv iota in F. destruct F as (F & _).
  split; [exact F|]. rewrite S2. reflexivity.
Qed.
Print Assumptions C34_connect_reply_partial.

Example C34_example : exists h, (let* h := demo_p2 in
    hs_run h [InRecv (RxData (request_v4 5 1 0 [192; 0; 2; 7] [0; 80])); InAlloc true; InConnect ConAgain]) = Ok h /\
  h_ph h = PhConnWait /\ mpos (h_meta h) = 0 /\ mlast (h_meta h) = 0 /\ 600 <= meta_cap (h_meta h) /\
  h_addr h = [192; 0; 2; 7] /\ h_port h = [0; 80] /\ tx_total [TxSent 3; TxAgain; TxSent 7] = 10.
Proof.
  assert (P : match (let* h := demo_p2 in
    hs_run h [InRecv (RxData (request_v4 5 1 0 [192; 0; 2; 7] [0; 80])); InAlloc true; InConnect ConAgain]) with
    | Ok h => match h_ph h with PhConnWait => true | _ => false end && (mpos (h_meta h) =? 0) && (mlast (h_meta h) =? 0) &&
        (600 <=? meta_cap (h_meta h)) && bseq (h_addr h) [192; 0; 2; 7] && bseq (h_port h) [0; 80]
    | _ => false end = true) by (vm_compute; reflexivity).
  destruct (bind demo_p2 _) as [h| |]; try discriminate P. exists h. split; [reflexivity|].
  rewrite !andb_true_iff, !bseq_spec in P. destruct P as (((((P1 & P2) & P3) & P4) & P5) & P6).
  destruct (h_ph h); try discriminate P1. repeat (split; [first [reflexivity|assumption|lia]|]). reflexivity.
Qed.
