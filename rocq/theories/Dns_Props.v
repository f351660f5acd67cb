(** * Theorems about DNS queries and responses: C40-C46, C79 *)
From Verif Require Import Base Str_Spec Meta_Model Meta_Proofs S5_Model Hash_Model Dns_Model Dns_Spec Dns_Proofs.
From Coq Require Import String.
Local Open Scope Z_scope.
Local Open Scope list_scope.
Local Arguments Z.add : simpl never.
Local Arguments Z.mul : simpl never.
Local Arguments zlen : simpl never.

(** ** C40: host names are encoded as in RFC 1035 *)
Theorem C40_qname_encoding : forall ls, Forall label_ok ls -> ls <> [] ->
  exists w, host2qname (join ls) = Ok w /\ name_wire w ls /\ (forall ls', name_wire w ls' -> ls' = ls).
Proof.
  intros ls F NE. eexists. split; [apply host2qname_enc; assumption|].
  assert (W : name_wire (List.concat (map (fun l => zlen l :: l) ls) ++ [0]) ls).
  { apply name_wire_enc. eapply Forall_impl; [|exact F]. intros l (L & _). exact L. }
  split; [exact W|]. intros ls' W'. symmetry. eapply name_wire_det; eauto.
Qed.
Print Assumptions C40_qname_encoding.

Example C40_demo :
  Forall label_ok [str "www"; str "google"; str "com"] /\
  join [str "www"; str "google"; str "com"] = str "www.google.com" /\
  host2qname (str "www.google.com") = Ok ([3] ++ str "www" ++ [6] ++ str "google" ++ [3] ++ str "com" ++ [0]).
Proof.
  split; [|split; reflexivity].
  repeat constructor; try (vm_compute; discriminate).
Qed.

(** ** C41: queries are built inside their buffers

    A domain is handed over as a C string; the SOCKS5 layer keeps it in an array of
    255 bytes followed in memory by the port. *)
Theorem C41_query_in_bounds_partial : forall domain,
  zlen domain <= 255 -> Forall (fun b => b <> 0) domain ->
  exists m (q : list Z), dns_packet domain = Ok (m, zlen q) /\ mlast m <= meta_cap m /\ zlen (mdata m) = 16 + zlen q.
Proof.
  intros domain L F. pose proof (query_array_short domain L F) as A.
  destruct (host2qname_total domain) as (q & Q & LQ); [lia|].
  destruct (packet_of_qname domain q A Q) as (m & E & D & W); [lia|].
  exists m, q. split; [exact E|]. split; [apply W|]. rewrite D, !zlen_app.
  change (zlen dns_header_bytes) with 12. change (zlen dns_qinfo_bytes) with 4. lia.
Qed.
Print Assumptions C41_query_in_bounds_partial.

Example C41_demo : exists m, dns_packet (zrepeat 97 255) = Ok (m, 257) /\ meta_getlen m = 273.
Proof.
  assert (P : match dns_packet (zrepeat 97 255) with Ok (m, n) => (n =? 257) && (meta_getlen m =? 273) | _ => false end = true)
    by (vm_compute; reflexivity).
  destruct (dns_packet (zrepeat 97 255)) as [[m n]| |]; [|discriminate P|discriminate P].
  apply andb_prop in P as (P1 & P2). exists m. split; [f_equal; f_equal; lia|lia].
Qed.

(** A 255-byte name fills the SOCKS5 array, so the C string continues with the port
    (443 here) up to the next zero byte: the copy in the query is not terminated
    and is read past its end. *)
Theorem C41_query_in_bounds_refuted : exists name port,
  zlen name = 255 /\ Forall (fun b => b <> 0) name /\ bytes (name ++ port) /\ zlen port = 2 /\
  dns_packet (name ++ port) = Fault FOob.
Proof.
  exists (zrepeat 97 255), [1; 187].
  split; [vm_compute; reflexivity|]. split; [apply Forall_forall; intros x H; apply repeat_spec in H; lia|].
  split; [apply bytes_app; split; [apply Forall_forall; intros x H; apply repeat_spec in H; unfold is_byte; lia|]|].
  { repeat constructor; unfold is_byte; lia. }
  split; [reflexivity|]. vm_compute. reflexivity.
Qed.
Print Assumptions C41_query_in_bounds_refuted.

(** ** C42: queries are well-formed *)
Lemma join_no_nul ls : Forall label_ok ls -> Forall (fun b => b <> 0) (join ls).
Proof.
  induction 1 as [|l ls (L & F) FF IH]; [constructor|].
  assert (G : Forall (fun b => b <> 0) l) by (eapply Forall_impl; [|exact F]; intros b (_ & B); exact B).
  destruct ls as [|l2 ls]; [exact G|]. change (join (l :: l2 :: ls)) with (l ++ 46 :: join (l2 :: ls)).
  apply Forall_app. split; [exact G|]. constructor; [lia|exact IH].
Qed.

Theorem C42_query_well_formed : forall ls, Forall label_ok ls -> ls <> [] -> zlen (join ls) <= 253 ->
  exists m qlen w id, dns_packet (join ls) = Ok (m, qlen) /\ name_wire w ls /\ qlen = zlen w /\
    mdata m = header id 256 1 0 0 0 ++ question w 1 1.
Proof.
  intros ls F NE L. pose proof (query_array_short (join ls) ltac:(lia) (join_no_nul ls F)) as A.
  pose proof (host2qname_enc ls F NE) as Q. destruct (host2qname_total (join ls)) as (q & Q' & LQ); [lia|].
  rewrite Q in Q'. injection Q' as <-.
  destruct (packet_of_qname (join ls) _ A Q) as (m & E & D & W); [lia|].
  exists m. eexists. exists (List.concat (map (fun l => zlen l :: l) ls) ++ [0]), 48879.
  split; [exact E|]. split.
  { apply name_wire_enc. eapply Forall_impl; [|exact F]. intros l (K & _). exact K. }
  split; [reflexivity|]. rewrite D. unfold question. rewrite <- !app_assoc. reflexivity.
Qed.
Print Assumptions C42_query_well_formed.

Example C42_demo : Forall label_ok [str "a-1"; str "net"] /\
  match dns_packet (str "a-1.net") with
  | Ok (m, n) => mdata m = header 48879 256 1 0 0 0 ++ question ([3] ++ str "a-1" ++ [3] ++ str "net" ++ [0]) 1 1 /\ n = 9
  | _ => False end.
Proof.
  split; [repeat constructor; try (vm_compute; discriminate)|].
  assert (P : match dns_packet (str "a-1.net") with Ok (m, n) => bseq (mdata m)
     (header 48879 256 1 0 0 0 ++ question ([3] ++ str "a-1" ++ [3] ++ str "net" ++ [0]) 1 1) && (n =? 9) | _ => false end = true)
    by (vm_compute; reflexivity).
  destruct (dns_packet (str "a-1.net")) as [[m n]| |]; [|discriminate P|discriminate P].
  apply andb_prop in P as (P1 & P2). apply bseq_spec in P1. split; [exact P1|lia].
Qed.

(** ** C43: a correct response yields its first address *)
Definition response (id flags an ns ar : Z) (qname : list Z) (records : list Z) : list Z :=
  header id flags 1 an ns ar ++ question qname 1 1 ++ records.

Lemma response_start id flags an ns ar q r : zdrop (12 + zlen q + 4) (response id flags an ns ar q r) = r.
Proof.
  pose proof (zlen_nonneg q).
  unfold response, question. rewrite zdrop_app_r by (change (zlen (header id flags 1 an ns ar)) with 12; lia).
  change (zlen (header id flags 1 an ns ar)) with 12.
  rewrite app_assoc. rewrite zdrop_app_r by (rewrite !zlen_app; change (zlen (be16 1)) with 2; lia).
  rewrite !zlen_app. change (zlen (be16 1)) with 2. replace (12 + zlen q + 4 - 12 - (zlen q + (2 + 2))) with 0 by lia.
  apply zdrop_le0. lia.
Qed.

Lemma response_counts id flags an ns ar q r : u16 an ->
  rd16 (response id flags an ns ar q r) 4 = Ok 1 /\ rd16 (response id flags an ns ar q r) 6 = Ok an.
Proof.
  intros U. split.
  - eapply rd16_be16 with (r := _); [lia|unfold u16; lia|reflexivity].
  - eapply rd16_be16 with (r := _); [lia|exact U|reflexivity].
Qed.

Lemma response_answer id flags an ns ar q rs a rest :
  u16 an -> 1 <= an ->
  Forall (fun r => skippable (rr_owner r) /\ rr_ok r /\ rr_type r <> 1 /\ rr_data r <> []) rs ->
  skippable (rr_owner a) -> rr_ok a -> rr_type a = 1 -> zlen (rr_data a) = 4 ->
  let pkt := response id flags an ns ar q (List.concat (map enc_rr rs) ++ enc_rr a ++ rest) in
  zlen pkt <= 1500 ->
  dns_response (zlen q) [RxData pkt] = Ok (DAnswer (mkAnswer (rr_data a) (rr_ttl a) 4)).
Proof.
  intros UA A1 F O OK T L pkt LP. pose proof (zlen_nonneg q).
  assert (ST : zdrop (12 + zlen q + 4) pkt = List.concat (map enc_rr rs) ++ enc_rr a ++ rest) by apply response_start.
  assert (LL : 12 + zlen q + 4 <= zlen pkt).
  { unfold pkt, response, question. rewrite !zlen_app. change (zlen (header id flags 1 an ns ar)) with 12. change (zlen (be16 1)) with 2.
    pose proof (zlen_nonneg (List.concat (map enc_rr rs))). pose proof (zlen_nonneg (enc_rr a)). pose proof (zlen_nonneg rest). lia. }
  unfold dns_response.
  destruct (collect_one (zlen q) pkt ltac:(lia) LL LP) as (m & E & D & _ & ML & _). rewrite E. cbn [bind]. rewrite D.
  destruct (response_counts id flags an ns ar q (List.concat (map enc_rr rs) ++ enc_rr a ++ rest) UA) as (C1 & C2).
  fold pkt in C1, C2. rewrite C1. cbn [bind]. rewrite C2. cbn [bind].
  change (1 <? 1) with false. cbv iota. destruct (Z.ltb_spec an 1); [lia|].
  unfold dns_analyze. rewrite ST.
  rewrite (an_records rs a _ rest (12 + zlen q + 4) an0 (rest ++ zdrop (mlast m) (mbuf m))); auto; [lia|].
  rewrite zdrop_app_l by lia. rewrite ST, <- !app_assoc. reflexivity.
Qed.

Theorem C43_first_address_partial : forall id flags an ns ar q rs a rest,
  u16 an -> 1 <= an ->
  Forall (fun r => pointer_owner (rr_owner r) /\ rr_ok r /\ rr_type r <> 1 /\ rr_data r <> []) rs ->
  pointer_owner (rr_owner a) -> rr_ok a -> rr_type a = 1 -> zlen (rr_data a) = 4 ->
  let pkt := response id flags an ns ar q (List.concat (map enc_rr rs) ++ enc_rr a ++ rest) in
  zlen pkt <= 1500 ->
  exists ans, dns_response (zlen q) [RxData pkt] = Ok (DAnswer ans) /\
    ans_addr ans = rr_data a /\ ans_ttl ans = rr_ttl a.
Proof.
  intros. eexists. split; [apply response_answer; auto|split; reflexivity].
  - eapply Forall_impl; [|eassumption]. intros r (P & R). split; [left; exact P|exact R].
  - left. assumption.
Qed.
Print Assumptions C43_first_address_partial.

(** a CNAME, then the address, then another one *)
Definition demo_q : list Z := [3] ++ str "www" ++ [3] ++ str "com" ++ [0].
Definition demo_cname := mkRR [192; 12] 5 1 300 [1; 97; 192; 16].
Definition demo_a := mkRR [192; 41] 1 1 60 [93; 184; 216; 34].
Definition demo_pkt := response 48879 33152 3 0 0 demo_q (enc_rr demo_cname ++ enc_rr demo_a ++ enc_rr (mkRR [192; 41] 1 1 60 [1; 2; 3; 4])).
Example C43_demo :
  pointer_owner (rr_owner demo_cname) /\ rr_ok demo_cname /\ pointer_owner (rr_owner demo_a) /\ rr_ok demo_a /\
  dns_response (zlen demo_q) [RxData demo_pkt] = Ok (DAnswer (mkAnswer [93; 184; 216; 34] 60 4)).
Proof.
  split; [exists 0, 12; unfold is_byte; repeat split; lia|].
  split; [repeat split; vm_compute; try discriminate; reflexivity|].
  split; [exists 0, 41; unfold is_byte; repeat split; lia|].
  split; [repeat split; vm_compute; try discriminate; reflexivity|].
  vm_compute. reflexivity.
Qed.

(** The full property allows any record before the address. A record without data
    (type NULL, RFC 1035 3.3.10) makes the analyser lose its place. *)
Theorem C43_first_address_refuted : exists q r a,
  pointer_owner (rr_owner r) /\ rr_ok r /\ rr_type r <> 1 /\ pointer_owner (rr_owner a) /\ rr_ok a /\
  rr_type a = 1 /\ zlen (rr_data a) = 4 /\
  dns_response (zlen q) [RxData (response 48879 33152 2 0 0 q (enc_rr r ++ enc_rr a))] = Ok DFail.
Proof.
  exists demo_q, (mkRR [192; 12] 10 1 300 []), demo_a.
  split; [exists 0, 12; unfold is_byte; repeat split; lia|].
  split; [repeat split; vm_compute; try discriminate; reflexivity|].
  split; [vm_compute; discriminate|].
  split; [exists 0, 41; unfold is_byte; repeat split; lia|].
  split; [repeat split; vm_compute; try discriminate; reflexivity|].
  split; [reflexivity|]. split; [reflexivity|]. vm_compute. reflexivity.
Qed.
Print Assumptions C43_first_address_refuted.

(** ** C44: responses are handled within the packet

    [slack] is the memory behind the packet; with [slack = []] every read outside the
    packet is a fault. *)
Theorem C44_within_packet_refuted : exists pkt qlen,
  12 + qlen + 4 <= zlen pkt <= 1500 /\ bytes pkt /\ dns_analyze pkt [] qlen = Fault FOob.
Proof.
  (* an address record that announces one byte of data, at the end of the packet *)
  exists (response 48879 33152 1 0 0 demo_q (enc_rr (mkRR [192; 12] 1 1 60 [93]))), (zlen demo_q).
  split; [vm_compute; split; discriminate|]. split; [apply bytesb_spec; vm_compute; reflexivity|]. vm_compute. reflexivity.
Qed.
Print Assumptions C44_within_packet_refuted.

(** never more than three bytes past the packet, and never past it when the address
    record that is used has at least four bytes *)
Theorem C44_within_packet_partial : forall pkt qlen, 0 <= qlen -> 12 + qlen + 4 <= zlen pkt ->
  (forall slack, 3 <= zlen slack -> exists r, dns_analyze pkt slack qlen = Ok r) /\
  (forall slack r, dns_analyze pkt slack qlen = Ok r ->
     match r with Some a => 4 <= ans_rdlen a | None => True end -> dns_analyze pkt [] qlen = Ok r).
Proof.
  intros pkt qlen Q L. unfold dns_analyze. split.
  - intros slack S. apply an_loop_safe; [lia| |exact I].
    rewrite zlen_zdrop, zlen_app by lia. lia.
  - intros slack r E R. rewrite app_nil_r. apply an_loop_packet with slack; auto; [lia| |exact I|exact I].
    rewrite zlen_zdrop by lia. lia.
Qed.
Print Assumptions C44_within_packet_partial.

(** a whole response: for every sequence of datagrams the answer is one of the three
    outcomes, without a fault, if they leave three bytes of the buffer unused *)
Fixpoint total_len (rs : list rx) : Z :=
  match rs with [] => 0 | RxData bs :: r => zlen bs + total_len r | _ :: r => total_len r end.

Lemma total_nonneg rs : 0 <= total_len rs.
Proof. induction rs as [|[] rs IH]; simpl; try lia. pose proof (zlen_nonneg bs). lia. Qed.

Lemma collect_total : forall rs m want, meta_wf m -> 0 <= want -> meta_getlen m + total_len rs <= 1497 ->
  mpos m = 0 -> meta_cap m = 1500 ->
  exists x, dns_collect m want rs = Ok x /\
    match x with inl _ => True | inr m' => meta_wf m' /\ want <= meta_getlen m' /\ meta_getlen m' <= 1497 /\ mpos m' = 0 /\ meta_cap m' = 1500 end.
Proof.
  induction rs as [|r rs IH]; intros m want W N T P C; simpl.
  - destruct (Z.leb_spec want (meta_getlen m)); [|eexists; split; [reflexivity|exact I]].
    eexists. split; [reflexivity|]. simpl in T. repeat split; auto; try lia; apply W.
  - pose proof (total_nonneg (r :: rs)). destruct (Z.leb_spec want (meta_getlen m)).
    + eexists. split; [reflexivity|]. repeat split; auto; try lia; apply W.
    + destruct r as [bs| |]; try (eexists; split; [reflexivity|exact I]).
      simpl in T. pose proof (total_nonneg rs). pose proof (zlen_nonneg bs).
      assert (G : meta_getfree m = 1500 - mlast m) by (unfold meta_getfree; rewrite C; reflexivity).
      assert (GL : meta_getlen m = mlast m) by (unfold meta_getlen; lia).
      destruct (Z.ltb_spec (meta_getfree m) 1); [lia|].
      destruct (meta_store_ok m bs W ltac:(lia)) as (m' & E & W' & D & C' & P' & L').
      rewrite E. cbn [bind]. apply IH; auto; try lia. unfold meta_getlen in *. lia.
Qed.

Theorem C44_response_total : forall qlen rs, 0 <= qlen -> total_len rs <= 1497 ->
  exists r, dns_response qlen rs = Ok r.
Proof.
  intros qlen rs Q T. unfold dns_response. destruct (meta_new_wf 1500) as (W0 & C0 & D0); [lia|].
  destruct (collect_total rs (meta_new 1500) (12 + qlen + 4) W0 ltac:(lia)) as (x & E & X); auto.
  rewrite E. cbn [bind]. destruct x as [d|m]; [eauto|].
  destruct X as (W & L1 & L2 & P & C). pose proof (mdata_len m W) as ML.
  destruct (rd16_in (mdata m) 4) as (qd & ->); [lia|lia|]. cbn [bind].
  destruct (rd16_in (mdata m) 6) as (an & ->); [lia|lia|]. cbn [bind].
  destruct (qd <? 1); [eauto|]. destruct (an <? 1); [eauto|].
  destruct (C44_within_packet_partial (mdata m) qlen Q ltac:(lia)) as (K & _).
  destruct (K (zdrop (mlast m) (mbuf m))) as (r & R).
  { destruct W as ((?&?)&?). rewrite zlen_zdrop by lia. unfold meta_cap, meta_getlen in *. lia. }
  rewrite R. cbn [bind]. destruct r; eauto.
Qed.
Print Assumptions C44_response_total.

Example C44_demo : exists r1, total_len [RxData (ztake 20 demo_pkt); RxData (zdrop 20 demo_pkt)] <= 1497 /\
  dns_response (zlen demo_q) [RxData (ztake 20 demo_pkt); RxData (zdrop 20 demo_pkt)] = Ok r1 /\ r1 <> DFail.
Proof.
  eexists. split; [vm_compute; discriminate|]. split; [vm_compute; reflexivity|]. discriminate.
Qed.

(** ** C45: answers are not matched to the question *)
Definition C45_property : Prop := forall qname id pkt a,
  (* [id] and [qname] are those of the pending query *)
  dns_response (zlen qname) [RxData pkt] = Ok (DAnswer a) ->
  ztake 2 pkt = be16 id /\ zslice 12 (12 + zlen qname + 4) pkt = question qname 1 1.

Theorem C45_matches_question_refuted :
  (* an answer with another identifier and for another name is used *)
  exists other pkt a,
    zlen other = zlen demo_q /\ other <> demo_q /\
    ztake 2 pkt <> be16 48879 /\ zslice 12 (12 + zlen demo_q + 4) pkt = question other 1 1 /\
    dns_response (zlen demo_q) [RxData pkt] = Ok (DAnswer a).
Proof.
  exists ([3] ++ str "xyz" ++ [3] ++ str "org" ++ [0]).
  exists (response 1 33152 1 0 0 ([3] ++ str "xyz" ++ [3] ++ str "org" ++ [0]) (enc_rr (mkRR [192; 12] 1 1 60 [6; 6; 6; 6]))).
  eexists. split; [reflexivity|]. split; [vm_compute; discriminate|]. split; [vm_compute; discriminate|].
  split; [vm_compute; reflexivity|]. vm_compute. reflexivity.
Qed.
Print Assumptions C45_matches_question_refuted.

Theorem C45_refuted : ~ C45_property.
Proof.
  intros P. destruct C45_matches_question_refuted as (other & pkt & a & L & N & T & Q & E).
  destruct (P demo_q 48879 pkt a E) as (H & _). contradiction.
Qed.
Print Assumptions C45_refuted.

(** what is checked: the length of the query, one question, one answer *)
Theorem C45_basic_checks_partial : forall qlen pkt a, 0 <= qlen -> zlen pkt <= 1500 ->
  dns_response qlen [RxData pkt] = Ok (DAnswer a) ->
  12 + qlen + 4 <= zlen pkt /\ (exists qd, rd16 pkt 4 = Ok qd /\ 1 <= qd) /\ (exists an, rd16 pkt 6 = Ok an /\ 1 <= an).
Proof.
  intros qlen pkt a Q L E. pose proof (zlen_nonneg pkt).
  destruct (Z_lt_ge_dec (zlen pkt) (12 + qlen + 4)) as [S|S].
  - exfalso. unfold dns_response in E. destruct (meta_new_wf 1500) as (W0 & C0 & D0); [lia|].
    unfold dns_collect in E. change (meta_getlen (meta_new 1500)) with 0 in E.
    destruct (Z.leb_spec (12 + qlen + 4) 0); [lia|].
    assert (F : meta_getfree (meta_new 1500) = 1500) by (unfold meta_getfree; rewrite C0; reflexivity).
    rewrite F in E. change (1500 <? 1) with false in E. cbv iota in E.
    destruct (meta_store_ok (meta_new 1500) pkt W0 ltac:(lia)) as (m' & E1 & W' & D & C' & P' & L').
    rewrite E1 in E. cbn [bind] in E. change (mlast (meta_new 1500)) with 0 in L'. change (mpos (meta_new 1500)) with 0 in P'.
    assert (G : meta_getlen m' = zlen pkt) by (unfold meta_getlen; lia). rewrite G in E.
    destruct (Z.leb_spec (12 + qlen + 4) (zlen pkt)); [lia|]. cbn [bind] in E. discriminate.
  - split; [lia|]. unfold dns_response in E.
    destruct (collect_one qlen pkt Q ltac:(lia) L) as (m & E1 & D & _). rewrite E1 in E. cbn [bind] in E. rewrite D in E.
    apply bind_ok in E as (qd & E2 & E). apply bind_ok in E as (an & E3 & E).
    destruct (Z.ltb_spec qd 1); [discriminate|]. destruct (Z.ltb_spec an 1); [discriminate|].
    split; [exists qd; auto|exists an; auto].
Qed.
Print Assumptions C45_basic_checks_partial.

Example C45_demo : exists a, dns_response (zlen demo_q) [RxData demo_pkt] = Ok (DAnswer a) /\ zlen demo_pkt <= 1500.
Proof. eexists. split; [vm_compute; reflexivity|]. vm_compute. discriminate. Qed.

(** ** C46: uncompressed answers *)
Definition plain_owner (o : list Z) : Prop := exists ls, name_wire o ls.

Theorem C46_uncompressed_refuted : exists q a,
  plain_owner (rr_owner a) /\ rr_ok a /\ rr_type a = 1 /\ zlen (rr_data a) = 4 /\ rr_owner a = q /\
  dns_response (zlen q) [RxData (response 48879 33152 1 0 0 q (enc_rr a))] = Ok DFail.
Proof.
  exists demo_q, (mkRR demo_q 1 1 60 [93; 184; 216; 34]).
  split; [exists [str "www"; str "com"]; apply (nw_label (str "www")); [vm_compute; split; discriminate|];
          apply (nw_label (str "com")); [vm_compute; split; discriminate|constructor]|].
  split; [repeat split; vm_compute; try discriminate; reflexivity|].
  split; [reflexivity|]. split; [reflexivity|]. split; [reflexivity|]. vm_compute. reflexivity.
Qed.
Print Assumptions C46_uncompressed_refuted.

(** names made of bytes below 64 (digits, hyphens) are understood, mixed with compressed ones *)
Theorem C46_uncompressed_partial : forall id flags an ns ar q rs a rest,
  let small o := exists ns, Forall (fun b => 1 <= b < 64) ns /\ o = ns ++ [0] in
  u16 an -> 1 <= an ->
  Forall (fun r => (small (rr_owner r) \/ pointer_owner (rr_owner r)) /\ rr_ok r /\ rr_type r <> 1 /\ rr_data r <> []) rs ->
  small (rr_owner a) -> rr_ok a -> rr_type a = 1 -> zlen (rr_data a) = 4 ->
  let pkt := response id flags an ns ar q (List.concat (map enc_rr rs) ++ enc_rr a ++ rest) in
  zlen pkt <= 1500 ->
  exists ans, dns_response (zlen q) [RxData pkt] = Ok (DAnswer ans) /\ ans_addr ans = rr_data a.
Proof.
  intros id flags an ns ar q rs a rest small U A F O OK T L pkt LP.
  eexists. split; [apply response_answer; auto|reflexivity].
  - eapply Forall_impl; [|exact F]. intros r (P & R). split; [|exact R]. destruct P; [right; left|left]; assumption.
  - right. left. exact O.
Qed.
Print Assumptions C46_uncompressed_partial.

Example C46_demo : exists ls, name_wire ([3; 49; 45; 50; 1; 57; 0]) ls /\
  Forall (fun b => 1 <= b < 64) [3; 49; 45; 50; 1; 57] /\
  dns_response 7 [RxData (response 48879 33152 1 0 0 [3; 49; 45; 50; 1; 57; 0] (enc_rr (mkRR [3; 49; 45; 50; 1; 57; 0] 1 1 60 [9; 9; 9; 9])))]
    = Ok (DAnswer (mkAnswer [9; 9; 9; 9] 60 4)).
Proof.
  exists [str "1-2"; str "9"]. split.
  { apply (nw_label (str "1-2")); [vm_compute; split; discriminate|]. apply (nw_label (str "9")); [vm_compute; split; discriminate|constructor]. }
  split; [repeat constructor; lia|]. vm_compute. reflexivity.
Qed.

(** ** C79: addresses of other sections are taken for the answer

    A response whose answer section holds only a CNAME, with the address of a name
    server in the additional section: that address is delivered. *)
Theorem C79_answer_section_refuted : exists q cname glue,
  rr_type cname = 5 /\ rr_type glue = 1 /\ pointer_owner (rr_owner cname) /\ pointer_owner (rr_owner glue) /\
  rr_ok cname /\ rr_ok glue /\
  dns_response (zlen q) [RxData (response 48879 33152 1 0 1 q (enc_rr cname ++ enc_rr glue))]
    = Ok (DAnswer (mkAnswer (rr_data glue) (rr_ttl glue) 4)).
Proof.
  exists demo_q, demo_cname, (mkRR [192; 50] 1 1 900 [198; 41; 0; 4]).
  split; [reflexivity|]. split; [reflexivity|].
  split; [exists 0, 12; unfold is_byte; repeat split; lia|].
  split; [exists 0, 50; unfold is_byte; repeat split; lia|].
  split; [repeat split; vm_compute; try discriminate; reflexivity|].
  split; [repeat split; vm_compute; try discriminate; reflexivity|].
  vm_compute. reflexivity.
Qed.
Print Assumptions C79_answer_section_refuted.

(** what holds: if the first address record of the packet is among the first [an]
    records (the answer section), it is the one delivered *)
Theorem C79_answer_section_partial : forall id flags an ns ar q rs a more,
  u16 an -> zlen rs < an ->
  Forall (fun r => pointer_owner (rr_owner r) /\ rr_ok r /\ rr_type r <> 1 /\ rr_data r <> []) rs ->
  pointer_owner (rr_owner a) -> rr_ok a -> rr_type a = 1 -> zlen (rr_data a) = 4 ->
  let pkt := response id flags an ns ar q (List.concat (map enc_rr (rs ++ a :: more))) in
  zlen pkt <= 1500 ->
  exists ans r, dns_response (zlen q) [RxData pkt] = Ok (DAnswer ans) /\
    In r (ztake an (rs ++ a :: more)) /\ rr_type r = 1 /\ ans_addr ans = rr_data r.
Proof.
  intros id flags an ns ar q rs a more U A F O OK T L pkt LP. pose proof (zlen_nonneg rs).
  exists (mkAnswer (rr_data a) (rr_ttl a) 4), a.
  split.
  - unfold pkt in *. rewrite map_app, concat_app in *. simpl. apply response_answer; auto; [lia| |left; exact O].
    eapply Forall_impl; [|exact F]. intros r (P & R). split; [left; exact P|exact R].
  - split; [|split; [exact T|reflexivity]].
    rewrite ztake_app_r by lia. rewrite ztake_cons by lia. apply in_or_app. right. left. reflexivity.
Qed.
Print Assumptions C79_answer_section_partial.

Example C79_demo : zlen [demo_cname] < 2 /\
  dns_response (zlen demo_q) [RxData (response 48879 33152 2 0 1 demo_q (List.concat (map enc_rr
     ([demo_cname] ++ demo_a :: [mkRR [192; 50] 1 1 900 [198; 41; 0; 4]]))))] = Ok (DAnswer (mkAnswer [93; 184; 216; 34] 60 4)).
Proof. split; [vm_compute; reflexivity|]. vm_compute. reflexivity. Qed.
