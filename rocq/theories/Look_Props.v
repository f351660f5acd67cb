(** * Who decides what a name stands for: theorems (C124) *)
From Coq Require Import String.
From Verif Require Import Base Str_Spec Meta_Model Meta_Proofs S5_Model Hash_Model Hash_Props Dns_Model Dns_Spec Dns_Proofs
  Dns_Props Dns_Cache_Props Look_Model.
Local Open Scope Z_scope.
Local Open Scope list_scope.
Local Arguments Z.add : simpl never.
Local Arguments Z.mul : simpl never.
Local Arguments zlen : simpl never.

(** ** What is expected *)
(** the same history without the datagrams of others *)
Definition only (srv : Z) (o : lop) : lop :=
  match o with
  | LLook al now name ds => LLook al now name (filter (fun d => fst d =? srv) ds)
  | LChk now => LChk now
  end.
(** every address found comes from the server that was asked *)
Definition C124_property : Prop := forall srv h r c' r2 c2,
  lrun cache0 h = Ok (r, c') -> lrun cache0 (map (only srv) h) = Ok (r2, c2) -> r = r2.

Definition name_ok (name : list Z) : Prop := 1 <= zlen name <= 255 /\ Forall (fun b => b <> 0) name.
(** an answer to any query of [n] bytes of name: one address record *)
Definition forged (n : Z) (addr : list Z) (ttl : Z) : list Z :=
  header 0 0 1 1 0 0 ++ question (zrepeat 0 n) 1 1 ++ enc_rr (mkRR [192; 12] 1 1 ttl addr).

(** ** Proofs *)
Lemma packet_len name : name_ok name -> exists m (q : list Z), dns_packet name = Ok (m, zlen q) /\ 0 <= zlen q <= 257 /\ zlen (mdata m) = 16 + zlen q.
Proof.
  intros ((L1 & L2) & F). pose proof (query_array_short name L2 F) as A.
  destruct (host2qname_total name) as (q & Q & LQ); [lia|].
  destruct (packet_of_qname name q A Q) as (m & E & D & W); [lia|]. exists m, q. pose proof (zlen_nonneg q). split; [exact E|]. split; [lia|].
  rewrite D, !zlen_app. change (zlen dns_header_bytes) with 12. change (zlen dns_qinfo_bytes) with 4. lia.
Qed.
(** the first datagram decides if it has the length of the query *)
Lemma collect_first m0 b want r r' : meta_wf m0 -> zlen b <= meta_getfree m0 -> 1 <= zlen b -> meta_getlen m0 < want ->
  want <= meta_getlen m0 + zlen b ->
  dns_collect m0 want (RxData b :: r) = dns_collect m0 want (RxData b :: r').
Proof.
  intros W L B1 LT G. cbn [dns_collect]. destruct (want <=? meta_getlen m0); [reflexivity|].
  destruct (meta_getfree m0 <? 1); [reflexivity|]. destruct (meta_store_ok m0 b W L) as (m & E & W' & D & C & P & LL).
  rewrite E. cbn [bind]. assert (X : want <=? meta_getlen m = true).
  { apply Z.leb_le. unfold meta_getlen in *. lia. }
  destruct r, r'; cbn [dns_collect]; rewrite X; reflexivity.
Qed.
Lemma response_first qlen b r r' : 0 <= qlen <= 257 -> 16 + qlen <= zlen b <= 1500 ->
  dns_response qlen (RxData b :: r) = dns_response qlen (RxData b :: r').
Proof.
  intros Q L. unfold dns_response. destruct (meta_new_wf 1500) as (W0 & C0 & D0); [lia|].
  rewrite (collect_first (meta_new 1500) b (12 + qlen + 4) r r'); [reflexivity|exact W0| |lia| |].
  - unfold meta_getfree. rewrite C0. change (mlast (meta_new 1500)) with 0. lia.
  - change (meta_getlen (meta_new 1500)) with 0. lia.
  - change (meta_getlen (meta_new 1500)) with 0. lia.
Qed.
Lemma received_cons s b r room : ztake room b <> [] ->
  received room ((s, b) :: r) = RxData (ztake room b) :: received (room - zlen (ztake room b)) r.
Proof. cbn [received]. destruct (ztake room b); [contradiction|reflexivity]. Qed.
Lemma forged_answer qlen s addr ttl r : 0 <= qlen <= 257 -> zlen addr = 4 -> u32 ttl ->
  dns_response qlen (received 1500 ((s, forged qlen addr ttl) :: r)) = Ok (DAnswer (mkAnswer addr ttl 4)).
Proof.
  intros Q A T. assert (LF : zlen (forged qlen addr ttl) = 32 + qlen).
  { unfold forged, header, question, enc_rr. rewrite !zlen_app. cbn [rr_owner rr_type rr_class rr_ttl rr_data].
    rewrite zlen_zrepeat by lia. unfold be32. rewrite !zlen_app, !be16_len, A. change (zlen [192; 12]) with 2. lia. }
  assert (TK : ztake 1500 (forged qlen addr ttl) = forged qlen addr ttl) by (apply ztake_all; lia).
  rewrite received_cons; rewrite TK; [|intros E; rewrite E in LF; change (zlen (@nil Z)) with 0 in LF; lia].
  rewrite (response_first qlen _ _ []); [|lia|lia].
  pose proof (response_answer 0 0 1 0 0 (zrepeat 0 qlen) [] (mkRR [192; 12] 1 1 ttl addr) []) as R.
  cbn [rr_owner rr_type rr_data rr_ttl map List.concat app] in R. rewrite zlen_zrepeat in R by lia.
  unfold forged in *. rewrite app_nil_r in R. apply R; auto; try lia.
  - unfold u16. lia.
  - left. exists 0, 12. unfold is_byte. repeat split; lia.
  - unfold rr_ok. cbn [rr_type rr_class rr_ttl rr_data]. unfold u16. rewrite A. repeat split; try lia; apply T.
  - unfold response. lia.
Qed.

(** what a history does to the table *)
Lemma lstep_csees c f o a c' : csees c f -> lstep c o = Ok (a, c') ->
  exists f', csees c' f' /\
    (forall k, f k = None -> f' k <> None -> exists al now ds, o = LLook al now k ds) /\
    (forall k e, f k = Some e -> (forall t, o = LChk t -> ce_expire e <= t) -> f' k = Some e).
Proof.
  intros S E. destruct o as [al now name ds|t]; cbn [lstep] in E.
  - unfold lookup in E. apply bind_ok in E as (old & EF & E). unfold rec_find in EF. rewrite (proj2 (proj1 S) name) in EF. cbn [bind] in EF.
    injection EF as <-. destruct (f name) as [e|] eqn:F; cbn [option_map] in E.
    { injection E as <- <-. exists f. split; [exact S|]. split; [intros k H1 H2; contradiction|intros k e0 H _; exact H]. }
    apply bind_ok in E as (p & _ & E). apply bind_ok in E as (d & _ & E).
    assert (ID : c' = c -> exists f', csees c' f' /\
      (forall k, f k = None -> f' k <> None -> exists al0 now0 ds0, LLook al now name ds = LLook al0 now0 k ds0) /\
      (forall k e, f k = Some e -> (forall t, LLook al now name ds = LChk t -> ce_expire e <= t) -> f' k = Some e)).
    { intros ->. exists f. split; [exact S|]. split; [intros k H1 H2; contradiction|intros k e0 H _; exact H]. }
    destruct d as [| |ans]; try (apply ID; injection E as _ <-; reflexivity).
    apply bind_ok in E as (c1 & E1 & E). injection E as _ <-.
    pose proof (rec_store_csees _ _ _ _ _ _ _ S E1) as S1. eexists. split; [exact S1|]. cbv beta. split.
    + intros k FK N. rewrite FK in N. destruct (bseq name k) eqn:B; [|contradiction N; reflexivity].
      apply bseq_spec in B as ->. eauto.
    + intros k e FK _. rewrite FK. reflexivity.
  - injection E as _ <-. eexists. split; [apply rec_chk_csees; exact S|]. cbv beta. split.
    + intros k FK N. rewrite FK in N. contradiction N; reflexivity.
    + intros k e FK L. rewrite FK. specialize (L t eq_refl). destruct (Z.ltb_spec t (ce_expire e)); [lia|reflexivity].
Qed.
Lemma lrun_app c l m : forall r c', lrun c (l ++ m) = Ok (r, c') ->
  exists r1 c1 r2, lrun c l = Ok (r1, c1) /\ lrun c1 m = Ok (r2, c') /\ r = r1 ++ r2 /\ length r1 = length l.
Proof.
  revert c. induction l as [|o l IH]; intros c r c' R; cbn [app lrun] in *.
  - exists [], c, r. auto.
  - apply bind_ok in R as ((a, c1) & R1 & R). apply bind_ok in R as ((r2, c2) & R2 & R). injection R as <- <-. cbn [fst snd] in *.
    destruct (IH c1 r2 c2 R2) as (x & y & z & A & B & -> & D). exists (a :: x), y, z. rewrite R1. cbn [bind snd]. rewrite A. cbn.
    split; [reflexivity|]. split; [exact B|]. split; [reflexivity|]. rewrite D. reflexivity.
Qed.
Lemma lrun_absent k : forall l c f r c', csees c f -> f k = None -> Forall (fun o => forall al now ds, o <> LLook al now k ds) l ->
  lrun c l = Ok (r, c') -> exists f', csees c' f' /\ f' k = None.
Proof.
  induction l as [|o l IH]; intros c f r c' S F NL R; cbn [lrun] in R; [injection R as _ <-; eauto|].
  inversion NL as [|? ? N1 N2]; subst. apply bind_ok in R as ((a, c1) & R1 & R). apply bind_ok in R as ((r2, c2) & R2 & R). injection R as _ <-.
  destruct (lstep_csees c f o a c1 S R1) as (f1 & S1 & A1 & _). apply (IH c1 f1 r2 c2 S1); auto.
  destruct (f1 k) eqn:F1; [|reflexivity]. exfalso. destruct (A1 k F) as (al & now & ds & E); [congruence|]. apply (N1 _ _ _ E).
Qed.
Lemma lrun_stays k e : forall l c f r c', csees c f -> f k = Some e ->
  Forall (fun o => forall t, o = LChk t -> ce_expire e <= t) l -> lrun c l = Ok (r, c') ->
  forall i al now ds, zget l i = Some (LLook al now k ds) -> zget r i = Some (Some (ce_addr e)).
Proof.
  induction l as [|o l IH]; intros c f r c' S F NL R i al now ds G; cbn [lrun] in R.
  - apply zget_some_range in G. change (zlen (@nil lop)) with 0 in G. lia.
  - inversion NL as [|? ? N1 N2]; subst. apply bind_ok in R as ((a, c1) & R1 & R). apply bind_ok in R as ((r2, c2) & R2 & R). injection R as <- <-.
    cbn [fst snd] in *. destruct (Z.eq_dec i 0) as [->|NI].
    + rewrite zget_0 in G. injection G as ->. rewrite zget_0. cbn [lstep] in R1. unfold lookup, rec_find in R1.
      rewrite (proj2 (proj1 S) k), F in R1. cbn in R1. injection R1 as <- _. reflexivity.
    + pose proof (zget_some_range _ _ _ G) as RG. rewrite zget_cons in G by lia. rewrite zget_cons by lia. destruct (lstep_csees c f o a c1 S R1) as (f1 & S1 & _ & K1).
      apply (IH c1 f1 r2 c2 S1 (K1 k e F N1) N2 R2 _ _ _ _ G).
Qed.

(** ** C124 *)
(** one datagram from anybody makes a name stand for any address [addr] he likes, and if its
    life ends before the next pass over the cache, for ever: whatever is looked up or
    answered later, by whomever, and however often the cache is cleaned *)
Theorem C124_refuted : forall name anybody addr ttl now al0 h0 h r c',
  name_ok name -> zlen addr = 4 -> 1 <= ttl <= 10800 ->
  a_obj al0 = true -> a_key al0 = true -> a_val al0 = true ->
  (* the name was not looked up before *)
  Forall (fun o => forall al t ds, o <> LLook al t name ds) h0 ->
  (* the passes come later than the end of life *)
  Forall (fun o => forall t, o = LChk t -> now + 1000 * ttl <= t) h ->
  exists pkt, forall ds,
  lrun cache0 (h0 ++ LLook al0 now name ((anybody, pkt) :: ds) :: h) = Ok (r, c') ->
  zget r (zlen h0) = Some (Some addr) /\
  forall i al t ds', zget h i = Some (LLook al t name ds') -> zget r (zlen h0 + 1 + i) = Some (Some addr).
Proof.
  intros name anybody addr ttl now al0 h0 h r c' NO LA T A1 A2 A3 H0 H1.
  destruct (packet_len name NO) as (m & q & P & LQ & LM). exists (forged (zlen q) addr ttl). intros ds R.
  destruct (lrun_app _ _ _ _ _ R) as (r1 & c1 & r2 & R1 & R2 & -> & LE). cbn [lrun] in R2.
  apply bind_ok in R2 as ((a, c2) & E & R2). apply bind_ok in R2 as ((r3, c3) & R3 & R2). injection R2 as <- <-. cbn [fst snd] in *.
  destruct (lrun_absent name h0 cache0 (fun _ => None) r1 c1 cache0_csees eq_refl H0 R1) as (f1 & S1 & F1).
  cbn [lstep] in E. unfold lookup, rec_find in E. rewrite (proj2 (proj1 S1) name), F1 in E. cbn [bind option_map] in E.
  rewrite P in E. cbn [bind snd] in E. rewrite forged_answer in E; [|lia|exact LA|unfold u32; lia]. cbn [bind] in E.
  apply bind_ok in E as (c4 & E4 & E). injection E as <- <-. cbn [ans_addr].
  pose proof (rec_store_csees _ _ _ _ _ _ _ S1 E4) as S4.
  assert (ZL : zlen r1 = zlen h0) by (unfold zlen; rewrite LE; reflexivity).
  split.
  - rewrite <- ZL. rewrite zget_app_r by lia. rewrite Z.sub_diag. apply zget_0.
  - intros i al t ds' G. pose proof (zget_some_range _ _ _ G) as RG. rewrite <- ZL. rewrite zget_app_r by lia.
    rewrite zget_cons by lia. replace (zlen r1 + 1 + i - zlen r1 - 1) with i by lia.
    refine (lrun_stays name (mkC (expiry now (mkAnswer addr ttl 4)) addr) h c4 _ r3 c3 S4 _ _ R3 i al t ds' G).
    + cbv beta. rewrite F1, bseq_refl. unfold usable. cbn [ans_ttl ans_rdlen]. rewrite A1, A2, A3.
      destruct (Z.ltb_spec 0 ttl); [|lia]. reflexivity.
    + eapply Forall_impl; [|exact H1]. intros o L u ->. cbn [ce_expire]. specialize (L u eq_refl).
      unfold expiry. cbn [ans_ttl]. unfold to_int32. rewrite Z.mod_small by lia. destruct (1000 * ttl <? 2147483648); lia.
Qed.
Print Assumptions C124_refuted.

(** an empty datagram from anybody ends a lookup whose answer is on its way *)
Theorem C124_empty_refuted : forall name anybody al now ds, name_ok name ->
  lookup al now cache0 name ((anybody, []) :: ds) = Ok (None, cache0).
Proof.
  intros name anybody al now ds NO. destruct (packet_len name NO) as (m & q & P & LQ & LM).
  unfold lookup, rec_find. rewrite (proj2 (proj1 cache0_csees) name). cbn [bind option_map]. rewrite P. cbn [bind snd].
  change (received 1500 ((anybody, []) :: ds)) with [RxErr].
  unfold dns_response. cbn [dns_collect]. change (meta_getlen (meta_new 1500)) with 0. destruct (Z.leb_spec (12 + zlen q + 4) 0); [lia|]. reflexivity.
Qed.
Print Assumptions C124_empty_refuted.

(** proved: if the first datagram that arrives is the server's and at least as long as the
    query, the others do not matter *)
Theorem C124_first_partial : forall name m n srv b al now c ds,
  name_ok name -> dns_packet name = Ok (m, n) -> zlen (mdata m) <= zlen b ->
  lookup al now c name ((srv, b) :: ds) = lookup al now c name (filter (fun d => fst d =? srv) ((srv, b) :: ds)).
Proof.
  intros name m n srv b al now c ds NO PK L. cbn [filter fst]. rewrite Z.eqb_refl.
  destruct (packet_len name NO) as (m' & q & P & LQ & LM). rewrite PK in P. injection P as -> ->. rename PK into P.
  unfold lookup. destruct (rec_find c name) as [[a|]| |]; try reflexivity. cbn [bind]. rewrite P. cbn [bind snd].
  assert (LT : zlen (ztake 1500 b) = Z.min 1500 (zlen b)) by (apply zlen_ztake; lia).
  rewrite !received_cons by (intros E; rewrite E in LT; change (zlen (@nil Z)) with 0 in LT; lia).
  rewrite (response_first (zlen q) (ztake 1500 b) _ (received (1500 - zlen (ztake 1500 b)) (filter (fun d => fst d =? srv) ds))); [reflexivity|lia|lia].
Qed.
Print Assumptions C124_first_partial.

(** ** Examples *)
Definition nm : list Z := str "a.com".
Example ex_name : name_ok nm.
Proof. split; [vm_compute; split; discriminate|]. repeat constructor; discriminate. Qed.
(** a stranger (2) is faster than the server (1); a minute, an hour and two passes later the
    stranger's address is still the answer *)
Example ex_C124 : exists c,
  lrun cache0 [LLook ok3 0 nm [(2, forged 7 [6; 6; 6; 6] 1); (1, forged 7 [9; 9; 9; 9] 60)]; LChk 30000; LLook ok3 60000 nm [(1, forged 7 [9; 9; 9; 9] 60)];
               LChk 90000; LLook ok3 3600000 nm [(1, forged 7 [9; 9; 9; 9] 60)]] =
    Ok ([Some [6; 6; 6; 6]; None; Some [6; 6; 6; 6]; None; Some [6; 6; 6; 6]], c).
Proof. eexists. vm_compute. reflexivity. Qed.
(** the server first *)
Example ex_C124_first : exists m, dns_packet nm = Ok (m, 7) /\ zlen (mdata m) <= zlen (forged 7 [9; 9; 9; 9] 60) /\ exists c, lookup ok3 0 cache0 nm [(1, forged 7 [9; 9; 9; 9] 60); (2, forged 7 [6; 6; 6; 6] 1)] = Ok (Some [9; 9; 9; 9], c).
Proof. eexists. split; [vm_compute; reflexivity|]. split; [vm_compute; discriminate|]. eexists. vm_compute. reflexivity. Qed.
Theorem C124_property_refuted : ~ C124_property.
Proof.
  intros P. specialize (P 1 [LLook ok3 0 nm [(2, forged 7 [6; 6; 6; 6] 1)]]).
  assert (E1 : exists c, lrun cache0 [LLook ok3 0 nm [(2, forged 7 [6; 6; 6; 6] 1)]] = Ok ([Some [6; 6; 6; 6]], c)) by (eexists; vm_compute; reflexivity).
  assert (E2 : exists c, lrun cache0 (map (only 1) [LLook ok3 0 nm [(2, forged 7 [6; 6; 6; 6] 1)]]) = Ok ([None], c)) by (eexists; vm_compute; reflexivity).
  destruct E1 as (c1 & E1). destruct E2 as (c2 & E2). specialize (P _ _ _ _ E1 E2). discriminate P.
Qed.
Print Assumptions C124_property_refuted.
