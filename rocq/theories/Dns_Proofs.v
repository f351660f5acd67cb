(** * Lemmas about the DNS client *)
From Verif Require Import Base Meta_Model Meta_Proofs S5_Model Hash_Model Dns_Model Dns_Spec.
Local Arguments Z.add : simpl never.
Local Arguments Z.mul : simpl never.
Local Arguments zlen : simpl never.

(** ** Names *)
Lemma qname_label : forall l rest stack out,
  Forall (fun b => b <> 46 /\ b <> 0) l -> zlen stack + zlen l <= 256 ->
  qname_loop (l ++ rest) stack out = qname_loop rest (stack ++ l) out.
Proof.
  induction l as [|b l IH]; intros rest stack out F L; simpl.
  - rewrite app_nil_r. reflexivity.
  - rewrite zlen_cons in L. pose proof (zlen_nonneg l).
    destruct (Forall_inv F) as (N & _). destruct (Z.eqb_spec b 46); [contradiction|].
    destruct (Z.leb_spec 256 (zlen stack)); [lia|].
    rewrite IH; [rewrite <- app_assoc; reflexivity|apply (Forall_inv_tail F)|].
    rewrite zlen_app. change (zlen [b]) with 1. lia.
Qed.

Lemma enc_labels_loop : forall ls out, Forall label_ok ls -> ls <> [] ->
  exists last ls', ls = ls' ++ [last] /\
    qname_loop (join ls) [] out = Ok (last, out ++ concat (map (fun l => zlen l :: l) ls')).
Proof.
  induction ls as [|l ls IH]; intros out F NE; [congruence|].
  destruct (Forall_inv F) as (L & NL). destruct ls as [|l2 ls].
  - exists l, []. split; [reflexivity|]. simpl. rewrite <- (app_nil_r l) at 1.
    rewrite qname_label by (auto; change (zlen (@nil Z)) with 0; lia). simpl. rewrite app_nil_r. reflexivity.
  - change (join (l :: l2 :: ls)) with (l ++ 46 :: join (l2 :: ls)).
    rewrite qname_label by (auto; change (zlen (@nil Z)) with 0; lia).
    change (qname_loop (46 :: join (l2 :: ls)) ([] ++ l) out)
      with (qname_loop (join (l2 :: ls)) [] (out ++ zlen l mod 256 :: l)).
    destruct (IH (out ++ zlen l mod 256 :: l) (Forall_inv_tail F) ltac:(discriminate)) as (last & ls' & E & Q).
    exists last, (l :: ls'). split; [rewrite E; reflexivity|].
    rewrite Q. simpl. rewrite Z.mod_small by lia. rewrite <- app_assoc. reflexivity.
Qed.

Lemma name_wire_enc ls : Forall (fun l => 1 <= zlen l <= 63) ls ->
  name_wire (concat (map (fun l => zlen l :: l) ls) ++ [0]) ls.
Proof.
  induction 1 as [|l ls L F IH]; simpl; [constructor|].
  rewrite <- app_assoc. constructor; assumption.
Qed.

Lemma host2qname_enc ls : Forall label_ok ls -> ls <> [] ->
  host2qname (join ls) = Ok (concat (map (fun l => zlen l :: l) ls) ++ [0]).
Proof.
  intros F NE. destruct (enc_labels_loop ls [] F NE) as (last & ls' & E & Q).
  unfold host2qname. rewrite Q. simpl. subst ls.
  apply Forall_app in F as (_ & F). destruct (Forall_inv F) as (L & _).
  destruct (Z.ltb_spec 0 (zlen last)); [|lia]. rewrite Z.mod_small by lia.
  rewrite map_app, concat_app. simpl. rewrite app_nil_r. reflexivity.
Qed.

(** ** The query is always built inside its buffers *)
Lemma qname_loop_total : forall host stack out,
  zlen stack + zlen host <= 256 ->
  exists s o, qname_loop host stack out = Ok (s, o) /\ zlen s + zlen o = zlen stack + zlen out + zlen host.
Proof.
  induction host as [|b host IH]; intros stack out L; simpl.
  - exists stack, out. split; [reflexivity|]. change (zlen (@nil Z)) with 0. lia.
  - rewrite zlen_cons in *. pose proof (zlen_nonneg host). pose proof (zlen_nonneg stack).
    destruct (b =? 46).
    + destruct (IH [] (out ++ zlen stack mod 256 :: stack)) as (s & o & E & Q); [change (zlen (@nil Z)) with 0; lia|].
      exists s, o. split; [exact E|]. rewrite Q, zlen_app, zlen_cons. change (zlen (@nil Z)) with 0. lia.
    + destruct (Z.leb_spec 256 (zlen stack)); [lia|].
      destruct (IH (stack ++ [b]) out) as (s & o & E & Q); [rewrite zlen_app; change (zlen [b]) with 1; lia|].
      exists s, o. split; [exact E|]. rewrite Q, zlen_app. change (zlen [b]) with 1. lia.
Qed.

Lemma cstrlen_zeros n l : 0 < n -> Forall (fun b => b <> 0) l -> cstrlen (l ++ zrepeat 0 n) = Some (zlen l).
Proof.
  intros N F. induction F as [|b l B F IH]; simpl.
  - unfold zrepeat. replace (Z.to_nat n) with (S (Z.to_nat (n - 1))) by lia. reflexivity.
  - destruct (Z.eqb_spec b 0); [contradiction|]. rewrite IH. simpl. rewrite zlen_cons. f_equal. lia.
Qed.

Lemma query_array_short domain : zlen domain <= 255 -> Forall (fun b => b <> 0) domain ->
  cstring (dns_query_array domain) = Ok domain.
Proof.
  intros L F. unfold dns_query_array, cstring. pose proof (zlen_nonneg domain).
  replace (Z.min 256 (zlen domain)) with (zlen domain) by lia. rewrite ztake_all by lia.
  rewrite cstrlen_zeros by (auto; lia). simpl. rewrite ztake_app_l by lia. rewrite ztake_all by lia. reflexivity.
Qed.

Lemma packet_of_qname domain q : cstring (dns_query_array domain) = Ok domain -> host2qname domain = Ok q -> zlen q <= 1400 ->
  exists m, dns_packet domain = Ok (m, zlen q) /\ mdata m = dns_header_bytes ++ q ++ dns_qinfo_bytes /\ meta_wf m.
Proof.
  intros A Q L. unfold dns_packet. rewrite A. cbn [bind].
  destruct (meta_new_wf 1500) as (W0 & C0 & D0); [lia|].
  destruct (meta_store_ok (meta_new 1500) dns_header_bytes W0) as (m1 & E1 & W1 & D1 & C1 & P1 & L1).
  { unfold meta_getfree. rewrite C0. vm_compute. discriminate. }
  rewrite E1. cbn [bind]. rewrite Q. cbn [bind].
  change (zlen dns_header_bytes) with 12 in L1. change (mlast (meta_new 1500)) with 0 in L1.
  destruct (meta_store_ok m1 q W1) as (m2 & E2 & W2 & D2 & C2 & P2 & L2).
  { unfold meta_getfree. rewrite C1, C0, L1. lia. }
  rewrite E2. cbn [bind].
  destruct (meta_store_ok m2 dns_qinfo_bytes W2) as (m3 & E3 & W3 & D3 & C3 & P3 & L3).
  { unfold meta_getfree. rewrite C2, C1, C0, L2, L1. change (zlen dns_qinfo_bytes) with 4. lia. }
  rewrite E3. simpl. exists m3. split; [reflexivity|]. split; [|exact W3].
  rewrite D3, D2, D1, D0. rewrite <- app_assoc. reflexivity.
Qed.

Lemma host2qname_total host : zlen host <= 256 -> exists q, host2qname host = Ok q /\ zlen q <= zlen host + 2.
Proof.
  intros L. destruct (qname_loop_total host [] []) as (s & o & E & Q); [change (zlen (@nil Z)) with 0; lia|].
  change (zlen (@nil Z)) with 0 in Q. unfold host2qname. rewrite E. simpl. eexists. split; [reflexivity|].
  pose proof (zlen_nonneg s). pose proof (zlen_nonneg o).
  destruct (0 <? zlen s); rewrite ?zlen_app, ?zlen_cons; change (zlen [0]) with 1; change (zlen (@nil Z)) with 0; lia.
Qed.

(** ** Reading fields *)
Lemma rd16_get mem i a b : zget mem i = Some a -> zget mem (i + 1) = Some b -> rd16 mem i = Ok (256 * a + b).
Proof. intros A B. unfold rd16. rewrite A. simpl. rewrite B. reflexivity. Qed.

Lemma rd16_in mem i : 0 <= i -> i + 2 <= zlen mem -> exists v, rd16 mem i = Ok v.
Proof.
  intros. destruct (zget_in_range mem i) as (a & A); [lia|]. destruct (zget_in_range mem (i + 1)) as (b & B); [lia|].
  rewrite (rd16_get _ _ _ _ A B). eauto.
Qed.
Lemma rd32_in mem i : 0 <= i -> i + 4 <= zlen mem -> exists v, rd32 mem i = Ok v.
Proof.
  intros. unfold rd32. destruct (rd16_in mem i) as (a & ->); [lia|lia|]. simpl.
  destruct (rd16_in mem (i + 2)) as (b & ->); [lia|lia|]. simpl. eauto.
Qed.
Lemma rd4_in mem i : 0 <= i -> i + 4 <= zlen mem -> rd4 mem i = Ok (zslice i (i + 4) mem).
Proof.
  intros. unfold rd4. destruct (Z.leb_spec 0 i); [|lia]. destruct (Z.leb_spec (i + 4) (zlen mem)); [|lia]. reflexivity.
Qed.

Lemma rd16_be16 mem p x r : 0 <= p -> u16 x -> zdrop p mem = be16 x ++ r -> rd16 mem p = Ok x.
Proof.
  intros P U E.
  assert (A : forall i, 0 <= i -> zget mem (p + i) = zget (be16 x ++ r) i).
  { intros. rewrite <- E. symmetry. apply zget_zdrop; lia. }
  pose proof (A 0 ltac:(lia)) as A0. pose proof (A 1 ltac:(lia)) as A1. rewrite Z.add_0_r in A0.
  rewrite (rd16_get mem p (x / 256) (x mod 256)); auto.
  f_equal. unfold u16 in U. pose proof (Z.div_mod x 256 ltac:(lia)). lia.
Qed.
Lemma rd32_be32 mem p x r : 0 <= p -> u32 x -> zdrop p mem = be32 x ++ r -> rd32 mem p = Ok x.
Proof.
  intros P U E. unfold be32 in E. rewrite <- app_assoc in E. unfold rd32. unfold u32 in U.
  assert (D1 : 0 <= x / 65536 < 65536).
  { split; [apply Z.div_pos; lia|apply Z.div_lt_upper_bound; lia]. }
  rewrite (rd16_be16 mem p (x / 65536) _ P D1 E). cbn [bind].
  assert (D2 : 0 <= x mod 65536 < 65536) by (apply Z.mod_pos_bound; lia).
  rewrite (rd16_be16 mem (p + 2) (x mod 65536) r ltac:(lia) D2).
  - cbn [bind]. f_equal. pose proof (Z.div_mod x 65536 ltac:(lia)). lia.
  - replace (p + 2) with (2 + p) by lia. rewrite <- zdrop_zdrop by lia. rewrite E. reflexivity.
Qed.

(** ** Walking over one record *)
Lemma an_common : forall bs mem rest p s dl,
  an_st s = ACommon -> an_len s = 10 -> an_cur s + zlen bs = 10 -> bs <> [] ->
  rd16 mem (an_rdata s + 8) = Ok dl ->
  an_loop mem (bs ++ rest) p s = an_loop mem rest (p + zlen bs) (mkAn AAddrStart 0 dl (an_rdata s) (an_addr s)).
Proof.
  induction bs as [|b bs IH]; intros mem rest p s dl ST LN C NE RD; [congruence|].
  rewrite zlen_cons in *. simpl. unfold an_step. rewrite ST, LN.
  destruct (Z.leb_spec 10 (an_cur s + 1)).
  - assert (bs = []) as -> by (apply zlen_0_nil; pose proof (zlen_nonneg bs); lia).
    rewrite RD. simpl. reflexivity.
  - simpl. destruct bs as [|b2 bs]; [change (zlen (@nil Z)) with 0 in C; lia|].
    rewrite (IH mem rest (p + 1) (mkAn ACommon (an_cur s + 1) 10 (an_rdata s) (an_addr s)) dl); cbn [an_st an_len an_cur an_rdata an_addr]; auto.
    + f_equal. lia.
    + lia.
    + discriminate.
Qed.

Lemma an_common_start bs mem rest p s dl :
  an_st s = ACommonStart -> an_len s = 10 -> an_cur s = 0 -> zlen bs = 10 ->
  rd16 mem (p + 8) = Ok dl ->
  an_loop mem (bs ++ rest) p s = an_loop mem rest (p + 10) (mkAn AAddrStart 0 dl p (an_addr s)).
Proof.
  intros ST LN C L RD. destruct bs as [|b bs]; [discriminate L|]. rewrite zlen_cons in L.
  simpl. unfold an_step. rewrite ST, LN, C. change (10 <=? 0 + 1) with false. cbn [bind].
  destruct bs as [|b2 bs]; [discriminate L|].
  rewrite (an_common (b2 :: bs) mem rest (p + 1) (mkAn ACommon (0 + 1) 10 p (an_addr s)) dl); cbn [an_st an_len an_cur an_rdata an_addr]; auto.
  all: try discriminate; try lia. f_equal. lia.
Qed.

Lemma an_addr_skip : forall bs mem rest p s ttl typ dl,
  an_st s = AAddr -> an_cur s + zlen bs = an_len s -> bs <> [] ->
  rd32 mem (an_rdata s + 4) = Ok ttl -> rd16 mem (an_rdata s) = Ok typ -> rd16 mem (an_rdata s + 8) = Ok dl -> typ <> 1 ->
  an_loop mem (bs ++ rest) p s = an_loop mem rest (p + zlen bs) (mkAn ADom 0 (an_len s) (an_rdata s) (an_addr s)).
Proof.
  induction bs as [|b bs IH]; intros mem rest p s ttl typ dl ST C NE R1 R2 R3 T; [congruence|].
  rewrite zlen_cons in *. simpl. unfold an_step. rewrite ST.
  destruct (Z.leb_spec (an_len s) (an_cur s + 1)).
  - assert (bs = []) as -> by (apply zlen_0_nil; pose proof (zlen_nonneg bs); lia).
    rewrite R1. simpl. rewrite R2. simpl. rewrite R3. simpl. destruct (Z.eqb_spec typ 1); [contradiction|]. reflexivity.
  - simpl. destruct bs as [|b2 bs]; [change (zlen (@nil Z)) with 0 in C; lia|].
    rewrite (IH mem rest (p + 1) (mkAn AAddr (an_cur s + 1) (an_len s) (an_rdata s) (an_addr s)) ttl typ dl); cbn [an_st an_len an_cur an_rdata an_addr]; auto.
    + f_equal. lia.
    + lia.
    + discriminate.
Qed.

Lemma an_addr_skip_start bs mem rest p s ttl typ dl :
  an_st s = AAddrStart -> an_cur s = 0 -> zlen bs = an_len s -> bs <> [] ->
  rd32 mem (an_rdata s + 4) = Ok ttl -> rd16 mem (an_rdata s) = Ok typ -> rd16 mem (an_rdata s + 8) = Ok dl -> typ <> 1 ->
  an_loop mem (bs ++ rest) p s = an_loop mem rest (p + zlen bs) (mkAn ADom 0 (an_len s) (an_rdata s) p).
Proof.
  intros ST C L NE R1 R2 R3 T. destruct bs as [|b bs]; [congruence|]. rewrite zlen_cons in *.
  simpl. unfold an_step. rewrite ST, C.
  destruct (Z.leb_spec (an_len s) (0 + 1)).
  - assert (bs = []) as -> by (apply zlen_0_nil; pose proof (zlen_nonneg bs); lia).
    rewrite R1. simpl. rewrite R2. simpl. rewrite R3. simpl. destruct (Z.eqb_spec typ 1); [contradiction|]. reflexivity.
  - destruct bs as [|b2 bs]; [change (zlen (@nil Z)) with 0 in L; lia|].
    cbn [bind]. rewrite (an_addr_skip (b2 :: bs) mem rest (p + 1) (mkAn AAddr (0 + 1) (an_len s) (an_rdata s) p) ttl typ dl); cbn [an_st an_len an_cur an_rdata an_addr]; auto.
    all: try discriminate; try lia. f_equal. lia.
Qed.

(** a found A record of four bytes *)
Lemma an_addr_found a mem rest p s ttl :
  an_st s = AAddrStart -> an_cur s = 0 -> an_len s = 4 -> zlen a = 4 ->
  rd32 mem (an_rdata s + 4) = Ok ttl -> rd16 mem (an_rdata s) = Ok 1 -> rd16 mem (an_rdata s + 8) = Ok 4 ->
  rd4 mem p = Ok a ->
  an_loop mem (a ++ rest) p s = Ok (Some (mkAnswer a ttl 4)).
Proof.
  intros ST C LN L R1 R2 R3 R4.
  destruct a as [|a0 [|a1 [|a2 [|a3 [|a4 a]]]]]; try discriminate L.
  - simpl. unfold an_step. rewrite ST, C, LN. simpl. rewrite R1. simpl. rewrite R2. simpl. rewrite R3. simpl.
    rewrite R4. reflexivity.
  - exfalso. rewrite !zlen_cons in L. pose proof (zlen_nonneg a). lia.
Qed.

(** owners the analyser can skip: a pointer, or labels of bytes below 64, closed by the
    end of the name or by a pointer (or whatever starts with 64 or more) *)
Definition skippable (o : list Z) : Prop :=
  pointer_owner o \/ (exists ns, Forall (fun b => 1 <= b < 64) ns /\ o = ns ++ [0]) \/
  exists ns b y, Forall (fun b => 1 <= b < 64) ns /\ 64 <= b < 256 /\ o = ns ++ [b; y].

Lemma land_small b : 0 <= b < 64 -> Z.land b 192 = 0.
Proof.
  intros B. assert (H : forallb (fun n => Z.land (Z.of_nat n) 192 =? 0) (seq 0 64) = true) by (vm_compute; reflexivity).
  rewrite forallb_forall in H. specialize (H (Z.to_nat b)). rewrite Z2Nat.id in H by lia.
  apply Z.eqb_eq. apply H. apply in_seq. lia.
Qed.
Lemma land_big x : 0 <= x < 64 -> Z.land (192 + x) 192 <> 0.
Proof.
  intros B. assert (H : forallb (fun n => negb (Z.land (192 + Z.of_nat n) 192 =? 0)) (seq 0 64) = true) by (vm_compute; reflexivity).
  rewrite forallb_forall in H. specialize (H (Z.to_nat x)). rewrite Z2Nat.id in H by lia.
  assert (K : In (Z.to_nat x) (seq 0 64)) by (apply in_seq; lia). specialize (H K).
  apply Bool.negb_true_iff in H. apply Z.eqb_neq. exact H.
Qed.

Lemma land_letter b : 64 <= b < 256 -> Z.land b 192 <> 0.
Proof.
  intros B. assert (H : forallb (fun n => negb (Z.land (64 + Z.of_nat n) 192 =? 0)) (seq 0 192) = true) by (vm_compute; reflexivity).
  rewrite forallb_forall in H. specialize (H (Z.to_nat (b - 64))). rewrite Z2Nat.id in H by lia.
  assert (K : In (Z.to_nat (b - 64)) (seq 0 192)) by (apply in_seq; lia). specialize (H K).
  apply Bool.negb_true_iff in H. replace (64 + (b - 64)) with b in H by lia. apply Z.eqb_neq. exact H.
Qed.

Lemma an_owner o mem rest p s : an_st s = ADom -> skippable o ->
  an_loop mem (o ++ rest) p s = an_loop mem rest (p + zlen o) (mkAn ACommonStart 0 10 (an_rdata s) (an_addr s)).
Proof.
  intros ST [(x & y & X & Y & ->)|[(ns & F & ->)|(ns & c & y & F & C & ->)]].
  - simpl. unfold an_step. rewrite ST. pose proof (land_big x X) as LB. apply Z.eqb_neq in LB. rewrite LB. simpl.
    change (zlen [192 + x; y]) with 2. f_equal. lia.
  - revert p. induction F as [|b ns B F IH]; intros p; simpl; unfold an_step at 1; rewrite ST.
    + simpl. change (zlen [0]) with 1. reflexivity.
    + rewrite (land_small b) by lia. simpl. destruct (Z.eqb_spec b 0); [lia|]. cbn [bind]. rewrite IH, zlen_cons. f_equal. lia.
  - revert p. induction F as [|b ns B F IH]; intros p; simpl; unfold an_step at 1; rewrite ST.
    + pose proof (land_letter c C) as LB. apply Z.eqb_neq in LB. rewrite LB. simpl.
      change (zlen [c; y]) with 2. f_equal. lia.
    + rewrite (land_small b) by lia. simpl. destruct (Z.eqb_spec b 0); [lia|]. cbn [bind]. rewrite IH, zlen_cons. f_equal. lia.
Qed.

Lemma be16_len x : zlen (be16 x) = 2.
Proof. reflexivity. Qed.
Lemma be32_len x : zlen (be32 x) = 4.
Proof. reflexivity. Qed.

(** the fixed part of a record, read through memory *)
Lemma rr_fields mem p r tl : 0 <= p -> rr_ok r ->
  zdrop p mem = be16 (rr_type r) ++ be16 (rr_class r) ++ be32 (rr_ttl r) ++ be16 (zlen (rr_data r)) ++ tl ->
  rd16 mem p = Ok (rr_type r) /\ rd32 mem (p + 4) = Ok (rr_ttl r) /\ rd16 mem (p + 8) = Ok (zlen (rr_data r)) /\
  zdrop (p + 10) mem = tl.
Proof.
  intros P (T & C & U & L) E.
  assert (E4 : zdrop (p + 4) mem = be32 (rr_ttl r) ++ be16 (zlen (rr_data r)) ++ tl).
  { replace (p + 4) with (4 + p) by lia. rewrite <- zdrop_zdrop by lia. rewrite E. reflexivity. }
  assert (E8 : zdrop (p + 8) mem = be16 (zlen (rr_data r)) ++ tl).
  { replace (p + 8) with (4 + (p + 4)) by lia. rewrite <- zdrop_zdrop by lia. rewrite E4. reflexivity. }
  split; [eapply rd16_be16; eauto|]. split; [eapply rd32_be32; eauto; lia|]. split; [eapply rd16_be16; eauto; lia|].
  replace (p + 10) with (2 + (p + 8)) by lia. rewrite <- zdrop_zdrop by lia. rewrite E8. reflexivity.
Qed.

Definition fixed_part (r : rr) : list Z :=
  be16 (rr_type r) ++ be16 (rr_class r) ++ be32 (rr_ttl r) ++ be16 (zlen (rr_data r)).
Lemma fixed_len r : zlen (fixed_part r) = 10.
Proof. reflexivity. Qed.
Lemma enc_rr_fixed r : enc_rr r = rr_owner r ++ fixed_part r ++ rr_data r.
Proof. unfold enc_rr, fixed_part. rewrite <- !app_assoc. reflexivity. Qed.

Lemma an_skip_rr r mem rest tl p s :
  0 <= p -> an_st s = ADom -> skippable (rr_owner r) -> rr_ok r -> rr_type r <> 1 -> rr_data r <> [] ->
  zdrop p mem = enc_rr r ++ tl ->
  exists s', an_st s' = ADom /\ an_loop mem (enc_rr r ++ rest) p s = an_loop mem rest (p + zlen (enc_rr r)) s'.
Proof.
  intros P ST O OK T NE E. rewrite enc_rr_fixed in E. rewrite !enc_rr_fixed, <- !app_assoc.
  rewrite (an_owner _ mem _ p s ST O).
  assert (E2 : zdrop (p + zlen (rr_owner r)) mem = fixed_part r ++ rr_data r ++ tl).
  { replace (p + zlen (rr_owner r)) with (zlen (rr_owner r) + p) by lia.
    pose proof (zlen_nonneg (rr_owner r)). rewrite <- zdrop_zdrop by lia. rewrite E, <- !app_assoc.
    rewrite zdrop_app_r by lia. rewrite Z.sub_diag, zdrop_le0 by lia. reflexivity. }
  pose proof (zlen_nonneg (rr_owner r)).
  destruct (rr_fields mem (p + zlen (rr_owner r)) r (rr_data r ++ tl)) as (F1 & F2 & F3 & F4); [lia|exact OK| |].
  { rewrite E2. unfold fixed_part. rewrite <- !app_assoc. reflexivity. }
  rewrite (an_common_start (fixed_part r) mem _ _ _ (zlen (rr_data r))); auto.
  rewrite (an_addr_skip_start (rr_data r) mem rest _ _ (rr_ttl r) (rr_type r) (zlen (rr_data r))); auto.
  eexists. split; [|f_equal; rewrite !zlen_app, fixed_len; lia]. reflexivity.
Qed.

Lemma an_find_rr r mem rest tl p s :
  0 <= p -> an_st s = ADom -> skippable (rr_owner r) -> rr_ok r -> rr_type r = 1 -> zlen (rr_data r) = 4 ->
  zdrop p mem = enc_rr r ++ tl ->
  an_loop mem (enc_rr r ++ rest) p s = Ok (Some (mkAnswer (rr_data r) (rr_ttl r) 4)).
Proof.
  intros P ST O OK T L E. rewrite enc_rr_fixed in E. rewrite !enc_rr_fixed, <- !app_assoc.
  rewrite (an_owner _ mem _ p s ST O).
  assert (E2 : zdrop (p + zlen (rr_owner r)) mem = fixed_part r ++ rr_data r ++ tl).
  { replace (p + zlen (rr_owner r)) with (zlen (rr_owner r) + p) by lia.
    pose proof (zlen_nonneg (rr_owner r)). rewrite <- zdrop_zdrop by lia. rewrite E, <- !app_assoc.
    rewrite zdrop_app_r by lia. rewrite Z.sub_diag, zdrop_le0 by lia. reflexivity. }
  pose proof (zlen_nonneg (rr_owner r)).
  destruct (rr_fields mem (p + zlen (rr_owner r)) r (rr_data r ++ tl)) as (F1 & F2 & F3 & F4); [lia|exact OK| |].
  { rewrite E2. unfold fixed_part. rewrite <- !app_assoc. reflexivity. }
  rewrite (an_common_start (fixed_part r) mem _ _ _ (zlen (rr_data r))); auto.
  rewrite T in F1. rewrite L in F3 |- *.
  apply an_addr_found; auto.
  set (i := p + zlen (rr_owner r) + 10) in *. rewrite rd4_in.
  - unfold zslice. rewrite F4. replace (i + 4 - i) with 4 by lia. rewrite ztake_app_l by lia. rewrite ztake_all by lia. reflexivity.
  - lia.
  - assert (Q : zlen (zdrop i mem) = zlen (rr_data r ++ tl)) by (rewrite F4; reflexivity).
    rewrite zlen_zdrop in Q by lia. rewrite zlen_app in Q. pose proof (zlen_nonneg tl). lia.
Qed.

Lemma an_records : forall rs a mem rest p s tl,
  0 <= p -> an_st s = ADom ->
  Forall (fun r => skippable (rr_owner r) /\ rr_ok r /\ rr_type r <> 1 /\ rr_data r <> []) rs ->
  skippable (rr_owner a) -> rr_ok a -> rr_type a = 1 -> zlen (rr_data a) = 4 ->
  zdrop p mem = concat (map enc_rr rs) ++ enc_rr a ++ tl ->
  an_loop mem (concat (map enc_rr rs) ++ enc_rr a ++ rest) p s = Ok (Some (mkAnswer (rr_data a) (rr_ttl a) 4)).
Proof.
  induction rs as [|r rs IH]; intros a mem rest p s tl P ST F O OK T L E; simpl in *.
  - eapply an_find_rr; eauto.
  - destruct (Forall_inv F) as (F1 & F2 & F3 & F4). rewrite <- app_assoc in *.
    destruct (an_skip_rr r mem (concat (map enc_rr rs) ++ enc_rr a ++ rest)
               (concat (map enc_rr rs) ++ enc_rr a ++ tl) p s) as (s' & S1 & S2); auto.
    rewrite S2. pose proof (zlen_nonneg (enc_rr r)).
    apply IH with tl; auto; [lia|apply (Forall_inv_tail F)|].
    replace (p + zlen (enc_rr r)) with (zlen (enc_rr r) + p) by lia. rewrite <- zdrop_zdrop by lia. rewrite E.
    rewrite zdrop_app_r by lia. rewrite Z.sub_diag, zdrop_le0 by lia. reflexivity.
Qed.

(** ** Receiving one datagram *)
Lemma collect_one qlen pkt : 0 <= qlen -> 12 + qlen + 4 <= zlen pkt -> zlen pkt <= 1500 ->
  exists m, dns_collect (meta_new 1500) (12 + qlen + 4) [RxData pkt] = Ok (inr m) /\ mdata m = pkt /\
            zlen (mbuf m) = 1500 /\ mlast m = zlen pkt /\ mpos m = 0.
Proof.
  intros Q L B. destruct (meta_new_wf 1500) as (W0 & C0 & D0); [lia|].
  destruct (meta_store_ok (meta_new 1500) pkt W0) as (m & E & W & D & C & P & LL).
  { unfold meta_getfree. rewrite C0. change (mlast (meta_new 1500)) with 0. lia. }
  exists m. unfold dns_collect.
  replace (meta_getlen (meta_new 1500)) with 0 by reflexivity.
  destruct (Z.leb_spec (12 + qlen + 4) 0); [lia|].
  assert (F : meta_getfree (meta_new 1500) = 1500) by (unfold meta_getfree; rewrite C0; reflexivity).
  rewrite F. change (1500 <? 1) with false. cbv iota. rewrite E. cbn [bind].
  rewrite D0 in D. simpl in D. change (mlast (meta_new 1500)) with 0 in LL. change (mpos (meta_new 1500)) with 0 in P.
  assert (G : meta_getlen m = zlen pkt) by (unfold meta_getlen; lia).
  rewrite G. destruct (Z.leb_spec (12 + qlen + 4) (zlen pkt)); [|lia].
  split; [reflexivity|]. split; [exact D|]. split; [unfold meta_cap in *; lia|]. split; [lia|exact P].
Qed.

(** ** Bounds of the analysis *)
(** positions of the pieces collected so far, at offset [p] *)
Definition an_pos (s : an) (p : Z) : Prop :=
  match an_st s with
  | ADom | ADom2 => True
  | ACommonStart => an_cur s = 0 /\ an_len s = 10
  | ACommon => an_len s = 10 /\ 1 <= an_cur s < 10 /\ 0 <= an_rdata s /\ an_rdata s + an_cur s = p
  | AAddrStart => 0 <= an_rdata s /\ an_rdata s + 10 <= p /\ an_cur s = 0
  | AAddr => 0 <= an_rdata s /\ an_rdata s + 10 <= an_addr s /\ an_addr s <= p /\ an_cur s = p - an_addr s /\
             1 <= an_cur s < an_len s
  end.

Lemma an_step_safe mem p b s : 0 <= p < zlen mem - 3 -> an_pos s p ->
  exists x, an_step mem p b s = Ok x /\ match x with inl s' => an_pos s' (p + 1) | inr _ => True end.
Proof.
  intros P A. unfold an_step, an_pos in *. destruct (an_st s) eqn:ST.
  - destruct (negb _); [|destruct (b =? 0)]; (eexists; split; [reflexivity|]); simpl; auto. rewrite ST. exact I.
  - eexists. split; [reflexivity|]. simpl. auto.
  - destruct A as (A1 & A2). rewrite A1, A2. simpl. eexists. split; [reflexivity|]. simpl. lia.
  - destruct A as (A1 & A2 & A3 & A4). destruct (Z.leb_spec (an_len s) (an_cur s + 1)).
    + destruct (rd16_in mem (an_rdata s + 8)) as (v & V); [lia|lia|]. rewrite V. simpl.
      eexists. split; [reflexivity|]. simpl. lia.
    + eexists. split; [reflexivity|]. simpl. lia.
  - destruct A as (A1 & A2 & A3). destruct (Z.leb_spec (an_len s) (an_cur s + 1)).
    + destruct (rd32_in mem (an_rdata s + 4)) as (v1 & V1); [lia|lia|]. rewrite V1. simpl.
      destruct (rd16_in mem (an_rdata s)) as (v2 & V2); [lia|lia|]. rewrite V2. simpl.
      destruct (rd16_in mem (an_rdata s + 8)) as (v3 & V3); [lia|lia|]. rewrite V3. simpl.
      destruct (v2 =? 1); [|eexists; split; [reflexivity|]; simpl; auto].
      rewrite rd4_in by lia. simpl. eexists. split; [reflexivity|]. exact I.
    + eexists. split; [reflexivity|]. simpl. lia.
  - destruct A as (A1 & A2 & A3 & A4 & A5). destruct (Z.leb_spec (an_len s) (an_cur s + 1)).
    + destruct (rd32_in mem (an_rdata s + 4)) as (v1 & V1); [lia|lia|]. rewrite V1. simpl.
      destruct (rd16_in mem (an_rdata s)) as (v2 & V2); [lia|lia|]. rewrite V2. simpl.
      destruct (rd16_in mem (an_rdata s + 8)) as (v3 & V3); [lia|lia|]. rewrite V3. simpl.
      destruct (v2 =? 1); [|eexists; split; [reflexivity|]; simpl; auto].
      rewrite rd4_in by lia. simpl. eexists. split; [reflexivity|]. exact I.
    + eexists. split; [reflexivity|]. simpl. lia.
Qed.

Lemma an_loop_safe : forall l mem p s, 0 <= p -> p + zlen l <= zlen mem - 3 -> an_pos s p ->
  exists r, an_loop mem l p s = Ok r.
Proof.
  induction l as [|b l IH]; intros mem p s P L A; simpl; [eauto|].
  rewrite zlen_cons in L. pose proof (zlen_nonneg l).
  destruct (an_step_safe mem p b s ltac:(lia) A) as (x & E & X). rewrite E. simpl.
  destruct x as [s'|a]; [|eauto]. apply IH; auto; lia.
Qed.

(** reads stay inside the packet when the address record has four bytes *)
Lemma rd16_app m1 m2 i : 0 <= i -> i + 2 <= zlen m1 -> rd16 (m1 ++ m2) i = rd16 m1 i.
Proof. intros. unfold rd16. rewrite !zget_app_l by lia. reflexivity. Qed.
Lemma rd32_app m1 m2 i : 0 <= i -> i + 4 <= zlen m1 -> rd32 (m1 ++ m2) i = rd32 m1 i.
Proof. intros. unfold rd32. rewrite !rd16_app by lia. reflexivity. Qed.
Lemma rd4_app m1 m2 i : 0 <= i -> i + 4 <= zlen m1 -> rd4 (m1 ++ m2) i = rd4 m1 i.
Proof.
  intros. pose proof (zlen_nonneg m2). rewrite !rd4_in by (rewrite ?zlen_app; lia).
  unfold zslice. rewrite zdrop_app_l by lia. rewrite ztake_app_l; [reflexivity|]. rewrite zlen_zdrop by lia. lia.
Qed.

(** additionally the recorded data length is the field in memory *)
Definition an_len_ok (mem : list Z) (s : an) : Prop :=
  match an_st s with AAddrStart | AAddr => rd16 mem (an_rdata s + 8) = Ok (an_len s) | _ => True end.

Lemma an_step_packet pkt slack p b s x : 0 <= p < zlen pkt -> an_pos s p -> an_len_ok pkt s ->
  an_step (pkt ++ slack) p b s = Ok x ->
  (match x with inr a => 4 <= ans_rdlen a | inl _ => True end) ->
  an_step pkt p b s = Ok x /\ match x with inl s' => an_pos s' (p + 1) /\ an_len_ok pkt s' | inr _ => True end.
Proof.
  intros P A K E X. unfold an_step, an_pos, an_len_ok in *. destruct (an_st s) eqn:ST.
  - destruct (negb _); [|destruct (b =? 0)]; injection E as <-; (split; [reflexivity|]); simpl; auto. rewrite ST. auto.
  - injection E as <-. split; [reflexivity|]. simpl. auto.
  - destruct A as (A1 & A2). rewrite A1, A2 in *. simpl in E. injection E as <-. split; [reflexivity|]. simpl. split; [lia|exact I].
  - destruct A as (A1 & A2 & A3 & A4). destruct (Z.leb_spec (an_len s) (an_cur s + 1)).
    + rewrite rd16_app in E by lia. apply bind_ok in E as (dl & E1 & E). injection E as <-. rewrite E1. simpl.
      split; [reflexivity|]. split; [lia|exact E1].
    + injection E as <-. split; [reflexivity|]. simpl. split; [lia|exact I].
  - destruct A as (A1 & A2 & A3). destruct (Z.leb_spec (an_len s) (an_cur s + 1)).
    + rewrite rd32_app, !rd16_app in E by lia.
      apply bind_ok in E as (v1 & V1 & E). rewrite V1. simpl. apply bind_ok in E as (v2 & V2 & E). rewrite V2. simpl.
      apply bind_ok in E as (v3 & V3 & E). rewrite V3. simpl. rewrite K in V3. injection V3 as <-.
      destruct (v2 =? 1).
      * apply bind_ok in E as (a & E1 & E). injection E as <-. simpl in X. exfalso. lia.
      * injection E as <-. split; [reflexivity|]. simpl. auto.
    + injection E as <-. split; [reflexivity|]. simpl. split; [lia|exact K].
  - destruct A as (A1 & A2 & A3 & A4 & A5). destruct (Z.leb_spec (an_len s) (an_cur s + 1)).
    + rewrite rd32_app, !rd16_app in E by lia.
      apply bind_ok in E as (v1 & V1 & E). rewrite V1. simpl. apply bind_ok in E as (v2 & V2 & E). rewrite V2. simpl.
      apply bind_ok in E as (v3 & V3 & E). rewrite V3. simpl. rewrite K in V3. injection V3 as <-.
      destruct (v2 =? 1).
      * apply bind_ok in E as (a & E1 & E). injection E as <-. simpl in X. rewrite rd4_app in E1 by lia. rewrite E1. simpl. auto.
      * injection E as <-. split; [reflexivity|]. simpl. auto.
    + injection E as <-. split; [reflexivity|]. simpl. split; [lia|exact K].
Qed.

Lemma an_loop_packet : forall l pkt slack p s r, 0 <= p -> p + zlen l <= zlen pkt -> an_pos s p -> an_len_ok pkt s ->
  an_loop (pkt ++ slack) l p s = Ok r ->
  (match r with Some a => 4 <= ans_rdlen a | None => True end) ->
  an_loop pkt l p s = Ok r.
Proof.
  induction l as [|b l IH]; intros pkt slack p s r P L A K E R; simpl in *; [exact E|].
  rewrite zlen_cons in L. pose proof (zlen_nonneg l).
  apply bind_ok in E as (x & E1 & E).
  destruct (an_step_packet pkt slack p b s x) as (E2 & X); auto; [lia| |].
  - destruct x as [s'|a]; [exact I|]. injection E as <-. exact R.
  - rewrite E2. simpl. destruct x as [s'|a]; [|exact E]. destruct X as (X1 & X2).
    apply IH with slack; auto; lia.
Qed.
