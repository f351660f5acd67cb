(** Further theorems about C43 and C46: owners that are partly compressed, and
    uncompressed owners of ordinary names *)
From Coq Require Import String.
From Verif Require Import Base Str_Spec Meta_Model Meta_Proofs S5_Model Hash_Model Dns_Model Dns_Spec Dns_Proofs Dns_Props.
Open Scope Z_scope.
Local Arguments Z.add : simpl never.
Local Arguments Z.mul : simpl never.

(** ** C43: labels followed by a pointer (RFC 1035 4.1.4, second form) *)
Definition label_pointer_owner (o : list Z) : Prop :=
  exists ls p, Forall (fun l => 1 <= zlen l <= 63 /\ Forall (fun b => 1 <= b < 64) l) ls /\
    pointer_owner p /\ o = List.concat (map (fun l => zlen l :: l) ls) ++ p.

Lemma labels_small ls : Forall (fun l => 1 <= zlen l <= 63 /\ Forall (fun b => 1 <= b < 64) l) ls ->
  Forall (fun b => 1 <= b < 64) (List.concat (map (fun l => zlen l :: l) ls)).
Proof.
  induction 1 as [|l ls (L & F) _ IH]; simpl; [constructor|]. constructor; [lia|]. apply Forall_app. auto.
Qed.

(** Whatever mixture of owners made of labels with bytes below 64, pointers, and both. *)
Theorem C43_labels_partial : forall id flags an ns ar q rs a rest,
  u16 an -> 1 <= an ->
  Forall (fun r => (pointer_owner (rr_owner r) \/ label_pointer_owner (rr_owner r)) /\
                   rr_ok r /\ rr_type r <> 1 /\ rr_data r <> []) rs ->
  pointer_owner (rr_owner a) \/ label_pointer_owner (rr_owner a) -> rr_ok a -> rr_type a = 1 -> zlen (rr_data a) = 4 ->
  let pkt := response id flags an ns ar q (List.concat (map enc_rr rs) ++ enc_rr a ++ rest) in
  zlen pkt <= 1500 ->
  exists ans, dns_response (zlen q) [RxData pkt] = Ok (DAnswer ans) /\
    ans_addr ans = rr_data a /\ ans_ttl ans = rr_ttl a.
Proof.
  assert (K : forall o, pointer_owner o \/ label_pointer_owner o -> skippable o).
  { intros o [P|(ls & p & F & (x & y & X & Y & ->) & ->)]; [left; exact P|]. right. right.
    exists (List.concat (map (fun l => zlen l :: l) ls)), (192 + x), y.
    split; [apply labels_small; exact F|]. split; [lia|reflexivity]. }
  intros. eexists. split; [apply response_answer; auto|split; reflexivity].
  eapply Forall_impl; [|eassumption]. intros r (P & R). split; [apply K; exact P|exact R].
Qed.
Print Assumptions C43_labels_partial.

(** the name "10" below the name asked for *)
Example ex_C43_labels :
  let a := mkRR [2; 49; 48; 192; 12] 1 1 60 [10; 0; 0; 1] in
  label_pointer_owner (rr_owner a) /\
  dns_response (zlen demo_q) [RxData (response 48879 33152 1 0 0 demo_q (enc_rr a))]
    = Ok (DAnswer (mkAnswer [10; 0; 0; 1] 60 4)).
Proof.
  split; [|vm_compute; reflexivity].
  exists [[49; 48]], [192; 12]. split; [|split; [|reflexivity]].
  - repeat constructor; vm_compute; discriminate.
  - exists 0, 12. unfold is_byte. repeat split; lia.
Qed.

(** ** C46: no name with a letter before its last character is understood *)

(** how many bytes the analyser needs before it can deliver an address *)
Definition need (s : an) : Z :=
  match an_st s with
  | ADom | ADom2 => 12
  | ACommonStart => 11
  | ACommon => 11 - an_cur s
  | AAddrStart => 1
  | AAddr => 1
  end.
Lemma need_bytes : forall l mem p s a, an_pos s p -> 0 <= p ->  p + zlen l <= zlen mem - 3 ->
  an_loop mem l p s = Ok (Some a) -> need s <= zlen l.
Proof.
  induction l as [|b l IH]; intros mem p s a A P L E; [discriminate E|].
  rewrite zlen_cons in *. pose proof (zlen_nonneg l). cbn [an_loop] in E.
  destruct (an_step_safe mem p b s ltac:(lia) A) as (x & E1 & X). rewrite E1 in E. cbn [bind] in E.
  destruct x as [s'|a'].
  - apply IH in E; [|exact X|lia|lia]. revert E1 E A. unfold an_step, need, an_pos.
    destruct (an_st s) eqn:ST.
    + destruct (negb _); [|destruct (b =? 0)]; intros E1; injection E1 as <-; cbn [an_st]; try rewrite ST; lia.
    + intros E1; injection E1 as <-; cbn [an_st]; lia.
    + intros E1 E A. destruct A as (A1 & A2). rewrite A1, A2 in E1. change (10 <=? 0 + 1) with false in E1.
      injection E1 as <-. cbn [an_st an_cur] in E. lia.
    + intros E1 E A. destruct (Z.leb_spec (an_len s) (an_cur s + 1)).
      * apply bind_ok in E1 as (v & _ & E1). injection E1 as <-. cbn [an_st an_cur] in E. lia.
      * injection E1 as <-. cbn [an_st an_cur] in E. lia.
    + lia.
    + lia.
  - revert E1 A. unfold an_step, need, an_pos. destruct (an_st s) eqn:ST; intros E1 A; try lia.
    + destruct (negb _); [|destruct (b =? 0)]; discriminate E1.
    + discriminate E1.
    + destruct A as (A1 & A2). rewrite A1, A2 in E1. change (10 <=? 0 + 1) with false in E1. discriminate E1.
    + destruct (an_len s <=? an_cur s + 1); [|discriminate E1]. apply bind_ok in E1 as (v & _ & E1). discriminate E1.
Qed.

(** a record that is no address: its data, at least one byte, and then another record *)
Lemma need_data mem typ : typ <> 1 -> forall l p s a, an_pos s p -> 0 <= p -> p + zlen l <= zlen mem - 3 ->
  an_st s = AAddrStart \/ an_st s = AAddr -> rd16 mem (an_rdata s) = Ok typ ->
  an_loop mem l p s = Ok (Some a) -> Z.max 1 (an_len s - an_cur s) + 12 <= zlen l.
Proof.
  intros T. induction l as [|b l IH]; intros p s a A P L ST R E; [discriminate E|].
  rewrite zlen_cons in *. pose proof (zlen_nonneg l). cbn [an_loop] in E.
  destruct (an_step_safe mem p b s ltac:(lia) A) as (x & E1 & X). rewrite E1 in E. cbn [bind] in E.
  assert (D : (an_len s <= an_cur s + 1 /\ exists s', x = inl s' /\ an_st s' = ADom) \/
              (an_cur s + 1 < an_len s /\ exists s', x = inl s' /\ an_st s' = AAddr /\ an_len s' = an_len s /\
                 an_cur s' = an_cur s + 1 /\ an_rdata s' = an_rdata s)).
  { clear E. revert E1. unfold an_step.
    destruct ST as [ST|ST]; rewrite ST; destruct (Z.leb_spec (an_len s) (an_cur s + 1)); intros E1.
    1,3: left; split; [assumption|]; apply bind_ok in E1 as (v & _ & E1); rewrite R in E1; cbn [bind] in E1;
      apply bind_ok in E1 as (w & _ & E1); destruct (Z.eqb_spec typ 1); [contradiction|]; injection E1 as <-;
      eexists; split; reflexivity.
    all: right; split; [assumption|]; injection E1 as <-; eexists; split; [reflexivity|]; cbn; auto. }
  destruct D as [(H1 & s' & -> & S1)|(H1 & s' & -> & S1 & S2 & S3 & S4)].
  - apply need_bytes in E; [|exact X|lia|lia]. unfold need in E. rewrite S1 in E. lia.
  - apply IH in E; [|exact X|lia|lia|right; exact S1|rewrite S4; exact R]. rewrite S2, S3 in E. lia.
Qed.

(** reading at a place of which the following bytes are known *)
Lemma rd16_here mem p a b r : 0 <= p -> zdrop p mem = a :: b :: r -> rd16 mem p = Ok (256 * a + b).
Proof.
  intros P E. apply rd16_get.
  - rewrite <- (Z.add_0_r p), <- zget_zdrop by lia. now rewrite E.
  - rewrite <- zget_zdrop by lia. now rewrite E.
Qed.

(** the rest of an ordinary name: bytes other than 0, then the end *)
Definition tail_ok (w : list Z) : Prop := exists v, w = v ++ [0] /\ Forall (fun b => 1 <= b < 256) v.

Lemma zdrop_more {A} n (mem l1 l2 : list A) : 0 <= n -> zdrop n mem = l1 ++ l2 -> zdrop (n + zlen l1) mem = l2.
Proof.
  intros N E. pose proof (zlen_nonneg l1). replace (zdrop (n + zlen l1) mem) with (zdrop (zlen l1) (zdrop n mem)).
  - rewrite E, zdrop_app_r by lia. rewrite Z.sub_diag. now apply zdrop_le0.
  - unfold zdrop. rewrite Z2Nat.inj_add by lia. generalize (Z.to_nat n) (Z.to_nat (zlen l1)). clear.
    intros a b. revert mem. induction a; intros mem; [reflexivity|]. destruct mem; [cbn; now rewrite skipn_nil|]. apply IHa.
Qed.

Lemma zlen_mem {A} p (mem l : list A) : 0 <= p -> l <> [] -> zdrop p mem = l -> zlen mem = p + zlen l.
Proof.
  intros P N E. destruct (Z_le_gt_dec p (zlen mem)) as [L|L].
  - rewrite <- E, zlen_zdrop by lia. lia.
  - exfalso. apply N. rewrite <- E. unfold zdrop. apply skipn_all2. unfold zlen in L. lia.
Qed.

Lemma lost_common mem b0 b1 b2 b3 b4 b5 b6 b7 b8 b9 rest slack p s a :
  an_st s = ACommonStart -> an_len s = 10 -> an_cur s = 0 -> 0 <= p ->
  zdrop p mem = ([b0; b1; b2; b3; b4; b5; b6; b7; b8; b9] ++ rest) ++ slack -> 3 <= zlen slack ->
  256 * b0 + b1 <> 1 ->
  an_loop mem ([b0; b1; b2; b3; b4; b5; b6; b7; b8; b9] ++ rest) p s = Ok (Some a) ->
  Z.max 1 (256 * b8 + b9) + 12 <= zlen rest.
Proof.
  intros ST LN C P D SL T E.
  assert (ML : zlen mem = p + zlen (([b0; b1; b2; b3; b4; b5; b6; b7; b8; b9] ++ rest) ++ slack))
    by (apply zlen_mem; [exact P|discriminate|exact D]).
  rewrite !zlen_app in ML.
  change (zlen [b0; b1; b2; b3; b4; b5; b6; b7; b8; b9]) with 10 in ML.
  assert (D8 : zdrop (p + 8) mem = b8 :: b9 :: rest ++ slack)
    by exact (zdrop_more p mem [b0; b1; b2; b3; b4; b5; b6; b7] ([b8; b9] ++ rest ++ slack) P D).
  rewrite (an_common_start _ mem rest p s (256 * b8 + b9) ST LN C) in E; [|reflexivity|].
  2: { eapply rd16_here; [lia|exact D8]. }
  apply (need_data mem (256 * b0 + b1) T) in E.
  - cbn [an_len an_cur] in E. lia.
  - cbn. lia.
  - lia.
  - lia.
  - left; reflexivity.
  - cbn [an_rdata]. eapply rd16_here; [exact P|exact D].
Qed.

Lemma an_lost mem w t0 t1 t2 t3 d0 d1 d2 d3 slack p s :
  an_st s = ACommonStart -> an_len s = 10 -> an_cur s = 0 -> 0 <= p ->
  tail_ok w -> zlen w <= 252 -> is_byte t0 -> is_byte t2 -> is_byte t3 ->
  zdrop p mem = (w ++ [0; 1; 0; 1; t0; t1; t2; t3; 0; 4; d0; d1; d2; d3]) ++ slack -> 3 <= zlen slack ->
  an_loop mem (w ++ [0; 1; 0; 1; t0; t1; t2; t3; 0; 4; d0; d1; d2; d3]) p s = Ok None.
Proof.
  intros ST LN C P (v & -> & F) LW B0 B2 B3 D SL.
  rewrite zlen_app in LW. change (zlen [0]) with 1 in LW.
  assert (ML : zlen mem = p + zlen (((v ++ [0]) ++ [0; 1; 0; 1; t0; t1; t2; t3; 0; 4; d0; d1; d2; d3]) ++ slack))
    by (apply zlen_mem; [exact P|destruct v; discriminate|exact D]).
  rewrite !zlen_app in ML.
  destruct (an_loop_safe ((v ++ [0]) ++ [0; 1; 0; 1; t0; t1; t2; t3; 0; 4; d0; d1; d2; d3]) mem p s P) as (r & E).
  { rewrite !zlen_app. lia. }
  { unfold an_pos. rewrite ST. auto. }
  destruct r as [a|]; [exfalso|exact E]. clear ML. unfold is_byte in *.
  destruct v as [|v0 v].
  { apply (lost_common mem 0 0 1 0 1 t0 t1 t2 t3 0 [4; d0; d1; d2; d3] slack p s a ST LN C P D SL) in E; [|lia].
    change (zlen [4; d0; d1; d2; d3]) with 5 in E. lia. }
  apply Forall_cons_iff in F as (F0 & F). destruct v as [|v1 v].
  { apply (lost_common mem v0 0 0 1 0 1 t0 t1 t2 t3 [0; 4; d0; d1; d2; d3] slack p s a ST LN C P D SL) in E; [|lia].
    change (zlen [0; 4; d0; d1; d2; d3]) with 6 in E. lia. }
  apply Forall_cons_iff in F as (F1 & F). destruct v as [|v2 v].
  { apply (lost_common mem v0 v1 0 0 1 0 1 t0 t1 t2 [t3; 0; 4; d0; d1; d2; d3] slack p s a ST LN C P D SL) in E; [|lia].
    change (zlen [t3; 0; 4; d0; d1; d2; d3]) with 7 in E. lia. }
  apply Forall_cons_iff in F as (F2 & F). destruct v as [|v3 v].
  { apply (lost_common mem v0 v1 v2 0 0 1 0 1 t0 t1 [t2; t3; 0; 4; d0; d1; d2; d3] slack p s a ST LN C P D SL) in E; [|lia].
    change (zlen [t2; t3; 0; 4; d0; d1; d2; d3]) with 8 in E. lia. }
  apply Forall_cons_iff in F as (F3 & F). destruct v as [|v4 v].
  { apply (lost_common mem v0 v1 v2 v3 0 0 1 0 1 t0 [t1; t2; t3; 0; 4; d0; d1; d2; d3] slack p s a ST LN C P D SL) in E; [|lia].
    change (zlen [t1; t2; t3; 0; 4; d0; d1; d2; d3]) with 9 in E. lia. }
  apply Forall_cons_iff in F as (F4 & F). destruct v as [|v5 v].
  { apply (lost_common mem v0 v1 v2 v3 v4 0 0 1 0 1 [t0; t1; t2; t3; 0; 4; d0; d1; d2; d3] slack p s a ST LN C P D SL) in E; [|lia].
    change (zlen [t0; t1; t2; t3; 0; 4; d0; d1; d2; d3]) with 10 in E. lia. }
  apply Forall_cons_iff in F as (F5 & F). destruct v as [|v6 v].
  { apply (lost_common mem v0 v1 v2 v3 v4 v5 0 0 1 0 [1; t0; t1; t2; t3; 0; 4; d0; d1; d2; d3] slack p s a ST LN C P D SL) in E; [|lia].
    change (zlen [1; t0; t1; t2; t3; 0; 4; d0; d1; d2; d3]) with 11 in E. lia. }
  apply Forall_cons_iff in F as (F6 & F). destruct v as [|v7 v].
  { apply (lost_common mem v0 v1 v2 v3 v4 v5 v6 0 0 1 [0; 1; t0; t1; t2; t3; 0; 4; d0; d1; d2; d3] slack p s a ST LN C P D SL) in E; [|lia].
    change (zlen [0; 1; t0; t1; t2; t3; 0; 4; d0; d1; d2; d3]) with 12 in E. lia. }
  apply Forall_cons_iff in F as (F7 & F). destruct v as [|v8 v].
  { (* the length is read as 0, one byte is skipped, and the class is taken for an empty owner *)
    assert (D8 : zdrop (p + 8) mem = 0 :: 0 :: [1; 0; 1; t0; t1; t2; t3; 0; 4; d0; d1; d2; d3] ++ slack)
      by exact (zdrop_more p mem [v0; v1; v2; v3; v4; v5; v6; v7] _ P D).
    assert (D12 : zdrop (p + 12) mem = ([1; t0; t1; t2; t3; 0; 4; d0; d1; d2] ++ [d3]) ++ slack)
      by exact (zdrop_more p mem [v0; v1; v2; v3; v4; v5; v6; v7; 0; 0; 1; 0] _ P D).
    change (((v0 :: v1 :: v2 :: v3 :: v4 :: v5 :: v6 :: v7 :: []) ++ [0]) ++
            [0; 1; 0; 1; t0; t1; t2; t3; 0; 4; d0; d1; d2; d3])
      with ([v0; v1; v2; v3; v4; v5; v6; v7; 0; 0] ++ 1 :: 0 :: [1; t0; t1; t2; t3; 0; 4; d0; d1; d2] ++ [d3]) in E.
    rewrite (an_common_start _ mem _ p s 0 ST LN C) in E; [|reflexivity|].
    2: { exact (rd16_here mem (p + 8) 0 0 _ ltac:(lia) D8). }
    cbn [an_loop] in E. unfold an_step at 1 in E. cbn [an_st an_len an_cur an_rdata an_addr] in E.
    change (0 <=? 0 + 1) with true in E. cbv iota in E.
    apply bind_ok in E as (x & E1 & E). apply bind_ok in E1 as (ttl & _ & E1).
    rewrite (rd16_here mem p v0 v1 _ P D) in E1. cbn [bind] in E1. apply bind_ok in E1 as (dl & _ & E1).
    destruct (Z.eqb_spec (256 * v0 + v1) 1); [lia|]. injection E1 as <-.
    unfold an_step at 1 in E. cbn [an_st] in E. change (Z.land 0 192 =? 0) with true in E. cbn [negb] in E.
    change (0 =? 0) with true in E. cbv iota in E. cbn [bind] in E.
    apply (lost_common mem 1 t0 t1 t2 t3 0 4 d0 d1 d2 [d3] slack) in E; try reflexivity; try lia.
    - change (zlen [d3]) with 1 in E. lia.
    - replace (p + 10 + 1 + 1) with (p + 12) by lia. exact D12. }
  apply Forall_cons_iff in F as (F8 & F). destruct v as [|v9 v].
  { apply (lost_common mem v0 v1 v2 v3 v4 v5 v6 v7 v8 0 [0; 1; 0; 1; t0; t1; t2; t3; 0; 4; d0; d1; d2; d3] slack p s a ST LN C P D SL) in E; [|lia].
    change (zlen [0; 1; 0; 1; t0; t1; t2; t3; 0; 4; d0; d1; d2; d3]) with 14 in E. lia. }
  apply Forall_cons_iff in F as (F9 & F).
  apply (lost_common mem v0 v1 v2 v3 v4 v5 v6 v7 v8 v9 ((v ++ [0]) ++ [0; 1; 0; 1; t0; t1; t2; t3; 0; 4; d0; d1; d2; d3]) slack p s a ST LN C P D SL) in E; [|lia].
  rewrite !zlen_app in E. change (zlen [0]) with 1 in E.
  change (zlen [0; 1; 0; 1; t0; t1; t2; t3; 0; 4; d0; d1; d2; d3]) with 14 in E.
  rewrite !zlen_cons in LW. lia.
Qed.

Lemma name_body o ls : name_wire o ls -> Forall (Forall (fun b => 1 <= b < 256)) ls ->
  exists body, o = body ++ [0] /\ Forall (fun b => 1 <= b < 256) body /\
    match body with [] => True | c :: _ => c < 64 end.
Proof.
  induction 1 as [|l w ls L W IH]; intros F.
  - exists []. auto.
  - apply Forall_cons_iff in F as (F1 & F). destruct (IH F) as (body & -> & FB & _).
    exists (zlen l :: l ++ body). split; [cbn; now rewrite app_assoc|]. split; [|lia].
    constructor; [lia|]. apply Forall_app; auto.
Qed.

(** the first byte of 64 or more *)
Lemma first_letter : forall body u b v, body = u ++ b :: v -> 64 <= b -> v <> [] ->
  Forall (fun b => 1 <= b < 256) body ->
  exists ns c y w, body = ns ++ c :: y :: w /\ Forall (fun b => 1 <= b < 64) ns /\ 64 <= c < 256.
Proof.
  induction body as [|x body IH]; intros u b v E B N F; [destruct u; discriminate E|].
  apply Forall_cons_iff in F as (FX & F).
  destruct (Z_lt_ge_dec x 64) as [X|X].
  - destruct u as [|u0 u]; [injection E as -> ->; lia|]. injection E as -> E.
    destruct (IH u b v E B N F) as (ns & c & y & w & -> & FN & C).
    exists (u0 :: ns), c, y, w. split; [reflexivity|]. split; [constructor; [lia|exact FN]|exact C].
  - destruct body as [|y w].
    + destruct u as [|u0 [|u1 u]]; injection E as -> E; [subst; contradiction|discriminate E|discriminate E].
    + exists [], x, y, w. split; [reflexivity|]. split; [constructor|lia].
Qed.

(** The answer with one address record whose owner is written out, for every name that
    has a letter (a byte of 64 or more) before its last character: the lookup fails. *)
Theorem C46_uncompressed_never : forall id flags an ns ar q a ls,
  u16 an -> 1 <= an -> zlen q <= 255 ->
  name_wire (rr_owner a) ls -> Forall (Forall (fun b => 1 <= b < 256)) ls -> zlen (rr_owner a) <= 255 ->
  (exists u b v, rr_owner a = u ++ b :: v ++ [0] /\ 64 <= b /\ v <> []) ->
  rr_ok a -> rr_type a = 1 -> rr_class a = 1 -> zlen (rr_data a) = 4 ->
  dns_response (zlen q) [RxData (response id flags an ns ar q (enc_rr a))] = Ok DFail.
Proof.
  intros id flags an ns ar q a ls UA A1 LQ NW FL LO (u & b & v & EO & B & NV) OK T C L.
  set (pkt := response id flags an ns ar q (enc_rr a)). pose proof (zlen_nonneg q).
  destruct (name_body _ _ NW FL) as (body & EB & FB & HD).
  assert (body = u ++ b :: v) as EU.
  { rewrite EB in EO. apply (app_inj_tail body (u ++ b :: v) 0 0). rewrite <- app_assoc. exact EO. }
  destruct (first_letter body u b v EU B NV FB) as (sm & c & y & w & EW & FS & LC).
  assert (LS : 1 <= zlen sm).
  { destruct sm as [|s0 sm]; [|rewrite zlen_cons; pose proof (zlen_nonneg sm); lia]. subst body. cbn in EW. rewrite EW in HD. lia. }
  assert (TW : tail_ok (w ++ [0])).
  { exists w. split; [reflexivity|]. rewrite EW in FB. apply Forall_app in FB as (_ & FB).
    apply Forall_cons_iff in FB as (_ & FB). apply Forall_cons_iff in FB as (_ & FB). exact FB. }
  assert (LW : zlen (w ++ [0]) <= 252).
  { rewrite EB, EW, <- app_assoc, zlen_app in LO. cbn [app] in LO. rewrite !zlen_cons in LO. lia. }
  destruct OK as (_ & _ & UT & _).
  destruct (rr_data a) as [|d0 [|d1 [|d2 [|d3 [|d4 d]]]]] eqn:ED;
    try discriminate L; [|rewrite !zlen_cons in L; pose proof (zlen_nonneg d); lia].
  set (t0 := rr_ttl a / 65536 / 256). set (t1 := (rr_ttl a / 65536) mod 256).
  set (t2 := rr_ttl a mod 65536 / 256). set (t3 := (rr_ttl a mod 65536) mod 256).
  assert (EE : enc_rr a = (sm ++ [c; y]) ++ (w ++ [0]) ++ [0; 1; 0; 1; t0; t1; t2; t3; 0; 4; d0; d1; d2; d3]).
  { unfold enc_rr. rewrite T, C, ED, L, EB, EW. unfold be32, be16. fold t0 t1 t2 t3.
    change (1 / 256) with 0. change (1 mod 256) with 1. change (4 / 256) with 0. change (4 mod 256) with 4.
    cbn [app]. rewrite <- ?app_assoc. cbn [app]. rewrite <- ?app_assoc. reflexivity. }
  assert (LP : zlen pkt = 12 + zlen q + 4 + zlen (enc_rr a)).
  { unfold pkt, response, question. rewrite !zlen_app. change (zlen (header id flags 1 an ns ar)) with 12.
    change (zlen (be16 1)) with 2. lia. }
  assert (LE : zlen (enc_rr a) <= 269).
  { unfold enc_rr. rewrite !zlen_app, be16_len, be32_len, ED. change (zlen (be16 (rr_class a))) with 2.
    change (zlen (be16 (zlen [d0; d1; d2; d3]))) with 2. change (zlen [d0; d1; d2; d3]) with 4. lia. }
  pose proof (zlen_nonneg (enc_rr a)).
  assert (ST : zdrop (12 + zlen q + 4) pkt = enc_rr a) by apply response_start.
  unfold dns_response.
  destruct (collect_one (zlen q) pkt ltac:(lia) ltac:(lia) ltac:(lia)) as (m & E & D & HC). rewrite E. cbn [bind]. rewrite D.
  destruct (response_counts id flags an ns ar q (enc_rr a) UA) as (C1 & C2).
  fold pkt in C1, C2. rewrite C1. cbn [bind]. rewrite C2. cbn [bind].
  change (1 <? 1) with false. cbv iota. destruct (Z.ltb_spec an 1); [lia|].
  unfold dns_analyze. rewrite ST, EE.
  rewrite (an_owner (sm ++ [c; y])); [|reflexivity|right; right; exists sm, c, y; auto].
  destruct HC as (HB & HL & _).
  rewrite (an_lost _ (w ++ [0]) t0 t1 t2 t3 d0 d1 d2 d3 (zdrop (mlast m) (mbuf m))); auto; unfold is_byte, u32 in *.
  - pose proof (zlen_nonneg (sm ++ [c; y])). lia.
  - subst t0. split; [|rewrite Z.div_div by lia; apply Z.div_lt_upper_bound; lia].
    apply Z.div_pos; [apply Z.div_pos; lia|lia].
  - subst t2. pose proof (Z.mod_pos_bound (rr_ttl a) 65536 ltac:(lia)).
    split; [apply Z.div_pos; lia|apply Z.div_lt_upper_bound; lia].
  - subst t3. apply Z.mod_pos_bound. lia.
  - rewrite zdrop_app_l by (rewrite EE, zlen_app in LP;
      pose proof (zlen_nonneg ((w ++ [0]) ++ [0; 1; 0; 1; t0; t1; t2; t3; 0; 4; d0; d1; d2; d3])); lia).
    f_equal. apply zdrop_more; [lia|]. rewrite ST. exact EE.
  - rewrite zlen_zdrop by lia. lia.
Qed.
Print Assumptions C46_uncompressed_never.

(** the answer for www.com, with the name written out again *)
Example ex_C46_never : name_wire demo_q [str "www"; str "com"] /\
  (exists u b v, demo_q = u ++ b :: v ++ [0] /\ 64 <= b /\ v <> []) /\
  Forall (Forall (fun b => 1 <= b < 256)) [str "www"; str "com"] /\
  dns_response (zlen demo_q) [RxData (response 48879 33152 1 0 0 demo_q (enc_rr (mkRR demo_q 1 1 60 [93; 184; 216; 34])))]
    = Ok DFail.
Proof.
  split.
  { apply (nw_label (str "www")); [vm_compute; split; discriminate|].
    apply (nw_label (str "com")); [vm_compute; split; discriminate|constructor]. }
  split; [exists [3], 119, (str "ww" ++ [3] ++ str "com"); repeat split; discriminate|].
  split; [|vm_compute; reflexivity].
  repeat constructor; discriminate.
Qed.
