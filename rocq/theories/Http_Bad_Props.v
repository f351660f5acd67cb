(** * C106: a malformed request is refused *)
From Verif Require Import Base Str_Spec Meta_Model Meta_Proofs S5_Model Http_Model Http_Spec Http_Proofs Http_Props.
From Coq Require Import String.
Local Arguments Z.add : simpl never.
Local Arguments Z.sub : simpl never.
Local Arguments zlen : simpl never.

(** the full claim: what is accepted starts with an HTTP request head *)
Definition C106_property : Prop := forall d ins fuel r m ins', d <> [] -> bytes d ->
  http_start fuel (RxData d :: ins) = Ok (HComplete r m ins') ->
  exists q rest, wf_req_rfc q /\ d ++ flat ins = print_req q ++ rest.

(** characters that may occur in a head *)
Definition head_char (b : Z) : Prop := text b \/ b = 13 \/ b = 10.

Lemma not_bad b : bad_byte b = false -> head_char b.
Proof. unfold bad_byte, CR, LF, head_char, text. lia. Qed.

(** the method has 1 to 16 characters once it has been read *)
Definition mlen (r : hreq) : Prop :=
  match q_ph r with PLine LMethodInit | PLine LMethod => True | _ => 1 <= s_len (q_method r) <= 16 end.

Lemma with_kv_method r f s r' : with_kv r f s = BNext r' -> q_method r' = q_method r /\ q_ph r' = PHdrs s.
Proof.
  unfold with_kv. destruct (zget _ _); [|discriminate]. destruct (zput _ _ _); [|discriminate].
  intros E. injection E as <-. auto.
Qed.
Lemma with_kv_not_done r f s r' : with_kv r f s <> BDone r'.
Proof. unfold with_kv. destruct (zget _ _); [|discriminate]. destruct (zput _ _ _); discriminate. Qed.
Lemma byte_step_mlen r p b : mlen r ->
  match byte_step r p b with BNext r' | BDone r' => mlen r' /\ head_char b | _ => True end.
Proof.
  intros M. unfold byte_step. destruct (bad_byte b) eqn:B; [exact I|]. pose proof (not_bad b B) as HC.
  unfold mlen in M. destruct (q_ph r) as [s|s|] eqn:P; [| |exact I].
  - destruct s; unfold line_byte; cbn zeta;
      repeat match goal with |- context[if ?c then _ else _] => destruct c eqn:? end; try exact I;
      (split; [|exact HC]); unfold mlen; cbn [q_ph set_ph]; rewrite ?P; cbn [q_method set_ph set_method set_scheme set_host set_uri set_port set_ver]; try exact I; try exact M.
    cbn in *. lia.
  - assert (K : forall f st, match with_kv r f st with BNext r' | BDone r' => mlen r' /\ head_char b | _ => True end).
    { intros f st. destruct (with_kv r f st) as [r'|r'| |] eqn:W; try exact I.
      - destruct (with_kv_method _ _ _ _ W) as (A & C). split; [|exact HC]. unfold mlen. rewrite C, A. exact M.
      - destruct (with_kv_not_done _ _ _ _ W). }
    destruct s; unfold hdr_byte; cbn zeta;
      repeat match goal with |- context[if ?c then _ else _] => destruct c eqn:? end; try exact I; try apply K;
      (split; [|exact HC]); unfold mlen; cbn [q_ph set_ph]; rewrite ?P; exact M.
Qed.

(** only a line feed completes a line or the headers *)
Lemma done_lf r p b r' : byte_step r p b = BDone r' -> b = 10.
Proof.
  unfold byte_step. destruct (bad_byte b); [discriminate|]. destruct (q_ph r) as [s|s|]; [| |discriminate].
  - destruct s; unfold line_byte; cbn zeta; repeat match goal with |- context[if ?c then _ else _] => destruct c eqn:? end; try discriminate.
    unfold LF in *. lia.
  - destruct s; unfold hdr_byte; cbn zeta; repeat match goal with |- context[if ?c then _ else _] => destruct c eqn:? end; try discriminate.
    all: try (intros X; destruct (with_kv_not_done _ _ _ _ X); fail). unfold LF in *. lia.
Qed.

Lemma scan_chars : forall bs r p, mlen r ->
  match scan r p bs with
  | SEnd r' => mlen r'
  | SDone r' q => mlen r' /\ p <= q < p + zlen bs /\ Forall head_char (ztake (q + 1 - p) bs) /\ zget bs (q - p) = Some 10
  | _ => True
  end.
Proof.
  induction bs as [|b bs IH]; intros r p M; [exact M|]. cbn [scan]. pose proof (byte_step_mlen r p b M) as H.
  pose proof (zlen_nonneg bs). rewrite zlen_cons.
  destruct (byte_step r p b) as [r'|r'| |f] eqn:B; try exact I.
  - destruct H as (M' & HC). specialize (IH r' (p + 1) M'). destruct (scan r' (p + 1) bs) as [r2|r2 q| |f]; try exact IH.
    destruct IH as (A & R & F & G). split; [exact A|]. split; [lia|]. split.
    + rewrite ztake_cons by lia. replace (q + 1 - p - 1) with (q + 1 - (p + 1)) by lia. constructor; assumption.
    + rewrite zget_cons by lia. replace (q - p - 1) with (q - (p + 1)) by lia. exact G.
  - destruct H as (M' & HC). split; [exact M'|]. split; [lia|]. replace (p + 1 - p) with 1 by lia. rewrite Z.sub_diag.
    rewrite ztake_cons by lia. rewrite ztake_le0 by lia. split; [constructor; [exact HC|constructor]|].
    pose proof (done_lf _ _ _ _ B) as ->. reflexivity.
Qed.

(** what has been received is a prefix of the stream *)
Definition got (m : meta) : list Z := ztake (mlast m) (mbuf m).
Lemma recv_got m ins m' ins' : meta_wf m -> do_recv m ins = Ok (FGot m' ins') ->
  meta_wf m' /\ mpos m' = mpos m /\ got m' ++ flat ins' = got m ++ flat ins /\ ztake (mpos m') (mbuf m') = ztake (mpos m) (mbuf m).
Proof.
  intros W R. assert (G : 1 <= meta_getfree m).
  { unfold do_recv in R. destruct (Z.ltb_spec (meta_getfree m) 1); [discriminate|lia]. }
  destruct ins as [|[[|b bs]| |] t].
  1,2,4,5: unfold do_recv in R; destruct (Z.ltb_spec (meta_getfree m) 1); [lia|discriminate R].
  destruct (do_recv_data m b bs t W G) as (m2 & R2 & W2 & D2 & C2 & P2 & L2 & PU).
  rewrite R in R2. injection R2 as <- ->. split; [exact W2|]. split; [exact P2|].
  apply zput_some in PU as (X1 & X2 & E). pose proof W as (A1 & A2). unfold meta_cap in A2.
  assert (zlen (ztake (meta_getfree m) (b :: bs)) = Z.min (meta_getfree m) (zlen (b :: bs))) as LL.
  { pose proof (zlen_nonneg (b :: bs)). rewrite zlen_ztake; lia. }
  pose proof (zlen_nonneg (b :: bs)) as NB.
  assert (zlen (ztake (mlast m) (mbuf m)) = mlast m) as LM by (rewrite zlen_ztake; lia).
  split.
  - rewrite flat_unread by lia. cbn [flat]. rewrite app_assoc. change (b :: bs ++ flat t) with ((b :: bs) ++ flat t). rewrite !app_assoc. f_equal.
    unfold got. rewrite E, L2. rewrite ztake_app_r by lia. rewrite LM.
    rewrite ztake_app_l by lia. rewrite <- app_assoc. f_equal.
    rewrite (ztake_all (_ - _)) by lia. apply ztake_zdrop.
  - rewrite E, P2. rewrite ztake_app_l by lia. rewrite ztake_ztake. f_equal. lia.
Qed.

Definition jinv (r : hreq) (m : meta) (ins : list rx) (D : list Z) : Prop :=
  mlen r /\ meta_wf m /\ Forall head_char (ztake (mpos m) (mbuf m)) /\
  ((exists s, q_ph r = PLine s /\ mpos m = 0) \/ zget (mbuf m) (mpos m - 1) = Some 10) /\
  exists tail, D = ztake (mpos m) (mbuf m) ++ tail /\ (q_ph r <> PBody -> D = got m ++ flat ins).

Lemma hdr_finish_same buf r r' : hdr_finish buf r = Ok r' -> q_ph r' = q_ph r /\ q_method r' = q_method r.
Proof.
  unfold hdr_finish. intros HF. apply bind_ok in HF as (kk & _ & HF). apply bind_ok in HF as (g & _ & HF).
  destruct g; [injection HF as <-; auto|]. apply bind_ok in HF as (g2 & _ & HF).
  destruct g2; injection HF as <-; auto.
Qed.

Lemma run_chars : forall fuel r m ins D r' m' ins', jinv r m ins D ->
  http_run fuel r m ins = Ok (HComplete r' m' ins') ->
  1 <= s_len (q_method r') <= 16 /\ Forall head_char (ztake (mpos m') (mbuf m')) /\ zget (mbuf m') (mpos m' - 1) = Some 10 /\
  exists tail, D = ztake (mpos m') (mbuf m') ++ tail.
Proof.
  induction fuel as [|k IH]; intros r m ins D r' m' ins' J R; [discriminate|]. cbn [http_run] in R.
  destruct J as (M & W & F & Q & tail & T & G).
  assert (SC : forall m1 ins1, q_ph r <> PBody -> meta_wf m1 -> mpos m1 = mpos m -> ztake (mpos m1) (mbuf m1) = ztake (mpos m) (mbuf m) ->
    got m1 ++ flat ins1 = D -> zget (mbuf m1) (mpos m1 - 1) = zget (mbuf m) (mpos m - 1) ->
    match scan r (mpos m1) (mdata m1) with
            | SErr => Ok HFail
            | SFault f => Fault f
            | SDone r' p =>
                let m2 := mkMeta (mbuf m1) (p + 1) (mlast m1) in
                match q_ph r' with
                | PBody => let* r2 := hdr_finish (mbuf m1) r' in http_run k r2 m2 ins1
                | _ => http_run k r' m2 ins1
                end
            | SEnd r' => if meta_getfree m1 <? 1 then Ok HFail else http_run k r' m1 ins1
            end = Ok (HComplete r' m' ins') ->
    1 <= s_len (q_method r') <= 16 /\ Forall head_char (ztake (mpos m') (mbuf m')) /\ zget (mbuf m') (mpos m' - 1) = Some 10 /\
    exists tail, D = ztake (mpos m') (mbuf m') ++ tail).
  { clear R. intros m1 ins1 NB W1 P1 T1 G1 Z1 R. pose proof (scan_chars (mdata m1) r (mpos m1) M) as S.
    pose proof (mdata_len m1 W1) as DL. pose proof W1 as (B1 & B2). unfold meta_cap in B2. unfold meta_getlen in DL.
    assert (DT : D = ztake (mpos m1) (mbuf m1) ++ (zdrop (mpos m1) (got m1) ++ flat ins1)).
    { rewrite app_assoc. rewrite <- G1 at 1. f_equal. rewrite <- (ztake_zdrop (mpos m1) (got m1)) at 1. f_equal.
      unfold got. rewrite ztake_ztake. f_equal. lia. }
    destruct (scan r (mpos m1) (mdata m1)) as [r1|r1 p| |f] eqn:SE; try discriminate R.
    - destruct (meta_getfree m1 <? 1); [discriminate R|]. apply (IH r1 m1 ins1 D r' m' ins'); [|exact R].
      assert (KP : (exists s, q_ph r = PLine s) -> exists s, q_ph r1 = PLine s).
      { clear - SE. revert SE. generalize (mpos m1) as p. revert r. induction (mdata m1) as [|b l IHl]; intros r p SE X; cbn [scan] in SE.
        - injection SE as <-. exact X.
        - destruct (byte_step r p b) as [r2|r2| |] eqn:BS; try discriminate. apply (IHl r2 (p + 1) SE).
          destruct X as (s & X). unfold byte_step in BS. destruct (bad_byte b); [discriminate|]. rewrite X in BS.
          destruct s; unfold line_byte in BS; cbn zeta in BS;
            repeat match type of BS with context[if ?c then _ else _] => destruct c end; try discriminate; injection BS as <-; cbn [q_ph set_ph]; eauto. }
      split; [exact S|]. split; [exact W1|]. split; [rewrite T1; exact F|]. split.
      + destruct Q as [(s & X & Y)|Q]; [left|right; rewrite Z1; exact Q].
        destruct (KP (ex_intro _ s X)) as (s' & X'). exists s'. rewrite P1. auto.
      + eexists. split; [exact DT|]. intros _. symmetry. exact G1.
    - destruct S as (M1 & RG & FC & LFp). cbn zeta in R.
      set (m2 := mkMeta (mbuf m1) (p + 1) (mlast m1)) in *.
      assert (W2 : meta_wf m2) by (unfold meta_wf, meta_cap, m2; cbn; lia).
      assert (TK : ztake (p + 1) (mbuf m1) = ztake (mpos m1) (mbuf m1) ++ ztake (p + 1 - mpos m1) (mdata m1)).
      { replace (p + 1) with (mpos m1 + (p + 1 - mpos m1)) at 1 by lia. rewrite <- ztake_add by lia. f_equal.
        unfold mdata, zslice. rewrite ztake_ztake. f_equal. lia. }
      assert (J2 : forall r2, q_ph r2 = q_ph r1 -> q_method r2 = q_method r1 -> jinv r2 m2 ins1 D).
      { intros r2 E1 E2. split; [unfold mlen; rewrite E1, E2; exact M1|]. split; [exact W2|]. split.
        - unfold m2. cbn [mpos mbuf]. rewrite TK. apply Forall_app. split; [rewrite T1; exact F|exact FC].
        - split; [right|].
          + unfold m2. cbn [mpos mbuf]. replace (p + 1 - 1) with p by lia.
            unfold mdata in LFp. rewrite zget_zslice in LFp by lia. replace (mpos m1 + (p - mpos m1)) with p in LFp by lia. exact LFp.
          + exists (zdrop (p + 1) (got m1) ++ flat ins1). split; [|intros _; unfold got, m2; cbn [mlast mbuf]; symmetry; exact G1].
            unfold m2. cbn [mpos mbuf]. rewrite app_assoc. rewrite <- G1. f_equal. rewrite <- (ztake_zdrop (p + 1) (got m1)) at 1. f_equal.
            unfold got. rewrite ztake_ztake. f_equal. lia. }
      destruct (q_ph r1) eqn:EP.
      1,2: apply (IH r1 m2 ins1 D r' m' ins'); [apply J2; auto|exact R].
      destruct (hdr_finish (mbuf m1) r1) as [r2|f|] eqn:HF; cbn [bind] in R; try discriminate R.
      destruct (hdr_finish_same _ _ _ HF) as (E1 & E2).
      apply (IH r2 m2 ins1 D r' m' ins'); [apply J2; [rewrite E1; exact EP|exact E2]|exact R]. }
  assert (ML : q_ph r <> PBody ->
    (let* f := (if meta_getlen m <? 1 then do_recv m ins else Ok (FGot m ins)) in
        match f with
        | FNone => Ok (HWait r m)
        | FErr => Ok HFail
        | FAgain ins' => http_run k r m ins'
        | FGot m' ins' =>
            match scan r (mpos m') (mdata m') with
            | SErr => Ok HFail
            | SFault f => Fault f
            | SDone r' p =>
                let m2 := mkMeta (mbuf m') (p + 1) (mlast m') in
                match q_ph r' with
                | PBody => let* r2 := hdr_finish (mbuf m') r' in http_run k r2 m2 ins'
                | _ => http_run k r' m2 ins'
                end
            | SEnd r' => if meta_getfree m' <? 1 then Ok HFail else http_run k r' m' ins'
            end
        end) = Ok (HComplete r' m' ins') ->
    1 <= s_len (q_method r') <= 16 /\ Forall head_char (ztake (mpos m') (mbuf m')) /\ zget (mbuf m') (mpos m' - 1) = Some 10 /\
    exists tail, D = ztake (mpos m') (mbuf m') ++ tail).
  { clear R. intros NB R. destruct (meta_getlen m <? 1).
    - destruct (do_recv m ins) as [[m1 ins1|ins1| |]|f|] eqn:RC; cbn [bind] in R; try discriminate R.
      + destruct (recv_got m ins m1 ins1 W RC) as (W1 & P1 & G1 & T1). apply (SC m1 ins1); auto.
        * rewrite G1. symmetry. apply G. exact NB.
        * destruct (Z_le_gt_dec (mpos m) 0) as [L0|L0].
          { rewrite P1. rewrite (proj2 (zget_none (mbuf m) (mpos m - 1))) by lia. apply zget_none. lia. }
          rewrite <- (zget_ztake (mpos m1) (mbuf m1)) by lia. rewrite <- (zget_ztake (mpos m) (mbuf m)) by lia. rewrite T1, P1. reflexivity.
      + apply (IH r m ins1 D r' m' ins'); [|exact R]. split; [exact M|]. split; [exact W|]. split; [exact F|]. split; [exact Q|].
        exists tail. split; [exact T|]. intros X. rewrite (G X). f_equal.
        unfold do_recv in RC. destruct (meta_getfree m <? 1); [discriminate|]. destruct ins as [|[[|b bs]| |] t]; try discriminate.
        * destruct (meta_store _ _); discriminate.
        * injection RC as <-. reflexivity.
    - cbn [bind] in R. apply (SC m ins); auto. symmetry. apply G. exact NB. }
  destruct (q_ph r) eqn:EP; [apply ML; [discriminate|exact R]..|]. clear ML SC.
  assert (QL : zget (mbuf m) (mpos m - 1) = Some 10).
  { destruct Q as [(s & X & _)|Q]; [discriminate X|exact Q]. }
  assert (ME : 1 <= s_len (q_method r) <= 16) by (unfold mlen in M; rewrite EP in M; exact M).
  assert (JB : forall n py i, jinv (set_pay r n py) m i D).
  { intros n py i. split; [unfold mlen; cbn [q_ph set_pay]; rewrite EP; exact ME|]. split; [exact W|]. split; [exact F|].
    split; [right; exact QL|]. exists tail. split; [exact T|]. cbn [q_ph set_pay]. rewrite EP. congruence. }
  assert (JR : forall i, jinv r m i D).
  { intros i. split; [exact M|]. split; [exact W|]. split; [exact F|].
    split; [right; exact QL|]. exists tail. split; [exact T|]. rewrite EP. congruence. }
  assert (FIN : forall x, s_len (q_method x) = s_len (q_method r) -> x = r' -> m = m' ->
    1 <= s_len (q_method r') <= 16 /\ Forall head_char (ztake (mpos m') (mbuf m')) /\ zget (mbuf m') (mpos m' - 1) = Some 10 /\
    exists tail, D = ztake (mpos m') (mbuf m') ++ tail).
  { intros x E <- <-. rewrite E. split; [exact ME|]. split; [exact F|]. split; [exact QL|]. exists tail. exact T. }
  destruct (q_pay r) as [py|] eqn:EY.
  - destruct (meta_getlen py <? q_payn r).
    + destruct (do_recv py ins) as [[m1 ins1|ins1| |]|f|]; cbn [bind] in R; try discriminate R.
      * apply (IH _ _ _ D _ _ _ (JB _ _ _) R).
      * apply (IH _ _ _ D _ _ _ (JR _) R).
    + injection R as E1 E2 _. apply (FIN r); auto.
  - destruct (clen_loop _ _ _) as [[n|]|f|]; cbn [bind] in R; try discriminate R.
    destruct (0 <? n).
    + destruct (meta_fits n); [|discriminate R]. destruct (meta_getlen m =? 0).
      * apply (IH _ _ _ D _ _ _ (JB _ _ _) R).
      * destruct (meta_pdata (meta_new n) (mdata m)) as [[o x]|f|]; cbn [bind fst snd] in R; try discriminate R.
        destruct o; [|discriminate R]. apply (IH _ _ _ D _ _ _ (JB _ _ _) R).
    + injection R as E1 E2 _. apply (FIN (set_pay r n None)); auto.
Qed.

(** whatever the segmentation: if a request is accepted, the bytes consumed as its head are
    the first bytes of the stream, they are text, CR or LF, they end with LF, and the method
    has 1 to 16 characters. In particular a request with a control character or a byte above
    127 in its head is not accepted. *)
Theorem C106_partial : forall fuel ins r m ins',
  http_start fuel ins = Ok (HComplete r m ins') ->
  let head := ztake (mpos m) (mbuf m) in
  (exists tail, flat ins = head ++ tail) /\ Forall head_char head /\ (exists h, head = h ++ [10]) /\
  1 <= s_len (q_method r) <= 16.
Proof.
  intros fuel ins r m ins' R head. unfold http_start in R. destruct (meta_new_wf 4096) as (W & C & D); [lia|].
  destruct (run_chars fuel req_new (meta_new 4096) ins (flat ins) r m ins') as (A & B & L & T).
  - split; [exact I|]. split; [exact W|]. split; [constructor|]. split; [left; eexists; split; reflexivity|].
    exists (flat ins). split; [reflexivity|]. intros _. reflexivity.
  - exact R.
  - split; [exact T|]. split; [exact B|]. split; [|exact A].
    pose proof (zget_some_range _ _ _ L) as RG. exists (ztake (mpos m - 1) (mbuf m)). unfold head.
    replace (mpos m) with (mpos m - 1 + 1) at 1 by lia. rewrite <- ztake_add by lia. f_equal.
    destruct (zdrop (mpos m - 1) (mbuf m)) as [|b l] eqn:Z.
    + pose proof (zlen_zdrop (mpos m - 1) (mbuf m) ltac:(lia)) as LZ. rewrite Z, zlen_nil in LZ. lia.
    + rewrite ztake_cons by lia. rewrite ztake_le0 by lia. f_equal.
      pose proof (zget_zdrop (mpos m - 1) (mbuf m) 0) as X. rewrite Z, zget_0 in X. rewrite Z.add_0_r in X.
      rewrite L in X. specialize (X ltac:(lia) ltac:(lia)). injection X as ->. reflexivity.
Qed.
Print Assumptions C106_partial.

(** a line that ends with CR and anything but LF *)
Lemma lf_state r p r' : byte_step r p 10 = BDone r' -> q_ph r' = PHdrs HKeyInit ->
  forall b, b <> 10 -> byte_step r p b = BErr.
Proof.
  intros S P b N. unfold byte_step in S |- *. change (bad_byte 10) with false in S. cbv iota in S.
  destruct (bad_byte b); [reflexivity|]. destruct (q_ph r) as [s|s|]; [| |discriminate].
  - destruct s; unfold line_byte in S; cbn zeta in S;
      repeat match type of S with context[if ?c then _ else _] => destruct c end; try discriminate S.
    unfold line_byte. unfold LF. destruct (Z.eqb_spec b 10); [contradiction|reflexivity].
  - destruct s; unfold hdr_byte in S; cbn zeta in S; 
      repeat match type of S with context[if ?c then _ else _] => destruct c end; try discriminate S;
      try (destruct (with_kv_not_done _ _ _ _ S); fail).
    injection S as <-. discriminate P.
Qed.
(** [print_line] without its last byte *)
Definition open_line (q : request) : list Z :=
  rq_method q ++ [32] ++ print_target (rq_target q) ++ [32] ++ rq_version q ++ [13].
Lemma open_line_eq q : print_line q = open_line q ++ [10].
Proof. unfold print_line, open_line, crlf. rewrite <- !app_assoc. reflexivity. Qed.
Definition open_hdr (h : header) : list Z := h_name h ++ [58] ++ zrepeat 32 (h_sp h) ++ h_value h ++ [13].
Lemma open_hdr_eq h : print_hdr h = open_hdr h ++ [10].
Proof. unfold print_hdr, open_hdr, crlf. rewrite <- !app_assoc. reflexivity. Qed.

Theorem C106_bare_cr_line_partial : forall q b rest ins fuel, wf_req q -> b <> 10 -> zlen (open_line q) < 4096 ->
  http_start (S fuel) (RxData (open_line q ++ b :: rest) :: ins) = Ok HFail.
Proof.
  intros q b rest ins fuel W N FIT.
  destruct (open_line q ++ b :: rest) as [|c t] eqn:EQ.
  { destruct (open_line q); discriminate EQ. }
  destruct (new_run fuel c t ins) as (m & R & Wm & Cm & Pm & Dm). rewrite R. rewrite <- EQ in *. clear R.
  pose proof (zlen_nonneg (open_line q)). rewrite ztake_app_r in Dm by lia.
  rewrite ztake_cons in Dm by lia. set (rest' := ztake _ rest) in Dm.
  assert (SC : scan req_new (mpos m) (mdata m) = SErr).
  { rewrite Pm, Dm. destruct (scan_line req_new 0 q [] eq_refl W) as (r' & S & P & _).
    rewrite app_nil_r, open_line_eq in S. rewrite scan_app in S |- *.
    pose proof (scan_chars (open_line q) req_new 0 I) as SH.
    destruct (scan req_new 0 (open_line q)) as [r1|r1 p| |f]; try discriminate S.
    - cbn [scan] in S |- *. destruct (byte_step r1 (0 + zlen (open_line q)) 10) as [r2|r2| |f] eqn:BS; try discriminate S.
      injection S as -> _. rewrite (lf_state _ _ _ BS P b N). reflexivity.
    - injection S as -> E. destruct SH as (_ & SH & _). rewrite zlen_app in E. change (zlen [10]) with 1 in E. lia. }
  cbn [http_run req_new q_ph].
  destruct (Z.ltb_spec (meta_getlen m) 1) as [L|L].
  { rewrite <- mdata_len in L by assumption. rewrite Dm, zlen_app, zlen_cons in L. pose proof (zlen_nonneg rest'). lia. }
  cbn [bind]. fold req_new. rewrite SC. reflexivity.
Qed.
Print Assumptions C106_bare_cr_line_partial.

Lemma lf_state_hdr r p r' : byte_step r p 10 = BNext r' -> q_ph r' = PHdrs HKeyInit ->
  forall b, b <> 10 -> byte_step r p b = BErr.
Proof.
  intros S P b N. unfold byte_step in S |- *. change (bad_byte 10) with false in S. cbv iota in S.
  destruct (bad_byte b); [reflexivity|]. destruct (q_ph r) as [s|s|] eqn:PR; [| |discriminate].
  - exfalso. destruct s; unfold line_byte in S; cbn zeta in S;
      repeat match type of S with context[if ?c then _ else _] => destruct c end; try discriminate S;
      injection S as <-; cbn [q_ph set_ph] in P; try discriminate P; rewrite PR in P; discriminate P.
  - destruct s; unfold hdr_byte in S; cbn zeta in S.
    + change (10 =? CR) with false in S. cbv iota in S. apply with_kv_method in S as (_ & S). rewrite S in P. discriminate P.
    + change (10 =? COLON) with false in S. injection S as <-. rewrite PR in P. discriminate P.
    + change (10 =? SP) with false in S. cbv iota in S. apply with_kv_method in S as (_ & S). rewrite S in P. discriminate P.
    + change (10 =? CR) with false in S. injection S as <-. rewrite PR in P. discriminate P.
    + unfold hdr_byte, LF. destruct (Z.eqb_spec b 10); [contradiction|reflexivity].
    + change (10 =? LF) with true in S. discriminate S.
Qed.

(** the same for a header line behind any complete line and up to 14 complete headers *)
Theorem C106_bare_cr_header_partial : forall q hs h b rest ins fuel, wf_req q -> Forall wf_hdr hs -> wf_hdr h -> zlen hs <= 14 ->
  b <> 10 -> zlen (print_line q ++ List.concat (map print_hdr hs) ++ open_hdr h) < 4096 ->
  http_start (S (S fuel)) (RxData (print_line q ++ List.concat (map print_hdr hs) ++ open_hdr h ++ b :: rest) :: ins) = Ok HFail.
Proof.
  intros q hs h b rest ins fuel W Wh W1 L14 N FIT. rewrite !zlen_app in FIT.
  set (d := print_line q ++ List.concat (map print_hdr hs) ++ open_hdr h ++ b :: rest).
  destruct d as [|c t] eqn:EQ.
  { exfalso. unfold d in EQ. apply app_eq_nil in EQ as (_ & EQ). apply app_eq_nil in EQ as (_ & EQ). apply app_eq_nil in EQ as (_ & EQ). discriminate EQ. }
  destruct (new_run (S fuel) c t ins) as (m & R & Wm & Cm & Pm & Dm). rewrite R. rewrite <- EQ in *. clear R. unfold d in Dm.
  pose proof (zlen_nonneg (print_line q)). pose proof (zlen_nonneg (List.concat (map print_hdr hs))). pose proof (zlen_nonneg (open_hdr h)).
  rewrite ztake_app_r in Dm by lia. rewrite ztake_app_r in Dm by lia. rewrite ztake_app_r in Dm by lia.
  rewrite ztake_cons in Dm by lia. set (rest' := ztake _ rest) in Dm.
  destruct (run_line (S fuel) req_new m (unread d 4096 ins) q _ eq_refl W Wm Dm) as (r1 & R1 & P1 & F1 & L1). rewrite R1.
  pose proof (mdata_len m Wm) as DL. rewrite Dm, !zlen_app, zlen_cons in DL. pose proof (zlen_nonneg rest').
  destruct (meta_consume_ok m (zlen (print_line q)) Wm) as (W2 & D2); [lia|].
  unfold meta_consume in W2, D2. rewrite Dm, zdrop_app_r, Z.sub_diag, zdrop_le0 in D2 by lia.
  set (m2 := mkMeta (mbuf m) (mpos m + zlen (print_line q)) (mlast m)) in *.
  destruct F1 as (F1 & F2 & F3 & F4 & F5 & F6).
  assert (SC : scan r1 (mpos m2) (mdata m2) = SErr).
  { rewrite D2, scan_app.
    destruct (scan_hdr_list hs r1 (mpos m2) P1 Wh) as (r2 & S2 & P2 & _ & L2 & N2 & _).
    { rewrite F2. reflexivity. } { rewrite F1. cbn. lia. } { rewrite F1. cbn. lia. }
    rewrite S2, scan_app. rewrite F1 in N2. cbn in N2. pose proof (zlen_nonneg hs).
    pose proof (scan_hdr r2 (mpos m2 + zlen (List.concat (map print_hdr hs))) h P2 W1 L2 ltac:(lia)) as S3.
    rewrite open_hdr_eq, scan_app in S3.
    destruct (scan r2 _ (open_hdr h)) as [r3|r3 p| |f]; try discriminate S3.
    cbn [scan] in S3 |- *. destruct (byte_step r3 _ 10) as [r4|r4| |f] eqn:BS; try discriminate S3.
    injection S3 as S3. rewrite (lf_state_hdr _ _ _ BS ltac:(rewrite S3; reflexivity) b N). reflexivity. }
  cbn [http_run]. rewrite P1.
  destruct (Z.ltb_spec (meta_getlen m2) 1) as [L|L].
  { rewrite <- mdata_len in L by assumption. rewrite D2, !zlen_app, zlen_cons in L. lia. }
  cbn [bind]. rewrite SC. reflexivity.
Qed.
Print Assumptions C106_bare_cr_header_partial.

(** false: a request without a version takes its first header for one; the path then holds
    line breaks *)
Fixpoint upto_cr (l : list Z) : list Z := match l with [] => [] | b :: t => if b =? 13 then [] else b :: upto_cr t end.
Definition spaces (l : list Z) : Z := zlen (filter (Z.eqb 32) l).
Lemma upto_cr_app a b : ~ In 13 a -> upto_cr (a ++ 13 :: b) = a.
Proof.
  induction a as [|x a IH]; intros N; [reflexivity|]. cbn [app upto_cr].
  destruct (Z.eqb_spec x 13) as [->|_]; [exfalso; apply N; left; reflexivity|]. rewrite IH; [reflexivity|]. intros X. apply N. right. exact X.
Qed.
Lemma spaces_app a b : spaces (a ++ b) = spaces a + spaces b.
Proof. unfold spaces. rewrite filter_app, zlen_app. reflexivity. Qed.
Lemma vis_no_cr w : Forall visible w -> ~ In 13 w.
Proof. intros F X. rewrite Forall_forall in F. specialize (F 13 X). unfold visible in F. lia. Qed.
Lemma target_visible t : wf_target t -> Forall visible (print_target t).
Proof.
  assert (V58 : visible 58) by (unfold visible; lia). assert (V47 : visible 47) by (unfold visible; lia).
  destruct t as [u|s h [p|] u]; cbn [wf_target print_target].
  - intros (F & _). exact F.
  - intros ((_ & A) & _ & _ & (_ & B) & _ & _ & ((_ & C) & _) & (D & _)). repeat (apply Forall_app; split); auto.
  - intros ((_ & A) & _ & _ & (_ & B) & _ & _ & _ & (D & _)). repeat (apply Forall_app; split); auto.
Qed.
Lemma first_line_spaces q rest : wf_req_rfc q -> 2 <= spaces (upto_cr (print_req q ++ rest)).
Proof.
  intros ((_ & A) & _ & B & (_ & C) & _). unfold print_req, print_line, crlf.
  replace ((((rq_method q ++ [32] ++ print_target (rq_target q) ++ [32] ++ rq_version q ++ [13; 10]) ++ print_hdrs (rq_headers q)) ++ rest))
    with ((rq_method q ++ [32] ++ print_target (rq_target q) ++ [32] ++ rq_version q) ++ 13 :: 10 :: print_hdrs (rq_headers q) ++ rest)
    by (rewrite <- !app_assoc; reflexivity).
  rewrite upto_cr_app.
  - rewrite !spaces_app. change (spaces [32]) with 1.
    unfold spaces. pose proof (zlen_nonneg (filter (Z.eqb 32) (rq_method q))).
    pose proof (zlen_nonneg (filter (Z.eqb 32) (print_target (rq_target q)))). pose proof (zlen_nonneg (filter (Z.eqb 32) (rq_version q))). lia.
  - rewrite !in_app_iff. pose proof (vis_no_cr _ A). pose proof (vis_no_cr _ C). pose proof (vis_no_cr _ (target_visible _ B)).
    cbn [In]. intuition lia.
Qed.

Definition no_version : list Z := str "GET /" ++ crlf ++ str "Host: x" ++ crlf ++ crlf.
Theorem C106_refuted : exists d r m ins', d <> [] /\ bytes d /\
  http_start 3 [RxData d] = Ok (HComplete r m ins') /\ slot_str (mbuf m) (q_uri r) = str "/" ++ crlf ++ str "Host:" /\
  forall q rest, wf_req_rfc q -> d <> print_req q ++ rest.
Proof.
  assert (E : match http_start 3 [RxData no_version] with
    | Ok (HComplete r m _) => bseq (slot_str (mbuf m) (q_uri r)) (str "/" ++ crlf ++ str "Host:") | _ => false end = true) by (vm_compute; reflexivity).
  destruct (http_start 3 [RxData no_version]) as [[| |r m ins']| |] eqn:R; try discriminate E.
  exists no_version, r, m, ins'. split; [discriminate|]. split; [apply bytesb_spec; reflexivity|]. split; [exact R|]. split; [apply bseq_spec; exact E|].
  intros q rest W X. pose proof (first_line_spaces q rest W) as L. rewrite <- X in L. vm_compute in L. apply L. reflexivity.
Qed.
Print Assumptions C106_refuted.
Theorem C106_property_refuted : ~ C106_property.
Proof.
  intros P. destruct C106_refuted as (d & r & m & ins' & N0 & B & R & _ & N).
  destruct (P d [] 3%nat r m ins') as (q & rest & W & E).
  - intros ->. exact (N0 eq_refl).
  - exact B.
  - exact R.
  - cbn [flat] in E. rewrite app_nil_r in E. exact (N q rest W E).
Qed.
Print Assumptions C106_property_refuted.

(** requests that meet the hypotheses *)
Example C106_example : exists r m, http_start 3 [RxData (print_req ex_q ++ str "next")] = Ok (HComplete r m []) /\
  ztake (mpos m) (mbuf m) = print_req ex_q.
Proof.
  assert (E : match http_start 3 [RxData (print_req ex_q ++ str "next")] with
    | Ok (HComplete r m []) => bseq (ztake (mpos m) (mbuf m)) (print_req ex_q) | _ => false end = true) by (vm_compute; reflexivity).
  destruct (http_start 3 _) as [[| |r m [|]]| |]; try discriminate E. exists r, m. split; [reflexivity|]. apply bseq_spec. exact E.
Qed.
Example C106_line_example : wf_req ex_q /\
  open_line ex_q = str "GET http://example.org:8080/a/b.html HTTP/1.1" ++ [13] /\ zlen (open_line ex_q) < 4096 /\
  Forall wf_hdr (rq_headers ex_q) /\ wf_hdr (hdr "Range" "bytes=0-1") /\
  open_hdr (hdr "Range" "bytes=0-1") = str "Range: bytes=0-1" ++ [13].
Proof.
  destruct (proj1 ex_q_small) as (A & B & C & D & E).
  split; [exact (proj1 ex_q_small)|]. split; [reflexivity|]. split; [vm_compute; reflexivity|].
  split; [exact E|]. split; [wfh|reflexivity].
Qed.
