(** * Lemmas about the HTTP request parser. *)
From Verif Require Import Base Str_Spec Meta_Model Meta_Proofs S5_Model Http_Model Http_Spec.
Local Arguments Z.add : simpl never.
Local Arguments Z.sub : simpl never.
Local Arguments Z.mul : simpl never.
Local Arguments zlen : simpl never.

(** ** Scanning *)
Lemma scan_app a b r p :
  scan r p (a ++ b) = match scan r p a with SEnd r' => scan r' (p + zlen a) b | x => x end.
Proof.
  revert r p. induction a as [|x a IH]; intros r p.
  - simpl. f_equal. change (zlen (@nil Z)) with 0. lia.
  - simpl. destruct (byte_step r p x); try reflexivity. rewrite IH.
    replace (p + 1 + zlen a) with (p + zlen (x :: a)) by (rewrite zlen_cons; lia). reflexivity.
Qed.

Lemma scan_stay w r p : (forall b q, In b w -> byte_step r q b = BNext r) -> scan r p w = SEnd r.
Proof.
  revert p. induction w as [|x w IH]; intros p H; [reflexivity|].
  simpl. rewrite H by (left; reflexivity). apply IH. intros; apply H; right; assumption.
Qed.

Lemma scan1 r p b r' : byte_step r p b = BNext r' -> scan r p [b] = SEnd r'.
Proof. intros H. simpl. rewrite H. reflexivity. Qed.

Lemma text_ok b : text b -> bad_byte b = false.
Proof. unfold text, bad_byte, CR, LF. intros. lia. Qed.
Lemma vis_text b : visible b -> text b.
Proof. unfold visible, text. lia. Qed.

(** the step function in a given line state, for a byte that is not rejected *)
Lemma step_line r s p b : q_ph r = PLine s -> bad_byte b = false ->
  byte_step r p b = line_byte s r p b.
Proof. intros E B. unfold byte_step. rewrite B, E. reflexivity. Qed.
Lemma step_hdr r s p b : q_ph r = PHdrs s -> bad_byte b = false ->
  byte_step r p b = hdr_byte s r p b.
Proof. intros E B. unfold byte_step. rewrite B, E. reflexivity. Qed.

Ltac noteq b := let E := fresh in
  destruct (Z.eqb_spec b SP) as [E|_]; [unfold SP in E; lia|];
  destruct (Z.eqb_spec b CR) as [E|_]; [unfold CR in E; lia|];
  destruct (Z.eqb_spec b LF) as [E|_]; [unfold LF in E; lia|].

(** a word read in one of the states that only wait for a delimiter *)
Definition waits (s : lstate) (b : Z) : Prop :=
  match s with
  | LMethod | LUri => b <> 32
  | LScheme => b <> 58
  | LHost => b <> 58 /\ b <> 47
  | LPort => b <> 47
  | LVer => b <> 13
  | _ => False
  end.

Lemma scan_word s r p w : q_ph r = PLine s -> (forall b, In b w -> text b /\ waits s b) ->
  scan r p w = SEnd r.
Proof.
  intros E H. apply scan_stay. intros b q I. destruct (H b I) as (T & W).
  rewrite (step_line r s) by (auto using text_ok).
  destruct s; simpl in W; try contradiction; unfold line_byte, SP, COLON, SLASH, CR;
    repeat match goal with |- context[?x =? ?y] => destruct (Z.eqb_spec x y); [exfalso; lia|] end;
    reflexivity.
Qed.

Lemma word_waits w : Forall visible w -> forall b, In b w -> text b /\ b <> 32 /\ b <> 13.
Proof. intros F b I. rewrite Forall_forall in F. specialize (F b I). unfold visible, text in *. lia. Qed.

(** fields that the request line parser does not touch *)
Definition frame (r r' : hreq) : Prop :=
  q_kvn r' = q_kvn r /\ q_kvs r' = q_kvs r /\ q_mtyp r' = q_mtyp r /\ q_keep r' = q_keep r /\
  q_payn r' = q_payn r /\ q_pay r' = q_pay r.

Lemma scan_path r p w : q_ph r = PLine LUri -> Forall visible w ->
  scan r p (w ++ [32]) = SEnd (set_ph (set_uri r (set_end (q_uri r) (p + zlen w))) (PLine LVerInit)).
Proof.
  intros E F. rewrite scan_app, (scan_word LUri) by
    (auto; intros b I; destruct (word_waits w F b I) as (? & ? & ?); split; assumption).
  apply scan1. rewrite (step_line r LUri) by (auto; reflexivity). reflexivity.
Qed.

Lemma path_tail t : wf_path (47 :: t) -> Forall visible t.
Proof. intros (F & _). exact (Forall_inv_tail F). Qed.

Lemma not_in_waits (x : Z) w b : ~ In x w -> In b w -> b <> x.
Proof. intros N I ->. contradiction. Qed.

Lemma scan_target r p t : q_ph r = PLine LSchemeInit -> wf_target t ->
  exists r', scan r p (print_target t ++ [32]) = SEnd r' /\ q_ph r' = PLine LVerInit /\
    q_method r' = q_method r /\ frame r r' /\
    q_uri r' = mkSlot (p + zlen (print_target t) - zlen (target_uri t)) (zlen (target_uri t)) /\
    match t with
    | TPath _ => True
    | TAbs s h po _ =>
        q_scheme r' = mkSlot p (zlen s) /\ q_host r' = mkSlot (p + zlen s + 3) (zlen h) /\
        match po with Some po => q_port r' = mkSlot (p + zlen s + 3 + zlen h + 1) (zlen po) | None => True end
    end.
Proof.
  intros E W. destruct t as [u|s h po u].
  - destruct W as (F & t & ->). cbn [print_target target_uri]. eexists. split.
    + change ((47 :: t) ++ [32]) with ([47] ++ (t ++ [32])). rewrite scan_app.
      rewrite (scan1 r p 47 (set_ph (set_uri r (set_off (q_uri r) p)) (PLine LUri)))
        by (rewrite (step_line r LSchemeInit) by (auto; reflexivity); reflexivity).
      apply scan_path; [reflexivity|]. exact (Forall_inv_tail F).
    + cbn. change (zlen [47]) with 1. unfold set_end. cbn.
      split; [reflexivity|]. split; [reflexivity|]. split; [unfold frame; cbn; auto 10|].
      split; [|exact I]. rewrite zlen_cons. f_equal; lia.
  - destruct W as ((Ns & Fs) & Hs & Cs & (Nh & Fh) & Ch & Sh & Wp & (Fu & ut & ->)).
    destruct s as [|s0 s]; [contradiction|]. destruct h as [|h0 h]; [contradiction|].
    pose proof (word_waits _ Fs) as Ws. pose proof (word_waits _ Fh) as Wh.
    pose proof (Ws s0 (or_introl eq_refl)) as (Ts0 & Ns0 & _).
    pose proof (Wh h0 (or_introl eq_refl)) as (Th0 & _ & _).
    assert (N47 : s0 <> 47) by (apply Hs; reflexivity).
    (* scheme *)
    set (r1 := set_ph (set_scheme r (set_off (q_scheme r) p)) (PLine LScheme)).
    set (r2 := set_ph (set_scheme r1 (set_end (q_scheme r1) (p + 1 + zlen s))) (PLine LSlash)).
    assert (S1 : scan r p ((s0 :: s) ++ [58]) = SEnd r2).
    { change ((s0 :: s) ++ [58]) with ([s0] ++ (s ++ [58])). rewrite scan_app.
      rewrite (scan1 r p s0 r1).
      2:{ rewrite (step_line r LSchemeInit) by (auto using text_ok). unfold line_byte, SP, SLASH.
          destruct (Z.eqb_spec s0 32); [lia|]. destruct (Z.eqb_spec s0 47); [lia|]. reflexivity. }
      rewrite scan_app, (scan_word LScheme).
      2: reflexivity.
      2:{ intros b I. destruct (Ws b (or_intror I)) as (? & _). split; [assumption|].
          apply (not_in_waits 58 (s0 :: s)); [assumption|right; assumption]. }
      apply scan1. rewrite (step_line r1 LScheme) by reflexivity. reflexivity. }
    set (r4 := set_ph (set_ph r2 (PLine LSlashSlash)) (PLine LHostInit)).
    assert (S2 : forall q, scan r2 q [47; 47] = SEnd r4) by reflexivity.
    set (ph := p + 1 + zlen s + 1 + 1 + 1).
    set (r5 := set_ph (set_host r4 (set_off (q_host r4) ph)) (PLine LHost)).
    assert (S3 : scan r4 ph (h0 :: h) = SEnd r5).
    { change (h0 :: h) with ([h0] ++ h). rewrite scan_app, (scan1 r4 ph h0 r5).
      2:{ rewrite (step_line r4 LHostInit) by (auto using text_ok). reflexivity. }
      apply (scan_word LHost); [reflexivity|]. intros b I.
      destruct (Wh b (or_intror I)) as (? & _). split; [assumption|].
      split; [apply (not_in_waits 58 (h0 :: h))|apply (not_in_waits 47 (h0 :: h))]; auto; right; assumption. }
    destruct po as [po|].
    + destruct Wp as ((Np & Fp) & Sp). destruct po as [|p0 po]; [contradiction|].
      pose proof (word_waits _ Fp) as Wp. pose proof (Wp p0 (or_introl eq_refl)) as (Tp0 & _ & _).
      set (pc := ph + 1 + zlen h).
      set (r6 := set_ph (set_host r5 (set_end (q_host r5) pc)) (PLine LPortInit)).
      set (r7 := set_ph (set_port r6 (set_off (q_port r6) (pc + 1))) (PLine LPort)).
      set (pu := pc + 1 + 1 + zlen po).
      set (r8 := set_ph (set_uri (set_port r7 (set_end (q_port r7) pu)) (set_off (q_uri r7) pu)) (PLine LUri)).
      assert (S4 : scan r5 pc [58] = SEnd r6) by (apply scan1; rewrite (step_line r5 LHost) by reflexivity; reflexivity).
      assert (S5 : scan r6 (pc + 1) (p0 :: po) = SEnd r7).
      { change (p0 :: po) with ([p0] ++ po). rewrite scan_app, (scan1 r6 (pc + 1) p0 r7).
        2:{ rewrite (step_line r6 LPortInit) by (auto using text_ok). reflexivity. }
        apply (scan_word LPort); [reflexivity|]. intros b I. destruct (Wp b (or_intror I)) as (? & _).
        split; [assumption|]. apply (not_in_waits 47 (p0 :: po)); [assumption|right; assumption]. }
      assert (S6 : scan r7 pu [47] = SEnd r8) by (apply scan1; rewrite (step_line r7 LPort) by reflexivity; reflexivity).
      eexists. split.
      * cbn [print_target].
        replace (((s0 :: s) ++ [58; 47; 47] ++ (h0 :: h) ++ [58] ++ (p0 :: po) ++ 47 :: ut) ++ [32])
          with (((s0 :: s) ++ [58]) ++ [47; 47] ++ (h0 :: h) ++ [58] ++ (p0 :: po) ++ [47] ++ (ut ++ [32]))
          by (rewrite <- !app_assoc; reflexivity).
        rewrite scan_app, S1, scan_app, S2.
        replace (p + zlen ((s0 :: s) ++ [58]) + zlen [47; 47]) with ph
          by (subst ph; rewrite zlen_app, !zlen_cons, !zlen_nil; lia).
        rewrite scan_app, S3. replace (ph + zlen (h0 :: h)) with pc by (subst pc; rewrite zlen_cons; lia).
        rewrite scan_app, S4. change (zlen [58]) with 1. rewrite scan_app, S5.
        replace (pc + 1 + zlen (p0 :: po)) with pu by (subst pu; rewrite zlen_cons; lia).
        rewrite scan_app, S6. change (zlen [47]) with 1.
        apply scan_path; [reflexivity|]. exact (Forall_inv_tail Fu).
      * cbn [print_target target_uri]. unfold frame. cbn. unfold set_end, set_off. cbn.
        repeat (rewrite ?zlen_app, ?zlen_cons, ?zlen_nil). subst pu pc ph.
        split; [reflexivity|]. split; [reflexivity|]. split; [auto 10|].
        repeat split; f_equal; lia.
    + set (pu := ph + 1 + zlen h).
      set (r8 := set_ph (set_uri (set_host r5 (set_end (q_host r5) pu)) (set_off (q_uri r5) pu)) (PLine LUri)).
      assert (S6 : scan r5 pu [47] = SEnd r8) by (apply scan1; rewrite (step_line r5 LHost) by reflexivity; reflexivity).
      eexists. split.
      * cbn [print_target].
        replace (((s0 :: s) ++ [58; 47; 47] ++ (h0 :: h) ++ 47 :: ut) ++ [32])
          with (((s0 :: s) ++ [58]) ++ [47; 47] ++ (h0 :: h) ++ [47] ++ (ut ++ [32]))
          by (rewrite <- !app_assoc; reflexivity).
        rewrite scan_app, S1, scan_app, S2.
        replace (p + zlen ((s0 :: s) ++ [58]) + zlen [47; 47]) with ph
          by (subst ph; rewrite zlen_app, !zlen_cons, !zlen_nil; lia).
        rewrite scan_app, S3. replace (ph + zlen (h0 :: h)) with pu by (subst pu; rewrite zlen_cons; lia).
        rewrite scan_app, S6. change (zlen [47]) with 1.
        apply scan_path; [reflexivity|]. exact (Forall_inv_tail Fu).
      * cbn [print_target target_uri]. unfold frame. cbn. unfold set_end, set_off. cbn.
        repeat (rewrite ?zlen_app, ?zlen_cons, ?zlen_nil). subst pu ph.
        split; [reflexivity|]. split; [reflexivity|]. split; [auto 10|].
        repeat split; f_equal; lia.
Qed.

(** what the slots point to, for a request printed at offset [p] *)
Definition line_slots (p : Z) (q : request) (r : hreq) : Prop :=
  let pt := p + zlen (rq_method q) + 1 in
  let t := rq_target q in
  q_method r = mkSlot p (zlen (rq_method q)) /\
  q_uri r = mkSlot (pt + zlen (print_target t) - zlen (target_uri t)) (zlen (target_uri t)) /\
  q_ver r = mkSlot (pt + zlen (print_target t) + 1) (zlen (rq_version q)) /\
  match t with
  | TPath _ => True
  | TAbs s h po _ =>
      q_scheme r = mkSlot pt (zlen s) /\ q_host r = mkSlot (pt + zlen s + 3) (zlen h) /\
      match po with Some po => q_port r = mkSlot (pt + zlen s + 3 + zlen h + 1) (zlen po) | None => True end
  end.

Lemma scan_line r p q rest : q_ph r = PLine LMethodInit -> wf_req q ->
  exists r', scan r p (print_line q ++ rest) = SDone r' (p + zlen (print_line q) - 1) /\
    q_ph r' = PHdrs HKeyInit /\ frame r r' /\ line_slots p q r'.
Proof.
  intros E ((Nm & Fm) & Lm & Wt & (Nv & Fv) & _).
  destruct (rq_method q) as [|m0 m] eqn:Em; [contradiction|].
  destruct (rq_version q) as [|v0 v] eqn:Ev; [contradiction|].
  pose proof (word_waits _ Fm) as Wm. pose proof (word_waits _ Fv) as Wv.
  pose proof (Wm m0 (or_introl eq_refl)) as (Tm0 & Nm0 & Nm0').
  pose proof (Wv v0 (or_introl eq_refl)) as (Tv0 & _).
  assert (Nm10 : m0 <> 10) by (pose proof (Forall_inv Fm) as V; unfold visible in V; lia).
  set (r1 := set_ph (set_method r (set_off (q_method r) p)) (PLine LMethod)).
  set (r2 := set_ph (set_method r1 (set_end (q_method r1) (p + 1 + zlen m))) (PLine LSchemeInit)).
  assert (S1 : scan r p ((m0 :: m) ++ [32]) = SEnd r2).
  { change ((m0 :: m) ++ [32]) with ([m0] ++ (m ++ [32])). rewrite scan_app, (scan1 r p m0 r1).
    2:{ rewrite (step_line r LMethodInit) by (auto using text_ok). unfold line_byte, CR, LF, SP.
        destruct (Z.eqb_spec m0 13); [lia|]. destruct (Z.eqb_spec m0 10); [lia|].
        destruct (Z.eqb_spec m0 32); [lia|]. reflexivity. }
    rewrite scan_app, (scan_word LMethod); [|reflexivity|].
    2:{ intros b I. destruct (Wm b (or_intror I)) as (? & ? & _). split; assumption. }
    apply scan1. rewrite (step_line r1 LMethod) by reflexivity. cbn [line_byte]. change (32 =? SP) with true. cbn iota.
    cbn. rewrite zlen_cons in Lm. pose proof (zlen_nonneg m). change (zlen [m0]) with 1.
    destruct (Z.ltb_spec (p + 1 + zlen m - p) 1); [lia|].
    destruct (Z.ltb_spec 16 (p + 1 + zlen m - p)); [lia|]. reflexivity. }
  destruct (scan_target r2 (p + zlen (m0 :: m) + 1) (rq_target q) eq_refl Wt) as (r3 & S2 & P3 & M3 & F3 & U3 & A3).
  set (pv := p + zlen (m0 :: m) + 1 + zlen (print_target (rq_target q)) + 1).
  set (r4 := set_ph (set_ver r3 (set_off (q_ver r3) pv)) (PLine LVer)).
  set (r5 := set_ph (set_ver r4 (set_end (q_ver r4) (pv + 1 + zlen v))) (PLine LEnd)).
  assert (S3 : scan r3 pv ((v0 :: v) ++ [13]) = SEnd r5).
  { change ((v0 :: v) ++ [13]) with ([v0] ++ (v ++ [13])). rewrite scan_app, (scan1 r3 pv v0 r4).
    2:{ rewrite (step_line r3 LVerInit) by (auto using text_ok). reflexivity. }
    rewrite scan_app, (scan_word LVer); [|reflexivity|].
    2:{ intros b I. destruct (Wv b (or_intror I)) as (? & _ & ?). split; assumption. }
    apply scan1. rewrite (step_line r4 LVer) by reflexivity. reflexivity. }
  exists (set_ph r5 (PHdrs HKeyInit)). split; [|split; [reflexivity|split]].
  - unfold print_line. rewrite Em, Ev.
    replace (((m0 :: m) ++ [32] ++ print_target (rq_target q) ++ [32] ++ (v0 :: v) ++ crlf) ++ rest)
      with (((m0 :: m) ++ [32]) ++ (print_target (rq_target q) ++ [32]) ++ ((v0 :: v) ++ [13]) ++ 10 :: rest)
      by (unfold crlf; rewrite <- !app_assoc; reflexivity).
    rewrite scan_app, S1. replace (p + zlen ((m0 :: m) ++ [32])) with (p + zlen (m0 :: m) + 1) by (rewrite zlen_app; change (zlen [32]) with 1; lia).
    rewrite scan_app, S2. rewrite zlen_app. change (zlen [32]) with 1.
    replace (p + zlen (m0 :: m) + 1 + (zlen (print_target (rq_target q)) + 1)) with pv by (subst pv; lia).
    rewrite scan_app, S3. cbn [scan]. rewrite (step_line r5 LEnd) by reflexivity.
    cbn [line_byte]. change (10 =? LF) with true. cbn iota. f_equal.
    subst pv. unfold crlf. repeat (rewrite ?zlen_app, ?zlen_cons, ?zlen_nil). lia.
  - exact F3.
  - unfold line_slots. rewrite Em, Ev. cbn. rewrite M3, U3. cbn. unfold set_end, set_off. cbn.
    split; [|split; [|split]].
    + f_equal. rewrite zlen_cons. lia.
    + reflexivity.
    + subst pv. f_equal. rewrite (zlen_cons v0 v). lia.
    + exact A3.
Qed.

(** ** Header lines *)
Definition kv_upd (l : list (slot * slot)) (i : Z) (e : slot * slot) : list (slot * slot) :=
  ztake i l ++ e :: zdrop (i + 1) l.

Lemma kv_upd_put l i e : 0 <= i < zlen l -> zput l i [e] = Some (kv_upd l i e).
Proof.
  intros H. unfold zput, kv_upd. change (zlen [e]) with 1.
  destruct (Z.leb_spec 0 i), (Z.leb_spec (i + 1) (zlen l)); simpl; try lia. reflexivity.
Qed.
Lemma kv_upd_len l i e : 0 <= i < zlen l -> zlen (kv_upd l i e) = zlen l.
Proof. intros H. unfold kv_upd. rewrite zlen_app, zlen_cons, zlen_ztake, zlen_zdrop by lia. lia. Qed.
Lemma kv_upd_get l i e : 0 <= i < zlen l -> zget (kv_upd l i e) i = Some e.
Proof.
  intros H. unfold kv_upd. rewrite zget_app_r by (rewrite zlen_ztake; lia).
  rewrite zlen_ztake by lia. replace (i - Z.min i (zlen l)) with 0 by lia. apply zget_0.
Qed.
Lemma kv_upd_upd l i a b : 0 <= i < zlen l -> kv_upd (kv_upd l i a) i b = kv_upd l i b.
Proof.
  intros H. unfold kv_upd. assert (L : zlen (ztake i l) = i) by (rewrite zlen_ztake; lia).
  rewrite ztake_app_l by lia. rewrite ztake_ztake, Z.min_id. f_equal. f_equal.
  rewrite zdrop_app_r by lia. rewrite L, zdrop_cons by lia.
  replace (i + 1 - i - 1) with 0 by lia. apply zdrop_le0. lia.
Qed.
Lemma kv_upd_take l i e : 0 <= i < zlen l -> ztake (i + 1) (kv_upd l i e) = ztake i l ++ [e].
Proof.
  intros H. unfold kv_upd. assert (L : zlen (ztake i l) = i) by (rewrite zlen_ztake; lia).
  rewrite ztake_app_r by lia. rewrite L. replace (i + 1 - i) with 1 by lia. reflexivity.
Qed.

Lemma with_kv_ok r f s e : zlen (q_kvs r) = 16 -> 0 <= q_kvn r <= 15 ->
  zget (q_kvs r) (q_kvn r) = Some e ->
  with_kv r f s = BNext (set_ph (set_kvs r (kv_upd (q_kvs r) (q_kvn r) (f e))) (PHdrs s)).
Proof. intros L N G. unfold with_kv. rewrite G, kv_upd_put by lia. reflexivity. Qed.

Lemma with_kv_again r f s l n e : zlen l = 16 -> 0 <= n <= 15 -> q_kvn r = n -> q_kvs r = kv_upd l n e ->
  with_kv r f s = BNext (set_ph (set_kvs r (kv_upd l n (f e))) (PHdrs s)).
Proof.
  intros L N En El. rewrite (with_kv_ok r f s e).
  - rewrite El, En, kv_upd_upd by lia. reflexivity.
  - rewrite El, kv_upd_len; lia.
  - lia.
  - rewrite El, En. apply kv_upd_get. lia.
Qed.

Definition hdr_slots (p : Z) (h : header) : slot * slot :=
  (mkSlot p (zlen (h_name h)), mkSlot (p + zlen (h_name h) + 1 + h_sp h) (zlen (h_value h))).

Lemma scan_hword s r p w : q_ph r = PHdrs s ->
  (forall b, In b w -> text b /\ match s with HKey => b <> 58 | HValInit => b = 32 | HVal => b <> 13 | _ => False end) ->
  scan r p w = SEnd r.
Proof.
  intros E H. apply scan_stay. intros b q I. destruct (H b I) as (T & W).
  rewrite (step_hdr r s) by (auto using text_ok).
  destruct s; simpl in W; try contradiction; unfold hdr_byte, SP, COLON, CR.
  - destruct (Z.eqb_spec b 58); [lia|reflexivity].
  - subst b. reflexivity.
  - destruct (Z.eqb_spec b 13); [lia|reflexivity].
Qed.

Lemma repeat_text n b : In b (zrepeat 32 n) -> b = 32.
Proof. intros H. apply repeat_spec in H. assumption. Qed.

Definition bump (n : Z) : Z := if KV_MAX - 1 <? n + 1 then KV_MAX - 1 else n + 1.

Lemma scan_hdr r p h : q_ph r = PHdrs HKeyInit -> wf_hdr h ->
  zlen (q_kvs r) = 16 -> 0 <= q_kvn r <= 15 ->
  scan r p (print_hdr h) =
    SEnd (set_ph (set_kvn (set_kvs r (kv_upd (q_kvs r) (q_kvn r) (hdr_slots p h))) (bump (q_kvn r))) (PHdrs HKeyInit)).
Proof.
  intros E (Nk & Fk & Ck & Sp & Fv & v0 & v & Ev & Nv0) L N.
  destruct (h_name h) as [|k0 k] eqn:Ek; [contradiction|].
  rewrite Forall_forall in Fk, Fv. rewrite Ev in Fv.
  assert (T0 := Fk k0 (or_introl eq_refl)). assert (TV := Fv v0 (or_introl eq_refl)).
  destruct (zget_in_range (q_kvs r) (q_kvn r)) as (e & Ge); [lia|].
  set (l := q_kvs r) in *. set (n := q_kvn r) in *.
  set (e1 := (set_off (fst e) p, snd e)).
  set (r1 := set_ph (set_kvs r (kv_upd l n e1)) (PHdrs HKey)).
  assert (S1 : scan r p [k0] = SEnd r1).
  { apply scan1. rewrite (step_hdr r HKeyInit) by (auto using text_ok). unfold hdr_byte, CR.
    unfold text in T0. destruct (Z.eqb_spec k0 13); [lia|].
    rewrite (with_kv_ok r _ _ e) by assumption. reflexivity. }
  set (pc := p + 1 + zlen k).
  set (e2 := (set_end (fst e1) pc, snd e1)).
  set (r2 := set_ph (set_kvs r1 (kv_upd l n e2)) (PHdrs HValInit)).
  assert (S2 : scan r1 (p + 1) (k ++ [58]) = SEnd r2).
  { rewrite scan_app, (scan_hword HKey); [|reflexivity|].
    2:{ intros b I. split; [apply Fk; right; assumption|]. apply (not_in_waits 58 (k0 :: k)); [assumption|right; assumption]. }
    apply scan1. rewrite (step_hdr r1 HKey) by reflexivity. unfold hdr_byte. change (58 =? COLON) with true. cbn iota.
    rewrite (with_kv_again r1 _ _ l n e1) by (assumption || reflexivity). reflexivity. }
  set (pv := pc + 1 + h_sp h).
  set (e3 := (fst e2, set_off (snd e2) pv)).
  set (r3 := set_ph (set_kvs r2 (kv_upd l n e3)) (PHdrs HVal)).
  assert (S3 : scan r2 (pc + 1) (zrepeat 32 (h_sp h) ++ [v0]) = SEnd r3).
  { rewrite scan_app, (scan_hword HValInit); [|reflexivity|].
    2:{ intros b I. apply repeat_text in I. subst b. split; [unfold text; lia|reflexivity]. }
    rewrite zlen_zrepeat by lia. apply scan1. rewrite (step_hdr r2 HValInit) by (auto using text_ok).
    unfold hdr_byte, SP. destruct (Z.eqb_spec v0 32); [lia|].
    rewrite (with_kv_again r2 _ _ l n e2) by (assumption || reflexivity). reflexivity. }
  set (pe := pv + 1 + zlen v).
  set (e4 := (fst e3, set_end (snd e3) pe)).
  set (r4 := set_ph (set_kvs r3 (kv_upd l n e4)) (PHdrs HEnd)).
  assert (S4 : scan r3 (pv + 1) (v ++ [13]) = SEnd r4).
  { rewrite scan_app, (scan_hword HVal); [|reflexivity|].
    2:{ intros b I. assert (T := Fv b (or_intror I)). split; [assumption|]. unfold text in T. lia. }
    apply scan1. rewrite (step_hdr r3 HVal) by reflexivity. unfold hdr_byte. change (13 =? CR) with true. cbn iota.
    rewrite (with_kv_again r3 _ _ l n e3) by (assumption || reflexivity). reflexivity. }
  unfold print_hdr. rewrite Ek, Ev.
  replace ((k0 :: k) ++ [58] ++ zrepeat 32 (h_sp h) ++ (v0 :: v) ++ crlf)
    with ([k0] ++ (k ++ [58]) ++ (zrepeat 32 (h_sp h) ++ [v0]) ++ (v ++ [13]) ++ [10])
    by (unfold crlf; cbn [app]; rewrite <- !app_assoc; reflexivity).
  rewrite scan_app, S1. change (zlen [k0]) with 1. rewrite scan_app, S2.
  replace (p + 1 + zlen (k ++ [58])) with (pc + 1) by (subst pc; rewrite zlen_app; change (zlen [58]) with 1; lia).
  rewrite scan_app, S3.
  replace (pc + 1 + zlen (zrepeat 32 (h_sp h) ++ [v0])) with (pv + 1)
    by (subst pv; rewrite zlen_app, zlen_zrepeat by lia; change (zlen [v0]) with 1; lia).
  rewrite scan_app, S4. cbn [scan]. rewrite (step_hdr r4 HEnd) by reflexivity.
  unfold hdr_byte. change (10 =? LF) with true. cbn iota.
  assert (H4 : e4 = hdr_slots p h).
  { unfold e4, e3, e2, e1, hdr_slots, set_end, set_off. cbn. rewrite Ek, Ev.
    f_equal; f_equal; subst pe pv pc; rewrite ?zlen_cons; lia. }
  rewrite <- H4. clear - r4. clearbody e4. clear - r4. clearbody e3 e2. clearbody e1. subst l n.
  destruct r as [f0 f1 f2 f3 f4 f5 f6 f7 f8 f9 f10 f11 f12].
  subst r4 r3 r2 r1. cbn [set_ph set_kvs set_kvn q_ph q_method q_scheme q_host q_uri q_port q_ver q_kvn q_kvs q_mtyp q_keep q_payn q_pay].
  reflexivity.
Qed.

Fixpoint hdrs_slots (p : Z) (hs : list header) : list (slot * slot) :=
  match hs with [] => [] | h :: t => hdr_slots p h :: hdrs_slots (p + zlen (print_hdr h)) t end.

(** fields that the header parser does not touch *)
Definition hframe (r r' : hreq) : Prop :=
  q_method r' = q_method r /\ q_scheme r' = q_scheme r /\ q_host r' = q_host r /\ q_uri r' = q_uri r /\
  q_port r' = q_port r /\ q_ver r' = q_ver r /\
  q_mtyp r' = q_mtyp r /\ q_keep r' = q_keep r /\ q_payn r' = q_payn r /\ q_pay r' = q_pay r.
Lemma hframe_trans a b c : hframe a b -> hframe b c -> hframe a c.
Proof. unfold hframe. intuition congruence. Qed.

Lemma scan_hdr_list hs : forall r p, q_ph r = PHdrs HKeyInit -> Forall wf_hdr hs ->
  zlen (q_kvs r) = 16 -> 0 <= q_kvn r -> q_kvn r + zlen hs <= 15 ->
  exists r', scan r p (concat (map print_hdr hs)) = SEnd r' /\ q_ph r' = PHdrs HKeyInit /\
    hframe r r' /\ zlen (q_kvs r') = 16 /\ q_kvn r' = q_kvn r + zlen hs /\
    ztake (q_kvn r') (q_kvs r') = ztake (q_kvn r) (q_kvs r) ++ hdrs_slots p hs.
Proof.
  induction hs as [|h hs IH]; intros r p E W L N M.
  - exists r. rewrite zlen_nil. cbn. rewrite app_nil_r. unfold hframe. rewrite Z.add_0_r. auto 20.
  - pose proof (Forall_inv W) as Wh. pose proof (Forall_inv_tail W) as Wt.
    rewrite zlen_cons in M. pose proof (zlen_nonneg hs).
    set (r1 := set_ph (set_kvn (set_kvs r (kv_upd (q_kvs r) (q_kvn r) (hdr_slots p h))) (bump (q_kvn r))) (PHdrs HKeyInit)).
    assert (B : bump (q_kvn r) = q_kvn r + 1).
    { unfold bump, KV_MAX. destruct (Z.ltb_spec (16 - 1) (q_kvn r + 1)); lia. }
    destruct (IH r1 (p + zlen (print_hdr h)) eq_refl Wt) as (r' & S' & P' & F' & L' & N' & T').
    + cbn. rewrite kv_upd_len; lia.
    + cbn. lia.
    + cbn. lia.
    + exists r'. split; [|split; [assumption|split; [|split; [assumption|split]]]].
      * cbn [map concat]. rewrite scan_app, scan_hdr by (auto; lia). exact S'.
      * exact F'.
      * rewrite N'. cbn. rewrite B, zlen_cons. lia.
      * rewrite T'. cbn [q_kvn q_kvs r1]. unfold r1. cbn [q_kvn q_kvs set_ph set_kvn set_kvs]. rewrite B.
        rewrite kv_upd_take by lia. cbn [hdrs_slots]. rewrite <- app_assoc. reflexivity.
Qed.

Lemma scan_hdrs r p hs rest : q_ph r = PHdrs HKeyInit -> Forall wf_hdr hs ->
  zlen (q_kvs r) = 16 -> q_kvn r = 0 -> zlen hs <= 15 ->
  exists r', scan r p (print_hdrs hs ++ rest) = SDone r' (p + zlen (print_hdrs hs) - 1) /\
    q_ph r' = PBody /\ hframe r r' /\ zlen (q_kvs r') = 16 /\ q_kvn r' = zlen hs /\
    ztake (q_kvn r') (q_kvs r') = hdrs_slots p hs.
Proof.
  intros E W L N M. destruct (scan_hdr_list hs r p E W L) as (r1 & S1 & P1 & F1 & L1 & N1 & T1); [lia|lia|].
  exists (set_ph r1 PBody). split; [|split; [reflexivity|split; [|split; [|split]]]].
  - unfold print_hdrs, crlf. rewrite <- app_assoc, scan_app, S1. cbn [app scan].
    rewrite (step_hdr r1 HKeyInit) by (auto; reflexivity).
    unfold hdr_byte at 1. change (13 =? CR) with true. cbn iota.
    rewrite (step_hdr _ HDoneSt) by reflexivity. unfold hdr_byte. change (10 =? LF) with true. cbn iota.
    f_equal. rewrite zlen_app. change (zlen [13; 10]) with 2. lia.
  - exact F1.
  - exact L1.
  - cbn. lia.
  - cbn [q_kvn q_kvs set_ph]. rewrite T1, N. reflexivity.
Qed.

(** ** Strings in the buffer *)
(** the text a slot points to *)
Definition slot_str (buf : list Z) (s : slot) : list Z := zslice (s_off s) (s_off s + s_len s) buf.

Lemma slice_at {A} (pre w post : list A) : zslice (zlen pre) (zlen pre + zlen w) (pre ++ w ++ post) = w.
Proof.
  unfold zslice. rewrite zdrop_app_r by lia. rewrite Z.sub_diag, zdrop_le0 by lia.
  replace (zlen pre + zlen w - zlen pre) with (zlen w) by lia.
  rewrite ztake_app_l by lia. apply ztake_all. lia.
Qed.

(** [w] stands at offset [o] of [buf] *)
Definition at_off (buf : list Z) (o : Z) (w : list Z) : Prop := exists pre post, buf = pre ++ w ++ post /\ o = zlen pre.

Lemma at_off_str buf o w : at_off buf o w -> slot_str buf (mkSlot o (zlen w)) = w.
Proof. intros (pre & post & -> & ->). unfold slot_str. cbn. apply slice_at. Qed.

Lemma at_off_sub buf o a w b : at_off buf o (a ++ w ++ b) -> at_off buf (o + zlen a) w.
Proof.
  intros (pre & post & -> & ->). exists (pre ++ a), (b ++ post). split.
  - rewrite <- !app_assoc. reflexivity.
  - rewrite zlen_app. reflexivity.
Qed.
Lemma at_off_sub0 buf o w b : at_off buf o (w ++ b) -> at_off buf o w.
Proof. intros H. replace o with (o + zlen (@nil Z)) by (rewrite zlen_nil; lia). apply (at_off_sub buf o [] w b). exact H. Qed.

(** prefix up to case, as a function *)
Fixpoint ipre (w lit : list Z) : bool :=
  match w, lit with
  | [], _ => true
  | _ :: _, [] => false
  | c :: w', l :: lit' => (lower c =? lower l) && ipre w' lit'
  end.

Lemma lower_up a b : lower a = lower b <-> up a = up b.
Proof.
  unfold lower, up.
  destruct (Z.leb_spec 65 a), (Z.leb_spec a 90), (Z.leb_spec 65 b), (Z.leb_spec b 90),
    (Z.leb_spec 97 a), (Z.leb_spec a 122), (Z.leb_spec 97 b), (Z.leb_spec b 122); simpl; lia.
Qed.

Lemma ipre_spec w : forall lit, ipre w lit = true <-> iprefix w lit.
Proof.
  unfold iprefix, ieq. induction w as [|c w IH]; intros lit; simpl.
  - split; [|reflexivity]. intros _. exists lit. reflexivity.
  - destruct lit as [|l lit].
    + split; [discriminate|]. intros (x & H). discriminate.
    + rewrite andb_true_iff, Z.eqb_eq, IH, lower_up. split.
      * intros (H & x & E). exists x. simpl. rewrite H, E. reflexivity.
      * intros (x & E). simpl in E. injection E as H E. split; [assumption|]. exists x. assumption.
Qed.

Lemma ncaseeq_at buf lit : forall w o, at_off buf o w -> Forall text w ->
  ncaseeq buf o lit (zlen w) = Ok (ipre w lit).
Proof.
  induction lit as [|l lit IH]; intros w o A T.
  - destruct w as [|c w]; [reflexivity|]. cbn [ncaseeq]. rewrite zlen_cons. pose proof (zlen_nonneg w).
    destruct (Z.eqb_spec (1 + zlen w) 0); [lia|]. destruct A as (pre & post & -> & ->).
    rewrite zget_app_r, Z.sub_diag by lia. cbn [app]. rewrite zget_0. cbn.
    apply Forall_inv in T. unfold text in T. destruct (Z.eqb_spec c 0); [lia|reflexivity].
  - destruct w as [|c w]; [reflexivity|]. cbn [ncaseeq]. rewrite zlen_cons. pose proof (zlen_nonneg w).
    destruct (Z.eqb_spec (1 + zlen w) 0); [lia|].
    replace (zget buf o) with (Some c).
    2:{ destruct A as (pre & post & -> & ->). rewrite zget_app_r, Z.sub_diag by lia. reflexivity. }
    cbn [of_opt bind ipre]. destruct (lower c =? lower l); [|reflexivity].
    replace (1 + zlen w - 1) with (zlen w) by lia. cbn [andb]. apply IH.
    + replace o with (o + 0) by lia.
      replace (o + 0 + 1) with (o + zlen [c]) by (change (zlen [c]) with 1; lia).
      apply (at_off_sub buf o [c] w []). rewrite app_nil_r. exact A.
    + exact (Forall_inv_tail T).
Qed.

(** ** Evaluating the headers *)
Definition hdr_at (buf : list Z) (e : slot * slot) (h : header) : Prop :=
  exists ok ov, e = (mkSlot ok (zlen (h_name h)), mkSlot ov (zlen (h_value h))) /\
    at_off buf ok (h_name h) /\ at_off buf ov (h_value h ++ [13]).

Lemma hdr_slots_at buf p h : 0 <= h_sp h -> at_off buf p (print_hdr h) -> hdr_at buf (hdr_slots p h) h.
Proof.
  intros S A. unfold hdr_slots. eexists _, _. split; [reflexivity|]. split.
  - eapply at_off_sub0. exact A.
  - unfold print_hdr in A.
    replace (p + zlen (h_name h) + 1 + h_sp h) with (p + zlen (h_name h ++ [58] ++ zrepeat 32 (h_sp h)))
      by (rewrite !zlen_app, zlen_zrepeat by lia; change (zlen [58]) with 1; lia).
    apply (at_off_sub buf p _ (h_value h ++ [13]) [10]). revert A.
    unfold crlf. rewrite <- !app_assoc. cbn [app]. exact (fun x => x).
Qed.

Lemma hdrs_slots_at buf hs : forall p, Forall wf_hdr hs -> at_off buf p (print_hdrs hs) ->
  Forall2 (hdr_at buf) (hdrs_slots p hs) hs.
Proof.
  induction hs as [|h hs IH]; intros p W A; [constructor|].
  unfold print_hdrs in A. cbn [map concat] in A. rewrite <- app_assoc in A.
  pose proof (Forall_inv W) as (_ & _ & _ & S & _).
  cbn [hdrs_slots]. constructor.
  - apply hdr_slots_at; [assumption|]. eapply at_off_sub0. exact A.
  - apply IH; [exact (Forall_inv_tail W)|]. apply (at_off_sub buf p (print_hdr h) (print_hdrs hs) []).
    rewrite app_nil_r. exact A.
Qed.

Lemma hdr_at_name buf e h lit : hdr_at buf e h -> wf_hdr h -> slot_is buf (fst e) lit = Ok (ipre (h_name h) lit).
Proof.
  intros (ok & ov & -> & A & _) (_ & F & _). cbn. unfold slot_is. cbn. apply ncaseeq_at; assumption.
Qed.
Lemma hdr_at_value buf e h lit : hdr_at buf e h -> wf_hdr h -> slot_is buf (snd e) lit = Ok (ipre (h_value h) lit).
Proof.
  intros (ok & ov & -> & _ & A) (_ & _ & _ & _ & F & _). cbn. unfold slot_is. cbn.
  apply ncaseeq_at; [|assumption]. eapply at_off_sub0. exact A.
Qed.

Definition keep_hdr (h : header) : bool := ipre (h_name h) lit_connection && ipre (h_value h) lit_keepalive.

Lemma keep_loop_at buf : forall es hs k, Forall2 (hdr_at buf) es hs -> Forall wf_hdr hs ->
  keep_loop buf es k = Ok (k || existsb keep_hdr hs).
Proof.
  induction es as [|e es IH]; intros hs k F W; destruct hs as [|h hs]; inversion F; subst.
  - cbn. rewrite orb_false_r. reflexivity.
  - pose proof (Forall_inv W) as Wh. cbn [keep_loop existsb]. rewrite (hdr_at_name _ _ h) by assumption. cbn [bind].
    unfold keep_hdr at 1. destruct (ipre (h_name h) lit_connection); cbn [andb].
    + rewrite (hdr_at_value _ _ h) by assumption. cbn [bind].
      rewrite (IH hs) by (auto; exact (Forall_inv_tail W)). rewrite orb_assoc. reflexivity.
    + rewrite (IH hs) by (auto; exact (Forall_inv_tail W)). reflexivity.
Qed.

Definition method_code (m : list Z) : Z :=
  if ipre m lit_get then 1 else if ipre m lit_post then 3 else 0.

(** strtol on a numeral followed by something that is not a digit *)
Lemma digits_at buf : forall ds o acc fuel c, at_off buf o (ds ++ [c]) -> is_digit c = false ->
  Forall (fun b => 48 <= b <= 57) ds -> (length ds < fuel)%nat ->
  digits buf fuel o acc = Ok (dec_from acc ds).
Proof.
  induction ds as [|d ds IH]; intros o acc fuel c A C F L; (destruct fuel as [|fuel]; [simpl in L; lia|]).
  - cbn [digits]. replace (zget buf o) with (Some c).
    2:{ destruct A as (pre & post & -> & ->). rewrite zget_app_r, Z.sub_diag by lia. reflexivity. }
    cbn [of_opt bind]. rewrite C. reflexivity.
  - cbn [digits]. replace (zget buf o) with (Some d).
    2:{ destruct A as (pre & post & -> & ->). rewrite zget_app_r, Z.sub_diag by lia. reflexivity. }
    cbn [of_opt bind]. pose proof (Forall_inv F) as D. cbn in D. unfold is_digit at 1.
    destruct (Z.leb_spec 48 d), (Z.leb_spec d 57); try lia. cbn [andb dec_from].
    apply (IH _ _ _ c); [|assumption|exact (Forall_inv_tail F)|simpl in L; lia].
    apply (at_off_sub buf o [d] (ds ++ [c]) []). rewrite app_nil_r. exact A.
Qed.

Lemma strtol_at buf o ds n c : at_off buf o (ds ++ [c]) -> is_digit c = false -> numeral ds n ->
  strtol buf o = Ok (clamp64 n).
Proof.
  intros A C (N & F & E). destruct ds as [|d ds]; [contradiction|].
  unfold strtol. cbn [skip_space].
  assert (G : zget buf o = Some d).
  { destruct A as (pre & post & -> & ->). rewrite zget_app_r, Z.sub_diag by lia. reflexivity. }
  rewrite G. cbn [of_opt bind]. pose proof (Forall_inv F) as D. cbn in D.
  replace (is_space d) with false by (unfold is_space; lia). cbn [bind]. rewrite G. cbn [of_opt bind].
  destruct (Z.eqb_spec d 45); [lia|]. destruct (Z.eqb_spec d 43); [lia|].
  rewrite (digits_at buf (d :: ds) o 0 _ c) by
    (auto; destruct A as (pre & post & -> & _); rewrite !app_length; simpl; lia).
  cbn [bind]. rewrite E. reflexivity.
Qed.

Lemma dec_from_ge : forall l a, 0 <= a -> Forall (fun b => 48 <= b <= 57) l -> a <= dec_from a l.
Proof.
  induction l as [|b l IH]; intros a Ha F; [simpl; lia|]. cbn [dec_from].
  pose proof (Forall_inv F) as B. cbn in B. etransitivity; [|apply IH; [lia|exact (Forall_inv_tail F)]]. lia.
Qed.

Lemma clen_none buf : forall es hs n, Forall2 (hdr_at buf) es hs -> Forall wf_hdr hs ->
  Forall (fun h => ipre (h_name h) lit_clen = false) hs ->
  clen_loop buf es n = Ok (Some n).
Proof.
  induction es as [|e es IH]; intros hs n F W N; destruct hs as [|h hs]; inversion F; subst; [reflexivity|].
  cbn [clen_loop]. rewrite (hdr_at_name _ _ h) by (auto; exact (Forall_inv W)).
  rewrite (Forall_inv N). cbn [bind]. apply (IH hs); auto; [exact (Forall_inv_tail W)|exact (Forall_inv_tail N)].
Qed.

Lemma clen_app buf a b n : clen_loop buf (a ++ b) n =
  let* o := clen_loop buf a n in match o with None => Ok None | Some n' => clen_loop buf b n' end.
Proof.
  revert n. induction a as [|e a IH]; intros n; [reflexivity|]. cbn [app clen_loop].
  destruct (slot_is buf (fst e) lit_clen) as [[]| |]; cbn [bind]; try reflexivity; [|apply IH].
  destruct (strtol buf (s_off (snd e))); cbn [bind]; try reflexivity.
  destruct (to_int a0 <? 0); [reflexivity|]. destruct (MAX_BODY <? to_int a0); [reflexivity|]. apply IH.
Qed.

Lemma clen_one buf e h ds n n0 : hdr_at buf e h -> wf_hdr h -> ipre (h_name h) lit_clen = true ->
  h_value h = ds -> numeral ds n -> n <= MAX_BODY ->
  clen_loop buf [e] n0 = Ok (Some n).
Proof.
  intros A W P E Nm B. cbn [clen_loop]. rewrite (hdr_at_name _ _ h) by assumption. rewrite P. cbn [bind].
  assert (P0 : 0 <= n) by (destruct Nm as (_ & F & <-); apply dec_from_ge; [lia|assumption]).
  destruct A as (ok & ov & -> & _ & A). cbn [snd s_off].
  rewrite (strtol_at buf ov ds n 13) by (subst ds; auto). cbn [bind].
  unfold MAX_BODY in *.
  assert (C : clamp64 n = n) by (unfold clamp64; lia). rewrite C.
  assert (I : to_int n = n) by (unfold to_int; rewrite Z.mod_small; lia). rewrite I.
  destruct (Z.ltb_spec n 0); [lia|]. destruct (Z.ltb_spec (10 * 1024 * 1024) n); [lia|]. reflexivity.
Qed.

(** ** Running *)
Lemma run_line k r m ins q rest : q_ph r = PLine LMethodInit -> wf_req q -> meta_wf m ->
  mdata m = print_line q ++ rest ->
  exists r', http_run (S k) r m ins
             = http_run k r' (mkMeta (mbuf m) (mpos m + zlen (print_line q)) (mlast m)) ins /\
    q_ph r' = PHdrs HKeyInit /\ frame r r' /\ line_slots (mpos m) q r'.
Proof.
  intros E W Wm D. destruct (scan_line r (mpos m) q rest E W) as (r' & S & P & F & L).
  exists r'. split; [|auto]. cbn [http_run]. rewrite E.
  assert (G : meta_getlen m >= 1).
  { rewrite <- (mdata_len m Wm), D, zlen_app. pose proof (zlen_nonneg rest).
    unfold print_line, crlf. rewrite !zlen_app. pose proof (zlen_nonneg (rq_method q)).
    pose proof (zlen_nonneg (print_target (rq_target q))). pose proof (zlen_nonneg (rq_version q)).
    change (zlen [32]) with 1. change (zlen [13; 10]) with 2. lia. }
  destruct (Z.ltb_spec (meta_getlen m) 1); [lia|]. cbn [bind]. rewrite D, S, P.
  f_equal. f_equal. lia.
Qed.

Lemma run_hdrs k r m ins q p0 rest : q_ph r = PHdrs HKeyInit -> wf_req q -> meta_wf m ->
  mdata m = print_hdrs (rq_headers q) ++ rest ->
  zlen (q_kvs r) = 16 -> q_kvn r = 0 -> zlen (rq_headers q) <= 15 -> q_keep r = false -> q_mtyp r = 0 ->
  line_slots p0 q r -> at_off (mbuf m) p0 (rq_method q) ->
  exists r', http_run (S k) r m ins
             = http_run k r' (mkMeta (mbuf m) (mpos m + zlen (print_hdrs (rq_headers q))) (mlast m)) ins /\
    q_ph r' = PBody /\ line_slots p0 q r' /\ q_kvn r' = zlen (rq_headers q) /\
    ztake (q_kvn r') (q_kvs r') = hdrs_slots (mpos m) (rq_headers q) /\
    Forall2 (hdr_at (mbuf m)) (hdrs_slots (mpos m) (rq_headers q)) (rq_headers q) /\
    q_keep r' = existsb keep_hdr (rq_headers q) /\ q_mtyp r' = method_code (rq_method q) /\
    q_payn r' = q_payn r /\ q_pay r' = q_pay r.
Proof.
  intros E W Wm D LK KN H15 KE MT LS AM.
  pose proof W as ((Nm & Fm) & _ & _ & _ & Wh).
  destruct (scan_hdrs r (mpos m) (rq_headers q) rest E Wh LK KN H15) as (r1 & S & P & F & L1 & N1 & T1).
  set (p := mpos m) in *.
  assert (A : at_off (mbuf m) p (print_hdrs (rq_headers q))).
  { apply (at_off_sub0 _ _ _ rest). rewrite <- D. unfold mdata, zslice.
    destruct Wm as (B1 & B2). unfold meta_cap in B2.
    exists (ztake p (mbuf m)), (zdrop (mlast m - p) (zdrop p (mbuf m))). split.
    - rewrite ztake_zdrop, ztake_zdrop. reflexivity.
    - rewrite zlen_ztake by (subst p; lia). subst p. lia. }
  pose proof (hdrs_slots_at (mbuf m) (rq_headers q) p Wh A) as F2.
  destruct F as (F1 & F2' & F3 & F4 & F5 & F6 & F7 & F8 & F9 & F10).
  set (kp := existsb keep_hdr (rq_headers q)).
  assert (MS : forall lit, slot_is (mbuf m) (q_method r1) lit = Ok (ipre (rq_method q) lit)).
  { intros lit. destruct LS as (M & _). rewrite F1, M. unfold slot_is. cbn. apply ncaseeq_at; [assumption|].
    eapply Forall_impl; [|exact Fm]. intros; apply vis_text; assumption. }
  assert (HF : hdr_finish (mbuf m) r1 = Ok (set_mtyp (set_keep r1 kp) (method_code (rq_method q)))).
  { unfold hdr_finish. rewrite T1, (keep_loop_at _ _ (rq_headers q)) by assumption. cbn [bind].
    rewrite F8, KE. cbn [orb]. fold kp. rewrite !MS. cbn [bind]. unfold method_code.
    destruct (ipre (rq_method q) lit_get); [reflexivity|].
    destruct (ipre (rq_method q) lit_post); [reflexivity|].
    unfold set_mtyp, set_keep. cbn. f_equal. rewrite F7, MT. reflexivity. }
  exists (set_mtyp (set_keep r1 kp) (method_code (rq_method q))).
  split; [|split; [|split; [|split; [|split; [|split; [|split; [|split; [|split]]]]]]]].
  - cbn [http_run]. rewrite E.
    assert (G : meta_getlen m >= 1).
    { rewrite <- (mdata_len m Wm), D, zlen_app. pose proof (zlen_nonneg rest).
      unfold print_hdrs, crlf. rewrite !zlen_app. pose proof (zlen_nonneg (concat (map print_hdr (rq_headers q)))).
      change (zlen [13; 10]) with 2. lia. }
    destruct (Z.ltb_spec (meta_getlen m) 1); [lia|]. cbn [bind]. fold p. rewrite D, S, P, HF. cbn [bind].
    f_equal. f_equal. lia.
  - exact P.
  - unfold line_slots in *. cbn [q_method q_uri q_ver q_scheme q_host q_port set_mtyp set_keep].
    rewrite F1, F2', F3, F4, F5, F6. exact LS.
  - exact N1.
  - exact T1.
  - exact F2.
  - reflexivity.
  - reflexivity.
  - exact F9.
  - exact F10.
Qed.

(** receiving into an empty stretch of a buffer *)
Definition unread (bs : list Z) (n : Z) (t : list rx) : list rx :=
  if zlen bs <=? n then t else RxData (zdrop n bs) :: t.

Lemma do_recv_data m b bs t : meta_wf m -> 1 <= meta_getfree m ->
  exists m', do_recv m (RxData (b :: bs) :: t) = Ok (FGot m' (unread (b :: bs) (meta_getfree m) t)) /\
    meta_wf m' /\ mdata m' = mdata m ++ ztake (meta_getfree m) (b :: bs) /\ meta_cap m' = meta_cap m /\
    mpos m' = mpos m /\ mlast m' = mlast m + Z.min (meta_getfree m) (zlen (b :: bs)) /\
    zput (mbuf m) (mlast m) (ztake (meta_getfree m) (b :: bs)) = Some (mbuf m').
Proof.
  intros W G. unfold do_recv. destruct (Z.ltb_spec (meta_getfree m) 1); [lia|].
  pose proof (zlen_nonneg (b :: bs)) as NN.
  assert (L : zlen (ztake (meta_getfree m) (b :: bs)) = Z.min (meta_getfree m) (zlen (b :: bs))) by (rewrite zlen_ztake; lia).
  destruct (meta_store_ok m (ztake (meta_getfree m) (b :: bs)) W) as (m' & S & W' & D & C & P & La); [lia|].
  exists m'. rewrite S. cbn [bind]. split; [reflexivity|]. split; [assumption|]. split; [assumption|].
  split; [assumption|]. split; [assumption|]. split; [rewrite La, L; reflexivity|].
  unfold meta_store in S. destruct (zput (mbuf m) (mlast m) (ztake (meta_getfree m) (b :: bs))) as [x|]; [|discriminate].
  cbn [of_opt bind] in S. injection S as <-. reflexivity.
Qed.

(** ** Receiving the body *)
(** the bytes delivered by a sequence of receive results without errors *)
Fixpoint flat (ins : list rx) : list Z :=
  match ins with
  | [] => []
  | RxData bs :: t => bs ++ flat t
  | _ :: t => flat t
  end.
Definition clean (ins : list rx) : Prop :=
  Forall (fun i => match i with RxData bs => bs <> [] | RxAgain => True | RxErr => False end) ins.

Lemma flat_unread bs n t : 0 <= n -> flat (unread bs n t) = zdrop n bs ++ flat t.
Proof.
  intros H. unfold unread. destruct (Z.leb_spec (zlen bs) n); [|reflexivity].
  rewrite zdrop_all by lia. reflexivity.
Qed.
Lemma clean_unread bs n t : 0 <= n -> clean t -> clean (unread bs n t).
Proof.
  intros H C. unfold unread. destruct (Z.leb_spec (zlen bs) n); [assumption|]. constructor; [|assumption].
  intros E. assert (L := zlen_zdrop n bs H). rewrite E, zlen_nil in L. lia.
Qed.

Lemma set_pay_same r py : q_pay r = Some py -> set_pay r (q_payn r) (Some py) = r.
Proof. intros E. destruct r; cbn in *. rewrite E. reflexivity. Qed.

Lemma run_body : forall ins k r m py n,
  q_ph r = PBody -> q_pay r = Some py -> q_payn r = n -> meta_wf py -> mpos py = 0 -> meta_cap py = n ->
  clean ins -> n <= zlen (mdata py ++ flat ins) -> (length ins + 2 <= k)%nat ->
  exists py' ins', http_run k r m ins = Ok (HComplete (set_pay r n (Some py')) m ins') /\
    mdata py' = ztake n (mdata py ++ flat ins) /\ flat ins' = zdrop n (mdata py ++ flat ins) /\ clean ins'.
Proof.
  induction ins as [|i ins IH]; intros k r m py n E P N W Z0 Cp Cl B K.
  - cbn [flat] in *. rewrite app_nil_r in *. pose proof (mdata_len py W) as DL.
    assert (meta_getlen py <= n) by (destruct W; unfold meta_getlen; lia).
    destruct k as [|k]; [simpl in K; lia|]. cbn [http_run]. rewrite E, P, N.
    destruct (Z.ltb_spec (meta_getlen py) n); [lia|].
    exists py, []. rewrite <- N, set_pay_same by assumption. rewrite N.
    rewrite ztake_all, zdrop_all by lia. split; [reflexivity|]. split; [reflexivity|]. split; [reflexivity|constructor].
  - pose proof (Forall_inv Cl) as Ci. pose proof (Forall_inv_tail Cl) as Ct. fold (clean ins) in Ct.
    pose proof (mdata_len py W) as DL.
    assert (LE : meta_getlen py <= n) by (destruct W; unfold meta_getlen; lia).
    destruct k as [|k]; [simpl in K; lia|]. cbn [http_run]. rewrite E, P, N.
    destruct (Z.ltb_spec (meta_getlen py) n) as [LT|GE].
    + assert (GF : meta_getfree py = n - meta_getlen py) by (unfold meta_getfree, meta_getlen; rewrite Cp, Z0; lia).
      destruct i as [bs| |]; [|cbn [do_recv]|contradiction].
      2:{ unfold do_recv. destruct (Z.ltb_spec (meta_getfree py) 1); [lia|]. cbn [bind].
          apply (IH k r m py n); auto. simpl in K. lia. }
      destruct bs as [|b bs]; [contradiction|].
      destruct (do_recv_data py b bs ins W) as (py' & R & W' & D' & C' & P' & L' & _); [lia|].
      rewrite R. cbn [bind].
      set (r1 := set_pay r n (Some py')).
      assert (ND : zlen (mdata py') = meta_getlen py') by (apply mdata_len; assumption).
      unfold unread in *. destruct (Z.leb_spec (zlen (b :: bs)) (meta_getfree py)) as [WH|PA].
      * rewrite (ztake_all (meta_getfree py)) in D' by lia.
        destruct (IH k r1 m py' n) as (py2 & ins2 & R2 & D2 & F2 & C2); auto; try reflexivity; try lia.
        -- cbn [flat] in B. rewrite D', <- app_assoc. exact B.
        -- simpl in K. lia.
        -- exists py2, ins2. split; [exact R2|]. rewrite D', <- app_assoc in D2, F2. auto.
      * (* the body is complete and something of this chunk is left *)
        assert (FU : meta_getlen py' = n) by (unfold meta_getlen in *; lia).
        destruct k as [|k]; [simpl in K; lia|]. cbn [http_run].
        change (q_ph r1) with (q_ph r). change (q_pay r1) with (Some py'). change (q_payn r1) with n. rewrite E.
        destruct (Z.ltb_spec (meta_getlen py') n); [lia|].
        eexists py', _. split; [reflexivity|].
        rewrite D'. cbn [flat].
        assert (TL : zlen (ztake (meta_getfree py) (b :: bs)) = meta_getfree py) by (rewrite zlen_ztake; lia).
        replace (mdata py ++ (b :: bs) ++ flat ins)
          with ((mdata py ++ ztake (meta_getfree py) (b :: bs)) ++ (zdrop (meta_getfree py) (b :: bs) ++ flat ins))
          by (rewrite <- app_assoc, (app_assoc (ztake (meta_getfree py) (b :: bs))), ztake_zdrop; reflexivity).
        set (x := mdata py ++ ztake (meta_getfree py) (b :: bs)) in *.
        assert (XL : zlen x = n) by (subst x; rewrite zlen_app; lia).
        rewrite ztake_app_l, ztake_all, zdrop_app_r by lia. rewrite XL, Z.sub_diag. rewrite (zdrop_le0 0) by lia.
        split; [reflexivity|]. split; [reflexivity|].
        constructor; [|assumption]. intros X. apply (f_equal zlen) in X.
        rewrite zlen_zdrop in X by lia. change (zlen (@nil Z)) with 0 in X. lia.
    + exists py, (i :: ins). rewrite <- N, set_pay_same by assumption. rewrite N.
      assert (zlen (mdata py) = n) by lia.
      rewrite ztake_app_l, ztake_all, zdrop_app_r by lia. rewrite zdrop_le0 by lia. auto.
Qed.

(** ** Bounds for arbitrary input *)
Definition kvinv (r : hreq) : Prop := zlen (q_kvs r) = 16 /\ 0 <= q_kvn r <= 15.

Lemma with_kv_inv r f s : kvinv r -> exists r', with_kv r f s = BNext r' /\ kvinv r' /\ q_pay r' = q_pay r.
Proof.
  intros (L & N). destruct (zget_in_range (q_kvs r) (q_kvn r)) as (e & G); [lia|].
  rewrite (with_kv_ok r f s e) by assumption. eexists. split; [reflexivity|].
  unfold kvinv. cbn. rewrite kv_upd_len by lia. auto.
Qed.

Lemma byte_step_inv r p b : kvinv r ->
  match byte_step r p b with
  | BNext r' | BDone r' => kvinv r' /\ q_pay r' = q_pay r
  | BErr => True
  | BFault _ => False
  end.
Proof.
  intros I. unfold byte_step. destruct (bad_byte b); [exact Logic.I|].
  destruct (q_ph r) as [s|s|]; [| |exact Logic.I].
  - destruct s; unfold line_byte; cbn zeta;
      repeat match goal with |- context[if ?c then _ else _] => destruct c end;
      try exact Logic.I; split; try exact I; reflexivity.
  - destruct s; unfold hdr_byte; cbn zeta.
    + destruct (b =? CR); [split; [exact I|reflexivity]|].
      destruct (with_kv_inv r (fun e => (set_off (fst e) p, snd e)) HKey I) as (r' & -> & H). exact H.
    + destruct (b =? COLON); [|split; [exact I|reflexivity]].
      destruct (with_kv_inv r (fun e => (set_end (fst e) p, snd e)) HValInit I) as (r' & -> & H). exact H.
    + destruct (b =? SP); [split; [exact I|reflexivity]|].
      destruct (with_kv_inv r (fun e => (fst e, set_off (snd e) p)) HVal I) as (r' & -> & H). exact H.
    + destruct (b =? CR); [|split; [exact I|reflexivity]].
      destruct (with_kv_inv r (fun e => (fst e, set_end (snd e) p)) HEnd I) as (r' & -> & H). exact H.
    + destruct (b =? LF); [|exact Logic.I]. split; [|reflexivity]. destruct I as (L & N).
      split; [exact L|]. cbn. unfold KV_MAX. destruct (Z.ltb_spec (16 - 1) (q_kvn r + 1)); lia.
    + destruct (b =? LF); [|exact Logic.I]. split; [exact I|reflexivity].
Qed.

Lemma scan_inv : forall bs r p, kvinv r ->
  match scan r p bs with
  | SEnd r' => kvinv r' /\ q_pay r' = q_pay r
  | SDone r' q => kvinv r' /\ q_pay r' = q_pay r /\ p <= q < p + zlen bs
  | SErr => True
  | SFault _ => False
  end.
Proof.
  induction bs as [|b bs IH]; intros r p I; [split; [assumption|reflexivity]|].
  cbn [scan]. pose proof (byte_step_inv r p b I) as H. pose proof (zlen_nonneg bs). rewrite zlen_cons.
  destruct (byte_step r p b) as [r'|r'| |f]; [|destruct H; split; [assumption|split; [assumption|lia]]|exact Logic.I|contradiction].
  destruct H as (I' & P'). specialize (IH r' (p + 1) I').
  destruct (scan r' (p + 1) bs) as [r2|r2 q| |f]; try exact IH.
  - destruct IH as (A & B). split; [assumption|congruence].
  - destruct IH as (A & B & C). split; [assumption|]. split; [congruence|lia].
Qed.

(** the only fault the string functions can raise is an over-read *)
Definition only_overread {A} (x : res A) : Prop := match x with Fault f => f = FOverread | _ => True end.

Lemma of_opt_overread {A} (o : option A) : only_overread (of_opt FOverread o).
Proof. destruct o; exact I || reflexivity. Qed.
Lemma bind_overread {A B} (x : res A) (k : A -> res B) :
  only_overread x -> (forall a, only_overread (k a)) -> only_overread (bind x k).
Proof. intros H K. destruct x; simpl; auto. Qed.

Lemma ncaseeq_overread buf lit : forall o n, only_overread (ncaseeq buf o lit n).
Proof.
  induction lit as [|l lit IH]; intros o n; cbn [ncaseeq]; destruct (n =? 0); try exact I;
    apply bind_overread; try apply of_opt_overread; intros c; [exact I|].
  destruct (lower c =? lower l); [apply IH|exact I].
Qed.
Lemma keep_loop_overread buf : forall es k, only_overread (keep_loop buf es k).
Proof.
  induction es as [|e es IH]; intros k; [exact I|]. cbn [keep_loop].
  apply bind_overread; [apply ncaseeq_overread|]. intros []; [|apply IH].
  apply bind_overread; [apply ncaseeq_overread|]. intros; apply IH.
Qed.
Lemma hdr_finish_overread buf r : only_overread (hdr_finish buf r).
Proof.
  apply bind_overread; [apply keep_loop_overread|]. intros k.
  apply bind_overread; [apply ncaseeq_overread|]. intros []; [exact I|].
  apply bind_overread; [apply ncaseeq_overread|]. intros []; exact I.
Qed.
Lemma skip_space_overread buf : forall fuel o, only_overread (skip_space buf fuel o).
Proof.
  induction fuel as [|f IH]; intros o; cbn [skip_space]; apply bind_overread; try apply of_opt_overread; intros c; [exact I|].
  destruct (is_space c); [apply IH|exact I].
Qed.
Lemma digits_overread buf : forall fuel o a, only_overread (digits buf fuel o a).
Proof.
  induction fuel as [|f IH]; intros o a; cbn [digits]; apply bind_overread; try apply of_opt_overread; intros c; [exact I|].
  destruct (is_digit c); [apply IH|exact I].
Qed.
Lemma strtol_overread buf o : only_overread (strtol buf o).
Proof.
  unfold strtol. apply bind_overread; [apply skip_space_overread|]. intros a.
  apply bind_overread; [apply of_opt_overread|]. intros c.
  destruct (c =? 45); [|destruct (c =? 43)]; apply bind_overread; try apply digits_overread; intros; exact I.
Qed.
Lemma clen_loop_overread buf : forall es n, only_overread (clen_loop buf es n).
Proof.
  induction es as [|e es IH]; intros n; [exact I|]. cbn [clen_loop].
  apply bind_overread; [apply ncaseeq_overread|]. intros []; [|apply IH].
  apply bind_overread; [apply strtol_overread|]. intros v. cbn zeta.
  destruct (to_int v <? 0); [exact I|]. destruct (MAX_BODY <? to_int v); [exact I|apply IH].
Qed.

Definition rinv (r : hreq) (m : meta) : Prop :=
  kvinv r /\ meta_wf m /\ match q_pay r with Some py => meta_wf py | None => True end.

Lemma do_recv_inv m ins : meta_wf m ->
  match do_recv m ins with
  | Ok (FGot m' _) => meta_wf m'
  | Ok _ => True
  | Fault f => f = FAbort
  | NoFuel => False
  end.
Proof.
  intros W. unfold do_recv. destruct (Z.ltb_spec (meta_getfree m) 1); [reflexivity|].
  destruct ins as [|[[|b bs]| |] t]; try exact I.
  destruct (do_recv_data m b bs t W) as (m' & R & W' & _); [lia|].
  unfold do_recv in R. destruct (Z.ltb_spec (meta_getfree m) 1); [lia|]. rewrite R. exact W'.
Qed.

Lemma run_safe : forall fuel r m ins, rinv r m ->
  match http_run fuel r m ins with Fault f => f = FAbort \/ f = FOverread | Ok (HComplete r' _ _) => kvinv r' | _ => True end.
Proof.
  induction fuel as [|k IH]; intros r m ins (K & W & P); [exact I|]. cbn [http_run].
  assert (SC : forall m' ins', meta_wf m' ->
    match (match scan r (mpos m') (mdata m') with
            | SErr => Ok HFail
            | SFault f => Fault f
            | SDone r' p =>
                let m2 := mkMeta (mbuf m') (p + 1) (mlast m') in
                match q_ph r' with
                | PBody => let* r2 := hdr_finish (mbuf m') r' in http_run k r2 m2 ins'
                | _ => http_run k r' m2 ins'
                end
            | SEnd r' => if meta_getfree m' <? 1 then Ok HFail else http_run k r' m' ins'
            end) with Fault f => f = FAbort \/ f = FOverread | Ok (HComplete r' _ _) => kvinv r' | _ => True end).
  { intros m' ins' W'. pose proof (scan_inv (mdata m') r (mpos m') K) as S.
    pose proof (mdata_len m' W') as DL.
    destruct (scan r (mpos m') (mdata m')) as [r'|r' p| |f]; [| |exact I|contradiction].
    - destruct S as (K' & P'). destruct (meta_getfree m' <? 1); [exact I|]. apply IH.
      split; [assumption|]. split; [assumption|]. rewrite P'. exact P.
    - destruct S as (K' & P' & R). cbn zeta.
      assert (W2 : meta_wf (mkMeta (mbuf m') (p + 1) (mlast m'))).
      { unfold meta_wf, meta_cap in *. cbn. unfold meta_getlen in DL. lia. }
      destruct (q_ph r') eqn:EP.
      1,2: apply IH; split; [assumption|]; split; [assumption|]; rewrite P'; exact P.
      pose proof (hdr_finish_overread (mbuf m') r') as O.
      destruct (hdr_finish (mbuf m') r') as [r2|f|] eqn:HF; cbn [bind]; [|right; exact O|exact I].
      apply IH. assert (Q : q_kvs r2 = q_kvs r' /\ q_kvn r2 = q_kvn r' /\ q_pay r2 = q_pay r').
      { unfold hdr_finish in HF. apply bind_ok in HF as (kk & _ & HF). apply bind_ok in HF as (g & _ & HF).
        destruct g; [injection HF as <-; auto|]. apply bind_ok in HF as (g2 & _ & HF).
        destruct g2; injection HF as <-; auto. }
      destruct Q as (Q1 & Q2 & Q3). split; [unfold kvinv in *; rewrite Q1, Q2; assumption|].
      split; [assumption|]. rewrite Q3, P'. exact P. }
  assert (ML : match (let* f := (if meta_getlen m <? 1 then do_recv m ins else Ok (FGot m ins)) in
        match f with
        | FNone => Ok (HWait r m)
        | FErr => Ok HFail
        | FAgain ins' => http_run k r m ins'
        | FGot m' ins' =>
            match scan r (mpos m') (mdata m') with
            | SErr => Ok HFail
            | SFault f => Fault f
            | SDone r' p =>
                let m2 := mkMeta (mbuf m') (p + 1) (mlast m') in
                match q_ph r' with
                | PBody => let* r2 := hdr_finish (mbuf m') r' in http_run k r2 m2 ins'
                | _ => http_run k r' m2 ins'
                end
            | SEnd r' => if meta_getfree m' <? 1 then Ok HFail else http_run k r' m' ins'
            end
        end) with Fault f => f = FAbort \/ f = FOverread | Ok (HComplete r' _ _) => kvinv r' | _ => True end).
  { destruct (meta_getlen m <? 1); [|cbn [bind]; apply SC; assumption].
    pose proof (do_recv_inv m ins W) as R. destruct (do_recv m ins) as [[m' ins'|ins'| |]|f|]; cbn [bind]; try exact I.
    - apply SC. exact R.
    - apply IH. split; [assumption|]. split; assumption.
    - left. exact R. }
  destruct (q_ph r) eqn:EP; [exact ML|exact ML|]. clear ML SC.
  destruct (q_pay r) as [py|] eqn:EY.
  - destruct (meta_getlen py <? q_payn r); [|exact K].
    pose proof (do_recv_inv py ins P) as R. destruct (do_recv py ins) as [[m' ins'|ins'| |]|f|]; cbn [bind]; try exact I.
    + apply IH. split; [exact K|]. split; [assumption|]. exact R.
    + apply IH. split; [exact K|]. split; [assumption|]. rewrite EY. exact P.
    + left. exact R.
  - pose proof (clen_loop_overread (mbuf m) (ztake (q_kvn r) (q_kvs r)) (q_payn r)) as O.
    destruct (clen_loop (mbuf m) (ztake (q_kvn r) (q_kvs r)) (q_payn r)) as [[n|]|f|]; cbn [bind]; try exact I.
    2: right; exact O.
    destruct (Z.ltb_spec 0 n); [|exact K]. destruct (meta_fits n); [|exact I].
    destruct (meta_new_wf n) as (Wn & _); [lia|].
    destruct (meta_getlen m =? 0).
    + apply IH. split; [exact K|]. split; [assumption|exact Wn].
    + unfold meta_pdata. destruct (Z.leb_spec (zlen (mdata m)) (meta_getfree (meta_new n))) as [LE|]; [|exact I].
      destruct (meta_store_ok (meta_new n) (mdata m) Wn LE) as (m' & S & W' & _).
      rewrite S. cbn [bind fst snd]. apply IH. split; [exact K|]. split; assumption.
Qed.
