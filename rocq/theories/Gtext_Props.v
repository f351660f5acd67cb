(** * C167: every number is printed as a JSON number, and fits its buffer. *)
From Verif Require Import Base Jprint_Model Jdbl_Model Jdbl_Props Jsign_Model Jsign_Props Gtext_Model.
Open Scope Z_scope.
Local Arguments Z.add : simpl never.
Local Arguments Z.sub : simpl never.
Local Arguments Z.mul : simpl never.
Local Arguments Z.div : simpl never.
Local Arguments Z.modulo : simpl never.
Local Arguments Z.pow : simpl never.
Local Arguments zlen : simpl never.

(** ** Specification: RFC 8259, section 6
    [json_number t m e]: the text [t] is a number and stands for m * 10^e. *)
Definition isdigit (c : Z) : Prop := 48 <= c <= 57.
Definition value (l : list Z) : Z := fold_left (fun a c => 10 * a + (c - 48)) l 0.
Definition json_int (l : list Z) : Prop := l = [48] \/ exists c r, l = c :: r /\ 49 <= c <= 57 /\ Forall isdigit r.
Definition json_frac (t l : list Z) : Prop := (t = [] /\ l = []) \/ (t = 46 :: l /\ l <> [] /\ Forall isdigit l).
Definition json_exp (t : list Z) (x : Z) : Prop :=
  (t = [] /\ x = 0) \/ exists b l, t = 101 :: (if b : bool then 45 else 43) :: l /\ l <> [] /\ Forall isdigit l /\ x = (if b then - value l else value l).
Definition json_number (t : list Z) (m e : Z) : Prop :=
  exists (neg : bool) i f fd ex x, t = (if neg then [45] else []) ++ i ++ f ++ ex /\ json_int i /\ json_frac f fd /\ json_exp ex x /\
    m = (if neg then - value (i ++ fd) else value (i ++ fd)) /\ e = x - zlen fd.
(** cJSON.c:551: number_buffer has 26 bytes; sprintf needs one for the NUL *)
Definition fits (t : list Z) : Prop := zlen t <= 25.

(** ** Digits *)
Definition val (l : list Z) : Z := fold_left (fun a x => 10 * a + x) l 0.
Definition dg (x : Z) : Prop := 0 <= x <= 9.
Lemma fold_val : forall l a, fold_left (fun a x => 10 * a + x) l a = a * 10 ^ zlen l + val l.
Proof.
  unfold val. induction l as [|x l IH]; intros a; cbn [fold_left]; [change (10 ^ zlen (@nil Z)) with 1; lia|].
  rewrite IH, (IH (10 * 0 + x)), zlen_cons. pose proof (zlen_nonneg l). rewrite Z.pow_add_r by lia. change (10 ^ 1) with 10. ring.
Qed.
Lemma val_app l r : val (l ++ r) = val l * 10 ^ zlen r + val r.
Proof. unfold val at 1. rewrite fold_left_app. apply fold_val. Qed.
Lemma val_nonneg l : Forall dg l -> 0 <= val l.
Proof.
  induction l as [|x l IH] using rev_ind; intros F; [unfold val; cbn; lia|]. apply Forall_app in F as (F & G).
  inversion G as [|? ? D _]. rewrite val_app. change (zlen [x]) with 1. change (val [x]) with (10 * 0 + x). unfold dg in D. specialize (IH F). lia.
Qed.
Lemma value_txt l : value (txt l) = val l.
Proof.
  unfold value, val, txt. generalize 0. induction l as [|x l IH]; intros a; [reflexivity|]. cbn [map fold_left].
  replace (48 + x - 48) with x by lia. apply IH.
Qed.
Lemma txt_digits l : Forall dg l -> Forall isdigit (txt l).
Proof. intros F. apply Forall_forall. intros c I. apply in_map_iff in I as (x & <- & I). rewrite Forall_forall in F. specialize (F x I). unfold dg, isdigit in *. lia. Qed.
Lemma zlen_txt l : zlen (txt l) = zlen l.
Proof. apply zlen_map. Qed.
Lemma val_zeros n : val (repeat 0 n) = 0.
Proof. induction n as [|n IH]; [reflexivity|]. change (repeat 0 (S n)) with ([0] ++ repeat 0 n). rewrite val_app, IH. change (val [0]) with 0. lia. Qed.

Lemma dig_len n d : zlen (dig n d) = Z.of_nat n.
Proof. revert d. induction n as [|n IH]; intros d; [reflexivity|]. cbn [dig]. rewrite zlen_app, IH. change (zlen [d mod 10]) with 1. lia. Qed.
Lemma dig_dg n d : Forall dg (dig n d).
Proof.
  revert d. induction n as [|n IH]; intros d; [constructor|]. cbn [dig]. apply Forall_app. split; [apply IH|].
  constructor; [|constructor]. pose proof (Z.mod_pos_bound d 10). unfold dg. lia.
Qed.
Lemma pow10_S n : 10 ^ Z.of_nat (S n) = 10 * 10 ^ Z.of_nat n.
Proof. rewrite Nat2Z.inj_succ, Z.pow_succ_r by lia. reflexivity. Qed.
Lemma dig_val n d : 0 <= d < 10 ^ Z.of_nat n -> val (dig n d) = d.
Proof.
  revert d. induction n as [|n IH]; intros d B; [change (10 ^ Z.of_nat 0) with 1 in B; cbn; lia|].
  rewrite pow10_S in B. cbn [dig]. rewrite val_app. change (zlen [d mod 10]) with 1. change (10 ^ 1) with 10.
  change (val [d mod 10]) with (10 * 0 + d mod 10). pose proof (Z.div_mod d 10). pose proof (Z.mod_pos_bound d 10).
  rewrite IH by (split; [apply Z.div_pos; lia|apply Z.div_lt_upper_bound; lia]). lia.
Qed.
Lemma dig_head n d : 10 ^ Z.of_nat n <= d < 10 ^ Z.of_nat (S n) -> exists x r, dig (S n) d = x :: r /\ 1 <= x <= 9.
Proof.
  revert d. induction n as [|n IH]; intros d B.
  - change (10 ^ Z.of_nat 0) with 1 in B. change (10 ^ Z.of_nat 1) with 10 in B. cbn [dig app]. exists (d mod 10), []. split; [reflexivity|].
    rewrite Z.mod_small by lia. lia.
  - rewrite (pow10_S (S n)), (pow10_S n) in B.
    destruct (IH (d / 10)) as (x & r & E & X).
    + rewrite pow10_S. split; [apply Z.div_le_lower_bound; lia|apply Z.div_lt_upper_bound; lia].
    + exists x, (r ++ [d mod 10]). split; [|exact X]. change (dig (S (S n)) d) with (dig (S n) (d / 10) ++ [d mod 10]). rewrite E. reflexivity.
Qed.

(** ** The parts of a text *)
Lemma strip_zeros l : exists k, l = strip l ++ repeat 0 k.
Proof.
  induction l as [|x l (k & IH)]; [exists 0%nat; reflexivity|]. cbn [strip]. destruct (strip l) as [|y t] eqn:E.
  - cbn [app] in IH. destruct (Z.eqb_spec x 0) as [->|N]; [exists (S k); cbn; rewrite <- IH; reflexivity|exists k; cbn; rewrite <- IH; reflexivity].
  - exists k. cbn [app]. cbn [app] in IH. rewrite <- IH. reflexivity.
Qed.
Lemma strip_dg l : Forall dg l -> Forall dg (strip l).
Proof. intros F. destruct (strip_zeros l) as (k & E). rewrite E in F. apply Forall_app in F. tauto. Qed.
Lemma frac_json l : Forall dg l -> json_frac (frac l) (txt (strip l)).
Proof.
  intros F. apply strip_dg in F. unfold frac. destruct (strip l) as [|y t]; [left; auto|]. right. split; [reflexivity|]. split; [discriminate|].
  apply txt_digits. exact F.
Qed.
Lemma frac_len l : zlen (frac l) <= 1 + zlen l.
Proof.
  unfold frac. destruct (strip_zeros l) as (k & E). assert (zlen (strip l) <= zlen l) by (rewrite E at 2; rewrite zlen_app; pose proof (zlen_nonneg (repeat 0 k)); lia).
  pose proof (zlen_nonneg l). destruct (strip l) as [|y t]; [change (zlen (@nil Z)) with 0; lia|]. rewrite zlen_cons, zlen_txt. lia.
Qed.
Lemma expo_json x : -1000 < x < 1000 -> json_exp (expo x) x /\ zlen (expo x) <= 5.
Proof.
  intros B. unfold expo. set (n := if Z.abs x <? 100 then 2%nat else 3%nat).
  assert (E : (if Z.abs x <? 100 then dig 2 (Z.abs x) else dig 3 (Z.abs x)) = dig n (Z.abs x)) by (subst n; destruct (_ <? _); reflexivity).
  assert (N : (n = 2 \/ n = 3)%nat) by (subst n; destruct (_ <? _); auto).
  assert (V : val (dig n (Z.abs x)) = Z.abs x).
  { apply dig_val. subst n. destruct (Z.ltb_spec (Z.abs x) 100); [change (10 ^ Z.of_nat 2) with 100|change (10 ^ Z.of_nat 3) with 1000]; lia. }
  rewrite E. split.
  - right. exists (x <? 0), (txt (dig n (Z.abs x))). split; [reflexivity|]. split.
    { intros X. apply (f_equal zlen) in X. rewrite zlen_txt, dig_len in X. change (zlen (@nil Z)) with 0 in X. lia. }
    split; [apply txt_digits, dig_dg|]. rewrite value_txt, V. destruct (Z.ltb_spec x 0); lia.
  - rewrite !zlen_cons, zlen_txt, dig_len. lia.
Qed.
(** integer digits [i], fraction digits [l], exponent [x] *)
Lemma parts (neg : bool) i l ex x : Forall dg i -> json_int (txt i) -> Forall dg l -> json_exp ex x ->
  exists m e, json_number ((if neg then [45] else []) ++ txt i ++ frac l ++ ex) m e /\ x - zlen l <= e /\
    (if neg then - val (i ++ l) else val (i ++ l)) = m * 10 ^ (e - (x - zlen l)).
Proof.
  intros DI JI DL JE. destruct (strip_zeros l) as (k & E).
  exists (if neg then - val (i ++ strip l) else val (i ++ strip l)), (x - zlen (strip l)).
  assert (L : zlen l = zlen (strip l) + Z.of_nat k) by (rewrite E at 1; rewrite zlen_app; unfold zlen at 2; rewrite repeat_length; reflexivity).
  split; [|split; [lia|]].
  - exists neg, (txt i), (frac l), (txt (strip l)), ex, x. split; [reflexivity|]. split; [exact JI|]. split; [apply frac_json; exact DL|].
    split; [exact JE|]. split; [|rewrite zlen_txt; reflexivity]. unfold txt at 1 3. rewrite <- map_app. fold (txt (i ++ strip l)). rewrite value_txt. reflexivity.
  - replace (x - zlen (strip l) - (x - zlen l)) with (Z.of_nat k) by lia.
    assert (V : val (i ++ l) = val (i ++ strip l) * 10 ^ Z.of_nat k).
    { rewrite E at 1. rewrite app_assoc, val_app, val_zeros. unfold zlen. rewrite repeat_length. lia. }
    rewrite V. destruct neg; ring.
Qed.
Lemma int_head x r : 1 <= x <= 9 -> Forall dg r -> json_int (txt (x :: r)).
Proof. intros X F. right. exists (48 + x), (txt r). split; [reflexivity|]. split; [lia|apply txt_digits; exact F]. Qed.
Lemma take_head n x r : 1 <= n -> Forall dg (x :: r) -> exists t, ztake n (x :: r) = x :: t /\ Forall dg t.
Proof.
  intros N F. unfold ztake. destruct (Z.to_nat n) as [|k] eqn:E; [lia|]. cbn [firstn]. exists (firstn k r). split; [reflexivity|].
  inversion F as [|? ? _ G]. rewrite <- (firstn_skipn k r) in G. apply Forall_app in G. tauto.
Qed.

Lemma gbody_json (neg : bool) s d q : 1 <= s -> 10 ^ (s - 1) <= d < 10 ^ s -> -1000 < q + s - 1 < 1000 ->
  (exists m e, json_number ((if neg then [45] else []) ++ gbody s d q) m e /\ q <= e /\ (if neg then - d else d) = m * 10 ^ (e - q)) /\
  zlen (gbody s d q) <= s + 6.
Proof.
  intros S1 B XB. unfold gbody. set (x := q + s - 1) in *.
  assert (SN : exists n, Z.to_nat s = S n /\ s = Z.of_nat (S n)) by (exists (Z.to_nat (s - 1)); lia). destruct SN as (n & SN & SZ).
  rewrite SN. assert (B' : 10 ^ Z.of_nat n <= d < 10 ^ Z.of_nat (S n)) by (replace (Z.of_nat n) with (s - 1) by lia; rewrite <- SZ; exact B).
  assert (P0 : 0 < 10 ^ Z.of_nat n) by (apply Z.pow_pos_nonneg; lia).
  destruct (dig_head n d B') as (y & r & E & Y). pose proof (dig_dg (S n) d) as DD. pose proof (dig_len (S n) d) as DL. rewrite <- SZ in DL.
  pose proof (dig_val (S n) d ltac:(lia)) as DV. set (ds := dig (S n) d) in *. clearbody ds.
  assert (TK : forall k, 1 <= k -> exists t, ztake k ds = y :: t /\ Forall dg t) by (intros k K; rewrite E; apply take_head; [exact K|rewrite <- E; exact DD]).
  assert (DS : forall k, Forall dg (ztake k ds) /\ Forall dg (zdrop k ds)).
  { intros k. rewrite <- (ztake_zdrop k ds) in DD. apply Forall_app in DD. exact DD. }
  assert (YD : dg y) by (unfold dg; lia).
  assert (CE : (exists m e, json_number ((if neg then [45] else []) ++ txt (ztake 1 ds) ++ frac (zdrop 1 ds) ++ expo x) m e /\ q <= e /\
                 (if neg then - d else d) = m * 10 ^ (e - q)) /\ zlen (txt (ztake 1 ds) ++ frac (zdrop 1 ds) ++ expo x) <= s + 6).
  { destruct (TK 1 ltac:(lia)) as (t & T & DT). destruct (expo_json x XB) as (JE & LE). split;
      [|rewrite !zlen_app, zlen_txt, zlen_ztake by lia; pose proof (frac_len (zdrop 1 ds)) as FL; rewrite zlen_zdrop in FL by lia; lia].
    assert (JI : json_int (txt (ztake 1 ds))) by (rewrite T; apply int_head; assumption).
    destruct (parts neg (ztake 1 ds) (zdrop 1 ds) (expo x) x (proj1 (DS 1)) JI (proj2 (DS 1)) JE) as (m & e & J & LQ & V).
    rewrite ztake_zdrop, DV, zlen_zdrop, DL in V by lia. rewrite zlen_zdrop, DL in LQ by lia.
    replace (x - Z.max 0 (s - 1)) with q in V, LQ by (subst x; lia). exists m, e. auto. }
  destruct (Z.ltb_spec x (-4)) as [LO|LO]; [exact CE|]. destruct (Z.leb_spec s x) as [HI|HI]; cbn [orb]; [exact CE|].
  destruct (Z.leb_spec 0 x) as [NN|NG].
  - destruct (TK (x + 1) ltac:(lia)) as (t & T & DT). split;
      [|rewrite !zlen_app, zlen_txt, zlen_ztake by lia; pose proof (frac_len (zdrop (x + 1) ds)) as FL; rewrite zlen_zdrop in FL by lia; lia].
    assert (JI : json_int (txt (ztake (x + 1) ds))) by (rewrite T; apply int_head; assumption).
    destruct (parts neg (ztake (x + 1) ds) (zdrop (x + 1) ds) [] 0 (proj1 (DS _)) JI (proj2 (DS _)) (or_introl (conj eq_refl eq_refl))) as (m & e & J & LQ & V).
    rewrite ztake_zdrop, DV, zlen_zdrop, DL in V by lia. rewrite zlen_zdrop, DL in LQ by lia.
    replace (0 - Z.max 0 (s - (x + 1))) with q in V, LQ by (subst x; lia). rewrite app_nil_r in J. exists m, e. auto.
  - assert (ZL : zlen (zrepeat 0 (- x - 1) ++ ds) = - q) by (rewrite zlen_app, zlen_zrepeat by lia; subst x; lia).
    assert (ZD : Forall dg (zrepeat 0 (- x - 1) ++ ds)).
    { apply Forall_app. split; [|exact DD]. apply Forall_forall. intros z I. apply repeat_spec in I. unfold dg. lia. }
    split; [|rewrite zlen_app; pose proof (frac_len (zrepeat 0 (- x - 1) ++ ds)) as FL; rewrite ZL in FL; change (zlen [48]) with 1; subst x; lia].
    destruct (parts neg [0] (zrepeat 0 (- x - 1) ++ ds) [] 0 ltac:(constructor; [unfold dg; lia|constructor]) (or_introl eq_refl) ZD (or_introl (conj eq_refl eq_refl))) as (m & e & J & LQ & V).
    rewrite ZL in V, LQ. replace (0 - - q) with q in V, LQ by lia. rewrite !val_app in V. unfold zrepeat in V. rewrite val_zeros in V.
    change (val [0]) with 0 in V. rewrite DV in V. rewrite !Z.mul_0_l, !Z.add_0_l in V. rewrite app_nil_r in J. exists m, e. auto.
Qed.
Lemma gtext_json s D q : 1 <= s -> 10 ^ (s - 1) <= Z.abs D <= 10 ^ s -> -1000 < q + s - 1 -> q + s < 1000 ->
  (exists m e, json_number (gtext s D q) m e /\ q <= e /\ D = m * 10 ^ (e - q)) /\ zlen (gtext s D q) <= s + 7.
Proof.
  intros S1 B LO HI. unfold gtext.
  assert (PS : 10 ^ s = 10 * 10 ^ (s - 1)) by (replace s with (Z.succ (s - 1)) at 1 by lia; apply Z.pow_succ_r; lia).
  assert (P0 : 0 < 10 ^ (s - 1)) by (apply Z.pow_pos_nonneg; lia).
  assert (SL : zlen (if D <? 0 then [45] else []) <= 1) by (destruct (D <? 0); vm_compute; discriminate).
  assert (AD : (if D <? 0 then - Z.abs D else Z.abs D) = D) by (destruct (Z.ltb_spec D 0); lia).
  destruct (Z.eqb_spec (Z.abs D) (10 ^ s)) as [E|N].
  - destruct (gbody_json (D <? 0) s (10 ^ (s - 1)) (q + 1)) as ((m & e & J & LQ & V) & L); [lia|lia|lia|]. split; [|rewrite zlen_app; lia].
    exists m, e. split; [exact J|]. split; [lia|]. rewrite <- AD, E, PS. replace (e - q) with (Z.succ (e - (q + 1))) by lia.
    rewrite Z.pow_succ_r by lia. destruct (D <? 0); lia.
  - destruct (gbody_json (D <? 0) s (Z.abs D) q) as ((m & e & J & LQ & V) & L); [lia|lia|lia|]. split; [|rewrite zlen_app; lia].
    exists m, e. split; [exact J|]. split; [lia|]. rewrite <- V. symmetry. exact AD.
Qed.

(** ** Exponents of doubles *)
Lemma shown_range s X d q : 1 <= s <= 17 -> is_double X -> 0 < X -> shown s X d q -> -1000 < q + s - 1 /\ q + s < 1000.
Proof.
  intros SB (m & k & M & K & EX) P ((_ & DLE) & LO & NEAR). assert (PS : 0 < 10 ^ s) by (apply Z.pow_pos_nonneg; lia).
  assert (BX : X < 2 ^ 53 * 2 ^ 2045).
  { subst X. assert (2 ^ k <= 2 ^ 2045) by (apply Z.pow_le_mono_r; lia). assert (0 < 2 ^ k) by (apply Z.pow_pos_nonneg; lia).
    set (a := 2 ^ k) in *. set (b := 2 ^ 2045) in *. set (c := 2 ^ 53) in *. clearbody a b c. nia. }
  destruct (Z.le_gt_cases 0 q) as [Q|Q].
  - split; [lia|]. unfold sc, sb in LO. rewrite (Z.max_r 0 q), (Z.max_l 0 (- q)), Z.pow_0_r in LO by lia.
    destruct (Z.lt_ge_cases (q + s) 1000) as [|G]; [assumption|exfalso].
    assert (PW : 10 ^ 400 <= 10 ^ (s - 1) * 10 ^ q) by (rewrite <- Z.pow_add_r by lia; apply Z.pow_le_mono_r; lia).
    assert (C : 2 ^ 53 * 2 ^ 2045 < 10 ^ 400 * 2 ^ 1074) by reflexivity. assert (0 < 2 ^ 1074) by reflexivity.
    set (a := 10 ^ (s - 1)) in *. set (b := 10 ^ q) in *. set (c := 2 ^ 1074) in *. set (e := 10 ^ 400) in *.
    set (g := 2 ^ 53 * 2 ^ 2045) in *. clearbody a b c e g. nia.
  - split; [|lia]. unfold sc, sb in NEAR, LO. rewrite (Z.max_l 0 q), (Z.max_r 0 (- q)), Z.pow_0_r in NEAR, LO by lia.
    destruct (Z.lt_ge_cases (-1000) (q + s - 1)) as [|G]; [assumption|exfalso].
    assert (PW : 10 ^ s * 10 ^ 400 <= 10 ^ (- q)) by (rewrite <- Z.pow_add_r by lia; apply Z.pow_le_mono_r; lia).
    assert (C : 3 * 2 ^ 1074 < 10 ^ 400) by reflexivity. assert (0 < 2 ^ 1074) by reflexivity.
    assert (N2 : 2 * (X * 10 ^ (- q)) <= 2 * (d * (1 * 2 ^ 1074)) + 1 * 2 ^ 1074) by (clear - NEAR; lia).
    clear NEAR LO BX EX M K.
    set (a := 10 ^ s) in *. set (b := 10 ^ (- q)) in *. set (c := 2 ^ 1074) in *. set (e := 10 ^ 400) in *. clearbody a b c e.
    assert (0 <= a * e) by nia. assert (b <= X * b) by nia. assert (d * c <= a * c) by nia. assert (a * (3 * c) < a * e) by nia.
    assert (c <= a * c) by nia. lia.
Qed.

Lemma shown_s_range s X D q : 1 <= s <= 17 -> is_signed X -> shown_s s X D q ->
  10 ^ (s - 1) <= Z.abs D <= 10 ^ s /\ -1000 < q + s - 1 /\ q + s < 1000.
Proof.
  intros SB SX [(P & SH)|(N & SH)]; unfold is_signed in SX.
  - rewrite Z.abs_eq in SX by lia. pose proof (shown_pos s X D q ltac:(lia) SH). rewrite Z.abs_eq by lia.
    split; [exact (proj1 SH)|exact (shown_range s X D q SB SX P SH)].
  - rewrite Z.abs_neq in SX by lia. pose proof (shown_pos s (- X) (- D) q ltac:(lia) SH). rewrite Z.abs_neq by lia.
    split; [exact (proj1 SH)|exact (shown_range s (- X) (- D) q SB SX ltac:(lia) SH)].
Qed.

(** ** Doubles
    Both attempts, with 15 and with 17 digits, fit the buffer and are JSON numbers that stand for
    the decimal that was chosen. *)
Theorem C167_double : forall s X D q, s = 15 \/ s = 17 -> is_signed X -> shown_s s X D q ->
  fits (gtext s D q) /\ exists m e, json_number (gtext s D q) m e /\ q <= e /\ D = m * 10 ^ (e - q).
Proof.
  intros s X D q SS SX SH. destruct (shown_s_range s X D q ltac:(lia) SX SH) as (B & LO & HI).
  destruct (gtext_json s D q ltac:(lia) B LO HI) as (J & L). split; [unfold fits; lia|exact J].
Qed.
Print Assumptions C167_double.

(** ** Integers *)
Lemma lead_ok l : Forall dg l -> val (lead l) = val l /\ zlen (lead l) <= zlen l /\
  (lead l = [] \/ exists x r, lead l = x :: r /\ 1 <= x <= 9 /\ Forall dg r).
Proof.
  induction l as [|x l IH]; intros F; [cbn; auto using Z.le_refl|]. apply Forall_cons_iff in F as (D & G). cbn [lead].
  destruct (Z.eqb_spec x 0) as [->|N].
  - destruct (IH G) as (V & L & H). change (0 :: l) with ([0] ++ l). rewrite val_app, V. change (val [0]) with 0.
    rewrite Z.mul_0_l, zlen_app. change (zlen [0]) with 1. split; [lia|]. split; [lia|exact H].
  - split; [reflexivity|]. split; [lia|]. right. exists x, l. unfold dg in D. split; [reflexivity|]. split; [lia|exact G].
Qed.
Theorem C167_int : forall v, - INT_MAX - 1 <= v <= INT_MAX -> fits (itext v) /\ json_number (itext v) v 0.
Proof.
  intros v B. unfold itext. change INT_MAX with 2147483647 in B.
  pose proof (dig_val 10 (Z.abs v)) as V. change (10 ^ Z.of_nat 10) with 10000000000 in V. specialize (V ltac:(lia)).
  destruct (lead_ok (dig 10 (Z.abs v)) (dig_dg 10 _)) as (LV & LL & H). rewrite dig_len in LL. rewrite V in LV.
  set (w := match lead (dig 10 (Z.abs v)) with [] => [0] | l => l end).
  assert (W : json_int (txt w) /\ val w = Z.abs v /\ zlen w <= 10).
  { subst w. destruct H as [E|(x & r & E & X & DR)]; rewrite E in *.
    - split; [left; reflexivity|]. split; [exact LV|vm_compute; discriminate].
    - split; [apply int_head; assumption|]. split; [exact LV|exact LL]. }
  destruct W as (JI & WV & WL). split.
  - unfold fits. rewrite zlen_app, zlen_txt. assert (zlen (if v <? 0 then [45] else []) <= 1) by (destruct (v <? 0); vm_compute; discriminate). lia.
  - exists (v <? 0), (txt w), [], [], [], 0. rewrite !app_nil_r, value_txt, WV. split; [reflexivity|]. split; [exact JI|].
    split; [left; auto|]. split; [left; auto|]. split; [destruct (Z.ltb_spec v 0); lia|reflexivity].
Qed.
Print Assumptions C167_int.

(** ** From the double to the text and back *)
Lemma taken_same m e q Y : q <= e -> taken_s (m * 10 ^ (e - q)) q Y -> taken_s m e Y.
Proof.
  intros LE (DY & B). split; [exact DY|]. intros W DW. specialize (B W DW).
  assert (EX : sc e * sb q = 10 ^ (e - q) * sc q * sb e).
  { unfold sc, sb. replace (10 ^ Z.max 0 e * 2 ^ 1074 * 10 ^ Z.max 0 (- q)) with (10 ^ Z.max 0 e * 10 ^ Z.max 0 (- q) * 2 ^ 1074) by ring.
    replace (10 ^ (e - q) * (10 ^ Z.max 0 q * 2 ^ 1074) * 10 ^ Z.max 0 (- e)) with (10 ^ (e - q) * 10 ^ Z.max 0 q * 10 ^ Z.max 0 (- e) * 2 ^ 1074) by ring.
    rewrite <- !Z.pow_add_r by lia. do 2 f_equal. lia. }
  assert (PE : 0 < sb e) by (apply Z.pow_pos_nonneg; lia). assert (PQ : 0 < sb q) by (apply Z.pow_pos_nonneg; lia).
  assert (K : forall V, Z.abs (m * sc e - V * sb e) * sb q = Z.abs (m * 10 ^ (e - q) * sc q - V * sb q) * sb e).
  { intros V. rewrite <- (Z.abs_eq (sb q)) at 1 by lia. rewrite <- (Z.abs_eq (sb e)) at 2 by lia. rewrite <- !Z.abs_mul. f_equal.
    replace ((m * sc e - V * sb e) * sb q) with (m * (sc e * sb q) - V * sb e * sb q) by ring. rewrite EX. ring. }
  apply (Z.mul_le_mono_pos_r _ _ (sb q) PQ). rewrite !K. apply Z.mul_le_mono_nonneg_r; [lia|exact B].
Qed.
Lemma prints_printed rd X D q t : prints rd X D q t -> printed_s rd X D q.
Proof. intros [v V E|D' q' A B C|D' q' D2 q2 A B C E]; [apply ps_int|apply ps_15|apply (ps_17 rd X D' q')]; assumption. Qed.

(** What is printed for a finite double fits the buffer, is a JSON number, and whoever reads that
    number gets the double back, or one of the same sign at most 2^-52 of the larger one away (2^-51
    next to the smallest ones). *)
Theorem C138_text_partial : forall rd X D q t, is_signed X -> prints rd X D q t -> taken_s D q (rd D q) ->
  let Y := rd D q in
  fits t /\ exists m e, json_number t m e /\ taken_s m e Y /\
  (Y = X \/ (0 <= X * Y /\ 2 ^ 51 * Z.abs (Y - X) <= Z.max (Z.abs X) (Z.abs Y) /\
            (2 ^ 104 <= Z.abs X -> 2 ^ 52 * Z.abs (Y - X) <= Z.max (Z.abs X) (Z.abs Y)))).
Proof.
  intros rd X D q t SX PT TK Y. pose proof (C138_signed_partial rd X D q SX (prints_printed _ _ _ _ _ PT) TK) as R. cbv zeta in R. fold Y in R, TK.
  assert (J : fits t /\ exists m e, json_number t m e /\ q <= e /\ D = m * 10 ^ (e - q)).
  { destruct PT as [v V E|D' q' A B C|D' q' D2 q2 A B C E].
    - destruct (C167_int v V) as (F & N). split; [exact F|]. exists v, 0. split; [exact N|]. split; [lia|]. change (10 ^ (0 - 0)) with 1. ring.
    - apply (C167_double 15 X); auto.
    - apply (C167_double 17 X); auto. }
  destruct J as (F & m & e & N & LE & ED). split; [exact F|]. exists m, e. split; [exact N|]. split; [|exact R].
  apply (taken_same m e q Y LE). rewrite <- ED. exact TK.
Qed.
Print Assumptions C138_text_partial.

(** -(0.1 + 0.2) is printed as -0.3; two numbers with exponents; the smallest int *)
Example C138_text_ex : is_signed (- x03) /\ prints (fun _ _ => - y03) (- x03) (- (3 * 10 ^ 14)) (-15) [45; 48; 46; 51] /\
  taken_s (- (3 * 10 ^ 14)) (-15) (- y03).
Proof.
  destruct C138_signed_ex as (A & _ & C & _). split; [exact A|]. split; [|exact C].
  change [45; 48; 46; 51] with (gtext 15 (- (3 * 10 ^ 14)) (-15)). apply pt_15.
  - right. split; [reflexivity|]. rewrite !Z.opp_involutive.
    split; [vm_compute; split; discriminate|]. split; vm_compute; discriminate.
  - exact taken03_s.
  - vm_compute. reflexivity.
Qed.
Example C167_double_ex : is_signed (- x03) /\ shown_s 15 (- x03) (- (3 * 10 ^ 14)) (-15) /\
  gtext 15 (15 * 10 ^ 13) 286 = [49; 46; 53; 101; 43; 51; 48; 48] (* 1.5e+300 *) /\
  gtext 17 (- 10 ^ 17) (-22) = [45; 49; 101; 45; 48; 53] (* -1e-05 *) /\
  zlen (gtext 17 (- 12345678901234567) (-316)) = 24.
Proof.
  destruct C138_signed_ex as (A & _). split; [exact A|]. split; [|vm_compute; auto].
  right. split; [reflexivity|]. rewrite !Z.opp_involutive. split; [vm_compute; split; discriminate|]. split; vm_compute; discriminate.
Qed.
Example C167_int_ex : itext (-2147483648) = [45; 50; 49; 52; 55; 52; 56; 51; 54; 52; 56] /\ itext 0 = [48].
Proof. split; reflexivity. Qed.
