(** * Proofs about the JSON parser: every JSON document is read with its meaning. *)
From Coq Require Import String.
From Verif Require Import Base Str_Spec Conf_Model Json_Model Json_Spec Json_Proofs.
Open Scope Z_scope.
Local Arguments Z.add : simpl never.
Local Arguments Z.sub : simpl never.
Local Arguments Z.mul : simpl never.
Local Arguments Z.pow : simpl never.
Local Arguments Z.div : simpl never.
Local Arguments Z.modulo : simpl never.
Local Arguments str : simpl never.

(** ** White space *)
Lemma skip_loop_ws w : ws w -> forall l b x, 32 < b -> skip_loop l (w ++ b :: x) = b :: x.
Proof.
  induction 1 as [|c w H F IH]; intros l b x B; cbn [app skip_loop].
  - replace (b <=? 32) with false by lia. reflexivity.
  - replace (c <=? 32) with true by lia. apply IH. exact B.
Qed.
Lemma skip_ws w b x : ws w -> 32 < b -> skip (w ++ b :: x) = b :: x.
Proof.
  intros H B. unfold skip. destruct (w ++ b :: x) as [|c y] eqn:E; [destruct w; discriminate|].
  rewrite <- E. apply skip_loop_ws; assumption.
Qed.
Lemma skip_none b x : 32 < b -> skip (b :: x) = b :: x.
Proof. intros B. apply (skip_ws [] b x); [constructor|exact B]. Qed.

(** ** UTF-8 *)
Lemma lor_add n a b : 0 <= n -> 0 <= b < 2 ^ n -> Z.lor (a * 2 ^ n) b = a * 2 ^ n + b.
Proof.
  intros Hn Hb. rewrite <- Z.shiftl_mul_pow2 by exact Hn.
  assert (Z.land (Z.shiftl a n) b = 0) as L.
  { apply Z.bits_inj'. intros i Hi. rewrite Z.land_spec, Z.bits_0.
    destruct (Z.ltb_spec i n).
    - rewrite Z.shiftl_spec_low by assumption. reflexivity.
    - assert (Z.testbit b i = false) as ->; [|apply andb_false_r].
      destruct (Z.eq_dec b 0) as [->|NZ]; [apply Z.bits_0|].
      apply Z.bits_above_log2; [lia|]. apply Z.log2_lt_pow2; [lia|].
      apply Z.lt_le_trans with (2 ^ n); [lia|]. apply Z.pow_le_mono_r; lia. }
  rewrite <- Z.lxor_lor by exact L. symmetry. apply Z.add_nocarry_lxor. exact L.
Qed.
Lemma cont_spec c : cont c = 128 + c mod 64.
Proof.
  unfold cont. change 191 with (Z.lor 128 63).
  rewrite Z.land_lor_distr_r, !Z.land_lor_distr_l.
  change (Z.land 128 128) with 128. change (Z.land 128 63) with 0. rewrite Z.lor_0_r.
  replace (Z.lor (Z.land c 128) 128) with 128.
  2:{ apply Z.bits_inj'. intros i _. rewrite Z.lor_spec, Z.land_spec.
      destruct (Z.testbit c i), (Z.testbit 128 i); reflexivity. }
  change 63 with (Z.ones 6). rewrite Z.land_ones by lia. change 128 with (2 * 2 ^ 6).
  change (2 ^ 6) with 64 at 2 3.
  assert (0 <= c mod 64 < 64) as R by (apply Z.mod_pos_bound; lia).
  rewrite lor_add; [reflexivity|lia|exact R].
Qed.
Lemma land_255 x : 0 <= x < 256 -> Z.land x 255 = x.
Proof.
  intros H. change 255 with (Z.ones 8). rewrite Z.land_ones by lia. apply Z.mod_small. exact H.
Qed.
Lemma utf8_spec c : 0 <= c <= 1114111 -> utf8 c = Some (utf8_of c).
Proof.
  intros H. unfold utf8, utf8_of. rewrite !cont_spec.
  destruct (c <? 128) eqn:A.
  { f_equal. f_equal. change 127 with (Z.ones 7). rewrite Z.land_ones by lia. apply Z.mod_small. change (2 ^ 7) with 128. lia. }
  rewrite !Z.shiftr_div_pow2 by lia.
  change (2 ^ 6) with 64. change (2 ^ 12) with 4096. change (2 ^ 18) with 262144.
  destruct (c <? 2048) eqn:B.
  { f_equal. f_equal. assert (0 <= c / 64 < 32) as R.
    { split; [apply Z.div_pos; lia|apply Z.div_lt_upper_bound; lia]. }
    rewrite Z.lor_comm. change 192 with (3 * 2 ^ 6). rewrite lor_add; [|lia|change (2 ^ 6) with 64; lia].
    apply land_255. change (3 * 2 ^ 6) with 192. lia. }
  destruct (c <? 65536) eqn:C.
  { f_equal. f_equal. assert (0 <= c / 4096 < 16) as R.
    { split; [apply Z.div_pos; lia|apply Z.div_lt_upper_bound; lia]. }
    rewrite Z.lor_comm. change 224 with (7 * 2 ^ 5). rewrite lor_add; [|lia|change (2 ^ 5) with 32; lia].
    apply land_255. change (7 * 2 ^ 5) with 224. lia. }
  replace (c <=? 1114111) with true by lia.
  f_equal. f_equal. assert (0 <= c / 262144 < 8) as R.
  { split; [apply Z.div_pos; lia|apply Z.div_lt_upper_bound; lia]. }
  rewrite Z.lor_comm. change 240 with (15 * 2 ^ 4). rewrite lor_add; [|lia|change (2 ^ 4) with 16; lia].
  apply land_255. change (15 * 2 ^ 4) with 240. lia.
Qed.

(** ** Strings *)
Lemma hexd_spec c v : hexd c v -> hex c = Some v /\ 0 <= v <= 15 /\ 48 <= c <= 102 /\ c <> 92.
Proof.
  intros H. unfold hex. inversion H; subst.
  - replace ((48 <=? c) && (c <=? 57)) with true by lia. split; [reflexivity|lia].
  - replace ((48 <=? c) && (c <=? 57)) with false by lia.
    replace ((65 <=? c) && (c <=? 70)) with true by lia. split; [f_equal; lia|lia].
  - replace ((48 <=? c) && (c <=? 57)) with false by lia.
    replace ((65 <=? c) && (c <=? 70)) with false by lia.
    replace ((97 <=? c) && (c <=? 102)) with true by lia. split; [f_equal; lia|lia].
Qed.
Lemma hex4_spec h c : hex4 h c -> 0 <= c <= 65535 /\ zlen h = 4 /\
  Forall (fun b => 48 <= b <= 102 /\ b <> 92) h /\ (forall x, parse_hex4 (h ++ x) = Ok c).
Proof.
  intros H. inversion H as [a b c0 d x y z w A B C D]; subst.
  apply hexd_spec in A as (A & A1 & A2). apply hexd_spec in B as (B & B1 & B2).
  apply hexd_spec in C as (C & C1 & C2). apply hexd_spec in D as (D & D1 & D2).
  split; [lia|]. split; [reflexivity|]. split.
  - repeat constructor; lia.
  - intros r. unfold parse_hex4. cbn [app hex_loop]. rewrite A, B, C, D.
    rewrite !Z.shiftl_mul_pow2 by lia. change (2 ^ 4) with 16. f_equal. lia.
Qed.

Lemma plain_scan l : Forall (fun b => 48 <= b <= 102 /\ b <> 92) l -> forall x n k,
  str_scan (l ++ x) n k = str_scan x (n + zlen l) k.
Proof.
  induction 1 as [|b l H F IH]; intros x n k.
  - rewrite zlen_nil, Z.add_0_r. reflexivity.
  - cbn [app str_scan]. replace (b =? QUOTE) with false by (unfold QUOTE; lia).
    replace (b =? BSLASH) with false by (unfold BSLASH; lia).
    rewrite IH, zlen_cons. f_equal. lia.
Qed.
Lemma plain_cnt l : Forall (fun b => 48 <= b <= 102 /\ b <> 92) l -> forall x, cnt (l ++ x) = cnt x.
Proof.
  induction 1 as [|b l H F IH]; intros x; [reflexivity|].
  cbn [app]. rewrite cnt_other by (unfold BSLASH; lia). apply IH.
Qed.

Lemma scan_esc c x n k : str_scan (92 :: c :: x) n k = str_scan x (n + 2) (k + 1).
Proof. reflexivity. Qed.
Lemma chars_scan s t : chars s t -> forall n k x,
  str_scan (t ++ QUOTE :: x) n k = Some (n + zlen t, k + cnt t).
Proof.
  induction 1; intros n k x.
  - cbn [app str_scan]. change (QUOTE =? QUOTE) with true. cbv iota.
    rewrite zlen_nil. change (cnt []) with 0. rewrite !Z.add_0_r. reflexivity.
  - cbn [app str_scan]. replace (b =? QUOTE) with false by (unfold QUOTE; lia).
    replace (b =? BSLASH) with false by (unfold BSLASH; lia).
    rewrite IHchars, zlen_cons, cnt_other by (unfold BSLASH; lia). f_equal. f_equal; lia.
  - cbn [app]. rewrite scan_esc, IHchars, !zlen_cons. change 92 with BSLASH. rewrite cnt_bs. cbn [tl].
    f_equal. f_equal; lia.
  - apply hex4_spec in H as (_ & L & F & _).
    cbn [app]. rewrite scan_esc. rewrite <- app_assoc. rewrite (plain_scan _ F), IHchars.
    change 92 with BSLASH. rewrite cnt_bs. cbn [tl]. rewrite (plain_cnt _ F), !zlen_cons, zlen_app.
    f_equal. f_equal; lia.
  - apply hex4_spec in H as (_ & L & F & _). apply hex4_spec in H1 as (_ & L' & F' & _).
    cbn [app]. rewrite scan_esc. rewrite <- app_assoc. cbn [app]. rewrite (plain_scan _ F).
    rewrite scan_esc, <- app_assoc, (plain_scan _ F'), IHchars.
    change (cnt (92 :: 117 :: h ++ 92 :: 117 :: h' ++ t)) with (cnt (BSLASH :: 117 :: h ++ BSLASH :: 117 :: h' ++ t)).
    rewrite cnt_bs. cbn [tl]. rewrite (plain_cnt _ F), cnt_bs. cbn [tl]. rewrite (plain_cnt _ F').
    rewrite !zlen_cons, zlen_app, !zlen_cons, zlen_app. f_equal. f_equal; lia.
Qed.

Lemma escapes_spec c v : In (c, v) escapes -> simple_escape c = Some v.
Proof. cbn. intuition; match goal with H : (_, _) = (_, _) |- _ => injection H as <- <- end; reflexivity. Qed.

Lemma emit_ok cap out bs o : emit cap out bs = Ok o -> o = out ++ bs.
Proof. unfold emit. destruct (_ <=? _); [|discriminate]. intros [= <-]. reflexivity. Qed.

Lemma zdrop_app_eq (a b : list Z) : zdrop (zlen a) (a ++ b) = b.
Proof.
  rewrite zdrop_app_l by lia. unfold zdrop, zlen. rewrite Nat2Z.id, skipn_all. reflexivity.
Qed.

Lemma chars_loop s t : chars s t -> forall f cap out x o,
  str_loop f cap (t ++ QUOTE :: x) (zlen t) out = Ok o -> o = Some (out ++ s).
Proof.
  induction 1; intros f cap out x o.
  - rewrite zlen_nil. destruct f; cbn [str_loop]; change (0 <=? 0) with true; cbv iota;
      intros [= <-]; rewrite app_nil_r; reflexivity.
  - destruct f as [|f]; cbn [str_loop].
    { rewrite zlen_cons. pose proof (zlen_nonneg t). replace (1 + zlen t <=? 0) with false by lia. discriminate. }
    replace (zlen (b :: t) <=? 0) with false by (rewrite zlen_cons; pose proof (zlen_nonneg t); lia).
    cbn [app]. rewrite zget_0. cbn [of_opt bind].
    replace (negb (b =? BSLASH)) with true by (unfold BSLASH; lia).
    intros E. apply bind_ok in E as (out' & E1 & E2). apply emit_ok in E1. subst out'.
    rewrite zdrop_1 in E2. replace (zlen (b :: t) - 1) with (zlen t) in E2 by (rewrite zlen_cons; lia).
    apply IHchars in E2. rewrite E2, <- app_assoc. reflexivity.
  - destruct f as [|f]; cbn [str_loop].
    { rewrite !zlen_cons. pose proof (zlen_nonneg t). replace (1 + (1 + zlen t) <=? 0) with false by lia. discriminate. }
    replace (zlen (92 :: c :: t) <=? 0) with false by (rewrite !zlen_cons; pose proof (zlen_nonneg t); lia).
    cbn [app]. rewrite zget_0. cbn [of_opt bind].
    change (negb (92 =? BSLASH)) with false. cbv iota.
    change (zget (92 :: c :: t ++ QUOTE :: x) 1) with (Some c). cbn [of_opt bind].
    rewrite (escapes_spec _ _ H).
    intros E. apply bind_ok in E as (out' & E1 & E2). apply emit_ok in E1. subst out'.
    change (zdrop 2 (92 :: c :: t ++ QUOTE :: x)) with (t ++ QUOTE :: x) in E2.
    replace (zlen (92 :: c :: t) - 2) with (zlen t) in E2 by (rewrite !zlen_cons; lia).
    apply IHchars in E2. rewrite E2, <- app_assoc. reflexivity.
  - apply hex4_spec in H as (R & L & _ & P).
    set (k := zlen (92 :: 117 :: h ++ t)).
    assert (k = 6 + zlen t) as Ek by (unfold k; rewrite !zlen_cons, zlen_app; lia).
    pose proof (zlen_nonneg t) as T.
    destruct f as [|f]; cbn [str_loop].
    { replace (k <=? 0) with false by lia. discriminate. }
    replace (k <=? 0) with false by lia.
    cbn [app]. rewrite zget_0. cbn [of_opt bind].
    change (negb (92 =? BSLASH)) with false. cbv iota.
    change (zget (92 :: 117 :: (h ++ t) ++ QUOTE :: x) 1) with (Some 117). cbn [of_opt bind].
    change (simple_escape 117) with (@None Z). cbv iota. change (117 =? 117) with true. cbv iota.
    unfold utf16. replace (k <? 6) with false by lia.
    change (zdrop 2 (92 :: 117 :: (h ++ t) ++ QUOTE :: x)) with ((h ++ t) ++ QUOTE :: x).
    rewrite <- app_assoc, P. cbn [bind].
    replace ((56320 <=? c) && (c <=? 57343)) with false by lia.
    replace ((55296 <=? c) && (c <=? 56319)) with false by lia.
    cbn [bind]. rewrite utf8_spec by lia.
    intros E. apply bind_ok in E as (out' & E1 & E2). apply emit_ok in E1. subst out'.
    replace (zdrop 6 (92 :: 117 :: h ++ t ++ QUOTE :: x)) with (t ++ QUOTE :: x) in E2.
    2:{ rewrite !zdrop_cons by lia. replace (6 - 1 - 1) with (zlen h) by lia. rewrite zdrop_app_eq. reflexivity. }
    replace (k - 6) with (zlen t) in E2 by lia.
    apply IHchars in E2. rewrite E2, <- app_assoc. reflexivity.
  - apply hex4_spec in H as (R & L & _ & P). apply hex4_spec in H1 as (R' & L' & _ & P').
    set (k := zlen (92 :: 117 :: h ++ 92 :: 117 :: h' ++ t)).
    assert (k = 12 + zlen t) as Ek by (unfold k; rewrite !zlen_cons, zlen_app, !zlen_cons, zlen_app; lia).
    pose proof (zlen_nonneg t) as T.
    destruct f as [|f]; cbn [str_loop].
    { replace (k <=? 0) with false by lia. discriminate. }
    replace (k <=? 0) with false by lia.
    cbn [app]. rewrite zget_0. cbn [of_opt bind].
    change (negb (92 =? BSLASH)) with false. cbv iota.
    match goal with |- context [zget ?l 1] => change (zget l 1) with (Some 117) end. cbn [of_opt bind].
    change (simple_escape 117) with (@None Z). cbv iota. change (117 =? 117) with true. cbv iota.
    unfold utf16. replace (k <? 6) with false by lia.
    rewrite <- app_assoc. cbn [app].
    match goal with |- context [zdrop 2 (92 :: 117 :: ?l)] => change (zdrop 2 (92 :: 117 :: l)) with l end.
    rewrite P. cbn [bind].
    replace ((56320 <=? c) && (c <=? 57343)) with false by lia.
    replace ((55296 <=? c) && (c <=? 56319)) with true by lia.
    replace (k - 6 <? 6) with false by lia.
    rewrite <- app_assoc.
    replace (zdrop 6 (92 :: 117 :: h ++ 92 :: 117 :: h' ++ t ++ QUOTE :: x)) with (92 :: 117 :: h' ++ t ++ QUOTE :: x).
    2:{ rewrite !zdrop_cons by lia. replace (6 - 1 - 1) with (zlen h) by lia. rewrite zdrop_app_eq. reflexivity. }
    rewrite zget_0. cbn [of_opt bind]. change (negb (92 =? BSLASH)) with false. cbv iota.
    change (zget (92 :: 117 :: h' ++ t ++ QUOTE :: x) 1) with (Some 117). cbn [of_opt bind].
    change (negb (117 =? 117)) with false. cbv iota.
    change (zdrop 2 (92 :: 117 :: h' ++ t ++ QUOTE :: x)) with (h' ++ t ++ QUOTE :: x).
    rewrite P'. cbn [bind].
    replace ((c' <? 56320) || (57343 <? c')) with false by lia.
    replace (65536 + Z.lor (Z.shiftl (Z.land c 1023) 10) (Z.land c' 1023))
      with (65536 + 1024 * (c - 55296) + (c' - 56320)).
    2:{ change 1023 with (Z.ones 10). rewrite !Z.land_ones by lia. rewrite Z.shiftl_mul_pow2 by lia.
        change (2 ^ 10) with 1024.
        replace (c mod 1024) with (c - 55296).
        2:{ apply Z.mod_unique with (q := 54); lia. }
        replace (c' mod 1024) with (c' - 56320).
        2:{ apply Z.mod_unique with (q := 55); lia. }
        change 1024 with (2 ^ 10) at 2. rewrite lor_add; [|lia|change (2 ^ 10) with 1024; lia].
        change (2 ^ 10) with 1024. lia. }
    cbn [bind]. rewrite utf8_spec by lia. cbn [bind].
    intros E. apply bind_ok in E as (out' & E1 & E2). apply emit_ok in E1. subst out'.
    replace (zdrop 12 (92 :: 117 :: h ++ 92 :: 117 :: h' ++ t ++ QUOTE :: x)) with (t ++ QUOTE :: x) in E2.
    2:{ rewrite !zdrop_cons by lia. replace (12 - 1 - 1) with (zlen (h ++ 92 :: 117 :: h')).
        - replace (h ++ 92 :: 117 :: h' ++ t ++ QUOTE :: x) with ((h ++ 92 :: 117 :: h') ++ t ++ QUOTE :: x).
          + rewrite zdrop_app_eq. reflexivity.
          + rewrite <- app_assoc. reflexivity.
        - rewrite zlen_app, !zlen_cons. lia. }
    replace (k - 12) with (zlen t) in E2 by lia.
    apply IHchars in E2. rewrite E2, <- app_assoc. reflexivity.
Qed.

Lemma cut_nz s t : ~ In 0 s -> cut (s ++ t) = s ++ cut t.
Proof.
  induction s as [|b s IH]; intros H; [reflexivity|]. cbn [app cut].
  replace (b =? 0) with false.
  - f_equal. apply IH. intros Q. apply H. right. exact Q.
  - symmetry. apply Z.eqb_neq. intros ->. apply H. left. reflexivity.
Qed.
Lemma cut_cstr s c x : cstr s c -> cut (s ++ 0 :: x) = c.
Proof.
  intros H. inversion H as [s' N|s' t N]; subst.
  - rewrite cut_nz by exact N. cbn [cut]. change (0 =? 0) with true. cbv iota. apply app_nil_r.
  - rewrite <- app_assoc, cut_nz by exact N. cbn [app cut]. change (0 =? 0) with true. cbv iota. apply app_nil_r.
Qed.

Lemma parse_string_doc s c t x : chars s t -> cstr s c ->
  parse_string (34 :: t ++ 34 :: x) = Ok (Some (c, x)).
Proof.
  intros H C. unfold parse_string. rewrite zget_0. cbn [of_opt bind].
  change (negb (34 =? QUOTE)) with false. cbv iota. rewrite zdrop_1.
  change (t ++ 34 :: x) with (t ++ QUOTE :: x). rewrite (chars_scan _ _ H). rewrite !Z.add_0_l.
  destruct (str_loop_safe (length (34 :: t ++ QUOTE :: x)) (zlen t + 1 - cnt t + 1) t x []) as (o & E & P).
  { unfold zlen. simpl. rewrite app_length. lia. }
  { rewrite zlen_nil. lia. }
  rewrite E. cbn [bind]. apply (chars_loop _ _ H) in E. subst o. cbn [app] in *.
  specialize (P s eq_refl). unfold emit.
  replace (zlen s + zlen [0] <=? zlen t + 1 - cnt t + 1) with true by (rewrite zlen_cons, zlen_nil; lia).
  cbn [bind]. rewrite (cut_cstr _ _ [] C).
  replace (zdrop (zlen t + 1) (t ++ QUOTE :: x)) with x; [reflexivity|].
  replace (t ++ QUOTE :: x) with ((t ++ [QUOTE]) ++ x) by (rewrite <- app_assoc; reflexivity).
  replace (zlen t + 1) with (zlen (t ++ [QUOTE])) by (rewrite zlen_app, zlen_cons, zlen_nil; lia).
  rewrite zdrop_app_eq. reflexivity.
Qed.

(** ** Numbers *)
Lemma digit_spec b : digit b = true <-> 48 <= b <= 57.
Proof. unfold digit. lia. Qed.

Definition nodigit (x : list Z) : Prop := match x with [] => True | b :: _ => digit b = false end.
Lemma span_digits_spec ds x : digits ds -> nodigit x -> span_digits (ds ++ x) = (ds, x).
Proof.
  intros D N. induction D as [|b ds H F IH].
  - destruct x as [|b x]; [reflexivity|]. cbn [app span_digits]. cbn in N. rewrite N. reflexivity.
  - cbn [app span_digits]. apply digit_spec in H. rewrite H, IH. reflexivity.
Qed.

Lemma dec_acc l : forall v, fold_left (fun v b => 10 * v + (b - 48)) l v = v * 10 ^ zlen l + decval l.
Proof.
  induction l as [|b l IH]; intros v; cbn [fold_left decval].
  - change (10 ^ zlen (@nil Z)) with 1. lia.
  - rewrite IH, zlen_cons. rewrite Z.pow_add_r by (pose proof (zlen_nonneg l); lia). change (10 ^ 1) with 10. ring.
Qed.
Lemma dec_spec l : dec l = decval l.
Proof. unfold dec. rewrite dec_acc. lia. Qed.

Lemma decval_range l : digits l -> 0 <= decval l < 10 ^ zlen l.
Proof.
  induction 1 as [|b l H F IH]; cbn [decval].
  - change (10 ^ zlen (@nil Z)) with 1. lia.
  - rewrite zlen_cons. rewrite Z.pow_add_r by (pose proof (zlen_nonneg l); lia). change (10 ^ 1) with 10. nia.
Qed.
Lemma drop_zeros_spec l : digits l ->
  decval l = 0 \/ (1 <= zlen (drop_zeros l) /\ 10 ^ (zlen (drop_zeros l) - 1) <= decval l < 10 ^ zlen (drop_zeros l)).
Proof.
  induction 1 as [|b l H F IH]; [left; reflexivity|]. cbn [drop_zeros].
  destruct (b =? 48) eqn:E.
  - assert (b = 48) as -> by lia. cbn [decval]. replace ((48 - 48) * 10 ^ zlen l + decval l) with (decval l) by lia. exact IH.
  - right. pose proof (zlen_nonneg l). rewrite zlen_cons. split; [lia|].
    pose proof (decval_range l F) as R. cbn [decval].
    replace (1 + zlen l - 1) with (zlen l) by lia.
    rewrite Z.pow_add_r by lia. change (10 ^ 1) with 10. nia.
Qed.

Lemma trunc_double_spec m e k : m = 0 \/ (1 <= k /\ 10 ^ (k - 1) <= m < 10 ^ k) ->
  trunc_of m e (trunc_double m e k).
Proof.
  intros H. unfold trunc_of, trunc_double.
  assert (0 < 10 ^ Z.max 0 e) as PE by (apply Z.pow_pos_nonneg; lia).
  assert (0 < 10 ^ Z.max 0 (- e)) as PQ by (apply Z.pow_pos_nonneg; lia).
  assert (2 ^ 31 <= 10 ^ 20) as T31 by (vm_compute; discriminate).
  assert (0 < 2 ^ 31) as P31 by reflexivity.
  destruct (m =? 0) eqn:M0.
  { assert (m = 0) as -> by lia. split; intros; [nia|]. left. nia. }
  destruct H as [->|(K & ML & MU)]; [lia|].
  destruct (20 <? k + e) eqn:B.
  { (* 10^20 and more *)
    split; [intros _; exact T31|]. intros C. exfalso.
    assert (2 ^ 31 * 10 ^ Z.max 0 (- e) <= m * 10 ^ Z.max 0 e); [|lia].
    apply Z.le_trans with (10 ^ 20 * 10 ^ Z.max 0 (- e)); [nia|].
    apply Z.le_trans with (10 ^ (k - 1) * 10 ^ Z.max 0 e); [|nia].
    rewrite <- !Z.pow_add_r by lia. apply Z.pow_le_mono_r; lia. }
  destruct (k + e <? 0) eqn:S.
  { assert (m * 10 ^ Z.max 0 e < 10 ^ Z.max 0 (- e)) as L.
    { replace (Z.max 0 e) with 0 by lia. change (10 ^ 0) with 1. rewrite Z.mul_1_r.
      apply Z.lt_le_trans with (10 ^ k); [lia|]. apply Z.pow_le_mono_r; lia. }
    split; intros; [nia|]. left. assert (0 < 10 ^ (k - 1)) by (apply Z.pow_pos_nonneg; lia). nia. }
  destruct (0 <=? e) eqn:E.
  { replace (Z.max 0 (- e)) with 0 by lia. replace (Z.max 0 e) with e by lia. change (10 ^ 0) with 1.
    split; intros; [lia|]. left. lia. }
  replace (Z.max 0 (- e)) with (- e) in * by lia. replace (Z.max 0 e) with 0 by lia. change (10 ^ 0) with 1.
  rewrite Z.mul_1_r. set (q := 10 ^ (- e)) in *. clearbody q.
  assert (0 < m) as MP by (assert (0 < 10 ^ (k - 1)) by (apply Z.pow_pos_nonneg; lia); lia).
  clear PE ML MU.
  pose proof (Z.div_mod m q ltac:(lia)) as DM. pose proof (Z.mod_pos_bound m q PQ) as MB.
  set (n := m / q) in *. assert (0 <= n) as Nn by (apply Z.div_pos; lia). clearbody n.
  set (r := m mod q) in *. clearbody r.
  destruct (2 ^ 53 <=? n) eqn:N53.
  { assert (2 ^ 31 <= 2 ^ 53) by (vm_compute; discriminate).
    split; intros; [lia|]. left. nia. }
  destruct (((n + 1) * q - m) * 2 ^ (53 - (if n =? 0 then -1 else Z.log2 n)) <=? q) eqn:R.
  - split.
    + intros H. assert (2 ^ 31 <= n); [|lia]. nia.
    + intros H. right. split; [nia|].
      assert (n < 2 ^ 31) as NU by nia.
      assert (2 ^ 23 <= 2 ^ (53 - (if n =? 0 then -1 else Z.log2 n))) as PW.
      { apply Z.pow_le_mono_r; [lia|]. destruct (n =? 0) eqn:N0; [lia|].
        assert (Z.log2 n < 31) by (apply Z.log2_lt_pow2; lia). lia. }
      apply Z.leb_le in R. assert (0 <= (n + 1) * q - m) by nia. nia.
  - split.
    + intros H. nia.
    + intros H. left. nia.
Qed.

Lemma int_part_digits i : int_part i -> digits i /\ zlen i <> 0.
Proof.
  intros H. inversion H; subst; split; try (rewrite zlen_cons; pose proof (zlen_nonneg t); lia).
  - repeat constructor; lia.
  - discriminate.
  - constructor; [lia|assumption].
Qed.

Lemma strtod_body neg s i f fd e x :
  span_sign s = (neg, i ++ f ++ e) -> int_part i -> frac f fd -> expo e x ->
  exists v, strtod s = Some ((if neg then - v else v), zlen s) /\ trunc_of (decval (i ++ fd)) (x - zlen fd) v.
Proof.
  intros S I F X. unfold strtod. rewrite S.
  apply int_part_digits in I as (DI & NI).
  assert (nodigit e) as NE.
  { inversion X; subst; cbn; [exact Coq.Init.Logic.I| |]; unfold digit; lia. }
  assert (nodigit (f ++ e)) as NF.
  { inversion F; subst; cbn; [exact NE|reflexivity]. }
  rewrite (span_digits_spec i (f ++ e) DI NF).
  assert ((match f ++ e with
           | b :: t => if b =? 46 then if (zlen i =? 0) && (zlen (fst (span_digits t)) =? 0) then ([], f ++ e) else span_digits t else ([], f ++ e)
           | [] => ([], f ++ e) end) = (fd, e)) as ->.
  { inversion F as [|ds D N]; subst.
    - cbn [app]. inversion X; subst; [reflexivity| |]; replace (e0 =? 46) with false by lia; reflexivity.
    - cbn [app]. change (46 =? 46) with true. cbv iota. replace (zlen i =? 0) with false by lia.
      cbn [andb]. apply span_digits_spec; assumption. }
  pose proof (zlen_nonneg i). pose proof (zlen_nonneg fd).
  replace (zlen i + zlen fd =? 0) with false by lia.
  assert ((match e with
           | b :: t => if (b =? 101) || (b =? 69) then
               let '(eneg, t1) := span_sign t in
               let '(ds, t2) := span_digits t1 in
               if zlen ds =? 0 then (0, e) else ((if eneg then - dec ds else dec ds), t2) else (0, e)
           | [] => (0, e) end) = (x, [])) as ->.
  { assert (forall ds : list Z, ds <> [] -> zlen ds =? 0 = false) as NZ.
    { intros ds Hd. destruct ds as [|b ds]; [congruence|]. rewrite zlen_cons. pose proof (zlen_nonneg ds). lia. }
    inversion X as [|e0 s0 ds E0 S0 D N|e0 ds E0 D N]; subst; [reflexivity| |].
    - replace ((e0 =? 101) || (e0 =? 69)) with true by lia.
      assert (span_sign (s0 ++ ds) = (false, ds)) as ->.
      { destruct S0 as [-> | ->]; [|reflexivity]. cbn [app]. destruct ds as [|b ds]; [congruence|].
        cbn [span_sign]. inversion D; subst.
        replace (b =? 45) with false by lia. replace (b =? 43) with false by lia. reflexivity. }
      rewrite <- (app_nil_r ds) at 1. rewrite (span_digits_spec ds [] D Coq.Init.Logic.I).
      rewrite NZ by exact N. rewrite dec_spec. reflexivity.
    - replace ((e0 =? 101) || (e0 =? 69)) with true by lia.
      change (span_sign (45 :: ds)) with (true, ds).
      rewrite <- (app_nil_r ds) at 1. rewrite (span_digits_spec ds [] D Coq.Init.Logic.I).
      rewrite NZ by exact N. rewrite dec_spec. reflexivity. }
  cbv zeta. exists (trunc_double (dec (i ++ fd)) (x - zlen fd) (zlen (drop_zeros (i ++ fd)))).
  split; [f_equal; f_equal; rewrite zlen_nil; lia|].
  rewrite dec_spec. apply trunc_double_spec. apply drop_zeros_spec.
  apply Forall_app. split; [exact DI|]. inversion F; [constructor|assumption].
Qed.

Lemma number_strtod t v0 : number t v0 -> exists v, strtod t = Some (v, zlen t) /\ number t v.
Proof.
  intros H. inversion H as [i f fd e x v I F X T|i f fd e x v I F X T]; subst.
  - destruct (strtod_body false (i ++ f ++ e) i f fd e x) as (w & E & W); try assumption.
    { pose proof (int_part_digits _ I) as (D & N). destruct i as [|b i]; [rewrite zlen_nil in N; lia|].
      cbn [app span_sign]. inversion D; subst.
      replace (b =? 45) with false by lia. replace (b =? 43) with false by lia. reflexivity. }
    exists w. split; [exact E|]. apply num_pos with fd x; assumption.
  - destruct (strtod_body true (45 :: i ++ f ++ e) i f fd e x) as (w & E & W); try assumption.
    { reflexivity. }
    exists (- w). split; [exact E|]. apply num_neg with fd x; assumption.
Qed.

Lemma digits_num_char ds : digits ds -> Forall (fun b => num_char b = true) ds.
Proof. intros H. eapply Forall_impl; [|exact H]. intros b Hb. cbn beta in Hb. unfold num_char, digit. lia. Qed.
Lemma body_chars i f fd e x : int_part i -> frac f fd -> expo e x -> Forall (fun b => num_char b = true) (i ++ f ++ e).
Proof.
  intros I F X. apply int_part_digits in I as (D & _). apply Forall_app. split; [apply digits_num_char; exact D|].
  apply Forall_app. split.
  - inversion F; subst; constructor; [reflexivity|apply digits_num_char; assumption].
  - inversion X as [|e0 s0 ds E0 S0 D0 N|e0 ds E0 D0 N]; subst; constructor.
    + unfold num_char, digit. lia.
    + apply Forall_app. split; [destruct S0 as [-> | ->]; repeat constructor|apply digits_num_char; assumption].
    + unfold num_char, digit. lia.
    + constructor; [reflexivity|apply digits_num_char; assumption].
Qed.
Lemma number_chars t v : number t v -> Forall (fun b => num_char b = true) t /\
  exists b u, t = b :: u /\ (b = 45 \/ digit b = true).
Proof.
  intros H. inversion H as [i f fd e x w I F X T|i f fd e x w I F X T]; subst.
  - split; [apply (body_chars i f fd e x); assumption|].
    pose proof (int_part_digits _ I) as (D & N). destruct i as [|b i]; [rewrite zlen_nil in N; lia|].
    inversion D; subst. exists b, (i ++ f ++ e). split; [reflexivity|]. right. apply digit_spec. assumption.
  - split; [constructor; [reflexivity|apply (body_chars i f fd e x); assumption]|].
    exists 45, (i ++ f ++ e). split; [reflexivity|]. left. reflexivity.
Qed.

(** what may follow a value: not a character of a number *)
Definition delim (x : list Z) : Prop := match x with [] => False | b :: _ => num_char b = false end.
Lemma num_copy_all t : Forall (fun b => num_char b = true) t -> forall k x, (length t <= k)%nat -> delim x ->
  num_copy k (t ++ x) = t.
Proof.
  induction 1 as [|b t H F IH]; intros k x L D.
  - destruct k; [reflexivity|]. destruct x as [|b x]; [reflexivity|]. cbn in D. cbn [app num_copy]. rewrite D. reflexivity.
  - simpl in L. destruct k; [lia|]. cbn [app num_copy]. rewrite H, IH by (assumption || lia). reflexivity.
Qed.

Lemma parse_number_doc t v0 x : number t v0 -> zlen t <= 63 -> delim x ->
  exists v, parse_number (t ++ x) = Some (v, x) /\ number t v.
Proof.
  intros H L D. destruct (number_strtod _ _ H) as (v & E & N).
  exists v. split; [|exact N]. unfold parse_number.
  rewrite num_copy_all; [|exact (proj1 (number_chars _ _ H))|unfold zlen in L; lia|exact D].
  rewrite E. rewrite zdrop_app_eq. reflexivity.
Qed.

(** ** Values *)
Lemma starts_first p a b x : a <> b -> starts (a :: p) (b :: x) = false.
Proof. intros H. cbn [starts]. apply Z.eqb_neq in H. rewrite H. reflexivity. Qed.
Lemma not_lit b x : b <> 110 -> b <> 102 -> b <> 116 ->
  starts (str "null") (b :: x) = false /\ starts (str "false") (b :: x) = false /\ starts (str "true") (b :: x) = false.
Proof.
  intros H1 H2 H3.
  change (str "null") with [110; 117; 108; 108]. change (str "false") with [102; 97; 108; 115; 101].
  change (str "true") with [116; 114; 117; 101].
  rewrite !starts_first by congruence. auto.
Qed.
Lemma starts_app p x : starts p (p ++ x) = true.
Proof. apply starts_spec. exists x. reflexivity. Qed.

Lemma doc_first n j t : doc n j t -> exists b u, t = b :: u /\ 32 < b /\ b <> 93.
Proof.
  intros H. inversion H; subst; try (do 2 eexists; split; [reflexivity|split; [reflexivity|discriminate]]).
  match goal with H : number _ _ |- _ => apply number_chars in H as (_ & b & u & -> & B) end.
  exists b, u. split; [reflexivity|]. destruct B as [-> | B]; [lia|]. apply digit_spec in B. lia.
Qed.

Lemma skip_idem r : skip (skip r) = skip r.
Proof.
  assert (forall x l, skip (skip_loop l x) = skip_loop l x \/ x = []) as A.
  { induction x as [|b x IH]; intros l; [right; reflexivity|]. left. cbn [skip_loop].
    destruct (b <=? 32) eqn:E.
    - destruct (IH b) as [H | ->]; [exact H|]. cbn [skip_loop skip]. rewrite E. reflexivity.
    - cbn [skip skip_loop]. rewrite E. reflexivity. }
  destruct r as [|b r]; [reflexivity|]. unfold skip at 2 3. destruct (A (b :: r) b) as [H|H]; [exact H|discriminate].
Qed.
Lemma elems_skip f d r : elems f d (skip r) = elems f d r.
Proof. destruct f as [|f]; [reflexivity|]. cbn [elems]. rewrite skip_idem. reflexivity. Qed.
Lemma members_skip f d r : members f d (skip r) = members f d r.
Proof. destruct f as [|f]; [reflexivity|]. cbn [members]. rewrite skip_idem. reflexivity. Qed.

Lemma ws_delim w b x : ws w -> num_char b = false -> delim (w ++ b :: x).
Proof.
  intros W B. destruct W as [|c w H F]; [exact B|]. cbn. unfold num_char, digit. lia.
Qed.

Definition value_read (N : list Z -> Z -> Prop) (n : Z) (j : json) (t : list Z) : Prop :=
  exists j', doc n j' t /\ alikeN N j j' /\
    forall f d x, d + n <= 1000 -> delim x -> (2 * length (t ++ x) + 1 <= f)%nat ->
      parse_value f d (t ++ x) = Ok (Some (j', x)).
Definition elems_read (N : list Z -> Z -> Prop) (n : Z) (l : list json) (t : list Z) : Prop :=
  exists l', docs n l' t /\ alikesN N l l' /\ (exists b u, skip (t ++ [93]) = b :: u /\ b <> 93) /\
    forall f d x, d + n <= 1000 -> (2 * length (t ++ 93%Z :: x) + 2 <= f)%nat ->
      elems f d (t ++ 93 :: x) = Ok (Some (l', x)).
Definition members_read (N : list Z -> Z -> Prop) (n : Z) (l : list (list Z * json)) (t : list Z) : Prop :=
  exists l', mems n l' t /\ alikemN N l l' /\ (exists b u, skip (t ++ [125]) = b :: u /\ b <> 125) /\
    forall f d x, d + n <= 1000 -> (2 * length (t ++ 125%Z :: x) + 2 <= f)%nat ->
      members f d (t ++ 125 :: x) = Ok (Some (l', x)).

Lemma skip_loop_head b u x : forall r l, skip_loop l (r ++ [x]) = b :: u -> b <> x \/ 32 < b ->
  forall y, exists u', skip_loop l (r ++ x :: y) = b :: u'.
Proof.
  induction r as [|c r IH]; intros l H D y; cbn [app skip_loop] in *.
  - destruct (x <=? 32) eqn:E.
    + cbn [skip_loop] in H. injection H as <- <-. destruct D; [congruence|lia].
    + injection H as <- <-. eexists. reflexivity.
  - destruct (c <=? 32) eqn:E; [apply IH; assumption|]. injection H as <- <-. eexists. reflexivity.
Qed.
Lemma skip_head b u x r y : skip (r ++ [x]) = b :: u -> b <> x -> exists u', skip (r ++ x :: y) = b :: u'.
Proof.
  intros H D. destruct r as [|c r]; cbn [app skip] in *.
  - exfalso. cbn [skip_loop] in H. destruct (x <=? 32); injection H as <- _; congruence.
  - apply (skip_loop_head b u x (c :: r) c H). left. exact D.
Qed.

Lemma one_elem f d w t w' b x j' n : ws w -> ws w' -> doc n j' t -> 32 < b -> num_char b = false ->
  (forall f d x, d + n <= 1000 -> delim x -> (2 * length (t ++ x) + 1 <= f)%nat ->
      parse_value f d (t ++ x) = Ok (Some (j', x))) ->
  d + n <= 1000 -> (2 * length (w ++ t ++ w' ++ b :: x) + 1 <= f)%nat ->
  parse_value f d (skip (w ++ t ++ w' ++ b :: x)) = Ok (Some (j', w' ++ b :: x)) /\ skip (w' ++ b :: x) = b :: x.
Proof.
  intros W W' D B NB P N F. destruct (doc_first _ _ _ D) as (c & u & Et & C & _).
  split; [|apply skip_ws; assumption].
  replace (skip (w ++ t ++ w' ++ b :: x)) with (t ++ w' ++ b :: x).
  - apply P; [exact N|apply ws_delim; assumption|]. rewrite !app_length in *. simpl in *. lia.
  - symmetry. rewrite Et. cbn [app]. apply skip_ws; assumption.
Qed.

Lemma read_all (N : list Z -> Z -> Prop) (SUB : forall t v, N t v -> number t v) :
  (forall n j t, docN N n j t -> value_read N n j t) /\
  (forall n l t, docsN N n l t -> elems_read N n l t) /\
  (forall n l t, memsN N n l t -> members_read N n l t).
Proof.
  apply docN_ind3.
  - intros n. exists JNull. split; [constructor|]. split; [constructor|]. intros f d x _ _ F.
    destruct f as [|f]; [lia|]. cbn [parse_value]. rewrite starts_app. reflexivity.
  - intros n. exists (JBool true). split; [constructor|]. split; [constructor|]. intros f d x _ _ F.
    destruct f as [|f]; [lia|]. reflexivity.
  - intros n. exists (JBool false). split; [constructor|]. split; [constructor|]. intros f d x _ _ F.
    destruct f as [|f]; [lia|]. reflexivity.
  - intros n t v H0 L. pose proof (SUB _ _ H0) as H.
    destruct (parse_number_doc t v [0] H L eq_refl) as (v' & _ & _).
    (* the value does not depend on what follows *)
    destruct (number_strtod _ _ H) as (w & E & NW).
    exists (JNum w). split; [constructor; assumption|]. split; [apply al_num with t; assumption|].
    intros f d x _ D F. destruct f as [|f]; [lia|]. cbn [parse_value].
    assert (parse_number (t ++ x) = Some (w, x)) as PN.
    { unfold parse_number.
      rewrite num_copy_all; [|exact (proj1 (number_chars _ _ H))|unfold zlen in L; lia|exact D].
      rewrite E. rewrite zdrop_app_eq. reflexivity. }
    destruct (number_chars _ _ H) as (_ & b & u & -> & B). cbn [app] in *.
    assert (48 <= b <= 57 \/ b = 45) as B' by (destruct B as [-> | B]; [lia|apply digit_spec in B; lia]).
    destruct (not_lit b (u ++ x)) as (S1 & S2 & S3); [lia|lia|lia|]. rewrite S1, S2, S3.
    replace (b =? QUOTE) with false by (unfold QUOTE; lia).
    replace ((b =? 45) || digit b) with true by (unfold digit; lia).
    rewrite PN. reflexivity.
  - intros n s c t H C. exists (JStr c). split; [apply (d_str n s c t); assumption|]. split; [constructor|].
    intros f d x _ D F. destruct f as [|f]; [lia|]. cbn [app parse_value].
    destruct (not_lit 34 ((t ++ [34]) ++ x)) as (S1 & S2 & S3); [lia|lia|lia|]. rewrite S1, S2, S3.
    change (34 =? QUOTE) with true. cbv iota.
    rewrite <- app_assoc. cbn [app]. rewrite (parse_string_doc _ _ _ x H C). reflexivity.
  - intros n w NP W. exists (JArr []). split; [apply d_arr0; assumption|]. split; [constructor; constructor|].
    intros f d x DN D F. destruct f as [|f]; [lia|]. cbn [app parse_value].
    destruct (not_lit 91 ((w ++ [93]) ++ x)) as (S1 & S2 & S3); [lia|lia|lia|]. rewrite S1, S2, S3.
    change (91 =? QUOTE) with false. change ((91 =? 45) || digit 91) with false. change (91 =? LBRACK) with true. cbv iota.
    replace (NESTING <=? d) with false by (unfold NESTING; lia).
    rewrite <- app_assoc. cbn [app]. rewrite (skip_ws w 93 x W) by lia.
    change (93 =? RBRACK) with true. reflexivity.
  - intros n l t NP _ (l' & D' & AL & (b & u & SK & NB) & P).
    exists (JArr l'). split; [apply d_arr; assumption|]. split; [constructor; assumption|].
    intros f d x DN D F. destruct f as [|f]; [lia|]. cbn [app parse_value].
    destruct (not_lit 91 ((t ++ [93]) ++ x)) as (S1 & S2 & S3); [lia|lia|lia|]. rewrite S1, S2, S3.
    change (91 =? QUOTE) with false. change ((91 =? 45) || digit 91) with false. change (91 =? LBRACK) with true. cbv iota.
    replace (NESTING <=? d) with false by (unfold NESTING; lia).
    rewrite <- app_assoc. cbn [app].
    destruct (skip_head _ _ _ _ x SK NB) as (u' & SK'). rewrite SK'.
    replace (b =? RBRACK) with false by (unfold RBRACK; lia).
    rewrite <- SK', elems_skip. rewrite P; [reflexivity|lia|].
    cbn [app] in F. rewrite <- app_assoc in F. cbn [app] in F. cbn [length] in F. lia.
  - intros n w NP W. exists (JObj []). split; [apply d_obj0; assumption|]. split; [constructor; constructor|].
    intros f d x DN D F. destruct f as [|f]; [lia|]. cbn [app parse_value].
    destruct (not_lit 123 ((w ++ [125]) ++ x)) as (S1 & S2 & S3); [lia|lia|lia|]. rewrite S1, S2, S3.
    change (123 =? QUOTE) with false. change ((123 =? 45) || digit 123) with false.
    change (123 =? LBRACK) with false. change (123 =? LBRACE) with true. cbv iota.
    replace (NESTING <=? d) with false by (unfold NESTING; lia).
    rewrite <- app_assoc. cbn [app]. rewrite (skip_ws w 125 x W) by lia.
    change (125 =? RBRACE) with true. reflexivity.
  - intros n l t NP _ (l' & D' & AL & (b & u & SK & NB) & P).
    exists (JObj l'). split; [apply d_obj; assumption|]. split; [constructor; assumption|].
    intros f d x DN D F. destruct f as [|f]; [lia|]. cbn [app parse_value].
    destruct (not_lit 123 ((t ++ [125]) ++ x)) as (S1 & S2 & S3); [lia|lia|lia|]. rewrite S1, S2, S3.
    change (123 =? QUOTE) with false. change ((123 =? 45) || digit 123) with false.
    change (123 =? LBRACK) with false. change (123 =? LBRACE) with true. cbv iota.
    replace (NESTING <=? d) with false by (unfold NESTING; lia).
    rewrite <- app_assoc. cbn [app].
    destruct (skip_head _ _ _ _ x SK NB) as (u' & SK'). rewrite SK'.
    replace (b =? RBRACE) with false by (unfold RBRACE; lia).
    rewrite <- SK', members_skip. rewrite P; [reflexivity|lia|].
    cbn [app] in F. rewrite <- app_assoc in F. cbn [app] in F. cbn [length] in F. lia.
  - intros n j w t w' W _ (j' & D' & AL & P) W'.
    exists [j']. split; [apply ds_one; assumption|]. split; [constructor; [exact AL|constructor]|]. split.
    { destruct (doc_first _ _ _ D') as (c & v & -> & C & NC). exists c, ((v ++ w') ++ [93]).
      split; [|exact NC]. rewrite <- app_assoc. cbn [app]. apply (skip_ws w c _ W C). }
    intros f d x DN F. try rewrite <- !app_assoc in *. destruct f as [|f]; [lia|]. cbn [elems].
    destruct (one_elem f d w t w' 93 x j' n W W' D') as (E1 & E2); [lia|reflexivity|exact P|exact DN|lia|].
    rewrite E1. cbn [bind]. rewrite E2. reflexivity.
  - intros n j l w t w' u W _ (j' & D' & AL & P) W' _ (l' & D2 & AL2 & _ & P2).
    exists (j' :: l'). split; [apply ds_more; assumption|]. split; [constructor; assumption|]. split.
    { destruct (doc_first _ _ _ D') as (c & v & -> & C & NC).
      exists c, ((v ++ w' ++ [44] ++ u) ++ [93]).
      split; [|exact NC]. rewrite <- app_assoc. cbn [app]. apply (skip_ws w c _ W C). }
    intros f d x DN F. try rewrite <- !app_assoc in *. cbn [app] in *. destruct f as [|f]; [lia|]. cbn [elems].
    destruct (one_elem f d w t w' 44 (u ++ 93 :: x) j' n W W' D') as (E1 & E2); [lia|reflexivity|exact P|exact DN|lia|].
    rewrite E1. cbn [bind]. rewrite E2. change (44 =? COMMA) with true. cbv iota.
    rewrite P2; [reflexivity|exact DN|]. rewrite !app_length in F. simpl in F. rewrite !app_length in F. simpl in F.
    rewrite app_length. simpl. lia.
  - intros n k c kt j w1 w2 w3 t w4 W1 K C W2 W3 _ (j' & D' & AL & P) W4.
    exists [(c, j')]. split; [apply ms_one with k; assumption|]. split; [constructor; [exact AL|constructor]|]. split.
    { exists 34, ((kt ++ [34] ++ w2 ++ [58] ++ w3 ++ t ++ w4) ++ [125]). split; [|lia].
      rewrite <- app_assoc. cbn [app]. apply (skip_ws w1 34 _ W1). lia. }
    intros f d x DN F. try rewrite <- !app_assoc in *. cbn [app] in *. try rewrite <- !app_assoc in *. cbn [app] in *.
    destruct f as [|f]; [lia|]. cbn [members].
    rewrite (skip_ws w1 34 _ W1) by lia. rewrite (parse_string_doc _ _ _ _ K C). cbn [bind].
    try rewrite <- !app_assoc in *. cbn [app] in *.
    rewrite (skip_ws w2 58 _ W2) by lia. change (negb (58 =? COLON)) with false. cbv iota.
    repeat (rewrite app_length in F; cbn [length] in F).
    try rewrite <- !app_assoc in *.
    destruct (one_elem f d w3 t w4 125 x j' n W3 W4 D') as (E1 & E2); [lia|reflexivity|exact P|exact DN| |].
    { repeat (rewrite app_length; cbn [length]). lia. }
    rewrite E1. cbn [bind]. rewrite E2. reflexivity.
  - intros n k c kt j w1 w2 w3 t w4 l u W1 K C W2 W3 _ (j' & D' & AL & P) W4 _ (l' & D2 & AL2 & _ & P2).
    exists ((c, j') :: l'). split; [apply ms_more with k; assumption|]. split; [constructor; assumption|]. split.
    { exists 34, ((kt ++ [34] ++ w2 ++ [58] ++ w3 ++ t ++ w4 ++ [44] ++ u) ++ [125]). split; [|lia].
      rewrite <- app_assoc. cbn [app]. apply (skip_ws w1 34 _ W1). lia. }
    intros f d x DN F. try rewrite <- !app_assoc in *. cbn [app] in *. try rewrite <- !app_assoc in *. cbn [app] in *.
    destruct f as [|f]; [lia|]. cbn [members].
    rewrite (skip_ws w1 34 _ W1) by lia. rewrite (parse_string_doc _ _ _ _ K C). cbn [bind].
    try rewrite <- !app_assoc in *. cbn [app] in *.
    rewrite (skip_ws w2 58 _ W2) by lia. change (negb (58 =? COLON)) with false. cbv iota.
    repeat (rewrite app_length in F; cbn [length] in F).
    try rewrite <- !app_assoc in *. cbn [app].
    destruct (one_elem f d w3 t w4 44 (u ++ 125 :: x) j' n W3 W4 D') as (E1 & E2); [lia|reflexivity|exact P|exact DN| |].
    { repeat (rewrite app_length; cbn [length]). lia. }
    rewrite E1. cbn [bind]. rewrite E2. change (44 =? COMMA) with true. cbv iota.
    rewrite P2; [reflexivity|exact DN|]. rewrite app_length. cbn [length]. lia.
Qed.

Lemma docN_mono (N M : list Z -> Z -> Prop) (SUB : forall t v, N t v -> M t v) :
  (forall n j t, docN N n j t -> docN M n j t) /\
  (forall n l t, docsN N n l t -> docsN M n l t) /\
  (forall n l t, memsN N n l t -> memsN M n l t).
Proof.
  apply docN_ind3; intros; try (constructor; auto; fail).
  - apply d_str with s; assumption.
  - apply ms_one with k; assumption.
  - apply ms_more with k; assumption.
Qed.
