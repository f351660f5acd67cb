(** * C167: the program's own reader accepts every printed number. *)
From Verif Require Import Base Jprint_Model Jdbl_Model Jsign_Model Json_Spec Json_Model Json_Proofs Json_Doc_Proofs.
From Verif Require Conf_Model Gtext_Model Gtext_Props.
Open Scope Z_scope.
Local Arguments zlen : simpl never.

Lemma value_decval l : Gtext_Props.value l = decval l.
Proof. rewrite <- dec_spec. reflexivity. Qed.
Lemma json_number_number t m e : Gtext_Props.json_number t m e ->
  exists i f fd x ex, int_part i /\ Json_Spec.frac f fd /\ Json_Spec.expo x ex /\ Forall (fun b => 48 <= b <= 57) fd /\
    ((t = i ++ f ++ x /\ m = decval (i ++ fd)) \/ (t = 45 :: i ++ f ++ x /\ m = - decval (i ++ fd))) /\ e = ex - zlen fd.
Proof.
  intros (neg & i & f & fd & ex & x & -> & JI & JF & JE & -> & ->).
  assert (I : int_part i).
  { destruct JI as [-> |(c & r & -> & C & R)]; [constructor|]. apply ip_other; [exact C|exact R]. }
  assert (F : Json_Spec.frac f fd /\ Forall (fun b => 48 <= b <= 57) fd).
  { destruct JF as [(-> & ->)|(-> & N & D)]; [split; constructor|]. split; [constructor; assumption|exact D]. }
  assert (E : Json_Spec.expo ex x).
  { destruct JE as [(-> & ->)|(b & l & -> & N & D & ->)]; [constructor|]. rewrite value_decval. destruct b.
    - apply ex_neg; auto.
    - apply (ex_pos 101 [43] l); auto. }
  destruct F as (F & FD). exists i, f, fd, ex, x. rewrite value_decval. destruct neg; cbn [app]; auto 10.
Qed.

Lemma trunc_nonneg m e w : 0 <= m -> trunc_of m e w -> 0 <= w.
Proof.
  intros M (A & B). assert (0 < 10 ^ Z.max 0 e) by (apply Z.pow_pos_nonneg; lia). assert (0 < 10 ^ Z.max 0 (- e)) by (apply Z.pow_pos_nonneg; lia).
  set (a := 10 ^ Z.max 0 e) in *. set (q := 10 ^ Z.max 0 (- e)) in *. clearbody a q. assert (0 <= m * a) by nia.
  destruct (Z.le_gt_cases (2 ^ 31 * q) (m * a)) as [L|G]; [specialize (A L); lia|]. destruct (B G) as [C|(C & _)]; nia.
Qed.
(** cJSON.c:305-379 on a JSON number that fits: all of it is taken, and nothing behind it *)
Lemma read_number t m e x : Gtext_Props.json_number t m e -> zlen t <= 63 -> delim x ->
  exists v, parse_number (t ++ x) = Some (v, x) /\ trunc_of (Z.abs m) e (Z.abs v) /\ 0 <= m * v.
Proof.
  intros J L D. destruct (json_number_number t m e J) as (i & f & fd & ex & y & I & F & X & FD & TM & ->).
  pose proof (int_part_digits _ I) as (DI & NI).
  assert (P : 0 <= decval (i ++ fd)) by (apply decval_range, Forall_app; split; assumption).
  assert (CH : Forall (fun b => num_char b = true) t /\ exists v, strtod t = Some (v, zlen t) /\ trunc_of (Z.abs m) (y - zlen fd) (Z.abs v) /\ 0 <= m * v).
  { pose proof (body_chars i f fd ex y I F X) as BC. destruct TM as [(-> & ->)|(-> & ->)].
    - split; [exact BC|]. destruct (strtod_body false (i ++ f ++ ex) i f fd ex y) as (w & E & W); try assumption.
      { destruct i as [|b i]; [exfalso; apply NI; reflexivity|]. cbn [app span_sign]. apply Forall_cons_iff in DI as (B & _).
        replace (b =? 45) with false by lia. replace (b =? 43) with false by lia. reflexivity. }
      pose proof (trunc_nonneg _ _ _ P W). exists w. split; [exact E|]. rewrite !Z.abs_eq by assumption. split; [exact W|nia].
    - split; [constructor; [reflexivity|exact BC]|]. destruct (strtod_body true (45 :: i ++ f ++ ex) i f fd ex y) as (w & E & W); try assumption; [reflexivity|].
      pose proof (trunc_nonneg _ _ _ P W). exists (- w). split; [exact E|]. rewrite !Z.abs_opp, !Z.abs_eq by assumption. split; [exact W|nia]. }
  destruct CH as (CH & v & E & T). exists v. split; [|exact T]. unfold parse_number.
  rewrite (num_copy_all t CH 63 x) by (exact D || (unfold zlen in L; lia)). rewrite E.
  f_equal. f_equal. rewrite zdrop_app_r by lia. rewrite Z.sub_diag. reflexivity.
Qed.

(** ** The reader takes every printed number whole
    [x] is what follows in the document; it does not begin with a character of a number. *)
Theorem C167_read_double : forall s X D q x, s = 15 \/ s = 17 -> is_signed X -> shown_s s X D q -> delim x ->
  exists m e v, D = m * 10 ^ (e - q) /\ q <= e /\ parse_number (Gtext_Model.gtext s D q ++ x) = Some (v, x) /\
    trunc_of (Z.abs m) e (Z.abs v) /\ 0 <= m * v.
Proof.
  intros s X D q x SS SX SH DX. destruct (Gtext_Props.C167_double s X D q SS SX SH) as (F & m & e & J & LE & ED).
  unfold Gtext_Props.fits in F. destruct (read_number _ m e x J ltac:(lia) DX) as (v & E & T & P). exists m, e, v. auto.
Qed.
Print Assumptions C167_read_double.
Theorem C167_read_int : forall n x, - INT_MAX - 1 <= n <= INT_MAX -> delim x ->
  exists v, parse_number (Gtext_Model.itext n ++ x) = Some (v, x) /\ Conf_Model.valueint (Conf_Model.JNum v) = n.
Proof.
  intros n x B DX. destruct (Gtext_Props.C167_int n B) as (F & J). unfold Gtext_Props.fits in F.
  destruct (read_number _ n 0 x J ltac:(lia) DX) as (v & E & (T1 & T2) & P). exists v. split; [exact E|].
  change (Z.max 0 0) with 0 in *. change (Z.max 0 (- 0)) with 0 in *. rewrite Z.pow_0_r, !Z.mul_1_r in *.
  change INT_MAX with 2147483647 in *. change (2 ^ 31) with 2147483648 in *. change (2 ^ 23) with 8388608 in *.
  unfold Conf_Model.valueint. change Conf_Model.INT_MAX with 2147483647. change Conf_Model.INT_MIN with (-2147483648).
  destruct (Z.le_gt_cases 2147483648 (Z.abs n)) as [G|G]; [specialize (T1 G)|specialize (T2 G)].
  - assert (n = -2147483648) by lia. assert (v <= -2147483648) by nia. lia.
  - assert (Z.abs v = Z.abs n) by lia. assert (v = n) by nia. lia.
Qed.
Print Assumptions C167_read_int.

(** -0.3] as in an array *)
Example C167_read_ex : delim [93] /\ parse_number (Gtext_Model.gtext 15 (- (3 * 10 ^ 14)) (-15) ++ [93]) = Some (0, [93]) /\
  parse_number (Gtext_Model.gtext 15 (15 * 10 ^ 13) (-10) ++ [93]) = Some (15000, [93]) /\
  parse_number (Gtext_Model.itext (-2147483648) ++ [93]) = Some (-2147483648, [93]).
Proof. repeat split. Qed.
