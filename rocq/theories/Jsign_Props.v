(** * C138: doubles of either sign that are printed and read back. *)
From Verif Require Import Base Jprint_Model Jdbl_Model Jdbl_Props Jsign_Model.
Open Scope Z_scope.

Lemma is_double_0 : is_double 0.
Proof. exists 0, 0. split; [split; [lia|reflexivity]|]. split; [lia|reflexivity]. Qed.
Lemma is_double_nonneg X : is_double X -> 0 <= X.
Proof. intros (m & k & M & K & ->). apply Z.mul_nonneg_nonneg; [lia|apply Z.pow_nonneg; lia]. Qed.

(** what is read for a decimal that is not negative is not negative *)
Lemma taken_pos D q Y : 0 <= D -> taken_s D q Y -> 0 <= Y /\ taken D q Y.
Proof.
  intros P (SY & B). pose proof (sc_pos q). pose proof (sb_pos q).
  assert (Y0 : 0 <= Y).
  { specialize (B 0 is_double_0). rewrite Z.mul_0_l, Z.sub_0_r in B.
    destruct (Z.le_gt_cases 0 Y) as [|NEG]; [assumption|]. exfalso.
    assert (0 <= D * sc q) by nia. assert (Y * sb q < 0) by nia. lia. }
  split; [exact Y0|]. unfold is_signed in SY. rewrite Z.abs_eq in SY by exact Y0. split; [exact SY|].
  intros W DW. apply B. unfold is_signed. rewrite Z.abs_eq by exact (is_double_nonneg W DW). exact DW.
Qed.
Lemma taken_opp D q Y : taken_s D q Y -> taken_s (- D) q (- Y).
Proof.
  intros (SY & B). split; [unfold is_signed in *; rewrite Z.abs_opp; exact SY|]. intros W SW.
  specialize (B (- W)). unfold is_signed in B. rewrite Z.abs_opp in B. specialize (B SW).
  rewrite <- (Z.abs_opp (- D * sc q - - Y * sb q)), <- (Z.abs_opp (- D * sc q - W * sb q)).
  replace (- (- D * sc q - - Y * sb q)) with (D * sc q - Y * sb q) by ring.
  replace (- (- D * sc q - W * sb q)) with (D * sc q - - W * sb q) by ring. exact B.
Qed.
Lemma shown_pos s X d q : 1 <= s -> shown s X d q -> 0 < d.
Proof. intros L ((A & _) & _). assert (0 < 10 ^ (s - 1)) by (apply Z.pow_pos_nonneg; lia). lia. Qed.
Lemma compare_opp a b : compare_double (- a) (- b) = compare_double a b.
Proof.
  unfold compare_double. rewrite !Z.abs_opp. replace (- a - - b) with (- (a - b)) by ring. rewrite Z.abs_opp. reflexivity.
Qed.

Lemma positive rd X D q : is_signed X -> 0 < X -> printed_s rd X D q -> taken_s D q (rd D q) -> 0 <= rd D q /\
  (rd D q = X \/ (2 ^ 51 * Z.abs (rd D q - X) <= Z.max X (rd D q) /\ (2 ^ 104 <= X -> 2 ^ 52 * Z.abs (rd D q - X) <= Z.max X (rd D q)))).
Proof.
  intros SX P PR TK. unfold is_signed in SX. rewrite Z.abs_eq in SX by lia.
  assert (DP : 0 <= D /\ printed rd X D q).
  { destruct PR as [v V E|D q [(_ & SH)|(N & _)] T C|D q D' q' [(_ & SH)|(N & _)] T C [(_ & S17)|(N' & _)]]; try lia.
    - assert (0 < 2 ^ 1074) by (apply Z.pow_pos_nonneg; lia). set (u := 2 ^ 1074) in *. assert (0 <= v) by nia.
      split; [assumption|]. subst u. apply pr_int; [lia|exact E].
    - pose proof (shown_pos 15 X D q ltac:(lia) SH). split; [lia|]. apply pr_15; [exact SH| |exact C].
      apply taken_pos; [lia|exact T].
    - pose proof (shown_pos 15 X D q ltac:(lia) SH). pose proof (shown_pos 17 X D' q' ltac:(lia) S17). split; [lia|].
      apply (pr_17 rd X D q D' q' SH); [|exact C|exact S17]. apply taken_pos; [lia|exact T]. }
  destruct DP as (D0 & PP). destruct (taken_pos D q _ D0 TK) as (Y0 & T). split; [exact Y0|].
  destruct (C138_partial rd X D q SX P PP T) as [E|(_ & A & B)]; [left; exact E|right; split; assumption].
Qed.

(** ** What comes back, for every finite double: the same number, or a number of the same sign that
    differs by at most 2^-52 of the larger one (2^-51 next to the smallest doubles). *)
Theorem C138_signed_partial : forall rd X D q, is_signed X -> printed_s rd X D q -> taken_s D q (rd D q) ->
  let Y := rd D q in
  Y = X \/ (0 <= X * Y /\ 2 ^ 51 * Z.abs (Y - X) <= Z.max (Z.abs X) (Z.abs Y) /\
            (2 ^ 104 <= Z.abs X -> 2 ^ 52 * Z.abs (Y - X) <= Z.max (Z.abs X) (Z.abs Y))).
Proof.
  intros rd X D q SX PR TK Y.
  assert (INT : (exists v, D = v /\ q = 0 /\ X = v * 2 ^ 1074) \/ (X <> 0 /\ (X < 0 -> printed_s (fun d p => - rd (- d) p) (- X) (- D) q))).
  { destruct PR as [v V E|D q SH T C|D q D' q' SH T C S17].
    - left. exists v. auto.
    - right. split; [destruct SH; lia|]. intros N. destruct SH as [(P & _)|(_ & SH)]; [lia|].
      apply ps_15; [left; split; [lia|exact SH]| |]; rewrite Z.opp_involutive.
      + apply taken_opp. exact T.
      + rewrite compare_opp. exact C.
    - right. split; [destruct SH; lia|]. intros N. destruct SH as [(P & _)|(_ & SH)]; [lia|]. destruct S17 as [(P & _)|(_ & S17)]; [lia|].
      apply (ps_17 _ (- X) (- D) q (- D') q'); [left; split; [lia|exact SH]| | |left; split; [lia|exact S17]]; rewrite Z.opp_involutive.
      + apply taken_opp. exact T.
      + rewrite compare_opp. exact C. }
  destruct INT as [(v & -> & -> & E)|(NZ & NEG)].
  - left. destruct TK as (_ & B). specialize (B X SX). fold Y in B. unfold sc, sb in B.
    change (Z.max 0 0) with 0 in B. change (Z.max 0 (- 0)) with 0 in B. rewrite Z.pow_0_r in B.
    set (u := 2 ^ 1074) in *. clearbody u. lia.
  - destruct (Z.lt_trichotomy X 0) as [N|[?|P]]; [|contradiction|].
    + assert (TK' : taken_s (- D) q (- rd (- - D) q)) by (rewrite Z.opp_involutive; apply taken_opp; exact TK).
      assert (SX' : is_signed (- X)) by (unfold is_signed in *; rewrite Z.abs_opp; exact SX).
      destruct (positive _ (- X) (- D) q SX' ltac:(lia) (NEG N) TK') as (Y0 & R).
      cbv beta in Y0, R. rewrite Z.opp_involutive in Y0, R. fold Y in Y0, R.
      rewrite (Z.abs_neq X), (Z.abs_neq Y) by lia.
      destruct R as [R|(A & B)]; [left; lia|right]. split; [nia|].
      replace (Z.abs (- Y - - X)) with (Z.abs (Y - X)) in * by (rewrite <- (Z.abs_opp (Y - X)); f_equal; ring).
      change (2 ^ 51) with 2251799813685248 in *. change (2 ^ 52) with 4503599627370496 in *.
      change (2 ^ 104) with 20282409603651670423947251286016 in *. split; [exact A|exact B].
    + destruct (positive rd X D q SX P PR TK) as (Y0 & R). fold Y in Y0, R. rewrite (Z.abs_eq X), (Z.abs_eq Y) by lia.
      destruct R as [R|(A & B)]; [left; exact R|right]. split; [nia|]. split; assumption.
Qed.
Print Assumptions C138_signed_partial.

(** 17 digits are enough for either sign. *)
Theorem C138_signed_17 : forall X D q Y, is_signed X -> shown_s 17 X D q -> taken_s D q Y -> Y = X.
Proof.
  intros X D q Y SX [(P & SH)|(N & SH)] TK; unfold is_signed in SX.
  - rewrite Z.abs_eq in SX by lia. pose proof (shown_pos 17 X D q ltac:(lia) SH).
    destruct (taken_pos D q Y ltac:(lia) TK) as (_ & T). exact (C138_17_digits X D q Y SX P SH T).
  - rewrite Z.abs_neq in SX by lia. pose proof (shown_pos 17 (- X) (- D) q ltac:(lia) SH).
    destruct (taken_pos (- D) q (- Y) ltac:(lia) (taken_opp D q Y TK)) as (_ & T).
    pose proof (C138_17_digits (- X) (- D) q (- Y) SX ltac:(lia) SH T). lia.
Qed.
Print Assumptions C138_signed_17.

(** -(0.1 + 0.2) is printed as -0.3 and comes back as another number *)
Lemma taken03_s : taken_s (- (3 * 10 ^ 14)) (-15) (- y03).
Proof.
  apply taken_opp. destruct taken03 as (DY & B). pose proof (is_double_nonneg _ DY) as PY.
  split; [unfold is_signed; rewrite Z.abs_eq by exact PY; exact DY|]. intros W SW. unfold is_signed in SW.
  specialize (B _ SW). destruct (Z.le_gt_cases 0 W) as [PW|NW]; [rewrite (Z.abs_eq W) in B by exact PW; exact B|].
  rewrite (Z.abs_neq W) in B by lia. etransitivity; [exact B|].
  assert (0 < sb (-15)) by reflexivity. assert (0 < 3 * 10 ^ 14 * sc (-15)) by reflexivity.
  set (b := sb (-15)) in *. set (a := 3 * 10 ^ 14 * sc (-15)) in *. clearbody a b. clear B.
  assert (W * b < 0) by nia. replace (- W * b) with (- (W * b)) by ring. set (w := W * b) in *. clearbody w. lia.
Qed.
Lemma printed03_s : printed_s (fun _ _ => - y03) (- x03) (- (3 * 10 ^ 14)) (-15).
Proof.
  apply ps_15.
  - right. split; [reflexivity|]. rewrite !Z.opp_involutive.
    split; [vm_compute; split; discriminate|]. split; vm_compute; discriminate.
  - exact taken03_s.
  - vm_compute. reflexivity.
Qed.
Example C138_signed_ex : is_signed (- x03) /\ printed_s (fun _ _ => - y03) (- x03) (- (3 * 10 ^ 14)) (-15) /\
  taken_s (- (3 * 10 ^ 14)) (-15) (- y03) /\ - y03 <> - x03.
Proof.
  split; [unfold is_signed; rewrite Z.abs_opp, Z.abs_eq by (vm_compute; discriminate); exact x03_double|].
  split; [exact printed03_s|]. split; [exact taken03_s|]. vm_compute. discriminate.
Qed.
Theorem C138_signed_refuted : exists rd X D q, is_signed X /\ X < 0 /\ printed_s rd X D q /\ taken_s D q (rd D q) /\ rd D q <> X.
Proof.
  exists (fun _ _ => - y03), (- x03), (- (3 * 10 ^ 14)), (-15). destruct C138_signed_ex as (A & B & C & D).
  split; [exact A|]. split; [reflexivity|]. auto.
Qed.
Print Assumptions C138_signed_refuted.
