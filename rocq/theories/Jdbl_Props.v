(** * C138: doubles that are printed and read back. *)
From Verif Require Import Base Jprint_Model Jdbl_Model.
Open Scope Z_scope.

(** two doubles are apart by at least 2^-53 of the larger one *)
Lemma gap X Y : is_double X -> is_double Y -> Y < X -> X <= 2 ^ 53 * (X - Y).
Proof.
  intros (m & k & M & K & ->) (n & l & N & L & ->) LT.
  assert (PK : 0 < 2 ^ k) by (apply Z.pow_pos_nonneg; lia). assert (PL : 0 < 2 ^ l) by (apply Z.pow_pos_nonneg; lia).
  destruct (Z.le_gt_cases k l).
  - replace l with (k + (l - k)) in * by lia. rewrite Z.pow_add_r in * by lia.
    set (a := 2 ^ k) in *. set (b := 2 ^ (l - k)) in *. change (2 ^ 53) with 9007199254740992 in *.
    replace (m * a - n * (a * b)) with ((m - n * b) * a) in * by ring.
    assert (0 < m - n * b) by nia. nia.
  - replace k with (l + (k - l)) in * by lia. rewrite Z.pow_add_r in * by lia.
    set (a := 2 ^ l) in *. set (b := 2 ^ (k - l)) in *. change (2 ^ 53) with 9007199254740992 in *.
    replace (m * (a * b)) with ((m * b) * a) in * by ring. set (c := m * b) in *.
    replace (c * a - n * a) with ((c - n) * a) by ring. assert (n < c) by nia.
    assert (c <= 9007199254740992 * (c - n)) by lia. nia.
Qed.

Lemma sc_pos q : 0 < sc q.
Proof. unfold sc. apply Z.mul_pos_pos; apply Z.pow_pos_nonneg; lia. Qed.
Lemma sb_pos q : 0 < sb q.
Proof. unfold sb. apply Z.pow_pos_nonneg; lia. Qed.

(** ** 17 digits are enough *)
Theorem C138_17_digits : forall X d q Y, is_double X -> 0 < X -> shown 17 X d q -> taken d q Y -> Y = X.
Proof.
  intros X d q Y DX P (_ & LO & NEAR) (DY & BEST). specialize (BEST X DX).
  pose proof (sc_pos q). pose proof (sb_pos q). set (u := sc q) in *. set (b := sb q) in *. clearbody u b.
  change (10 ^ (17 - 1)) with 10000000000000000 in LO.
  assert (A : Z.abs (X - Y) * b <= u) by (replace (Z.abs (X - Y) * b) with (Z.abs (X * b - Y * b)); [lia|]; rewrite <- Z.mul_sub_distr_r, Z.abs_mul, (Z.abs_eq b) by lia; reflexivity).
  assert (B : 10000000000000000 * Z.abs (X - Y) <= X) by nia.
  destruct (Z.lt_trichotomy X Y) as [C|[C|C]]; [|auto|].
  - pose proof (gap Y X DY DX C) as G. change (2 ^ 53) with 9007199254740992 in G. lia.
  - pose proof (gap X Y DX DY C) as G. change (2 ^ 53) with 9007199254740992 in G. lia.
Qed.
Print Assumptions C138_17_digits.

Lemma eps_small m : 0 <= m -> times_eps m * 2 ^ 51 <= m /\ (times_eps m = 0 \/ 2 ^ 52 * times_eps m <= m + 2 ^ 51).
Proof.
  intros P. unfold times_eps. cbv zeta. pose proof (Z.div_mod m (2 ^ 52)). pose proof (Z.mod_pos_bound m (2 ^ 52)).
  change (2 ^ 52) with 4503599627370496 in *. change (2 ^ 51) with 2251799813685248 in *.
  set (q := m / 4503599627370496) in *. set (r := m mod 4503599627370496) in *.
  assert (0 <= q) by (apply Z.div_pos; lia).
  destruct ((2 * r <? 4503599627370496) || (2 * r =? 4503599627370496) && Z.even q) eqn:E; [lia|].
  apply orb_false_iff in E as (E1 & E2). apply Z.ltb_ge in E1.
  destruct (Z.eqb_spec (2 * r) 4503599627370496) as [E3|E3]; cbn [andb] in E2; lia.
Qed.
Lemma eps_normal m : 2 ^ 104 <= m -> is_double m -> times_eps m * 2 ^ 52 = m.
Proof.
  intros BIG (n & k & N & K & ->).
  assert (52 <= k).
  { destruct (Z.le_gt_cases 52 k); [assumption|]. exfalso.
    assert (2 ^ k <= 2 ^ 51) by (apply Z.pow_le_mono_r; lia).
    assert (0 < 2 ^ k) by (apply Z.pow_pos_nonneg; lia).
    assert (n * 2 ^ k < 2 ^ 53 * 2 ^ 51) by nia. change (2 ^ 53 * 2 ^ 51) with (2 ^ 104) in *. lia. }
  unfold times_eps. cbv zeta. replace (n * 2 ^ k) with (n * 2 ^ (k - 52) * 2 ^ 52)
    by (rewrite <- Z.mul_assoc, <- Z.pow_add_r by lia; f_equal; f_equal; lia).
  rewrite Z.div_mul, Z.mod_mul by discriminate. reflexivity.
Qed.

(** ** What comes back: the same integer, a double that differs by at most 2^-52 of the larger one
    (2^-51 next to the smallest doubles), or the same double if 17 digits are printed *)
Theorem C138_partial : forall rd X d q, is_double X -> 0 < X -> printed rd X d q -> taken d q (rd d q) ->
  let Y := rd d q in
  Y = X \/ (shown 15 X d q /\ 2 ^ 51 * Z.abs (Y - X) <= Z.max X Y /\ (2 ^ 104 <= X -> 2 ^ 52 * Z.abs (Y - X) <= Z.max X Y)).
Proof.
  intros rd X d q DX P PR TK Y. destruct PR as [v V E|d q SH TT C|d q d' q' SH TT C S17].
  - left. destruct TK as (_ & BEST). specialize (BEST X DX). fold Y in BEST. unfold sc, sb in BEST.
    change (Z.max 0 0) with 0 in BEST. change (Z.max 0 (- 0)) with 0 in BEST. rewrite Z.pow_0_r in BEST.
    set (u := 2 ^ 1074) in *. clearbody u. lia.
  - right. split; [exact SH|]. fold Y in TT, C. destruct TT as (DY & _). unfold compare_double in C. apply Z.leb_le in C.
    assert (PY : 0 <= Y) by (destruct DY as (m & k & M & K & ->); apply Z.mul_nonneg_nonneg; [lia|apply Z.pow_nonneg; lia]).
    rewrite (Z.abs_eq Y), (Z.abs_eq X) in C by lia. rewrite Z.max_comm in C.
    destruct (eps_small (Z.max X Y)) as (E1 & _); [lia|]. change (2 ^ 51) with 2251799813685248 in *. split; [lia|].
    intros BIG. assert (DM : is_double (Z.max X Y)) by (destruct (Z.max_spec X Y) as [(_ & ->)|(_ & ->)]; assumption).
    pose proof (eps_normal (Z.max X Y)) as E2. specialize (E2 ltac:(lia) DM). change (2 ^ 52) with 4503599627370496 in *. lia.
  - left. exact (C138_17_digits X d' q' Y DX P S17 TK).
Qed.
Print Assumptions C138_partial.

(** ** 0.1 + 0.2 is printed as 0.3 and comes back as another number *)
Definition x03 : Z := 5404319552844596 * 2 ^ 1020.
Definition y03 : Z := 5404319552844595 * 2 ^ 1020.
Lemma between W : is_double W -> W <= y03 \/ x03 <= W.
Proof.
  intros (n & l & N & L & ->). unfold y03, x03. destruct (Z.le_gt_cases 1020 l).
  - replace l with (1020 + (l - 1020)) by lia. rewrite Z.pow_add_r by lia. replace (n * (2 ^ 1020 * 2 ^ (l - 1020))) with (n * 2 ^ (l - 1020) * 2 ^ 1020) by ring.
    set (c := n * 2 ^ (l - 1020)). assert (0 < 2 ^ 1020) by reflexivity. set (u := 2 ^ 1020) in *. clearbody u c.
    destruct (Z.le_gt_cases c 5404319552844595); [left|right]; nia.
  - left. assert (2 ^ l <= 2 ^ 1019) by (apply Z.pow_le_mono_r; lia). assert (0 < 2 ^ l) by (apply Z.pow_pos_nonneg; lia).
    change (2 ^ 1020) with (2 * 2 ^ 1019). set (u := 2 ^ 1019) in *. set (v := 2 ^ l) in *. clearbody u v.
    change (2 ^ 53) with 9007199254740992 in N. nia.
Qed.
Lemma x03_double : is_double x03.
Proof. exists 5404319552844596, 1020. split; [split; [lia|reflexivity]|]. split; [lia|reflexivity]. Qed.
Lemma y03_double : is_double y03.
Proof. exists 5404319552844595, 1020. split; [split; [lia|reflexivity]|]. split; [lia|reflexivity]. Qed.
Lemma taken03 : taken (3 * 10 ^ 14) (-15) y03.
Proof.
  split; [exact y03_double|]. intros W DW. destruct (between W DW) as [H|H].
  - assert (y03 * sb (-15) <= 3 * 10 ^ 14 * sc (-15)) by (vm_compute; discriminate).
    assert (0 < sb (-15)) by reflexivity. set (b := sb (-15)) in *. set (a := 3 * 10 ^ 14 * sc (-15)) in *.
    clearbody a b. rewrite !Z.abs_eq by nia. nia.
  - assert (y03 * sb (-15) <= 3 * 10 ^ 14 * sc (-15)) by (vm_compute; discriminate).
    assert (2 * (3 * 10 ^ 14 * sc (-15)) <= (x03 + y03) * sb (-15)) by (vm_compute; discriminate).
    assert (0 < sb (-15)) by reflexivity. set (b := sb (-15)) in *. set (a := 3 * 10 ^ 14 * sc (-15)) in *.
    clearbody a b. assert (x03 * b <= W * b) by nia. rewrite Z.mul_add_distr_r in *. lia.
Qed.
Theorem C138_refuted : exists rd X d q, is_double X /\ 0 < X /\ printed rd X d q /\ taken d q (rd d q) /\ rd d q <> X.
Proof.
  exists (fun _ _ => y03), x03, (3 * 10 ^ 14), (-15). split; [exact x03_double|]. split; [reflexivity|].
  split; [|split; [exact taken03|vm_compute; discriminate]]. apply pr_15; [|exact taken03|vm_compute; reflexivity].
  split; [vm_compute; split; discriminate|]. split; vm_compute; discriminate.
Qed.
Print Assumptions C138_refuted.

(** 1/2, which is printed exactly, and 0.1 + 0.2 with 17 digits *)
Definition half : Z := 2 ^ 1073.
Example ex_C138 : is_double half /\ 0 < half /\ printed (fun _ _ => half) half (5 * 10 ^ 14) (-15) /\ taken (5 * 10 ^ 14) (-15) half.
Proof.
  assert (D : is_double half) by (exists 1, 1073; split; [split; [lia|reflexivity]|]; split; [lia|reflexivity]).
  assert (T : taken (5 * 10 ^ 14) (-15) half).
  { split; [exact D|]. intros W _. assert (E : 5 * 10 ^ 14 * sc (-15) - half * sb (-15) = 0) by (vm_compute; reflexivity).
    rewrite E. apply Z.abs_nonneg. }
  split; [exact D|]. split; [reflexivity|]. split; [|exact T]. apply pr_15; [|exact T|vm_compute; reflexivity].
  split; [vm_compute; split; discriminate|]. split; vm_compute; discriminate.
Qed.
Example ex_C138_17 : is_double x03 /\ shown 17 x03 30000000000000004 (-17).
Proof. split; [exact x03_double|]. split; [vm_compute; split; discriminate|]. split; vm_compute; discriminate. Qed.
