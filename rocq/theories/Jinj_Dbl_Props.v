(** * C168: different doubles have different texts of 17 digits. *)
From Verif Require Import Base Jprint_Model Jdbl_Model Jdbl_Props Jsign_Model Jsign_Props Gtext_Model Gtext_Props.
Open Scope Z_scope.
Local Arguments Z.add : simpl never.
Local Arguments Z.sub : simpl never.
Local Arguments Z.mul : simpl never.
Local Arguments Z.pow : simpl never.
Local Arguments zlen : simpl never.

(** ** A number text stands for one decimal *)
Definition other (r : list Z) : Prop := match r with [] => True | c :: _ => ~ isdigit c end.
Lemma split_digits : forall i i' r r', Forall isdigit i -> Forall isdigit i' -> other r -> other r' -> i ++ r = i' ++ r' -> i = i' /\ r = r'.
Proof.
  induction i as [|c i IH]; intros [|c' i'] r r' F F' O O' E; cbn [app] in E.
  - auto.
  - subst r. apply Forall_cons_iff in F' as (D & _). destruct (O D).
  - subst r'. apply Forall_cons_iff in F as (D & _). destruct (O' D).
  - injection E as -> E. apply Forall_cons_iff in F as (_ & F). apply Forall_cons_iff in F' as (_ & F').
    destruct (IH _ _ _ F F' O O' E) as (-> & ->). auto.
Qed.
Lemma int_digits i : json_int i -> Forall isdigit i /\ exists c r, i = c :: r.
Proof.
  intros [->|(c & r & -> & C & F)].
  - split; [constructor; [unfold isdigit; lia|constructor]|eauto].
  - split; [constructor; [unfold isdigit; lia|exact F]|eauto].
Qed.
Lemma exp_other ex x : json_exp ex x -> other ex /\ forall l, ex <> 46 :: l.
Proof.
  intros [(-> & _)|(b & l & -> & _)]; (split; [cbn; unfold isdigit; try tauto; lia|discriminate]).
Qed.
Lemma frac_other f fd ex x : json_frac f fd -> json_exp ex x -> other (f ++ ex).
Proof.
  intros [(-> & _)|(-> & _)] E; [exact (proj1 (exp_other _ _ E))|]. cbn. unfold isdigit. lia.
Qed.
Lemma frac_one f fd ex x f' fd' ex' x' : json_frac f fd -> json_exp ex x -> json_frac f' fd' -> json_exp ex' x' ->
  f ++ ex = f' ++ ex' -> fd = fd' /\ ex = ex'.
Proof.
  intros F X F' X' E. destruct (exp_other _ _ X) as (O & P). destruct (exp_other _ _ X') as (O' & P').
  destruct F as [(-> & ->)|(-> & _ & D)], F' as [(-> & ->)|(-> & _ & D')]; cbn [app] in E.
  - auto.
  - destruct (P _ E).
  - symmetry in E. destruct (P' _ E).
  - injection E as E. apply split_digits in E; auto.
Qed.
Lemma exp_one ex x x' : json_exp ex x -> json_exp ex x' -> x = x'.
Proof.
  intros [(-> & ->)|(b & l & -> & _ & _ & ->)] [(E & ->)|(b' & l' & E & _ & _ & ->)]; try discriminate; [reflexivity|].
  injection E as E1 ->. destruct b, b'; try discriminate; reflexivity.
Qed.
Lemma json_number_one t m e m' e' : json_number t m e -> json_number t m' e' -> m = m' /\ e = e'.
Proof.
  intros (neg & i & f & fd & ex & x & -> & I & F & X & -> & ->) (neg' & i' & f' & fd' & ex' & x' & E & I' & F' & X' & -> & ->).
  destruct (int_digits _ I) as (DI & c & r & EI). destruct (int_digits _ I') as (DI' & c' & r' & EI').
  assert (N : neg = neg' /\ i ++ f ++ ex = i' ++ f' ++ ex').
  { assert (isdigit c) by (subst i; apply Forall_cons_iff in DI; tauto). assert (isdigit c') by (subst i'; apply Forall_cons_iff in DI'; tauto).
    unfold isdigit in *. subst i i'. destruct neg, neg'; cbn [app] in E |- *.
    - injection E as <- E. split; [reflexivity|]. f_equal. exact E.
    - injection E as E0 _. lia.
    - injection E as E0 _. lia.
    - auto. }
  destruct N as (<- & E1). apply split_digits in E1 as (<- & E2); [|assumption|assumption|exact (frac_other _ _ _ _ F X)|exact (frac_other _ _ _ _ F' X')].
  destruct (frac_one _ _ _ _ _ _ _ _ F X F' X' E2) as (<- & <-). rewrite (exp_one _ _ _ X X'). auto.
Qed.

Lemma taken_scaled m e q Y : q <= e -> taken_s m e Y -> taken_s (m * 10 ^ (e - q)) q Y.
Proof.
  intros LE (DY & B). split; [exact DY|]. intros W DW. specialize (B W DW).
  assert (EX : sc e * sb q = 10 ^ (e - q) * sc q * sb e).
  { unfold sc, sb. replace (10 ^ Z.max 0 e * 2 ^ 1074 * 10 ^ Z.max 0 (- q)) with (10 ^ Z.max 0 e * 10 ^ Z.max 0 (- q) * 2 ^ 1074) by ring.
    replace (10 ^ (e - q) * (10 ^ Z.max 0 q * 2 ^ 1074) * 10 ^ Z.max 0 (- e)) with (10 ^ (e - q) * 10 ^ Z.max 0 q * 10 ^ Z.max 0 (- e) * 2 ^ 1074) by ring.
    rewrite <- !Z.pow_add_r by lia. do 2 f_equal. lia. }
  assert (PE : 0 < sb e) by (apply Z.pow_pos_nonneg; lia). assert (PQ : 0 < sb q) by (apply Z.pow_pos_nonneg; lia).
  assert (K : forall V, Z.abs (m * sc e - V * sb e) * sb q = Z.abs (m * 10 ^ (e - q) * sc q - V * sb q) * sb e).
  { intros V. rewrite <- (Z.abs_eq (sb q)) at 1 by lia. rewrite <- (Z.abs_eq (sb e)) at 2 by lia. rewrite <- !Z.abs_mul. f_equal.
    replace ((m * sc e - V * sb e) * sb q) with (m * (sc e * sb q) - V * sb e * sb q) by ring. rewrite EX. ring. }
  apply (Z.mul_le_mono_pos_r _ _ (sb e) PE). rewrite <- !K. apply Z.mul_le_mono_nonneg_r; [lia|exact B].
Qed.

(** [Y] is what a correct reader makes of the text *)
Theorem C168_doubles_17 : forall X X' D q D' q' Y, is_signed X -> is_signed X' -> shown_s 17 X D q -> shown_s 17 X' D' q' ->
  taken_s D q Y -> gtext 17 D q = gtext 17 D' q' -> X = X'.
Proof.
  intros X X' D q D' q' Y SX SX' SH SH' TK E.
  destruct (C167_double 17 X D q ltac:(auto) SX SH) as (_ & m & e & J & LE & ED).
  destruct (C167_double 17 X' D' q' ltac:(auto) SX' SH') as (_ & m' & e' & J' & LE' & ED').
  rewrite E in J. destruct (json_number_one _ _ _ _ _ J J') as (<- & <-).
  rewrite <- (C138_signed_17 X D q Y SX SH TK). apply (C138_signed_17 X' D' q' Y SX' SH').
  rewrite ED'. apply taken_scaled; [exact LE'|]. apply (taken_same m e q Y LE). rewrite <- ED. exact TK.
Qed.
Print Assumptions C168_doubles_17.
(** 0.5; and the two doubles that share the text 0.3 have different texts of 17 digits *)
Example C168_doubles_17_ex : is_signed (2 ^ 1073) /\ shown_s 17 (2 ^ 1073) (5 * 10 ^ 16) (-17) /\ taken_s (5 * 10 ^ 16) (-17) (2 ^ 1073) /\
  gtext 17 (5 * 10 ^ 16) (-17) = [48; 46; 53] /\
  gtext 15 (3 * 10 ^ 14) (-15) = [48; 46; 51] /\ gtext 17 30000000000000004 (-17) <> gtext 17 29999999999999999 (-17).
Proof.
  assert (S : is_signed (2 ^ 1073)) by (exists 1, 1073; split; [split; [lia|reflexivity]|split; [lia|reflexivity]]).
  split; [exact S|]. split; [left; split; [reflexivity|]; split; [vm_compute; split; discriminate|]; split; vm_compute; discriminate|].
  split; [|split; [|split]; vm_compute; [reflexivity|reflexivity|discriminate]].
  split; [exact S|]. intros W _. replace (Z.abs (5 * 10 ^ 16 * sc (-17) - 2 ^ 1073 * sb (-17))) with 0 by (vm_compute; reflexivity). apply Z.abs_nonneg.
Qed.

(** a double with the text of an int is that int *)
Theorem C168_doubles_int : forall v X D q, - INT_MAX - 1 <= v <= INT_MAX -> is_signed X -> shown_s 17 X D q ->
  itext v = gtext 17 D q -> X = v * 2 ^ 1074.
Proof.
  intros v X D q B SX SH E. destruct (C167_int v B) as (_ & J). destruct (C167_double 17 X D q ltac:(auto) SX SH) as (_ & m & e & J' & LE & ED).
  rewrite E in J. destruct (json_number_one _ _ _ _ _ J J') as (<- & <-). symmetry. apply (C138_signed_17 X D q _ SX SH).
  rewrite ED. apply taken_scaled; [exact LE|]. split.
  - unfold is_signed. exists (Z.abs v), 1074. change INT_MAX with 2147483647 in B. change (2 ^ 53) with 9007199254740992.
    split; [lia|]. split; [lia|]. rewrite Z.abs_mul. f_equal.
  - intros W _. unfold sc, sb. change (10 ^ Z.max 0 0) with 1. change (10 ^ Z.max 0 (- 0)) with 1.
    replace (v * (1 * 2 ^ 1074) - v * 2 ^ 1074 * 1) with 0 by ring. apply Z.abs_nonneg.
Qed.
Print Assumptions C168_doubles_int.
(** -7 *)
Example C168_doubles_int_ex : is_signed (-7 * 2 ^ 1074) /\ shown_s 17 (-7 * 2 ^ 1074) (-7 * 10 ^ 16) (-16) /\ itext (-7) = gtext 17 (-7 * 10 ^ 16) (-16).
Proof.
  split; [exists 7, 1074; split; [split; [lia|reflexivity]|split; [lia|reflexivity]]|].
  split; [|vm_compute; reflexivity]. right. split; [reflexivity|]. split; [vm_compute; split; discriminate|]. split; vm_compute; discriminate.
Qed.
