(** * C111: the date and log texts name the moment *)
From Coq Require Import String.
From Verif Require Import Base Str_Spec Meta_Model S5_Model Http_Model Http_Spec Http_Props Send_Model.
From Verif Require Import Web_Spec Web_Model Web_Proofs Web_Props Web_Session_Props Web_Answer_Props.
From Verif Require Import Time_Model Time_Spec.
Open Scope Z_scope.
Local Arguments Z.add : simpl never.
Local Arguments Z.sub : simpl never.
Local Arguments Z.mul : simpl never.
Local Arguments Z.div : simpl never.
Local Arguments Z.modulo : simpl never.
Local Arguments zlen : simpl never.

(** ** What gmtime_r and localtime_r promise (POSIX) *)
(** [g] is the broken-down UTC time of second [s] *)
Definition gm_of (s : Z) (g : tm) : Prop :=
  let y := t_year g + 1900 in let n := day_number y (t_mon g + 1) (t_mday g) in
  0 <= t_mon g <= 11 /\ 1 <= t_mday g <= month_days y (t_mon g + 1) /\
  0 <= t_hour g <= 23 /\ 0 <= t_min g <= 59 /\ 0 <= t_sec g <= 59 /\
  t_wday g = weekday n /\ s = 86400 * n + 3600 * t_hour g + 60 * t_min g + t_sec g.
(** the members are in the ranges of the standard (a leap second is possible) *)
Definition tm_ok (l : tm) : Prop :=
  0 <= t_mon l <= 11 /\ 1 <= t_mday l <= 31 /\ 0 <= t_hour l <= 23 /\ 0 <= t_min l <= 59 /\ 0 <= t_sec l <= 60.
(** any values of the type *)
Definition is_int (n : Z) : Prop := - 2 ^ 31 <= n < 2 ^ 31.
Definition tm_any (l : tm) : Prop :=
  is_int (t_mon l) /\ is_int (t_mday l) /\ is_int (t_hour l) /\ is_int (t_min l) /\ is_int (t_sec l) /\ is_int (t_year l).

(** ** Numbers *)
Fixpoint fixd (k : nat) (n : Z) : list Z :=
  match k with O => [] | S k => fixd k (n / 10) ++ [48 + n mod 10] end.
Lemma zlen_fixd k n : zlen (fixd k n) = Z.of_nat k.
Proof.
  revert n. induction k as [|k IH]; intros n; [reflexivity|]. cbn [fixd]. rewrite zlen_app, IH.
  change (zlen [48 + n mod 10]) with 1. lia.
Qed.
Lemma digits_len f n : zlen (digits_of f n) <= Z.of_nat f.
Proof.
  revert n. induction f as [|f IH]; intros n; [reflexivity|]. cbn [digits_of].
  destruct (n <? 10); [change (zlen [48 + n]) with 1; lia|]. rewrite zlen_app. change (zlen [48 + n mod 10]) with 1.
  specialize (IH (n / 10)). lia.
Qed.
Lemma digits_short k f n : 0 <= n < 10 ^ Z.of_nat k -> (0 < k)%nat -> zlen (digits_of f n) <= Z.of_nat k.
Proof.
  revert f n. induction k as [|k IH]; intros f n B P; [lia|]. destruct f as [|f]; [cbn; change (zlen (@nil Z)) with 0; lia|].
  cbn [digits_of]. destruct (Z.ltb_spec n 10); [change (zlen [48 + n]) with 1; lia|].
  rewrite zlen_app. change (zlen [48 + n mod 10]) with 1.
  rewrite Nat2Z.inj_succ, Z.pow_succ_r in B by lia.
  destruct k as [|k]; [cbn in B; lia|].
  assert (D : 0 <= n / 10 < 10 ^ Z.of_nat (S k)) by (split; [apply Z.div_pos; lia|apply Z.div_lt_upper_bound; lia]).
  specialize (IH f (n / 10) D ltac:(lia)). lia.
Qed.
Lemma pad_fixd k f n : (0 < k <= f)%nat -> 0 <= n < 10 ^ Z.of_nat k ->
  zrepeat 48 (Z.of_nat k - zlen (digits_of f n)) ++ digits_of f n = fixd k n.
Proof.
  revert f n. induction k as [|k IH]; intros f n F B; [lia|]. destruct f as [|f]; [lia|].
  cbn [digits_of]. destruct (Z.ltb_spec n 10) as [L|L].
  - change (zlen [48 + n]) with 1. replace (Z.of_nat (S k) - 1) with (Z.of_nat k) by lia.
    cbn [fixd]. rewrite Z.mod_small by lia. f_equal. rewrite Z.div_small by lia.
    clear. unfold zrepeat. rewrite Nat2Z.id. induction k as [|k IH]; [reflexivity|]. cbn [fixd].
    change (0 / 10) with 0. change (0 mod 10) with 0. rewrite <- IH. change (48 + 0) with 48.
    clear. induction k; [reflexivity|]. cbn. f_equal. exact IHk.
  - rewrite Nat2Z.inj_succ, Z.pow_succ_r in B by lia. destruct k as [|k]; [cbn in B; lia|].
    assert (D : 0 <= n / 10 < 10 ^ Z.of_nat (S k)) by (split; [apply Z.div_pos; lia|apply Z.div_lt_upper_bound; lia]).
    cbn [fixd]. rewrite app_assoc. f_equal. rewrite zlen_app. change (zlen [48 + n mod 10]) with 1.
    change (fixd k (n / 10 / 10) ++ [48 + (n / 10) mod 10]) with (fixd (S k) (n / 10)).
    rewrite <- (IH f (n / 10)) by lia. f_equal. f_equal. lia.
Qed.
Lemma fmt_fixd k n : (0 < k <= 20)%nat -> 0 <= n < 10 ^ Z.of_nat k -> fmt_0d (Z.of_nat k) n = fixd k n.
Proof. intros K B. unfold fmt_0d. destruct (Z.ltb_spec n 0); [lia|]. apply pad_fixd; lia. Qed.

Lemma read_num_app a l1 l2 : read_num a (l1 ++ l2) = match read_num a l1 with Some b => read_num b l2 | None => None end.
Proof.
  revert a. induction l1 as [|c l IH]; intros a; [reflexivity|]. cbn. destruct ((48 <=? c) && (c <=? 57)); [apply IH|reflexivity].
Qed.
Lemma read_fixd k n : 0 <= n < 10 ^ Z.of_nat k -> read_num 0 (fixd k n) = Some n.
Proof.
  revert n. induction k as [|k IH]; intros n B; [cbn in B; cbn; f_equal; lia|].
  rewrite Nat2Z.inj_succ, Z.pow_succ_r in B by lia. cbn [fixd]. rewrite read_num_app, IH.
  - cbn [read_num]. pose proof (Z.mod_pos_bound n 10 ltac:(lia)).
    destruct (Z.leb_spec 48 (48 + n mod 10)); [|lia]. destruct (Z.leb_spec (48 + n mod 10) 57); [|lia]. cbn [andb].
    f_equal. rewrite (Z.div_mod n 10) at 3 by lia. lia.
  - split; [apply Z.div_pos; lia|apply Z.div_lt_upper_bound; lia].
Qed.
Lemma fmt2 n : 0 <= n <= 99 -> exists a b, fmt_0d 2 n = [a; b] /\ read_num 0 [a; b] = Some n.
Proof. intros B. change 2 with (Z.of_nat 2). rewrite fmt_fixd by lia. rewrite <- (read_fixd 2 n) by (cbn; lia). cbn. eauto. Qed.
Lemma fmt3 n : 0 <= n <= 999 -> exists a b c, fmt_0d 3 n = [a; b; c] /\ read_num 0 [a; b; c] = Some n.
Proof. intros B. change 3 with (Z.of_nat 3). rewrite fmt_fixd by (cbn; lia). rewrite <- (read_fixd 3 n) by (cbn; lia). cbn. eauto. Qed.
Lemma fmt4 n : 0 <= n <= 9999 -> exists a b c d, fmt_0d 4 n = [a; b; c; d] /\ read_num 0 [a; b; c; d] = Some n.
Proof. intros B. change 4 with (Z.of_nat 4). rewrite fmt_fixd by (cbn; lia). rewrite <- (read_fixd 4 n) by (cbn; lia). cbn. eauto 6. Qed.

(** ** Names *)
Lemma week_name w : 0 <= w <= 6 -> exists a b c, zget arr_week w = Some [a; b; c] /\ index_of day_names [a; b; c] = Some w.
Proof.
  intros B. assert (C : w = 0 \/ w = 1 \/ w = 2 \/ w = 3 \/ w = 4 \/ w = 5 \/ w = 6) by lia.
  repeat (destruct C as [-> | C]; [do 3 eexists; split; reflexivity|]). subst. do 3 eexists; split; reflexivity.
Qed.
Lemma month_name m : 0 <= m <= 11 -> exists a b c, zget arr_month m = Some [a; b; c] /\ index_of month_names [a; b; c] = Some m.
Proof.
  intros B.
  assert (C : m = 0 \/ m = 1 \/ m = 2 \/ m = 3 \/ m = 4 \/ m = 5 \/ m = 6 \/ m = 7 \/ m = 8 \/ m = 9 \/ m = 10 \/ m = 11) by lia.
  repeat (destruct C as [-> | C]; [do 3 eexists; split; reflexivity|]). subst. do 3 eexists; split; reflexivity.
Qed.

Lemma month_days_31 y m : 28 <= month_days y m <= 31.
Proof. unfold month_days. destruct (m =? 2), (leap y), ((m =? 4) || (m =? 6) || (m =? 9) || (m =? 11)); lia. Qed.

Lemma imf_of g s : gm_of s g -> 0 <= t_year g + 1900 <= 9999 ->
  exists t, gmt_text g = Ok t /\ read_imf t = Some s /\ zlen t = 29.
Proof.
  intros (BM & BD & BH & BI & BS & EW & ES) BY. pose proof (month_days_31 (t_year g + 1900) (t_mon g + 1)).
  unfold gmt_text.
  destruct (week_name (t_wday g)) as (w1 & w2 & w3 & W & RW).
  { rewrite EW. unfold weekday. pose proof (Z.mod_pos_bound (day_number (t_year g + 1900) (t_mon g + 1) (t_mday g) + 4) 7 ltac:(lia)). lia. }
  destruct (month_name (t_mon g) BM) as (m1 & m2 & m3 & M & RM).
  destruct (fmt2 (t_mday g) ltac:(lia)) as (d1 & d2 & D & RD).
  destruct (fmt4 (t_year g + 1900) BY) as (y1 & y2 & y3 & y4 & Y & RY).
  destruct (fmt2 (t_hour g) ltac:(lia)) as (h1 & h2 & H1 & RH).
  destruct (fmt2 (t_min g) ltac:(lia)) as (i1 & i2 & I & RI).
  destruct (fmt2 (t_sec g) ltac:(lia)) as (e1 & e2 & E & RE).
  rewrite W, M, D, Y, H1, I, E. cbn [of_opt bind]. eexists. split; [reflexivity|]. split; [|reflexivity].
  cbn [app str String.list_ascii_of_string map Ascii.N_of_ascii Ascii.N_of_digits Z.of_N].
  match goal with |- read_imf ?l = _ =>
    change l with [w1; w2; w3; 44; 32; d1; d2; 32; m1; m2; m3; 32; y1; y2; y3; y4; 32; h1; h2; 58; i1; i2; 58; e1; e2; 32; 71; 77; 84] end.
  unfold read_imf. change (str ",    :: GMT") with [44; 32; 32; 32; 32; 58; 58; 32; 71; 77; 84].
  destruct (list_eq_dec Z.eq_dec [44; 32; 32; 32; 32; 58; 58; 32; 71; 77; 84] [44; 32; 32; 32; 32; 58; 58; 32; 71; 77; 84]) as [_|X]; [|contradiction].
  rewrite RW, RD, RM, RY, RH, RI, RE. cbv zeta.
  destruct (Z.leb_spec 1 (t_mday g)); [|lia]. destruct (Z.leb_spec (t_mday g) (month_days (t_year g + 1900) (t_mon g + 1))); [|lia].
  destruct (Z.leb_spec (t_hour g) 23); [|lia]. destruct (Z.leb_spec (t_min g) 59); [|lia]. destruct (Z.leb_spec (t_sec g) 59); [|lia].
  rewrite EW, Z.eqb_refl. cbn [andb]. f_equal. symmetry. exact ES.
Qed.

Lemma as_int_small n : 0 <= n < 2 ^ 31 -> as_int n = n.
Proof. intros B. unfold as_int. rewrite Z.mod_small by lia. lia. Qed.

Lemma log_of l ms : tm_ok l -> 0 <= t_year l + 1900 -> 0 <= ms <= 999 ->
  read_log (log_text l ms) = Some ((t_year l + 1900) mod 1000 + 2000, t_mon l + 1, t_mday l, (t_hour l, t_min l, t_sec l, ms)) /\
  zlen (log_text l ms) = 23.
Proof.
  intros (BM & BD & BH & BI & BS) BY BF. unfold log_text.
  rewrite !Z.rem_mod_nonneg by lia. pose proof (Z.mod_pos_bound (t_year l + 1900) 1000 ltac:(lia)).
  rewrite (Z.mod_small (t_mon l + 1)), (Z.mod_small (t_mday l)), (Z.mod_small (t_hour l)), (Z.mod_small (t_min l)), (Z.mod_small (t_sec l)) by lia.
  rewrite !as_int_small by lia.
  destruct (fmt4 ((t_year l + 1900) mod 1000 + 2000) ltac:(lia)) as (y1 & y2 & y3 & y4 & Y & RY).
  destruct (fmt2 (t_mon l + 1) ltac:(lia)) as (m1 & m2 & M & RM).
  destruct (fmt2 (t_mday l) ltac:(lia)) as (d1 & d2 & D & RD).
  destruct (fmt2 (t_hour l) ltac:(lia)) as (h1 & h2 & H1 & RH).
  destruct (fmt2 (t_min l) ltac:(lia)) as (i1 & i2 & I & RI).
  destruct (fmt2 (t_sec l) ltac:(lia)) as (e1 & e2 & E & RE).
  destruct (fmt3 ms ltac:(lia)) as (f1 & f2 & f3 & F & RF).
  rewrite Y, M, D, H1, I, E, F. split; [|reflexivity].
  match goal with |- read_log ?x = _ =>
    change x with [y1; y2; y3; y4; 47; m1; m2; 47; d1; d2; 32; h1; h2; 58; i1; i2; 58; e1; e2; 46; f1; f2; f3] end.
  unfold read_log. change (str "// ::.") with [47; 47; 32; 58; 58; 46].
  destruct (list_eq_dec Z.eq_dec [47; 47; 32; 58; 58; 46] [47; 47; 32; 58; 58; 46]) as [_|X]; [|contradiction].
  rewrite RY, RM, RD, RH, RI, RE, RF. reflexivity.
Qed.

(** ** The texts have no NUL and no line end *)
Definition printing (c : Z) : Prop := 32 <= c <= 126.
Lemma read_num_printing a l n : read_num a l = Some n -> Forall printing l.
Proof.
  revert a. induction l as [|c l IH]; intros a H; [apply Forall_nil|]. cbn in H.
  destruct (Z.leb_spec 48 c); cbn [andb] in H; [|discriminate]. destruct (Z.leb_spec c 57); [|discriminate].
  apply Forall_cons; [unfold printing; lia|]. eapply IH, H.
Qed.
Lemma index_in names x i : index_of names x = Some i -> In x names.
Proof.
  revert i. induction names as [|y r IH]; intros i H; [discriminate|]. cbn in H.
  destruct (list_eq_dec Z.eq_dec y x) as [->|_]; [left; reflexivity|]. destruct (index_of r x) as [j|]; [|discriminate].
  right. eapply IH. reflexivity.
Qed.
Lemma names_printing x i : index_of day_names x = Some i \/ index_of month_names x = Some i -> Forall printing x.
Proof.
  intros H. assert (I : In x (day_names ++ month_names)) by (apply in_or_app; destruct H as [H|H]; apply index_in in H; auto).
  clear H. revert x I. apply (proj1 (Forall_forall (fun x => Forall printing x) (day_names ++ month_names))).
  apply Forall_forall. intros x I.
  assert (B : forallb (forallb (fun c => (32 <=? c) && (c <=? 126))) (day_names ++ month_names) = true) by reflexivity.
  rewrite forallb_forall in B. specialize (B x I). rewrite forallb_forall in B. apply Forall_forall. intros c J.
  specialize (B c J). unfold printing. lia.
Qed.
Lemma imf_printing t s : read_imf t = Some s -> Forall printing t.
Proof.
  unfold read_imf. do 29 (destruct t as [|? t]; [discriminate|]). destruct t; [|discriminate].
  destruct (list_eq_dec Z.eq_dec _ _) as [E|]; [|discriminate].
  change (str ",    :: GMT") with [44; 32; 32; 32; 32; 58; 58; 32; 71; 77; 84] in E. injection E as -> -> -> -> -> -> -> -> -> -> ->.
  destruct (index_of day_names _) eqn:A1; [|discriminate]. destruct (read_num 0 _) eqn:A2 in |- *; [|discriminate].
  destruct (index_of month_names _) eqn:A3; [|discriminate]. destruct (read_num 0 _) eqn:A4 in |- *; [|discriminate].
  destruct (read_num 0 _) eqn:A5 in |- *; [|discriminate]. destruct (read_num 0 _) eqn:A6 in |- *; [|discriminate].
  destruct (read_num 0 _) eqn:A7 in |- *; [|discriminate]. intros _.
  pose proof (names_printing _ _ (or_introl A1)) as P1. pose proof (names_printing _ _ (or_intror A3)) as P3.
  apply read_num_printing in A2, A4, A5, A6, A7.
  repeat match goal with H : Forall printing (_ :: _) |- _ => inversion H; clear H; subst end.
  repeat (apply Forall_cons; [first [assumption|unfold printing; lia]|]). apply Forall_nil.
Qed.
Lemma log_printing t v : read_log t = Some v -> Forall printing t.
Proof.
  unfold read_log. do 23 (destruct t as [|? t]; [discriminate|]). destruct t; [|discriminate].
  destruct (list_eq_dec Z.eq_dec _ _) as [E|]; [|discriminate].
  change (str "// ::.") with [47; 47; 32; 58; 58; 46] in E. injection E as -> -> -> -> -> ->.
  destruct (read_num 0 _) eqn:A1 in |- *; [|discriminate]. destruct (read_num 0 _) eqn:A2 in |- *; [|discriminate].
  destruct (read_num 0 _) eqn:A3 in |- *; [|discriminate]. destruct (read_num 0 _) eqn:A4 in |- *; [|discriminate].
  destruct (read_num 0 _) eqn:A5 in |- *; [|discriminate]. destruct (read_num 0 _) eqn:A6 in |- *; [|discriminate].
  destruct (read_num 0 _) eqn:A7 in |- *; [|discriminate]. intros _.
  apply read_num_printing in A1, A2, A3, A4, A5, A6, A7.
  repeat match goal with H : Forall printing (_ :: _) |- _ => inversion H; clear H; subst end.
  repeat (apply Forall_cons; [first [assumption|unfold printing; lia]|]). apply Forall_nil.
Qed.
Lemma cstring_zeros n : cstring (repeat 0 n) = [].
Proof. destruct n; reflexivity. Qed.
Lemma cstring_text t n : Forall printing t -> cstring (t ++ zrepeat 0 n) = t.
Proof.
  intros P. induction P as [|c t B P IH]; [apply cstring_zeros|]. cbn [app cstring].
  destruct (Z.eqb_spec c 0); [unfold printing in B; lia|]. f_equal. exact IH.
Qed.
Lemma printing_no_crlf t : Forall printing t -> no_crlf t.
Proof. intros P. rewrite Forall_forall in P. split; intros I; apply P in I; unfold printing in I; lia. Qed.

(** ** Bounds for any values *)
Lemma fmt_0d_len w n : - 10 ^ 10 < n < 10 ^ 10 -> 0 <= w <= 4 -> zlen (fmt_0d w n) <= 11.
Proof.
  intros B W. unfold fmt_0d.
  assert (D : forall m, 0 <= m < 10 ^ 10 -> 0 <= zlen (digits_of 20 m) <= 10).
  { intros m X. pose proof (digits_short 10 20 m) as Y. change (Z.of_nat 10) with 10 in Y. specialize (Y X ltac:(lia)). pose proof (zlen_nonneg (digits_of 20 m)). lia. }
  destruct (Z.ltb_spec n 0).
  - specialize (D (- n) ltac:(lia)). rewrite zlen_cons, zlen_app.
    destruct (Z.le_gt_cases 0 (w - 1 - zlen (digits_of 20 (- n)))) as [P|P].
    + rewrite zlen_zrepeat by lia. lia.
    + unfold zrepeat. replace (Z.to_nat (w - 1 - zlen (digits_of 20 (- n)))) with O by lia. change (zlen (repeat 48 0)) with 0. lia.
  - specialize (D n ltac:(lia)). rewrite zlen_app. destruct (Z.le_gt_cases 0 (w - zlen (digits_of 20 n))) as [P|P].
    + rewrite zlen_zrepeat by lia. lia.
    + unfold zrepeat. replace (Z.to_nat (w - zlen (digits_of 20 n))) with O by lia. change (zlen (repeat 48 0)) with 0. lia.
Qed.
Lemma as_int_range n : - 10 ^ 10 < as_int n < 10 ^ 10.
Proof. unfold as_int. pose proof (Z.mod_pos_bound (n + 2 ^ 31) (2 ^ 32) ltac:(lia)). lia. Qed.
Lemma log_short l ms : 0 <= ms <= 999 -> zlen (log_text l ms) <= 127.
Proof.
  intros B. unfold log_text. rewrite !zlen_app. change (zlen (str "/")) with 1. change (zlen (str ":")) with 1.
  change (zlen (str " ")) with 1. change (zlen (str ".")) with 1.
  repeat match goal with |- context [zlen (fmt_0d ?w (as_int ?n))] =>
    let H := fresh in pose proof (fmt_0d_len w (as_int n) (as_int_range n) ltac:(lia)) as H; revert H; generalize (zlen (fmt_0d w (as_int n))); intros end.
  pose proof (fmt_0d_len 3 ms ltac:(lia) ltac:(lia)). lia.
Qed.
Lemma gmt_short g t : tm_any g -> gmt_text g = Ok t -> zlen t <= 127.
Proof.
  intros (BM & BD & BH & BI & BS & BY). unfold gmt_text, is_int in *.
  destruct (zget arr_week (t_wday g)) as [w|] eqn:W; [|discriminate]. cbn [of_opt bind].
  destruct (zget arr_month (t_mon g)) as [m|] eqn:M; [|discriminate]. cbn [of_opt bind]. intros [= <-].
  assert (LW : zlen w = 3).
  { apply zget_In in W. revert w W. apply (proj1 (Forall_forall (fun w => zlen w = 3) arr_week)). repeat (apply Forall_cons; [reflexivity|]). apply Forall_nil. }
  assert (LM : zlen m = 3).
  { apply zget_In in M. revert m M. apply (proj1 (Forall_forall (fun w => zlen w = 3) arr_month)). repeat (apply Forall_cons; [reflexivity|]). apply Forall_nil. }
  repeat (rewrite zlen_app || rewrite zlen_cons). change (zlen (str " GMT")) with 4. rewrite LW, LM.
  pose proof (fmt_0d_len 2 (t_mday g) ltac:(lia) ltac:(lia)). pose proof (fmt_0d_len 4 (t_year g + 1900) ltac:(lia) ltac:(lia)).
  pose proof (fmt_0d_len 2 (t_hour g) ltac:(lia) ltac:(lia)). pose proof (fmt_0d_len 2 (t_min g) ltac:(lia) ltac:(lia)).
  pose proof (fmt_0d_len 2 (t_sec g) ltac:(lia) ltac:(lia)). lia.
Qed.
Lemma sprint_ok t : zlen t <= 127 -> sprint128 t = Ok (t ++ zrepeat 0 (128 - zlen t)) /\ zlen (t ++ zrepeat 0 (128 - zlen t)) = 128.
Proof.
  intros L. unfold sprint128. destruct (Z.ltb_spec 127 (zlen t)); [lia|]. split; [reflexivity|].
  pose proof (zlen_nonneg t). rewrite zlen_app, zlen_zrepeat by lia. lia.
Qed.

(** ** Every second has its broken-down time *)
Lemma days_year y : days_before y 12 = if leap y then 366 else 365.
Proof. unfold days_before, month_days. cbn. destruct (leap y); reflexivity. Qed.
Lemma day_exists n : exists y m d, 1 <= m <= 12 /\ 1 <= d <= month_days y m /\ day_number y m d = Z.of_nat n.
Proof.
  induction n as [|n (y & m & d & BM & BD & E)].
  - exists 1970, 1, 1. split; [lia|]. split; [pose proof (month_days_31 1970 1); lia|reflexivity].
  - destruct (Z.lt_ge_cases d (month_days y m)) as [L|L].
    + exists y, m, (d + 1). split; [lia|]. split; [lia|]. unfold day_number in *. lia.
    + assert (d = month_days y m) as -> by lia. destruct (Z.lt_ge_cases m 12) as [M|M].
      * exists y, (m + 1), 1. split; [lia|]. split; [pose proof (month_days_31 y (m + 1)); lia|].
        unfold day_number in *. replace (Z.to_nat (m + 1 - 1)) with (S (Z.to_nat (m - 1))) by lia. cbn [days_before].
        replace (Z.of_nat (Z.to_nat (m - 1)) + 1) with m by lia. lia.
      * assert (m = 12) as -> by lia. exists (y + 1), 1, 1. split; [lia|]. split; [pose proof (month_days_31 (y + 1) 1); lia|].
        unfold day_number in *. rewrite new_year_next, <- (days_year y). change (Z.to_nat (12 - 1)) with 11%nat in E.
        assert (D : days_before y 12 = days_before y 11 + month_days y 12) by reflexivity.
        change (days_before (y + 1) (Z.to_nat (1 - 1))) with 0. rewrite D. clear D.
        revert E. generalize (days_before y 11), (month_days y 12), (new_year y). intros. lia.
Qed.
Lemma gm_exists s : 0 <= s -> exists g, gm_of s g.
Proof.
  intros P. destruct (day_exists (Z.to_nat (s / 86400))) as (y & m & d & BM & BD & E).
  rewrite Z2Nat.id in E by (apply Z.div_pos; lia).
  exists (mkTm (s mod 60) (s mod 3600 / 60) (s mod 86400 / 3600) d (m - 1) (y - 1900) (weekday (s / 86400))).
  unfold gm_of. cbn [t_sec t_min t_hour t_mday t_mon t_year t_wday].
  replace (y - 1900 + 1900) with y by ring. replace (m - 1 + 1) with m by ring. rewrite E.
  split; [lia|]. split; [lia|]. repeat split; Z.div_mod_to_equations; lia.
Qed.

(** ** C111: the Date text names the second of the last reading of the clock
    [g] is what gmtime_r answers for [sec]; nothing is assumed about the answer of
    localtime_r (any values of the types). The millisecond clock agrees with the text and
    neither buffer is overrun. *)
Theorem C111_date_text : forall sec usec g lo,
  gm_of sec g -> 0 <= t_year g + 1900 <= 9999 -> 0 <= usec < 1000000 ->
  exists k, systime_update sec usec (Some g) (Some lo) = Ok k /\
    read_imf (systime_gmt k) = Some sec /\ k_msec k = 1000 * sec + usec / 1000 /\
    zlen (k_gmt k) = 128 /\ zlen (k_log k) = 128.
Proof.
  intros sec usec g lo G BY BU. destruct (imf_of g sec G BY) as (t & ET & RT & LT).
  assert (BMS : 0 <= usec / 1000 <= 999) by (split; [apply Z.div_pos; lia|apply Z.lt_succ_r, Z.div_lt_upper_bound; lia]).
  unfold systime_update. cbn [of_opt bind]. rewrite ET. cbn [bind]. rewrite Z.quot_div_nonneg by lia.
  destruct (sprint_ok t ltac:(lia)) as (-> & L1). cbn [bind].
  destruct (sprint_ok (log_text lo (usec / 1000)) (log_short lo _ BMS)) as (-> & L2). cbn [bind].
  eexists. split; [reflexivity|]. cbn [k_msec k_gmt k_log]. unfold systime_gmt. cbn [k_gmt].
  rewrite cstring_text by (eapply imf_printing, RT). split; [exact RT|]. split; [lia|]. split; assumption.
Qed.
Print Assumptions C111_date_text.

Example C111_ex : exists k,
  gm_of 784111777 (mkTm 37 49 8 6 10 94 0) /\
  systime_update 784111777 123456 (Some (mkTm 37 49 8 6 10 94 0)) (Some (mkTm 37 49 16 6 10 94 0)) = Ok k /\
  systime_gmt k = str "Sun, 06 Nov 1994 08:49:37 GMT" /\ systime_log k = str "2994/11/06 16:49:37.123" /\
  k_msec k = 784111777123.
Proof. eexists. split; [vm_compute; repeat split; discriminate|]. split; [vm_compute; reflexivity|]. vm_compute. repeat split. Qed.

(** The hypothesis on [g] can be met for every second: the calendar has a date for it, so
    [C111_date_text] covers every second up to the end of the year 9999. *)
Theorem C111_every_second : forall s, 0 <= s -> exists g, gm_of s g.
Proof. exact gm_exists. Qed.
Print Assumptions C111_every_second.

(** nothing is written beyond the buffers whatever the members are, as long as day of the
    week and month are those of some date *)
Theorem C111_bounds : forall sec usec g lo, tm_any g -> 0 <= t_wday g <= 6 -> 0 <= t_mon g <= 11 -> 0 <= usec < 1000000 ->
  exists k, systime_update sec usec (Some g) (Some lo) = Ok k /\ zlen (k_gmt k) = 128 /\ zlen (k_log k) = 128.
Proof.
  intros sec usec g lo A W M BU.
  assert (BMS : 0 <= usec / 1000 <= 999) by (split; [apply Z.div_pos; lia|apply Z.lt_succ_r, Z.div_lt_upper_bound; lia]).
  destruct (gmt_text g) as [t|f|] eqn:E.
  - pose proof (gmt_short g t A E) as L. unfold systime_update. cbn [of_opt bind]. rewrite E. cbn [bind]. rewrite Z.quot_div_nonneg by lia.
    destruct (sprint_ok t L) as (-> & L1). cbn [bind].
    destruct (sprint_ok (log_text lo (usec / 1000)) (log_short lo _ BMS)) as (-> & L2). cbn [bind]. eauto 10.
  - exfalso. unfold gmt_text in E. destruct (week_name _ W) as (? & ? & ? & X & _). destruct (month_name _ M) as (? & ? & ? & Y & _).
    rewrite X, Y in E. discriminate.
  - exfalso. unfold gmt_text in E. destruct (week_name _ W) as (? & ? & ? & X & _). destruct (month_name _ M) as (? & ? & ? & Y & _).
    rewrite X, Y in E. discriminate.
Qed.
Print Assumptions C111_bounds.
Example C111_bounds_ex : tm_any (mkTm (- 2 ^ 31) (- 2 ^ 31) (- 2 ^ 31) (- 2 ^ 31) 11 (- 2 ^ 31) 6) /\
  exists k, systime_update 0 0 (Some (mkTm (- 2 ^ 31) (- 2 ^ 31) (- 2 ^ 31) (- 2 ^ 31) 11 (- 2 ^ 31) 6)) (Some (mkTm (- 2 ^ 31) 0 0 0 0 0 0)) = Ok k.
Proof. split; [vm_compute; repeat split; discriminate|]. eexists. vm_compute. reflexivity. Qed.

(** ** the log: right exactly in the years 2000 to 2999 *)
Definition right_log (lo : tm) (ms : Z) (t : list Z) : Prop :=
  read_log t = Some (t_year lo + 1900, t_mon lo + 1, t_mday lo, (t_hour lo, t_min lo, t_sec lo, ms)).
Theorem C111_log_exact : forall sec usec g lo k, tm_ok lo -> 0 <= t_year lo + 1900 -> 0 <= usec < 1000000 ->
  systime_update sec usec (Some g) (Some lo) = Ok k ->
  (right_log lo (usec / 1000) (systime_log k) <-> 2000 <= t_year lo + 1900 <= 2999).
Proof.
  intros sec usec g lo k OKL BY BU.
  assert (BMS : 0 <= usec / 1000 <= 999) by (split; [apply Z.div_pos; lia|apply Z.lt_succ_r, Z.div_lt_upper_bound; lia]).
  unfold systime_update. cbn [of_opt bind]. destruct (gmt_text g) as [t|f|]; [|discriminate|discriminate]. cbn [bind].
  destruct (sprint128 t) as [gb|f|]; [|discriminate|discriminate]. cbn [bind]. rewrite Z.quot_div_nonneg by lia.
  destruct (sprint_ok (log_text lo (usec / 1000)) (log_short lo _ BMS)) as (-> & L2). cbn [bind]. intros [= <-].
  destruct (log_of lo (usec / 1000) OKL BY BMS) as (R & _).
  unfold systime_log. cbn [k_log]. rewrite cstring_text by (eapply log_printing, R). unfold right_log. rewrite R.
  set (y := t_year lo + 1900) in *. assert (X : y mod 1000 + 2000 = y <-> 2000 <= y <= 2999) by (split; intros; Z.div_mod_to_equations; lia).
  rewrite <- X. split; [congruence|intros ->; reflexivity].
Qed.
Print Assumptions C111_log_exact.
(** a machine whose clock was not set yet (1 January 1970) logs the year 2970 *)
Theorem C111_log_refuted : exists sec usec g lo k, gm_of sec g /\ tm_ok lo /\ 0 <= usec < 1000000 /\
  systime_update sec usec (Some g) (Some lo) = Ok k /\ ~ right_log lo (usec / 1000) (systime_log k) /\
  systime_log k = str "2970/01/01 00:00:00.000".
Proof.
  exists 0, 0, (mkTm 0 0 0 1 0 70 4), (mkTm 0 0 0 1 0 70 4). eexists.
  split; [vm_compute; repeat split; discriminate|]. split; [vm_compute; repeat split; discriminate|]. split; [lia|].
  split; [vm_compute; reflexivity|]. split; [|vm_compute; reflexivity]. unfold right_log. vm_compute. discriminate.
Qed.
Print Assumptions C111_log_refuted.
Example C111_log_ex : exists k, systime_update 1700000000 999999 (Some (mkTm 20 13 22 14 10 123 2)) (Some (mkTm 20 13 6 15 10 123 3)) = Ok k /\
  systime_log k = str "2023/11/15 06:13:20.999" /\ systime_gmt k = str "Tue, 14 Nov 2023 22:13:20 GMT" /\ gm_of 1700000000 (mkTm 20 13 22 14 10 123 2).
Proof. eexists. split; [vm_compute; reflexivity|]. split; [vm_compute; reflexivity|]. split; [vm_compute; reflexivity|]. vm_compute; repeat split; discriminate. Qed.

(** ** over the rounds of the event loop: every answer carries the second of the last reading *)
Definition good_tick (t : tick) : Prop :=
  match t with
  | Tick s u g o => 0 <= u < 1000000 /\ (exists x, g = Some x /\ gm_of s x /\ 0 <= t_year x + 1900 <= 9999) /\ (exists y, o = Some y)
  | Answer => True
  end.
Fixpoint stamps (now : Z) (l : list tick) : list Z :=
  match l with [] => [] | Tick s _ _ _ :: r => stamps s r | Answer :: r => now :: stamps now r end.
Theorem C111_rounds : forall l k now, Forall good_tick l -> read_imf (systime_gmt k) = Some now ->
  exists ds, dates k l = Ok ds /\ Forall2 (fun d s => read_imf d = Some s) ds (stamps now l).
Proof.
  induction l as [|[s u g o|] l IH]; intros k now G R.
  - exists []. split; [reflexivity|constructor].
  - pose proof (Forall_inv G) as (BU & (x & -> & GX & BY) & (y & ->)). apply Forall_inv_tail in G. cbn [dates stamps].
    destruct (C111_date_text s u x y GX BY BU) as (k' & -> & R' & _). cbn [bind]. apply IH; assumption.
  - apply Forall_inv_tail in G. cbn [dates stamps]. destruct (IH k now G R) as (ds & -> & F). cbn [bind].
    eexists. split; [reflexivity|]. constructor; assumption.
Qed.
Print Assumptions C111_rounds.
Example C111_rounds_ex : exists k l ds, read_imf (systime_gmt k) = Some 0 /\ Forall good_tick l /\ dates k l = Ok ds /\
  ds = [str "Thu, 01 Jan 1970 00:00:00 GMT"; str "Tue, 14 Nov 2023 22:13:20 GMT"; str "Tue, 14 Nov 2023 22:13:20 GMT"].
Proof.
  exists (mkClock 0 (str "Thu, 01 Jan 1970 00:00:00 GMT" ++ [0]) [0]),
    [Answer; Tick 1700000000 5 (Some (mkTm 20 13 22 14 10 123 2)) (Some (mkTm 20 13 6 15 10 123 3)); Answer; Answer].
  eexists. split; [vm_compute; reflexivity|]. split.
  { apply Forall_cons; [exact I|]. apply Forall_cons; [|repeat (apply Forall_cons; [exact I|]); apply Forall_nil].
    split; [lia|]. split; [|eauto]. eexists. split; [reflexivity|]. vm_compute; repeat split; discriminate. }
  split; [vm_compute; reflexivity|reflexivity].
Qed.

(** ** in a response: the Date field of a file answer names the second of the reading *)
Theorem C111_response_dated : forall e q F ks rs fuel sec usec g lo k,
  small q -> Forall not_clen (rq_headers q) -> no_nul (e_home e) -> no_nul (e_index e) ->
  zlen (e_home e) <= 255 -> zlen (e_index e) <= 255 ->
  gm_of sec g -> 0 <= t_year g + 1900 <= 9999 -> 0 <= usec < 1000000 ->
  systime_update sec usec (Some g) (Some lo) = Ok k -> e_date e = systime_gmt k ->
  rq_method q = str "GET" -> wf_path (target_uri (rq_target q)) -> zlen (target_uri (rq_target q)) < 1024 ->
  target_uri (rq_target q) <> str "/echo" -> ~ occurs (str "../") (target_uri (rq_target q)) ->
  let p := full_path (e_home e) (e_index e) (target_uri (rq_target q)) in
  In 46 p -> e_fs e p = Node true (zlen F) true -> zlen F < 2 ^ 31 ->
  (Datatypes.length ks + Datatypes.length rs < fuel)%nat ->
  exists r m h b hs d st w,
    http_start 3 [RxData (print_req q)] = Ok (HComplete r m []) /\ handle web_apis e r m = Ok (ARespond [h] b) /\
    response_head 200 (mdata h) hs /\ In (str "Date", d) hs /\ read_imf d = Some sec /\
    send_body fuel b F ks rs = Ok (st, w) /\ (st = FFDone -> w = F).
Proof.
  intros e q F ks rs fuel sec usec g lo k SQ NC Nh Ni Lh Li G BY BU UP ED MG WP LU NA NO p IP FS LF FU.
  destruct (C111_date_text sec usec g lo G BY BU) as (k' & UP' & R & _). rewrite UP in UP'. injection UP' as <-.
  assert (FE : fair_env e).
  { unfold fair_env. rewrite ED. do 4 (split; [assumption|]). split; [apply printing_no_crlf; eapply imf_printing, R|].
    assert (L : zlen (systime_gmt k) = 29); [|lia].
    revert R. generalize (systime_gmt k). intros t. unfold read_imf. do 29 (destruct t as [|? t]; [discriminate|]). destruct t; [reflexivity|discriminate]. }
  destruct (C107_partial e q F ks rs fuel SQ NC FE MG WP LU NA NO IP FS LF FU) as (r & m & h & b & t & v & st & w & A & B & C & _ & _ & D & _ & E).
  exists r, m, h, b. do 4 eexists. split; [exact A|]. split; [exact B|]. split; [exact C|]. split; [unfold head_hdrs; cbn; right; left; reflexivity|].
  rewrite ED. split; [exact R|]. split; [exact D|exact E].
Qed.
Print Assumptions C111_response_dated.
(** the file of [C107_example] and the date of [C111_ex] (the date of [ex_env]) *)
Example C111_response_ex : exists k, gm_of 784111777 (mkTm 37 49 8 6 10 94 0) /\
  systime_update 784111777 0 (Some (mkTm 37 49 8 6 10 94 0)) (Some (mkTm 37 49 8 6 10 94 0)) = Ok k /\ e_date ex_env = systime_gmt k /\
  let q := getk (str "/docs/") in exists r m h b hs d, http_start 3 [RxData (print_req q)] = Ok (HComplete r m []) /\
    handle web_apis ex_env r m = Ok (ARespond [h] b) /\ response_head 200 (mdata h) hs /\ In (str "Date", d) hs /\ read_imf d = Some 784111777.
Proof.
  assert (G : gm_of 784111777 (mkTm 37 49 8 6 10 94 0)) by (vm_compute; repeat split; discriminate).
  eexists. split; [exact G|]. split; [vm_compute; reflexivity|]. split; [vm_compute; reflexivity|]. cbv zeta.
  destruct C107_example as (SQ & NC & WP & NO & FP & IP & FS & _). destruct ex_env_fair as (A1 & A2 & A3 & A4 & _).
  edestruct (C111_response_dated ex_env (getk (str "/docs/")) (zrepeat 65 1000) [] [] 3 784111777 0 (mkTm 37 49 8 6 10 94 0) (mkTm 37 49 8 6 10 94 0))
    as (r & m & h & b & hs & d & st & w & R1 & R2 & R3 & R4 & R5 & _); try eassumption.
  - vm_compute. split; discriminate.
  - lia.
  - vm_compute. reflexivity.
  - vm_compute. reflexivity.
  - reflexivity.
  - vm_compute. reflexivity.
  - vm_compute. discriminate.
  - vm_compute. reflexivity.
  - cbn. lia.
  - exists r, m, h, b, hs, d. auto.
Qed.
