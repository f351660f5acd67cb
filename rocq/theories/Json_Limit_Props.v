(** * C96: the documents that are not read: long numbers and deep nesting *)
From Coq Require Import String.
From Verif Require Import Base Str_Spec Conf_Model Json_Model Json_Spec Json_Proofs Json_Doc_Proofs Json_Cut_Proofs Json_Props.
Open Scope Z_scope.
Local Arguments Z.add : simpl never.
Local Arguments Z.sub : simpl never.
Local Arguments Z.mul : simpl never.
Local Arguments Z.pow : simpl never.
Local Arguments str : simpl never.

Lemma num_copy_len k : forall r, zlen (num_copy k r) <= Z.of_nat k.
Proof.
  induction k as [|k IH]; intros [|b r]; cbn [num_copy]; try (change (zlen (@nil Z)) with 0; lia).
  destruct (num_char b); [|change (zlen (@nil Z)) with 0; lia]. rewrite zlen_cons. specialize (IH r). lia.
Qed.

(** an array of one number of more than 63 characters, whatever its value *)
Theorem C96_refuted_long_number : forall t v, number t v -> 63 < zlen t -> json_parse ([91] ++ t ++ [93]) = Ok None.
Proof.
  intros t v N L.
  destruct (number_chars _ _ N) as (F & b0 & u0 & E0 & FST).
  assert (NZ : nz ([91] ++ t ++ [93])).
  { apply nz_app. split; [repeat constructor; lia|]. apply nz_app. split; [|repeat constructor; lia].
    unfold nz. eapply Forall_impl; [|exact F]. intros b B. intros ->. discriminate B. }
  destruct (json_parse_total ([91] ++ t ++ [93])) as (o & E). rewrite E. f_equal.
  unfold json_parse in E. rewrite (cut_id _ NZ) in E. cbv zeta in E.
  destruct t as [|b t]; [change (zlen (@nil Z)) with 0 in L; lia|].
  injection E0 as <- <-. cbn [app] in E. rewrite skip_bom_none in E by lia. rewrite skip_none in E by lia.
  apply bind_ok in E as (o1 & E1 & E2). injection E2 as <-.
  assert (o1 = None) as ->; [|reflexivity].
  remember (2 * length _ + 2)%nat as fu eqn:EF. clear EF. destruct fu as [|f]; [discriminate|].
  cbn [parse_value] in E1.
  destruct (not_lit 91 ((b :: t ++ [93]) ++ [0])) as (Q1 & Q2 & Q3); [lia|lia|lia|].
  cbn [app] in Q1, Q2, Q3. rewrite Q1, Q2, Q3 in E1. clear Q1 Q2 Q3.
  change (91 =? QUOTE) with false in E1. change ((91 =? 45) || digit 91) with false in E1. change (91 =? LBRACK) with true in E1.
  change (NESTING <=? 0) with false in E1. cbv iota in E1.
  pose proof (Forall_inv F) as FB. cbn beta in FB.
  assert (B32 : 32 < b) by (unfold num_char, digit in FB; lia).
  assert (BN : b <> 93) by (intros ->; discriminate FB).
  rewrite skip_none in E1 by exact B32.
  destruct (Z.eqb_spec b RBRACK) as [->|_]; [unfold RBRACK in BN; congruence|].
  apply bind_ok in E1 as (o2 & E2 & E1). injection E1 as <-. assert (o2 = None) as ->; [|reflexivity].
  destruct f as [|f]; [discriminate|]. cbn [elems] in E2. rewrite skip_none in E2 by exact B32.
  apply bind_ok in E2 as (o3 & E3 & E2).
  destruct o3 as [(j, r1)|]; [|injection E2 as <-; reflexivity].
  destruct f as [|f]; [discriminate|]. cbn [parse_value] in E3.
  assert (BL : b <> 110 /\ b <> 102 /\ b <> 116) by (repeat split; intros ->; discriminate FB). destruct BL as (L1 & L2 & L3).
  destruct (not_lit b ((t ++ [93]) ++ [0]) L1 L2 L3) as (Q1 & Q2 & Q3). rewrite Q1, Q2, Q3 in E3. clear Q1 Q2 Q3.
  assert (BQ : b =? QUOTE = false) by (apply Z.eqb_neq; unfold QUOTE; intros ->; discriminate FB).
  assert (BD : (b =? 45) || digit b = true) by (destruct FST as [-> | ->]; [reflexivity|apply orb_true_r]).
  rewrite BQ, BD in E3. unfold parse_number in E3.
  set (r := b :: (t ++ [93]) ++ [0]) in *.
  destruct (strtod (num_copy 63 r)) as [(v', n)|] eqn:SD; [|discriminate]. injection E3 as <- <-.
  apply strtod_used in SD. pose proof (num_copy_len 63 r) as NL. change (Z.of_nat 63) with 63 in NL.
  assert (ER : r = (b :: t) ++ [93; 0]) by (unfold r; rewrite <- app_assoc; reflexivity).
  rewrite ER in E2. rewrite zdrop_app_l in E2 by lia.
  assert (LN : 0 < zlen (zdrop n (b :: t))) by (rewrite zlen_zdrop by lia; lia).
  destruct (zdrop n (b :: t)) as [|c u] eqn:EU; [change (zlen (@nil Z)) with 0 in LN; lia|].
  assert (FC : num_char c = true).
  { apply (proj1 (Forall_forall _ _) F). rewrite <- (ztake_zdrop n (b :: t)). apply in_or_app. right. rewrite EU. left. reflexivity. }
  cbn [app] in E2. rewrite skip_none in E2 by (unfold num_char, digit in FC; lia).
  destruct (Z.eqb_spec c COMMA) as [->|_]; [discriminate FC|].
  destruct (Z.eqb_spec c RBRACK) as [->|_]; [discriminate FC|]. injection E2 as <-. reflexivity.
Qed.
Print Assumptions C96_refuted_long_number.

(** 0.333… with 64 digits: a number that any other reader takes *)
Example C96_long_number_ex : exists v, number (str "0." ++ zrepeat 51 64) v /\ 63 < zlen (str "0." ++ zrepeat 51 64) /\
  json_parse ([91] ++ (str "0." ++ zrepeat 51 64) ++ [93]) = Ok None /\
  json_parse ([91] ++ (str "0." ++ zrepeat 51 6) ++ [93]) = Ok (Some (JArr [JNum 0])).
Proof.
  exists 0. assert (N : number (str "0." ++ zrepeat 51 64) 0).
  { pose proof (num_pos [48] (46 :: zrepeat 51 64) (zrepeat 51 64) [] 0 0) as P. rewrite app_nil_r in P. apply P.
    - constructor.
    - constructor; [|discriminate]. apply Forall_forall. intros b Hb. apply repeat_spec in Hb. lia.
    - constructor.
    - split; [intros C; vm_compute in C; congruence|]. intros _. left. vm_compute. split; [discriminate|reflexivity]. }
  split; [exact N|]. split; [reflexivity|]. split; [apply (C96_refuted_long_number _ 0 N); reflexivity|vm_compute; reflexivity].
Qed.

(** [n] levels of nesting, and the value they stand for *)
Fixpoint deep (n : nat) : json := match n with O => JArr [] | S m => JArr [deep m] end.
Lemma deep_doc : forall n, doc (Z.of_nat (S n)) (deep n) (repeat 91 (S n) ++ repeat 93 (S n)).
Proof.
  induction n as [|n IH]; [apply (d_arr0 1 []); [lia|constructor]|].
  pose proof (@d_arr number (Z.of_nat (S (S n))) [deep n] ([] ++ (repeat 91 (S n) ++ repeat 93 (S n)) ++ [])) as P.
  cbn [deep]. replace (repeat 91 (S (S n)) ++ repeat 93 (S (S n))) with
    ([91] ++ ([] ++ (repeat 91 (S n) ++ repeat 93 (S n)) ++ []) ++ [93]).
  - apply P; [lia|]. apply ds_one; [constructor| |constructor]. replace (Z.of_nat (S (S n)) - 1) with (Z.of_nat (S n)) by lia. exact IH.
  - rewrite app_nil_r. cbn [app]. rewrite <- app_assoc. change [93] with (repeat 93 1). rewrite <- repeat_app.
    replace (S n + 1)%nat with (S (S n)) by lia. reflexivity.
Qed.
Theorem C96_refuted_deep : forall n, (1000 <= n)%nat ->
  exists j t, doc (Z.of_nat (S n)) j t /\ json_parse t = Ok None.
Proof.
  intros n N. exists (deep n), (repeat 91 (S n) ++ repeat 93 (S n)). split; [apply deep_doc|].
  pose proof (C95_nesting_refused (Z.of_nat (S n)) (repeat 93 (S n))) as R. unfold zrepeat in R. rewrite Nat2Z.id in R.
  apply R; [lia|]. intros H. apply repeat_spec in H. discriminate.
Qed.
Print Assumptions C96_refuted_deep.
Example C96_deep_ex : doc 3 (deep 2) (str "[[[]]]") /\ json_parse (str "[[[]]]") = Ok (Some (deep 2)).
Proof. split; [exact (deep_doc 2)|vm_compute; reflexivity]. Qed.
