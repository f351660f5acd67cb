(** * C168: different values are printed as different texts. *)
From Coq Require Import String.
From Verif Require Import Base Str_Spec Conf_Model Web_Model Json_Model Json_Spec Json_Proofs Json_Doc_Proofs Json_Props
  Jprint_Model Jprint_Spec Jprint_Proofs Jprint_Props Jdbl_Model Jdbl_Props Jsign_Model Jsign_Props Jdoc_Props.
From Verif Require Gtext_Model.
Open Scope Z_scope.
Local Arguments Z.add : simpl never.
Local Arguments Z.sub : simpl never.
Local Arguments Z.mul : simpl never.
Local Arguments Z.pow : simpl never.
Local Arguments zlen : simpl never.

(** a text of integers is a text of one value only, at any nesting: the depth the reader starts
    with may be any number *)
Lemma one_value n v v' t : docN integer n v t -> docN integer n v' t -> v = v'.
Proof.
  intros D D'. destruct (proj1 (read_all integer integer_number) _ _ _ D) as (j & _ & A & P).
  destruct (proj1 (read_all integer integer_number) _ _ _ D') as (j' & _ & A' & P').
  apply (proj1 plain_same) in A, A'. subst j j'.
  specialize (P (2 * length (t ++ [0%Z]) + 1)%nat (1000 - n) [0] ltac:(lia) eq_refl (le_n _)).
  specialize (P' (2 * length (t ++ [0%Z]) + 1)%nat (1000 - n) [0] ltac:(lia) eq_refl (le_n _)).
  rewrite P in P'. congruence.
Qed.
Lemma one_text dp fmt :
  (forall n j v, means n j v -> forall n' j', means n' j' v -> forall d, render dp fmt d j = render dp fmt d j') /\
  (forall n l vs, means_all n l vs -> forall n' l', means_all n' l' vs -> forall d, relems dp fmt d l = relems dp fmt d l') /\
  (forall n l vs, means_mem n l vs -> forall n' l', means_mem n' l' vs -> forall d, rmems dp fmt d l = rmems dp fmt d l').
Proof.
  apply means_ind3.
  - intros n n' j' M d. inversion M. reflexivity.
  - intros n b n' j' M d. inversion M. reflexivity.
  - intros n v _ n' j' M d. inversion M. reflexivity.
  - intros n o s C n' j' M d. inversion M as [| | |? o' ? C'| |]; subst. cbn [render].
    destruct (rstr_of o s C) as (-> & _). destruct (rstr_of o' s C') as (-> & _). reflexivity.
  - intros n l vs _ _ IH n' j' M d. inversion M as [| | | |? l' ? _ MA|]; subst. rewrite !render_arr, (IH _ _ MA). reflexivity.
  - intros n l vs _ _ IH n' j' M d. inversion M as [| | | | |? l' ? _ MA]; subst. rewrite !render_obj, (IH _ _ MA). reflexivity.
  - intros n n' l' M d. inversion M. reflexivity.
  - intros n j v l vs _ IHj MA IHl n' l' M d. inversion M as [|? j' ? l2 ? Mj Ml]; subst. cbn [relems]. rewrite (IHj _ _ Mj).
    specialize (IHl _ _ Ml d). destruct l as [|x l], l2 as [|y l2]; [reflexivity|inversion MA; subst; inversion Ml|inversion Ml; subst; inversion MA|].
    rewrite IHl. reflexivity.
  - intros n n' l' M d. inversion M. reflexivity.
  - intros n o k j v l vs C _ IHj MA IHl n' l' M d. inversion M as [|? o' ? j' ? l2 ? C' Mj Ml]; subst. cbn [rmems].
    destruct (rstr_of o k C) as (-> & _). destruct (rstr_of o' k C') as (-> & _). rewrite (IHj _ _ Mj).
    specialize (IHl _ _ Ml d). destruct l as [|x l], l2 as [|y l2]; [reflexivity|inversion MA; subst; inversion Ml|inversion Ml; subst; inversion MA|].
    rewrite IHl. reflexivity.
Qed.

(** whatever the form (tabs or not) and the locale of either text, at any nesting *)
Theorem C168_partial : forall dp dp' fmt fmt' re re' m m' j j' v v' n n' b l l', point dp -> point dp' ->
  means n j v -> means n' j' v' ->
  print dp re fmt m j = Ok (Some b, l) -> print dp' re' fmt' m' j' = Ok (Some b, l') -> v = v'.
Proof.
  intros dp dp' fmt fmt' re re' m m' j j' v v' n n' b l l' DP DP' M M' E E'.
  assert (MM : means (Z.max n n') j v) by (apply (proj1 means_le _ _ _ M); lia).
  assert (MM' : means (Z.max n n') j' v') by (apply (proj1 means_le _ _ _ M'); lia).
  destruct (proj1 means_wf _ _ _ M) as (W & _). destruct (proj1 means_wf _ _ _ M') as (W' & _).
  destruct (print_ok dp DP fmt j W re m) as (r & k & P & H & _). destruct (print_ok dp' DP' fmt' j' W' re' m') as (r' & k' & P' & H' & _).
  rewrite E in P. rewrite E' in P'. injection P as <- <-. injection P' as <- <-. destruct H as (_ & H). destruct H' as (_ & H').
  rewrite H in H'. apply app_inv_tail in H'.
  apply (one_value (Z.max n n') v v' (render dp fmt 0 j)); [exact (proj1 (text_doc dp DP fmt) _ _ _ MM 0)|].
  rewrite H'. exact (proj1 (text_doc dp' DP' fmt') _ _ _ MM' 0).
Qed.
Print Assumptions C168_partial.
(** and one value has one text in each form *)
Theorem C168_same_partial : forall dp fmt re re' m m' j j' v n n' b b' l l', point dp -> means n j v -> means n' j' v ->
  print dp re fmt m j = Ok (Some b, l) -> print dp re' fmt m' j' = Ok (Some b', l') -> b = b'.
Proof.
  intros dp fmt re re' m m' j j' v n n' b b' l l' DP M M' E E'.
  destruct (proj1 means_wf _ _ _ M) as (W & _). destruct (proj1 means_wf _ _ _ M') as (W' & _).
  destruct (print_ok dp DP fmt j W re m) as (r & k & P & H & _). destruct (print_ok dp DP fmt j' W' re' m') as (r' & k' & P' & H' & _).
  rewrite E in P. rewrite E' in P'. injection P as <- <-. injection P' as <- <-. destruct H as (_ & ->). destruct H' as (_ & ->).
  rewrite (proj1 (one_text dp fmt) _ _ _ M _ _ M' 0). reflexivity.
Qed.
Print Assumptions C168_same_partial.

(** an empty string may be a NULL pointer *)
Example ex_C168 : means 2 (PArr [PStr None; PNum (NInt 5)]) (JArr [JStr []; JNum 5]) /\ means 1 (PArr [PStr (Some []); PNum (NInt 5)]) (JArr [JStr []; JNum 5]) /\
  print 46 true true [] (PArr [PStr None; PNum (NInt 5)]) = Ok (Some (str "["""", 5]" ++ [0]), 1) /\
  print 46 true true [] (PArr [PStr (Some []); PNum (NInt 5)]) = Ok (Some (str "["""", 5]" ++ [0]), 1).
Proof.
  assert (I : - 2 ^ 31 < 5 < 2 ^ 31) by (split; reflexivity).
  assert (N : forall n, means_all n [PNum (NInt 5)] [JNum 5]) by (intros n; constructor; [apply m_int; exact I|constructor]).
  split; [|split; [|split; vm_compute; reflexivity]]; (apply m_arr; [lia|]); (constructor; [apply m_str|apply N]).
  - reflexivity.
  - split; [reflexivity|constructor].
Qed.

(** ** False of doubles: 0.1 + 0.2 and 0.3 are two numbers and one text *)
Theorem C168_refuted : exists rd X X' D q a a', X <> X' /\ shows rd X D q a /\ shows rd X' D q a' /\ a <> a' /\
  forall re fmt, print 46 re fmt [] (PNum a) = Ok (Some (str "0.3" ++ [0]), 1) /\ print 46 re fmt [] (PNum a') = Ok (Some (str "0.3" ++ [0]), 1).
Proof.
  assert (G : forall X D', 0 < X -> is_signed X -> shown_s 15 X (3 * 10 ^ 14) (-15) -> shown_s 17 X D' (-17) -> compare_double y03 X = true ->
    shows (fun _ _ => y03) X (3 * 10 ^ 14) (-15) (NDbl (str "0.3") true (Gtext_Model.gtext 17 D' (-17)))).
  { intros X D' P S A B C. change (str "0.3") with (Gtext_Model.gtext 15 (3 * 10 ^ 14) (-15)). apply sh_15; auto.
    destruct C138_signed_ex as (_ & _ & (T1 & T2) & _). split; [unfold is_signed in *; rewrite Z.abs_opp in T1; exact T1|].
    intros Y SY. specialize (T2 (- Y)). unfold is_signed in *. rewrite Z.abs_opp in T2. specialize (T2 SY).
    replace (- (3 * 10 ^ 14) * sc (-15) - - y03 * sb (-15)) with (- (3 * 10 ^ 14 * sc (-15) - y03 * sb (-15))) in T2 by ring.
    replace (- (3 * 10 ^ 14) * sc (-15) - - Y * sb (-15)) with (- (3 * 10 ^ 14 * sc (-15) - Y * sb (-15))) in T2 by ring.
    rewrite !Z.abs_opp in T2. exact T2. }
  assert (SX : is_signed x03) by (destruct C138_signed_ex as (A & _); unfold is_signed in *; rewrite Z.abs_opp in A; exact A).
  assert (SY : is_signed y03) by (destruct C138_signed_ex as (_ & _ & (A & _) & _); unfold is_signed in *; rewrite Z.abs_opp in A; exact A).
  exists (fun _ _ => y03), x03, y03, (3 * 10 ^ 14), (-15), (NDbl (str "0.3") true (Gtext_Model.gtext 17 30000000000000004 (-17))),
    (NDbl (str "0.3") true (Gtext_Model.gtext 17 29999999999999999 (-17))).
  split; [vm_compute; discriminate|]. split; [|split; [|split; [vm_compute; discriminate|]]].
  - apply G; [reflexivity|exact SX| | |vm_compute; reflexivity]; left; (split; [reflexivity|]); (split; [vm_compute; split; discriminate|]); split; vm_compute; discriminate.
  - apply G; [reflexivity|exact SY| | |vm_compute; reflexivity]; left; (split; [reflexivity|]); (split; [vm_compute; split; discriminate|]); split; vm_compute; discriminate.
  - intros [] []; split; vm_compute; reflexivity.
Qed.
Print Assumptions C168_refuted.
