(** * cJSON_Compare: supporting lemmas *)
From Verif Require Import Base Conf_Model Jdbl_Model Jcmp_Model Jcmp_Spec.
Open Scope Z_scope.

Fixpoint height (a : item) : nat :=
  match a with
  | IArr l => S (fold_right (fun x n => Nat.max (height x) n) O l)
  | IObj l => S (fold_right (fun p n => Nat.max (height (snd p)) n) O l)
  | _ => 1%nat
  end.
Lemma height_arr l x : In x l -> (height x < height (IArr l))%nat.
Proof.
  cbn [height]. induction l as [|y l IH]; intros []; cbn [fold_right]; [subst; lia|]. specialize (IH H). lia.
Qed.
Lemma height_obj l p : In p l -> (height (snd p) < height (IObj l))%nat.
Proof.
  cbn [height]. induction l as [|y l IH]; intros []; cbn [fold_right]; [subst; lia|]. specialize (IH H). lia.
Qed.

(** ** Numbers *)
Lemma near_sym a b : near a b -> near b a.
Proof. intros (x & y & -> & -> & H). exists y, x. repeat split. replace (y - x) with (- (x - y)) by lia. rewrite Z.abs_opp. lia. Qed.
Lemma is_double_big X : is_double X -> 2 ^ 105 <= X -> X mod 2 ^ 52 = 0.
Proof.
  intros (m & k & M & K & ->) B. assert (52 <= k).
  { destruct (Z.le_gt_cases 52 k) as [L|L]; [exact L|exfalso].
    assert (m * 2 ^ k < 2 ^ 53 * 2 ^ 52).
    { apply Z.le_lt_trans with (m * 2 ^ 52); [apply Z.mul_le_mono_nonneg_l; [lia|apply Z.pow_le_mono_r; lia]|apply Z.mul_lt_mono_pos_r; lia]. }
    change (2 ^ 53 * 2 ^ 52) with (2 ^ 105) in H. lia. }
  replace k with ((k - 52) + 52) by lia. rewrite Z.pow_add_r by lia. rewrite Z.mul_assoc. apply Z.mod_mul. lia.
Qed.
Lemma near_dbl a b : normal a -> normal b -> (dbl_eq a b = true <-> near a b).
Proof.
  intros (x & -> & DX & BX) (y & -> & DY & BY). cbn [dbl_eq]. unfold compare_double. rewrite Z.leb_le.
  set (m := Z.max (Z.abs x) (Z.abs y)).
  assert (E : m mod 2 ^ 52 = 0).
  { unfold m. destruct (Z.max_spec (Z.abs x) (Z.abs y)) as [(L & ->)|(L & ->)].
    - destruct BY as [->|BY]; [reflexivity|apply is_double_big; auto].
    - destruct BX as [->|BX]; [reflexivity|apply is_double_big; auto]. }
  assert (T : times_eps m = m / 2 ^ 52).
  { unfold times_eps. rewrite E. reflexivity. }
  rewrite T. pose proof (Z.div_mod m (2 ^ 52) ltac:(lia)) as DM. rewrite E in DM. split.
  - intros H. exists x, y. repeat split. fold m. lia.
  - intros (x' & y' & [= <-] & [= <-] & H). fold m in H. lia.
Qed.
Lemma whole_normal a : whole a -> normal a.
Proof.
  intros (n & N & ->). exists (n * 2 ^ 1074). split; [reflexivity|].
  assert (P : 0 < 2 ^ 969) by (apply Z.pow_pos_nonneg; lia). assert (E : 2 ^ 1074 = 2 ^ 969 * 2 ^ 105) by (rewrite <- Z.pow_add_r by lia; reflexivity).
  rewrite Z.abs_mul, (Z.abs_eq (2 ^ 1074)) by (apply Z.pow_nonneg; lia). split.
  - exists (Z.abs n), 1074. split; [|split; [lia|reflexivity]]. split; [lia|]. change (2 ^ 53) with (2 * 2 ^ 52). lia.
  - destruct (Z.eq_dec n 0) as [->|N0]; [left; reflexivity|right]. rewrite E. remember (2 ^ 969) as u. remember (2 ^ 105) as v.
    assert (0 < v) by (subst v; lia). nia.
Qed.
Lemma near_whole a b : whole a -> whole b -> (near a b <-> a = b).
Proof.
  intros (n & N & ->) (m & M & ->). assert (P : 0 < 2 ^ 1074) by (apply Z.pow_pos_nonneg; lia). remember (2 ^ 1074) as u eqn:U. clear U. split.
  - intros (x & y & [= <-] & [= <-] & H). f_equal. f_equal. replace (n * u - m * u) with ((n - m) * u) in H by ring.
    rewrite !Z.abs_mul, (Z.abs_eq u) in H by lia. rewrite Z.mul_max_distr_nonneg_r in H by lia. rewrite Z.mul_assoc in H.
    apply Z.mul_le_mono_pos_r in H; [|exact P]. remember (2 ^ 52) as v. destruct (Z.eq_dec n m) as [->|D]; [reflexivity|exfalso].
    assert (1 <= Z.abs (n - m)) by lia. assert (0 < v) by (subst v; lia). assert (v * 1 <= v * Z.abs (n - m)) by (apply Z.mul_le_mono_nonneg_l; lia). lia.
  - intros [= E]. exists (n * u), (m * u). repeat split. rewrite E, Z.sub_diag. change (2 ^ 52 * Z.abs 0) with 0. lia.
Qed.

(** ** Names *)
Lemma name_eq_spec cs a b : name_eq cs a b = true <-> key cs a = key cs b.
Proof. unfold name_eq, key. destruct cs; apply bseq_spec. Qed.
Lemma find_in cs n names : forall l, map fst l = map (@Some (list Z)) names -> forall v, find cs n l = Some v ->
  exists m, In (Some m, v) l /\ key cs n = key cs m.
Proof.
  induction names as [|m names IH]; intros [|(o & x) l] E v F; try discriminate.
  injection E as E0 E. cbn [fst] in E0. subst o. cbn [find] in F. destruct (name_eq cs n m) eqn:Q.
  - injection F as <-. exists m. split; [left; reflexivity|apply name_eq_spec, Q].
  - destruct (IH l E v F) as (m' & I0 & K). exists m'. split; [right; exact I0|exact K].
Qed.
Lemma find_got cs names : forall l, map fst l = map (@Some (list Z)) names -> NoDup (map (key cs) names) ->
  forall n m v, In (Some m, v) l -> key cs n = key cs m -> find cs n l = Some v.
Proof.
  induction names as [|k names IH]; intros [|(o & x) l] E ND n m v I0 K; try discriminate; [destruct I0|].
  injection E as E0 E. cbn [fst] in E0. subst o. inversion ND as [|? ? NI ND']; subst. cbn [find].
  destruct I0 as [[= -> ->]|I0].
  - rewrite (proj2 (name_eq_spec cs n m) K). reflexivity.
  - destruct (name_eq cs n k) eqn:Q; [exfalso|apply (IH l E ND' n m v I0 K)]. apply name_eq_spec in Q. apply NI. rewrite <- Q, K.
    apply in_map. assert (H : In (Some m) (map (@Some (list Z)) names)) by (rewrite <- E; apply in_map_iff; exists (Some m, v); auto).
    apply in_map_iff in H. destruct H as (z & [= ->] & Z0). exact Z0.
Qed.

(** ** Comparing *)
Section Cmp.
  Context (cs : bool).
  Lemma arr_ends f l : forall m, (forall x y, In x l -> In y m -> exists r c, compare f cs x y = Ok (r, c)) ->
    exists r c, arr (compare f cs) l m = Ok (r, c).
  Proof.
    induction l as [|x l IH]; intros [|y m] H; cbn [arr]; eauto.
    destruct (H x y (or_introl eq_refl) (or_introl eq_refl)) as (r & c & ->). cbn [bind fst snd]. destruct r; [|eauto].
    destruct (IH m) as (r & c' & ->); [intros; apply H; right; assumption|]. cbn [bind fst snd]. eauto.
  Qed.
  Lemma find_some n m y : find cs n m = Some y -> exists p, In p m /\ snd p = y.
  Proof.
    induction m as [|(o & x) m IH]; cbn [find]; [discriminate|]. intros F.
    assert (G : find cs n m = Some y -> exists p, In p ((o, x) :: m) /\ snd p = y).
    { intros F'. destruct (IH F') as (p & P & E). exists p. split; [right; exact P|exact E]. }
    destruct o as [k|]; [destruct (name_eq cs n k)|destruct cs]; auto; try discriminate.
    injection F as <-. exists (Some k, x). split; [left; reflexivity|reflexivity].
  Qed.
  Lemma obj_ends f m l : (forall p q, In p l -> In q m -> exists r c, compare f cs (snd p) (snd q) = Ok (r, c)) ->
    exists r c, obj (compare f cs) cs m l = Ok (r, c).
  Proof.
    induction l as [|(o & x) l IH]; intros H; cbn [obj]; eauto. destruct o as [n|]; [|eauto].
    destruct (find cs n m) as [y|] eqn:F; [|eauto]. destruct (find_some n m y F) as (q & Q & <-).
    destruct (H (Some n, x) q (or_introl eq_refl) Q) as (r & c & E). cbn [snd] in E. rewrite E. cbn [bind fst snd]. destruct r; [|eauto].
    destruct IH as (r & c' & ->); [intros; apply H; [right|]; assumption|]. cbn [bind fst snd]. eauto.
  Qed.
  Lemma compare_ends f : forall a b, (height a <= f)%nat -> (height b <= f)%nat -> exists r c, compare f cs a b = Ok (r, c).
  Proof.
    induction f as [|f IH]; intros a b HA HB; [destruct a; cbn [height] in HA; lia|].
    destruct a, b; cbn [compare]; eauto.
    - destruct (arr_ends f l l0) as (r & c & ->); [|cbn [bind]; eauto].
      intros x y X Y. apply height_arr in X, Y. apply IH; lia.
    - destruct (obj_ends f l0 l) as (r & c & ->).
      { intros p q P Q. apply height_obj in P, Q. apply IH; lia. }
      cbn [bind fst snd]. destruct r; [|eauto]. destruct (obj_ends f l l0) as (r & c' & ->); [|cbn [bind fst snd]; eauto].
      intros p q P Q. apply height_obj in P, Q. apply IH; lia.
  Qed.
  Lemma compare_more f : forall f' a b x, (f <= f')%nat -> compare f cs a b = Ok x -> compare f' cs a b = Ok x.
  Proof.
    induction f as [|f IH]; intros f' a b x L E; [discriminate|]. destruct f' as [|f']; [lia|].
    assert (A : forall l m x, arr (compare f cs) l m = Ok x -> arr (compare f' cs) l m = Ok x).
    { induction l as [|y l IHl]; intros [|z m] w; cbn [arr]; auto. intros H. apply bind_ok in H. destruct H as (r & H1 & H2).
      rewrite (IH f' y z r ltac:(lia) H1). cbn [bind]. destruct (fst r); [|exact H2]. apply bind_ok in H2. destruct H2 as (q & H2 & H3).
      rewrite (IHl m q H2). exact H3. }
    assert (O0 : forall m l x, obj (compare f cs) cs m l = Ok x -> obj (compare f' cs) cs m l = Ok x).
    { intros m. induction l as [|(o & y) l IHl]; intros w; cbn [obj]; auto. destruct o as [n|]; auto. destruct (find cs n m) as [z|]; auto.
      intros H. apply bind_ok in H. destruct H as (r & H1 & H2). rewrite (IH f' y z r ltac:(lia) H1). cbn [bind]. destruct (fst r); [|exact H2].
      apply bind_ok in H2. destruct H2 as (q & H2 & H3). rewrite (IHl q H2). exact H3. }
    destruct a, b; cbn [compare] in *; auto.
    - apply bind_ok in E. destruct E as (r & H1 & H2). rewrite (A l l0 r H1). exact H2.
    - apply bind_ok in E. destruct E as (r & H1 & H2). rewrite (O0 l0 l r H1). cbn [bind]. destruct (fst r); [|exact H2].
      apply bind_ok in H2. destruct H2 as (q & H2 & H3). rewrite (O0 l l0 q H2). exact H3.
  Qed.

  Context (R : dbl -> dbl -> Prop) (P : dbl -> Prop) (RD : forall a b, P a -> P b -> (dbl_eq a b = true <-> R a b)) (RS : forall a b, R a b -> R b a).
  Lemma same_sym f : forall a b, (height a <= f)%nat -> same cs R a b -> same cs R b a.
  Proof.
    induction f as [|f IH]; intros a b H S0; [destruct a; cbn [height] in H; lia|]. induction S0; try constructor; auto.
    - apply IH; [|assumption]. assert (L := height_arr (x :: l) x (or_introl eq_refl)). lia.
    - apply IHS0_2. cbn [height] in *. cbn [fold_right] in H. lia.
    - intros n y Y. destruct (H1 n y Y) as (n' & x & X & K & S0). exists n', x. split; [exact X|]. split; [congruence|].
      apply IH; [|exact S0]. apply height_obj in X. cbn [snd] in X. lia.
    - intros n x X. destruct (H0 n x X) as (n' & y & Y & K & S0). exists n', y. split; [exact Y|]. split; [congruence|].
      apply IH; [|exact S0]. apply height_obj in X. cbn [snd] in X. lia.
  Qed.
  Definition right f (a b : item) : Prop := forall r c, compare f cs a b = Ok (r, c) -> (r = true <-> same cs R a b).
  Lemma arr_right f l : forall m, (forall x y, In x l -> In y m -> right f x y) -> forall r c,
    arr (compare f cs) l m = Ok (r, c) -> (r = true <-> same cs R (IArr l) (IArr m)).
  Proof.
    induction l as [|x l IH]; intros [|y m] H r c E; cbn [arr] in E.
    - injection E as <- <-. split; [constructor|reflexivity].
    - injection E as <- <-. split; [discriminate|]. intros S0. inversion S0.
    - injection E as <- <-. split; [discriminate|]. intros S0. inversion S0.
    - apply bind_ok in E. destruct E as ((r1 & c1) & E1 & E). cbn [fst snd] in E. pose proof (H x y (or_introl eq_refl) (or_introl eq_refl) r1 c1 E1) as Q1.
      destruct r1.
      + apply bind_ok in E. destruct E as ((r2 & c2) & E2 & [= <- <-]). cbn [fst].
        pose proof (IH m (fun x y X Y => H x y (or_intror X) (or_intror Y)) r2 c2 E2) as Q2. split.
        * intros ->. constructor; [apply Q1; reflexivity|apply Q2; reflexivity].
        * intros S0. inversion S0; subst. apply Q2. assumption.
      + injection E as <- <-. split; [discriminate|]. intros S0. inversion S0; subst. apply Q1. assumption.
  Qed.
  Lemma obj_right f m names : map fst m = map (@Some (list Z)) names -> NoDup (map (key cs) names) ->
    forall l names', map fst l = map (@Some (list Z)) names' ->
    (forall p q, In p l -> In q m -> right f (snd p) (snd q)) -> forall r c, obj (compare f cs) cs m l = Ok (r, c) ->
    (r = true <-> forall n x, In (Some n, x) l -> exists n' y, In (Some n', y) m /\ key cs n = key cs n' /\ same cs R x y).
  Proof.
    intros E ND. induction l as [|(o & x) l IH]; intros [|n names'] E' H r c C; try discriminate; cbn [obj] in C.
    - injection C as <- <-. split; [intros _ n x []|reflexivity].
    - injection E' as E0 E'. cbn [fst] in E0. subst o. destruct (find cs n m) as [y|] eqn:F.
      + destruct (find_in cs n names m E y F) as (n' & Y & K). apply bind_ok in C. destruct C as ((r1 & c1) & C1 & C). cbn [fst snd] in C.
        pose proof (H (Some n, x) (Some n', y) (or_introl eq_refl) Y r1 c1 C1) as Q1. cbn [snd] in Q1. destruct r1.
        * apply bind_ok in C. destruct C as ((r2 & c2) & C2 & [= <- <-]). cbn [fst].
          rewrite (IH names' E' (fun p q I1 I2 => H p q (or_intror I1) I2) r2 c2 C2). split.
          -- intros A k z [[= <- <-]|Z0]; [|apply A, Z0]. exists n', y. split; [exact Y|]. split; [exact K|apply Q1; reflexivity].
          -- intros A k z Z0. apply A. right. exact Z0.
        * injection C as <- <-. split; [discriminate|]. intros A. destruct (A n x (or_introl eq_refl)) as (k & z & Z0 & K' & S0).
          rewrite (find_got cs names m E ND n k z Z0 K') in F. injection F as ->. apply Q1, S0.
      + injection C as <- <-. split; [discriminate|]. intros A. destruct (A n x (or_introl eq_refl)) as (k & z & Z0 & K' & S0).
        rewrite (find_got cs names m E ND n k z Z0 K') in F. discriminate.
  Qed.
  Lemma compare_right f : forall a b, proper cs a -> proper cs b -> numbers P a -> numbers P b -> right f a b.
  Proof.
    induction f as [|f IH]; intros a b PA PB NA NB r c E; [discriminate|].
    destruct a as [|u|u|u|u|u|u|], b as [|v|v|v|v|v|v|]; cbn [compare] in E;
      try (injection E as <- <-; split; [discriminate|]; intros S0; inversion S0; fail).
    - injection E as <- <-. split; [constructor|reflexivity].
    - injection E as <- <-. split; [intros Q; apply eqb_prop in Q; subst; constructor|]. intros S0. inversion S0. apply eqb_reflx.
    - injection E as <- <-. inversion NA as [? PX| | |? N _ _]; subst; [|destruct (N u); reflexivity].
      inversion NB as [? PY| | |? N _ _]; subst; [|destruct (N v); reflexivity].
      rewrite (RD u v PX PY). split; [constructor; assumption|]. intros S0. inversion S0. assumption.
    - inversion PA; inversion PB; subst. cbn [str_eq] in E. injection E as <- <-. split.
      + intros Q. apply bseq_spec in Q. subst. constructor.
      + intros S0. inversion S0. subst. apply bseq_spec. reflexivity.
    - inversion PA; inversion PB; subst. cbn [str_eq] in E. injection E as <- <-. split.
      + intros Q. apply bseq_spec in Q. subst. constructor.
      + intros S0. inversion S0. subst. apply bseq_spec. reflexivity.
    - apply bind_ok in E. destruct E as ((r1 & c1) & E1 & [= <- <-]). cbn [fst]. apply (arr_right f u v) with (2 := E1).
      inversion PA; inversion PB; subst.
      inversion NA as [|? NA'| |? _ N _]; subst; [|destruct (N u); reflexivity]. inversion NB as [|? NB'| |? _ N _]; subst; [|destruct (N v); reflexivity].
      intros x y X Y. apply IH; auto.
    - inversion PA as [| | | | | |? na PA' EA NDA]; subst. inversion PB as [| | | | | |? nb PB' EB NDB]; subst.
      inversion NA as [| |? NA'|? _ _ N]; subst; [|destruct (N u); reflexivity]. inversion NB as [| |? NB'|? _ _ N]; subst; [|destruct (N v); reflexivity].
      apply bind_ok in E. destruct E as ((r1 & c1) & E1 & E). cbn [fst snd] in E.
      pose proof (obj_right f v nb EB NDB u na EA (fun p q X Y => IH _ _ (PA' p X) (PB' q Y) (NA' p X) (NB' q Y)) r1 c1 E1) as Q1.
      destruct r1.
      + apply bind_ok in E. destruct E as ((r2 & c2) & E2 & [= <- <-]). cbn [fst].
        pose proof (obj_right f u na EA NDA v nb EB (fun p q X Y => IH _ _ (PB' p X) (PA' q Y) (NB' p X) (NA' q Y)) r2 c2 E2) as Q2.
        rewrite Q2. split.
        * intros A. constructor; [apply Q1; reflexivity|]. intros n y Y. destruct (A n y Y) as (k & x & X & K & S0).
          exists k, x. split; [exact X|]. split; [congruence|]. apply (same_sym (height y)); auto.
        * intros S0 n y Y. inversion S0 as [| | | | | | |? ? A B]; subst. destruct (B n y Y) as (k & x & X & K & S1).
          exists k, x. split; [exact X|]. split; [congruence|]. apply (same_sym (height x)); auto.
      + injection E as <- <-. split; [discriminate|]. intros S0. inversion S0 as [| | | | | | |? ? A B]; subst. apply Q1, A.
  Qed.
End Cmp.
