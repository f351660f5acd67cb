(** * Substring search (src/common/sys_string.c): property C20 *)
From Verif Require Import Base Find_Model.
Local Arguments Z.add : simpl never.

(** ** Specification *)
(** [p] stands in [s] at offset [i] *)
Definition stands (s p : list Z) (i : Z) : Prop := exists a b, s = a ++ p ++ b /\ zlen a = i.
Definition first (s p : list Z) (i : Z) : Prop := stands s p i /\ forall j, stands s p j -> i <= j.
Definition nowhere (s p : list Z) : Prop := forall i, ~ stands s p i.
(** a proper beginning of [p] is a (non-empty) end of [s] *)
Definition overlap (s p : list Z) (k : list Z) : Prop :=
  k <> [] /\ (exists a, s = a ++ k) /\ (exists b, p = k ++ b /\ b <> []).

(** ** Lemmas *)
Lemma compare_spec m : forall p,
  match compare m p with
  | Ok true => exists b, m = p ++ b
  | Ok false => ~ (exists b, m = p ++ b) /\ ~ (exists b, p = m ++ b /\ b <> [])
  | Fault f => f = FOob /\ exists b, p = m ++ b /\ b <> []
  | NoFuel => False
  end.
Proof.
  induction m as [|a m IH]; intros [|b p]; cbn [compare].
  - exists []. reflexivity.
  - split; auto. exists (b :: p). split; auto. discriminate.
  - exists (a :: m). reflexivity.
  - destruct (Z.eqb_spec a b) as [->|N].
    + specialize (IH p). destruct (compare m p) as [[|]| |].
      * destruct IH as [x ->]. exists x. reflexivity.
      * destruct IH as [I1 I2]. split.
        -- intros [x E]. inversion E. apply I1. eauto.
        -- intros (x & E & Nx). inversion E. apply I2. eauto.
      * destruct IH as (-> & x & -> & Nx). split; auto. exists x. auto.
      * contradiction.
    + split.
      * intros [x E]. inversion E. congruence.
      * intros (x & E & _). inversion E. congruence.
Qed.

(** [scan] on memory [m] with [n] starting positions: what it finds *)
Definition over (n : nat) (m p a k : list Z) : Prop :=
  m = a ++ k /\ k <> [] /\ zlen a < Z.of_nat n /\ exists b, p = k ++ b /\ b <> [].
Definition upto (n : nat) (m p : list Z) (i : Z) : Prop := stands m p i /\ i < Z.of_nat n.
Lemma stands_0 m p : stands m p 0 <-> exists b, m = p ++ b.
Proof.
  split.
  - intros (a & b & -> & L). destruct a; [|rewrite zlen_cons in L; pose proof (zlen_nonneg a); lia]. exists b. reflexivity.
  - intros [b ->]. exists [], b. auto.
Qed.
Lemma stands_S x m p i : 0 <= i -> (stands (x :: m) p (i + 1) <-> stands m p i).
Proof.
  intros Hi. split.
  - intros (a & b & E & L). destruct a as [|y a]; [cbn in L; lia|].
    inversion E; subst. exists a, b. split; auto. rewrite zlen_cons in L. lia.
  - intros (a & b & -> & L). exists (x :: a), b. split; auto. rewrite zlen_cons. lia.
Qed.
Lemma stands_nonneg m p i : stands m p i -> 0 <= i.
Proof. intros (a & b & _ & <-). apply zlen_nonneg. Qed.

Lemma scan_spec n : forall m p o, p <> [] -> (n <= length m)%nat ->
  match scan n m p o with
  | Ok (Some r) => exists i, r = o + i /\ upto n m p i /\ (forall j, stands m p j -> i <= j)
  | Ok None => (forall i, ~ upto n m p i) /\ forall a k, ~ over n m p a k
  | Fault f => f = FOob /\ (forall i, ~ stands m p i) /\
      exists a k, over n m p a k
  | NoFuel => False
  end.
Proof.
  induction n as [|n IH]; intros m p o Np Hn; cbn [scan].
  - split; [intros i [H L]; apply stands_nonneg in H; lia|].
    intros a k (_ & _ & L & _). pose proof (zlen_nonneg a). lia.
  - destruct m as [|a m]; [simpl in Hn; lia|]. simpl in Hn. destruct p as [|b p]; [congruence|].
    assert (Rest : (~ exists x, a :: m = (b :: p) ++ x) -> (~ exists x, b :: p = (a :: m) ++ x /\ x <> []) ->
      match scan n m (b :: p) (o + 1) with
      | Ok (Some r) => exists i, r = o + i /\ upto (S n) (a :: m) (b :: p) i /\ (forall j, stands (a :: m) (b :: p) j -> i <= j)
      | Ok None => (forall i, ~ upto (S n) (a :: m) (b :: p) i) /\ forall u k, ~ over (S n) (a :: m) (b :: p) u k
      | Fault f => f = FOob /\ (forall i, ~ stands (a :: m) (b :: p) i) /\
          exists u k, over (S n) (a :: m) (b :: p) u k
      | NoFuel => False
      end).
    { intros N0 N1. specialize (IH m (b :: p) (o + 1) Np ltac:(lia)).
      assert (Shift : forall j, stands (a :: m) (b :: p) j -> 1 <= j /\ stands m (b :: p) (j - 1)).
      { intros j Sj. pose proof (stands_nonneg _ _ _ Sj).
        destruct (Z.eq_dec j 0) as [->|Nj]; [rewrite stands_0 in Sj; contradiction|].
        split; [lia|]. replace j with (j - 1 + 1) in Sj by lia. apply (proj1 (stands_S a m (b :: p) (j - 1) ltac:(lia))) in Sj. exact Sj. }
      destruct (scan n m (b :: p) (o + 1)) as [[r|]| |].
      - destruct IH as (i & -> & [U1 U2] & Min). pose proof (stands_nonneg _ _ _ U1).
        exists (i + 1). split; [lia|]. split.
        + split; [apply stands_S; [lia|exact U1]|lia].
        + intros j Sj. destruct (Shift j Sj) as [J1 J2]. apply Min in J2. lia.
      - destruct IH as [IH1 IH2]. split.
        + intros i [U1 U2]. destruct (Shift i U1) as [J1 J2]. apply (IH1 (i - 1)). split; [exact J2|lia].
        + intros u k (E & Nk & L & K). destruct u as [|x u].
          * cbn in E. subst k. apply N1. exact K.
          * inversion E; subst. apply (IH2 u k). rewrite zlen_cons in L. repeat split; auto. lia.
      - destruct IH as (-> & Nn & u & k & -> & Nk & L & K). split; auto. split.
        + intros i Si. destruct (Shift i Si) as [_ J2]. apply (Nn _ J2).
        + exists (a :: u), k. split; auto. split; auto. split; auto. rewrite zlen_cons. lia.
      - contradiction. }
    destruct (Z.eqb_spec a b) as [->|N].
    + pose proof (compare_spec (b :: m) (b :: p)) as C.
      destruct (compare (b :: m) (b :: p)) as [[|]|f|]; cbn [bind].
      * exists 0. split; [lia|]. split.
        -- split; [apply stands_0; exact C|lia].
        -- intros j Sj. apply (stands_nonneg _ _ _ Sj).
      * apply Rest; apply C.
      * destruct C as (-> & x & E & Nx). split; auto. split.
        -- intros i (u & v & Ei & Li).
           apply (f_equal zlen) in Ei. apply (f_equal zlen) in E. rewrite !zlen_app in Ei. rewrite zlen_app in E.
           pose proof (zlen_nonneg u). pose proof (zlen_nonneg v).
           destruct x as [|x0 x]; [congruence|]. rewrite (zlen_cons x0) in E. pose proof (zlen_nonneg x). lia.
        -- exists [], (b :: m). split; auto. split; [discriminate|]. split; [cbn; lia|]. exists x. auto.
      * contradiction.
    + apply Rest; [intros [x E]|intros (x & E & _)]; inversion E; congruence.
Qed.

Lemma find_str_scan s after p : p <> [] -> zlen p <= zlen s -> find_str s after p = scan (length s) (s ++ after) p 0.
Proof.
  intros Np L. unfold find_str. destruct p as [|b p]; [congruence|].
  rewrite zlen_cons in *. pose proof (zlen_nonneg p).
  destruct (Z.leb_spec (zlen s) 0); [lia|]. destruct (Z.leb_spec (1 + zlen p) 0); [lia|].
  destruct (Z.ltb_spec (zlen s) (1 + zlen p)); [lia|reflexivity].
Qed.
Lemma app_prefix (l1 : list Z) : forall l2 r1 r2, l1 ++ l2 = r1 ++ r2 -> (length r1 <= length l1)%nat ->
  exists c, l1 = r1 ++ c.
Proof.
  induction l1 as [|x l1 IH]; intros l2 [|y r1] r2 E L; simpl in *; try lia.
  - exists []. reflexivity.
  - exists (x :: l1). reflexivity.
  - inversion E; subst. destruct (IH l2 r1 r2) as [c ->]; auto; [lia|]. exists c. reflexivity.
Qed.
Lemma stands_after s after p i : stands s p i -> stands (s ++ after) p i.
Proof. intros (a & b & -> & L). exists a, (b ++ after). rewrite !app_assoc. auto. Qed.

(** ** C20 *)
(** If the pattern occurs, its first occurrence is found, whatever is behind the string,
    without reading behind it ([after] may be empty). *)
Theorem C20_found s after p i : p <> [] -> first s p i -> find_str s after p = Ok (Some i).
Proof.
  intros Np [F Min].
  assert (L : zlen p <= zlen s).
  { destruct F as (a & b & -> & _). rewrite !zlen_app. pose proof (zlen_nonneg a). pose proof (zlen_nonneg b). lia. }
  rewrite find_str_scan by auto.
  assert (Hi : i < Z.of_nat (length s)).
  { destruct F as (a & b & -> & <-). rewrite !app_length. destruct p; [congruence|]. unfold zlen. simpl. lia. }
  pose proof (scan_spec (length s) (s ++ after) p 0 Np ltac:(rewrite app_length; lia)) as S.
  destruct (scan (length s) (s ++ after) p 0) as [[r|]|f|].
  - destruct S as (j & -> & [U1 U2] & Mj). f_equal. f_equal.
    assert (j <= i) by (apply Mj; apply stands_after; exact F).
    assert (i <= j); [|lia].
    (* the occurrence found lies inside the string: it is not behind [i] *)
    destruct (Z_le_gt_dec (j + zlen p) (zlen s)) as [In|Out].
    + apply Min. destruct U1 as (a & b & E & <-).
      rewrite app_assoc in E. destruct (app_prefix s after (a ++ p) b E) as [c Hc].
      { rewrite app_length. unfold zlen in In. lia. }
      exists a, c. rewrite Hc, app_assoc. auto.
    + destruct F as (a & b & Es & <-). apply (f_equal zlen) in Es. rewrite !zlen_app in Es.
      pose proof (zlen_nonneg b). lia.
  - exfalso. apply (proj1 S i). split; [apply stands_after; exact F|exact Hi].
  - exfalso. destruct S as (_ & N & _). apply (N i). apply stands_after. exact F.
  - contradiction.
Qed.

(** If it does not occur and no end of the string is a beginning of the pattern, NULL is
    returned, again without reading behind the string. *)
Theorem C20_partial s after p : p <> [] -> zlen p <= zlen s -> nowhere s p ->
  (forall k, ~ overlap s p k) -> find_str s after p = Ok None.
Proof.
  intros Np L N O. rewrite find_str_scan by auto.
  pose proof (scan_spec (length s) (s ++ after) p 0 Np ltac:(rewrite app_length; lia)) as S.
  (* an occurrence in the memory that starts in the string reaches behind it: overlap *)
  assert (Cut : forall a k b, s ++ after = a ++ k -> k <> [] -> zlen a < Z.of_nat (length s) ->
     (k = p ++ b \/ (p = k ++ b /\ b <> [])) -> False).
  { intros a k b E Nk La K. destruct (app_prefix s after a k E) as [c Hc]; [unfold zlen in La; lia|].
    assert (Nc : c <> []). { intros ->. rewrite app_nil_r in Hc. subst. unfold zlen in La. lia. }
    subst s. rewrite <- app_assoc in E. apply app_inv_head in E.
    destruct K as [Kp|[Kp Nb]].
    - rewrite Kp in E. destruct (le_lt_dec (length p) (length c)) as [Hl|Hl].
      + destruct (app_prefix c after p b E Hl) as [d ->]. apply (N (zlen a)). exists a, d. auto.
      + destruct (app_prefix p b c after (eq_sym E)) as [d Hd]; [lia|].
        apply (O c). split; auto. split; [eauto|]. exists d. split; auto. intros ->.
        rewrite app_nil_r in Hd. subst. lia.
    - rewrite <- E in Kp. apply (O c). split; auto. split; [eauto|]. exists (after ++ b). rewrite app_assoc. split; [exact Kp|].
      intros F. apply app_eq_nil in F. tauto. }
  destruct (scan (length s) (s ++ after) p 0) as [[r|]|f|]; auto.
  - exfalso. destruct S as (i & _ & [(a & b & E & <-) U2] & _).
    apply (Cut a (p ++ b) b); auto. intros F. apply app_eq_nil in F. tauto.
  - exfalso. destruct S as (_ & _ & a & k & E & Nk & La & b & Kb). apply (Cut a k b); auto.
  - contradiction.
Qed.

(** Otherwise it goes wrong: whenever the pattern does not occur and some end of the string
    is a beginning of the pattern, the search reads behind the string (outside the object
    if the string ends it) … *)
Theorem C20_refuted s p k : p <> [] -> zlen p <= zlen s -> nowhere s p -> overlap s p k ->
  find_str s [] p = Fault FOob.
Proof.
  intros Np L N (Nk & [a Ea] & b & Eb & Nb). rewrite find_str_scan by auto. rewrite app_nil_r.
  pose proof (scan_spec (length s) s p 0 Np (le_n _)) as S.
  destruct (scan (length s) s p 0) as [[r|]|f|].
  - exfalso. destruct S as (i & _ & [U _] & _). apply (N i U).
  - exfalso. apply (proj2 S a k). split; auto. split; auto. split; [|eauto].
    subst s. rewrite app_length. unfold zlen. destruct k; [congruence|simpl; lia].
  - destruct S as [-> _]. reflexivity.
  - contradiction.
Qed.
(** … and if the bytes behind the string happen to go on like the pattern, it reports a
    place where the pattern does not occur. *)
Theorem C20_refuted_match s p k b : p <> [] -> zlen p <= zlen s -> nowhere s p ->
  k <> [] -> (exists a, s = a ++ k) -> p = k ++ b -> b <> [] ->
  exists i, find_str s b p = Ok (Some i) /\ ~ stands s p i.
Proof.
  intros Np L N Nk [a Ea] Eb Nb. rewrite find_str_scan by auto.
  pose proof (scan_spec (length s) (s ++ b) p 0 Np ltac:(rewrite app_length; lia)) as S.
  assert (H : stands (s ++ b) p (zlen a)).
  { exists a, []. rewrite app_nil_r. subst. rewrite app_assoc. auto. }
  destruct (scan (length s) (s ++ b) p 0) as [[r|]|f|].
  - exists r. split; auto.
  - exfalso. apply (proj1 S (zlen a)). split; auto. subst s. rewrite app_length. unfold zlen.
    destruct k; [congruence|simpl; lia].
  - exfalso. apply (proj1 (proj2 S) _ H).
  - contradiction.
Qed.
(** asserts of the code: an empty string, an empty pattern, a pattern longer than the
    string *)
Theorem C20_refuted_abort s after p : zlen s < zlen p -> find_str s after p = Fault FAbort.
Proof.
  intros L. unfold find_str. destruct (Z.leb_spec (zlen s) 0); auto. destruct (Z.leb_spec (zlen p) 0); auto.
  destruct (Z.ltb_spec (zlen s) (zlen p)); [auto|lia].
Qed.
Print Assumptions C20_found.
Print Assumptions C20_partial.
Print Assumptions C20_refuted.
Print Assumptions C20_refuted_match.
Print Assumptions C20_refuted_abort.
Example C20_example :
  find_str [1; 2; 1; 2; 3] [] [1; 2; 3] = Ok (Some 2) /\
  find_str [1; 2; 4] [9] [1; 2; 3] = Ok None /\
  find_str [4; 1; 2] [] [1; 2; 3] = Fault FOob /\
  find_str [4; 1; 2] [3] [1; 2; 3] = Ok (Some 1) /\
  overlap [4; 1; 2] [1; 2; 3] [1; 2] /\ nowhere [4; 1; 2] [1; 2; 3] /\ first [1; 2; 1; 2; 3] [1; 2; 3] 2.
Proof.
  repeat split; auto; try discriminate.
  - exists [4]. reflexivity.
  - exists [3]. split; [reflexivity|discriminate].
  - intros i (a & b & E & _). destruct a as [|x [|y [|z a]]]; cbn in E; inversion E. destruct a; discriminate.
  - exists [1; 2], []. auto.
  - intros j (a & b & E & <-). destruct a as [|x [|y a]]; [discriminate|discriminate|].
    rewrite !zlen_cons. pose proof (zlen_nonneg a). lia.
Qed.
