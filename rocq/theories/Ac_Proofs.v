(** * Lemmas about the key matcher model. *)
From Verif Require Import Base Ac_Model.
From Coq Require Import Permutation.
#[local] Arguments indices : simpl never.

(** ** Updating one node *)
Lemma upd_length {A} (l : list A) n f : length (upd l n f) = length l.
Proof. revert n; induction l; intros [|n]; simpl; auto. Qed.

Lemma upd_same {A} (l : list A) n f :
  nth_error (upd l n f) n = option_map f (nth_error l n).
Proof. revert n; induction l; intros [|n]; simpl; auto. Qed.

Lemma upd_other {A} (l : list A) n m f :
  n <> m -> nth_error (upd l n f) m = nth_error l m.
Proof.
  revert n m; induction l; intros [|n] [|m] H; simpl; auto; try congruence.
Qed.

Lemma nth_upd {A} (l : list A) n m f :
  nth_error (upd l n f) m =
  if Nat.eqb n m then option_map f (nth_error l m) else nth_error l m.
Proof.
  destruct (Nat.eqb_spec n m); subst; [apply upd_same | apply upd_other; auto].
Qed.

Lemma lookup_app i a j m :
  lookup i (a ++ [(j, m)]) =
  match lookup i a with Some x => Some x | None => if i =? j then Some m else None end.
Proof.
  induction a as [|[j' m'] a IH]; simpl; [destruct (i =? j); reflexivity|].
  destruct (i =? j'); auto.
Qed.

(** ** The trie as a graph *)
Definition estep (h : list node) (n : nat) (i : Z) : option nat :=
  match nth_error h n with Some nd => lookup i (n_arr nd) | None => None end.

Fixpoint walk (h : list node) (n : nat) (w : list Z) : option nat :=
  match w with
  | [] => Some n
  | i :: r => match estep h n i with Some m => walk h m r | None => None end
  end.

Definition is_end (h : list node) (n : nat) : bool :=
  match nth_error h n with Some nd => n_end nd | None => false end.

Lemma walk_app h n w v :
  walk h n (w ++ v) = match walk h n w with Some m => walk h m v | None => None end.
Proof.
  revert n; induction w; intros n; simpl; [reflexivity|].
  destruct (estep h n a); auto.
Qed.

Record trie (h : list node) (K E : list (list Z)) : Prop := {
  t_root : (0 < length h)%nat;
  t_range : forall n i m, estep h n i = Some m -> (0 < m < length h)%nat;
  t_inj : forall n m i j t, estep h n i = Some t -> estep h m j = Some t -> n = m /\ i = j;
  t_path : forall k, In k K -> exists t, walk h 0 (map idx_of k) = Some t /\ is_end h t = true;
  t_end : forall t, is_end h t = true -> exists k, In k K /\ walk h 0 (map idx_of k) = Some t;
  t_edge : forall n i m, estep h n i = Some m ->
      exists k w v, In k E /\ map idx_of k = w ++ i :: v /\ walk h 0 w = Some n
}.

Lemma estep_lt h n i m : estep h n i = Some m -> (n < length h)%nat.
Proof.
  unfold estep. destruct (nth_error h n) eqn:E; [|discriminate].
  intros _. apply nth_error_Some. congruence.
Qed.

Lemma walk_lt h K E (T : trie h K E) w t : walk h 0 w = Some t -> (t < length h)%nat.
Proof.
  destruct w as [|i w] using rev_ind.
  - simpl. intros [= <-]. apply (t_root _ _ _ T).
  - rewrite walk_app. destruct (walk h 0 w); [|discriminate]. simpl.
    destruct (estep h n i) eqn:S; [|discriminate]. intros [= <-].
    apply (t_range _ _ _ T) in S. lia.
Qed.

Lemma walk_inj h K E (T : trie h K E) w v t :
  walk h 0 w = Some t -> walk h 0 v = Some t -> w = v.
Proof.
  revert v t. induction w as [|i w IH] using rev_ind; intros v t Hw Hv.
  - simpl in Hw. injection Hw as <-.
    destruct v as [|j v _] using rev_ind; [reflexivity|].
    rewrite walk_app in Hv. destruct (walk h 0 v); [|discriminate]. simpl in Hv.
    destruct (estep h n j) eqn:S; [|discriminate]. injection Hv as ->.
    apply (t_range _ _ _ T) in S. lia.
  - rewrite walk_app in Hw. destruct (walk h 0 w) as [n|] eqn:W; [|discriminate]. simpl in Hw.
    destruct (estep h n i) eqn:S; [|discriminate]. injection Hw as ->.
    destruct v as [|j v _] using rev_ind.
    { simpl in Hv. injection Hv as <-. apply (t_range _ _ _ T) in S. lia. }
    rewrite walk_app in Hv. destruct (walk h 0 v) as [m|] eqn:V; [|discriminate]. simpl in Hv.
    destruct (estep h m j) eqn:S'; [|discriminate]. injection Hv as ->.
    destruct (t_inj _ _ _ T _ _ _ _ _ S S') as [-> ->].
    rewrite (IH v m eq_refl V). reflexivity.
Qed.

Lemma trie_init E : trie (ac_nodes ezac_init) [] E.
Proof.
  assert (S0 : forall n i, estep (ac_nodes ezac_init) n i = None).
  { intros [|[|n]] i; reflexivity. }
  constructor; try (intros; rewrite S0 in *; discriminate).
  - simpl; lia.
  - intros k [].
  - intros [|[|t]]; discriminate.
Qed.

(** ** Registration *)
Lemma estep_set_end h n m i : estep (upd h n set_end) m i = estep h m i.
Proof.
  unfold estep. rewrite nth_upd. destruct (Nat.eqb_spec n m); [|reflexivity].
  destruct (nth_error h m); reflexivity.
Qed.

Lemma walk_ext h h' : (forall n i, estep h n i = estep h' n i) ->
  forall w n, walk h n w = walk h' n w.
Proof.
  intros H w; induction w; intros n; simpl; [reflexivity|].
  rewrite H. destruct (estep h' n a); auto.
Qed.

Lemma walk_mono h h' : (forall n i m, estep h n i = Some m -> estep h' n i = Some m) ->
  forall w n t, walk h n w = Some t -> walk h' n w = Some t.
Proof.
  intros H w; induction w; intros n t; simpl; [auto|].
  destruct (estep h n a) eqn:S; [|discriminate]. rewrite (H _ _ _ S). apply IHw.
Qed.

Lemma trie_set_end h K E p n :
  trie h K E -> walk h 0 (map idx_of p) = Some n -> trie (upd h n set_end) (p :: K) E.
Proof.
  intros T W.
  pose proof (walk_lt _ _ _ T _ _ W) as L.
  assert (X : forall a i, estep (upd h n set_end) a i = estep h a i)
    by (intros; apply estep_set_end).
  assert (IE : forall t, is_end (upd h n set_end) t = if Nat.eqb n t then true else is_end h t).
  { intros t. unfold is_end. rewrite nth_upd. destruct (Nat.eqb_spec n t); [|reflexivity].
    subst. destruct (nth_error h t) eqn:Q; [reflexivity|]. apply nth_error_None in Q. lia. }
  constructor.
  - rewrite upd_length. apply (t_root _ _ _ T).
  - intros a i m S. rewrite X in S. rewrite upd_length. eapply t_range; eauto.
  - intros a b i j t S1 S2. rewrite X in S1, S2. eapply t_inj; eauto.
  - intros k [->|Hk].
    + exists n. rewrite (walk_ext _ h X). split; [exact W|]. rewrite IE, Nat.eqb_refl. reflexivity.
    + destruct (t_path _ _ _ T k Hk) as (t & Wt & Et). exists t.
      rewrite (walk_ext _ h X). split; [exact Wt|]. rewrite IE, Et. destruct (Nat.eqb n t); reflexivity.
  - intros t. rewrite IE. destruct (Nat.eqb_spec n t).
    + subst. intros _. exists p. split; [left; reflexivity|]. rewrite (walk_ext _ h X). exact W.
    + intros Et. destruct (t_end _ _ _ T t Et) as (k & Hk & Wk). exists k.
      split; [right; exact Hk|]. rewrite (walk_ext _ h X). exact Wk.
  - intros a i m S. rewrite X in S. destruct (t_edge _ _ _ T _ _ _ S) as (k & w & v & H1 & H2 & H3).
    exists k, w, v. rewrite (walk_ext _ h X). auto.
Qed.

Lemma estep_add_edge h n i m0 a j :
  (n < length h)%nat -> m0 = length h -> estep h n i = None ->
  estep (upd h n (add_edge i m0) ++ [empty_node]) a j =
  if (Nat.eqb a n && (j =? i))%bool then Some m0 else estep h a j.
Proof.
  intros Hn Hm Hnone. unfold estep in *.
  destruct (Nat.ltb_spec a (length h)) as [La|La].
  - rewrite nth_error_app1 by (rewrite upd_length; exact La).
    rewrite nth_upd. rewrite (Nat.eqb_sym a n). destruct (Nat.eqb_spec n a); simpl.
    + subst a. destruct (nth_error h n) eqn:Q; simpl.
      * rewrite lookup_app. destruct (Z.eqb_spec j i).
        { subst. rewrite Hnone. reflexivity. }
        { destruct (lookup j (n_arr n0)); reflexivity. }
      * apply nth_error_None in Q. lia.
    + reflexivity.
  - assert (nth_error h a = None) as -> by (apply nth_error_None; lia).
    destruct (Nat.eqb_spec a n); [lia|]. simpl.
    rewrite nth_error_app2 by (rewrite upd_length; lia). rewrite upd_length.
    destruct (a - length h)%nat as [|q]; simpl; [reflexivity|].
    destruct q; reflexivity.
Qed.

Lemma is_end_add_edge h n i m0 t :
  is_end (upd h n (add_edge i m0) ++ [empty_node]) t = is_end h t.
Proof.
  unfold is_end. destruct (Nat.ltb_spec t (length h)) as [La|La].
  - rewrite nth_error_app1 by (rewrite upd_length; exact La).
    rewrite nth_upd. destruct (Nat.eqb n t); [|reflexivity].
    destruct (nth_error h t); reflexivity.
  - assert (nth_error h t = None) as -> by (apply nth_error_None; lia).
    rewrite nth_error_app2 by (rewrite upd_length; lia). rewrite upd_length.
    destruct (t - length h)%nat as [|q]; simpl; [reflexivity|].
    destruct q; reflexivity.
Qed.

Lemma trie_add_edge h K E p b r n :
  trie h K E -> In (p ++ b :: r) E -> walk h 0 (map idx_of p) = Some n ->
  estep h n (idx_of b) = None ->
  trie (upd h n (add_edge (idx_of b) (length h)) ++ [empty_node]) K E /\
  walk (upd h n (add_edge (idx_of b) (length h)) ++ [empty_node]) 0 (map idx_of (p ++ [b]))
    = Some (length h).
Proof.
  intros T HE W N. pose proof (walk_lt _ _ _ T _ _ W) as L.
  set (h' := upd h n (add_edge (idx_of b) (length h)) ++ [empty_node]).
  assert (X : forall a j, estep h' a j =
     if (Nat.eqb a n && (j =? idx_of b))%bool then Some (length h) else estep h a j).
  { intros. apply estep_add_edge; auto. }
  assert (M : forall a j m, estep h a j = Some m -> estep h' a j = Some m).
  { intros a j m S. rewrite X. destruct (Nat.eqb_spec a n), (Z.eqb_spec j (idx_of b)); simpl; auto.
    subst. congruence. }
  assert (Len : length h' = S (length h)).
  { unfold h'. rewrite app_length, upd_length. simpl. lia. }
  split.
  - constructor.
    + rewrite Len; lia.
    + intros a i m. rewrite X, Len.
      destruct (Nat.eqb a n && (i =? idx_of b))%bool.
      * intros [= <-]. pose proof (t_root _ _ _ T). lia.
      * intros S. apply (t_range _ _ _ T) in S. lia.
    + intros a c i j t. rewrite !X.
      destruct (Nat.eqb_spec a n), (Z.eqb_spec i (idx_of b)),
               (Nat.eqb_spec c n), (Z.eqb_spec j (idx_of b)); simpl; intros S1 S2; subst; auto;
        try (injection S1 as <-); try (injection S2 as <-);
        repeat match goal with
        | H : estep h _ _ = Some (length h) |- _ => apply (t_range _ _ _ T) in H; lia
        end;
        try (destruct (t_inj _ _ _ T _ _ _ _ _ S1 S2); subst; auto; fail).
    + intros k Hk. destruct (t_path _ _ _ T k Hk) as (t & Wt & Et). exists t.
      split; [apply (walk_mono h h' M); exact Wt|]. unfold h'. rewrite is_end_add_edge. exact Et.
    + intros t. unfold h'. rewrite is_end_add_edge. fold h'. intros Et.
      destruct (t_end _ _ _ T t Et) as (k & Hk & Wk). exists k. split; [exact Hk|].
      apply (walk_mono h h' M). exact Wk.
    + intros a i m. rewrite X.
      destruct (Nat.eqb_spec a n), (Z.eqb_spec i (idx_of b)); simpl; intros S; subst;
        try (destruct (t_edge _ _ _ T _ _ _ S) as (k & w & v & H1 & H2 & H3);
             exists k, w, v; repeat split; auto; apply (walk_mono h h' M); exact H3).
      exists (p ++ b :: r), (map idx_of p), (map idx_of r).
      split; [exact HE|]. split; [rewrite map_app; reflexivity|].
      apply (walk_mono h h' M). exact W.
  - rewrite map_app, walk_app. rewrite (walk_mono h h' M _ _ _ W). simpl.
    rewrite X, Nat.eqb_refl, Z.eqb_refl. reflexivity.
Qed.

Lemma add_walk_spec : forall data h n p K E,
  trie h K E -> In (p ++ data) E -> walk h 0 (map idx_of p) = Some n ->
  exists h', add_walk h n data = Ok h' /\ trie h' ((p ++ data) :: K) E /\
             (length h' <= length h + length data)%nat.
Proof.
  induction data as [|b r IH]; intros h n p K E T HE W.
  - simpl. eexists. split; [reflexivity|]. split.
    + rewrite app_nil_r. apply trie_set_end; assumption.
    + rewrite upd_length. lia.
  - simpl. pose proof (walk_lt _ _ _ T _ _ W) as L.
    destruct (nth_error h n) as [nd|] eqn:Q; [|apply nth_error_None in Q; lia]. simpl.
    assert (ES : estep h n (idx_of b) = lookup (idx_of b) (n_arr nd)) by (unfold estep; rewrite Q; reflexivity).
    destruct (lookup (idx_of b) (n_arr nd)) as [m|] eqn:S.
    + destruct (IH h m (p ++ [b]) K E) as (h' & H1 & H2 & H3).
      * exact T.
      * rewrite <- app_assoc. exact HE.
      * rewrite map_app, walk_app, W. simpl. rewrite ES. reflexivity.
      * exists h'. rewrite <- app_assoc in H2. simpl in H2. split; [exact H1|]. split; [exact H2|lia].
    + destruct (trie_add_edge h K E p b r n T HE W ES) as [T' W'].
      destruct (IH _ (length h) (p ++ [b]) K E T') as (h' & H1 & H2 & H3).
      * rewrite <- app_assoc. exact HE.
      * exact W'.
      * exists h'. rewrite <- app_assoc in H2. simpl in H2. split; [exact H1|]. split; [exact H2|].
        rewrite app_length, upd_length in H3. simpl in H3. lia.
Qed.

Definition total_len (K : list (list Z)) : nat := fold_right (fun k n => (length k + n)%nat) 0%nat K.

Lemma ezac_adds_spec : forall keys c K E,
  trie (ac_nodes c) K E -> (forall k, In k keys -> In k E) ->
  exists c', ezac_adds c keys = Ok c' /\ trie (ac_nodes c') (rev keys ++ K) E /\
             ac_cur c' = ac_cur c /\
             (length (ac_nodes c') <= length (ac_nodes c) + total_len keys)%nat.
Proof.
  induction keys as [|k r IH]; intros c K E T HE; simpl.
  - exists c. split; [reflexivity|]. split; [exact T|]. split; [reflexivity|lia].
  - destruct (add_walk_spec k (ac_nodes c) 0%nat [] K E T) as (h' & H1 & H2 & H3).
    + apply HE. left. reflexivity.
    + reflexivity.
    + unfold ezac_add. rewrite H1. simpl.
      destruct (IH (mkAc h' (ac_cur c)) (k :: K) E) as (c' & A1 & A2 & A3 & A4).
      * exact H2.
      * intros x Hx. apply HE. right. exact Hx.
      * exists c'. split; [exact A1|]. split; [rewrite <- app_assoc; exact A2|].
        split; [exact A3|]. simpl in A4. lia.
Qed.

(** ** Compilation changes failure links only *)
Definition same_shape (h h' : list node) : Prop :=
  length h = length h' /\
  (forall n i, estep h n i = estep h' n i) /\ (forall n, is_end h n = is_end h' n).

Lemma same_shape_refl h : same_shape h h.
Proof. repeat split. Qed.

Lemma same_shape_trans h1 h2 h3 : same_shape h1 h2 -> same_shape h2 h3 -> same_shape h1 h3.
Proof.
  intros (A & B & C) (D & E & F). split; [congruence|]. split; intros; [rewrite B; apply E | rewrite C; apply F].
Qed.

Lemma same_shape_set_fail h m x : same_shape h (upd h m (set_fail x)).
Proof.
  split; [symmetry; apply upd_length|]. split.
  - intros n i. unfold estep. rewrite nth_upd. destruct (Nat.eqb m n); [|reflexivity].
    destruct (nth_error h n); reflexivity.
  - intros n. unfold is_end. rewrite nth_upd. destruct (Nat.eqb m n); [|reflexivity].
    destruct (nth_error h n); reflexivity.
Qed.

Lemma comp_root_shape : forall is h st h' st', comp_root is h st = Ok (h', st') -> same_shape h h'.
Proof.
  induction is as [|i r IH]; intros h st h' st'; cbn [comp_root].
  - intros [= <- <-]. apply same_shape_refl.
  - destruct (nth_error h 0); cbn [of_opt bind]; [|discriminate].
    destruct (lookup i (n_arr n)).
    + unfold push. destruct (AC_STACK <=? zlen st); cbn [bind]; [discriminate|].
      intros H. eapply same_shape_trans; [apply same_shape_set_fail | eapply IH; eassumption].
    + apply IH.
Qed.

Lemma comp_children_shape : forall is n h st h' st',
  comp_children is n h st = Ok (h', st') -> same_shape h h'.
Proof.
  induction is as [|i r IH]; intros n h st h' st'; cbn [comp_children].
  - intros [= <- <-]. apply same_shape_refl.
  - destruct (nth_error h n); cbn [of_opt bind]; [|discriminate].
    destruct (lookup i (n_arr n0)); [|apply IH].
    destruct (n_fail n0); cbn [of_opt bind]; [|discriminate].
    destruct (fail_search (S (length h)) h n2 i); cbn [bind]; try discriminate.
    unfold push. destruct (AC_STACK <=? zlen st); cbn [bind]; [discriminate|].
    intros H. eapply same_shape_trans; [apply same_shape_set_fail | eapply IH; eassumption].
Qed.

Lemma comp_loop_shape : forall fuel h st h', comp_loop fuel h st = Ok h' -> same_shape h h'.
Proof.
  induction fuel as [|f IH]; intros h [|n st] h'; cbn [comp_loop].
  - intros [= <-]; apply same_shape_refl.
  - discriminate.
  - intros [= <-]; apply same_shape_refl.
  - destruct (comp_children indices n h st) as [[h1 st1]| |] eqn:C; cbn [bind fst snd]; try discriminate.
  intros H. eapply same_shape_trans; [eapply comp_children_shape; eassumption | eapply IH; eassumption].
Qed.

Lemma compiler_shape c c' : ezac_compiler c = Ok c' ->
  same_shape (ac_nodes c) (ac_nodes c') /\ ac_cur c' = ac_cur c.
Proof.
  unfold ezac_compiler. destruct (comp_root indices (ac_nodes c) []) as [[h st]| |] eqn:R; cbn [bind fst snd]; try discriminate.
  destruct (comp_loop _ h st) as [h2| |] eqn:L; cbn [bind]; try discriminate.
  intros [= <-]. simpl. split; [|reflexivity].
  eapply same_shape_trans; [eapply comp_root_shape; eassumption | eapply comp_loop_shape; eassumption].
Qed.

Lemma trie_shape h h' K E : same_shape h h' -> trie h K E -> trie h' K E.
Proof.
  intros (L & S & I) T.
  assert (S' : forall n i, estep h' n i = estep h n i) by (intros; symmetry; apply S).
  assert (W : forall w n, walk h' n w = walk h n w) by (intros; apply walk_ext; exact S').
  constructor.
  - rewrite <- L. apply (t_root _ _ _ T).
  - intros n i m. rewrite S', <- L. apply (t_range _ _ _ T).
  - intros n m i j t. rewrite !S'. apply (t_inj _ _ _ T).
  - intros k Hk. destruct (t_path _ _ _ T k Hk) as (t & A & B). exists t. rewrite W, <- I. auto.
  - intros t. rewrite <- I. intros B. destruct (t_end _ _ _ T t B) as (k & A & C). exists k. rewrite W. auto.
  - intros n i m. rewrite S'. intros B. destruct (t_edge _ _ _ T _ _ _ B) as (k & w & v & A & C & D).
    exists k, w, v. rewrite W. auto.
Qed.

(** everything known about a matcher that was built *)
Lemma build_trie keys c : ac_build keys = Ok c ->
  trie (ac_nodes c) (rev keys) keys /\ ac_cur c = 0%nat.
Proof.
  unfold ac_build.
  destruct (ezac_adds_spec keys ezac_init [] keys) as (c1 & A1 & A2 & A3 & _).
  - apply trie_init.
  - auto.
  - rewrite A1. simpl. intros C. destruct (compiler_shape _ _ C) as [Sh Cu].
    rewrite app_nil_r in A2. split; [eapply trie_shape; eassumption|]. rewrite Cu, A3. reflexivity.
Qed.

(** ** A registered key is accepted from the root *)
Lemma find_along_path h K E (T : trie h K E) : forall rest n t,
  walk h n (map idx_of rest) = Some t -> is_end h t = true -> rest <> [] ->
  exists r, find_walk h n rest = Ok (true, r) /\ r = 0%nat.
Proof.
  induction rest as [|b r IH]; intros n t W Et NE; [congruence|].
  simpl in W. destruct (estep h n (idx_of b)) as [m|] eqn:S; [|discriminate].
  pose proof (t_range _ _ _ T _ _ _ S) as R.
  assert (S' := S). unfold estep in S'. simpl.
  destruct (nth_error h n) as [nd|] eqn:Q; [|discriminate]. simpl. rewrite S'. simpl.
  rewrite Q. simpl. rewrite S'.
  destruct (nth_error h m) as [nm|] eqn:Qm; [|apply nth_error_None in Qm; lia]. simpl.
  destruct (n_end nm) eqn:En; [eauto|].
  destruct r as [|b' r'].
  - simpl in W. injection W as <-. unfold is_end in Et. rewrite Qm in Et. congruence.
  - apply (IH m t); auto. congruence.
Qed.

Lemma key_accepted keys c k :
  ac_build keys = Ok c -> In k keys -> k <> [] ->
  exists c', ezac_find c k = Ok (true, c') /\ c' = c.
Proof.
  intros B Hk NE. destruct (build_trie _ _ B) as [T Cu].
  destruct (t_path _ _ _ T k) as (t & W & Et).
  { apply in_rev. rewrite rev_involutive. exact Hk. }
  destruct (find_along_path _ _ _ T k 0%nat t W Et NE) as (r & F & ->).
  unfold ezac_find. rewrite Cu, F. simpl. eexists. split; [reflexivity|].
  destruct c; simpl in *; subst; reflexivity.
Qed.

(** ** Failure links *)

Definition fail_of (h : list node) (n : nat) : option nat :=
  match nth_error h n with Some nd => n_fail nd | None => None end.

Lemma fail_of_set h m x n :
  (m < length h)%nat -> fail_of (upd h m (set_fail x)) n = if Nat.eqb m n then Some x else fail_of h n.
Proof.
  intros L. unfold fail_of. rewrite nth_upd. destruct (Nat.eqb_spec m n); [|reflexivity].
  subst. destruct (nth_error h n) eqn:Q; [reflexivity|]. apply nth_error_None in Q. lia.
Qed.

Lemma NoDup_bounded_len (l : list nat) (N : nat) :
  NoDup l -> (forall n, In n l -> (0 < n < N)%nat) -> (length l <= N - 1)%nat.
Proof.
  intros ND B. assert (incl l (seq 1 (N - 1))).
  { intros x Hx. apply in_seq. apply B in Hx. lia. }
  pose proof (NoDup_incl_length ND H). rewrite seq_length in H0. exact H0.
Qed.

(** edges of a trie carry indices the loops look at *)
Lemma idx_of_in b : is_byte b -> In (idx_of b) indices.
Proof.
  intros H. unfold indices. apply in_map_iff.
  assert (0 <= idx_of b < 128).
  { unfold is_byte in H. unfold idx_of, EZAC_MAX.
    destruct (Z.ltb_spec b 128); cbv zeta;
    repeat match goal with |- context [?a <? ?c] => destruct (Z.ltb_spec a c) end; simpl; lia. }
  exists (Z.to_nat (idx_of b)). split; [lia|]. apply in_seq. lia.
Qed.

Lemma indices_nodup : NoDup indices.
Proof.
  unfold indices. apply FinFun.Injective_map_NoDup; [|apply seq_NoDup].
  intros x y H. lia.
Qed.

Definition closed (h : list node) (s : list nat) (dn : list nat) : Prop :=
  (forall i m, estep h 0 i = Some m -> In m s) /\
  (forall n i m, In n dn -> estep h n i = Some m -> In m s).

Lemma root_fail_upd h n f : (forall nd, n_fail (f nd) = n_fail nd) ->
  fail_of (upd h n f) 0 = fail_of h 0.
Proof.
  intros Hf. unfold fail_of. rewrite nth_upd. destruct (Nat.eqb n 0); [|reflexivity].
  destruct (nth_error h 0); simpl; auto.
Qed.

Lemma add_walk_root_fail : forall data h n h',
  (0 < length h)%nat -> add_walk h n data = Ok h' -> fail_of h' 0 = fail_of h 0.
Proof.
  induction data as [|b r IH]; intros h n h' L; simpl.
  - intros [= <-]. apply root_fail_upd. reflexivity.
  - destruct (nth_error h n); simpl; [|discriminate].
    destruct (lookup (idx_of b) (n_arr n0)); [apply IH; exact L|].
    intros H. apply IH in H.
    + rewrite H. unfold fail_of. rewrite nth_error_app1 by (rewrite upd_length; lia).
      change (fail_of (upd h n (add_edge (idx_of b) (length h))) 0 = fail_of h 0).
      apply root_fail_upd. reflexivity.
    + rewrite app_length, upd_length. lia.
Qed.

Lemma ezac_adds_root_fail : forall keys c c' K E,
  trie (ac_nodes c) K E -> (forall k, In k keys -> In k E) ->
  ezac_adds c keys = Ok c' -> fail_of (ac_nodes c') 0 = fail_of (ac_nodes c) 0.
Proof.
  induction keys as [|k r IH]; intros c c' K E T HE; simpl.
  - intros [= <-]. reflexivity.
  - unfold ezac_add.
    destruct (add_walk_spec k (ac_nodes c) 0%nat [] K E T) as (h' & H1 & H2 & H3).
    { apply HE; left; reflexivity. } { reflexivity. }
    rewrite H1. simpl. intros H.
    rewrite (IH _ _ (k :: K) E) with (3 := H); simpl.
    + eapply add_walk_root_fail; [|eassumption]. apply (t_root _ _ _ T).
    + exact H2.
    + intros x Hx. apply HE; right; exact Hx.
Qed.

(** ** A single key always compiles *)
Record chain (h : list node) (w : list Z) : Prop := {
  ch_len : length h = S (length w);
  ch_step : forall n i m, estep h n i = Some m <-> (m = S n /\ nth_error w n = Some i)
}.

Lemma chain_shape h h' w : same_shape h h' -> chain h w -> chain h' w.
Proof.
  intros (L & S & _) [A B]. constructor; [congruence|]. intros n i m. rewrite <- S. apply B.
Qed.

Lemma add_walk_chain : forall data h p h',
  chain h (map idx_of p) -> add_walk h (length p) data = Ok h' ->
  chain h' (map idx_of (p ++ data)).
Proof.
  induction data as [|b r IH]; intros h p h' C; simpl.
  - intros [= <-]. rewrite app_nil_r. destruct C as [A B]. constructor.
    + rewrite upd_length. exact A.
    + intros n i m. rewrite estep_set_end. apply B.
  - destruct C as [A B]. rewrite map_length in A.
    destruct (nth_error h (length p)) as [nd|] eqn:Q; simpl; [|discriminate].
    destruct (lookup (idx_of b) (n_arr nd)) as [m|] eqn:S.
    + exfalso. assert (estep h (length p) (idx_of b) = Some m) by (unfold estep; rewrite Q; exact S).
      apply B in H. destruct H as [_ H].
      assert (nth_error (map idx_of p) (length p) <> None) by congruence.
      apply nth_error_Some in H0. rewrite map_length in H0. lia.
    + intros H. replace (p ++ b :: r) with ((p ++ [b]) ++ r) by (rewrite <- app_assoc; reflexivity).
      eapply IH.
      2:{ rewrite app_length. simpl. replace (length p + 1)%nat with (length h) by lia. exact H. }
      constructor.
      * rewrite app_length, upd_length, map_app, app_length, map_length. simpl. lia.
      * intros n i m. rewrite (estep_add_edge h (length p) (idx_of b) (length h) n i); [|lia|reflexivity|unfold estep; rewrite Q; exact S].
        destruct (Nat.eqb_spec n (length p)).
        { subst n. simpl. rewrite map_app, nth_error_app2 by (rewrite map_length; lia).
          rewrite map_length, Nat.sub_diag. simpl.
          destruct (Z.eqb_spec i (idx_of b)).
          - subst. split; [intros [= <-]; split; [lia|reflexivity] | intros [-> _]; f_equal; lia].
          - split; intros G.
            + exfalso. apply B in G. destruct G as [_ G].
              assert (nth_error (map idx_of p) (length p) <> None) by congruence.
              apply nth_error_Some in H0. rewrite map_length in H0. lia.
            + destruct G as [_ G]. congruence. }
        { simpl. rewrite B. rewrite map_app. split; intros [G1 G2]; split; auto.
          - rewrite nth_error_app1; [exact G2|]. apply nth_error_Some. congruence.
          - destruct (Nat.ltb_spec n (length (map idx_of p))).
            + rewrite nth_error_app1 in G2 by assumption. exact G2.
            + exfalso. rewrite nth_error_app2 in G2 by assumption. rewrite map_length in *.
              destruct (n - length p)%nat as [|[|?]] eqn:Z; try discriminate. lia. }
Qed.

Definition fails_upto (h : list node) (j : nat) : Prop :=
  fail_of h 0 = Some 0%nat /\
  (forall t, (1 <= t <= j)%nat -> exists x, fail_of h t = Some x /\ (x < t)%nat).

Lemma fail_search_chain h w i j : chain h w -> fails_upto h j -> (j < length h)%nat ->
  forall fuel x, (x < j)%nat -> (x < fuel)%nat ->
  exists y, fail_search fuel h x i = Ok y /\ (y <= j)%nat.
Proof.
  intros C [F0 F] Hj. induction fuel as [|f IH]; intros x Hx Hf; [lia|].
  cbn [fail_search].
  destruct (nth_error h x) as [nx|] eqn:Q; [|apply nth_error_None in Q; lia]. cbn [of_opt bind].
  destruct (lookup i (n_arr nx)) as [y|] eqn:S.
  - exists y. split; [reflexivity|].
    assert (estep h x i = Some y) by (unfold estep; rewrite Q; exact S).
    apply (ch_step _ _ C) in H. lia.
  - destruct (Nat.eq_dec x 0) as [->|Nz].
    + unfold fail_of in F0. rewrite Q in F0. rewrite F0. simpl. exists 0%nat. split; [reflexivity|lia].
    + destruct (F x) as (x' & Fx & Lx); [lia|]. unfold fail_of in Fx. rewrite Q in Fx. rewrite Fx.
      destruct (Nat.eqb_spec x' 0); [exists 0%nat; split; [reflexivity|lia]|].
      apply IH; lia.
Qed.

Lemma comp_children_none : forall is n h st,
  (n < length h)%nat -> (forall i, In i is -> estep h n i = None) ->
  comp_children is n h st = Ok (h, st).
Proof.
  induction is as [|i r IH]; intros n h st L H; cbn [comp_children]; [reflexivity|].
  destruct (nth_error h n) as [nd|] eqn:Q; [|apply nth_error_None in Q; lia]. cbn [of_opt bind].
  assert (estep h n i = None) by (apply H; left; reflexivity).
  unfold estep in H0. rewrite Q in H0. rewrite H0.
  apply IH; [exact L|]. intros j Hj. apply H. right. exact Hj.
Qed.

Lemma comp_children_chain w : forall is n h i0,
  chain h w -> nth_error w n = Some i0 -> (1 <= n)%nat -> fails_upto h n -> NoDup is -> In i0 is ->
  exists h', comp_children is n h [] = Ok (h', [S n]) /\ same_shape h h' /\ fails_upto h' (S n).
Proof.
  induction is as [|i r IH]; intros n h i0 C N0 Ln F ND HI; [destruct HI|].
  cbn [comp_children]. inversion ND; subst.
  assert (Lw : (n < length w)%nat) by (apply nth_error_Some; congruence).
  pose proof (ch_len _ _ C) as CL.
  destruct (nth_error h n) as [nd|] eqn:Q; [|apply nth_error_None in Q; lia]. cbn [of_opt bind].
  destruct (Z.eq_dec i i0) as [->|Ni].
  - assert (ES : estep h n i0 = Some (S n)) by (apply (ch_step _ _ C); auto).
    assert (ES' := ES). unfold estep in ES'. rewrite Q in ES'. rewrite ES'.
    destruct (proj2 F n) as (x & Fx & Lx); [lia|].
    assert (Fx' := Fx). unfold fail_of in Fx'. rewrite Q in Fx'. rewrite Fx'. cbn [of_opt bind].
    destruct (fail_search_chain h w i0 n C F ltac:(lia) (S (length h)) x Lx ltac:(lia)) as (y & Fy & Ly).
    rewrite Fy. cbn [bind]. unfold push. change (AC_STACK <=? zlen (@nil nat)) with false. cbn [bind].
    pose proof (same_shape_set_fail h (S n) y) as Sh.
    pose proof (chain_shape _ _ _ Sh C) as C'.
    assert (FU : fails_upto (upd h (S n) (set_fail y)) (S n)).
    { split.
      - rewrite fail_of_set by lia. simpl. apply F.
      - intros t Ht. rewrite fail_of_set by lia. destruct (Nat.eqb_spec (S n) t).
        + exists y. split; [reflexivity|lia].
        + apply F. lia. }
    exists (upd h (S n) (set_fail y)). split; [|split; assumption].
    rewrite comp_children_none; [reflexivity | rewrite upd_length; lia |].
    intros j Hj. destruct (estep (upd h (S n) (set_fail y)) n j) eqn:G; [|reflexivity].
    exfalso. apply (ch_step _ _ C') in G. destruct G as [_ G]. rewrite N0 in G. injection G as ->. contradiction.
  - destruct HI as [->|HI]; [congruence|].
    assert (ES : lookup i (n_arr nd) = None).
    { destruct (lookup i (n_arr nd)) eqn:G; [|reflexivity]. exfalso.
      assert (estep h n i = Some n0) by (unfold estep; rewrite Q; exact G).
      apply (ch_step _ _ C) in H. destruct H as [_ H]. rewrite N0 in H. congruence. }
    rewrite ES. eapply IH; eassumption.
Qed.

Lemma comp_loop_chain w (Hw : forall i, In i w -> In i indices) : forall fuel n h,
  chain h w -> (1 <= n <= length w)%nat -> fails_upto h n -> (length w - n < fuel)%nat ->
  exists h', comp_loop fuel h [n] = Ok h' /\ same_shape h h' /\ fails_upto h' (length w).
Proof.
  induction fuel as [|f IH]; intros n h C Hn F Fu; [lia|]. cbn [comp_loop].
  destruct (Nat.eq_dec n (length w)) as [->|Ne].
  - rewrite comp_children_none.
    + cbn [bind fst snd]. exists h. destruct f; cbn [comp_loop];
      (split; [reflexivity|]; split; [apply same_shape_refl|exact F]).
    + rewrite (ch_len _ _ C). lia.
    + intros i _. destruct (estep h (length w) i) eqn:G; [|reflexivity].
      exfalso. apply (ch_step _ _ C) in G. destruct G as [_ G].
      assert (nth_error w (length w) <> None) by congruence. apply nth_error_Some in H. lia.
  - destruct (nth_error w n) as [i0|] eqn:N0; [|apply nth_error_None in N0; lia].
    destruct (comp_children_chain w indices n h i0 C N0) as (h' & A1 & A2 & A3);
      [lia|exact F|apply indices_nodup|apply Hw; eapply nth_error_In; exact N0|].
    rewrite A1. cbn [bind fst snd].
    destruct (IH (S n) h') as (h2 & B1 & B2 & B3);
      [eapply chain_shape; eassumption|lia|exact A3|lia|].
    exists h2. split; [exact B1|]. split; [eapply same_shape_trans; eassumption|exact B3].
Qed.

Lemma comp_root_none : forall is h st,
  (0 < length h)%nat -> (forall i, In i is -> estep h 0 i = None) -> comp_root is h st = Ok (h, st).
Proof.
  induction is as [|i r IH]; intros h st L H; cbn [comp_root]; [reflexivity|].
  destruct (nth_error h 0) as [nd|] eqn:Q; [|apply nth_error_None in Q; lia]. cbn [of_opt bind].
  assert (estep h 0 i = None) by (apply H; left; reflexivity).
  unfold estep in H0. rewrite Q in H0. rewrite H0.
  apply IH; [exact L|]. intros j Hj. apply H. right. exact Hj.
Qed.

Lemma comp_root_chain w : forall is h i0,
  chain h w -> nth_error w 0 = Some i0 -> fail_of h 0 = Some 0%nat -> NoDup is -> In i0 is ->
  exists h', comp_root is h [] = Ok (h', [1%nat]) /\ same_shape h h' /\ fails_upto h' 1.
Proof.
  induction is as [|i r IH]; intros h i0 C N0 F ND HI; [destruct HI|].
  cbn [comp_root]. inversion ND; subst.
  pose proof (ch_len _ _ C) as CL.
  assert (Lw : (0 < length w)%nat) by (apply nth_error_Some; congruence).
  destruct (nth_error h 0) as [nd|] eqn:Q; [|apply nth_error_None in Q; lia]. cbn [of_opt bind].
  destruct (Z.eq_dec i i0) as [->|Ni].
  - assert (ES : estep h 0 i0 = Some 1%nat) by (apply (ch_step _ _ C); auto).
    assert (ES' := ES). unfold estep in ES'. rewrite Q in ES'. rewrite ES'.
    unfold push. change (AC_STACK <=? zlen (@nil nat)) with false. cbn [bind].
    pose proof (same_shape_set_fail h 1 0) as Sh.
    pose proof (chain_shape _ _ _ Sh C) as C'.
    exists (upd h 1 (set_fail 0%nat)). split; [|split; [exact Sh|]].
    + rewrite comp_root_none; [reflexivity|rewrite upd_length; lia|].
      intros j Hj. destruct (estep (upd h 1 (set_fail 0%nat)) 0 j) eqn:G; [|reflexivity].
      exfalso. apply (ch_step _ _ C') in G. destruct G as [_ G]. rewrite N0 in G. injection G as ->. contradiction.
    + split.
      * rewrite fail_of_set by lia. simpl. exact F.
      * intros t Ht. rewrite fail_of_set by lia. assert (t = 1%nat) by lia. subst. simpl. exists 0%nat. split; [reflexivity|lia].
  - destruct HI as [->|HI]; [congruence|].
    assert (ES : lookup i (n_arr nd) = None).
    { destruct (lookup i (n_arr nd)) eqn:G; [|reflexivity]. exfalso.
      assert (estep h 0 i = Some n) by (unfold estep; rewrite Q; exact G).
      apply (ch_step _ _ C) in H. destruct H as [_ H]. rewrite N0 in H. congruence. }
    rewrite ES. eapply IH; eassumption.
Qed.

Lemma build_single k : bytes k -> exists c, ac_build [k] = Ok c.
Proof.
  intros Hb. unfold ac_build.
  destruct (ezac_adds_spec [k] ezac_init [] [k]) as (c1 & A1 & A2 & A3 & A4); [apply trie_init|auto|].
  rewrite A1. cbn [bind].
  assert (CH : chain (ac_nodes c1) (map idx_of k)).
  { simpl in A1. unfold ezac_add in A1.
    destruct (add_walk (ac_nodes ezac_init) 0 k) as [h'| |] eqn:W; simpl in A1; try discriminate.
    injection A1 as <-. simpl. apply (add_walk_chain k (ac_nodes ezac_init) [] h').
    - constructor; [reflexivity|]. intros [|[|n]] i m; simpl; split; try discriminate; intros [_ G]; discriminate.
    - exact W. }
  assert (RF : fail_of (ac_nodes c1) 0 = Some 0%nat).
  { rewrite (ezac_adds_root_fail [k] ezac_init c1 [] [k]); auto. apply trie_init. }
  assert (IN : forall i, In i (map idx_of k) -> In i indices).
  { intros i Hi. apply in_map_iff in Hi. destruct Hi as (b & <- & Hbk). apply idx_of_in.
    apply (proj1 (Forall_forall _ _) Hb b Hbk). }
  pose proof (ch_len _ _ CH) as CL.
  unfold ezac_compiler. destruct k as [|k0 k'].
  - rewrite comp_root_none; [cbn [bind fst snd]; destruct (length (ac_nodes c1)); cbn; eauto| |].
    + simpl in CL. lia.
    + intros i _. destruct (estep (ac_nodes c1) 0 i) eqn:G; [|reflexivity].
      apply (ch_step _ _ CH) in G. destruct G as [_ G]. discriminate.
  - destruct (comp_root_chain _ indices (ac_nodes c1) (idx_of k0) CH) as (h1 & B1 & B2 & B3);
      [reflexivity|exact RF|apply indices_nodup|apply IN; left; reflexivity|].
    rewrite B1. cbn [bind fst snd].
    destruct (comp_loop_chain _ IN (length (ac_nodes c1)) 1 h1) as (h2 & C1 & _ & _);
      [eapply chain_shape; eassumption|simpl; lia|exact B3|rewrite CL; simpl; lia|].
    rewrite C1. cbn [bind]. eauto.
Qed.
