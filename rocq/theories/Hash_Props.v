(** * C18: the hash table is a finite map that keeps the first value *)
From Verif Require Import Base Str_Spec Hash_Model.

(** ** Specification: a history determines, per key, a value *)
Section Spec.
Context {A : Type}.
(** the value a key has after a history (newest operation last): the first
    successful insertion since the last deletion *)
Fixpoint value_after (cur : option A) (os : list (hop A)) (k : list Z) : option A :=
  match os with
  | [] => cur
  | HAdd al k' v _ :: r =>
      value_after (match cur with
                   | Some _ => cur
                   | None => if bseq k' k && (a_obj al && a_key al && a_val al) then Some v else None
                   end) r k
  | HDel k' :: r => value_after (if bseq k' k then None else cur) r k
  | HFind _ :: r => value_after cur r k
  end.

(** the expected outputs of a history *)
Fixpoint expected (before os : list (hop A)) : list (hout A) :=
  match os with
  | [] => []
  | o :: r =>
      (match o with
       | HAdd al k _ _ =>
           OAdd (match value_after None before k with
                 | Some _ => true
                 | None => a_obj al && a_key al && a_val al end)
       | HDel _ => ODel
       | HFind k => OFind (value_after None before k)
       end) :: expected (before ++ [o]) r
  end.
End Spec.

(** insertions use non-empty keys and values *)
Definition op_ok {A} (o : hop A) : Prop :=
  match o with HAdd _ k _ n => k <> [] /\ 0 < n | _ => True end.

(** ** Proof *)
Section Proof.
Context {A : Type}.
Implicit Types (t : table A) (b : list (list Z * A)).

Lemma bseq_refl k : bseq k k = true.
Proof. apply bseq_spec. reflexivity. Qed.
Lemma bseq_neq k k' : bseq k k' = false <-> k <> k'.
Proof.
  split.
  - intros H ->. rewrite bseq_refl in H. discriminate.
  - intros H. destruct (bseq k k') eqn:E; auto. apply bseq_spec in E. contradiction.
Qed.
Lemma bseq_sym k k' : bseq k k' = bseq k' k.
Proof.
  destruct (bseq k k') eqn:E.
  - apply bseq_spec in E as ->. symmetry. apply bseq_refl.
  - symmetry. apply bseq_neq. apply bseq_neq in E. congruence.
Qed.

Lemma bucket_find_app b k k' v :
  bucket_find (b ++ [(k', v)]) k = match bucket_find b k with Some x => Some x | None => if bseq k' k then Some v else None end.
Proof.
  induction b as [|(k2, v2) b IH]; simpl; [reflexivity|]. destruct (bseq k2 k); auto.
Qed.
Lemma bucket_find_del b k k' : bucket_find (bucket_del b k') k = if bseq k' k then None else bucket_find b k.
Proof.
  induction b as [|(k2, v2) b IH]; simpl; [destruct (bseq k' k); reflexivity|].
  destruct (bseq k2 k') eqn:E; simpl.
  - apply bseq_spec in E as ->. rewrite IH. destruct (bseq k' k) eqn:E2; auto.
  - destruct (bseq k2 k) eqn:E2.
    + apply bseq_spec in E2 as ->. rewrite bseq_sym, E. reflexivity.
    + exact IH.
Qed.

Lemma zget_zput1 {B} (l : list B) i x l' j : zput l i [x] = Some l' -> zget l' j = if j =? i then Some x else zget l j.
Proof.
  intros H. apply zput_some in H as (H1 & H2 & ->). change (zlen [x]) with 1 in *.
  destruct (Z.ltb_spec j 0).
  { unfold zget. destruct (Z.ltb_spec j 0); [|lia]. destruct (Z.eqb_spec j i); [lia|reflexivity]. }
  destruct (Z.eqb_spec j i) as [->|N].
  - rewrite zget_app_r by (rewrite zlen_ztake; lia). rewrite zlen_ztake by lia.
    replace (i - Z.min i (zlen l)) with 0 by lia. reflexivity.
  - destruct (Z_lt_ge_dec j i).
    + rewrite zget_app_l by (rewrite zlen_ztake; lia). apply zget_ztake. lia.
    + rewrite zget_app_r by (rewrite zlen_ztake; lia). rewrite zlen_ztake by lia.
      replace (Z.min i (zlen l)) with i by lia. change ([x] ++ zdrop (i + 1) l) with (x :: zdrop (i + 1) l).
      rewrite zget_cons by lia. rewrite zget_zdrop by lia. f_equal. lia.
Qed.

(** abstraction: what a lookup gives *)
Definition sees t (f : list Z -> option A) : Prop :=
  0 < zlen t /\ forall k, hash_find t k = Ok (f k).

Lemma idx_range t k : 0 < zlen t -> 0 <= hash_idx t k < zlen t.
Proof. intros. unfold hash_idx. apply Z.mod_pos_bound. lia. Qed.

Lemma sees_get t f k : sees t f -> exists b, zget t (hash_idx t k) = Some b /\ bucket_find b k = f k.
Proof.
  intros (L & H). destruct (zget_in_range t (hash_idx t k)) as (b & E); [apply idx_range; exact L|].
  exists b. split; [exact E|]. specialize (H k). unfold hash_find in H. rewrite E in H. simpl in H. congruence.
Qed.

Lemma sees_upd t f k (g : list (list Z * A) -> list (list Z * A)) f' :
  sees t f ->
  (forall b k', zget t (hash_idx t k) = Some b -> bucket_find (g b) k' = if hash_idx t k' =? hash_idx t k then f' k' else bucket_find (g b) k') ->
  (forall k', hash_idx t k' <> hash_idx t k -> f' k' = f k') ->
  exists b t', zget t (hash_idx t k) = Some b /\ zput t (hash_idx t k) [g b] = Some t' /\ sees t' f'.
Proof.
  intros (L & H) G O. destruct (zget_in_range t (hash_idx t k)) as (b & E); [apply idx_range; exact L|].
  pose proof (idx_range t k L) as R.
  assert (P' := zput_ok t (hash_idx t k) [g b]). change (zlen [g b]) with 1 in P'.
  specialize (P' ltac:(lia) ltac:(lia)).
  destruct (zput t (hash_idx t k) [g b]) as [t'|] eqn:P; [clear P'|discriminate P'].
  exists b, t'. split; [exact E|]. split; [exact P|].
  pose proof (zput_len _ _ _ _ P) as LL. split; [rewrite LL; exact L|].
  intros k'. unfold hash_find, hash_idx. rewrite LL. fold (hash_idx t k').
  rewrite (zget_zput1 _ _ _ _ (hash_idx t k') P).
  destruct (Z.eqb_spec (hash_idx t k') (hash_idx t k)) as [Q|Q].
  - simpl. f_equal. rewrite (G b k' E), Q, Z.eqb_refl. reflexivity.
  - rewrite (O k' Q). exact (H k').
Qed.

Lemma hash_add_sees al t f k v n : sees t f -> k <> [] -> 0 < n ->
  exists ok t', hash_add al t k v n = Ok (ok, t') /\
    ok = (match f k with Some _ => true | None => a_obj al && a_key al && a_val al end) /\
    sees t' (fun k' => match f k' with
                       | Some x => Some x
                       | None => if bseq k k' && (a_obj al && a_key al && a_val al) then Some v else None end).
Proof.
  intros S N P. unfold hash_add. rewrite (proj2 S k). simpl.
  assert (SAME : forall c, c = false -> sees t (fun k' => match f k' with
                       | Some x => Some x | None => if bseq k k' && c then Some v else None end)).
  { intros c ->. destruct S as (L & S). split; [exact L|]. intros k'. rewrite S.
    destruct (f k'); auto. rewrite andb_false_r. reflexivity. }
  destruct (f k) as [x|] eqn:F.
  - exists true, t. split; [reflexivity|]. split; [reflexivity|].
    destruct S as (L & S). split; [exact L|]. intros k'. rewrite S.
    destruct (f k') eqn:F'; auto. destruct (bseq k k') eqn:E; auto. apply bseq_spec in E as <-. congruence.
  - assert (KL : (zlen k <=? 0) = false).
    { destruct k; [congruence|]. rewrite zlen_cons. pose proof (zlen_nonneg k). lia. }
    assert (VL : (n <=? 0) = false) by lia.
    destruct (a_obj al) eqn:A1; simpl; [|exists false, t; auto].
    rewrite KL. destruct (a_key al) eqn:A2; simpl; [|exists false, t; auto].
    rewrite VL. destruct (a_val al) eqn:A3; simpl; [|exists false, t; auto].
    destruct (sees_upd t f k (fun b => b ++ [(k, v)])
                (fun k' => match f k' with Some x => Some x | None => if bseq k k' && true then Some v else None end) S)
      as (b & t' & E1 & E2 & S').
    + intros b k' E. destruct (Z.eqb_spec (hash_idx t k') (hash_idx t k)) as [Q|Q]; [|reflexivity].
      rewrite bucket_find_app, andb_true_r.
      destruct (sees_get t f k' S) as (b' & G1 & G2). rewrite Q, E in G1. injection G1 as <-. rewrite G2. reflexivity.
    + intros k' Q. destruct (bseq k k') eqn:E; [apply bseq_spec in E as <-; congruence|]. simpl. destruct (f k'); reflexivity.
    + rewrite E1. simpl. rewrite E2. simpl. exists true, t'. auto.
Qed.

Lemma hash_del_sees t f k : sees t f ->
  exists t', hash_del t k = Ok t' /\ sees t' (fun k' => if bseq k k' then None else f k').
Proof.
  intros S. unfold hash_del.
  destruct (sees_upd t f k (fun b => bucket_del b k) (fun k' => if bseq k k' then None else f k') S)
    as (b & t' & E1 & E2 & S').
  - intros b k' E. destruct (Z.eqb_spec (hash_idx t k') (hash_idx t k)) as [Q|Q]; [|reflexivity].
    rewrite bucket_find_del. destruct (sees_get t f k' S) as (b' & G1 & G2). rewrite Q, E in G1. injection G1 as <-.
    rewrite G2. reflexivity.
  - intros k' Q. destruct (bseq k k') eqn:E; [apply bseq_spec in E as <-; congruence|reflexivity].
  - rewrite E1. simpl. rewrite E2. simpl. exists t'. auto.
Qed.

Lemma sees_ext t f g : sees t f -> (forall k, f k = g k) -> sees t g.
Proof. intros (L & H) E. split; [exact L|]. intros k. rewrite <- E. apply H. Qed.

Lemma value_after_app os1 os2 (c : option A) k : value_after c (os1 ++ os2) k = value_after (value_after c os1 k) os2 k.
Proof.
  revert c. induction os1 as [|o os1 IH]; intros c; simpl; auto. destruct o; apply IH.
Qed.

Lemma hash_run_sees : forall os t before,
  sees t (value_after None before) -> Forall op_ok os ->
  exists t', hash_run t os = Ok (expected before os, t') /\ sees t' (value_after None (before ++ os)).
Proof.
  induction os as [|o os IH]; intros t before S F; simpl.
  - exists t. rewrite app_nil_r. auto.
  - assert (ST : exists t1, hash_step t o = Ok (match o with
       | HAdd al k _ _ =>
           OAdd (match value_after None before k with
                 | Some _ => true
                 | None => a_obj al && a_key al && a_val al end)
       | HDel _ => ODel
       | HFind k => OFind (value_after None before k)
       end, t1) /\ sees t1 (value_after None (before ++ [o]))).
    { destruct o as [al k v n|k|k]; simpl.
      - destruct (Forall_inv F) as (N & P).
        destruct (hash_add_sees al t _ k v n S N P) as (ok & t1 & E & -> & S1). rewrite E. simpl.
        exists t1. split; [reflexivity|]. eapply sees_ext; [exact S1|]. intros k'. rewrite value_after_app. simpl.
        destruct (value_after None before k'); reflexivity.
      - destruct (hash_del_sees t _ k S) as (t1 & E & S1). rewrite E. simpl. exists t1. split; [reflexivity|].
        eapply sees_ext; [exact S1|]. intros k'. rewrite value_after_app. reflexivity.
      - rewrite (proj2 S k). simpl. exists t. split; [reflexivity|].
        eapply sees_ext; [exact S|]. intros k'. rewrite value_after_app. reflexivity. }
    destruct ST as (t1 & E1 & S1). rewrite E1. simpl.
    destruct (IH t1 (before ++ [o]) S1 (Forall_inv_tail F)) as (t2 & E2 & S2). rewrite E2. simpl.
    exists t2. split; [reflexivity|]. rewrite <- app_assoc in S2. exact S2.
Qed.

Lemma zget_zrepeat {B} (x : B) n i : 0 <= i < n -> zget (zrepeat x n) i = Some x.
Proof.
  intros. destruct (zget_in_range (zrepeat x n) i) as (y & E); [rewrite zlen_zrepeat; lia|].
  rewrite E. f_equal. apply zget_In in E. apply repeat_spec in E. exact E.
Qed.

Lemma create_sees space : 0 < space -> sees (zrepeat [] space) (value_after None []).
Proof.
  intros L. split; [rewrite zlen_zrepeat by lia; exact L|]. intros k. unfold hash_find.
  assert (R : 0 <= hash_idx (zrepeat (@nil (list Z * A)) space) k < zlen (zrepeat (@nil (list Z * A)) space)).
  { apply idx_range. rewrite zlen_zrepeat by lia. exact L. }
  rewrite zlen_zrepeat in R by lia. rewrite zget_zrepeat by exact R. reflexivity.
Qed.
End Proof.

(** Every history over a fresh table of any size answers as the specification. *)
Theorem C18_finite_map_partial : forall (A : Type) space (os : list (hop A)),
  0 < space -> Forall op_ok os ->
  exists t t', hash_create true true space = Ok (Some t) /\
               hash_run t os = Ok (expected [] os, t').
Proof.
  intros A space os L F. exists (zrepeat [] space).
  destruct (hash_run_sees os (zrepeat [] space) [] (create_sees space L) F) as (t' & E & _).
  exists t'. split; [|exact E]. unfold hash_create. simpl.
  destruct (Z.leb_spec (space * 16) 0); [lia|reflexivity].
Qed.
Print Assumptions C18_finite_map_partial.

(** colliding keys (one bucket), re-insertion, failed insertion, deletion *)
Definition demo_ops : list (hop Z) :=
  let ok := mkAllocs true true true in
  [ HAdd ok [97] 1 4; HAdd ok [98] 2 4; HAdd ok [97] 3 4; HFind [97];
    HAdd (mkAllocs true true false) [99] 7 4; HFind [99]; HDel [97]; HFind [97]; HFind [98];
    HAdd ok [97] 5 4; HFind [97] ].
Example C18_demo :
  Forall op_ok demo_ops /\
  expected [] demo_ops = [ OAdd true; OAdd true; OAdd true; OFind (Some 1); OAdd false; OFind None;
                           ODel; OFind None; OFind (Some 2); OAdd true; OFind (Some 5) ].
Proof.
  split; [|reflexivity].
  repeat constructor; try discriminate.
Qed.

(** The full property quantifies over all byte-string keys; inserting the empty
    key aborts the process (mem.c:135). *)
Theorem C18_empty_key_refuted : exists (os : list (hop Z)) t,
  hash_create true true 279 = Ok (Some t) /\ hash_run t os = Fault FAbort /\
  Forall (fun o => match o with HAdd _ _ _ n => 0 < n | _ => True end) os.
Proof.
  exists [HAdd (mkAllocs true true true) [] 1 4], (zrepeat [] 279).
  split; [reflexivity|]. split; [vm_compute; reflexivity|]. repeat constructor.
Qed.
Print Assumptions C18_empty_key_refuted.
