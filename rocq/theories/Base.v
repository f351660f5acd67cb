(** * Shared vocabulary: outcomes, bytes, byte strings addressed by [Z] offsets.

    Nothing in this file transcribes code of the repository; it fixes how C
    values are represented in every model:
    - C integers and bytes are [Z]; wrap-around is written out where needed;
    - undefined behaviour and aborts are the constructor [Fault];
    - running out of the fuel given to a loop is [NoFuel]. *)
From Coq Require Export ZArith List Lia Bool.
From Coq Require Export ZifyBool ZifyNat.
Export ListNotations.
Open Scope Z_scope.

Inductive fault : Type :=
| FNull        (* dereference of a NULL pointer *)
| FOob         (* access outside the object *)
| FUaf         (* use of a released object *)
| FAbort       (* assert / sassert failed: abort() *)
| FDeadlock    (* waits for a lock held by itself *)
| FRecursion   (* unbounded recursion or endless loop *)
| FUninit      (* use of an indeterminate value *)
| FOverread.   (* read outside the object, where told apart from writes *)

Inductive res (A : Type) : Type :=
| Ok (a : A)
| Fault (f : fault)
| NoFuel.
Arguments Ok {A} a.
Arguments Fault {A} f.
Arguments NoFuel {A}.

Definition bind {A B} (x : res A) (k : A -> res B) : res B :=
  match x with
  | Ok a => k a
  | Fault f => Fault f
  | NoFuel => NoFuel
  end.

Notation "'let*' x ':=' e 'in' k" := (bind e (fun x => k))
  (at level 200, x binder, e at level 100, k at level 200, right associativity).

Definition of_opt {A} (f : fault) (o : option A) : res A :=
  match o with Some a => Ok a | None => Fault f end.

Lemma bind_ok {A B} (x : res A) (k : A -> res B) b :
  bind x k = Ok b -> exists a, x = Ok a /\ k a = Ok b.
Proof. destruct x; simpl; intros; try discriminate; eauto. Qed.

(** ** Bytes *)
Definition is_byte (b : Z) : Prop := 0 <= b < 256.
Definition bytes (l : list Z) : Prop := Forall is_byte l.

Lemma bytes_app l1 l2 : bytes (l1 ++ l2) <-> bytes l1 /\ bytes l2.
Proof. apply Forall_app. Qed.

(** ** Lists addressed by [Z] *)
Definition zlen {A} (l : list A) : Z := Z.of_nat (length l).
Definition ztake {A} (n : Z) (l : list A) : list A := firstn (Z.to_nat n) l.
Definition zdrop {A} (n : Z) (l : list A) : list A := skipn (Z.to_nat n) l.
Definition zslice {A} (a b : Z) (l : list A) : list A := ztake (b - a) (zdrop a l).
Definition zget {A} (l : list A) (i : Z) : option A :=
  if i <? 0 then None else nth_error l (Z.to_nat i).
(** store [bs] at offset [i]; [None] if it does not fit in the object *)
Definition zput {A} (l : list A) (i : Z) (bs : list A) : option (list A) :=
  if (0 <=? i) && (i + zlen bs <=? zlen l)
  then Some (ztake i l ++ bs ++ zdrop (i + zlen bs) l) else None.
Definition zrepeat {A} (a : A) (n : Z) : list A := repeat a (Z.to_nat n).

Lemma zlen_nonneg {A} (l : list A) : 0 <= zlen l.
Proof. unfold zlen; lia. Qed.

Lemma zlen_nil {A} : zlen (@nil A) = 0.
Proof. reflexivity. Qed.

Lemma zlen_cons {A} (a : A) l : zlen (a :: l) = 1 + zlen l.
Proof. unfold zlen; simpl length; lia. Qed.

Lemma zlen_app {A} (l1 l2 : list A) : zlen (l1 ++ l2) = zlen l1 + zlen l2.
Proof. unfold zlen; rewrite app_length; lia. Qed.

Lemma zlen_0_nil {A} (l : list A) : zlen l = 0 -> l = [].
Proof. destruct l; [reflexivity | rewrite zlen_cons; pose proof (zlen_nonneg l); lia]. Qed.

Lemma zlen_ztake {A} n (l : list A) : 0 <= n -> zlen (ztake n l) = Z.min n (zlen l).
Proof. intros; unfold zlen, ztake; rewrite firstn_length; lia. Qed.

Lemma zlen_zdrop {A} n (l : list A) : 0 <= n -> zlen (zdrop n l) = Z.max 0 (zlen l - n).
Proof. intros; unfold zlen, zdrop; rewrite skipn_length; lia. Qed.

Lemma zlen_zrepeat {A} (a : A) n : 0 <= n -> zlen (zrepeat a n) = n.
Proof. intros; unfold zlen, zrepeat; rewrite repeat_length; lia. Qed.

Lemma zlen_rev {A} (l : list A) : zlen (rev l) = zlen l.
Proof. unfold zlen; rewrite rev_length; reflexivity. Qed.

Lemma zlen_map {A B} (f : A -> B) l : zlen (map f l) = zlen l.
Proof. unfold zlen; rewrite map_length; reflexivity. Qed.

Lemma ztake_zdrop {A} n (l : list A) : ztake n l ++ zdrop n l = l.
Proof. apply firstn_skipn. Qed.

Lemma ztake_app_l {A} n (l1 l2 : list A) : n <= zlen l1 -> ztake n (l1 ++ l2) = ztake n l1.
Proof.
  intros; unfold ztake, zlen in *. rewrite firstn_app.
  replace (Z.to_nat n - length l1)%nat with 0%nat by lia.
  simpl. apply app_nil_r.
Qed.

Lemma ztake_app_r {A} n (l1 l2 : list A) :
  zlen l1 <= n -> ztake n (l1 ++ l2) = l1 ++ ztake (n - zlen l1) l2.
Proof.
  intros; unfold ztake, zlen in *. rewrite firstn_app.
  rewrite firstn_all2 by lia. do 2 f_equal. lia.
Qed.

Lemma zdrop_app_l {A} n (l1 l2 : list A) :
  n <= zlen l1 -> zdrop n (l1 ++ l2) = zdrop n l1 ++ l2.
Proof.
  intros; unfold zdrop, zlen in *. rewrite skipn_app.
  replace (Z.to_nat n - length l1)%nat with 0%nat by lia. reflexivity.
Qed.

Lemma zdrop_app_r {A} n (l1 l2 : list A) :
  zlen l1 <= n -> zdrop n (l1 ++ l2) = zdrop (n - zlen l1) l2.
Proof.
  intros; unfold zdrop, zlen in *. rewrite skipn_app.
  rewrite skipn_all2 by lia. simpl. f_equal. lia.
Qed.

Lemma ztake_all {A} n (l : list A) : zlen l <= n -> ztake n l = l.
Proof. intros; unfold ztake, zlen in *. apply firstn_all2; lia. Qed.

Lemma zdrop_all {A} n (l : list A) : zlen l <= n -> zdrop n l = [].
Proof. intros; unfold zdrop, zlen in *. apply skipn_all2; lia. Qed.

Lemma ztake_le0 {A} n (l : list A) : n <= 0 -> ztake n l = [].
Proof. intros; unfold ztake. replace (Z.to_nat n) with 0%nat by lia. reflexivity. Qed.

Lemma zdrop_le0 {A} n (l : list A) : n <= 0 -> zdrop n l = l.
Proof. intros; unfold zdrop. replace (Z.to_nat n) with 0%nat by lia. reflexivity. Qed.

Lemma zdrop_zdrop {A} n m (l : list A) :
  0 <= n -> 0 <= m -> zdrop n (zdrop m l) = zdrop (n + m) l.
Proof.
  intros; unfold zdrop. revert l.
  replace (Z.to_nat (n + m)) with (Z.to_nat m + Z.to_nat n)%nat by lia.
  induction (Z.to_nat m); intros l; simpl; [reflexivity|].
  destruct l; [apply skipn_nil | apply IHn0].
Qed.

Lemma ztake_ztake {A} n m (l : list A) : ztake n (ztake m l) = ztake (Z.min n m) l.
Proof.
  unfold ztake. rewrite firstn_firstn. f_equal. lia.
Qed.

Lemma ztake_add {A} a b (l : list A) :
  0 <= a -> 0 <= b -> ztake a l ++ ztake b (zdrop a l) = ztake (a + b) l.
Proof.
  intros; unfold ztake, zdrop.
  replace (Z.to_nat (a + b)) with (Z.to_nat a + Z.to_nat b)%nat by lia.
  revert l. induction (Z.to_nat a); intros l; simpl; [reflexivity|].
  destruct l; simpl; [rewrite firstn_nil; reflexivity|f_equal; apply IHn].
Qed.

Lemma ztake_cons {A} n (a : A) l : 0 < n -> ztake n (a :: l) = a :: ztake (n - 1) l.
Proof.
  intros; unfold ztake. replace (Z.to_nat n) with (S (Z.to_nat (n - 1))) by lia. reflexivity.
Qed.

Lemma zdrop_cons {A} n (a : A) l : 0 < n -> zdrop n (a :: l) = zdrop (n - 1) l.
Proof.
  intros; unfold zdrop. replace (Z.to_nat n) with (S (Z.to_nat (n - 1))) by lia. reflexivity.
Qed.

Lemma zget_some_range {A} (l : list A) i a : zget l i = Some a -> 0 <= i < zlen l.
Proof.
  unfold zget, zlen. destruct (Z.ltb_spec i 0); [discriminate|].
  intros E. assert (nth_error l (Z.to_nat i) <> None) by congruence.
  apply nth_error_Some in H0. lia.
Qed.

Lemma zget_in_range {A} (l : list A) i : 0 <= i < zlen l -> exists a, zget l i = Some a.
Proof.
  unfold zget, zlen; intros. destruct (Z.ltb_spec i 0); [lia|].
  destruct (nth_error l (Z.to_nat i)) eqn:E; eauto.
  apply nth_error_None in E. lia.
Qed.

Lemma zget_none {A} (l : list A) i : zget l i = None <-> i < 0 \/ zlen l <= i.
Proof.
  split.
  - intros E. destruct (Z_lt_ge_dec i 0); [lia|]. destruct (Z_lt_ge_dec i (zlen l)); [|lia].
    destruct (zget_in_range l i) as [a Ha]; [lia|congruence].
  - intros H. destruct (zget l i) eqn:E; [|reflexivity].
    apply zget_some_range in E. lia.
Qed.

Lemma zget_app_l {A} (l1 l2 : list A) i : i < zlen l1 -> zget (l1 ++ l2) i = zget l1 i.
Proof.
  unfold zget, zlen; intros. destruct (Z.ltb_spec i 0); [reflexivity|].
  apply nth_error_app1; lia.
Qed.

Lemma zget_app_r {A} (l1 l2 : list A) i :
  zlen l1 <= i -> zget (l1 ++ l2) i = zget l2 (i - zlen l1).
Proof.
  unfold zget, zlen; intros. destruct (Z.ltb_spec i 0); [lia|].
  destruct (Z.ltb_spec (i - Z.of_nat (length l1)) 0); [lia|].
  rewrite nth_error_app2 by lia. f_equal. lia.
Qed.

Lemma zget_0 {A} (a : A) l : zget (a :: l) 0 = Some a.
Proof. reflexivity. Qed.

Lemma zget_cons {A} (a : A) l i : 0 < i -> zget (a :: l) i = zget l (i - 1).
Proof.
  unfold zget; intros. destruct (Z.ltb_spec i 0); [lia|].
  destruct (Z.ltb_spec (i - 1) 0); [lia|].
  replace (Z.to_nat i) with (S (Z.to_nat (i - 1))) by lia. reflexivity.
Qed.

Lemma zget_zdrop {A} n (l : list A) i :
  0 <= n -> 0 <= i -> zget (zdrop n l) i = zget l (n + i).
Proof.
  unfold zget, zdrop; intros.
  destruct (Z.ltb_spec i 0); [lia|]. destruct (Z.ltb_spec (n + i) 0); [lia|].
  replace (Z.to_nat (n + i)) with (Z.to_nat n + Z.to_nat i)%nat by lia.
  revert l; induction (Z.to_nat n); intros l; simpl; [reflexivity|].
  destruct l; simpl; [destruct (Z.to_nat i); reflexivity | apply IHn0].
Qed.

Lemma zget_ztake {A} n (l : list A) i : i < n -> zget (ztake n l) i = zget l i.
Proof.
  intros. destruct (Z_lt_ge_dec i (zlen l)).
  - rewrite <- (ztake_zdrop n l) at 2. destruct (Z_lt_ge_dec i 0).
    + unfold zget. destruct (Z.ltb_spec i 0); [reflexivity|lia].
    + symmetry. apply zget_app_l. rewrite zlen_ztake by lia. lia.
  - assert (E1 : zget l i = None) by (apply zget_none; lia). rewrite E1.
    apply zget_none. destruct (Z_lt_ge_dec i 0); [lia|].
    rewrite zlen_ztake by lia. lia.
Qed.

Lemma zget_In {A} (l : list A) i a : zget l i = Some a -> In a l.
Proof.
  unfold zget. destruct (i <? 0); [discriminate|]. apply nth_error_In.
Qed.

Lemma zdrop_cons_get {A} (l : list A) i a :
  zget l i = Some a -> zdrop i l = a :: zdrop (i + 1) l.
Proof.
  intros E. pose proof (zget_some_range _ _ _ E) as R.
  unfold zget in E. destruct (Z.ltb_spec i 0); [lia|].
  unfold zdrop. replace (Z.to_nat (i + 1)) with (S (Z.to_nat i)) by lia.
  clear R H. revert l E. induction (Z.to_nat i); intros [|x l] E; simpl in *; try discriminate.
  - inversion E; reflexivity.
  - rewrite (IHn l E). reflexivity.
Qed.

Lemma zput_some {A} (l : list A) i bs l' :
  zput l i bs = Some l' ->
  0 <= i /\ i + zlen bs <= zlen l /\ l' = ztake i l ++ bs ++ zdrop (i + zlen bs) l.
Proof.
  unfold zput. destruct (Z.leb_spec 0 i), (Z.leb_spec (i + zlen bs) (zlen l)); simpl; intros E;
    try discriminate. inversion E; auto.
Qed.

Lemma zput_ok {A} (l : list A) i bs :
  0 <= i -> i + zlen bs <= zlen l ->
  zput l i bs = Some (ztake i l ++ bs ++ zdrop (i + zlen bs) l).
Proof.
  intros; unfold zput.
  destruct (Z.leb_spec 0 i), (Z.leb_spec (i + zlen bs) (zlen l)); simpl; try lia. reflexivity.
Qed.

Lemma zput_none {A} (l : list A) i bs :
  zput l i bs = None -> i < 0 \/ zlen l < i + zlen bs.
Proof.
  unfold zput.
  destruct (Z.leb_spec 0 i), (Z.leb_spec (i + zlen bs) (zlen l)); simpl; intros; try discriminate; lia.
Qed.

Lemma zput_len {A} (l : list A) i bs l' : zput l i bs = Some l' -> zlen l' = zlen l.
Proof.
  intros H. apply zput_some in H as (H1 & H2 & ->). pose proof (zlen_nonneg bs).
  rewrite !zlen_app, zlen_ztake, zlen_zdrop by lia. lia.
Qed.

Lemma zslice_len {A} a b (l : list A) :
  0 <= a -> a <= b -> b <= zlen l -> zlen (zslice a b l) = b - a.
Proof.
  intros; unfold zslice. rewrite zlen_ztake, zlen_zdrop by lia. lia.
Qed.

Lemma zslice_empty {A} a (l : list A) : zslice a a l = [].
Proof. unfold zslice. apply ztake_le0. lia. Qed.

Lemma zslice_split {A} a b c (l : list A) :
  0 <= a -> a <= b -> b <= c -> c <= zlen l ->
  zslice a c l = zslice a b l ++ zslice b c l.
Proof.
  intros. unfold zslice.
  rewrite <- (ztake_zdrop (b - a) (zdrop a l)) at 1.
  rewrite zdrop_zdrop by lia. replace (b - a + a) with b by lia.
  rewrite ztake_app_r.
  - f_equal. f_equal. rewrite zlen_ztake, zlen_zdrop by lia. lia.
  - rewrite zlen_ztake, zlen_zdrop by lia. lia.
Qed.

(** bytes stored by [zput] are read back, bytes elsewhere are unchanged *)
Lemma zslice_zput_same {A} (l : list A) i bs l' :
  zput l i bs = Some l' -> zslice i (i + zlen bs) l' = bs.
Proof.
  intros H. apply zput_some in H as (H1 & H2 & ->). pose proof (zlen_nonneg bs).
  unfold zslice. rewrite zdrop_app_r by (rewrite zlen_ztake; lia).
  replace (i - zlen (ztake i l)) with 0 by (rewrite zlen_ztake; lia).
  rewrite zdrop_le0 by lia. rewrite ztake_app_l by lia. apply ztake_all. lia.
Qed.

Lemma zslice_zput_before {A} (l : list A) i bs l' a b :
  zput l i bs = Some l' -> b <= i -> 0 <= a -> zslice a b l' = zslice a b l.
Proof.
  intros H Hb Ha. apply zput_some in H as (H1 & H2 & ->). pose proof (zlen_nonneg bs).
  destruct (Z_lt_ge_dec a b).
  - unfold zslice. rewrite zdrop_app_l by (rewrite zlen_ztake; lia).
    rewrite ztake_app_l by (rewrite zlen_zdrop, zlen_ztake; lia).
    rewrite <- (ztake_zdrop i l) at 2.
    rewrite zdrop_app_l by (rewrite zlen_ztake; lia).
    rewrite ztake_app_l by (rewrite zlen_zdrop, zlen_ztake; lia). reflexivity.
  - unfold zslice. rewrite !ztake_le0 by lia. reflexivity.
Qed.

Lemma zslice_zput_after {A} (l : list A) i bs l' a b :
  zput l i bs = Some l' -> i + zlen bs <= a -> zslice a b l' = zslice a b l.
Proof.
  intros H Hb. apply zput_some in H as (H1 & H2 & ->). pose proof (zlen_nonneg bs).
  unfold zslice. rewrite zdrop_app_r by (rewrite zlen_ztake; lia).
  rewrite zlen_ztake by lia. replace (Z.min i (zlen l)) with i by lia.
  rewrite zdrop_app_r by lia. rewrite zdrop_zdrop by lia.
  do 2 f_equal. lia.
Qed.

Lemma zget_zslice {A} (l : list A) a b i :
  0 <= a -> 0 <= i -> i < b - a -> zget (zslice a b l) i = zget l (a + i).
Proof.
  intros. unfold zslice. rewrite zget_ztake by lia. apply zget_zdrop; lia.
Qed.

Lemma zslice_cons {A} (l : list A) a b x :
  zget l a = Some x -> a < b -> zslice a b l = x :: zslice (a + 1) b l.
Proof.
  intros E H. unfold zslice. rewrite (zdrop_cons_get _ _ _ E).
  rewrite ztake_cons by lia. do 2 f_equal. lia.
Qed.

Lemma bytes_zslice a b l : bytes l -> bytes (zslice a b l).
Proof.
  unfold bytes. rewrite !Forall_forall. intros H x Hx. apply H.
  unfold zslice, ztake, zdrop in Hx.
  rewrite <- (firstn_skipn (Z.to_nat a) l). apply in_or_app. right.
  rewrite <- (firstn_skipn (Z.to_nat (b - a)) (skipn _ l)). apply in_or_app. left. exact Hx.
Qed.

(** ** Prefixes of byte streams *)
Definition prefix {A} (p l : list A) : Prop := exists s, l = p ++ s.

Lemma prefix_refl {A} (l : list A) : prefix l l.
Proof. exists []. symmetry; apply app_nil_r. Qed.

Lemma prefix_app {A} (p s : list A) : prefix p (p ++ s).
Proof. exists s. reflexivity. Qed.

(** decidable equality on byte strings as a boolean *)
Fixpoint bseq (a b : list Z) : bool :=
  match a, b with
  | [], [] => true
  | x :: a', y :: b' => (x =? y) && bseq a' b'
  | _, _ => false
  end.

Lemma bseq_spec a b : bseq a b = true <-> a = b.
Proof.
  revert b; induction a as [|x a IH]; intros [|y b]; simpl; split; try discriminate; auto.
  - rewrite andb_true_iff, Z.eqb_eq, IH. intros [-> ->]. reflexivity.
  - intros [= -> ->]. rewrite andb_true_iff, Z.eqb_eq, IH. auto.
Qed.

