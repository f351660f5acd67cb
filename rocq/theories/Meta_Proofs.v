(** * Lemmas about message buffers. *)
From Verif Require Import Base Meta_Model.

Definition meta_wf (m : meta) : Prop := 0 <= mpos m <= mlast m /\ mlast m <= meta_cap m.

Lemma meta_new_wf n : 0 <= n -> meta_wf (meta_new n) /\ meta_cap (meta_new n) = n /\ mdata (meta_new n) = [].
Proof.
  intros. unfold meta_wf, meta_cap, meta_new, mdata. simpl.
  rewrite zlen_zrepeat by lia. split; [lia|]. split; [reflexivity|]. apply zslice_empty.
Qed.

Lemma meta_clr_wf m : meta_wf m -> meta_wf (meta_clr m) /\ mdata (meta_clr m) = [].
Proof.
  unfold meta_wf, meta_clr, mdata, meta_cap; simpl. intros; split; [lia|apply zslice_empty].
Qed.

Lemma mdata_len m : meta_wf m -> zlen (mdata m) = meta_getlen m.
Proof. intros (A & B). unfold mdata, meta_getlen. apply zslice_len; unfold meta_cap in *; lia. Qed.

Lemma meta_store_ok m bs : meta_wf m -> zlen bs <= meta_getfree m ->
  exists m', meta_store m bs = Ok m' /\ meta_wf m' /\ mdata m' = mdata m ++ bs /\
             meta_cap m' = meta_cap m /\ mpos m' = mpos m /\ mlast m' = mlast m + zlen bs.
Proof.
  intros (A & B) L. unfold meta_getfree, meta_cap in *. pose proof (zlen_nonneg bs).
  unfold meta_store.
  destruct (zput (mbuf m) (mlast m) bs) as [b|] eqn:P; [|apply zput_none in P; lia].
  simpl. eexists. split; [reflexivity|]. pose proof (zput_len _ _ _ _ P) as Lb.
  unfold meta_wf, meta_cap, mdata. simpl. rewrite Lb. split; [lia|]. split; [|auto].
  rewrite (zslice_split (mpos m) (mlast m) (mlast m + zlen bs)) by (rewrite ?Lb; lia).
  rewrite (zslice_zput_same _ _ _ _ P). f_equal.
  apply (zslice_zput_before _ _ _ _ _ _ P); lia.
Qed.

Lemma meta_store_fault m bs : meta_wf m -> meta_getfree m < zlen bs -> meta_store m bs = Fault FOob.
Proof.
  intros (A & B) L. unfold meta_store, zput, meta_getfree, meta_cap in *.
  destruct (Z.leb_spec 0 (mlast m)), (Z.leb_spec (mlast m + zlen bs) (zlen (mbuf m))); simpl; try lia; reflexivity.
Qed.

Lemma meta_consume_ok m n : meta_wf m -> 0 <= n <= meta_getlen m ->
  meta_wf (meta_consume m n) /\ mdata (meta_consume m n) = zdrop n (mdata m).
Proof.
  intros (A & B) L. unfold meta_getlen, meta_wf, meta_consume, mdata, meta_cap in *. simpl. split; [lia|].
  rewrite (zslice_split (mpos m) (mpos m + n) (mlast m)) by lia.
  rewrite zdrop_app_r by (rewrite zslice_len; lia).
  rewrite zslice_len by lia. rewrite zdrop_le0 by lia. reflexivity.
Qed.

(** ** Abstract bounded FIFO *)
Record fifo := mkFifo { f_cap : Z; f_used : Z; f_q : list Z }.

Definition fifo_do (f : fifo) (o : meta_op) : bool * fifo :=
  match o with
  | MAppend bs =>
      if f_used f + zlen (f_q f) + zlen bs <=? f_cap f
      then (true, mkFifo (f_cap f) (f_used f) (f_q f ++ bs)) else (false, f)
  | MConsume n =>
      if (0 <=? n) && (n <=? zlen (f_q f))
      then (true, mkFifo (f_cap f) (f_used f + n) (zdrop n (f_q f))) else (false, f)
  | MClear => (true, mkFifo (f_cap f) 0 [])
  end.

Fixpoint fifo_run (f : fifo) (os : list meta_op) : list bool * fifo :=
  match os with
  | [] => ([], f)
  | o :: r => let '(b, f') := fifo_do f o in
              let '(bs, f'') := fifo_run f' r in (b :: bs, f'')
  end.

Definition fifo_of (m : meta) : fifo := mkFifo (meta_cap m) (mpos m) (mdata m).

Lemma meta_do_refines m o : meta_wf m ->
  exists b m', meta_do m o = Ok (b, m') /\ meta_wf m' /\ fifo_do (fifo_of m) o = (b, fifo_of m').
Proof.
  intros WF. destruct o as [bs|n|]; simpl.
  - unfold meta_pdata. rewrite (mdata_len m WF).
    replace (mpos m + meta_getlen m + zlen bs <=? meta_cap m) with (zlen bs <=? meta_getfree m)
      by (unfold meta_getlen, meta_getfree; lia).
    destruct (Z.leb_spec (zlen bs) (meta_getfree m)).
    + destruct (meta_store_ok m bs WF H) as (m' & S & W & D & C & P & L).
      rewrite S. simpl. exists true, m'. split; [reflexivity|]. split; [exact W|].
      unfold fifo_of. rewrite D, C, P. reflexivity.
    + exists false, m. auto.
  - rewrite (mdata_len m WF).
    destruct (Z.leb_spec 0 n), (Z.leb_spec n (meta_getlen m)); simpl; try (exists false, m; auto; fail).
    destruct (meta_consume_ok m n WF) as [W D]; [lia|].
    exists true, (meta_consume m n). split; [reflexivity|]. split; [exact W|].
    unfold fifo_of. rewrite D. reflexivity.
  - destruct (meta_clr_wf m WF) as [W D].
    exists true, (meta_clr m). split; [reflexivity|]. split; [exact W|].
    unfold fifo_of. rewrite D. reflexivity.
Qed.

Lemma meta_run_refines : forall os m, meta_wf m ->
  exists bs m', meta_run m os = Ok (bs, m') /\ meta_wf m' /\ fifo_run (fifo_of m) os = (bs, fifo_of m').
Proof.
  induction os as [|o r IH]; intros m WF.
  - exists [], m. auto.
  - destruct (meta_do_refines m o WF) as (b & m1 & D & W1 & F).
    destruct (IH m1 W1) as (bs & m2 & R & W2 & F2).
    exists (b :: bs), m2. cbn [meta_run fifo_run]. rewrite D. cbn [bind fst snd]. rewrite R. cbn [bind fst snd].
    split; [reflexivity|]. split; [exact W2|]. rewrite F, F2. reflexivity.
Qed.

(** ** Flattening *)
Lemma meta_getlens_concat ms : Forall meta_wf ms ->
  meta_getlens ms = zlen (concat (map mdata ms)).
Proof.
  induction 1; simpl; [reflexivity|]. rewrite zlen_app, <- IHForall, mdata_len by assumption. reflexivity.
Qed.

Lemma dump_loop_spec : forall ms d, Forall meta_wf ms -> meta_wf d ->
  meta_getlens ms <= meta_getfree d ->
  exists d', dump_loop d ms = Ok d' /\ meta_wf d' /\ mdata d' = mdata d ++ concat (map mdata ms).
Proof.
  induction ms as [|m r IH]; intros d F W L; simpl in *.
  - exists d. rewrite app_nil_r. auto.
  - inversion F; subst.
    assert (0 <= meta_getlens r).
    { rewrite meta_getlens_concat by assumption. apply zlen_nonneg. }
    destruct (meta_store_ok d (mdata m) W) as (d1 & S & W1 & D1 & C1 & P1 & L1).
    { rewrite mdata_len by assumption. lia. }
    rewrite S. simpl. destruct (IH d1) as (d2 & A & B & C); auto.
    { unfold meta_getfree in *. rewrite C1, L1, mdata_len by assumption. lia. }
    exists d2. rewrite C, D1, <- app_assoc. auto.
Qed.
