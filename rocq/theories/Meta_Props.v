(** * Theorems about message buffers: C07, C08. *)
From Verif Require Import Base Meta_Model Meta_Proofs.

(** C07: every history of a buffer is one of the bounded FIFO, no fault occurs. *)
Theorem C07_buffer_is_bounded_fifo :
  forall cap ops, 0 <= cap ->
    exists results m, meta_run (meta_new cap) ops = Ok (results, m) /\
      fifo_run (mkFifo cap 0 []) ops = (results, mkFifo cap (mpos m) (mdata m)) /\
      meta_getlen m = zlen (mdata m) /\ meta_getfree m = cap - mpos m - zlen (mdata m) /\
      0 <= meta_getfree m.
Proof.
  intros cap ops H. destruct (meta_new_wf cap H) as (W & C & D).
  destruct (meta_run_refines ops (meta_new cap) W) as (bs & m & R & W' & F).
  exists bs, m. unfold fifo_of in F. rewrite C, D in F.
  assert (E : f_cap (snd (fifo_run (mkFifo cap 0 []) ops)) = cap).
  { clear. generalize 0 at 1, (@nil Z). induction ops as [|o r IH]; intros u q; [reflexivity|].
    cbn [fifo_run]. destruct o; simpl;
    repeat match goal with |- context [if ?b then _ else _] => destruct b end;
    match goal with |- context [fifo_run (mkFifo cap ?u ?q) r] =>
      specialize (IH u q); destruct (fifo_run (mkFifo cap u q) r) end; exact IH. }
  change (mpos (meta_new cap)) with 0 in F. rewrite F in E. simpl in E.
  split; [exact R|]. rewrite E in F. split; [exact F|].
  pose proof (mdata_len m W'). unfold meta_getlen, meta_getfree, meta_wf in *. lia.
Qed.
Print Assumptions C07_buffer_is_bounded_fifo.

Example C07_example :
  meta_run (meta_new 4) [MAppend [1; 2; 3]; MConsume 2; MAppend [7; 8]; MAppend [9]; MClear; MAppend [5; 6; 7; 8]]
  = Ok ([true; true; false; true; true; true], mkMeta [5; 6; 7; 8] 0 4).
Proof. vm_compute. reflexivity. Qed.

(** C08: flattening a chain (of at least one buffer). *)
Theorem C08_dump_is_concatenation :
  forall ms, ms <> [] -> Forall (fun m => 0 <= mpos m <= mlast m /\ mlast m <= zlen (mbuf m)) ms ->
    exists d, meta_dump true ms = Ok (Some d) /\
      mdata d = concat (map mdata ms) /\ zlen (mdata d) = meta_getlens ms.
Proof.
  intros ms NE F. assert (F' : Forall meta_wf ms) by exact F.
  assert (M : forall m1 m2 r, ms = m1 :: m2 :: r ->
     exists d, dump_loop (meta_new (meta_getlens ms)) ms = Ok d /\ mdata d = concat (map mdata ms)).
  { intros m1 m2 r E.
    assert (0 <= meta_getlens ms) by (rewrite meta_getlens_concat by assumption; apply zlen_nonneg).
    destruct (meta_new_wf (meta_getlens ms) H) as (W & C & D).
    destruct (dump_loop_spec ms (meta_new (meta_getlens ms)) F' W) as (d & A & _ & B).
    { unfold meta_getfree. rewrite C. simpl. lia. }
    exists d. split; [exact A|]. rewrite B, D. reflexivity. }
  destruct ms as [|m1 [|m2 r]]; [congruence| |].
  - exists m1. simpl. inversion F'; subst. rewrite app_nil_r. rewrite mdata_len by assumption.
    split; [reflexivity|]. split; [reflexivity|lia].
  - destruct (M m1 m2 r eq_refl) as (d & A & B). exists d.
    unfold meta_dump. rewrite A. split; [reflexivity|]. split; [exact B|].
    rewrite B, <- meta_getlens_concat by assumption. reflexivity.
Qed.
Print Assumptions C08_dump_is_concatenation.
(** without memory: NULL for a chain of several buffers; a single buffer needs none *)
Theorem C08_refused : forall ms, ms <> [] ->
  (exists m, ms = [m] /\ meta_dump false ms = Ok (Some m)) \/ ((1 < length ms)%nat /\ meta_dump false ms = Ok None).
Proof.
  intros [|m [|m2 r]] NE; [congruence|left; eauto|right]. split; [cbn [length]; lia|reflexivity].
Qed.
Print Assumptions C08_refused.

Example C08_example :
  let a := mkMeta [1; 2; 3; 0] 1 3 in let b := mkMeta [4; 5] 0 2 in
  exists d, meta_dump true [a; b] = Ok (Some d) /\ mdata d = [2; 3; 4; 5].
Proof. eexists. split; vm_compute; reflexivity. Qed.
