(** * Theorems about the binary heap: C10-C12 *)
From Verif Require Import Base Heap_Model Heap_Proofs.
Local Arguments Z.add : simpl never.
Local Arguments Z.sub : simpl never.
Local Arguments Z.mul : simpl never.
Local Arguments Z.div : simpl never.
Local Arguments zlen : simpl never.
Ltac Zify.zify_post_hook ::= Z.div_mod_to_equations.

(** ** Histories: insert a node with a key, remove the minimum, remove a node *)
Inductive pop := PInsert (x k : Z) | PPop | PRemove (x : Z).
Inductive pout := QInsert (ok : bool) | QPop (x : option Z) | QRemove (ok : bool).

Definition heap_step (h : heap) (o : pop) : res (pout * heap) :=
  match o with
  | PInsert x k => let* p := heap_add (set_key h x k) x in Ok (QInsert (fst p), snd p)
  | PPop =>
      let* m := heap_min h in
      match m with
      | None => Ok (QPop None, h)
      | Some x => let* p := heap_del h (hidx h x) in Ok (QPop (Some x), snd p)
      end
  | PRemove x => let* p := heap_del h (hidx h x) in Ok (QRemove (fst p), snd p)
  end.
Fixpoint heap_run (h : heap) (os : list pop) : res (list pout * heap) :=
  match os with
  | [] => Ok ([], h)
  | o :: r => let* p := heap_step h o in let* q := heap_run (snd p) r in Ok (fst p :: fst q, snd q)
  end.

(** ** Specification: a bounded priority queue as a list of (node, key) pairs *)
Definition contents := list (Z * Z).
Definition member (x : Z) (c : contents) : Prop := In x (map fst c).
Definition without (x : Z) (c : contents) : contents := filter (fun e => negb (fst e =? x)) c.
(** [x] is an element with a smallest key *)
Definition is_min (x : Z) (c : contents) : Prop :=
  exists k, In (x, k) c /\ forall y k', In (y, k') c -> k <= k'.

Inductive pq (space : Z) : contents -> list pop -> list pout -> Prop :=
| pq_nil c : pq space c [] []
| pq_insert c x k os outs : zlen c < space -> pq space ((x, k) :: c) os outs ->
    pq space c (PInsert x k :: os) (QInsert true :: outs)
| pq_full c x k os outs : zlen c = space -> pq space c os outs ->
    pq space c (PInsert x k :: os) (QInsert false :: outs)
| pq_empty os outs : pq space [] os outs -> pq space [] (PPop :: os) (QPop None :: outs)
| pq_pop c x os outs : is_min x c -> pq space (without x c) os outs ->
    pq space c (PPop :: os) (QPop (Some x) :: outs)
| pq_remove c x os outs : member x c -> pq space (without x c) os outs ->
    pq space c (PRemove x :: os) (QRemove true :: outs).

(** callers insert only nodes that are not in the heap, and remove only nodes that are *)
Fixpoint allowed (space : Z) (c : contents) (os : list pop) (outs : list pout) : Prop :=
  match os, outs with
  | PInsert x k :: r, QInsert b :: o => ~ member x c /\ allowed space (if b then (x, k) :: c else c) r o
  | PPop :: r, QPop (Some x) :: o => allowed space (without x c) r o
  | PPop :: r, QPop None :: o => allowed space c r o
  | PRemove x :: r, QRemove _ :: o => member x c /\ allowed space (without x c) r o
  | _, _ => True
  end.

(** ** The heap holds the contents *)
Definition holds (h : heap) (c : contents) : Prop :=
  hwf h /\ hn h = zlen c /\ NoDup (map fst c) /\ forall x k, In (x, k) c <-> inh h x /\ hkey h x = k.

Lemma holds_member h c x : holds h c -> member x c <-> inh h x.
Proof.
  intros (W & N & D & M). unfold member. rewrite in_map_iff. split.
  - intros ((y, k) & <- & I). apply M in I. apply I.
  - intros I. exists (x, hkey h x). split; [reflexivity|]. apply M. auto.
Qed.

Lemma without_len x c : NoDup (map fst c) -> member x c -> zlen (without x c) = zlen c - 1.
Proof.
  intros D M. induction c as [|(y, k) c IH]; [contradiction|]. simpl in D. inversion D as [|? ? D1 D2]; subst.
  simpl. destruct (Z.eqb_spec y x) as [->|N]; simpl.
  - assert (E : without x c = c).
    { clear IH D M D2 k. induction c as [|(z, k') c IH]; [reflexivity|]. simpl in *.
      destruct (Z.eqb_spec z x) as [->|]; [exfalso; apply D1; auto|]. simpl. f_equal. apply IH. tauto. }
    fold (without x c). rewrite E, zlen_cons. lia.
  - fold (without x c). rewrite !zlen_cons. rewrite IH; auto; [lia|]. destruct M as [M|M]; [simpl in M; congruence|exact M].
Qed.
Lemma without_NoDup x c : NoDup (map fst c) -> NoDup (map fst (without x c)).
Proof.
  induction c as [|(y, k) c IH]; simpl; intros D; [constructor|]. inversion D as [|? ? D1 D2]; subst.
  destruct (Z.eqb_spec y x); simpl; [auto|]. constructor; [|auto].
  intros I. apply D1. apply in_map_iff in I as (e & E & I). apply filter_In in I as (I & _). apply in_map_iff. eauto.
Qed.
Lemma without_in x c y k : In (y, k) (without x c) <-> In (y, k) c /\ y <> x.
Proof.
  unfold without. rewrite filter_In. simpl. split; intros (A & B); (split; [exact A|]).
  - apply negb_true_iff, Z.eqb_neq in B. exact B.
  - apply negb_true_iff, Z.eqb_neq. exact B.
Qed.

Lemma holds_insert h c x k : holds h c -> ~ member x c ->
  exists b h', heap_add (set_key h x k) x = Ok (b, h') /\ b = (zlen c <? hspace h) /\ hspace h' = hspace h /\
    holds h' (if b then (x, k) :: c else c) /\ (hord h -> hord h') /\
    (b = false -> hn h' = hn h /\ harr h' = harr h /\ hidx h' = hidx h).
Proof.
  intros H NM. pose proof H as (W & N & D & M). rewrite (holds_member h c x H) in NM.
  assert (W1 : hwf (set_key h x k)) by exact W.
  assert (NI : ~ inh (set_key h x k) x) by exact NM.
  assert (SK : hord h -> hord (set_key h x k)).
  { intros O j J. simpl in J. specialize (O j J). unfold slotkey in *. simpl.
    destruct W as (R & W). destruct (W j ltac:(lia)) as (y & E & X). destruct (W (j / 2) ltac:(lia)) as (y2 & E2 & X2).
    rewrite E, E2 in *. rewrite !upd_other; [exact O| |].
    - intros ->. apply NM. split; rewrite X; auto; lia.
    - intros ->. apply NM. split; rewrite X2; auto; lia. }
  destruct (Z.ltb_spec (zlen c) (hspace h)) as [L|L].
  - destruct (heap_add_spec (set_key h x k) x W1 NI) as (h' & E & W' & M' & K' & N' & S' & O').
    { simpl. lia. }
    exists true, h'. split; [exact E|]. split; [reflexivity|]. split; [exact S'|]. split; [|split; [auto|discriminate]].
    split; [exact W'|]. split; [rewrite N'; simpl; rewrite zlen_cons; lia|]. split.
    { simpl. constructor; [|exact D]. fold (member x c). rewrite (holds_member h c x H). exact NM. }
    intros y k'. simpl. rewrite M, M', K'. simpl. change (inh (set_key h x k) y) with (inh h y). split.
    + intros [[= <- <-]|(A & B)]; [split; [auto|apply upd_same]|]. split; [auto|]. rewrite upd_other; [exact B|]. intros ->. contradiction.
    + intros ([A| ->] & B).
      * right. split; [exact A|]. rewrite upd_other in B; [exact B|]. intros ->. contradiction.
      * rewrite upd_same in B. left. congruence.
  - rewrite heap_add_full by (simpl; lia). exists false. eexists. split; [reflexivity|]. split; [reflexivity|]. split; [reflexivity|].
    split; [|split; [exact SK|auto]]. split; [exact W1|]. split; [exact N|]. split; [exact D|].
    intros y k'. rewrite M. simpl. change (inh (set_key h x k) y) with (inh h y).
    split; intros (A & B); (split; [exact A|]); [rewrite upd_other; [exact B|]|rewrite upd_other in B; [exact B|]]; intros ->; contradiction.
Qed.

Lemma holds_remove h c x : holds h c -> member x c ->
  exists h', heap_del h (hidx h x) = Ok (true, h') /\ hspace h' = hspace h /\ holds h' (without x c) /\
    (hord h -> fits_below h x -> hord h').
Proof.
  intros H ME. pose proof H as (W & N & D & M). pose proof ME as IN. rewrite (holds_member h c x H) in IN.
  destruct (heap_del_spec h x W IN) as (h' & E & W' & M' & K' & N' & S' & O').
  exists h'. split; [exact E|]. split; [exact S'|]. split; [|exact O'].
  split; [exact W'|]. split; [rewrite without_len; auto; lia|]. split; [apply without_NoDup; exact D|].
  intros y k. rewrite without_in, M, M', K'. tauto.
Qed.

Lemma create_holds n : 0 <= n -> holds (heap_create n) [] /\ hord (heap_create n).
Proof.
  intros L. destruct (heap_create_wf n L) as (W & O & E). split; [|exact O].
  split; [exact W|]. split; [reflexivity|]. split; [constructor|]. intros x k. simpl. split; [tauto|]. intros (I & _). exact (E x I).
Qed.

(** ** C10: with insertions and removals of the minimum *)
Definition no_remove (o : pop) : Prop := match o with PRemove _ => False | _ => True end.

Lemma run_pq : forall os h c outs h', holds h c -> hord h -> Forall no_remove os ->
  heap_run h os = Ok (outs, h') -> allowed (hspace h) c os outs -> pq (hspace h) c os outs.
Proof.
  induction os as [|o os IH]; intros h c outs h' H O F R A.
  - injection R as <- _. constructor.
  - pose proof (Forall_inv F) as F1. apply Forall_inv_tail in F.
    simpl in R. apply bind_ok in R as ((o1, h1) & R1 & R). apply bind_ok in R as ((os1, h2) & R2 & R).
    injection R as <- <-. simpl in *.
    destruct o as [x k| |x]; [| |contradiction]; simpl in R1.
    + apply bind_ok in R1 as ((b, h3) & R1 & [= <- <-]). simpl in A, R2. destruct A as (NM & A).
      destruct (holds_insert h c x k H NM) as (b' & h4 & E & EB & S & H' & O' & _). rewrite R1 in E. injection E as <- <-.
      rewrite <- S in *. destruct (Z.ltb_spec (zlen c) (hspace h3)) as [L|L]; subst b.
      * apply pq_insert; [exact L|]. eapply IH; eauto.
      * assert (zlen c = hspace h3). { destruct H as ((R' & _) & N & _). rewrite S in L. rewrite <- N in L. rewrite S. lia. }
        apply pq_full; [assumption|]. eapply IH; eauto.
    + destruct (heap_min_ok h (proj1 H)) as (m & EM & MM). rewrite EM in R1. cbn [bind] in R1. destruct m as [x|].
      * apply bind_ok in R1 as ((b, h3) & R1 & [= <- <-]). simpl in A, R2. destruct MM as (IN & ROOT).
        pose proof (proj2 (holds_member h c x H) IN) as ME.
        destruct (holds_remove h c x H ME) as (h4 & E & S & H' & O'). rewrite R1 in E. injection E as -> ->.
        rewrite <- S in *. apply pq_pop.
        -- exists (hkey h x). destruct H as (W & N & D & M). split; [apply M; auto|].
           intros y k' I. apply M in I as (I & <-). eapply hord_min; eauto.
        -- eapply IH; eauto. apply O'; [exact O|]. left. exact ROOT.
      * injection R1 as <- <-. destruct H as (W & N & D & M). rewrite MM in N. symmetry in N. apply zlen_0_nil in N as ->.
        apply pq_empty. eapply IH; eauto. split; auto.
Qed.

(** the caller's side of the contract, without reference to outputs: [legal c os] *)
Fixpoint legal (space : Z) (c : contents) (os : list pop) : Prop :=
  match os with
  | [] => True
  | PInsert x k :: r => ~ member x c /\ legal space (if zlen c <? space then (x, k) :: c else c) r
  | PPop :: r => match c with [] => legal space [] r | _ => forall x, is_min x c -> legal space (without x c) r end
  | PRemove x :: r => member x c /\ legal space (without x c) r
  end.

Lemma run_legal : forall os h c, holds h c -> hord h -> Forall no_remove os -> legal (hspace h) c os ->
  exists outs h', heap_run h os = Ok (outs, h') /\ allowed (hspace h) c os outs.
Proof.
  induction os as [|o os IH]; intros h c H O F L; [exists [], h; simpl; auto|].
  pose proof (Forall_inv F) as F1. apply Forall_inv_tail in F. cbn [heap_run].
  destruct o as [x k| |x]; [| |contradiction]; simpl in L.
  - destruct L as (NM & L). destruct (holds_insert h c x k H NM) as (b & h1 & E & EB & S & H' & O' & _).
    cbn [heap_step]. rewrite E. cbn [bind fst snd]. rewrite <- S in L. subst b. rewrite <- S in *.
    destruct (IH h1 _ H' (O' O) F L) as (outs & h2 & R & A). rewrite R. cbn [bind fst snd].
    do 2 eexists. split; [reflexivity|]. simpl. auto.
  - cbn [heap_step]. destruct (heap_min_ok h (proj1 H)) as (m & EM & MM). rewrite EM. cbn [bind]. destruct m as [x|].
    + destruct MM as (IN & ROOT). pose proof (proj2 (holds_member h c x H) IN) as ME.
      destruct (holds_remove h c x H ME) as (h1 & E & S & H' & O'). rewrite E. cbn [bind fst snd].
      assert (MIN : is_min x c).
      { exists (hkey h x). destruct H as (W & N & D & M). split; [apply M; auto|].
        intros y k' I. apply M in I as (I & <-). eapply hord_min; eauto. }
      destruct c as [|e c]; [contradiction|]. specialize (L x MIN). rewrite <- S in *.
      destruct (IH h1 _ H' (O' O (or_introl ROOT)) F L) as (outs & h2 & R & A). rewrite R. cbn [bind fst snd].
      do 2 eexists. split; [reflexivity|]. exact A.
    + pose proof H as (W & N & D & M). rewrite MM in N. symmetry in N. apply zlen_0_nil in N as ->. cbn [bind fst snd].
      destruct (IH h [] H O F L) as (outs & h2 & R & A). rewrite R. cbn [bind fst snd].
      do 2 eexists. split; [reflexivity|]. exact A.
Qed.

Theorem C10_minima_in_order : forall space os, 0 <= space -> Forall no_remove os -> legal space [] os ->
  exists outs h', heap_run (heap_create space) os = Ok (outs, h') /\ pq space [] os outs.
Proof.
  intros space os S F L. destruct (create_holds space S) as (H & O).
  destruct (run_legal os (heap_create space) [] H O F L) as (outs & h' & R & A).
  exists outs, h'. split; [exact R|]. exact (run_pq os (heap_create space) [] outs h' H O F R A).
Qed.
Print Assumptions C10_minima_in_order.

(** a refused insertion changes nothing but the key of the refused node *)
Theorem C10_full_unchanged : forall h c x k h', holds h c -> ~ member x c ->
  heap_add (set_key h x k) x = Ok (false, h') -> holds h' c /\ hspace h <= zlen c.
Proof.
  intros h c x k h' H NM E. destruct (holds_insert h c x k H NM) as (b & h1 & E1 & EB & S & H' & _).
  rewrite E in E1. injection E1 as <- <-. split; [exact H'|]. symmetry in EB. lia.
Qed.
Print Assumptions C10_full_unchanged.

(** ties, a full heap, re-insertion *)
Definition hdemo : list pop :=
  [PInsert 1 50; PInsert 2 30; PInsert 3 30; PInsert 4 10; PInsert 5 99; PPop; PPop; PPop; PInsert 4 70; PPop; PPop; PPop].
Example C10_demo : Forall no_remove hdemo /\ 
  match heap_run (heap_create 4) hdemo with
  | Ok (outs, _) => outs = [QInsert true; QInsert true; QInsert true; QInsert true; QInsert false; QPop (Some 4); QPop (Some 3);
                            QPop (Some 2); QInsert true; QPop (Some 1); QPop (Some 4); QPop None]
  | _ => False end.
Proof. split; [repeat constructor|]. vm_compute. reflexivity. Qed.
Example C10_demo_legal : legal 4 [] [PInsert 1 50; PInsert 2 30; PPop; PInsert 2 60; PPop; PPop; PPop].
Proof.
  simpl. split; [tauto|]. split; [unfold member; simpl; lia|]. intros x (k & I & M).
  simpl in I. destruct I as [[= <- <-]|[[= <- <-]|[]]].
  - split; [unfold member, without; simpl; lia|]. intros x (k & I2 & M2). simpl in I2. destruct I2 as [[= <- <-]|[[= <- <-]|[]]].
    + intros x (k & I3 & M3). simpl in I3. destruct I3 as [[= <- <-]|[]]. simpl. exact I.
    + intros x (k & I3 & M3). simpl in I3. destruct I3 as [[= <- <-]|[]]. simpl. exact I.
  - exfalso. specialize (M 2 30). simpl in M. specialize (M (or_introl eq_refl)). lia.
Qed.

(** ** C11: removing a node removes that node only; all others know their position *)
Theorem C11_removal_exact : forall h x, hwf h -> inh h x ->
  exists h', heap_del h (hidx h x) = Ok (true, h') /\ hn h' = hn h - 1 /\
    (forall y, inh h' y <-> inh h y /\ y <> x) /\ (forall y, hkey h' y = hkey h y) /\ hwf h'.
Proof.
  intros h x W I. destruct (heap_del_spec h x W I) as (h' & E & W' & M' & K' & N' & S' & O').
  exists h'. split; [exact E|]. split; [exact N'|]. split; [exact M'|]. split; [|exact W']. intros y. rewrite K'. reflexivity.
Qed.
Print Assumptions C11_removal_exact.

Definition heap_of (os : list pop) (n : Z) : heap := match heap_run (heap_create n) os with Ok (_, h) => h | _ => heap_create n end.
Definition h7 := heap_of [PInsert 1 5; PInsert 2 3; PInsert 3 8; PInsert 4 1; PInsert 5 9; PInsert 6 2; PInsert 7 7] 10.
Example C11_demo : hwf h7 /\ inh h7 2 /\ hn h7 = 7 /\ hidx h7 2 = 2.
Proof.
  split.
  - split; [vm_compute; split; discriminate|]. intros i I. change (hn h7) with 7 in I.
    assert (C : i = 1 \/ i = 2 \/ i = 3 \/ i = 4 \/ i = 5 \/ i = 6 \/ i = 7) by lia.
    destruct C as [->|[->|[->|[->|[->|[->| ->]]]]]]; eexists; split; vm_compute; reflexivity.
  - split; [split; [vm_compute; split; discriminate|vm_compute; reflexivity]|]. split; vm_compute; reflexivity.
Qed.

(** ** C12: the minimum after removing an arbitrary node *)
Definition C12_property : Prop := forall space os outs h',
  heap_run (heap_create space) os = Ok (outs, h') -> allowed space [] os outs -> pq space [] os outs.

(** the last node (key 3) is put where key 20 was, below key 10: after the two smallest are
    taken the heap reports 10 although 3 is still in it *)
Definition bad_heap : list pop :=
  [PInsert 1 1; PInsert 2 10; PInsert 3 2; PInsert 4 20; PInsert 5 30; PInsert 6 3; PRemove 4; PInsert 7 100; PPop; PPop].
Theorem C12_min_after_removal_refuted :
  (exists outs h', heap_run (heap_create 10) bad_heap = Ok (outs, h') /\ allowed 10 [] bad_heap outs /\
     outs = [QInsert true; QInsert true; QInsert true; QInsert true; QInsert true; QInsert true; QRemove true; QInsert true; QPop (Some 1); QPop (Some 3)] /\
     heap_min h' = Ok (Some 2) /\ hkey h' 2 = 10 /\ inh h' 6 /\ hkey h' 6 = 3).
Proof.
  destruct (heap_run (heap_create 10) bad_heap) as [[outs h']| |] eqn:E.
  2, 3: exfalso; vm_compute in E; discriminate E.
  assert (P : match heap_run (heap_create 10) bad_heap with
    | Ok (o, h) => (match heap_min h with Ok (Some x) => x =? 2 | _ => false end) && (hkey h 2 =? 10) && (hkey h 6 =? 3)
         && (1 <=? hidx h 6) && (hidx h 6 <=? hn h) && (match harr h (hidx h 6) with Some y => y =? 6 | None => false end)
    | _ => false end = true) by (vm_compute; reflexivity).
  assert (Q : match heap_run (heap_create 10) bad_heap with Ok (o, h) => o | _ => [] end =
    [QInsert true; QInsert true; QInsert true; QInsert true; QInsert true; QInsert true; QRemove true; QInsert true; QPop (Some 1); QPop (Some 3)]) by (vm_compute; reflexivity).
  rewrite E in P, Q. subst outs. exists [QInsert true; QInsert true; QInsert true; QInsert true; QInsert true; QInsert true; QRemove true; QInsert true; QPop (Some 1); QPop (Some 3)], h'.
  clear E. repeat (apply andb_prop in P as (P & ?)).
  split; [reflexivity|]. split.
  { simpl. unfold member. simpl. lia. }
  split; [reflexivity|]. destruct (heap_min h') as [[m|]| |]; try discriminate P.
  split; [f_equal; f_equal; lia|]. split; [lia|]. split; [|lia].
  split; [lia|]. destruct (harr h' (hidx h' 6)); [f_equal; lia|discriminate].
Qed.
Print Assumptions C12_min_after_removal_refuted.

Lemma pq_app_min space c x os outs : pq space c (PPop :: os) (QPop (Some x) :: outs) -> is_min x c.
Proof. intros H. inversion H; auto. Qed.

Theorem C12_refuted : ~ C12_property.
Proof.
  intros P. set (os := bad_heap ++ [PPop]).
  assert (E : exists h', heap_run (heap_create 10) os = Ok ([QInsert true; QInsert true; QInsert true; QInsert true; QInsert true; QInsert true; QRemove true; QInsert true; QPop (Some 1); QPop (Some 3); QPop (Some 2)], h')).
  { destruct (heap_run (heap_create 10) os) as [[o h']| |] eqn:E.
    2, 3: exfalso; vm_compute in E; discriminate E.
    exists h'. do 2 f_equal.
    assert (Q : match heap_run (heap_create 10) os with Ok (o, h) => o | _ => [] end =
      [QInsert true; QInsert true; QInsert true; QInsert true; QInsert true; QInsert true; QRemove true; QInsert true; QPop (Some 1); QPop (Some 3); QPop (Some 2)]) by (vm_compute; reflexivity).
    rewrite E in Q. exact Q. }
  destruct E as (h' & E). specialize (P _ _ _ _ E).
  assert (A : allowed 10 [] os [QInsert true; QInsert true; QInsert true; QInsert true; QInsert true; QInsert true; QRemove true; QInsert true; QPop (Some 1); QPop (Some 3); QPop (Some 2)]).
  { simpl. unfold member. simpl. lia. }
  specialize (P A). clear A E.
  repeat (match type of P with pq _ _ (PPop :: nil) _ => fail 1 | _ => inversion P as [| ? ? ? ? ? ? P' | ? ? ? ? ? ? P' | ? ? P' | ? ? ? ? ? P' | ? ? ? ? ? P']; subst; clear P; rename P' into P end).
  apply pq_app_min in P. destruct P as (k & I & M). vm_compute in I.
  destruct I as [I|[I|[I|[I|[]]]]]; try discriminate I. injection I as <-.
  specialize (M 6 3). assert (K : In (6, 3) (without 3 (without 1 ((7, 100) :: without 4 [(6, 3); (5, 30); (4, 20); (3, 2); (2, 10); (1, 1)])))) by (vm_compute; auto).
  specialize (M K). lia.
Qed.
Print Assumptions C12_refuted.

(** Exactly when a removal keeps the heap in order: the node that fills the gap (the last
    one) must not be smaller than the parent of the removed node. *)
Theorem C12_min_after_removal_partial : forall h x, hwf h -> hord h -> inh h x ->
  exists h', heap_del h (hidx h x) = Ok (true, h') /\ (hord h' <-> fits_below h x) /\
    (fits_below h x -> forall m, heap_min h' = Ok (Some m) -> forall y, inh h y -> y <> x -> hkey h m <= hkey h y).
Proof.
  intros h x WF O IN. destruct (heap_del_spec h x WF IN) as (h' & E & W' & M' & K' & N' & S' & O').
  exists h'. split; [exact E|]. split; [split|].
  - intros OH. destruct (Z_le_gt_dec (slotkey h (hidx h x / 2)) (slotkey h (hn h))) as [L|L]; [right; exact L|].
    pose proof WF as (R & W). pose proof IN as (I & EX).
    destruct (Z.eq_dec (hidx h x) 1) as [E1|E1]; [left; exact E1|]. exfalso.
    pose proof (O (hidx h x) ltac:(lia)) as O1.
    assert (NT : hidx h x <> hn h) by (intros Q; rewrite Q in *; lia).
    destruct (W (hn h)) as (t & Et & Xt); [lia|].
    assert (KT : slotkey h (hn h) = hkey h t) by (unfold slotkey; rewrite Et; reflexivity).
    (* the last node stays where the removed one was *)
    unfold heap_del in E. destruct (Z.ltb_spec (hspace h) 1); [lia|]. destruct (Z.ltb_spec (hn h) 1); [lia|]. simpl orb in E. cbv iota in E.
    destruct (Z.ltb_spec (hn h) (hidx h x)); [lia|]. rewrite (aget_ok h (hn h) t) in E by (auto; lia). cbn [bind] in E.
    assert (SD : sift_down (S (Z.to_nat (hn h))) (set_n h (hn h - 1)) t (hidx h x) = Ok (stored (set_n h (hn h - 1)) (hidx h x) t)).
    { cbn [sift_down set_n hn hkey]. destruct (Z.leb_spec (2 * hidx h x) (hn h - 1)) as [L2|L2]; [|apply aput_ok; simpl; lia].
      assert (CH : exists c y, (if 2 * hidx h x + 1 <=? hn h - 1 then
                     let* l := aget (set_n h (hn h - 1)) (2 * hidx h x) in let* r := aget (set_n h (hn h - 1)) (2 * hidx h x + 1) in
                     Ok (if hkey h l <? hkey h r then 2 * hidx h x else 2 * hidx h x + 1)
                   else Ok (2 * hidx h x)) = Ok c /\ 2 <= c <= hn h /\ c / 2 = hidx h x /\ aget (set_n h (hn h - 1)) c = Ok y /\ hkey h y = slotkey h c).
      { destruct (W (2 * hidx h x)) as (l & El & _); [lia|].
        assert (GL : aget (set_n h (hn h - 1)) (2 * hidx h x) = Ok l) by (apply aget_ok; [simpl; lia|exact El]).
        destruct (Z.leb_spec (2 * hidx h x + 1) (hn h - 1)) as [L3|L3].
        - destruct (W (2 * hidx h x + 1)) as (r & Er & _); [lia|].
          assert (GR : aget (set_n h (hn h - 1)) (2 * hidx h x + 1) = Ok r) by (apply aget_ok; [simpl; lia|exact Er]).
          rewrite GL, GR. cbn [bind]. destruct (hkey h l <? hkey h r).
          + exists (2 * hidx h x), l. repeat split; auto; try lia. unfold slotkey. rewrite El. reflexivity.
          + exists (2 * hidx h x + 1), r. repeat split; auto; try lia. unfold slotkey. rewrite Er. reflexivity.
        - exists (2 * hidx h x), l. repeat split; auto; try lia. unfold slotkey. rewrite El. reflexivity. }
      destruct CH as (c & y & -> & C1 & C2 & GY & KY). cbn [bind]. rewrite GY. cbn [bind].
      pose proof (O c ltac:(lia)) as O2. rewrite C2 in O2.
      destruct (Z.leb_spec (hkey h y) (hkey h t)); [lia|]. apply aput_ok. simpl. lia. }
    rewrite SD in E. cbn [bind] in E. injection E as <-.
    specialize (OH (hidx h x)). simpl in OH. specialize (OH ltac:(lia)).
    unfold slotkey in OH, L. simpl in OH. rewrite upd_same in OH. rewrite upd_other in OH by lia.
    rewrite Et in L. lia.
  - intros FB. apply O'; assumption.
  - intros FB m Hm y Y N. rewrite <- K'. eapply hord_min; eauto. apply M'. auto.
Qed.
Print Assumptions C12_min_after_removal_partial.

Example C12_demo : hord h7 /\ fits_below h7 6 /\ hidx h7 6 <> 1.
Proof.
  split; [|split].
  - intros j J. change (hn h7) with 7 in J.
    assert (C : j = 2 \/ j = 3 \/ j = 4 \/ j = 5 \/ j = 6 \/ j = 7) by lia.
    destruct C as [->|[->|[->|[->|[->| ->]]]]]; vm_compute; discriminate.
  - right. vm_compute. discriminate.
  - vm_compute. discriminate.
Qed.
