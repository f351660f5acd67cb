(** * Properties of the memory pool: C03, C04, C05, C06 *)
From Verif Require Import Base Queue_Model Queue_Proofs Queue_Props Pool_Model Pool_Proofs.
From Coq Require Import Permutation.

(** Histories: initialisation, allocations of any positive size, frees of live blocks,
    writes inside live blocks. [live] lists the blocks handed out and not freed, with the
    size that was requested for each. *)
Inductive reach (L : layout) : pool -> list (Z * Z) -> Prop :=
| r_init m0 by0 s : pool_init L m0 by0 = Ok s -> reach L s []
| r_alloc s live n r s' : reach L s live -> 0 < n -> pool_alloc L s n = Ok (r, s') ->
    reach L s' (match r with Some p => (p, n) :: live | None => live end)
| r_free s live p n rc s' : reach L s live -> In (p, n) live -> pool_free L s p = Ok (rc, s') ->
    reach L s' (filter (fun e => negb (fst e =? p)) live)
| r_write s live p n off v : reach L s live -> In (p, n) live -> 0 <= off < n -> reach L (pool_write s (p + off) v) live.

(** how many live blocks a class has (a request belongs to the smallest class it fits) *)
Definition nlive (k : Z) (live : list (Z * Z)) : Z := zlen (filter (fun e => class_of (snd e) =? k) live).

Lemma nlive_lives k live : zlen (lives k live) = nlive k live.
Proof. unfold lives, nlive, zlen. rewrite map_length. reflexivity. Qed.

Lemma class_cases L s live U I n : layout_ok L -> PI L s live U I -> 0 < n ->
  (U 0 = [] \/ 16384 < n) \/ (U 0 <> [] /\ 0 < n <= 16384 /\ ((exists q r, U (class_of n) = q :: r) \/ (512 < n /\ U (class_of n) = []))).
Proof.
  intros LO P B. destruct (U 0) as [|u0 ur] eqn:E0; [left; auto|]. destruct (Z_le_gt_dec n 16384) as [Y|Y]; [|left; right; lia].
  right. split; [congruence|]. split; [lia|]. destruct (U (class_of n)) as [|q r] eqn:EU; [|left; eauto]. right. split; [|reflexivity].
  destruct (Z_le_gt_dec n 512) as [Z5|Z5]; [|lia]. exfalso. unfold class_of in EU. rewrite (proj2 (Z.leb_le n 512)) in EU by lia. congruence.
Qed.

Lemma reach_PI L s live : layout_ok L -> reach L s live -> exists U I, PI L s live U I.
Proof.
  intros LO R. induction R as [m0 by0 s E|s live n r s' R IH B E|s live p n rc s' R IH X E|s live p n off v R IH X B].
  - destruct (pool_init_PI L m0 by0 LO) as (s1 & E1 & P). rewrite E in E1. injection E1 as <-. eauto.
  - destruct IH as (U & I & P). destruct (class_cases L s live U I n LO P B) as [C|(U0 & BN & [(q & rr & UK)|(B5 & UK)])].
    + rewrite (alloc_none L s live U I P n B C) in E. injection E as <- <-. eauto.
    + destruct (alloc_ok L s live U I LO P n q rr BN U0 UK) as (s1 & E1 & _ & P1). rewrite E in E1. injection E1 as -> <-. eauto.
    + rewrite (alloc_overflow L s live U I LO P n) in E; try assumption; [discriminate|lia].
  - destruct IH as (U & I & P). destruct (free_ok L s live U I LO P p n X) as (s1 & E1 & _ & P1). rewrite E in E1. injection E1 as _ <-. eauto.
  - destruct IH as (U & I & P). exists U, I. destruct P. split; assumption.
Qed.

Lemma nlive_U L s live U I k : PI L s live U I -> In k classes -> zlen (U k) = cnum k - nlive k live.
Proof. intros P H. rewrite <- nlive_lives. exact (pi_count L s live U I P k H). Qed.
Lemma U_nonempty L s live U I k : PI L s live U I -> In k classes -> (U k <> [] <-> nlive k live < cnum k).
Proof.
  intros P H. pose proof (nlive_U L s live U I k P H) as E. destruct (U k) as [|x l]; [change (zlen (@nil Z)) with 0 in E|rewrite zlen_cons in E; pose proof (zlen_nonneg l)]; split; intros; try congruence; try lia.
Qed.

(** C03. In every reachable state, as long as neither class 0 (which gates every
    allocation) nor the class of the request is used up: the allocation succeeds, the block
    is zero over at least the requested size, does not overlap any live block, and the
    contents of all live blocks are unchanged. *)
Theorem C03_alloc : forall L s live n,
  layout_ok L -> reach L s live -> 0 < n <= 16384 ->
  nlive 0 live < 2048 -> nlive (class_of n) live < cnum (class_of n) ->
  exists p s', pool_alloc L s n = Ok (Some p, s') /\
    (forall i, p <= i < p + n -> pby s' i = 0) /\
    (forall q m, In (q, m) live -> disjoint p n q m /\ forall i, q <= i < q + m -> pby s' i = pby s i).
Proof.
  intros L s live n LO R B N0 NK. destruct (reach_PI L s live LO R) as (U & I & P).
  destruct (class_of_range n B) as (H & BS). assert (H0 : In 0 classes) by (simpl; tauto).
  apply (U_nonempty L s live U I 0 P H0) in N0. apply (U_nonempty L s live U I _ P H) in NK.
  destruct (U (class_of n)) as [|q r] eqn:UK; [congruence|].
  destruct (alloc_ok L s live U I LO P n q r B N0 UK) as (s' & E & BY & P').
  exists (q + 24), s'. split; [exact E|]. split.
  - intros i BI. rewrite BY. rewrite (proj2 (Z.leb_le _ _)), (proj2 (Z.ltb_lt _ _)) by lia. reflexivity.
  - intros p m X. assert (D : disjoint p m (q + 24) (csize (class_of n))).
    { apply (live_disjoint_free L s live U I LO P p m (class_of n) q X H). rewrite UK. left. reflexivity. }
    unfold disjoint in D. split; [unfold disjoint; lia|]. intros i BI. rewrite BY.
    destruct ((q + 24 <=? i) && (i <? q + 24 + csize (class_of n))) eqn:C; [|reflexivity]. apply andb_true_iff in C as (C1 & C2). apply Z.leb_le in C1. apply Z.ltb_lt in C2. lia.
Qed.
Print Assumptions C03_alloc.

(** C03, frees: freeing a live block always succeeds and changes no byte at all. *)
Theorem C03_free : forall L s live p n,
  layout_ok L -> reach L s live -> In (p, n) live ->
  exists s', pool_free L s p = Ok (0, s') /\ forall i, pby s' i = pby s i.
Proof.
  intros L s live p n LO R X. destruct (reach_PI L s live LO R) as (U & I & P).
  destruct (free_ok L s live U I LO P p n X) as (s' & E & B & _). exists s'. split; [exact E|]. intros i. rewrite B. reflexivity.
Qed.
Print Assumptions C03_free.

(** all live blocks are pairwise disjoint in every reachable state *)
Theorem C03_pairwise_disjoint : forall L s live l1 l2 l3 p n q m,
  layout_ok L -> reach L s live -> live = l1 ++ (p, n) :: l2 ++ (q, m) :: l3 -> disjoint p n q m.
Proof.
  intros L s live l1 l2 l3 p n q m LO R E. destruct (reach_PI L s live LO R) as (U & I & P).
  assert (X1 : In (p, n) live) by (rewrite E; apply in_or_app; right; left; reflexivity).
  assert (X2 : In (q, m) live) by (rewrite E; apply in_or_app; right; right; apply in_or_app; right; left; reflexivity).
  destruct (pi_live_obj L s live U I P p n X1) as (H1 & O1 & B1). destruct (pi_live_obj L s live U I P q m X2) as (H2 & O2 & B2).
  assert (NE : p - 24 <> q - 24).
  { intros EQ. assert (p = q) by lia. subst q. pose proof (pi_obj_i L s live U I P _ _ H1 O1) as OO1. pose proof (pi_obj_i L s live U I P _ _ H2 O2) as OO2.
    pose proof (objs_diff L _ _ _ LO H1 H2 OO1 OO2) as KE.
    assert (ND : NoDup (lives (class_of n) live)).
    { eapply Permutation_NoDup; [symmetry; apply (pi_live _ _ _ _ _ P _ H1)|]. eapply nodup_r. apply (pi_nodup L s live U I P _ H1). }
    rewrite E in ND. unfold lives in ND. rewrite filter_app, map_app in ND. cbn [filter snd] in ND. rewrite Z.eqb_refl in ND. cbn [map fst] in ND.
    apply NoDup_remove in ND as (_ & ND). apply ND. apply in_or_app. right. apply in_map_iff. exists (p, m). split; [reflexivity|].
    apply filter_In. split; [apply in_or_app; right; left; reflexivity|]. cbn [snd]. rewrite <- KE. apply Z.eqb_refl. }
  pose proof (objs_disjoint L _ _ _ _ LO H1 H2 (pi_obj_i L s live U I P _ _ H1 O1) (pi_obj_i L s live U I P _ _ H2 O2) NE) as D.
  unfold disjoint, stride in *. lia.
Qed.
Print Assumptions C03_pairwise_disjoint.

(** a concrete placement *)
Definition lay0 : layout := mkLay 4096 (fun k => 1048576 + k * 33554432).
Example lay0_ok : layout_ok lay0.
Proof.
  split; [reflexivity|]. split.
  - intros k H. kcases H; unfold disjoint; vm_compute; (split; [reflexivity|left; discriminate]).
  - intros k k' H H'. kcases H; kcases H'; intros NE; try congruence; unfold disjoint; vm_compute; first [left; discriminate | right; discriminate].
Qed.
Example C03_case : exists s p, reach lay0 s [(p, 600)] /\ nlive (class_of 700) [(p, 600)] < cnum 1 /\ nlive 0 [(p, 600)] < 2048.
Proof.
  destruct (pool_init_PI lay0 (mkQ (fun _ => 0) (fun _ => 0)) (fun _ => 170) lay0_ok) as (s & E & P).
  assert (R : reach lay0 s []) by (eapply r_init; exact E).
  destruct (C03_alloc lay0 s [] 600 lay0_ok R) as (p & s' & E' & _); [lia|vm_compute; reflexivity|vm_compute; reflexivity|].
  exists s', p. split; [|split; vm_compute; reflexivity]. apply (r_alloc lay0 s [] 600 (Some p) s' R); [lia|exact E'].
Qed.

(** C05. The number of further blocks of a class is always its size minus its live
    blocks: while class 0 has room, an allocation succeeds exactly when the class has fewer
    live blocks than its capacity. *)
Theorem C05_capacity : forall L s live n,
  layout_ok L -> reach L s live -> 0 < n <= 16384 -> nlive 0 live < 2048 ->
  ((exists p s', pool_alloc L s n = Ok (Some p, s')) <-> nlive (class_of n) live < cnum (class_of n)).
Proof.
  intros L s live n LO R B N0. split.
  - intros (p & s' & E). destruct (reach_PI L s live LO R) as (U & I & P). destruct (class_of_range n B) as (H & _).
    apply (U_nonempty L s live U I _ P H). intros UE. assert (H0 : In 0 classes) by (simpl; tauto).
    apply (U_nonempty L s live U I 0 P H0) in N0.
    destruct (Z_le_gt_dec n 512) as [Z5|Z5].
    + unfold class_of in UE. rewrite (proj2 (Z.leb_le n 512)) in UE by lia. congruence.
    + rewrite (alloc_overflow L s live U I LO P n) in E; try assumption; [discriminate|lia].
  - intros NK. destruct (C03_alloc L s live n LO R B N0 NK) as (p & s' & E & _). eauto.
Qed.
Print Assumptions C05_capacity.

(** C05, second form: [j] further allocations of the same size all succeed when the
    class still has [j] free blocks (and class 0 keeps at least one until the last). *)
Fixpoint allocs (L : layout) (s : pool) (n : Z) (j : nat) : res (list (option Z) * pool) :=
  match j with
  | O => Ok ([], s)
  | S j' => let* r := pool_alloc L s n in let* t := allocs L (snd r) n j' in Ok (fst r :: fst t, snd t)
  end.
Theorem C05_allocs : forall L j s live n,
  layout_ok L -> reach L s live -> 0 < n <= 16384 ->
  Z.of_nat j <= cnum (class_of n) - nlive (class_of n) live -> nlive 0 live < 2048 ->
  exists ps s', allocs L s n j = Ok (map Some ps, s') /\ length ps = j /\
    reach L s' (map (fun p => (p, n)) (rev ps) ++ live).
Proof.
  intros L. induction j as [|j IH]; intros s live n LO R B CJ N0.
  - exists [], s. auto.
  - destruct (C03_alloc L s live n LO R B N0) as (p & s1 & E & _); [lia|].
    assert (R1 : reach L s1 ((p, n) :: live)) by (apply (r_alloc L s live n (Some p) s1 R); [lia|exact E]).
    destruct j as [|j].
    + exists [p], s1. cbn [allocs]. rewrite E. cbn [bind fst snd]. auto.
    + assert (NK : nlive (class_of n) ((p, n) :: live) = nlive (class_of n) live + 1).
      { unfold nlive. cbn [filter snd]. rewrite Z.eqb_refl, zlen_cons. lia. }
      assert (N0' : nlive 0 ((p, n) :: live) < 2048).
      { destruct (Z.eq_dec (class_of n) 0) as [E0|E0].
        - rewrite E0 in NK, CJ. rewrite NK. change (cnum 0) with 2048 in CJ. lia.
        - unfold nlive in *. cbn [filter snd]. destruct (Z.eqb_spec (class_of n) 0); [congruence|exact N0]. }
      destruct (IH s1 ((p, n) :: live) n LO R1 B) as (ps & s2 & E2 & LP & R2); [lia|exact N0'|].
      exists (p :: ps), s2. split; [|split; [simpl in *; congruence|]].
      * remember (S j) as jj. cbn [allocs]. rewrite E. cbn [bind fst snd]. rewrite E2. cbn [bind fst snd map]. reflexivity.
      * cbn [rev]. rewrite map_app, <- app_assoc. exact R2.
Qed.
Print Assumptions C05_allocs.

(** alloc/free cycles never lose capacity: after allocating and freeing again, the count
    of live blocks, hence the remaining capacity, is what it was *)
Theorem C05_cycle : forall L s live n p s1 s2 rc,
  layout_ok L -> reach L s live -> 0 < n -> pool_alloc L s n = Ok (Some p, s1) -> pool_free L s1 p = Ok (rc, s2) ->
  reach L s2 live.
Proof.
  intros L s live n p s1 s2 rc LO R B E1 E2.
  pose proof (r_alloc L s live n (Some p) s1 R B E1) as R1. cbn [filter] in R1.
  pose proof (r_free L s1 _ p n rc s2 R1 (or_introl eq_refl) E2) as R2. cbn [filter fst] in R2. rewrite Z.eqb_refl in R2. cbn [negb] in R2.
  replace (filter (fun e : Z * Z => negb (fst e =? p)) live) with live in R2; [exact R2|].
  destruct (reach_PI L s1 _ LO R1) as (U & I & P).
  assert (NP : ~ In p (map fst live)).
  { intros X. apply in_map_iff in X as ((p', m) & EQ & X). cbn [fst] in EQ. subst p'. apply in_split in X as (l2 & l3 & ->).
    assert (D : disjoint p n p m) by (eapply (C03_pairwise_disjoint L s1 _ [] l2 l3); eauto; reflexivity).
    pose proof (pi_size _ _ _ _ _ P) as SZ. rewrite Forall_forall in SZ. pose proof (SZ (p, m)) as S2. cbn [snd] in S2.
    assert (0 < m <= 16384) by (apply S2; right; apply in_or_app; right; left; reflexivity). unfold disjoint in D. lia. }
  clear - NP. induction live as [|(p', m) live IH]; [reflexivity|]. cbn [filter fst]. simpl in NP. destruct (Z.eqb_spec p' p) as [E|NE]; [tauto|]. cbn [negb]. f_equal. tauto.
Qed.
Print Assumptions C05_cycle.

Example C05_case : exists s, reach lay0 s [] /\ nlive (class_of 16384) [] < cnum (class_of 16384) /\ nlive 0 [] < 2048.
Proof.
  destruct (pool_init_PI lay0 (mkQ (fun _ => 0) (fun _ => 0)) (fun _ => 170) lay0_ok) as (s & E & P).
  exists s. split; [eapply r_init; exact E|]. split; vm_compute; reflexivity.
Qed.

Lemma nlive_same n j (ps : list Z) : length ps = j -> nlive (class_of n) (map (fun p => (p, n)) (rev ps) ++ []) = Z.of_nat j.
Proof.
  intros <-. rewrite app_nil_r. unfold nlive. rewrite <- (rev_length ps). generalize (rev ps) as l. induction l as [|x l IH]; [reflexivity|].
  cbn [map filter snd]. rewrite Z.eqb_refl, zlen_cons, IH. simpl length. lia.
Qed.
Lemma nlive_other k n (ps : list Z) : class_of n <> k -> nlive k (map (fun p => (p, n)) (rev ps) ++ []) = 0.
Proof.
  intros NE. rewrite app_nil_r. unfold nlive. generalize (rev ps) as l. induction l as [|x l IH]; [reflexivity|].
  cbn [map filter snd]. destruct (Z.eqb_spec (class_of n) k); [congruence|exact IH].
Qed.

(** C04 is false. First, with every block of the 1024-byte class in use (and class 0 not),
    the next allocation from that class does not report failure: it takes the list head of
    the class for an object and clears memory far beyond the block table. This happens for
    every placement of the pool and for every class except the smallest. *)
Theorem C04_exhausted_class_overflows : forall L s live n,
  layout_ok L -> reach L s live -> 512 < n <= 16384 -> nlive 0 live < 2048 ->
  nlive (class_of n) live = cnum (class_of n) -> pool_alloc L s n = Fault FOob.
Proof.
  intros L s live n LO R B N0 NK. destruct (reach_PI L s live LO R) as (U & I & P). destruct (class_of_range n) as (H & _); [lia|].
  assert (H0 : In 0 classes) by (simpl; tauto). apply (U_nonempty L s live U I 0 P H0) in N0.
  apply (alloc_overflow L s live U I LO P n); [exact B|exact N0|].
  pose proof (nlive_U L s live U I _ P H) as E. rewrite NK, Z.sub_diag in E. apply zlen_0_nil. exact E.
Qed.
Print Assumptions C04_exhausted_class_overflows.
Theorem C04_overflow_refuted : exists L s live n,
  layout_ok L /\ reach L s live /\ 0 < n <= 16384 /\ pool_alloc L s n = Fault FOob.
Proof.
  destruct (pool_init_PI lay0 (mkQ (fun _ => 0) (fun _ => 0)) (fun _ => 170) lay0_ok) as (s & E & P).
  assert (R : reach lay0 s []) by (eapply r_init; exact E).
  destruct (C05_allocs lay0 (Z.to_nat 1024) s [] 1000 lay0_ok R) as (ps & s' & E' & LP & R'); [lia|rewrite Z2Nat.id by lia; vm_compute; discriminate|vm_compute; reflexivity|].
  exists lay0, s', (map (fun p => (p, 1000)) (rev ps) ++ []), 1000. split; [exact lay0_ok|]. split; [exact R'|]. split; [lia|].
  apply (C04_exhausted_class_overflows lay0 s' _ 1000 lay0_ok R'); [lia| |].
  - rewrite nlive_other by (vm_compute; discriminate). lia.
  - rewrite (nlive_same 1000 (Z.to_nat 1024) ps LP). rewrite Z2Nat.id by lia. reflexivity.
Qed.
Print Assumptions C04_overflow_refuted.
(** Second, when only the smallest class is used up, every allocation fails, including
    those from classes that have all their blocks free. *)
Theorem C04_other_class_refuted : exists L s live n,
  layout_ok L /\ reach L s live /\ 0 < n <= 16384 /\ nlive (class_of n) live = 0 /\ pool_alloc L s n = Ok (None, s).
Proof.
  destruct (pool_init_PI lay0 (mkQ (fun _ => 0) (fun _ => 0)) (fun _ => 170) lay0_ok) as (s & E & P).
  assert (R : reach lay0 s []) by (eapply r_init; exact E).
  destruct (C05_allocs lay0 (Z.to_nat 2048) s [] 100 lay0_ok R) as (ps & s' & E' & LP & R'); [lia|rewrite Z2Nat.id by lia; vm_compute; discriminate|vm_compute; reflexivity|].
  exists lay0, s', (map (fun p => (p, 100)) (rev ps) ++ []), 5000. split; [exact lay0_ok|]. split; [exact R'|]. split; [lia|].
  split; [apply nlive_other; vm_compute; discriminate|].
  destruct (reach_PI lay0 s' _ lay0_ok R') as (U & I & P'). apply (alloc_none lay0 s' _ U I P'); [lia|]. left.
  assert (H0 : In 0 classes) by (simpl; tauto). pose proof (nlive_U _ _ _ _ _ 0 P' H0) as EU.
  change 0 with (class_of 100) in EU at 2. change (nlive (class_of 100)) with (nlive (class_of 100)) in EU.
  replace (nlive 0 (map (fun p => (p, 100)) (rev ps) ++ [])) with (nlive (class_of 100) (map (fun p => (p, 100)) (rev ps) ++ [])) in EU by reflexivity.
  rewrite (nlive_same 100 (Z.to_nat 2048) ps LP) in EU. rewrite Z2Nat.id in EU by lia. apply zlen_0_nil. rewrite EU. reflexivity.
Qed.
Print Assumptions C04_other_class_refuted.
(** What does hold: when class 0 is used up, or the size is above the largest class, the
    allocation reports NULL and the pool is unchanged. *)
Theorem C04_reported_partial : forall L s live n,
  layout_ok L -> reach L s live -> 0 < n -> nlive 0 live = 2048 \/ 16384 < n -> pool_alloc L s n = Ok (None, s).
Proof.
  intros L s live n LO R B C. destruct (reach_PI L s live LO R) as (U & I & P). apply (alloc_none L s live U I P n B).
  destruct C as [C|C]; [left|auto]. assert (H0 : In 0 classes) by (simpl; tauto). pose proof (nlive_U _ _ _ _ _ 0 P H0) as EU.
  rewrite C in EU. apply zlen_0_nil. rewrite EU. reflexivity.
Qed.
Print Assumptions C04_reported_partial.

(** C06 is false: in every reachable state, a free that is rejected leaves the mutex
    locked, and the next allocation or free never returns. *)
Theorem C06_rejected_free_deadlocks : forall L s live p n q,
  layout_ok L -> reach L s live -> magic_at L s (p - 24) <> MAGIC -> 0 < n ->
  exists s', pool_free L s p = Ok (-1, s') /\ pool_alloc L s' n = Fault FDeadlock /\ pool_free L s' q = Fault FDeadlock.
Proof.
  intros L s live p n q LO R M B. destruct (reach_PI L s live LO R) as (U & I & P). unfold pool_free at 1. rewrite (pi_lock _ _ _ _ _ P).
  destruct (Z.eqb_spec (magic_at L s (p - 24)) MAGIC); [contradiction|]. cbn [negb]. eexists. split; [reflexivity|].
  unfold pool_alloc, pool_free. destruct (Z.leb_spec n 0); [lia|]. cbn [plock]. auto.
Qed.
Print Assumptions C06_rejected_free_deadlocks.
(** a pointer into the middle of a live, zero-filled block is such a pointer *)
Theorem C06_refuted : exists L s live p s',
  layout_ok L /\ reach L s live /\ pool_free L s p = Ok (-1, s') /\ pool_alloc L s' 100 = Fault FDeadlock.
Proof.
  destruct (pool_init_PI lay0 (mkQ (fun _ => 0) (fun _ => 0)) (fun _ => 0) lay0_ok) as (s & E & P).
  assert (R : reach lay0 s []) by (eapply r_init; exact E).
  destruct (C03_alloc lay0 s [] 100 lay0_ok R) as (p & s1 & E1 & Z1 & _); [lia|vm_compute; reflexivity|vm_compute; reflexivity|].
  pose proof (r_alloc lay0 s [] 100 (Some p) s1 R ltac:(lia) E1) as R1. cbn beta iota in R1.
  destruct (reach_PI lay0 s1 _ lay0_ok R1) as (U & I & P1).
  destruct (pi_live_obj _ _ _ _ _ P1 p 100 (or_introl eq_refl)) as (H & OI & _). change (class_of 100) with 0 in *.
  pose proof (pi_obj_i _ _ _ _ _ P1 0 _ H OI) as OO.
  assert (M : magic_at lay0 s1 (p + 30 - 24) <> MAGIC).
  { unfold magic_at. replace (is_obj lay0 (p + 30 - 24)) with false.
    - unfold le32. rewrite !Z1 by lia. vm_compute. discriminate.
    - symmetry. apply not_true_is_false. intros X. unfold is_obj in X. apply existsb_exists in X as (k & K & X). rewrite !andb_true_iff, Z.leb_le, Z.ltb_lt, Z.eqb_eq in X.
      destruct X as ((X1 & X2) & X3).
      assert (XO : In (p + 30 - 24) (objs lay0 k)).
      { apply objs_in. pose proof (stride_pos k K). apply Z.mod_divide in X3; [|lia]. destruct X3 as (j & X3). exists j. split; [nia|lia]. }
      assert (NE : p - 24 <> p + 30 - 24) by (clear; lia). pose proof (objs_disjoint lay0 0 k (p - 24) (p + 30 - 24) lay0_ok H K OO XO NE) as D. clear - D K. unfold disjoint in D. change (stride 0) with 536 in D.
      pose proof (stride_pos k K). lia. }
  destruct (C06_rejected_free_deadlocks lay0 s1 _ (p + 30) 100 0 lay0_ok R1 M) as (s2 & A & B & _); [lia|].
  exists lay0, s1, [(p, 100)], (p + 30), s2. auto 6 using lay0_ok.
Qed.
Print Assumptions C06_refuted.
(** What does hold: pointers handed out by the pool and not freed are never rejected, and
    the lock is free in every reachable state. *)
Theorem C06_live_never_rejected_partial : forall L s live,
  layout_ok L -> reach L s live -> plock s = false /\ forall p n, In (p, n) live -> exists s', pool_free L s p = Ok (0, s').
Proof.
  intros L s live LO R. split.
  - destruct (reach_PI L s live LO R) as (U & I & P). apply (pi_lock _ _ _ _ _ P).
  - intros p n X. destruct (C03_free L s live p n LO R X) as (s' & E & _). eauto.
Qed.
Print Assumptions C06_live_never_rejected_partial.
