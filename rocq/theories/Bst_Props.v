(** * Binary search tree (src/common/util/bst.c): properties C16, C17 and C94 *)
From Coq Require Import Permutation.
From Verif Require Import Base Bst_Model Bst_Proofs.
Local Arguments Z.add : simpl never.
Local Arguments Z.sub : simpl never.
Local Arguments zlen : simpl never.

(** ** Histories *)
(** [built s ks]: [s] is the state after a history of insertions and of deletions that the
    code can do ([deletable], see Bst_Proofs.v), and [ks] are the keys that should be
    inside. Allocations return any address that is not in use. *)
Inductive built : bst -> list Z -> Prop :=
| built_new : built create []
| built_add fuel s ks k a s' : built s ks -> a <> 0 -> mem s a = None ->
    zlen ks + 1 < Z.of_nat fuel -> add fuel s k a = Ok (s', 0) -> built s' (k :: ks)
| built_del fuel s ks k n s' ks' : built s ks -> zlen ks < STACK -> zlen ks + 1 < Z.of_nat fuel ->
    find fuel s k = Ok n -> n <> 0 -> deletable (mem s) n ->
    del fuel s k = Ok (s', 0) -> Permutation ks (k :: ks') -> built s' ks'.

Lemma shape_elems s t ks : shape s t -> Permutation (keys t) (-1 :: ks) -> elems s = zlen ks.
Proof.
  intros (_ & l & r & -> & El) P. apply zlen_perm in P. cbn [keys] in P. rewrite !zlen_cons in P. lia.
Qed.
Lemma built_shape s ks : built s ks -> exists t, shape s t /\ Permutation (keys t) (-1 :: ks).
Proof.
  induction 1.
  - exists (N HEAD (-1) 0 E E). split; [apply shape_create|reflexivity].
  - destruct IHbuilt as (t & Sh & P). pose proof (shape_elems _ _ _ Sh P) as El.
    destruct (add_ok fuel s t k a Sh) as (s1 & t1 & E1 & Sh1 & P1 & _); [lia|auto|auto|].
    rewrite H3 in E1. inversion E1; subst s1. exists t1. split; auto.
    rewrite P1, P. apply perm_swap.
  - destruct IHbuilt as (t & Sh & P). pose proof (shape_elems _ _ _ Sh P) as El.
    destruct (del_ok fuel s t k n Sh) as (s1 & t1 & E1 & Sh1 & P1); [lia|lia|auto|auto|auto|].
    rewrite H5 in E1. inversion E1; subst s1. exists t1. split; auto.
    apply Permutation_cons_inv with k. rewrite <- P1, P. rewrite H6. apply perm_swap.
Qed.

(** ** C16 *)
(** Up to 8191 keys: a key is found iff it is inside or is -1, and the node found carries
    it; insertion always succeeds unless memory is short, and then changes nothing. *)
Theorem C16_partial s ks k fuel : built s ks -> zlen ks < STACK -> zlen ks + 1 < Z.of_nat fuel ->
  exists a, find fuel s k = Ok a /\ (a <> 0 <-> In k ks \/ k = -1) /\
    (a <> 0 -> exists n, mem s a = Some n /\ num n = k).
Proof.
  intros Bu B F. destruct (built_shape s ks Bu) as (t & Sh & P). pose proof (shape_elems _ _ _ Sh P) as El.
  destruct (find_ok fuel s t k Sh) as (a & E1 & H); [lia|lia|].
  exists a. split; auto.
  assert (K : In k (keys t) <-> In k ks \/ k = -1).
  { split; intros I.
    - apply (Permutation_in _ P) in I. destruct I as [<-|I]; auto.
    - apply (Permutation_in _ (Permutation_sym P)). destruct I as [I| ->]; [right; auto|left; auto]. }
  destruct H as [[-> H]|[Na (n & I & En)]].
  - split; [|contradiction]. split; [intros; lia|]. intros Q. apply K in Q. contradiction.
  - split.
    + split; auto. intros _. apply K. apply (in_keys t 0). eauto.
    + intros _. exists n. split; auto. destruct Sh as ((H & _) & _). apply H. exact I.
Qed.
Theorem C16_add s ks k a fuel : built s ks -> zlen ks + 1 < Z.of_nat fuel ->
  (a <> 0 -> mem s a = None -> exists s', add fuel s k a = Ok (s', 0) /\ built s' (k :: ks) /\ elems s' = elems s + 1) /\
  add fuel s k 0 = Ok (s, -1).
Proof.
  intros Bu F. destruct (built_shape s ks Bu) as (t & Sh & P). pose proof (shape_elems _ _ _ Sh P) as El.
  split.
  - intros Na Fr. destruct (add_ok fuel s t k a Sh) as (s' & t' & E1 & Sh' & P' & _); [lia|auto|auto|].
    exists s'. split; auto. split; [eapply built_add; eauto|].
    rewrite El. rewrite (shape_elems s' t' (k :: ks)); [rewrite zlen_cons; lia|auto|].
    rewrite P', P. apply perm_swap.
  - pose proof Sh as ((H & ND & Z0) & l & r & Et & _).
    assert (T : Z.of_nat (length (addrs t)) = elems s + 1).
    { rewrite El. rewrite <- len_keys. change (zlen (keys t) = zlen ks + 1). rewrite (zlen_perm _ _ P), zlen_cons. lia. }
    destruct (walk_ok (mem s) k fuel t [] 0) as (c & E1 & _); [exact H|exact Z0|lia|].
    unfold add. replace HEAD with (root t) by (rewrite Et; reflexivity). change 0 with (top 0 []) at 1. rewrite E1. reflexivity.
Qed.
Print Assumptions C16_partial.
Print Assumptions C16_add.

(** a key never inserted is found: the head of the tree has the number -1 *)
Theorem C16_refuted_head : built create [] /\ find 2 create (-1) = Ok HEAD /\ HEAD <> 0.
Proof. split; [constructor|]. split; [reflexivity|discriminate]. Qed.
Print Assumptions C16_refuted_head.

(** *** Too many keys *)
(** a spine to the right of [n] nodes, each with one node on its left; keys in (lo, hi] *)
Inductive comb : Z -> Z -> nat -> tree -> Prop :=
| comb_0 lo hi : lo <= hi -> comb lo hi 0 E
| comb_S lo hi n a k ty b tb r : lo < k - 1 -> k <= hi -> comb k hi n r ->
    comb lo hi (S n) (N a k ty (N b (k - 1) tb E E) r).
Lemma comb_grow lo hi n t a b ta tb : comb lo hi n t ->
  comb lo (hi + 2) (S n) (tput (hi + 1) (N b (hi + 1) tb E E) (tput (hi + 2) (N a (hi + 2) ta E E) t)).
Proof.
  induction 1 as [lo hi H|lo hi n x k ty y ty' r H1 H2 H3 IH]; cbn [tput].
  - destruct (Z.ltb_spec (hi + 2) (hi + 1)); [lia|]. replace (hi + 1) with (hi + 2 - 1) by lia.
    constructor; [lia|lia|]. constructor. lia.
  - destruct (Z.ltb_spec k (hi + 2)); [|lia]. cbn [tput]. destruct (Z.ltb_spec k (hi + 1)); [|lia].
    constructor; [lia|lia|exact IH].
Qed.
Lemma comb_built : forall n, exists s t ks, built s ks /\ shape s (N HEAD (-1) 0 E t) /\ comb 0 (2 * Z.of_nat n) n t /\
  (forall k, In k ks <-> 1 <= k <= 2 * Z.of_nat n) /\ NoDup ks /\ zlen ks = 2 * Z.of_nat n /\
  (forall x, 2 * Z.of_nat n + 2 <= x -> mem s x = None).
Proof.
  induction n as [|n (s & t & ks & Bu & Sh & Co & Ks & Nd & Le & Fr)].
  - exists create, E, []. split; [constructor|]. split; [apply shape_create|]. split; [constructor; lia|].
    split; [cbn; lia|]. split; [constructor|]. split; [reflexivity|].
    intros x H. cbn. unfold upd, HEAD. destruct (Z.eqb_spec x 1); [lia|reflexivity].
  - set (hi := 2 * Z.of_nat n) in *. replace (2 * Z.of_nat (S n)) with (hi + 2) by lia.
    set (fuel := Z.to_nat (hi + 5)).
    assert (Eel : elems s = hi).
    { destruct Sh as (_ & l & r & Eq & El). inversion Eq; subst l r. clear Eq.
      destruct (built_shape _ _ Bu) as (t0 & Sh0 & P0). rewrite (shape_elems _ _ _ Sh0 P0). exact Le. }
    destruct (add_ok fuel s _ (hi + 2) (hi + 2) Sh) as (s1 & t1 & E1 & Sh1 & P1 & (ta & Et1) & Fr1); [lia|lia|apply Fr; lia|].
    assert (Bu1 : built s1 (hi + 2 :: ks)) by (apply (built_add fuel s ks (hi + 2) (hi + 2) s1); auto; [lia|apply Fr; lia|lia]).
    assert (Eel1 : elems s1 = hi + 1).
    { destruct (built_shape _ _ Bu1) as (t0 & Sh0 & P0). rewrite (shape_elems _ _ _ Sh0 P0). rewrite zlen_cons. lia. }
    destruct (add_ok fuel s1 t1 (hi + 1) (hi + 3) Sh1) as (s2 & t2 & E2 & Sh2 & P2 & (tb & Et2) & Fr2);
      [lia|lia|apply Fr1; [lia|apply Fr; lia]|].
    assert (Bu2 : built s2 (hi + 1 :: hi + 2 :: ks)).
    { apply (built_add fuel s1 (hi + 2 :: ks) (hi + 1) (hi + 3) s2); auto; [lia|apply Fr1; [lia|apply Fr; lia]|rewrite zlen_cons; lia]. }
    cbn [tput] in Et1. destruct (Z.ltb_spec (-1) (hi + 2)); [|lia]. subst t1.
    cbn [tput] in Et2. destruct (Z.ltb_spec (-1) (hi + 1)); [|lia].
    exists s2, (tput (hi + 1) (N (hi + 3) (hi + 1) tb E E) (tput (hi + 2) (N (hi + 2) (hi + 2) ta E E) t)), (hi + 1 :: hi + 2 :: ks).
    split; [exact Bu2|]. split; [rewrite <- Et2; exact Sh2|]. split; [apply comb_grow; exact Co|].
    split; [|split; [|split]].
    + intros k. cbn [In]. rewrite Ks. lia.
    + constructor; [|constructor; [|exact Nd]].
      * cbn [In]. rewrite Ks. lia.
      * rewrite Ks. lia.
    + rewrite !zlen_cons. lia.
    + intros x H'. apply Fr2; [lia|]. apply Fr1; [lia|]. apply Fr. lia.
Qed.

Lemma comb_overflow h key : forall n lo hi t p rest fuel, comb lo hi n t -> key <= lo + 1 ->
  holds h (cells p t) -> ~ In 0 (addrs t) -> (1 <= n)%nat -> (n <= fuel)%nat ->
  zlen rest < STACK -> STACK < zlen rest + Z.of_nat n ->
  dfs fuel h key (root t :: rest) = Fault FOob.
Proof.
  induction n as [|n IH]; intros lo hi t p rest fuel Co Kl H Z0 N1 F R1 R2; [lia|].
  inversion Co; subst. destruct fuel as [|fuel]; [lia|].
  cbn [dfs root]. cbn [cells root] in H. apply holds_cons in H. destruct H as [Ha H]. apply holds_app in H. destruct H as [_ Hr].
  cbn [addrs] in Z0. assert (Na : a <> 0) by (intros ->; apply Z0; left; auto).
  assert (Nb : b <> 0) by (intros ->; apply Z0; right; left; auto).
  rewrite (get_some _ _ _ Na Ha). cbn [bind num lft rgt].
  destruct (Z.eqb_spec k key); [lia|]. unfold push_node at 1. destruct (Z.eqb_spec b 0); [contradiction|].
  destruct (Z.ltb_spec (zlen rest) STACK); [|lia]. cbn [bind].
  destruct n as [|n].
  { exfalso. lia. }
  match goal with HC : comb k hi (S n) r |- _ => rename HC into Cr end.
  assert (Nr : root r <> 0).
  { inversion Cr; subst. cbn [root]. intros ->. apply Z0. right. right. apply in_app_iff. right. left. auto. }
  unfold push_node. destruct (Z.eqb_spec (root r) 0); [contradiction|]. rewrite zlen_cons.
  destruct (Z.ltb_spec (1 + zlen rest) STACK).
  - cbn [bind]. apply (IH k hi r a (b :: rest) fuel); auto; try lia.
    + intros I. apply Z0. right. right. apply in_app_iff. auto.
    + rewrite zlen_cons. lia.
    + rewrite zlen_cons. lia.
  - reflexivity.
Qed.

(** There is a tree, of distinct keys, for which the search for a key that is inside
    writes behind the end of its stack. *)
Theorem C16_refuted_stack : exists s ks, built s ks /\ NoDup ks /\ In 1 ks /\
  forall fuel, zlen ks + 1 < Z.of_nat fuel -> find fuel s 1 = Fault FOob.
Proof.
  destruct (comb_built (Z.to_nat (STACK + 1))) as (s & t & ks & Bu & Sh & Co & Ks & Nd & Le & _).
  exists s, ks. split; [exact Bu|]. split; [exact Nd|]. split; [apply Ks; unfold STACK; lia|].
  intros fuel F. rewrite Le in F. destruct fuel as [|fuel]; [lia|].
  destruct Sh as ((H & ND & Z0) & _).
  cbn [cells root app] in H. apply holds_cons in H. destruct H as [Hh Ht]. cbn [addrs app] in Z0.
  unfold find. cbn [dfs]. rewrite (get_some _ HEAD _ ltac:(discriminate) Hh). cbn [bind num lft rgt].
  change (-1 =? 1) with false. cbv iota.
  assert (Nr : root t <> 0).
  { remember (Z.to_nat (STACK + 1)) as n. destruct Co; [unfold STACK in *; lia|]. cbn [root]. intros ->. apply Z0. right. left. auto. }
  unfold push_node at 1. change (0 =? 0) with true. cbv iota. cbn [bind].
  unfold push_node at 1. destruct (Z.eqb_spec (root t) 0); [contradiction|].
  change (zlen (@nil Z) <? STACK) with true. cbv iota. cbn [bind].
  apply (comb_overflow (mem s) 1 (Z.to_nat (STACK + 1)) 0 (2 * Z.of_nat (Z.to_nat (STACK + 1))) t HEAD []); auto;
    change (zlen (@nil Z)) with 0; unfold STACK in *; try lia.
  intros I. apply Z0. right. exact I.
Qed.
Print Assumptions C16_refuted_stack.

(** ** C17 *)
(** A deletion that the code can do succeeds and removes exactly one occurrence of the
    key; the state stays sound for every later call. A key that is not inside is refused. *)
Theorem C17_partial s ks k fuel : built s ks -> zlen ks < STACK -> zlen ks + 1 < Z.of_nat fuel -> k <> -1 ->
  (forall n, find fuel s k = Ok n -> n <> 0 -> deletable (mem s) n ->
    exists s' ks', del fuel s k = Ok (s', 0) /\ Permutation ks (k :: ks') /\ built s' ks' /\ elems s' = elems s - 1) /\
  (~ In k ks -> del fuel s k = Ok (s, -1)).
Proof.
  intros Bu B F Nk. destruct (built_shape s ks Bu) as (t & Sh & P). pose proof (shape_elems _ _ _ Sh P) as El.
  split.
  - intros n Fi Nn D. destruct (del_ok fuel s t k n Sh) as (s' & t' & E1 & Sh' & P'); [lia|lia|auto|auto|auto|].
    assert (I : In k ks).
    { assert (In k (-1 :: ks)) by (apply (Permutation_in _ P); apply (Permutation_in _ (Permutation_sym P')); left; auto).
      destruct H; [congruence|auto]. }
    apply in_split in I. destruct I as (k1 & k2 & Ek).
    assert (Pk : Permutation ks (k :: k1 ++ k2)) by (rewrite Ek; symmetry; apply Permutation_middle).
    exists s', (k1 ++ k2). split; auto. split; [exact Pk|]. split.
    + eapply built_del; eauto.
    + rewrite El. rewrite (shape_elems s' t' (k1 ++ k2)); auto.
      * apply zlen_perm in Pk. rewrite zlen_cons in Pk. lia.
      * apply Permutation_cons_inv with k. rewrite <- P', P, Pk. apply perm_swap.
  - intros NI. destruct (find_ok fuel s t k Sh) as (a & E1 & H); [lia|lia|].
    unfold del. rewrite E1. cbn [bind]. destruct H as [[-> H]|[Na (n & I & En)]]; [reflexivity|].
    exfalso. assert (J : In k (keys t)) by (apply (in_keys t 0); eauto).
    apply (Permutation_in _ P) in J. destruct J; [congruence|auto].
Qed.
Print Assumptions C17_partial.

(** Deleting a leaf always ends in a NULL dereference. *)
Theorem C17_refuted_leaf s k fuel n c : find fuel s k = Ok n -> n <> 0 -> mem s n = Some c -> lft c = 0 -> rgt c = 0 ->
  del fuel s k = Fault FNull.
Proof.
  intros Fi Nn Hn L R. unfold del. rewrite Fi. cbn [bind]. destruct (Z.eqb_spec n 0); [contradiction|].
  rewrite (get_some _ _ _ Nn Hn). cbn [bind]. rewrite L, R. cbn [Z.eqb negb andb].
  destruct fuel; [discriminate Fi|]. reflexivity.
Qed.
Print Assumptions C17_refuted_leaf.

Lemma some_leaf t : forall p, t <> E -> exists a n, In (a, n) (cells p t) /\ lft n = 0 /\ rgt n = 0.
Proof.
  induction t as [|a k ty l IHl r IHr]; intros p Nt; [contradiction|].
  destruct l as [|b kb tb bl br].
  - destruct r as [|b kb tb bl br].
    + exists a. eexists. split; [left; reflexivity|]. auto.
    + destruct (IHr a) as (x & n & I & Q); [discriminate|]. exists x, n. split; auto. right. exact I.
  - destruct (IHl a) as (x & n & I & Q); [discriminate|]. exists x, n. split; auto. right. apply in_app_iff. left. exact I.
Qed.
Lemma one_cell t : forall p x n y m, NoDup (keys t) -> In (x, n) (cells p t) -> In (y, m) (cells p t) -> num n = num m -> x = y /\ n = m.
Proof.
  induction t as [|a k ty l IHl r IHr]; intros p x n y m Nd I J Q; [destruct I|].
  cbn [keys] in Nd. apply NoDup_cons_iff in Nd. destruct Nd as [Nk Nd].
  assert (Kl : forall z w, In (z, w) (cells a l) -> In (num w) (keys l)) by (intros z w Z1; apply (in_keys l a); eauto).
  assert (Kr : forall z w, In (z, w) (cells a r) -> In (num w) (keys r)) by (intros z w Z1; apply (in_keys r a); eauto).
  assert (Ndl : NoDup (keys l)) by (clear - Nd; induction (keys l); [constructor|]; cbn in Nd; inversion Nd; subst; constructor; auto; intros Q; apply H1; apply in_app_iff; auto).
  assert (Ndr : NoDup (keys r)) by (clear - Nd; induction (keys l); [exact Nd|]; inversion Nd; auto).
  cbn [cells] in I, J. destruct I as [I|I], J as [J|J].
  - inversion I; inversion J; subst; auto.
  - inversion I; subst. exfalso. apply Nk. cbn [num] in Q. rewrite Q. apply in_app_iff. apply in_app_iff in J. destruct J; eauto.
  - inversion J; subst. exfalso. apply Nk. cbn [num] in Q. rewrite <- Q. apply in_app_iff. apply in_app_iff in I. destruct I; eauto.
  - apply in_app_iff in I. apply in_app_iff in J. destruct I as [I|I], J as [J|J].
    + eapply IHl; eauto.
    + exfalso. apply (apart _ _ (num n) Nd); [eauto|]. rewrite Q. eauto.
    + exfalso. apply (apart _ _ (num m) Nd); [eauto|]. rewrite <- Q. eauto.
    + eapply IHr; eauto.
Qed.
(** So every non-empty tree of distinct keys has a key whose deletion crashes. *)
Theorem C17_refuted s ks fuel : built s ks -> ks <> [] -> NoDup (-1 :: ks) -> zlen ks < STACK -> zlen ks + 1 < Z.of_nat fuel ->
  exists k, In k ks /\ del fuel s k = Fault FNull.
Proof.
  intros Bu Ne Nd B F. destruct (built_shape s ks Bu) as (t & Sh & P). pose proof (shape_elems _ _ _ Sh P) as El.
  pose proof Sh as ((H & _ & Z0) & l & r & Et & _).
  assert (Ht : t <> E) by (rewrite Et; discriminate).
  assert (Nd' : NoDup (keys t)) by (eapply Permutation_NoDup; [symmetry; exact P|exact Nd]).
  assert (L : exists a n, In (a, n) (cells 0 t) /\ lft n = 0 /\ rgt n = 0 /\ num n <> -1).
  { destruct (some_leaf t 0 Ht) as (a & n & I & L1 & L2). exists a, n. repeat split; auto. intros Q.
    rewrite Et in I, Nd'.
    destruct (one_cell _ 0 a n HEAD (Node (-1) 0 (root l) (root r) 0) Nd' I) as [-> ->]; [left; auto|auto|].
    cbn [lft rgt] in L1, L2. apply Ne. rewrite Et in P, Z0. destruct l as [|b ? ? ? ?].
    - destruct r as [|b ? ? ? ?].
      + cbn in P. apply Permutation_length_1_inv in P. congruence.
      + cbn in L2. subst b. exfalso. apply Z0. cbn. auto.
    - cbn in L1. subst b. exfalso. apply Z0. cbn. auto. }
  destruct L as (a & n & I & L1 & L2 & Nk). exists (num n).
  assert (Ik : In (num n) (keys t)) by (apply (in_keys t 0); eauto).
  split.
  - apply (Permutation_in _ P) in Ik. destruct Ik; [congruence|auto].
  - destruct (find_ok fuel s t (num n) Sh) as (x & E1 & [[-> Q]|[Nx (m & Im & Em)]]); [lia|lia|contradiction|].
    destruct (one_cell t 0 x m a n Nd' Im I Em) as [-> ->].
    eapply C17_refuted_leaf; eauto.
Qed.
Print Assumptions C17_refuted.

(** Deleting a node with two children, the right one without children, ends in a NULL
    dereference. *)
Theorem C17_refuted_direct s ks k fuel n c rc : built s ks -> zlen ks < STACK -> zlen ks + 1 < Z.of_nat fuel ->
  find fuel s k = Ok n -> n <> 0 -> mem s n = Some c -> lft c <> 0 -> rgt c <> 0 ->
  mem s (rgt c) = Some rc -> lft rc = 0 -> rgt rc = 0 ->
  del fuel s k = Fault FNull.
Proof.
  intros Bu B F Fi Nn Hn Lc Rc Hr L2 R2.
  destruct (built_shape s ks Bu) as (t & Sh & P). pose proof (shape_elems _ _ _ Sh P) as El.
  destruct (find_ok fuel s t k Sh) as (x & E1 & Hx); [lia|lia|]. rewrite Fi in E1. inversion E1; subst x. clear E1.
  destruct Hx as [[-> _]|[_ (nn & I & Ek)]]; [contradiction|].
  destruct Sh as (R & hl & hr & Et & _).
  assert (nn = c) by (destruct R as (H & _); apply H in I; congruence). subst nn.
  destruct (locate t 0 n c I) as (cc & l & r & Ec & En).
  assert (Hr' : holds (mem s) (cells n r)).
  { destruct R as (H & _). rewrite Ec in H. apply (holds_perm _ _ _ (cells_plug 0 cc _)) in H. apply holds_app in H. destruct H as [_ H].
    cbn [cells] in H. apply holds_cons in H. destruct H as [_ H]. apply holds_app in H. apply H. }
  assert (Er : rgt c = root r) by (rewrite En; reflexivity).
  destruct r as [|m km tm ml mr]; [cbn in Er; congruence|]. cbn [root] in Er.
  assert (Pm : par rc = n).
  { cbn [cells] in Hr'. apply holds_cons in Hr'. destruct Hr' as [Hm _]. rewrite Er, Hm in Hr. inversion Hr. reflexivity. }
  unfold del. rewrite Fi. cbn [bind]. destruct (Z.eqb_spec n 0); [contradiction|].
  rewrite (get_some _ _ _ Nn Hn). cbn [bind].
  destruct (Z.eqb_spec (lft c) 0); [contradiction|]. destruct (Z.eqb_spec (rgt c) 0); [contradiction|]. cbn [negb andb].
  destruct fuel as [|fuel]; [discriminate Fi|]. cbn [bst_min]. rewrite (get_some _ _ _ Rc Hr). cbn [bind].
  rewrite L2. change (0 =? 0) with true. cbv iota. cbn [bind]. rewrite (get_some _ _ _ Rc Hr). cbn [bind].
  rewrite R2, Pm. cbn [Z.eqb negb]. rewrite (set_lft_ok _ n _ 0 Nn Hn). cbn [bind].
  set (h1 := upd (mem s) n _). unfold relink. rewrite (get_some h1 n _ Nn (upd_eq _ _ _)). cbn [bind tag par].
  assert (H1n : h1 n = Some (Node (num c) (par c) 0 (rgt c) (tag c))) by apply upd_eq.
  destruct cc as [|f cc].
  - (* the head *) cbn [top] in En. assert (par c = 0) by (rewrite En; reflexivity). rewrite H.
    unfold set_lft, set_rgt, get. cbn. destruct (tag c =? LEFT); reflexivity.
  - assert (Pc : par c = fa f) by (rewrite En; reflexivity). rewrite Pc. rewrite Ec in R.
    pose proof (rep_parts _ _ _ _ R) as (Nf & Hf & _ & _ & ND & _).
    assert (Df : n <> fa f) by dj ND.
    assert (Hf1 : h1 (fa f) = mem s (fa f)) by (unfold h1; apply upd_neq; auto).
    destruct (tag c =? LEFT).
    + rewrite (set_lft_ok h1 (fa f) _ (rgt c) Nf (eq_trans Hf1 Hf)). cbn [bind].
      rewrite (get_some _ n _ Nn (eq_trans (upd_neq h1 _ _ n Df) H1n)). cbn [bind lft].
      reflexivity.
    + rewrite (set_rgt_ok h1 (fa f) _ (rgt c) Nf (eq_trans Hf1 Hf)). cbn [bind].
      rewrite (get_some _ n _ Nn (eq_trans (upd_neq h1 _ _ n Df) H1n)). cbn [bind lft].
      reflexivity.
Qed.
Print Assumptions C17_refuted_direct.

(** *** A run *)
Inductive op := Add (k a : Z) | Del (k : Z).
Definition step (fuel : nat) (s : bst) (o : op) : res (bst * Z) :=
  match o with Add k a => add fuel s k a | Del k => del fuel s k end.
Fixpoint run (fuel : nat) (s : bst) (os : list op) : res (bst * list Z) :=
  match os with
  | [] => Ok (s, [])
  | o :: os => let* p := step fuel s o in let* q := run fuel (fst p) os in Ok (fst q, snd p :: snd q)
  end.
Definition after (os : list op) (k : Z) : res (list Z * Z) :=
  let* p := run 20 create os in
  let* a := find 20 (fst p) k in
  Ok (snd p, a).

(** After a deletion the node that moved up keeps the side it was on before: the next
    deletion changes the wrong link of its parent. Here 8 is lost, and looking for it
    reads a node that has been freed. *)
Theorem C17_refuted_side :
  let os := [Add 5 2; Add 2 3; Add 3 4; Add 4 5; Add 8 6; Del 2] in
  (exists a, after os 8 = Ok ([0; 0; 0; 0; 0; 0], a) /\ a <> 0) /\
  (exists s r, run 20 create (os ++ [Del 3]) = Ok (s, r) /\ r = [0; 0; 0; 0; 0; 0; 0]) /\
  after (os ++ [Del 3]) 8 = Fault FUaf.
Proof.
  split; [|split].
  - eexists. split; [vm_compute; reflexivity|]. discriminate.
  - eexists _, _. split; [vm_compute; reflexivity|]. reflexivity.
  - vm_compute. reflexivity.
Qed.
Print Assumptions C17_refuted_side.

(** a history that meets the hypotheses of [C17_partial]: the key 5 has two children and its
    successor 7 is not its child *)
Example C17_example :
  exists s ks n, built s ks /\ ks = [9; 7; 8; 2; 5] /\ find 20 s 5 = Ok n /\ n <> 0 /\ deletable (mem s) n /\
    exists s', del 20 s 5 = Ok (s', 0) /\ find 20 s' 5 = Ok 0 /\ find 20 s' 7 = Ok 5.
Proof.
  assert (B : forall s ks k a s', built s ks -> a <> 0 -> mem s a = None -> zlen ks < 10 -> add 20 s k a = Ok (s', 0) -> built s' (k :: ks)).
  { intros s ks k a s' H1 H2 H3 H4 H5. apply (built_add 20 s ks k a s'); auto. lia. }
  eexists _, _, 2. split.
  { eapply (B _ _ 9 6); [eapply (B _ _ 7 5); [eapply (B _ _ 8 4); [eapply (B _ _ 2 3); [eapply (B _ _ 5 2); [apply built_new|..]|..]|..]|..]|..];
      try (cbn; reflexivity); try discriminate; vm_compute; reflexivity. }
  split; [reflexivity|]. split; [reflexivity|]. split; [discriminate|].
  split.
  - split; [discriminate|]. split.
    + eexists _, _. split; [reflexivity|]. split; reflexivity.
    + eexists. split; [reflexivity|]. split; [left; discriminate|]. intros _ _ m mc L Hm.
      assert (m = 5).
      { inversion L as [a n Ha Hl|a n m' Ha Hl L']; subst.
        - vm_compute in Ha. inversion Ha; subst n. discriminate Hl.
        - vm_compute in Ha. inversion Ha; subst n. cbn [lft] in L'.
          inversion L' as [a2 n2 Ha2 Hl2|a2 n2 m2 Ha2 Hl2 L2]; subst; [reflexivity|].
          vm_compute in Ha2. inversion Ha2; subst n2. exfalso. apply Hl2. reflexivity. }
      subst m. vm_compute in Hm. inversion Hm; subst mc. cbn. split; [congruence|discriminate].
  - eexists. split; [vm_compute; reflexivity|]. split; reflexivity.
Qed.

(** ** C94: freeing a tree *)
(** the nodes below a link *)
Inductive under (h : heap) : Z -> Z -> Prop :=
| under_here a n : a <> 0 -> h a = Some n -> under h a a
| under_left a n x : a <> 0 -> h a = Some n -> under h (lft n) x -> under h a x
| under_right a n x : a <> 0 -> h a = Some n -> under h (rgt n) x -> under h a x.
Lemma under_addrs h t : forall p x, holds h (cells p t) -> ~ In 0 (addrs t) -> (In x (addrs t) <-> under h (root t) x).
Proof.
  induction t as [|a k ty l IHl r IHr]; intros p x H Z0.
  - cbn. split; [intros []|]. intros U. inversion U; congruence.
  - cbn [addrs root] in *. assert (Na : a <> 0) by (intros ->; apply Z0; left; auto).
    cbn [cells] in H. apply holds_cons in H. destruct H as [Ha H]. apply holds_app in H. destruct H as [Hl Hr].
    assert (Zl : ~ In 0 (addrs l)) by (intros I; apply Z0; right; apply in_app_iff; auto).
    assert (Zr : ~ In 0 (addrs r)) by (intros I; apply Z0; right; apply in_app_iff; auto).
    specialize (IHl a x Hl Zl). specialize (IHr a x Hr Zr). split.
    + intros [<-|I]; [econstructor; eauto|]. apply in_app_iff in I. destruct I as [I|I].
      * eapply under_left; [auto|exact Ha|]. cbn [lft]. apply IHl. exact I.
      * eapply under_right; [auto|exact Ha|]. cbn [rgt]. apply IHr. exact I.
    + intros U. inversion U as [a' n' _ Hn|a' n' x' _ Hn U'|a' n' x' _ Hn U']; subst; [left; auto| |];
        rewrite Ha in Hn; inversion Hn; subst n'; right; apply in_app_iff; [left; apply IHl|right; apply IHr]; exact U'.
Qed.
Fixpoint all_addrs (ts : list tree) : list Z := match ts with [] => [] | t :: ts => addrs t ++ all_addrs ts end.
Lemma free_ok : forall fuel h ts freed,
  (forall t, In t ts -> t <> E /\ (exists p, holds h (cells p t)) /\ ~ In 0 (addrs t)) ->
  NoDup (all_addrs ts) -> zlen (all_addrs ts) <= STACK -> zlen (all_addrs ts) < Z.of_nat fuel ->
  exists h' fr, free_loop fuel h (map root ts) freed = Ok (h', freed ++ fr) /\ Permutation fr (all_addrs ts) /\
    (forall x, In x fr -> h' x = None) /\ (forall x, ~ In x fr -> h' x = h x).
Proof.
  induction fuel as [|fuel IH]; intros h ts freed H ND B F; [pose proof (zlen_nonneg (all_addrs ts)); lia|].
  destruct ts as [|t ts]; cbn [map free_loop].
  { exists h, []. rewrite app_nil_r. repeat split; auto. intros x []. }
  destruct (H t) as (Ne & (p & Ht) & Z0); [left; auto|].
  destruct t as [|a k ty l r]; [contradiction|]. cbn [root].
  cbn [cells] in Ht. apply holds_cons in Ht. destruct Ht as [Ha Hlr]. apply holds_app in Hlr. destruct Hlr as [Hl Hr].
  cbn [addrs] in Z0. assert (Na : a <> 0) by (intros ->; apply Z0; left; auto).
  rewrite (get_some _ _ _ Na Ha). cbn [bind lft rgt].
  assert (T1 : forall ts', (forall t, In t ts' -> t <> E) -> zlen ts' <= zlen (all_addrs ts')).
  { induction ts' as [|t' ts' IHt]; intros Q; cbn [all_addrs]; [change (zlen (@nil tree)) with 0; apply zlen_nonneg|].
    assert (t' <> E) by (apply Q; left; auto). destruct t'; [contradiction|].
    assert (zlen ts' <= zlen (all_addrs ts')) by (apply IHt; intros; apply Q; right; auto).
    cbn [addrs]. rewrite zlen_app, !zlen_cons. pose proof (zlen_nonneg (addrs t'1 ++ addrs t'2)). lia. }
  assert (T0 : zlen ts <= zlen (all_addrs ts)) by (apply T1; intros t' I; apply H; right; auto).
  assert (Zm : forall l' : list tree, zlen (map root l') = zlen l') by (intros l'; unfold zlen; rewrite map_length; reflexivity).
  cbn [all_addrs addrs] in B, F, ND. cbn [app] in B, F, ND. rewrite zlen_cons, !zlen_app in B, F.
  pose proof (zlen_nonneg (addrs l)). pose proof (zlen_nonneg (addrs r)).
  rewrite (push_root h ts l (map root ts)); eauto.
  2:{ intros I. apply Z0. right. apply in_app_iff. auto. }
  2:{ intros _. rewrite Zm. lia. }
  cbn [bind].
  set (ts1 := match l with E => ts | _ => l :: ts end).
  assert (L1 : zlen ts1 <= zlen ts + zlen (addrs l) /\ all_addrs ts1 = addrs l ++ all_addrs ts).
  { subst ts1. destruct l; cbn [all_addrs addrs app]; [split; [change (zlen (@nil Z)) with 0; lia|auto]|].
    rewrite !zlen_cons. pose proof (zlen_nonneg (addrs l1 ++ addrs l2)). split; [lia|auto]. }
  rewrite (push_root h ts1 r (map root ts1)); eauto.
  2:{ intros I. apply Z0. right. apply in_app_iff. auto. }
  2:{ intros Hne. rewrite Zm. destruct r; [contradiction|]. cbn [addrs] in B. rewrite zlen_cons in B. pose proof (zlen_nonneg (addrs r1 ++ addrs r2)). lia. }
  cbn [bind].
  set (ts2 := match r with E => ts1 | _ => r :: ts1 end).
  assert (L2 : all_addrs ts2 = addrs r ++ all_addrs ts1) by (subst ts2; destruct r; reflexivity).
  destruct L1 as [_ L1]. rewrite L1 in L2.
  assert (In2 : forall t, In t ts2 -> In t ts \/ (t = l /\ l <> E) \/ (t = r /\ r <> E)).
  { intros t. subst ts2 ts1. destruct l, r; cbn; intros Q; intuition (try discriminate; try congruence; subst; auto). }
  apply NoDup_cons_iff in ND. destruct ND as [Fa ND].
  assert (Hof : forall t, In t ts -> forall x, In x (addrs t) -> In x (all_addrs ts)).
  { clear. induction ts as [|u ts IH]; intros t I x Ix; [destruct I|]. cbn. apply in_app_iff. destruct I as [->|I]; eauto. }
  assert (Fr : forall q u, ~ In a (addrs u) -> holds h (cells q u) -> holds (upd h a None) (cells q u)).
  { intros q u Q Hu. apply holds_upd; [rewrite cells_addrs; exact Q|exact Hu]. }
  destruct (IH (upd h a None) ts2 (freed ++ [a])) as (h' & fr & E1 & P1 & N1 & N2).
  - intros u I. apply In2 in I. destruct I as [I|[[-> I]|[-> I]]].
    + destruct (H u) as (Q1 & (q & Q2) & Q3); [right; auto|]. split; auto. split; auto. exists q. apply Fr; auto.
      intros J. apply Fa. apply in_app_iff. right. eapply Hof; eauto.
    + split; auto. split; [exists a; apply Fr; auto; intros J; apply Fa; apply in_app_iff; left; apply in_app_iff; auto|].
      intros J. apply Z0. right. apply in_app_iff. auto.
    + split; auto. split; [exists a; apply Fr; auto; intros J; apply Fa; apply in_app_iff; left; apply in_app_iff; auto|].
      intros J. apply Z0. right. apply in_app_iff. auto.
  - rewrite L2. eapply Permutation_NoDup; [|exact ND]. rewrite !app_assoc. apply Permutation_app_tail. apply Permutation_app_comm.
  - rewrite L2, !zlen_app. lia.
  - rewrite L2, !zlen_app. lia.
  - exists h', (a :: fr). rewrite E1. rewrite <- app_assoc. split; [reflexivity|].
    assert (P2 : Permutation (a :: fr) (a :: (addrs l ++ addrs r) ++ all_addrs ts)).
    { constructor. rewrite P1, L2. rewrite !app_assoc. apply Permutation_app_tail. apply Permutation_app_comm. }
    split; [exact P2|]. split.
    + intros x [<-|I]; [|auto]. destruct (in_dec Z.eq_dec a fr) as [J|J]; [auto|].
      rewrite N2 by exact J. apply upd_eq.
    + intros x Q. rewrite N2 by (intros J; apply Q; right; auto). apply upd_neq. intros ->. apply Q. left; auto.
Qed.

(** Freeing a tree of up to 8192 keys frees every node below the right link of the head,
    each once, and nothing else. *)
Theorem C94_partial s ks fuel : built s ks -> zlen ks <= STACK -> zlen ks + 1 < Z.of_nat fuel ->
  exists hd h' fr, mem s HEAD = Some hd /\ bst_free fuel s = Ok (h', fr) /\ NoDup fr /\
    (forall x, In x fr <-> under (mem s) (rgt hd) x) /\
    (forall x, In x fr -> h' x = None) /\ (forall x, ~ In x fr -> h' x = mem s x).
Proof.
  intros Bu B F. destruct (built_shape s ks Bu) as (t & Sh & P). pose proof (shape_elems _ _ _ Sh P) as El.
  destruct Sh as ((H & ND & Z0) & l & r & -> & El').
  cbn [cells] in H. apply holds_cons in H. destruct H as [Hh H]. apply holds_app in H. destruct H as [_ Hr].
  cbn [addrs] in ND, Z0. apply NoDup_cons_iff in ND. destruct ND as [_ ND].
  assert (NDr : NoDup (addrs r)) by (clear - ND; induction (addrs l); [exact ND|]; inversion ND; auto).
  assert (Zr : ~ In 0 (addrs r)) by (intros I; apply Z0; right; apply in_app_iff; auto).
  eexists. unfold bst_free. rewrite (get_some _ HEAD _ ltac:(discriminate) Hh). cbn [bind rgt].
  destruct r as [|a k ty rl rr].
  - exists (mem s), []. cbn [root]. split; [exact Hh|]. split; [reflexivity|]. split; [constructor|].
    split; [|split; [intros x []|auto]]. intros x. split; [intros []|]. cbn [rgt root]. intros U. inversion U; congruence.
  - cbn [root]. assert (Na : a <> 0) by (intros ->; apply Zr; left; auto).
    destruct (Z.eqb_spec a 0); [contradiction|].
    assert (Lr : zlen (addrs (N a k ty rl rr)) <= zlen ks).
    { rewrite <- El, El'. unfold zlen. rewrite app_length, <- len_keys. lia. }
    destruct (free_ok fuel (mem s) [N a k ty rl rr] []) as (h' & fr & E1 & P1 & N1 & N2).
    + intros t [<-|[]]. split; [discriminate|]. split; [eauto|auto].
    + cbn [all_addrs]. rewrite app_nil_r. exact NDr.
    + cbn [all_addrs]. rewrite app_nil_r. lia.
    + cbn [all_addrs]. rewrite app_nil_r. lia.
    + cbn [map root app] in E1. exists h', fr. split; [exact Hh|]. split; [exact E1|].
      cbn [all_addrs] in P1. rewrite app_nil_r in P1.
      split; [eapply Permutation_NoDup; [symmetry; exact P1|exact NDr]|]. split; [|auto].
      intros x. rewrite <- (under_addrs (mem s) (N a k ty rl rr) HEAD x Hr Zr).
      split; apply Permutation_in; [exact P1|symmetry; exact P1].
Qed.
Print Assumptions C94_partial.
Example C94_example :
  exists s r, run 20 create [Add 5 2; Add 2 3; Add 8 4] = Ok (s, r) /\
    exists h, bst_free 20 s = Ok (h, [2; 4; 3]).
Proof. eexists _, _. split; [reflexivity|]. eexists. reflexivity. Qed.

(** A key below 0 is kept on the left of the head and is never freed. *)
Theorem C94_refuted k a fuel : k <= -1 -> a <> 0 -> a <> HEAD -> (2 < fuel)%nat ->
  exists s n, add fuel create k a = Ok (s, 0) /\ built s [k] /\
    mem s a = Some n /\ num n = k /\ bst_free fuel s = Ok (mem s, []).
Proof.
  intros Hk Na Nh F.
  assert (A : add fuel create k a = Ok (Bst (upd (upd (mem create) HEAD (Some (Node (-1) 0 a 0 0))) a (Some (Node k HEAD 0 0 LEFT))) (0 + 1), 0)).
  { destruct fuel as [|[|fuel]]; [lia|lia|]. unfold add. cbn [walk]. change (HEAD =? 0) with false. cbv iota.
    change (get (mem create) HEAD) with (Ok (Node (-1) 0 0 0 0)). cbn [bind num rgt lft].
    destruct (Z.ltb_spec (-1) k); [lia|]. change (0 =? 0) with true. cbv iota. cbn [bind].
    destruct (Z.eqb_spec a 0); [contradiction|].
    change (get (mem create) HEAD) with (Ok (Node (-1) 0 0 0 0)). cbn [bind num].
    destruct (Z.ltb_spec (-1) k); [lia|]. reflexivity. }
  eexists _, _. split; [exact A|]. split; [|split; [apply upd_eq|split; [reflexivity|]]].
  - eapply (built_add fuel create [] k a); [constructor|auto| |change (zlen (@nil Z)) with 0; lia|exact A].
    cbn [mem create]. rewrite upd_neq by auto. reflexivity.
  - unfold bst_free. cbn [mem]. rewrite (get_some _ HEAD (Node (-1) 0 a 0 0)); [reflexivity|discriminate|].
    rewrite upd_neq by auto. apply upd_eq.
Qed.
Print Assumptions C94_refuted.
