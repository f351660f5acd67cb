(** * Trees represented in memory, for the binary search tree. *)
From Coq Require Import Permutation.
From Verif Require Import Base Bst_Model.
Local Arguments Z.add : simpl never.
Local Arguments Z.sub : simpl never.
Local Arguments zlen : simpl never.

Inductive tree := E | N (a k ty : Z) (l r : tree).
Definition root (t : tree) : Z := match t with E => 0 | N a _ _ _ _ => a end.
(** the cells of memory a tree stands for; [p] is the parent of its root *)
Fixpoint cells (p : Z) (t : tree) : list (Z * node) :=
  match t with
  | E => []
  | N a k ty l r => (a, Node k p (root l) (root r) ty) :: cells a l ++ cells a r
  end.
Fixpoint addrs (t : tree) : list Z :=
  match t with E => [] | N a k ty l r => a :: addrs l ++ addrs r end.
Fixpoint keys (t : tree) : list Z :=
  match t with E => [] | N a k ty l r => k :: keys l ++ keys r end.
Lemma cells_addrs t : forall p, map fst (cells p t) = addrs t.
Proof. induction t; intros p; cbn; auto. rewrite map_app, IHt1, IHt2. reflexivity. Qed.

(** a path from the root to a subtree, innermost step first *)
Inductive frame := FL (a k ty : Z) (r : tree) | FR (a k ty : Z) (l : tree).
Definition fa (f : frame) : Z := match f with FL a _ _ _ | FR a _ _ _ => a end.
Definition fnode (f : frame) (p x : Z) : node :=
  match f with FL a k ty r => Node k p x (root r) ty | FR a k ty l => Node k p (root l) x ty end.
Definition fside (f : frame) : tree := match f with FL _ _ _ r => r | FR _ _ _ l => l end.
Definition fkey (f : frame) : Z := match f with FL _ k _ _ | FR _ k _ _ => k end.
Definition fill (f : frame) (t : tree) : tree :=
  match f with FL a k ty r => N a k ty t r | FR a k ty l => N a k ty l t end.
Fixpoint plug (c : list frame) (t : tree) : tree :=
  match c with [] => t | f :: c => plug c (fill f t) end.
Definition top (q : Z) (c : list frame) : Z := match c with [] => q | f :: _ => fa f end.
Fixpoint ctx_cells (q : Z) (c : list frame) (x : Z) : list (Z * node) :=
  match c with
  | [] => []
  | f :: c => (fa f, fnode f (top q c) x) :: cells (fa f) (fside f) ++ ctx_cells q c (fa f)
  end.
Fixpoint ctx_addrs (c : list frame) : list Z :=
  match c with [] => [] | f :: c => fa f :: addrs (fside f) ++ ctx_addrs c end.
Fixpoint ctx_keys (c : list frame) : list Z :=
  match c with [] => [] | f :: c => fkey f :: keys (fside f) ++ ctx_keys c end.
Lemma ctx_cells_addrs q c : forall x, map fst (ctx_cells q c x) = ctx_addrs c.
Proof. induction c; intros x; cbn; auto. rewrite map_app, cells_addrs, IHc. reflexivity. Qed.
Lemma root_fill f t : root (fill f t) = fa f.
Proof. destruct f; reflexivity. Qed.
Lemma plug_app c1 c2 t : plug (c1 ++ c2) t = plug c2 (plug c1 t).
Proof. revert t. induction c1; intros t; cbn; auto. Qed.

Lemma cells_plug q c : forall t,
  Permutation (cells q (plug c t)) (ctx_cells q c (root t) ++ cells (top q c) t).
Proof.
  induction c as [|f c IH]; intros t; cbn [plug ctx_cells top app]; [reflexivity|].
  rewrite IH. rewrite root_fill. destruct f as [a k ty r|a k ty l]; cbn [fill cells fa fnode fside].
  - rewrite <- Permutation_middle. constructor. rewrite <- app_assoc, (Permutation_app_comm (cells a t)).
    rewrite !app_assoc. apply Permutation_app_tail. apply Permutation_app_comm.
  - rewrite <- Permutation_middle. constructor. rewrite !app_assoc. apply Permutation_app_tail. apply Permutation_app_comm.
Qed.
Lemma addrs_plug c : forall t, Permutation (addrs (plug c t)) (ctx_addrs c ++ addrs t).
Proof.
  intros t. rewrite <- (cells_addrs _ 0), <- (ctx_cells_addrs 0 c (root t)), <- (cells_addrs t (top 0 c)), <- map_app.
  apply Permutation_map. apply cells_plug.
Qed.
Lemma keys_plug c : forall t, Permutation (keys (plug c t)) (ctx_keys c ++ keys t).
Proof.
  induction c as [|f c IH]; intros t; cbn [plug ctx_keys app]; [reflexivity|].
  rewrite IH. destruct f as [a k ty r|a k ty l]; cbn [fill keys fkey fside].
  - rewrite <- Permutation_middle. constructor. rewrite <- app_assoc, (Permutation_app_comm (keys t)).
    rewrite !app_assoc. apply Permutation_app_tail. apply Permutation_app_comm.
  - rewrite <- Permutation_middle. constructor. rewrite !app_assoc. apply Permutation_app_tail. apply Permutation_app_comm.
Qed.

(** ** Memory *)
Definition holds (h : heap) (L : list (Z * node)) : Prop := forall a n, In (a, n) L -> h a = Some n.
Lemma holds_perm h L L' : Permutation L L' -> holds h L -> holds h L'.
Proof. intros P H a n I. apply H. eapply Permutation_in; [symmetry; exact P|exact I]. Qed.
Lemma holds_app h L L' : holds h (L ++ L') <-> holds h L /\ holds h L'.
Proof.
  unfold holds. split.
  - intros H. split; intros a n I; apply H; apply in_app_iff; auto.
  - intros [H H'] a n I. apply in_app_iff in I. destruct I; auto.
Qed.
Lemma holds_cons h a n L : holds h ((a, n) :: L) <-> h a = Some n /\ holds h L.
Proof.
  unfold holds. split.
  - intros H. split; [apply H; left; auto|]. intros b m I. apply H. right; auto.
  - intros [H H'] b m [I|I]; [inversion I; subst; auto|auto].
Qed.
Lemma holds_nil h : holds h [].
Proof. intros a n []. Qed.
Lemma upd_eq h a o : upd h a o a = o.
Proof. unfold upd. rewrite Z.eqb_refl. reflexivity. Qed.
Lemma upd_neq h a o b : b <> a -> upd h a o b = h b.
Proof. unfold upd. intros H. destruct (Z.eqb_spec b a); [contradiction|reflexivity]. Qed.
Lemma holds_upd h a o L : ~ In a (map fst L) -> holds h L -> holds (upd h a o) L.
Proof.
  intros F H b n I. rewrite upd_neq; [auto|]. intros ->. apply F.
  apply in_map_iff. exists (a, n). auto.
Qed.
Lemma holds_same h h' L : (forall a, In a (map fst L) -> h' a = h a) -> holds h L -> holds h' L.
Proof.
  intros F H b n I. rewrite F; [auto|]. apply in_map_iff. exists (b, n). auto.
Qed.
Lemma get_some h a n : a <> 0 -> h a = Some n -> get h a = Ok n.
Proof. intros H E'. unfold get. destruct (Z.eqb_spec a 0); [contradiction|]. rewrite E'. reflexivity. Qed.

(** ** Shapes *)
Definition rep (h : heap) (t : tree) : Prop :=
  holds h (cells 0 t) /\ NoDup (addrs t) /\ ~ In 0 (addrs t).
Definition shape (s : bst) (t : tree) : Prop :=
  rep (mem s) t /\ exists l r, t = N HEAD (-1) 0 l r /\ elems s = zlen (keys l ++ keys r).

Lemma len_keys t : length (keys t) = length (addrs t).
Proof. induction t; cbn; auto. rewrite !app_length, IHt1, IHt2. reflexivity. Qed.

Lemma shape_create : shape create (N HEAD (-1) 0 E E).
Proof.
  split; [|exists E, E; split; reflexivity]. split; [|split].
  - apply holds_cons. split; [reflexivity|apply holds_nil].
  - cbn. constructor; [auto|constructor].
  - cbn. unfold HEAD. lia.
Qed.

(** ** Finding *)
Fixpoint total (ts : list tree) : nat := match ts with [] => O | t :: ts => (length (addrs t) + total ts)%nat end.
Lemma push_root h st t rest : (exists p, holds h (cells p t)) -> (~ In 0 (addrs t)) ->
  (t <> E -> zlen (map root st) < STACK) ->
  rest = map root st ->
  push_node rest (root t) = Ok (map root (match t with E => st | _ => t :: st end)).
Proof.
  intros _ Z0 B ->. unfold push_node. destruct t as [|a k ty l r]; cbn [root].
  - reflexivity.
  - destruct (Z.eqb_spec a 0) as [->|]; [exfalso; apply Z0; cbn; auto|].
    assert (B' : zlen (map root st) < STACK) by (apply B; discriminate).
    apply Z.ltb_lt in B'. rewrite B'. reflexivity.
Qed.
Lemma dfs_ok h key : forall fuel ts,
  (forall t, In t ts -> t <> E /\ (exists p, holds h (cells p t)) /\ ~ In 0 (addrs t)) ->
  Z.of_nat (total ts) <= STACK -> (total ts < fuel)%nat ->
  exists a, dfs fuel h key (map root ts) = Ok a /\
    ((a = 0 /\ forall t, In t ts -> ~ In key (keys t)) \/
     (a <> 0 /\ exists t p n, In t ts /\ In (a, n) (cells p t) /\ num n = key)).
Proof.
  induction fuel as [|fuel IH]; intros ts H B F; [lia|].
  destruct ts as [|t ts]; cbn [map dfs].
  { exists 0. split; auto. }
  destruct (H t) as (Ne & (p & Ht) & Z0); [left; auto|].
  destruct t as [|a k ty l r]; [contradiction|]. cbn [root].
  pose proof Ht as Ht'. cbn [cells] in Ht'. apply holds_cons in Ht'. destruct Ht' as [Ha Hlr]. apply holds_app in Hlr. destruct Hlr as [Hl Hr].
  cbn [addrs] in Z0. assert (Na : a <> 0) by (intros ->; apply Z0; left; auto).
  rewrite (get_some _ _ _ Na Ha). cbn [bind num lft rgt].
  destruct (Z.eqb_spec k key) as [->|Nk].
  { exists a. split; auto. right. split; auto. exists (N a key ty l r), p, (Node key p (root l) (root r) ty).
    split; [left; auto|]. split; [cbn; auto|reflexivity]. }
  assert (T1 : forall ts', (forall t, In t ts' -> t <> E) -> (length ts' <= total ts')%nat).
  { induction ts' as [|t' ts' IHt]; intros Q; cbn; [lia|].
    assert (t' <> E) by (apply Q; left; auto). destruct t'; [contradiction|].
    assert (length ts' <= total ts')%nat by (apply IHt; intros; apply Q; right; auto). cbn. lia. }
  assert (T0 : (length ts <= total ts)%nat) by (apply T1; intros t' I; apply H; right; auto).
  cbn [total addrs length] in B, F. rewrite app_length in B, F.
  rewrite (push_root h ts l (map root ts)); eauto.
  2:{ intros I. apply Z0. right. apply in_app_iff. auto. }
  2:{ intros _. unfold zlen. rewrite map_length. lia. }
  cbn [bind].
  set (ts1 := match l with E => ts | _ => l :: ts end).
  assert (L1 : (length ts1 + total ts <= length ts + total ts1)%nat /\ total ts1 = (length (addrs l) + total ts)%nat).
  { subst ts1. destruct l; cbn; lia. }
  rewrite (push_root h ts1 r (map root ts1)); eauto.
  2:{ intros I. apply Z0. right. apply in_app_iff. auto. }
  2:{ intros Hne. unfold zlen. rewrite map_length. destruct r; [contradiction|]. cbn [addrs length] in B. lia. }
  cbn [bind].
  set (ts2 := match r with E => ts1 | _ => r :: ts1 end).
  assert (L2 : total ts2 = (length (addrs r) + total ts1)%nat) by (subst ts2; destruct r; cbn; lia).
  assert (In2 : forall t, In t ts2 <-> (In t ts \/ (t = l /\ l <> E) \/ (t = r /\ r <> E))).
  { intros t. subst ts2 ts1. destruct l, r; cbn; split; intros Q; intuition (try discriminate; try congruence; subst; auto). }
  destruct (IH ts2) as (x & Ex & Hx).
  - intros t I. apply In2 in I. destruct I as [I|[[-> I]|[-> I]]].
    + apply H. right; auto.
    + split; auto. split; [eauto|]. intros J. apply Z0. right. apply in_app_iff. auto.
    + split; auto. split; [eauto|]. intros J. apply Z0. right. apply in_app_iff. auto.
  - lia.
  - lia.
  - exists x. split; auto. destruct Hx as [[-> Hx]|[Nx (t & q & n & It & Ic & En)]].
    + left. split; auto. intros t [<-|I].
      * cbn [keys]. intros [I|I]; [contradiction|]. apply in_app_iff in I. destruct I as [I|I].
        -- apply (Hx l); auto. apply In2. right; left. split; auto. intros ->. destruct I.
        -- apply (Hx r); auto. apply In2. right; right. split; auto. intros ->. destruct I.
      * apply Hx. apply In2. auto.
    + right. split; auto. apply In2 in It. destruct It as [It|[[-> It]|[-> It]]].
      * exists t, q, n. split; [right; auto|auto].
      * assert (I' : exists n', In (x, n') (cells a l) /\ num n' = key).
        { destruct l; [contradiction|]. cbn in Ic |- *. destruct Ic as [Ic|Ic]; [inversion Ic; subst; eexists; split; [left; reflexivity|reflexivity]|]. eauto. }
        destruct I' as (n' & I' & E'). exists (N a k ty l r), p, n'. split; [left; auto|]. split; [|auto]. cbn. right. apply in_app_iff. auto.
      * assert (I' : exists n', In (x, n') (cells a r) /\ num n' = key).
        { destruct r; [contradiction|]. cbn in Ic |- *. destruct Ic as [Ic|Ic]; [inversion Ic; subst; eexists; split; [left; reflexivity|reflexivity]|]. eauto. }
        destruct I' as (n' & I' & E'). exists (N a k ty l r), p, n'. split; [left; auto|]. split; [|auto]. cbn. right. apply in_app_iff. auto.
Qed.

(** a node of a tree is the root of a subtree *)
Lemma locate t : forall p a n, In (a, n) (cells p t) ->
  exists c l r, t = plug c (N a (num n) (tag n) l r) /\ n = Node (num n) (top p c) (root l) (root r) (tag n).
Proof.
  induction t as [|b k ty l IHl r IHr]; intros p a n I; [destruct I|].
  cbn [cells] in I. destruct I as [I|I]; [|apply in_app_iff in I; destruct I as [I|I]].
  - inversion I; subst. exists [], l, r. cbn. auto.
  - destruct (IHl _ _ _ I) as (c & l' & r' & E1 & E2).
    exists (c ++ [FL b k ty r]), l', r'. rewrite plug_app, <- E1. split; [reflexivity|].
    rewrite E2 at 1. f_equal. destruct c; reflexivity.
  - destruct (IHr _ _ _ I) as (c & l' & r' & E1 & E2).
    exists (c ++ [FR b k ty l]), l', r'. rewrite plug_app, <- E1. split; [reflexivity|].
    rewrite E2 at 1. f_equal. destruct c; reflexivity.
Qed.
Lemma in_keys t : forall p k, In k (keys t) <-> exists a n, In (a, n) (cells p t) /\ num n = k.
Proof.
  induction t as [|b j ty l IHl r IHr]; intros p k.
  - cbn. split; [intros []|intros (a & n & [] & _)].
  - cbn [keys cells]. split.
    + intros [->|I]; [exists b; eexists; split; [left; reflexivity|reflexivity]|].
      apply in_app_iff in I. destruct I as [I|I].
      * apply (proj1 (IHl b k)) in I. destruct I as (a & n & I & E'). exists a, n. split; auto. right. apply in_app_iff. auto.
      * apply (proj1 (IHr b k)) in I. destruct I as (a & n & I & E'). exists a, n. split; auto. right. apply in_app_iff. auto.
    + intros (a & n & [I|I] & E').
      * inversion I; subst. left. reflexivity.
      * right. apply in_app_iff in I. apply in_app_iff. destruct I as [I|I]; [left; apply (IHl b)|right; apply (IHr b)]; eauto.
Qed.

Lemma find_ok fuel s t k : shape s t -> elems s < STACK -> elems s + 1 < Z.of_nat fuel ->
  exists a, find fuel s k = Ok a /\
    ((a = 0 /\ ~ In k (keys t)) \/
     (a <> 0 /\ exists n, In (a, n) (cells 0 t) /\ num n = k)).
Proof.
  intros ((H & ND & Z0) & l & r & -> & El) B F.
  assert (T : Z.of_nat (total [N HEAD (-1) 0 l r]) = elems s + 1).
  { cbn [total addrs length]. rewrite El. unfold zlen. rewrite !app_length, <- !len_keys. lia. }
  destruct (dfs_ok (mem s) k fuel [N HEAD (-1) 0 l r]) as (a & Ea & Ha).
  - intros t [<-|[]]. split; [discriminate|]. split; [eauto|auto].
  - lia.
  - lia.
  - exists a. split; [exact Ea|]. destruct Ha as [[-> Ha]|[Na (t & p & n & [<-|[]] & I & En)]].
    + left. split; auto. apply Ha. left; auto.
    + right. split; auto. assert (J : In k (keys (N HEAD (-1) 0 l r))) by (apply (in_keys _ p); eauto).
      (* the same cell with the right parent *)
      cbn in I. cbn [cells]. destruct I as [I|I].
      * inversion I; subst. eexists. split; [left; reflexivity|reflexivity].
      * exists n. split; auto. right. auto.
Qed.

(** ** Inserting *)
Definition goes (key : Z) (f : frame) : Prop :=
  match f with FL _ k _ _ => k <? key = false | FR _ k _ _ => k <? key = true end.
(** [x] put in the place where [key] belongs *)
Fixpoint tput (key : Z) (x t : tree) : tree :=
  match t with
  | E => x
  | N a k ty l r => if k <? key then N a k ty l (tput key x r) else N a k ty (tput key x l) r
  end.
Lemma walk_ok h key : forall fuel t c q, holds h (cells (top q c) t) -> ~ In 0 (addrs t) -> (length (addrs t) < fuel)%nat ->
  exists c', walk fuel h key (root t) (top q c) = Ok (top q c') /\ plug c' E = plug c t /\
    (forall x, plug c' x = plug c (tput key x t)) /\ (t = E -> c' = c) /\ (t <> E -> exists f c'', c' = f :: c'' /\ goes key f).
Proof.
  induction fuel as [|fuel IH]; intros t c q H Z0 F; [lia|].
  destruct t as [|a k ty l r]; cbn [walk root].
  { exists c. cbn. repeat split; auto. intros []; auto. }
  cbn [addrs] in Z0. assert (Na : a <> 0) by (intros ->; apply Z0; left; auto).
  cbn [cells] in H. apply holds_cons in H. destruct H as [Ha Hlr]. apply holds_app in Hlr. destruct Hlr as [Hl Hr].
  destruct (Z.eqb_spec a 0); [contradiction|]. rewrite (get_some _ _ _ Na Ha). cbn [bind num lft rgt].
  cbn [addrs length] in F. rewrite app_length in F.
  destruct (k <? key) eqn:G.
  - destruct (IH r (FR a k ty l :: c) q) as (c' & E1 & E2 & E5 & E3 & E4); [exact Hr| |lia|].
    { intros I. apply Z0. right. apply in_app_iff. auto. }
    cbn [top fa] in E1. exists c'. split; [exact E1|]. split; [exact E2|]. split; [intros x; rewrite E5; cbn [tput]; rewrite G; reflexivity|]. split; [discriminate|]. intros _.
    destruct r; [|apply E4; discriminate]. rewrite E3 by auto. eexists _, _. split; [reflexivity|exact G].
  - destruct (IH l (FL a k ty r :: c) q) as (c' & E1 & E2 & E5 & E3 & E4); [exact Hl| |lia|].
    { intros I. apply Z0. right. apply in_app_iff. auto. }
    cbn [top fa] in E1. exists c'. split; [exact E1|]. split; [exact E2|]. split; [intros x; rewrite E5; cbn [tput]; rewrite G; reflexivity|]. split; [discriminate|]. intros _.
    destruct l; [|apply E4; discriminate]. rewrite E3 by auto. eexists _, _. split; [reflexivity|exact G].
Qed.

(** the head stays on top *)
Lemma plug_head c x l r : plug c x = N HEAD (-1) 0 l r ->
  c <> [] -> forall y, exists l' r', plug c y = N HEAD (-1) 0 l' r'.
Proof.
  revert x. induction c as [|f c IH]; intros x E1 Nc y; [contradiction|].
  cbn [plug] in *. destruct c as [|g c].
  - destruct f; cbn in *; inversion E1; subst; eauto.
  - apply (IH (fill f x)); [exact E1|discriminate].
Qed.
Lemma NoDup_plug c t : NoDup (addrs (plug c t)) <-> NoDup (ctx_addrs c ++ addrs t).
Proof. split; apply Permutation_NoDup; [|symmetry]; apply addrs_plug. Qed.
Lemma In_plug x c t : In x (addrs (plug c t)) <-> In x (ctx_addrs c ++ addrs t).
Proof. split; apply Permutation_in; [|symmetry]; apply addrs_plug. Qed.
Lemma apart {A} (l1 l2 : list A) x : NoDup (l1 ++ l2) -> In x l1 -> In x l2 -> False.
Proof.
  induction l1 as [|a l1 IH]; intros N' I J; [destruct I|]. cbn in N'. inversion N'; subst.
  destruct I as [->|I]; [|auto]. apply H1. apply in_app_iff. auto.
Qed.

Lemma set_side h f p x v : fa f <> 0 -> h (fa f) = Some (fnode f p x) ->
  (match f with FL _ _ _ _ => set_lft h (fa f) v | FR _ _ _ _ => set_rgt h (fa f) v end) =
  Ok (upd h (fa f) (Some (fnode f p v))).
Proof.
  intros Nf Hf. destruct f; cbn [fa] in *; unfold set_lft, set_rgt; rewrite (get_some _ _ _ Nf Hf); reflexivity.
Qed.

Lemma zlen_perm (l l' : list Z) : Permutation l l' -> zlen l = zlen l'.
Proof. intros P. unfold zlen. rewrite (Permutation_length P). reflexivity. Qed.

Lemma add_ok fuel s t k a : shape s t -> elems s + 1 < Z.of_nat fuel -> a <> 0 -> mem s a = None ->
  exists s' t', add fuel s k a = Ok (s', 0) /\ shape s' t' /\ Permutation (keys t') (k :: keys t) /\
    (exists side, t' = tput k (N a k side E E) t) /\
    (forall x, x <> a -> mem s x = None -> mem s' x = None).
Proof.
  intros Sh F Na Fr. pose proof Sh as ((H & ND & Z0) & l & r & Et & El).
  assert (T : Z.of_nat (length (addrs t)) = elems s + 1).
  { rewrite Et. cbn [addrs length]. rewrite El. unfold zlen. rewrite !app_length, <- !len_keys. lia. }
  destruct (walk_ok (mem s) k fuel t [] 0) as (c & E1 & E2 & E5 & _ & E4); [exact H|exact Z0|lia|].
  destruct (E4 ltac:(rewrite Et; discriminate)) as (f & c' & -> & G).
  replace (root t) with HEAD in E1 by (rewrite Et; reflexivity). cbn [top] in E1.
  unfold add. rewrite E1. cbn [bind]. destruct (Z.eqb_spec a 0); [contradiction|].
  change (plug [] t) with t in E2.
  assert (HP : holds (mem s) (ctx_cells 0 (f :: c') 0 ++ [])).
  { eapply holds_perm; [|exact H]. rewrite <- E2. apply (cells_plug 0 (f :: c') E). }
  rewrite app_nil_r in HP. cbn [ctx_cells] in HP. apply holds_cons in HP. destruct HP as [Hf HR].
  assert (ND' : NoDup (ctx_addrs (f :: c') ++ [])).
  { apply (NoDup_plug (f :: c') E). rewrite E2. exact ND. }
  rewrite app_nil_r in ND'.
  assert (Nf : fa f <> 0).
  { intros Ef. apply Z0. rewrite <- E2. apply In_plug. cbn. rewrite Ef. auto. }
  rewrite (get_some _ _ _ Nf Hf). cbn [bind].
  assert (Ek : num (fnode f (top 0 c') 0) = fkey f) by (destruct f; reflexivity). rewrite Ek.
  set (side := if fkey f <? k then RIGHT else LEFT).
  replace (if fkey f <? k then set_rgt (mem s) (fa f) a else set_lft (mem s) (fa f) a)
    with (Ok (upd (mem s) (fa f) (Some (fnode f (top 0 c') a)))).
  2:{ symmetry. rewrite <- (set_side (mem s) f (top 0 c') 0 a Nf Hf).
      destruct f; cbn [goes fkey] in *; rewrite G; reflexivity. }
  cbn [bind].
  assert (Fa : forall L, holds (mem s) L -> ~ In a (map fst L)).
  { intros L HL I. apply in_map_iff in I. destruct I as ((b & n') & <- & I). apply HL in I. cbn in *. congruence. }
  assert (FA : ~ In a (addrs t)).
  { rewrite <- (cells_addrs t 0). apply Fa. exact H. }
  assert (Naf : fa f <> a) by (intros Q; rewrite Q in Hf; congruence).
  eexists _, (plug (f :: c') (N a k side E E)). split; [reflexivity|].
  cbn [ctx_addrs] in ND'. inversion ND' as [|? ? Nf' ND'']; subst x l0.
  rewrite <- (cells_addrs (fside f) (fa f)), <- (ctx_cells_addrs 0 c' (fa f)), <- map_app in Nf'.
  assert (KP : Permutation (keys (plug (f :: c') (N a k side E E))) (k :: keys t)).
  { rewrite (keys_plug (f :: c') (N a k side E E)). cbn [keys app]. rewrite <- E2.
    rewrite (keys_plug (f :: c') E). cbn [keys]. rewrite app_nil_r.
    symmetry. apply Permutation_cons_append. }
  split; [|split; [exact KP|split]].
  2:{ exists side. apply (E5 (N a k side E E)). }
  2:{ intros x X1 X2. cbn [mem]. rewrite upd_neq by auto. rewrite upd_neq; [exact X2|]. intros ->. congruence. }
  split.
  - cbn [mem]. split; [|split].
    + eapply holds_perm; [symmetry; apply cells_plug|]. cbn [root ctx_cells cells top].
      apply holds_app. split.
      * apply holds_cons. split.
        -- rewrite upd_neq by auto. rewrite upd_eq. reflexivity.
        -- apply holds_upd; [apply Fa; exact HR|]. apply holds_upd; [exact Nf'|exact HR].
      * apply holds_cons. split; [apply upd_eq|apply holds_nil].
    + apply NoDup_plug. cbn [addrs app]. apply Permutation_NoDup with (a :: ctx_addrs (f :: c')).
      * apply Permutation_cons_append.
      * constructor; [|exact ND']. intros I. apply FA. rewrite <- E2. apply In_plug. apply in_app_iff. auto.
    + intros I. apply In_plug in I. apply in_app_iff in I. destruct I as [I|[I|[]]].
      * apply Z0. rewrite <- E2. apply In_plug. apply in_app_iff. auto.
      * auto.
  - destruct (plug_head (f :: c') E l r) with (y := N a k side E E) as (l' & r' & E'); [congruence|discriminate|].
    exists l', r'. split; [exact E'|]. cbn [elems]. rewrite E' in KP. rewrite Et in KP. cbn [keys] in KP.
    rewrite El. apply zlen_perm in KP. rewrite !zlen_cons in KP. lia.
Qed.

(** ** Counting, to settle that addresses differ *)
Definition one (x a : Z) : Z := if x =? a then 1 else 0.
Lemma one_nonneg x a : 0 <= one x a.
Proof. unfold one. destruct (x =? a); lia. Qed.
Lemma one_refl x : one x x = 1.
Proof. unfold one. rewrite Z.eqb_refl. reflexivity. Qed.
Lemma one_neq x a : x <> a -> one x a = 0.
Proof. unfold one. intros H. destruct (Z.eqb_spec x a); [contradiction|reflexivity]. Qed.
Fixpoint cnt (x : Z) (l : list Z) : Z := match l with [] => 0 | a :: l => one x a + cnt x l end.
Lemma cnt_nonneg x l : 0 <= cnt x l.
Proof. induction l; cbn; [lia|]. pose proof (one_nonneg x a). lia. Qed.
Lemma cnt_cons x a l : cnt x (a :: l) = one x a + cnt x l.
Proof. reflexivity. Qed.
Lemma cnt_app x l l' : cnt x (l ++ l') = cnt x l + cnt x l'.
Proof. induction l; cbn [cnt app]; [lia|]. rewrite IHl. lia. Qed.
Lemma in_cnt x l : In x l <-> 0 < cnt x l.
Proof.
  induction l; cbn [cnt In]; [lia|]. pose proof (cnt_nonneg x l). rewrite IHl. unfold one.
  destruct (Z.eqb_spec x a); [subst; intuition lia|]. intuition lia.
Qed.
Lemma nd_cnt l : NoDup l <-> forall x, cnt x l <= 1.
Proof.
  induction l as [|a l IH]; cbn [cnt].
  - split; [lia|constructor].
  - rewrite NoDup_cons_iff, IH, in_cnt. unfold one. split.
    + intros [H1 H2] x. specialize (H2 x). destruct (Z.eqb_spec x a); [subst; lia|lia].
    + intros H. split.
      * specialize (H a). rewrite Z.eqb_refl in H. lia.
      * intros x. specialize (H x). pose proof (cnt_nonneg x l). destruct (x =? a); lia.
Qed.
Lemma cnt_perm x l l' : Permutation l l' -> cnt x l = cnt x l'.
Proof. induction 1; cbn [cnt]; lia. Qed.
(** goals [~ In x L] and [x <> y] from [ND : forall x, cnt x L <= 1] *)
Ltac norm_cnt :=
  rewrite ?map_app, ?cells_addrs, ?ctx_cells_addrs, ?in_cnt in *;
  repeat (progress (cbn [cnt addrs ctx_addrs app map fst fa fside] in * || rewrite ?cnt_app in * ));
  rewrite ?one_refl in *.
Ltac pos_cnt :=
  repeat match goal with
    | |- context [cnt ?x ?l] => lazymatch goal with _ : 0 <= cnt x l |- _ => fail | _ => pose proof (cnt_nonneg x l) end
    | |- context [one ?x ?l] => lazymatch goal with _ : 0 <= one x l |- _ => fail | _ => pose proof (one_nonneg x l) end
    | _ : context [cnt ?x ?l] |- _ => lazymatch goal with _ : 0 <= cnt x l |- _ => fail | _ => pose proof (cnt_nonneg x l) end
    | _ : context [one ?x ?l] |- _ => lazymatch goal with _ : 0 <= one x l |- _ => fail | _ => pose proof (one_nonneg x l) end
    end.
Ltac dj ND :=
  clear - ND;
  lazymatch goal with
  | |- ?x <> ?y => let Q := fresh in intros Q; specialize (ND x); norm_cnt; rewrite <- ?Q in ND; rewrite ?one_refl in ND; pos_cnt; lia
  | |- ~ In ?x ?L => specialize (ND x); norm_cnt; pos_cnt; lia
  end.

(** ** Deleting *)
Definition tagged (f : frame) (ty : Z) : Prop :=
  match f with FL _ _ _ _ => ty = LEFT | FR _ _ _ _ => ty <> LEFT end.
Lemma relink_ok h n c f p x v : n <> 0 -> h n = Some c -> par c = fa f -> fa f <> 0 ->
  h (fa f) = Some (fnode f p x) -> tagged f (tag c) ->
  relink h n v = Ok (upd h (fa f) (Some (fnode f p v))).
Proof.
  intros Nn Hn P Nf Hf T. unfold relink. rewrite (get_some _ _ _ Nn Hn). cbn [bind]. rewrite P.
  rewrite <- (set_side h f p x v Nf Hf). destruct f; cbn [tagged] in T.
  - rewrite T. reflexivity.
  - apply Z.eqb_neq in T. rewrite T. reflexivity.
Qed.
Lemma set_par_ok h b n v : b <> 0 -> h b = Some n ->
  set_par h b v = Ok (upd h b (Some (Node (num n) v (lft n) (rgt n) (tag n)))).
Proof. intros Nb Hb. unfold set_par. rewrite (get_some _ _ _ Nb Hb). reflexivity. Qed.
Lemma set_lft_ok h b n v : b <> 0 -> h b = Some n ->
  set_lft h b v = Ok (upd h b (Some (Node (num n) (par n) v (rgt n) (tag n)))).
Proof. intros Nb Hb. unfold set_lft. rewrite (get_some _ _ _ Nb Hb). reflexivity. Qed.
Lemma set_rgt_ok h b n v : b <> 0 -> h b = Some n ->
  set_rgt h b v = Ok (upd h b (Some (Node (num n) (par n) (lft n) v (tag n)))).
Proof. intros Nb Hb. unfold set_rgt. rewrite (get_some _ _ _ Nb Hb). reflexivity. Qed.

(** the parts of a represented tree *)
Lemma rep_parts h f c T : rep h (plug (f :: c) T) ->
  fa f <> 0 /\ h (fa f) = Some (fnode f (top 0 c) (root T)) /\
  holds h (cells (fa f) (fside f) ++ ctx_cells 0 c (fa f)) /\ holds h (cells (fa f) T) /\
  (forall x, cnt x (fa f :: (addrs (fside f) ++ ctx_addrs c) ++ addrs T) <= 1) /\
  cnt 0 (fa f :: (addrs (fside f) ++ ctx_addrs c) ++ addrs T) <= 0.
Proof.
  intros (H & ND & Z0).
  assert (P : Permutation (addrs (plug (f :: c) T)) (fa f :: (addrs (fside f) ++ ctx_addrs c) ++ addrs T)) by apply (addrs_plug (f :: c) T).
  apply (holds_perm _ _ _ (cells_plug 0 (f :: c) T)) in H. apply holds_app in H. destruct H as [H1 H2].
  cbn [ctx_cells] in H1. apply holds_cons in H1. destruct H1 as [H0 H1].
  assert (C0 : cnt 0 (fa f :: (addrs (fside f) ++ ctx_addrs c) ++ addrs T) <= 0).
  { rewrite <- (cnt_perm 0 _ _ P). rewrite in_cnt in Z0. lia. }
  split; [|split; [exact H0|split; [exact H1|split; [exact H2|split; [|exact C0]]]]].
  - intros Q. rewrite Q in C0. cbn [cnt] in C0. rewrite one_refl in C0.
    pose proof (cnt_nonneg 0 ((addrs (fside f) ++ ctx_addrs c) ++ addrs T)). lia.
  - apply nd_cnt. eapply Permutation_NoDup; [exact P|exact ND].
Qed.
Lemma rep_join h f c T :
  h (fa f) = Some (fnode f (top 0 c) (root T)) ->
  holds h (cells (fa f) (fside f) ++ ctx_cells 0 c (fa f)) -> holds h (cells (fa f) T) ->
  (forall x, cnt x (fa f :: (addrs (fside f) ++ ctx_addrs c) ++ addrs T) <= 1) ->
  cnt 0 (fa f :: (addrs (fside f) ++ ctx_addrs c) ++ addrs T) <= 0 ->
  rep h (plug (f :: c) T).
Proof.
  intros H0 H1 H2 ND C0.
  assert (P : Permutation (addrs (plug (f :: c) T)) (fa f :: (addrs (fside f) ++ ctx_addrs c) ++ addrs T)) by apply (addrs_plug (f :: c) T).
  split; [|split].
  - eapply holds_perm; [symmetry; apply (cells_plug 0 (f :: c) T)|]. apply holds_app. split; [|exact H2].
    cbn [ctx_cells]. apply holds_cons. auto.
  - eapply Permutation_NoDup; [symmetry; exact P|]. apply nd_cnt. exact ND.
  - rewrite in_cnt. rewrite (cnt_perm 0 _ _ P). lia.
Qed.

Lemma unlink_one f c h m km tm W T : T = N m km tm W E \/ T = N m km tm E W -> W <> E ->
  rep h (plug (f :: c) T) -> tagged f tm ->
  exists h1 h2, relink h m (root W) = Ok h1 /\ h1 m = h m /\ set_par h1 (root W) (fa f) = Ok h2 /\
    rep h2 (plug (f :: c) W) /\ h2 m = h m /\
    (forall x, x <> fa f -> x <> root W -> h2 x = h x).
Proof.
  intros ET NW R Tg. destruct W as [|b kb tb bl br]; [contradiction|]. clear NW.
  assert (CT : holds h (cells (fa f) T) -> exists mc, h m = Some mc /\ par mc = fa f /\ tag mc = tm /\
     holds h (cells m (N b kb tb bl br))).
  { destruct ET as [-> | ->]; cbn [cells root app]; intros H; apply holds_cons in H; destruct H as [H1 H2];
      [rewrite app_nil_r in H2|]; eexists; repeat split; eauto. }
  assert (AT : Permutation (addrs T) (m :: addrs (N b kb tb bl br))).
  { destruct ET as [-> | ->]; cbn [addrs app]; [rewrite app_nil_r|]; reflexivity. }
  apply rep_parts in R. destruct R as (Nf & Hf & HR & HT & ND & C0).
  destruct (CT HT) as (mc & Hm & Pm & Tm & HW). clear CT ET.
  assert (ND' : forall x, cnt x (fa f :: (addrs (fside f) ++ ctx_addrs c) ++ m :: addrs (N b kb tb bl br)) <= 1).
  { intros x. specialize (ND x). cbn [cnt] in ND |- *. rewrite cnt_app in *. rewrite (cnt_perm x _ _ AT) in ND. exact ND. }
  assert (C0' : cnt 0 (fa f :: (addrs (fside f) ++ ctx_addrs c) ++ m :: addrs (N b kb tb bl br)) <= 0).
  { cbn [cnt] in C0 |- *. rewrite cnt_app in *. rewrite (cnt_perm 0 _ _ AT) in C0. exact C0. }
  clear ND C0 AT.
  assert (Nm : m <> 0).
  { intros ->. norm_cnt. pos_cnt. lia. }
  assert (Nb : b <> 0).
  { intros ->. norm_cnt. pos_cnt. lia. }
  assert (Dmf : m <> fa f) by dj ND'. assert (Dbf : b <> fa f) by dj ND'. assert (Dmb : m <> b) by dj ND'.
  eexists _, _. split; [apply (relink_ok h m mc f (top 0 c) (root T)); auto; rewrite Tm; exact Tg|].
  split; [apply upd_neq; auto|]. cbn [root].
  cbn [cells] in HW. apply holds_cons in HW. destruct HW as [Hb HW].
  split.
  { apply set_par_ok; [auto|]. rewrite upd_neq by auto. exact Hb. }
  cbn [num lft rgt tag].
  split; [|split].
  - apply rep_join.
    + rewrite upd_neq by auto. rewrite upd_eq. reflexivity.
    + apply holds_upd; [dj ND'|]. apply holds_upd; [dj ND'|]. exact HR.
    + cbn [cells]. apply holds_cons. split; [apply upd_eq|].
      apply holds_upd; [dj ND'|]. apply holds_upd; [dj ND'|]. exact HW.
    + intros x. specialize (ND' x). norm_cnt. pos_cnt. lia.
    + norm_cnt. pos_cnt. lia.
  - rewrite upd_neq by auto. rewrite upd_neq by auto. reflexivity.
  - intros x X1 X2. rewrite upd_neq by auto. rewrite upd_neq by auto. reflexivity.
Qed.

Lemma unlink_leaf a k ty r c h m km tm : rep h (plug (FL a k ty r :: c) (N m km tm E E)) ->
  exists h2, set_lft h a 0 = Ok h2 /\ rep h2 (plug (FL a k ty r :: c) E) /\ h2 m = h m /\
    (forall x, x <> a -> h2 x = h x).
Proof.
  intros R. apply rep_parts in R. destruct R as (Nf & Hf & HR & HT & ND & C0).
  assert (Dmf : m <> fa (FL a k ty r)) by dj ND.
  eexists. split; [apply (set_side h (FL a k ty r) (top 0 c) (root (N m km tm E E)) 0 Nf Hf)|].
  split; [|split].
  - apply rep_join.
    + apply upd_eq.
    + apply holds_upd; [dj ND|]. exact HR.
    + apply holds_nil.
    + intros x. specialize (ND x). norm_cnt. pos_cnt. lia.
    + norm_cnt. pos_cnt. lia.
  - apply upd_neq. auto.
  - intros x X. apply upd_neq. auto.
Qed.

(** node [a] with two children is replaced by the node [m], which is outside the tree *)
Definition swap (h : heap) (n m : Z) : res heap :=
  let* h := relink h n m in
  let* c := get h n in
  let* h := set_par h (lft c) m in
  let* c := get h n in
  let* h := set_par h (rgt c) m in
  let* c := get h n in
  let* h := set_par h m (par c) in
  let* h := set_lft h m (lft c) in
  set_rgt h m (rgt c).
Lemma swap_ok f c h a k ty L R m mc : L <> E -> R <> E -> tagged f ty ->
  rep h (plug (f :: c) (N a k ty L R)) -> m <> 0 -> h m = Some mc -> ~ In m (addrs (plug (f :: c) (N a k ty L R))) ->
  exists h', swap h a m = Ok h' /\ rep (upd h' a None) (plug (f :: c) (N m (num mc) (tag mc) L R)).
Proof.
  intros NL NR Tg R0 Nm Hm Fm.
  assert (Fm' : cnt m (fa f :: (addrs (fside f) ++ ctx_addrs c) ++ addrs (N a k ty L R)) <= 0).
  { rewrite in_cnt in Fm. rewrite (cnt_perm m _ _ (addrs_plug (f :: c) (N a k ty L R))) in Fm. cbn [ctx_addrs app] in Fm. lia. }
  apply rep_parts in R0. destruct R0 as (Nf & Hf & HR & HT & ND0 & C0).
  destruct L as [|b kb tb bl br]; [contradiction|]. destruct R as [|d kd td dl dr]; [contradiction|]. clear NL NR.
  cbn [cells root] in HT. apply holds_cons in HT. destruct HT as [Ha HT]. cbn [app] in HT. apply holds_cons in HT. destruct HT as [Hb HT].
  apply holds_app in HT. destruct HT as [HbT HdT]. apply holds_cons in HdT. destruct HdT as [Hd HdT].
  assert (ND : forall x, cnt x (m :: fa f :: (addrs (fside f) ++ ctx_addrs c) ++ addrs (N a k ty (N b kb tb bl br) (N d kd td dl dr))) <= 1).
  { intros x. rewrite cnt_cons. specialize (ND0 x). unfold one. destruct (Z.eqb_spec x m); [subst x; lia|lia]. }
  clear Fm Fm' ND0.
  assert (Na : a <> 0) by (intros ->; clear - C0; norm_cnt; pos_cnt; lia).
  assert (Nb : b <> 0) by (intros ->; clear - C0; norm_cnt; pos_cnt; lia).
  assert (Nd : d <> 0) by (intros ->; clear - C0; norm_cnt; pos_cnt; lia).
  assert (Daf : a <> fa f) by dj ND. assert (Dbf : b <> fa f) by dj ND. assert (Ddf : d <> fa f) by dj ND. assert (Dmf : m <> fa f) by dj ND.
  assert (Dab : a <> b) by dj ND. assert (Dad : a <> d) by dj ND. assert (Dam : a <> m) by dj ND.
  assert (Dbd : b <> d) by dj ND. assert (Dbm : b <> m) by dj ND. assert (Ddm : d <> m) by dj ND.
  assert (S : exists h', swap h a m = Ok h' /\
     h' (fa f) = Some (fnode f (top 0 c) m) /\ h' b = Some (Node kb m (root bl) (root br) tb) /\
     h' d = Some (Node kd m (root dl) (root dr) td) /\ h' m = Some (Node (num mc) (fa f) b d (tag mc)) /\
     (forall x, x <> fa f -> x <> b -> x <> d -> x <> m -> h' x = h x)).
  { unfold swap. rewrite (relink_ok h a _ f (top 0 c) a m Na Ha) by (auto; exact Tg). cbn [bind].
    set (h1 := upd h (fa f) _). assert (E1 : h1 a = h a) by (apply upd_neq; auto).
    rewrite (get_some h1 a _ Na (eq_trans E1 Ha)). cbn [bind lft rgt par].
    rewrite (set_par_ok h1 b _ m Nb (eq_trans (upd_neq _ _ _ _ Dbf) Hb)). cbn [bind num lft rgt tag].
    set (h2 := upd h1 b _). assert (E2 : h2 a = h a) by (unfold h2; rewrite upd_neq by auto; exact E1).
    rewrite (get_some h2 a _ Na (eq_trans E2 Ha)). cbn [bind lft rgt par].
    assert (E2d : h2 d = h d) by (unfold h2; rewrite upd_neq by auto; apply upd_neq; auto).
    rewrite (set_par_ok h2 d _ m Nd (eq_trans E2d Hd)). cbn [bind num lft rgt tag].
    set (h3 := upd h2 d _). assert (E3 : h3 a = h a) by (unfold h3; rewrite upd_neq by auto; exact E2).
    rewrite (get_some h3 a _ Na (eq_trans E3 Ha)). cbn [bind lft rgt par].
    assert (E3m : h3 m = h m). { unfold h3. rewrite upd_neq by auto. unfold h2. rewrite upd_neq by auto. apply upd_neq; auto. }
    rewrite (set_par_ok h3 m _ (fa f) Nm (eq_trans E3m Hm)). cbn [bind].
    rewrite (set_lft_ok _ m _ b Nm (upd_eq _ _ _)). cbn [bind num par lft rgt tag].
    rewrite (set_rgt_ok _ m _ d Nm (upd_eq _ _ _)). cbn [bind num par lft rgt tag].
    eexists. split; [reflexivity|].
    split; [|split; [|split; [|split]]].
    - rewrite !upd_neq by auto. unfold h3. rewrite upd_neq by auto. unfold h2. rewrite upd_neq by auto. apply upd_eq.
    - rewrite !upd_neq by auto. unfold h3. rewrite upd_neq by auto. apply upd_eq.
    - rewrite !upd_neq by auto. apply upd_eq.
    - apply upd_eq.
    - intros x X1 X2 X3 X4. rewrite !upd_neq by auto. unfold h3. rewrite upd_neq by auto. unfold h2. rewrite upd_neq by auto. apply upd_neq; auto. }
  destruct S as (h' & ES & Hf' & Hb' & Hd' & Hm' & Ho). exists h'. split; [exact ES|].
  assert (Same : forall L, holds h L -> ~ In (fa f) (map fst L) -> ~ In b (map fst L) -> ~ In d (map fst L) -> ~ In m (map fst L) -> holds h' L).
  { intros L HL X1 X2 X3 X4. apply (holds_same h); [|exact HL]. intros x I. apply Ho; intros ->; contradiction. }
  apply rep_join.
  - rewrite upd_neq by auto. exact Hf'.
  - apply holds_upd; [dj ND|]. apply Same; [exact HR|dj ND|dj ND|dj ND|dj ND].
  - cbn [cells root app]. apply holds_cons. split; [rewrite upd_neq by auto; exact Hm'|].
    apply holds_cons. split; [rewrite upd_neq by auto; exact Hb'|].
    apply holds_app. split.
    + apply holds_upd; [dj ND|]. apply Same; [exact HbT|dj ND|dj ND|dj ND|dj ND].
    + apply holds_cons. split; [rewrite upd_neq by auto; exact Hd'|].
      apply holds_upd; [dj ND|]. apply Same; [exact HdT|dj ND|dj ND|dj ND|dj ND].
  - clear - ND. intros x. specialize (ND x). norm_cnt. pos_cnt. lia.
  - assert (H0m : one 0 m = 0) by (apply one_neq; auto). clear - C0 H0m. norm_cnt. rewrite H0m. pos_cnt. lia.
Qed.

(** the leftmost node of a tree *)
Inductive leftmost (h : heap) : Z -> Z -> Prop :=
| leftmost_here a n : h a = Some n -> lft n = 0 -> leftmost h a a
| leftmost_down a n m : h a = Some n -> lft n <> 0 -> leftmost h (lft n) m -> leftmost h a m.
Definition is_left (f : frame) : Prop := match f with FL _ _ _ _ => True | FR _ _ _ _ => False end.
Lemma min_ok h : forall r p fuel, r <> E -> holds h (cells p r) -> ~ In 0 (addrs r) -> (length (addrs r) <= fuel)%nat ->
  exists c2 m km tm rm, r = plug c2 (N m km tm E rm) /\ Forall is_left c2 /\
    bst_min fuel h (root r) = Ok m /\ leftmost h (root r) m /\ (c2 = [] -> m = root r).
Proof.
  induction r as [|a k ty l IHl r IHr]; intros p fuel Nr H Z0 F; [contradiction|]. clear IHr.
  cbn [addrs length] in F, Z0. rewrite app_length in F. assert (Na : a <> 0) by (intros ->; apply Z0; left; auto).
  cbn [cells] in H. apply holds_cons in H. destruct H as [Ha H]. apply holds_app in H. destruct H as [Hl Hr].
  destruct fuel as [|fuel]; [lia|]. cbn [bst_min root]. rewrite (get_some _ _ _ Na Ha). cbn [bind lft].
  destruct l as [|b kb tb bl br].
  - exists [], a, k, ty, r. cbn. repeat split; auto. eapply leftmost_here; eauto.
  - assert (Nb : b <> 0) by (intros ->; apply Z0; right; apply in_app_iff; left; left; auto).
    destruct (IHl a fuel) as (c2 & m & km & tm & rm & E1 & E2 & E3 & E4 & E5); [discriminate|exact Hl| |lia|].
    { intros I. apply Z0. right. apply in_app_iff. auto. }
    cbn [root] in *. destruct (Z.eqb_spec b 0); [contradiction|].
    exists (c2 ++ [FL a k ty r]), m, km, tm, rm. rewrite plug_app, <- E1.
    split; [reflexivity|]. split; [apply Forall_app; split; [auto|constructor; [exact I|constructor]]|].
    split; [exact E3|]. split; [|intros Q; destruct c2; discriminate].
    eapply leftmost_down; [exact Ha|exact Nb|exact E4].
Qed.

(** *** Which deletions work *)
(** the link the deletion takes for the one that points to [n] does so *)
Definition sided (h : heap) (n : Z) : Prop :=
  exists c pc, h n = Some c /\ h (par c) = Some pc /\ (if tag c =? LEFT then lft pc else rgt pc) = n.
(** [n] has a child; if it has two, its successor [m] is not a leaf that is a child of [n] *)
Definition deletable (h : heap) (n : Z) : Prop :=
  n <> HEAD /\ sided h n /\
  exists c, h n = Some c /\ (lft c <> 0 \/ rgt c <> 0) /\
    (lft c <> 0 -> rgt c <> 0 -> forall m mc, leftmost h (rgt c) m -> h m = Some mc ->
       (rgt mc <> 0 -> sided h m) /\ (rgt mc = 0 -> m <> rgt c)).

Lemma rep_sub h f c a k ty l r : rep h (plug (f :: c) (N a k ty l r)) ->
  a <> 0 /\ h a = Some (Node k (fa f) (root l) (root r) ty).
Proof.
  intros R. apply rep_parts in R. destruct R as (Nf & Hf & HR & HT & ND & C0).
  cbn [cells] in HT. apply holds_cons in HT. destruct HT as [Ha _]. split; [|exact Ha].
  intros ->. clear - C0. norm_cnt. pos_cnt. lia.
Qed.
Lemma sided_tagged h f c a k ty l r : rep h (plug (f :: c) (N a k ty l r)) -> sided h a -> tagged f ty.
Proof.
  intros R (n & pn & Hn & Hp & S). destruct (rep_sub _ _ _ _ _ _ _ _ R) as [Na Ha].
  apply rep_parts in R. destruct R as (Nf & Hf & HR & HT & ND & C0).
  rewrite Ha in Hn. inversion Hn; subst n. clear Hn. cbn [par tag] in *. rewrite Hf in Hp. inversion Hp; subst pn. clear Hp.
  destruct f as [b kb tb s|b kb tb s]; cbn [fnode lft rgt tagged root] in *.
  - destruct (Z.eqb_spec ty LEFT); [auto|]. exfalso. destruct s as [|x ? ? ? ?]; cbn [root] in S; [congruence|]. subst x.
    specialize (ND a). clear - ND. norm_cnt. pos_cnt. lia.
  - destruct (Z.eqb_spec ty LEFT); [|auto]. exfalso. destruct s as [|x ? ? ? ?]; cbn [root] in S; [congruence|]. subst x.
    specialize (ND a). clear - ND. norm_cnt. pos_cnt. lia.
Qed.
Lemma rep_free h t a o : rep h t -> ~ In a (addrs t) -> rep (upd h a o) t.
Proof. intros (H & ND & Z0) F. split; [|auto]. apply holds_upd; [rewrite cells_addrs|]; auto. Qed.
Lemma out_of_hole c a k ty l r x : NoDup (addrs (plug c (N a k ty l r))) ->
  (forall y, In y (addrs x) -> In y (addrs l ++ addrs r)) -> ~ In a (addrs (plug c x)).
Proof.
  intros ND S I. apply NoDup_plug in ND. apply In_plug in I. apply in_app_iff in I. destruct I as [I|I].
  - apply (apart _ _ a ND I). left; auto.
  - apply S in I. clear S. apply NoDup_remove_2 in ND. apply ND. apply in_app_iff. auto.
Qed.
Lemma plug_not_E c x : x <> E \/ c <> [] -> plug c x <> E.
Proof.
  revert x. induction c as [|f c IH]; intros x H; cbn [plug]; [intuition|]. apply IH. left. destruct f; discriminate.
Qed.
Lemma shape_cut s h' c x y l r t' : t' = plug c y -> plug c x = N HEAD (-1) 0 l r -> c <> [] ->
  elems s = zlen (keys l ++ keys r) -> rep h' t' -> Permutation (keys x) (match keys x with k :: _ => k :: keys y | [] => keys y end) ->
  keys x <> [] ->
  shape (Bst h' (elems s - 1)) t'.
Proof.
  intros -> Ex Nc El R P Nx. split; [exact R|].
  destruct (plug_head c x l r Ex Nc y) as (l' & r' & E'). exists l', r'. split; [exact E'|]. cbn [elems].
  assert (L1 : zlen (keys (plug c x)) = zlen (keys (N HEAD (-1) 0 l r))) by (rewrite Ex; reflexivity).
  assert (L2 : zlen (keys (plug c y)) = zlen (keys (N HEAD (-1) 0 l' r'))) by (rewrite E'; reflexivity).
  rewrite (zlen_perm _ _ (keys_plug c x)), zlen_app in L1. rewrite (zlen_perm _ _ (keys_plug c y)), zlen_app in L2.
  cbn [keys] in L1, L2. rewrite zlen_cons in L1, L2. apply zlen_perm in P.
  destruct (keys x); [contradiction|]. rewrite zlen_cons in P. rewrite !zlen_cons in *. lia.
Qed.

Lemma del_ok fuel s t k n : shape s t -> elems s < STACK -> elems s + 1 < Z.of_nat fuel ->
  find fuel s k = Ok n -> n <> 0 -> deletable (mem s) n ->
  exists s' t', del fuel s k = Ok (s', 0) /\ shape s' t' /\ Permutation (keys t) (k :: keys t').
Proof.
  intros Sh B F Fi Nn (Nh & Sd & nc & Hnc & Ch & Two).
  destruct (find_ok fuel s t k Sh B F) as (n' & Fi' & [[-> _]|[_ (nn & In' & Ek)]]).
  { rewrite Fi in Fi'. inversion Fi'. contradiction. }
  rewrite Fi in Fi'. inversion Fi'; subst n'. clear Fi'.
  destruct Sh as (R & hl & hr & Et & El).
  destruct (locate t 0 n nn In') as (c & l & r & Ec & En). rewrite Ek in Ec.
  assert (Nc : c <> []) by (intros ->; cbn in Ec; rewrite Et in Ec; inversion Ec; congruence).
  destruct c as [|f c]; [contradiction|]. clear Nc.
  set (ty := tag nn) in *.
  assert (Hn : mem s n = Some (Node k (fa f) (root l) (root r) ty)).
  { destruct R as [H _]. rewrite (H n nn In'). rewrite En, Ek. reflexivity. }
  rewrite Hn in Hnc. inversion Hnc; subst nc. clear Hnc. cbn [lft rgt] in *.
  rewrite Ec in R. pose proof (sided_tagged _ _ _ _ _ _ _ _ R Sd) as Tg.
  pose proof R as (_ & ND & Z0).
  unfold del. rewrite Fi. cbn [bind]. destruct (Z.eqb_spec n 0); [contradiction|].
  rewrite (get_some _ _ _ Nn Hn). cbn [bind lft rgt par].
  assert (Zr : forall x, In x (addrs l ++ addrs r) -> x <> 0).
  { intros x I ->. apply Z0. apply In_plug. apply in_app_iff. right. right. exact I. }
  destruct l as [|b kb tb bl br].
  - (* no left child *)
    destruct r as [|b kb tb bl br]; [cbn in Ch; destruct Ch; congruence|]. cbn [root].
    assert (Nb : b <> 0) by (apply Zr; cbn; auto).
    destruct (Z.eqb_spec b 0); [contradiction|]. cbn [Z.eqb negb andb].
    destruct (unlink_one f c (mem s) n k ty (N b kb tb bl br) (N n k ty E (N b kb tb bl br))) as (h1 & h2 & E1 & _ & E2 & R2 & _); auto; [discriminate|].
    cbn [root] in E1, E2. rewrite E1. cbn [bind]. rewrite E2. cbn [bind].
    eexists _, _. split; [reflexivity|]. split.
    + eapply (shape_cut s _ (f :: c) (N n k ty E (N b kb tb bl br)) (N b kb tb bl br) hl hr); eauto; [congruence|discriminate| |discriminate].
      apply rep_free; [exact R2|]. eapply out_of_hole; [exact ND|]. auto.
    + rewrite Ec, !keys_plug. cbn [keys app]. symmetry. apply Permutation_middle.
  - destruct r as [|d kd td dl dr].
    + (* no right child *)
      cbn [root]. assert (Nb : b <> 0) by (apply Zr; cbn; auto).
      destruct (Z.eqb_spec b 0); [contradiction|]. cbn [Z.eqb negb andb].
      destruct (unlink_one f c (mem s) n k ty (N b kb tb bl br) (N n k ty (N b kb tb bl br) E)) as (h1 & h2 & E1 & _ & E2 & R2 & _); auto; [discriminate|].
      cbn [root] in E1, E2. rewrite E1. cbn [bind]. rewrite E2. cbn [bind].
      eexists _, _. split; [reflexivity|]. split.
      * eapply (shape_cut s _ (f :: c) (N n k ty (N b kb tb bl br) E) (N b kb tb bl br) hl hr); eauto; [congruence|discriminate| | |discriminate].
        -- apply rep_free; [exact R2|]. eapply out_of_hole; [exact ND|]. intros y I. apply in_app_iff; auto.
        -- cbn [keys]. rewrite app_nil_r. reflexivity.
      * rewrite Ec, !keys_plug. cbn [keys]. rewrite app_nil_r. symmetry. apply Permutation_middle.
    + (* two children *)
      set (L := N b kb tb bl br) in *. set (Rt := N d kd td dl dr) in *.
      assert (NL : root L <> 0) by (apply Zr; cbn; auto).
      assert (NR : root Rt <> 0) by (apply Zr; apply in_app_iff; right; cbn; auto).
      destruct (Z.eqb_spec (root L) 0); [contradiction|]. destruct (Z.eqb_spec (root Rt) 0); [contradiction|]. cbn [negb andb].
      assert (Hr : holds (mem s) (cells n Rt)).
      { destruct (rep_parts _ _ _ _ R) as (_ & _ & _ & HT & _). cbn [cells] in HT. apply holds_cons in HT. destruct HT as [_ HT]. apply holds_app in HT. apply HT. }
      destruct (min_ok (mem s) Rt n fuel) as (c2 & m & km & tm & rm & E1 & E2 & E3 & E4 & E5); [discriminate|exact Hr| | |].
      { intros I. apply (Zr 0); [apply in_app_iff; auto|auto]. }
      { assert (Q : (length (addrs Rt) <= length (addrs t))%nat).
        { rewrite Ec. rewrite (Permutation_length (addrs_plug _ _)). cbn [addrs]. rewrite app_length. cbn [length]. rewrite app_length. lia. }
        assert (T : Z.of_nat (length (addrs t)) = elems s + 1).
        { rewrite Et. cbn [addrs length]. rewrite El. unfold zlen. rewrite !app_length, <- !len_keys. lia. }
        lia. }
      rewrite E3. cbn [bind].
      set (C := c2 ++ FR n k ty L :: f :: c).
      assert (EC : forall x, plug C x = plug (f :: c) (N n k ty L (plug c2 x))) by (intros x; unfold C; rewrite plug_app; reflexivity).
      assert (Rm : rep (mem s) (plug C (N m km tm E rm))) by (rewrite EC, <- E1; exact R).
      destruct C as [|g C'] eqn:EqC; [destruct c2; discriminate|].
      destruct (rep_sub _ _ _ _ _ _ _ _ Rm) as [Nm Hm].
      rewrite (get_some _ _ _ Nm Hm). cbn [bind rgt par].
      destruct (Two NL NR m _ E4 Hm) as [Sd2 Dir]. cbn [rgt] in Sd2, Dir.
      assert (NDm : NoDup (addrs (plug (g :: C') (N m km tm E rm)))) by apply Rm.
      assert (Step1 : exists h2,
        (if negb (root rm =? 0) then
           let* h0 := relink (mem s) m (root rm) in
           let* mc := get h0 m in set_par h0 (rgt mc) (par mc)
         else set_lft (mem s) (fa g) 0) = Ok h2 /\ rep h2 (plug (g :: C') rm) /\ h2 m = mem s m).
      { destruct rm as [|x kx tx xl xr].
        - cbn [root Z.eqb negb]. destruct c2 as [|f2 c2].
          { exfalso. apply Dir; [reflexivity|]. apply E5. reflexivity. }
          cbn [app] in EqC. inversion EqC; subst g C'. inversion E2 as [|? ? Q1 Q2]; subst.
          destruct f2 as [a2 k2 t2 r2|]; [|destruct Q1].
          destruct (unlink_leaf a2 k2 t2 r2 _ _ m km tm Rm) as (h2 & U1 & U2 & U3 & _). exists h2. auto.
        - assert (Nx : x <> 0).
          { intros ->. destruct Rm as (_ & _ & Z1). apply Z1. apply In_plug. apply in_app_iff. right. cbn. auto. }
          cbn [root]. destruct (Z.eqb_spec x 0); [contradiction|]. cbn [negb].
          pose proof (sided_tagged _ _ _ _ _ _ _ _ Rm (Sd2 Nx)) as Tg2.
          destruct (unlink_one g C' (mem s) m km tm (N x kx tx xl xr) (N m km tm E (N x kx tx xl xr))) as (h1 & h2 & U1 & U2 & U3 & U4 & U5 & _); auto; [discriminate|].
          cbn [root] in U1, U3. rewrite U1. cbn [bind]. rewrite (get_some _ _ _ Nm (eq_trans U2 Hm)). cbn [bind rgt par root].
          exists h2. auto. }
      destruct Step1 as (h2 & S1 & R2 & S3). rewrite S1. cbn [bind].
      rewrite EC in R2. rewrite Hm in S3.
      edestruct (swap_ok f c h2 n k ty L (plug c2 rm) m) as (h3 & S4 & R3); [discriminate| |exact Tg|exact R2|exact Nm|exact S3| |].
      { apply plug_not_E. destruct rm; [|left; discriminate]. right. intros ->. apply Dir; auto. }
      { rewrite <- EC. eapply out_of_hole; [exact NDm|]. auto. }
      unfold swap in S4. rewrite S4. cbn [bind num tag] in *.
      eexists _, _. split; [reflexivity|].
      assert (KR : Permutation (keys Rt) (km :: keys (plug c2 rm))).
      { rewrite E1, !keys_plug. cbn [keys app]. symmetry. apply Permutation_middle. }
      split.
      * eapply (shape_cut s _ (f :: c) (N n k ty L Rt) (N m km tm L (plug c2 rm)) hl hr); eauto; [congruence|discriminate| |discriminate].
        cbn [keys]. constructor. rewrite KR. symmetry. apply Permutation_middle.
      * rewrite Ec, !keys_plug. change (keys (N n k ty L Rt)) with (k :: keys L ++ keys Rt).
        change (keys (N m km tm L (plug c2 rm))) with (km :: keys L ++ keys (plug c2 rm)).
        rewrite <- Permutation_middle. constructor. apply Permutation_app_head. rewrite KR. symmetry. apply Permutation_middle.
Qed.
