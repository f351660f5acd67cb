(** * Lemmas about the binary heap *)
From Verif Require Import Base Heap_Model.
Local Arguments Z.add : simpl never.
Local Arguments Z.mul : simpl never.
Local Arguments Z.div : simpl never.
Ltac Zify.zify_post_hook ::= Z.div_mod_to_equations.

(** ** Specification vocabulary *)
(** every used slot holds a node that knows its position *)
Definition hwf (h : heap) : Prop :=
  0 <= hn h <= hspace h /\ forall i, 1 <= i <= hn h -> exists x, harr h i = Some x /\ hidx h x = i.
(** a node is in the heap *)
Definition inh (h : heap) (x : Z) : Prop := 1 <= hidx h x <= hn h /\ harr h (hidx h x) = Some x.
(** key of a slot *)
Definition slotkey (h : heap) (j : Z) : Z := match harr h j with Some y => hkey h y | None => 0 end.
Definition ord (n : Z) (k : Z -> Z) : Prop := forall j, 2 <= j <= n -> k (j / 2) <= k j.
Definition hord (h : heap) : Prop := ord (hn h) (slotkey h).

Lemma inh_slot h x : hwf h -> inh h x <-> exists i, 1 <= i <= hn h /\ harr h i = Some x.
Proof.
  intros (R & W). split.
  - intros (A & B). eauto.
  - intros (i & A & B). destruct (W i A) as (y & E1 & E2). rewrite B in E1. injection E1 as <-. split; rewrite E2; auto.
Qed.

Lemma upd_same {A} (f : Z -> A) i v : upd f i v i = v.
Proof. unfold upd. rewrite Z.eqb_refl. reflexivity. Qed.
Lemma upd_other {A} (f : Z -> A) i v j : j <> i -> upd f i v j = f j.
Proof. intros. unfold upd. destruct (Z.eqb_spec j i); [contradiction|reflexivity]. Qed.

Lemma aget_ok h i x : 0 <= i <= hspace h -> harr h i = Some x -> aget h i = Ok x.
Proof. intros R E. unfold aget. destruct (Z.leb_spec 0 i), (Z.leb_spec i (hspace h)); try lia. simpl. rewrite E. reflexivity. Qed.
Definition stored (h : heap) (i x : Z) : heap :=
  mkHeap (hn h) (hspace h) (upd (harr h) i (Some x)) (hkey h) (upd (hidx h) x i).
Lemma aput_ok h i x : 0 <= i <= hspace h -> aput h i x = Ok (stored h i x).
Proof. intros R. unfold aput. destruct (Z.leb_spec 0 i), (Z.leb_spec i (hspace h)); try lia. reflexivity. Qed.

(** ** The array with a hole at [i], which [node] is going to fill *)
Definition hole (n i node : Z) (S : Z -> Prop) (h : heap) : Prop :=
  (forall j, 1 <= j <= n -> j <> i -> exists y, harr h j = Some y /\ hidx h y = j /\ y <> node) /\
  (forall y, (exists j, 1 <= j <= n /\ j <> i /\ harr h j = Some y) <-> S y).

Lemma hole_move n i j node S h y : hole n i node S h -> 1 <= i <= n -> 1 <= j <= n -> j <> i -> harr h j = Some y ->
  hole n j node S (stored h i y).
Proof.
  intros (W & M) I J N E.
  destruct (W j J N) as (y0 & E0 & X0 & NN). rewrite E in E0. injection E0 as <-.
  assert (OTH : forall k z, 1 <= k <= n -> k <> i -> k <> j -> harr h k = Some z -> z <> y).
  { intros k z K1 K2 K3 Ez ->. destruct (W k K1 K2) as (y1 & E1 & X1 & _). rewrite Ez in E1. injection E1 as <-. lia. }
  split.
  - intros k K KN. simpl. destruct (Z.eq_dec k i) as [->|KI].
    + exists y. rewrite !upd_same. auto.
    + rewrite upd_other by exact KI. destruct (W k K KI) as (z & Ez & Xz & Nz). exists z. split; [exact Ez|]. split; [|exact Nz].
      rewrite upd_other; [exact Xz|]. eapply OTH; eauto.
  - intros z. rewrite <- M. simpl. split; intros (k & K & KN & Ez).
    + destruct (Z.eq_dec k i) as [->|KI].
      * rewrite upd_same in Ez. injection Ez as <-. exists j. auto.
      * rewrite upd_other in Ez by exact KI. exists k. auto.
    + destruct (Z.eq_dec k j) as [->|KJ].
      * exists i. rewrite upd_same. rewrite E in Ez. repeat split; auto; lia.
      * exists k. rewrite upd_other by exact KN. auto.
Qed.

Lemma hole_fill n i node S h : hole n i node S h -> 1 <= i <= n -> n = hn h -> n <= hspace h ->
  hwf (stored h i node) /\ (forall y, inh (stored h i node) y <-> S y \/ y = node).
Proof.
  intros (W & M) I -> SP.
  assert (WF : hwf (stored h i node)).
  { split; [simpl; lia|]. simpl. intros j J. destruct (Z.eq_dec j i) as [->|N].
    - exists node. rewrite !upd_same. auto.
    - rewrite upd_other by exact N. destruct (W j J N) as (y & E & X & NN). exists y. split; [exact E|].
      rewrite upd_other by exact NN. exact X. }
  split; [exact WF|]. intros y. rewrite inh_slot by exact WF. rewrite <- M. simpl. split.
  - intros (j & J & E). destruct (Z.eq_dec j i) as [->|N].
    + rewrite upd_same in E. right. congruence.
    + rewrite upd_other in E by exact N. left. eauto.
  - intros [(j & J & N & E)| ->].
    + exists j. rewrite upd_other by exact N. auto.
    + exists i. rewrite upd_same. auto.
Qed.

(** keys of the array with [node] in the hole *)
Definition kk (h : heap) (node i : Z) (j : Z) : Z := if j =? i then hkey h node else slotkey h j.

Lemma kk_fill h node i j : slotkey (stored h i node) j = kk h node i j.
Proof. unfold slotkey, kk. simpl. unfold upd. destruct (j =? i); reflexivity. Qed.
Lemma kk_move h node i j y k : harr h j = Some y -> j <> i ->
  kk (stored h i y) node j k = if k =? j then kk h node i i else if k =? i then kk h node i j else kk h node i k.
Proof.
  intros E N. unfold kk, slotkey. simpl. rewrite Z.eqb_refl. unfold upd.
  destruct (Z.eqb_spec k j) as [->|]; [reflexivity|]. destruct (Z.eqb_spec k i); [|reflexivity].
  destruct (Z.eqb_spec j i); [lia|]. rewrite E. reflexivity.
Qed.

Lemma ord_ext n k1 k2 : (forall j, k1 j = k2 j) -> ord n k1 -> ord n k2.
Proof. intros E O j J. rewrite <- !E. apply O. exact J. Qed.

(** ** Sift up *)
Definition up_ok (n i : Z) (k : Z -> Z) : Prop :=
  (forall j, 2 <= j <= n -> j <> i -> k (j / 2) <= k j) /\
  (forall j, 2 <= j <= n -> j / 2 = i -> 2 <= i -> k (i / 2) <= k j).

Lemma up_step n i k k' : up_ok n i k -> 2 <= i <= n -> k i < k (i / 2) ->
  (forall j, k' j = if j =? i / 2 then k i else if j =? i then k (i / 2) else k j) ->
  up_ok n (i / 2) k'.
Proof.
  intros (A & B) I L K. split.
  - intros j J N. rewrite !K.
    destruct (Z.eqb_spec (j / 2) (i / 2)) as [E1|E1].
    + destruct (Z.eqb_spec j (i / 2)); [lia|]. destruct (Z.eqb_spec j i); [lia|].
      specialize (A j J ltac:(lia)). rewrite E1 in A. lia.
    + destruct (Z.eqb_spec j (i / 2)); [lia|]. destruct (Z.eqb_spec j i) as [->|]; [lia|].
      destruct (Z.eqb_spec (j / 2) i) as [E2|E2].
      * apply B; auto; lia.
      * apply A; auto.
  - intros j J E P. rewrite !K.
    destruct (Z.eqb_spec (i / 2 / 2) (i / 2)); [lia|]. destruct (Z.eqb_spec (i / 2 / 2) i); [lia|].
    destruct (Z.eqb_spec j (i / 2)); [lia|].
    pose proof (A (i / 2) ltac:(lia) ltac:(lia)) as A1.
    destruct (Z.eqb_spec j i); [lia|].
    pose proof (A j J ltac:(lia)) as A2. rewrite E in A2. lia.
Qed.

Lemma up_done n i k : up_ok n i k -> 1 <= i -> (2 <= i -> k (i / 2) <= k i) -> ord n k.
Proof. intros (A & B) I D j J. destruct (Z.eq_dec j i) as [->|N]; [apply D; lia|]. apply A; auto. Qed.

Lemma sift_up_spec : forall fuel h node i S (k : Prop),
  (Z.to_nat i < fuel)%nat -> 1 <= i <= hn h -> hn h <= hspace h -> hole (hn h) i node S h ->
  (k -> up_ok (hn h) i (kk h node i)) ->
  exists h', sift_up fuel h node i = Ok h' /\ hwf h' /\ (forall y, inh h' y <-> S y \/ y = node) /\
    hkey h' = hkey h /\ hn h' = hn h /\ hspace h' = hspace h /\ (k -> hord h').
Proof.
  induction fuel as [|fuel IH]; intros h node i S k F I SP H U; [lia|]. cbn [sift_up].
  assert (DONE : (k -> 2 <= i -> kk h node i (i / 2) <= kk h node i i) -> exists h', aput h i node = Ok h' /\ hwf h' /\ (forall y, inh h' y <-> S y \/ y = node) /\
    hkey h' = hkey h /\ hn h' = hn h /\ hspace h' = hspace h /\ (k -> hord h')).
  { intros D. exists (stored h i node). split; [apply aput_ok; lia|].
    destruct (hole_fill _ _ _ _ _ H I eq_refl SP) as (W & M). split; [exact W|]. split; [exact M|].
    split; [reflexivity|]. split; [reflexivity|]. split; [reflexivity|]. intros P.
    apply ord_ext with (kk h node i); [intros; symmetry; apply kk_fill|]. simpl.
    eapply up_done; [apply U; exact P|lia|apply D; exact P]. }
  destruct (Z.eqb_spec (i / 2) 0) as [E|E]; [apply DONE; lia|].
  destruct (proj1 H (i / 2)) as (p & EP & XP & NP); [lia|lia|].
  rewrite (aget_ok h (i / 2) p) by (auto; lia). cbn [bind].
  destruct (Z.ltb_spec (hkey h node) (hkey h p)) as [L|L].
  - rewrite aput_ok by lia. cbn [bind].
    destruct (IH (stored h i p) node (i / 2) S k) as (h' & R); simpl; auto; try lia.
    + apply hole_move; auto; lia.
    + intros P. eapply (up_step _ i (kk h node i)); [apply U; exact P|lia| |].
      * unfold kk at 1. rewrite Z.eqb_refl. unfold kk. destruct (Z.eqb_spec (i / 2) i); [lia|]. unfold slotkey. rewrite EP. exact L.
      * intros j. apply kk_move; auto; lia.
    + exists h'. exact R.
  - apply DONE. intros P _. unfold kk. rewrite Z.eqb_refl. destruct (Z.eqb_spec (i / 2) i); [lia|].
    unfold slotkey. rewrite EP. exact L.
Qed.

Theorem heap_add_spec h x : hwf h -> ~ inh h x -> hn h < hspace h ->
  exists h', heap_add h x = Ok (true, h') /\ hwf h' /\ (forall y, inh h' y <-> inh h y \/ y = x) /\
    hkey h' = hkey h /\ hn h' = hn h + 1 /\ hspace h' = hspace h /\ (hord h -> hord h').
Proof.
  intros (R & W) NI L. unfold heap_add. destruct (Z.leb_spec (hspace h) (hn h)); [lia|].
  destruct (sift_up_spec (S (Z.to_nat (hn h + 1))) (set_n h (hn h + 1)) x (hn h + 1) (inh h) (hord h)) as (h' & E & R'); cbn [set_n hn hspace]; auto; try lia.
  - split.
    + intros j J N. destruct (W j) as (y & E & X); [lia|]. exists y. split; [exact E|]. split; [exact X|].
      intros ->. apply NI. split; rewrite X; auto. lia.
    + intros y. rewrite inh_slot by (split; auto). split.
      * intros (j & J & N & E). exists j. split; [lia|exact E].
      * intros (j & J & E). exists j. split; [lia|]. split; [lia|exact E].
  - intros O. split.
    + intros j J N. unfold kk. destruct (Z.eqb_spec (j / 2) (hn h + 1)); [lia|]. destruct (Z.eqb_spec j (hn h + 1)); [lia|].
      apply O. lia.
    + intros j J E P. exfalso. lia.
  - rewrite E. cbn [bind]. exists h'. split; [reflexivity|exact R'].
Qed.

Lemma heap_add_full h x : hspace h <= hn h -> heap_add h x = Ok (false, h).
Proof. intros. unfold heap_add. destruct (Z.leb_spec (hspace h) (hn h)); [reflexivity|lia]. Qed.

(** ** Sift down *)
Definition down_ok (n i : Z) (k : Z -> Z) : Prop :=
  (forall j, 2 <= j <= n -> j / 2 <> i -> k (j / 2) <= k j) /\
  (forall j, 2 <= j <= n -> j / 2 = i -> 2 <= i -> k (i / 2) <= k j).

Lemma down_step n i c k k' : down_ok n i k -> 1 <= i -> 2 <= c <= n -> c / 2 = i -> k c <= k i ->
  (forall j, 2 <= j <= n -> j / 2 = i -> k c <= k j) ->
  (forall j, k' j = if j =? c then k i else if j =? i then k c else k j) ->
  down_ok n c k'.
Proof.
  intros (A & B) I C CI L MIN K. split.
  - intros j J N. rewrite !K. destruct (Z.eqb_spec (j / 2) c); [lia|].
    destruct (Z.eqb_spec (j / 2) i) as [E|E].
    + destruct (Z.eqb_spec j c); [lia|]. destruct (Z.eqb_spec j i); [lia|]. apply MIN; auto.
    + destruct (Z.eqb_spec j c); [lia|]. destruct (Z.eqb_spec j i) as [->|].
      * apply B; auto; lia.
      * apply A; auto.
  - intros j J E P. rewrite !K. destruct (Z.eqb_spec (c / 2) c); [lia|]. destruct (Z.eqb_spec (c / 2) i); [|lia].
    destruct (Z.eqb_spec j c); [lia|]. destruct (Z.eqb_spec j i); [lia|].
    pose proof (A j J ltac:(lia)) as A1. rewrite E in A1. exact A1.
Qed.

Lemma down_done n i k : down_ok n i k -> (forall j, 2 <= j <= n -> j / 2 = i -> k i <= k j) -> ord n k.
Proof.
  intros (A & B) D j J. destruct (Z.eq_dec (j / 2) i) as [E|E]; [rewrite E; apply D; auto|apply A; auto].
Qed.

Lemma sift_down_spec : forall fuel h node i S (k : Prop),
  (Z.to_nat (hn h - i) < fuel)%nat -> 1 <= i <= hn h -> hn h <= hspace h -> hole (hn h) i node S h ->
  (k -> down_ok (hn h) i (kk h node i)) ->
  exists h', sift_down fuel h node i = Ok h' /\ hwf h' /\ (forall y, inh h' y <-> S y \/ y = node) /\
    hkey h' = hkey h /\ hn h' = hn h /\ hspace h' = hspace h /\ (k -> hord h').
Proof.
  induction fuel as [|fuel IH]; intros h node i S k F I SP H U; [lia|]. cbn [sift_down].
  assert (DONE : (k -> forall j, 2 <= j <= hn h -> j / 2 = i -> kk h node i i <= kk h node i j) ->
    exists h', aput h i node = Ok h' /\ hwf h' /\ (forall y, inh h' y <-> S y \/ y = node) /\
    hkey h' = hkey h /\ hn h' = hn h /\ hspace h' = hspace h /\ (k -> hord h')).
  { intros D. exists (stored h i node). split; [apply aput_ok; lia|].
    destruct (hole_fill _ _ _ _ _ H I eq_refl SP) as (W & M). split; [exact W|]. split; [exact M|].
    split; [reflexivity|]. split; [reflexivity|]. split; [reflexivity|]. intros P.
    apply ord_ext with (kk h node i); [intros; symmetry; apply kk_fill|]. simpl.
    eapply down_done; [apply U; exact P|apply D; exact P]. }
  destruct (Z.leb_spec (2 * i) (hn h)) as [L|L]; [|apply DONE; intros; lia].
  assert (CH : exists c, (if 2 * i + 1 <=? hn h then
                     let* l := aget h (2 * i) in let* r := aget h (2 * i + 1) in
                     Ok (if hkey h l <? hkey h r then 2 * i else 2 * i + 1)
                   else Ok (2 * i)) = Ok c /\ 2 <= c <= hn h /\ c / 2 = i /\
                   (forall j, 2 <= j <= hn h -> j / 2 = i -> slotkey h c <= slotkey h j)).
  { destruct (proj1 H (2 * i)) as (l & El & _); [lia|lia|].
    destruct (Z.leb_spec (2 * i + 1) (hn h)) as [L2|L2].
    - destruct (proj1 H (2 * i + 1)) as (r & Er & _); [lia|lia|].
      rewrite (aget_ok h (2 * i) l) by (auto; lia). cbn [bind]. rewrite (aget_ok h (2 * i + 1) r) by (auto; lia). cbn [bind].
      destruct (Z.ltb_spec (hkey h l) (hkey h r)) as [Q|Q]; eexists; split; try reflexivity; (split; [lia|]); (split; [lia|]);
        intros j J E; assert (j = 2 * i \/ j = 2 * i + 1) as [-> | ->] by lia; unfold slotkey; rewrite ?El, ?Er; lia.
    - exists (2 * i). split; [reflexivity|]. split; [lia|]. split; [lia|]. intros j J E. assert (j = 2 * i) as -> by lia. lia. }
  destruct CH as (c & Ec & C1 & C2 & C3). rewrite Ec. cbn [bind].
  destruct (proj1 H c) as (y & EY & XY & NY); [lia|lia|].
  rewrite (aget_ok h c y) by (auto; lia). cbn [bind].
  assert (KI : kk h node i i = hkey h node) by (unfold kk; rewrite Z.eqb_refl; reflexivity).
  assert (KO : forall j, j <> i -> kk h node i j = slotkey h j).
  { intros j N. unfold kk. destruct (Z.eqb_spec j i); [contradiction|reflexivity]. }
  assert (SY : slotkey h c = hkey h y) by (unfold slotkey; rewrite EY; reflexivity).
  destruct (Z.leb_spec (hkey h y) (hkey h node)) as [Q|Q].
  - rewrite aput_ok by lia. cbn [bind].
    destruct (IH (stored h i y) node c S k) as (h' & R); simpl; auto; try lia.
    + apply hole_move; auto; lia.
    + intros P. eapply (down_step _ i c (kk h node i)); [apply U; exact P|lia|lia|lia| | |].
      * rewrite KI, KO by lia. lia.
      * intros j J E. rewrite !KO by lia. auto.
      * intros j. apply kk_move; auto; lia.
    + exists h'. exact R.
  - apply DONE. intros P j J E. rewrite KI, KO by lia. pose proof (C3 j J E). lia.
Qed.

(** removing the node at position [hidx h x]; [heap order] is kept exactly if the last
    node may stand below the parent of the removed one *)
Definition fits_below (h : heap) (x : Z) : Prop :=
  hidx h x = 1 \/ slotkey h (hidx h x / 2) <= slotkey h (hn h).

Theorem heap_del_spec h x : hwf h -> inh h x ->
  exists h', heap_del h (hidx h x) = Ok (true, h') /\ hwf h' /\ (forall y, inh h' y <-> inh h y /\ y <> x) /\
    hkey h' = hkey h /\ hn h' = hn h - 1 /\ hspace h' = hspace h /\ (hord h -> fits_below h x -> hord h').
Proof.
  intros WF IN. pose proof WF as (R & W). pose proof IN as (I & E). unfold heap_del.
  destruct (Z.ltb_spec (hspace h) 1); [lia|]. destruct (Z.ltb_spec (hn h) 1); [lia|]. simpl orb. cbv iota.
  destruct (Z.ltb_spec (hn h) (hidx h x)); [lia|].
  destruct (W (hn h)) as (t & Et & Xt); [lia|]. rewrite (aget_ok h (hn h) t) by (auto; lia). cbn [bind].
  destruct (Z.eq_dec (hidx h x) (hn h)) as [EQ|NEQ].
  - (* the last node itself *)
    rewrite EQ in *. rewrite E in Et. injection Et as <-.
    cbn [sift_down]. simpl. destruct (Z.leb_spec (2 * hn h) (hn h - 1)); [lia|]. rewrite aput_ok by (simpl; lia). cbn [bind].
    eexists. split; [reflexivity|].
    assert (W' : hwf (stored (set_n h (hn h - 1)) (hn h) x)).
    { split; [simpl; lia|]. simpl. intros i J. rewrite upd_other by lia. destruct (W i) as (y & Ey & Xy); [lia|]. exists y. split; [exact Ey|].
      rewrite upd_other; [exact Xy|]. intros ->. lia. }
    split; [exact W'|]. split.
    { intros y. rewrite !inh_slot by assumption. simpl. split.
      - intros (i & J & Ey). rewrite upd_other in Ey by lia. split; [exists i; split; [lia|exact Ey]|]. intros ->.
        destruct (W i) as (z & Ez & Xz); [lia|]. rewrite Ey in Ez. injection Ez as <-. lia.
      - intros ((i & J & Ey) & N). exists i. assert (i <> hn h) by (intros ->; congruence). rewrite upd_other by lia. split; [lia|exact Ey]. }
    split; [reflexivity|]. split; [reflexivity|]. split; [reflexivity|].
    intros O _ j J. simpl in J. unfold slotkey. simpl. rewrite !upd_other by lia. apply O. lia.
  - destruct (sift_down_spec (S (Z.to_nat (hn h))) (set_n h (hn h - 1)) t (hidx h x) (fun y => inh h y /\ y <> x /\ y <> t) (hord h /\ fits_below h x))
      as (h' & E' & W' & M' & R'); cbn [set_n hn hspace]; auto; try lia.
    + split.
      * intros j J N. destruct (W j) as (y & Ey & Xy); [lia|]. exists y. split; [exact Ey|]. split; [exact Xy|]. intros ->. lia.
      * intros y. rewrite inh_slot by exact WF. split.
        -- intros (j & J & N & Ey). destruct (W j) as (z & Ez & Xz); [lia|]. simpl in Ey. rewrite Ey in Ez. injection Ez as <-.
           split; [exists j; split; [lia|exact Ey]|]. split; intros ->; lia.
        -- intros ((j & J & Ey) & N1 & N2). exists j. simpl. destruct (W j J) as (z & Ez & Xz). rewrite Ey in Ez. injection Ez as <-.
           assert (j <> hn h) by (intros ->; congruence). split; [lia|]. split; [intros ->; congruence|exact Ey].
    + intros (O & FB). assert (KT : slotkey h (hn h) = hkey h t) by (unfold slotkey; rewrite Et; reflexivity).
      assert (KO : forall j, j <> hidx h x -> kk (set_n h (hn h - 1)) t (hidx h x) j = slotkey h j).
      { intros j N. unfold kk. destruct (Z.eqb_spec j (hidx h x)); [contradiction|reflexivity]. }
      assert (KI : kk (set_n h (hn h - 1)) t (hidx h x) (hidx h x) = slotkey h (hn h)).
      { unfold kk. rewrite Z.eqb_refl, KT. reflexivity. }
      split.
      * intros j J N. rewrite (KO (j / 2) N). destruct (Z.eq_dec j (hidx h x)) as [->|NJ].
        -- rewrite KI. destruct FB as [FB|FB]; [lia|exact FB].
        -- rewrite KO by exact NJ. apply O. lia.
      * intros j J EJ P. rewrite !KO by lia. pose proof (O (hidx h x) ltac:(lia)) as O1. pose proof (O j ltac:(lia)) as O2. rewrite EJ in O2. lia.
    + rewrite E'. cbn [bind]. exists h'. split; [reflexivity|]. split; [exact W'|]. split.
      { intros y. rewrite M'. split.
        - intros [(A & B & C)| ->]; [auto|]. split; [|intros ->; congruence]. apply inh_slot; auto. exists (hn h). split; [lia|exact Et].
        - intros (A & B). destruct (Z.eq_dec y t); [right; assumption|left; auto]. }
      destruct R' as (R1 & R2 & R3 & R4). repeat split; auto.
Qed.

(** ** The root is a minimum *)
Lemma ord_root n k : ord n k -> forall j, 1 <= j <= n -> k 1 <= k j.
Proof.
  intros O. assert (G : forall m, (0 <= m)%Z -> forall j, 1 <= j <= n -> j <= m -> k 1 <= k j).
  { apply (natlike_ind (fun m => forall j, 1 <= j <= n -> j <= m -> k 1 <= k j)); [intros; lia|].
    intros m M IH j J L. destruct (Z.eq_dec j 1) as [->|N]; [lia|].
    pose proof (O j ltac:(lia)) as A. pose proof (IH (j / 2) ltac:(lia) ltac:(lia)) as B. lia. }
  intros j J. apply (G j ltac:(lia)); lia.
Qed.

Lemma hord_min h x : hwf h -> hord h -> heap_min h = Ok (Some x) -> forall y, inh h y -> hkey h x <= hkey h y.
Proof.
  intros WF O M y Y. apply inh_slot in Y as (j & J & E); [|exact WF]. unfold heap_min in M.
  destruct WF as (R & W). destruct (Z.ltb_spec (hn h) 1); [lia|]. destruct (Z.ltb_spec (hspace h) 1); [lia|]. simpl in M.
  destruct (W 1) as (z & Ez & _); [lia|]. rewrite (aget_ok h 1 z) in M by (auto; lia). injection M as ->.
  pose proof (ord_root _ _ O j J) as P. unfold slotkey in P. rewrite Ez, E in P. exact P.
Qed.

Lemma heap_min_ok h : hwf h -> exists o, heap_min h = Ok o /\
  match o with Some x => inh h x /\ hidx h x = 1 | None => hn h = 0 end.
Proof.
  intros WF. pose proof WF as (R & W). unfold heap_min. destruct (Z.ltb_spec (hn h) 1); simpl.
  - exists None. split; [reflexivity|lia].
  - destruct (Z.ltb_spec (hspace h) 1); [lia|]. destruct (W 1) as (x & E & X); [lia|]. rewrite (aget_ok h 1 x) by (auto; lia).
    exists (Some x). split; [reflexivity|]. split; [apply inh_slot; auto; exists 1; split; [lia|exact E]|exact X].
Qed.

Lemma heap_create_wf n : 0 <= n -> hwf (heap_create n) /\ hord (heap_create n) /\ forall x, ~ inh (heap_create n) x.
Proof.
  intros. split; [|split].
  - split; [simpl; lia|]. simpl. intros; lia.
  - intros j J. simpl in J. lia.
  - intros x (A & _). simpl in A. lia.
Qed.
