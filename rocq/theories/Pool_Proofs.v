(** * Invariant of the memory pool *)
From Verif Require Import Base Queue_Model Queue_Proofs Queue_Props Pool_Model.
From Coq Require Import Permutation.
Local Arguments Z.add : simpl never.
Local Arguments Z.sub : simpl never.
Local Arguments Z.mul : simpl never.

(** where malloc may put things: positive addresses, regions disjoint *)
Definition disjoint (a n b m : Z) : Prop := a + n <= b \/ b + m <= a.
Definition layout_ok (L : layout) : Prop :=
  0 < lblk L /\ (forall k, In k classes -> 0 < lbase L k /\ disjoint (lblk L) 288 (lbase L k) (cnum k * stride k)) /\
  (forall k k', In k classes -> In k' classes -> k <> k' -> disjoint (lbase L k) (cnum k * stride k) (lbase L k') (cnum k' * stride k')).

Lemma classes_in k : In k classes <-> 0 <= k <= 5.
Proof. unfold classes. simpl. lia. Qed.
Lemma classes_cases k : In k classes -> k = 0 \/ k = 1 \/ k = 2 \/ k = 3 \/ k = 4 \/ k = 5.
Proof. unfold classes. simpl. intuition. Qed.
Ltac kcases H := apply classes_cases in H; destruct H as [->|[->|[->|[->|[->| ->]]]]].

Lemma objs_in L k o : In o (objs L k) <-> exists j, 0 <= j < cnum k /\ o = lbase L k + j * stride k.
Proof.
  assert (C : 0 <= cnum k) by (unfold cnum; destruct (k =? 0); lia).
  unfold objs, obj. rewrite in_map_iff. split.
  - intros (j & <- & I). apply in_seq in I. exists (Z.of_nat j). split; [lia|reflexivity].
  - intros (j & B & ->). exists (Z.to_nat j). rewrite Z2Nat.id by lia. split; [reflexivity|]. apply in_seq. lia.
Qed.
Lemma stride_pos k : In k classes -> 0 < stride k.
Proof. intros H. kcases H; vm_compute; reflexivity. Qed.
Lemma map_nodup_inj (f : nat -> Z) l : NoDup l -> (forall a b, f a = f b -> a = b) -> NoDup (map f l).
Proof.
  induction l as [|x l IH]; intros N I; simpl; [constructor|]. inversion N; subst. constructor; [|auto].
  intros X. apply in_map_iff in X as (y & E & Y). apply I in E. congruence.
Qed.
Lemma objs_nodup L k : In k classes -> NoDup (objs L k).
Proof.
  intros H. apply map_nodup_inj; [apply seq_NoDup|]. intros a b E. unfold obj in E. pose proof (stride_pos k H). nia.
Qed.
Lemma objs_len L k : zlen (objs L k) = cnum k.
Proof. unfold objs, zlen. rewrite map_length, seq_length. unfold cnum. destruct (k =? 0); reflexivity. Qed.

Lemma obj_region L k o : In k classes -> In o (objs L k) -> lbase L k <= o /\ o + stride k <= lbase L k + cnum k * stride k.
Proof.
  intros H I. apply objs_in in I as (j & B & ->). pose proof (stride_pos k H). nia.
Qed.
Lemma objs_disjoint L k k' o o' : layout_ok L -> In k classes -> In k' classes -> In o (objs L k) -> In o' (objs L k') -> o <> o' ->
  disjoint o (stride k) o' (stride k').
Proof.
  intros (_ & _ & LD) H H' I I' NE. destruct (Z.eq_dec k k') as [<-|KE].
  - apply objs_in in I as (j & B & ->). apply objs_in in I' as (j' & B' & ->). pose proof (stride_pos k H).
    unfold disjoint. assert (j < j' \/ j' < j) by nia. nia.
  - pose proof (obj_region L k o H I). pose proof (obj_region L k' o' H' I'). specialize (LD k k' H H' KE). unfold disjoint in *. lia.
Qed.
Lemma objs_diff L k k' o : layout_ok L -> In k classes -> In k' classes -> In o (objs L k) -> In o (objs L k') -> k = k'.
Proof.
  intros LO H H' I I'. destruct (Z.eq_dec k k') as [E|NE]; [exact E|exfalso].
  pose proof (obj_region L k o H I). pose proof (obj_region L k' o H' I'). destruct LO as (_ & _ & LD). specialize (LD k k' H H' NE).
  pose proof (stride_pos k H). pose proof (stride_pos k' H'). unfold disjoint in LD. lia.
Qed.
Lemma is_obj_in L k o : In k classes -> In o (objs L k) -> is_obj L o = true.
Proof.
  intros H I. unfold is_obj. apply existsb_exists. exists k. split; [exact H|]. pose proof (obj_region L k o H I). pose proof (stride_pos k H).
  apply objs_in in I as (j & B & ->). rewrite !andb_true_iff, Z.leb_le, Z.ltb_lt, Z.eqb_eq. split; [lia|].
  replace (lbase L k + j * stride k - lbase L k) with (j * stride k) by lia. apply Z.mod_mul. lia.
Qed.

(** ** The twelve queues *)
Definition pqs (L : layout) (ks : list Z) (U I : Z -> list Z) : queues :=
  flat_map (fun k => [(usableq L k, U k); (inuseq L k, I k)]) ks.

Lemma on_pqs_usable L k f ks U I : 0 <= k <= 5 -> Forall (fun k => 0 <= k <= 5) ks ->
  on (usableq L k) f (pqs L ks U I) = pqs L ks (upd U k (f (U k))) I.
Proof.
  intros K. induction ks as [|k' ks IH]; intros F; [reflexivity|]. simpl. inversion F; subst. unfold on in *. simpl.
  replace (inuseq L k' =? usableq L k) with false by (symmetry; apply Z.eqb_neq; unfold inuseq, usableq; lia).
  change (map (fun e : Z * list Z => if fst e =? usableq L k then (fst e, f (snd e)) else e)
    (flat_map (fun k0 : Z => [(usableq L k0, U k0); (inuseq L k0, I k0)]) ks)) with (on (usableq L k) f (pqs L ks U I)).
  unfold on. rewrite IH by assumption. unfold upd at 2. destruct (Z.eqb_spec k' k) as [E|NE].
  - subst k'. rewrite Z.eqb_refl. reflexivity.
  - replace (usableq L k' =? usableq L k) with false by (symmetry; apply Z.eqb_neq; unfold usableq; lia). reflexivity.
Qed.
Lemma on_pqs_inuse L k f ks U I : 0 <= k <= 5 -> Forall (fun k => 0 <= k <= 5) ks ->
  on (inuseq L k) f (pqs L ks U I) = pqs L ks U (upd I k (f (I k))).
Proof.
  intros K. induction ks as [|k' ks IH]; intros F; [reflexivity|]. simpl. inversion F; subst. unfold on in *. simpl.
  replace (usableq L k' =? inuseq L k) with false by (symmetry; apply Z.eqb_neq; unfold inuseq, usableq; lia).
  change (map (fun e : Z * list Z => if fst e =? inuseq L k then (fst e, f (snd e)) else e)
    (flat_map (fun k0 : Z => [(usableq L k0, U k0); (inuseq L k0, I k0)]) ks)) with (on (inuseq L k) f (pqs L ks U I)).
  unfold on. rewrite IH by assumption. unfold upd at 2. destruct (Z.eqb_spec k' k) as [E|NE].
  - subst k'. rewrite Z.eqb_refl. reflexivity.
  - replace (inuseq L k' =? inuseq L k) with false by (symmetry; apply Z.eqb_neq; unfold inuseq; lia). reflexivity.
Qed.
Lemma del_pqs L q ks U I : map (fun e => (fst e, del q (snd e))) (pqs L ks U I) = pqs L ks (fun k => del q (U k)) (fun k => del q (I k)).
Proof. induction ks as [|k ks IH]; [reflexivity|]. simpl. unfold pqs in *. rewrite IH. reflexivity. Qed.
Lemma classes_F : Forall (fun k => 0 <= k <= 5) classes.
Proof. apply Forall_forall. intros k. apply classes_in. Qed.

Lemma heads_pqs L ks U I h : In h (heads (pqs L ks U I)) <-> exists k, In k ks /\ (h = usableq L k \/ h = inuseq L k).
Proof.
  induction ks as [|k ks IH]; simpl; [split; [intros []|intros (k & [] & _)]|]. unfold heads, pqs in *. rewrite IH. split.
  - intros [<-|[<-|(k' & A & B)]]; eauto.
  - intros (k' & [<-|A] & B); [destruct B as [->| ->]; auto|]. eauto.
Qed.
Lemma elems_pqs L ks U I o : In o (elems (pqs L ks U I)) <-> exists k, In k ks /\ (In o (U k) \/ In o (I k)).
Proof.
  induction ks as [|k ks IH]; simpl; [split; [intros []|intros (k & [] & _)]|]. unfold elems, pqs in *. simpl. rewrite !in_app_iff, IH. split.
  - intros [A|[A|(k' & A & B)]]; eauto.
  - intros (k' & [<-|A] & B); [tauto|]. eauto.
Qed.
Lemma pqs_in_u L U I k : In k classes -> In (usableq L k, U k) (pqs L classes U I).
Proof. intros H. unfold pqs. apply in_flat_map. exists k. split; [exact H|]. left. reflexivity. Qed.

(** ** The invariant *)
Definition lives (k : Z) (live : list (Z * Z)) : list Z :=
  map (fun e => fst e - 24) (filter (fun e => class_of (snd e) =? k) live).
Record PI (L : layout) (s : pool) (live : list (Z * Z)) (U I : Z -> list Z) : Prop := {
  pi_rep : rep (pq s) (pqs L classes U I);
  pi_perm : forall k, In k classes -> Permutation (U k ++ I k) (objs L k);
  pi_hdr : forall k o, In k classes -> In o (objs L k) -> pmagic s o = MAGIC /\ pblk s o = k;
  pi_lock : plock s = false;
  pi_live : forall k, In k classes -> Permutation (lives k live) (I k);
  pi_size : Forall (fun e => 0 < snd e <= 16384) live
}.

Lemma class_of_range n : 0 < n <= 16384 -> In (class_of n) classes /\ n <= csize (class_of n).
Proof.
  intros B. unfold class_of.
  destruct (Z.leb_spec n 512); [split; [simpl; tauto|vm_compute csize; lia]|].
  destruct (Z.leb_spec n 1024); [rewrite (proj2 (Z.ltb_lt 512 n)) by lia; split; [simpl; tauto|vm_compute csize; lia]|]. rewrite andb_false_r.
  destruct (Z.leb_spec n 2048); [rewrite (proj2 (Z.ltb_lt 1024 n)) by lia; split; [simpl; tauto|vm_compute csize; lia]|]. rewrite andb_false_r.
  destruct (Z.leb_spec n 4096); [rewrite (proj2 (Z.ltb_lt 2048 n)) by lia; split; [simpl; tauto|vm_compute csize; lia]|]. rewrite andb_false_r.
  destruct (Z.leb_spec n 8192); [rewrite (proj2 (Z.ltb_lt 4096 n)) by lia; split; [simpl; tauto|vm_compute csize; lia]|]. rewrite andb_false_r.
  destruct (Z.leb_spec n 16384); [|lia]. rewrite (proj2 (Z.ltb_lt 8192 n)) by lia. split; [simpl; tauto|vm_compute csize; lia].
Qed.
Lemma class_of_big n : 16384 < n -> class_of n = 6.
Proof.
  intros. unfold class_of.
  destruct (Z.leb_spec n 512); [lia|]. destruct (Z.leb_spec n 1024); [lia|]. destruct (Z.leb_spec n 2048); [lia|].
  destruct (Z.leb_spec n 4096); [lia|]. destruct (Z.leb_spec n 8192); [lia|]. destruct (Z.leb_spec n 16384); [lia|]. rewrite !andb_false_r. reflexivity.
Qed.

(** ** Initialisation *)
Lemma init_objs_ok L k : layout_ok L -> In k classes -> forall os s ks U I,
  rep (pq s) (pqs L ks U I) -> In k ks -> Forall (fun k => 0 <= k <= 5) ks -> NoDup os ->
  (forall o, In o os -> fresh (pqs L ks U I) o) ->
  exists s', init_objs L k os s = Ok s' /\ rep (pq s') (pqs L ks (upd U k (U k ++ os)) I) /\
    pby s' = pby s /\ plock s' = plock s /\
    (forall o, pmagic s' o = if in_dec Z.eq_dec o os then MAGIC else pmagic s o) /\
    (forall o, pblk s' o = if in_dec Z.eq_dec o os then k else pblk s o).
Proof.
  intros LO H. induction os as [|o os IH]; intros s ks U I R K F N FR.
  - exists s. split; [reflexivity|]. split; [|auto]. rewrite app_nil_r.
    replace (pqs L ks (upd U k (U k)) I) with (pqs L ks U I); [exact R|].
    unfold pqs. clear. induction ks as [|k' ks IH]; [reflexivity|]. simpl. rewrite IH. unfold upd at 2. destruct (Z.eqb_spec k' k); [subst|]; reflexivity.
  - cbn [init_objs]. inversion N as [|? ? NO NR]; subst.
    destruct (queue_insert_tail_ok (pq s) _ (usableq L k) o R) as (m' & E & R' & _).
    { apply heads_pqs. exists k. auto. } { apply FR. left. reflexivity. }
    rewrite E. cbn [bind]. rewrite on_pqs_usable in R' by (try assumption; apply classes_in; exact H).
    assert (FR' : forall x, In x os -> fresh (pqs L ks (upd U k (U k ++ [o])) I) x).
    { intros x X. destruct (FR x (or_intror X)) as (X0 & XN). split; [exact X0|]. intros Y. apply XN. apply addrs_in in Y. apply addrs_in. destruct Y as [Y|Y].
      - left. apply heads_pqs in Y. apply heads_pqs. exact Y.
      - right. apply elems_pqs in Y as (k' & A & B). apply elems_pqs. exists k'. split; [exact A|]. unfold upd in B. destruct (Z.eqb_spec k' k) as [E2|NE]; [|exact B].
        subst k'. rewrite in_app_iff in B. simpl in B. destruct B as [[B|[B|[]]]|B]; [auto| |auto]. subst x. contradiction. }
    destruct (IH (mkPool m' (upd (pmagic s) o MAGIC) (upd (pblk s) o k) (pby s) (plock s)) ks (upd U k (U k ++ [o])) I) as (s' & E' & R2 & B & LK & M1 & M2); auto.
    exists s'. split; [exact E'|]. split; [|split; [exact B|split; [exact LK|split]]].
    + replace (upd (upd U k (U k ++ [o])) k (upd U k (U k ++ [o]) k ++ os)) with (upd (upd U k (U k ++ [o])) k (U k ++ o :: os)) in R2.
      2:{ f_equal. rewrite upd_same, <- app_assoc. reflexivity. }
      replace (pqs L ks (upd U k (U k ++ o :: os)) I) with (pqs L ks (upd (upd U k (U k ++ [o])) k (U k ++ o :: os)) I); [exact R2|].
      unfold pqs. clear. induction ks as [|k' ks IH]; [reflexivity|]. simpl. rewrite IH. unfold upd. destruct (k' =? k); reflexivity.
    + intros x. rewrite M1. cbn [pmagic]. destruct (in_dec Z.eq_dec x os) as [X|X]; destruct (in_dec Z.eq_dec x (o :: os)) as [Y|Y]; try reflexivity.
      * exfalso. apply Y. right. exact X.
      * destruct Y as [<-|Y]; [apply upd_same|contradiction].
      * apply upd_other. intros ->. apply Y. left. reflexivity.
    + intros x. rewrite M2. cbn [pblk]. destruct (in_dec Z.eq_dec x os) as [X|X]; destruct (in_dec Z.eq_dec x (o :: os)) as [Y|Y]; try reflexivity.
      * exfalso. apply Y. right. exact X.
      * destruct Y as [<-|Y]; [apply upd_same|contradiction].
      * apply upd_other. intros ->. apply Y. left. reflexivity.
Qed.

Lemma pqs_app L k1 k2 U I : pqs L (k1 ++ k2) U I = pqs L k1 U I ++ pqs L k2 U I.
Proof. unfold pqs. apply flat_map_app. Qed.
Lemma pqs_ext L ks U I U' I' : (forall k, In k ks -> U k = U' k /\ I k = I' k) -> pqs L ks U I = pqs L ks U' I'.
Proof.
  intros E. unfold pqs. induction ks as [|k ks IH]; [reflexivity|]. simpl. destruct (E k) as (-> & ->); [left; reflexivity|]. rewrite IH; [reflexivity|]. intros; apply E; right; assumption.
Qed.

Lemma sent_obj L k k' o : layout_ok L -> In k classes -> In k' classes -> In o (objs L k') -> o <> usableq L k /\ o <> inuseq L k.
Proof.
  intros (_ & LB & _) H H' I. pose proof (obj_region L k' o H' I). destruct (LB k' H') as (_ & D). apply classes_in in H. pose proof (stride_pos k' H').
  unfold disjoint, usableq, inuseq in *. lia.
Qed.

Lemma init_classes_ok L : layout_ok L -> forall ks done s,
  rep (pq s) (pqs L done (objs L) (fun _ => [])) ->
  (forall k, In k (done ++ ks) -> In k classes) -> NoDup (done ++ ks) -> plock s = false ->
  (forall k o, In k done -> In o (objs L k) -> pmagic s o = MAGIC /\ pblk s o = k) ->
  exists s', init_classes L ks s = Ok s' /\ rep (pq s') (pqs L (done ++ ks) (objs L) (fun _ => [])) /\ plock s' = false /\ pby s' = pby s /\
    (forall k o, In k (done ++ ks) -> In o (objs L k) -> pmagic s' o = MAGIC /\ pblk s' o = k).
Proof.
  intros LO. induction ks as [|k ks IH]; intros done s R HC ND LK HD.
  - exists s. rewrite app_nil_r in *. auto.
  - cbn [init_classes]. assert (HK : In k classes) by (apply HC; apply in_or_app; right; left; reflexivity).
    assert (KD : ~ In k done). { apply NoDup_remove in ND as (_ & ND). intros X. apply ND. apply in_or_app. auto. }
    assert (L0 : 0 < lblk L) by apply LO. pose proof HK as HK5. apply classes_in in HK5.
    assert (ADR : forall x, In x (addrs (pqs L done (objs L) (fun _ => []))) -> exists k', In k' done /\ (x = usableq L k' \/ x = inuseq L k' \/ In x (objs L k'))).
    { intros x X. apply addrs_in in X as [X|X]; [apply heads_pqs in X as (k' & A & B)|apply elems_pqs in X as (k' & A & B)]; exists k'; split; auto; [tauto|]. destruct B as [B|[]]. auto. }
    assert (DC : forall k', In k' done -> In k' classes) by (intros; apply HC; apply in_or_app; auto).
    destruct (queue_init_fresh (pq s) _ (usableq L k) R) as (m1 & E1 & R1 & _).
    { split; [unfold usableq; lia|]. intros X. apply ADR in X as (k' & A & B). pose proof (proj1 (classes_in k') (DC k' A)).
      destruct B as [B|[B|B]]; [unfold usableq in B; assert (k = k') by lia; congruence|unfold usableq, inuseq in B; lia|].
      destruct (sent_obj L k k' _ LO HK (DC k' A) B). congruence. }
    rewrite E1. cbn [bind].
    destruct (queue_init_fresh m1 _ (inuseq L k) R1) as (m2 & E2 & R2 & _).
    { split; [unfold inuseq; lia|]. rewrite addrs_app, in_app_iff. intros [X|X].
      - apply ADR in X as (k' & A & B). pose proof (proj1 (classes_in k') (DC k' A)).
        destruct B as [B|[B|B]]; [unfold usableq, inuseq in B; lia|unfold inuseq in B; assert (k = k') by lia; congruence|].
        destruct (sent_obj L k k' _ LO HK (DC k' A) B). congruence.
      - simpl in X. unfold usableq, inuseq in X. lia. }
    rewrite E2. cbn [bind].
    replace ((pqs L done (objs L) (fun _ => []) ++ [(usableq L k, [])]) ++ [(inuseq L k, [])])
      with (pqs L (done ++ [k]) (upd (objs L) k []) (fun _ => [])) in R2.
    2:{ rewrite pqs_app, <- app_assoc. f_equal; [|simpl; rewrite upd_same; reflexivity]. apply pqs_ext. intros k' A. split; [|reflexivity]. apply upd_other. intros ->. contradiction. }
    destruct (init_objs_ok L k LO HK (objs L k) (mkPool m2 (pmagic s) (pblk s) (pby s) (plock s)) (done ++ [k]) (upd (objs L) k []) (fun _ => [])) as (s' & E3 & R3 & B3 & LK3 & M3 & K3).
    + exact R2.
    + apply in_or_app. right. left. reflexivity.
    + apply Forall_forall. intros k' A. apply classes_in. apply HC. rewrite in_app_iff in *. simpl in *. tauto.
    + apply objs_nodup. exact HK.
    + intros o O. split.
      * pose proof (obj_region L k o HK O). destruct LO as (_ & LB & _). destruct (LB k HK). lia.
      * intros X. apply addrs_in in X as [X|X].
        -- apply heads_pqs in X as (k' & A & B). assert (KC : In k' classes) by (apply HC; rewrite in_app_iff in *; simpl in *; tauto).
           destruct (sent_obj L k' k o LO KC HK O). tauto.
        -- apply elems_pqs in X as (k' & A & [B|[]]). unfold upd in B. destruct (Z.eqb_spec k' k) as [EQ|NE]; [contradiction|].
           assert (KC : In k' classes) by (apply HC; rewrite in_app_iff in *; simpl in *; tauto). apply NE. eapply objs_diff; eauto.
    + rewrite E3. cbn [bind]. replace (done ++ k :: ks) with ((done ++ [k]) ++ ks) in * by (rewrite <- app_assoc; reflexivity).
      destruct (IH (done ++ [k]) s') as (s2 & A & B & C & D & G).
      * replace (pqs L (done ++ [k]) (objs L) (fun _ => [])) with (pqs L (done ++ [k]) (upd (upd (objs L) k []) k (upd (objs L) k [] k ++ objs L k)) (fun _ => [])); [exact R3|].
        apply pqs_ext. intros k' _. split; [|reflexivity]. rewrite upd_same. unfold upd. destruct (Z.eqb_spec k' k) as [EQ|NE]; [subst; reflexivity|reflexivity].
      * exact HC.
      * exact ND.
      * rewrite LK3. exact LK.
      * intros k' o K O. rewrite M3, K3. cbn [pmagic pblk]. apply in_app_or in K as [K|[<-|[]]].
        -- destruct (in_dec Z.eq_dec o (objs L k)) as [X|X]; [|apply HD; assumption]. exfalso. apply KD. rewrite <- (objs_diff L k' k o LO (DC k' K) HK O X). exact K.
        -- destruct (in_dec Z.eq_dec o (objs L k)); [auto|contradiction].
      * exists s2. split; [exact A|]. split; [exact B|]. split; [exact C|]. split; [|exact G]. rewrite D, B3. reflexivity.
Qed.

Lemma pool_init_PI L m0 by0 : layout_ok L -> exists s, pool_init L m0 by0 = Ok s /\ PI L s [] (objs L) (fun _ => []).
Proof.
  intros LO. destruct (init_classes_ok L LO classes [] (mkPool m0 (fun _ => 0) (fun _ => 0) by0 false)) as (s & E & R & LK & B & HD).
  - split; [constructor|]. split; [intros []|constructor].
  - intros k H. exact H.
  - simpl. unfold classes. repeat (constructor; [simpl; lia|]). constructor.
  - reflexivity.
  - intros k o [].
  - exists s. split; [exact E|]. split; [exact R| |exact HD|exact LK| |constructor].
    + intros. rewrite app_nil_r. reflexivity.
    + intros. constructor.
Qed.

(** ** Allocation and free *)
Lemma perm_filter (f : Z -> bool) l l' : Permutation l l' -> Permutation (filter f l) (filter f l').
Proof.
  induction 1; simpl; [constructor| | |etransitivity; eauto].
  - destruct (f x); [apply perm_skip|]; assumption.
  - destruct (f x), (f y); try apply perm_swap; reflexivity.
Qed.
Lemma nodup_r (l1 l2 : list Z) : NoDup (l1 ++ l2) -> NoDup l2.
Proof. intros N. eapply nodup_l. eapply Permutation_NoDup; [apply Permutation_app_comm|exact N]. Qed.

Section Facts.
  Context (L : layout) (s : pool) (live : list (Z * Z)) (U I : Z -> list Z) (LO : layout_ok L) (P : PI L s live U I).

  Lemma pi_obj_u k o : In k classes -> In o (U k) -> In o (objs L k).
  Proof. intros H X. eapply Permutation_in; [apply (pi_perm _ _ _ _ _ P k H)|]. apply in_or_app. auto. Qed.
  Lemma pi_obj_i k o : In k classes -> In o (I k) -> In o (objs L k).
  Proof. intros H X. eapply Permutation_in; [apply (pi_perm _ _ _ _ _ P k H)|]. apply in_or_app. auto. Qed.
  Lemma pi_nodup k : In k classes -> NoDup (U k ++ I k).
  Proof. intros H. eapply Permutation_NoDup; [symmetry; apply (pi_perm _ _ _ _ _ P k H)|]. apply objs_nodup. exact H. Qed.
  Lemma pi_count k : In k classes -> zlen (U k) = cnum k - zlen (lives k live).
  Proof.
    intros H. rewrite <- (objs_len L k). unfold zlen.
    rewrite <- (Permutation_length (pi_perm _ _ _ _ _ P k H)), (Permutation_length (pi_live _ _ _ _ _ P k H)), app_length. lia.
  Qed.
  Lemma pi_live_obj p n : In (p, n) live -> In (class_of n) classes /\ In (p - 24) (I (class_of n)) /\ n <= csize (class_of n).
  Proof.
    intros X. pose proof (pi_size _ _ _ _ _ P) as SZ. rewrite Forall_forall in SZ. specialize (SZ _ X). simpl in SZ.
    destruct (class_of_range n SZ) as (H & B). split; [exact H|]. split; [|exact B].
    eapply Permutation_in; [apply (pi_live _ _ _ _ _ P _ H)|]. unfold lives. apply in_map_iff. exists (p, n). split; [reflexivity|].
    apply filter_In. split; [exact X|]. simpl. apply Z.eqb_refl.
  Qed.
  Lemma pi_empty0 : queue_empty (pq s) (usableq L 0) = Ok (isnil (U 0)).
  Proof.
    assert (H0 : In 0 classes) by (simpl; tauto).
    destruct (rep_observe _ _ _ _ (pi_rep _ _ _ _ _ P) (pqs_in_u L U I 0 H0)) as (_ & E & _). exact E.
  Qed.
  Lemma pi_head k : In k classes -> queue_head (pq s) (usableq L k) = Ok (hd (usableq L k) (U k)).
  Proof.
    intros H. destruct (rep_observe _ _ _ _ (pi_rep _ _ _ _ _ P) (pqs_in_u L U I k H)) as (_ & _ & E). exact E.
  Qed.

  (** moving object [o] of class [k] from one queue to the tail of another *)
  Lemma pi_move k o h : In k classes -> In o (U k) \/ In o (I k) -> (exists k', In k' classes /\ (h = usableq L k' \/ h = inuseq L k')) ->
    exists m1 m2, queue_remove (pq s) o = Ok m1 /\ queue_insert_tail m1 h o = Ok m2 /\
      rep m2 (on h (fun l => l ++ [o]) (pqs L classes (fun k => del o (U k)) (fun k => del o (I k)))).
  Proof.
    intros H X HH.
    assert (OO : In o (objs L k)) by (destruct X; [apply pi_obj_u|apply pi_obj_i]; assumption).
    destruct (queue_remove_ok (pq s) _ o (pi_rep _ _ _ _ _ P)) as (m1 & E1 & R1 & _).
    { apply elems_pqs. exists k. auto. }
    rewrite del_pqs in R1.
    destruct (queue_insert_tail_ok m1 _ h o R1) as (m2 & E2 & R2 & _).
    { apply heads_pqs. exact HH. }
    { split.
      - pose proof (obj_region L k o H OO). destruct LO as (_ & LB & _). destruct (LB k H). lia.
      - intros Y. apply addrs_in in Y as [Y|Y].
        + apply heads_pqs in Y as (k' & A & B). destruct (sent_obj L k' k o LO A H OO). tauto.
        + apply elems_pqs in Y as (k' & A & [B|B]); apply (sdel_in o o) in B; tauto. }
    exists m1, m2. auto.
  Qed.

  Lemma del_other k k' o : In k classes -> In k' classes -> k' <> k -> In o (objs L k) -> del o (U k') = U k' /\ del o (I k') = I k'.
  Proof.
    intros H H' NE O. split; apply del_skip; intros X; apply NE; [apply pi_obj_u in X|apply pi_obj_i in X]; auto; eapply objs_diff; eauto.
  Qed.

  Lemma region_payload k o : In k classes -> In o (objs L k) -> in_region L (o + 24) (csize k) = true.
  Proof.
    intros H O. unfold in_region. apply orb_true_iff. right. apply existsb_exists. exists k. split; [exact H|].
    pose proof (obj_region L k o H O). unfold stride in *. rewrite andb_true_iff, !Z.leb_le. lia.
  Qed.

  Lemma alloc_ok n q r : 0 < n <= 16384 -> U 0 <> [] -> U (class_of n) = q :: r ->
    exists s', pool_alloc L s n = Ok (Some (q + 24), s') /\
      (forall i, pby s' i = if (q + 24 <=? i) && (i <? q + 24 + csize (class_of n)) then 0 else pby s i) /\
      PI L s' ((q + 24, n) :: live) (fun k => del q (U k)) (upd (fun k => del q (I k)) (class_of n) (del q (I (class_of n)) ++ [q])).
  Proof.
    intros B U0 UK. destruct (class_of_range n B) as (H & BS). set (k := class_of n) in *.
    assert (QU : In q (U k)) by (rewrite UK; left; reflexivity). pose proof (pi_obj_u k q H QU) as QO.
    destruct (pi_move k q (inuseq L k) H (or_introl QU)) as (m1 & m2 & E1 & E2 & R2); [eauto|].
    rewrite on_pqs_inuse in R2 by (try apply classes_F; apply classes_in; exact H).
    unfold pool_alloc. destruct (Z.leb_spec n 0); [lia|]. rewrite (pi_lock _ _ _ _ _ P), pi_empty0. cbn [bind].
    replace (isnil (U 0)) with false by (destruct (U 0); [congruence|reflexivity]). cbv zeta. fold k.
    replace (k =? 6) with false by (symmetry; apply Z.eqb_neq; apply classes_in in H; lia).
    rewrite (pi_head k H), UK. cbn [bind hd]. rewrite E1. cbn [bind]. rewrite E2. cbn [bind]. unfold pmemset. rewrite (region_payload k q H QO). cbn [bind].
    eexists. split; [reflexivity|]. cbn [pby]. split; [reflexivity|].
    pose proof (pi_nodup k H) as ND. rewrite UK in ND. pose proof (proj1 (NoDup_cons_iff _ _) ND) as (NQ & NR). rewrite in_app_iff in NQ.
    split; cbn [pq pmagic pblk pby plock].
    - exact R2.
    - intros k' H'. unfold upd. destruct (Z.eqb_spec k' k) as [E|NE].
      + subst k'. rewrite UK. simpl. rewrite Z.eqb_refl. simpl. change (filter (fun x => negb (x =? q)) r) with (del q r).
        rewrite !del_skip by tauto. etransitivity; [|apply (pi_perm _ _ _ _ _ P k H)]. rewrite UK. rewrite app_assoc. symmetry. apply Permutation_cons_append.
      + destruct (del_other k k' q H H' NE QO) as (-> & ->). apply (pi_perm _ _ _ _ _ P k' H').
    - apply (pi_hdr _ _ _ _ _ P).
    - reflexivity.
    - intros k' H'. unfold lives. cbn [filter snd]. fold k. unfold upd. destruct (Z.eqb_spec k k') as [E|NE].
      + subst k'. rewrite Z.eqb_refl. cbn [map fst]. replace (q + 24 - 24) with q by lia. rewrite del_skip by tauto.
        etransitivity; [apply perm_skip, (pi_live _ _ _ _ _ P k H)|]. apply Permutation_cons_append.
      + destruct (Z.eqb_spec k' k); [congruence|]. destruct (del_other k k' q H H') as (_ & ->); auto. apply (pi_live _ _ _ _ _ P k' H').
    - constructor; [exact B|apply (pi_size _ _ _ _ _ P)].
  Qed.

  Lemma alloc_none n : 0 < n -> U 0 = [] \/ 16384 < n -> pool_alloc L s n = Ok (None, s).
  Proof.
    intros B [E|E]; unfold pool_alloc; (destruct (Z.leb_spec n 0); [lia|]); rewrite (pi_lock _ _ _ _ _ P), pi_empty0; cbn [bind].
    - rewrite E. reflexivity.
    - destruct (isnil (U 0)); [reflexivity|]. rewrite class_of_big by lia. reflexivity.
  Qed.

  Lemma remove_sentinel m qa h qb : rep m (qa ++ (h, []) :: qb) ->
    exists m', queue_remove m h = Ok m' /\ rep m' (qa ++ qb).
  Proof.
    intros R. pose proof (rep_nodup_ring _ _ _ _ _ R) as (_ & (S1 & S2) & H0 & DJ). pose proof R as (N & Z0 & F).
    rewrite addrs_app, addrs_cons in N, Z0. simpl in N, Z0. pose proof (NoDup_remove _ _ _ N) as (N1 & N2).
    unfold queue_remove, rd_pv, rd_nx, wr_nx, wr_pv. rewrite (z0 h H0). cbn [bind]. rewrite S2, (z0 h H0). cbn [bind nx pv].
    rewrite upd_same, S1, (z0 h H0). cbn [bind nx pv]. rewrite S2.
    eexists. split; [reflexivity|]. split; [rewrite addrs_app; exact N1|]. split; [rewrite addrs_app; rewrite in_app_iff in *; simpl in Z0; tauto|].
    assert (F' : Forall (fun e => seg m (fst e) (snd e) (fst e)) (qa ++ qb)).
    { apply Forall_app in F as (F1 & F2). apply Forall_app. split; [exact F1|exact (Forall_inv_tail F2)]. }
    rewrite Forall_forall in *. intros (h1, l1) IE. specialize (F' _ IE). simpl in *.
    assert (IA : forall y, In y (h1 :: l1) -> y <> h).
    { intros y Y ->. apply N2. rewrite <- addrs_app. unfold addrs. apply in_concat. exists (h1 :: l1). split; [|exact Y]. apply in_map_iff. exists (h1, l1). auto. }
    eapply seg_frame; [| |exact F']; intros y Y; cbn [nx pv].
    - rewrite !upd_other by (apply IA; exact Y). reflexivity.
    - rewrite !upd_other by (apply IA; rewrite in_app_iff in Y; simpl in *; tauto). reflexivity.
  Qed.

  Lemma alloc_overflow n : 512 < n <= 16384 -> U 0 <> [] -> U (class_of n) = [] -> pool_alloc L s n = Fault FOob.
  Proof.
    intros B U0 UK. destruct (class_of_range n) as (H & BS); [lia|]. set (k := class_of n) in *.
    assert (K0 : k <> 0). { intros E. rewrite E in BS. vm_compute csize in BS. lia. }
    unfold pool_alloc. destruct (Z.leb_spec n 0); [lia|]. rewrite (pi_lock _ _ _ _ _ P), pi_empty0. cbn [bind].
    replace (isnil (U 0)) with false by (destruct (U 0); [congruence|reflexivity]). cbv zeta. fold k.
    replace (k =? 6) with false by (symmetry; apply Z.eqb_neq; apply classes_in in H; lia).
    rewrite (pi_head k H), UK. cbn [bind hd].
    pose proof (pqs_in_u L U I k H) as IN. rewrite UK in IN. pose proof (pi_rep _ _ _ _ _ P) as R.
    assert (INI : In (inuseq L k) (heads (pqs L classes U I))) by (apply heads_pqs; eauto).
    apply in_split in IN as (qa & qb & EQ). rewrite EQ in R, INI.
    destruct (remove_sentinel (pq s) qa (usableq L k) qb R) as (m1 & E1 & R1). rewrite E1. cbn [bind].
    pose proof R as (N & _ & _). rewrite addrs_app, addrs_cons in N. simpl in N. apply NoDup_remove in N as (_ & N).
    destruct (queue_insert_tail_ok m1 (qa ++ qb) (inuseq L k) (usableq L k) R1) as (m2 & E2 & _).
    { unfold heads in *. rewrite map_app in *. simpl in INI. rewrite in_app_iff in *. simpl in INI.
      assert (usableq L k <> inuseq L k) by (unfold usableq, inuseq; lia). tauto. }
    { split; [|rewrite addrs_app; exact N]. destruct LO as (L0 & _). apply classes_in in H. unfold usableq. lia. }
    rewrite E2. cbn [bind]. unfold pmemset.
    replace (in_region L (usableq L k + 24) (csize k)) with false; [reflexivity|]. symmetry. unfold in_region.
    destruct LO as (L0 & LB & _).
    assert (CS : 1024 <= csize k <= 16384) by (clear - H K0; clearbody k; kcases H; try congruence; vm_compute; split; intros X; discriminate).
    apply orb_false_iff. split.
    - apply andb_false_iff. right. apply Z.leb_gt. unfold usableq. apply classes_in in H. lia.
    - apply not_true_is_false. intros X. apply existsb_exists in X as (k' & K' & X). apply andb_true_iff in X as (X1 & X2). apply Z.leb_le in X1, X2.
      destruct (LB k' K') as (_ & D). unfold disjoint, usableq in *. apply classes_in in H. lia.
  Qed.

  Definition rm_live (p : Z) (l : list (Z * Z)) := filter (fun e => negb (fst e =? p)) l.
  Lemma lives_rm k p l : lives k (rm_live p l) = del (p - 24) (lives k l).
  Proof.
    unfold lives, rm_live, del. induction l as [|(p', n') l IH]; [reflexivity|]. cbn [filter fst snd].
    destruct (Z.eqb_spec p' p) as [E|NE]; cbn [negb]; cbn [filter fst snd].
    - subst. destruct (class_of n' =? k); [|exact IH]. cbn [map filter fst]. rewrite Z.eqb_refl. cbn [negb]. exact IH.
    - destruct (class_of n' =? k); [|exact IH]. cbn [map filter fst]. destruct (Z.eqb_spec (p' - 24) (p - 24)); [lia|]. cbn [negb]. f_equal. exact IH.
  Qed.

  Lemma free_ok p n : In (p, n) live ->
    exists s', pool_free L s p = Ok (0, s') /\ pby s' = pby s /\
      PI L s' (rm_live p live) (upd (fun k => del (p - 24) (U k)) (class_of n) (del (p - 24) (U (class_of n)) ++ [p - 24])) (fun k => del (p - 24) (I k)).
  Proof.
    intros X. destruct (pi_live_obj p n X) as (H & OI & _). set (k := class_of n) in *. set (o := p - 24) in *.
    pose proof (pi_obj_i k o H OI) as OO. destruct (pi_hdr _ _ _ _ _ P k o H OO) as (MG & BK).
    destruct (pi_move k o (usableq L k) H (or_intror OI)) as (m1 & m2 & E1 & E2 & R2); [eauto|].
    rewrite on_pqs_usable in R2 by (try apply classes_F; apply classes_in; exact H).
    unfold pool_free. rewrite (pi_lock _ _ _ _ _ P). cbv zeta. fold o. unfold magic_at, blk_at. rewrite (is_obj_in L k o H OO), MG, BK.
    rewrite Z.eqb_refl. cbn [negb]. rewrite E1. cbn [bind]. rewrite E2. cbn [bind].
    eexists. split; [reflexivity|]. split; [reflexivity|].
    pose proof (pi_nodup k H) as ND. apply in_split in OI as (i1 & i2 & EI). rewrite EI in ND.
    pose proof ND as ND2. rewrite app_assoc in ND2. apply NoDup_remove in ND2 as (_ & NO). rewrite !in_app_iff in NO.
    split; cbn [pq pmagic pblk pby plock].
    - exact R2.
    - intros k' H'. unfold upd. destruct (Z.eqb_spec k' k) as [E|NE].
      + subst k'. rewrite EI, del_app. simpl. rewrite Z.eqb_refl. simpl. change (filter (fun x => negb (x =? o)) i2) with (del o i2).
        rewrite !del_skip by tauto. etransitivity; [|apply (pi_perm _ _ _ _ _ P k H)]. rewrite EI. rewrite <- app_assoc. simpl. apply Permutation_app_head. apply Permutation_middle.
      + destruct (del_other k k' o H H' NE OO) as (-> & ->). apply (pi_perm _ _ _ _ _ P k' H').
    - apply (pi_hdr _ _ _ _ _ P).
    - reflexivity.
    - intros k' H'. rewrite lives_rm. apply perm_filter. apply (pi_live _ _ _ _ _ P k' H').
    - apply Forall_forall. intros e E. apply filter_In in E as (E & _). pose proof (pi_size _ _ _ _ _ P) as SZ. rewrite Forall_forall in SZ. auto.
  Qed.

  (** payloads of different live blocks, and of live and free blocks, do not overlap *)
  Lemma live_disjoint_free p n k q : In (p, n) live -> In k classes -> In q (U k) -> disjoint p n (q + 24) (csize k).
  Proof.
    intros X H Q. destruct (pi_live_obj p n X) as (HP & OI & BS). pose proof (pi_obj_i _ _ HP OI) as OO. pose proof (pi_obj_u k q H Q) as QO.
    assert (NE : p - 24 <> q).
    { intros E. assert (KE : class_of n = k) by (eapply objs_diff; eauto; rewrite <- E in QO; exact QO). pose proof (pi_nodup k H) as ND.
      rewrite KE in OI. rewrite E in OI. apply in_split in OI as (i1 & i2 & EI). rewrite EI, app_assoc in ND. apply NoDup_remove in ND as (_ & ND). apply ND.
      rewrite !in_app_iff. auto. }
    pose proof (objs_disjoint L _ k _ q LO HP H OO QO NE) as D. unfold disjoint, stride in *. lia.
  Qed.
End Facts.
