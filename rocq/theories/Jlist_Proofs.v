(** * Lists of cJSON items: proofs *)
From Verif Require Import Base Jlist_Model Jlist_Spec.
Open Scope Z_scope.
Local Arguments Z.add : simpl never.
Local Arguments Z.sub : simpl never.
Local Arguments zlen : simpl never.

(** ** Forests *)
Definition child (k : forest) (y x : Z) : Prop := exists l, k x = Some l /\ In y l.
Record wf (k : forest) : Prop := Wf {
  w_in : forall a l x, k a = Some l -> In x l -> k x <> None;
  w_nd : forall a l, k a = Some l -> NoDup l;
  w_uq : forall a b l m x, k a = Some l -> k b = Some m -> In x l -> In x m -> a = b;
  w_acc : forall x, Acc (child k) x;
  w_zero : k 0 = None }.

Lemma acc_sub {A} (R R' : A -> A -> Prop) : (forall y x, R' y x -> R y x) -> forall x, Acc R x -> Acc R' x.
Proof. intros H x AC. induction AC as [x _ IH]. constructor. intros y Y. apply IH, H, Y. Qed.
Lemma wf_is k k' : is k' k -> wf k -> wf k'.
Proof.
  intros E [A B C D F]. constructor.
  - intros a l x. rewrite !E. apply A.
  - intros a l. rewrite E. apply B.
  - intros a b l m x. rewrite !E. apply C.
  - intros x. apply (acc_sub (child k)); [|apply D]. intros y z (l & L & I0). exists l. rewrite <- E. auto.
  - rewrite E. exact F.
Qed.
Lemma wf_nothing : wf nothing.
Proof. constructor; try discriminate; [|reflexivity]. intros x. constructor. intros y (l & L & _). discriminate. Qed.

Lemma below_trans k x y z : below k x y -> below k y z -> below k x z.
Proof. intros X Y. induction Y as [|a z l B IH K I0]; [exact X|]. eapply below_child; eauto. Qed.
Lemma below_top k x y : below k x y -> y = x \/ exists c, child k c x /\ below k c y.
Proof.
  intros B. induction B as [|a y l B IH K I0]; [left; reflexivity|right]. destruct IH as [->|(c & C & B')].
  - exists y. split; [exists l; auto|constructor].
  - exists c. split; [exact C|]. eapply below_child; eauto.
Qed.
Lemma no_cycle k : wf k -> forall x c, child k c x -> ~ below k c x.
Proof.
  intros W x. induction (w_acc k W x) as [x _ IH]. intros c C B.
  destruct (below_top _ _ _ B) as [->|(d & D & B')].
  - apply (IH c C c C). constructor.
  - apply (IH c C d D). destruct C as (l & L & I0). eapply below_child; eauto.
Qed.
Lemma not_own k a l : wf k -> k a = Some l -> ~ In a l.
Proof. intros W K H. apply (no_cycle k W a a); [exists l; auto|constructor]. Qed.

Lemma set_same k a v : set k a v a = v. Proof. unfold set. rewrite Z.eqb_refl. reflexivity. Qed.
Lemma set_other k a v b : b <> a -> set k a v b = k b. Proof. intros N. unfold set. destruct (Z.eqb_spec b a); [contradiction|reflexivity]. Qed.

Definition joins (k : forest) (a : Z) (l l' : list Z) : Prop := forall x, In x l' -> In x l \/ may_join k a x.
Lemma wf_set k a l l' : wf k -> k a = Some l -> NoDup l' -> joins k a l l' -> wf (set k a (Some l')).
Proof.
  intros W K ND J. pose proof W as [WI WN WU WA WZ].
  assert (A0 : a <> 0) by (intros ->; congruence).
  assert (KN : forall y, set k a (Some l') y <> None <-> k y <> None).
  { intros y. unfold set. destruct (Z.eqb_spec y a) as [->|]; [|tauto]. rewrite K. split; discriminate. }
  constructor.
  - intros b m x KB I0. apply KN. destruct (Z.eq_dec b a) as [->|N].
    + rewrite set_same in KB. injection KB as <-. destruct (J x I0) as [I1|((R & _) & _)]; [apply (WI a l x K I1)|exact R].
    + rewrite set_other in KB by exact N. apply (WI b m x KB I0).
  - intros b m KB. destruct (Z.eq_dec b a) as [->|N]; [rewrite set_same in KB; injection KB as <-; exact ND|].
    rewrite set_other in KB by exact N. apply (WN b m KB).
  - assert (ONE : forall b m x, b <> a -> k b = Some m -> In x l' -> In x m -> False).
    { intros b m x N KB I1 I2. destruct (J x I1) as [I3|((_ & R) & _)]; [|exact (R b m KB I2)]. apply N, (WU b a m l x); auto. }
    intros b c m n x KB KC I1 I2. destruct (Z.eq_dec b a) as [->|NB], (Z.eq_dec c a) as [->|NC]; [reflexivity| | |].
    + rewrite set_same in KB. injection KB as <-. rewrite set_other in KC by exact NC. destruct (ONE c n x NC KC I1 I2).
    + rewrite set_same in KC. injection KC as <-. rewrite set_other in KB by exact NB. destruct (ONE b m x NB KB I2 I1).
    + rewrite set_other in KB by exact NB. rewrite set_other in KC by exact NC. apply (WU b c m n x); auto.
  - (* what lies below an item that joins is as before *)
    assert (BEL : forall x, ~ below k x a -> forall y, Acc (child k) y -> below k x y -> Acc (child (set k a (Some l'))) y).
    { intros x NB y AY. induction AY as [y _ IH]. intros B. constructor. intros z (m & KM & I0).
      assert (N : y <> a) by (intros ->; contradiction). rewrite set_other in KM by exact N.
      apply IH; [exists m; auto|]. eapply below_child; eauto. }
    intros x. induction (WA x) as [x _ IH]. constructor. intros z (m & KM & I0). destruct (Z.eq_dec x a) as [->|N].
    + rewrite set_same in KM. injection KM as <-. destruct (J z I0) as [I1|(_ & NB)]; [apply IH; exists l; auto|].
      apply (BEL z NB z (WA z)). constructor.
    + rewrite set_other in KM by exact N. apply IH. exists m. auto.
  - rewrite set_other by auto. exact WZ.
Qed.
Lemma wf_new k p : wf k -> p <> 0 -> k p = None -> wf (set k p (Some [])).
Proof.
  intros [WI WN WU WA WZ] P K.
  assert (SUB : forall b m x, set k p (Some []) b = Some m -> In x m -> b <> p /\ k b = Some m).
  { intros b m x E I0. destruct (Z.eq_dec b p) as [->|N]; [rewrite set_same in E; injection E as <-; destruct I0|].
    rewrite set_other in E by exact N. auto. }
  constructor.
  - intros a l x KA I0. destruct (SUB a l x KA I0) as (_ & KA'). specialize (WI a l x KA' I0).
    destruct (Z.eq_dec x p) as [->|N]; [contradiction|]. rewrite set_other by exact N. exact WI.
  - intros a l KA. destruct (Z.eq_dec a p) as [->|N]; [rewrite set_same in KA; injection KA as <-; constructor|].
    rewrite set_other in KA by exact N. apply (WN a l KA).
  - intros a b l m x KA KB I1 I2. apply (WU a b l m x); auto; eapply SUB; eauto.
  - intros x. apply (acc_sub (child k)); [|apply WA]. intros y z (l & L & I0). destruct (SUB z l y L I0). exists l. auto.
  - rewrite set_other by auto. exact WZ.
Qed.
Lemma below_parent k x a y l : wf k -> below k x y -> y <> x -> k a = Some l -> In y l -> below k x a.
Proof.
  intros W B N K I0. inversion B as [|b y' m B' KB I1]; subst; [congruence|]. rewrite (w_uq k W a b l m y); auto.
Qed.
Lemma without_some k x k' y l : without k x k' -> k' y = Some l -> ~ below k x y /\ k y = Some l.
Proof. intros (A & B) E. assert (N : ~ below k x y) by (intros H; rewrite (A y H) in E; discriminate). rewrite <- (B y N). auto. Qed.
Lemma wf_without k x k' : wf k -> root k x -> without k x k' -> wf k'.
Proof.
  intros W (_ & RX) WO. pose proof W as [WI WN WU WA WZ]. constructor.
  - intros a l y KA I0. destruct (without_some _ _ _ _ _ WO KA) as (NA & KA'). destruct WO as (_ & WO). rewrite WO; [apply (WI a l y KA' I0)|].
    intros B. destruct (Z.eq_dec y x) as [->|N]; [exact (RX a l KA' I0)|]. apply NA. eapply below_parent; eauto.
  - intros a l KA. apply without_some with (1 := WO) in KA. apply (WN a l), KA.
  - intros a b l m y KA KB. apply without_some with (1 := WO) in KA, KB. apply WU; tauto.
  - intros y. apply (acc_sub (child k)); [|apply WA]. intros z u (l & L & I0). apply without_some with (1 := WO) in L. exists l. tauto.
  - destruct (k' 0) as [l|] eqn:E; [|reflexivity]. apply without_some with (1 := WO) in E. destruct E. congruence.
Qed.

(** ** Doubly linked pieces: [p] in front, [q] behind *)
Fixpoint chain (n v : Z -> Z) (p : Z) (l : list Z) (q : Z) : Prop :=
  match l with [] => True | x :: t => v x = p /\ n x = hd q t /\ chain n v x t q end.
(** the last one of [d :: l] *)
Fixpoint lst (d : Z) (l : list Z) : Z := match l with [] => d | x :: t => lst x t end.
Lemma lst_app d l1 l2 : lst d (l1 ++ l2) = lst (lst d l1) l2.
Proof. revert d. induction l1 as [|x t IH]; intros d; [reflexivity|]. apply IH. Qed.
Lemma lst_in l : forall d, l <> [] -> In (lst d l) l.
Proof.
  induction l as [|x t IH]; intros d N; [congruence|]. cbn [lst]. destruct t as [|y t]; [left; reflexivity|].
  right. apply IH. discriminate.
Qed.
Lemma lst_any l d e : l <> [] -> lst d l = lst e l. Proof. destruct l; [congruence|reflexivity]. Qed.

Lemma chain_app n v l1 : forall p l2 q, chain n v p (l1 ++ l2) q <-> chain n v p l1 (hd q l2) /\ chain n v (lst p l1) l2 q.
Proof.
  induction l1 as [|x t IH]; intros p l2 q; cbn [app chain lst]; [tauto|]. rewrite IH.
  replace (hd q (t ++ l2)) with (hd (hd q l2) t) by (destruct t; reflexivity). tauto.
Qed.
Lemma chain_ext n v n' v' l : (forall y, In y l -> n' y = n y /\ v' y = v y) -> forall p q, chain n v p l q -> chain n' v' p l q.
Proof.
  induction l as [|x t IH]; intros H p q; cbn [chain]; [auto|]. destruct (H x (or_introl eq_refl)) as (-> & ->).
  intros (A & B & C). repeat split; auto. apply IH; [|exact C]. intros y Y. apply H. right. exact Y.
Qed.
Lemma upd_same {A} (f : Z -> A) p v : upd f p v p = v. Proof. unfold upd. rewrite Z.eqb_refl. reflexivity. Qed.
Lemma upd_other {A} (f : Z -> A) p v q : q <> p -> upd f p v q = f q. Proof. intros N. unfold upd. destruct (Z.eqb_spec q p); [contradiction|reflexivity]. Qed.
Lemma chain_n n v l y w : ~ In y l -> forall p q, chain n v p l q -> chain (upd n y w) v p l q.
Proof. intros N. apply chain_ext. intros z Z0. split; [|reflexivity]. apply upd_other. intros ->. contradiction. Qed.
Lemma chain_v n v l y w : ~ In y l -> forall p q, chain n v p l q -> chain n (upd v y w) p l q.
Proof. intros N. apply chain_ext. intros z Z0. split; [reflexivity|]. apply upd_other. intros ->. contradiction. Qed.
Lemma chain_end n v l q' d : l <> [] -> NoDup l -> forall p q, chain n v p l q -> chain (upd n (lst d l) q') v p l q'.
Proof.
  revert d. induction l as [|x t IH]; intros d N ND p q; [congruence|]. cbn [chain lst]. inversion ND as [|? ? NI ND']; subst.
  intros (A & B & C). destruct t as [|y t].
  - cbn [lst hd chain] in *. rewrite upd_same. auto.
  - split; [exact A|]. split; [|apply (IH x ltac:(discriminate) ND' x q C)].
    rewrite upd_other; [exact B|]. intros E. apply NI. rewrite E. apply lst_in. discriminate.
Qed.
Lemma chain_start n v x t p' : NoDup (x :: t) -> forall p q, chain n v p (x :: t) q -> chain n (upd v x p') p' (x :: t) q.
Proof.
  intros ND p q (A & B & C). inversion ND as [|? ? NI ND']; subst. cbn [chain]. rewrite upd_same. repeat split; auto.
  apply chain_v; auto.
Qed.

(** ** Items in memory *)
Definition wired (h : heap) (l : list Z) : Prop := chain (nx h) (pv h) (lst 0 l) l 0.
Record rep (h : heap) (k : forest) : Prop := Rep {
  p_live : forall y, live h y = true <-> k y <> None;
  p_ch : forall a l, k a = Some l -> ch h a = hd 0 l;
  p_wired : forall a l, k a = Some l -> wired h l;
  p_root : forall x, root k x -> nx h x = 0 /\ pv h x = 0 }.

Lemma root_is k k' x : is k' k -> root k' x -> root k x.
Proof. intros E (A & B). rewrite E in A. split; [exact A|]. intros a l. rewrite <- E. apply B. Qed.
Lemma rep_is h k k' : is k' k -> rep h k -> rep h k'.
Proof.
  intros E [A B C D]. constructor.
  - intros y. rewrite E. apply A.
  - intros a l. rewrite E. apply B.
  - intros a l. rewrite E. apply C.
  - intros x R. apply D, (root_is k k' x E R).
Qed.
Lemma rep_set h h' k a l l' : wf k -> rep h k -> k a = Some l -> joins k a l l' ->
  (forall y, live h' y = live h y) -> ch h' a = hd 0 l' -> (forall b, b <> a -> ch h' b = ch h b) ->
  (forall y, ~ In y l -> ~ In y l' -> nx h' y = nx h y /\ pv h' y = pv h y) ->
  (forall y, In y l -> ~ In y l' -> nx h' y = 0 /\ pv h' y = 0) ->
  wired h' l' -> rep h' (set k a (Some l')).
Proof.
  intros W [PL PC PW PR] K J HL HC HB HO HR HW. constructor.
  - intros y. rewrite HL, PL. unfold set. destruct (Z.eqb_spec y a) as [->|]; [|tauto]. rewrite K. split; discriminate.
  - intros b m KB. destruct (Z.eq_dec b a) as [->|N].
    + rewrite set_same in KB. injection KB as <-. exact HC.
    + rewrite set_other in KB by exact N. rewrite HB by exact N. apply PC, KB.
  - intros b m KB. destruct (Z.eq_dec b a) as [->|N].
    + rewrite set_same in KB. injection KB as <-. exact HW.
    + rewrite set_other in KB by exact N. unfold wired. apply (chain_ext (nx h) (pv h)); [|apply (PW b m KB)].
      intros y Y. assert (NL : ~ In y l) by (intros I1; apply N, (w_uq k W b a m l y); auto).
      apply HO; [exact NL|]. intros I1. destruct (J y I1) as [I2|((_ & R) & _)]; [contradiction|exact (R b m KB Y)].
  - intros x (RX & R). assert (NL' : ~ In x l') by (apply (R a), set_same).
    destruct (in_dec Z.eq_dec x l) as [I1|I1]; [apply HR; auto|]. destruct (HO x I1 NL') as (-> & ->). apply PR. split.
    + intros E. apply RX. unfold set. destruct (Z.eqb_spec x a) as [->|]; [congruence|exact E].
    + intros b m KB. destruct (Z.eq_dec b a) as [->|N]; [rewrite K in KB; injection KB as <-; exact I1|].
      apply (R b). rewrite set_other by exact N. exact KB.
Qed.

(** reads and writes of items that exist *)
Definition ok (h : heap) (p : Z) : Prop := p <> 0 /\ live h p = true.
Lemma check_ok h p : ok h p -> check h p = Ok tt.
Proof. intros (N & L). unfold check. destruct (Z.eqb_spec p 0); [contradiction|]. rewrite L. reflexivity. Qed.
Lemma rd_ok f h p : ok h p -> rd f h p = Ok (f h p).
Proof. intros O0. unfold rd. rewrite (check_ok h p O0). reflexivity. Qed.
Lemma wr_nx_ok h p v : ok h p -> wr_nx h p v = Ok (Hp (live h) (upd (nx h) p v) (pv h) (ch h)).
Proof. intros O0. unfold wr_nx. rewrite (check_ok h p O0). reflexivity. Qed.
Lemma wr_pv_ok h p v : ok h p -> wr_pv h p v = Ok (Hp (live h) (nx h) (upd (pv h) p v) (ch h)).
Proof. intros O0. unfold wr_pv. rewrite (check_ok h p O0). reflexivity. Qed.
Lemma wr_ch_ok h p v : ok h p -> wr_ch h p v = Ok (Hp (live h) (nx h) (pv h) (upd (ch h) p v)).
Proof. intros O0. unfold wr_ch. rewrite (check_ok h p O0). reflexivity. Qed.
Lemma rep_ok h k p : wf k -> rep h k -> k p <> None -> ok h p.
Proof. intros W R N. split; [intros ->; apply N, (w_zero k W)|apply (p_live h k R), N]. Qed.
Lemma rep_ok_in h k a l x : wf k -> rep h k -> k a = Some l -> In x l -> ok h x.
Proof. intros W R K I0. apply (rep_ok h k); auto. apply (w_in k W a l); auto. Qed.

Ltac okk := match goal with H : ok _ ?p |- ok _ ?p => exact H end.
Ltac stp := first [rewrite rd_ok by okk | rewrite wr_nx_ok by okk | rewrite wr_pv_ok by okk | rewrite wr_ch_ok by okk]; cbn [bind].
Ltac flds := cbn [live nx pv ch].
Ltac nz := match goal with |- context [?x =? 0] => destruct (Z.eqb_spec x 0) as [?E0|_]; [exfalso; congruence|] end.

Lemma nodup_snoc l (x : Z) : NoDup l -> ~ In x l -> NoDup (l ++ [x]).
Proof. intros A B. apply NoDup_Add with (a := x) (l := l); [|auto]. rewrite <- (app_nil_r l) at 1. apply Add_app. Qed.
Lemma nodup_mid l1 (x : Z) l2 : NoDup (l1 ++ l2) -> ~ In x (l1 ++ l2) -> NoDup (l1 ++ x :: l2).
Proof. intros A B. apply NoDup_Add with (a := x) (l := l1 ++ l2); [apply Add_app|auto]. Qed.
Lemma join_out k a l x : k a = Some l -> may_join k a x -> ~ In x l /\ x <> a.
Proof. intros K ((_ & R) & B). split; [apply (R a l K)|]. intros ->. apply B. constructor. Qed.

Lemma add_ok h k a x l : wf k -> rep h k -> k a = Some l -> may_join k a x ->
  exists h', add_item h a x = Ok (h', true) /\ rep h' (set k a (Some (l ++ [x]))).
Proof.
  intros W R K J. pose proof J as ((RX & RN) & NB). destruct (join_out k a l x K J) as (NX & XA).
  assert (OA : ok h a) by (apply (rep_ok h k); auto; congruence).
  assert (OX : ok h x) by (apply (rep_ok h k); auto).
  destruct (p_root h k R x (proj1 J)) as (NX0 & PX0).
  assert (JN : joins k a l (l ++ [x])).
  { intros y Y. apply in_app_or in Y. destruct Y as [Y|[<-|[]]]; auto. }
  assert (NA : ~ In a l) by (apply (not_own k a l W K)).
  pose proof (p_ch h k R a l K) as CH. pose proof (p_wired h k R a l K) as WI. pose proof (w_nd k W a l K) as ND.
  unfold add_item. destruct (Z.eqb_spec x 0) as [E|_]; [destruct OX; congruence|]. destruct (Z.eqb_spec a 0) as [E|_]; [destruct OA; congruence|].
  destruct (Z.eqb_spec a x) as [E|_]; [congruence|]. cbn [orb]. stp. rewrite CH.
  destruct l as [|c t]; cbn [hd].
  - rewrite Z.eqb_refl. stp. stp. stp. eexists. split; [reflexivity|]. apply (rep_set h _ k a [] [x]); auto; flds.
    + apply upd_same.
    + intros b B. apply upd_other, B.
    + intros y _ NY. assert (y <> x) by (intros ->; apply NY; left; reflexivity). rewrite !upd_other by auto. auto.
    + intros y [].
    + unfold wired. flds. cbn [lst chain hd]. rewrite !upd_same. auto.
  - assert (OC : ok h c) by (apply (rep_ok_in h k a (c :: t)); auto; left; reflexivity).
    destruct (Z.eqb_spec c 0) as [E|_]; [destruct OC; congruence|]. stp.
    assert (PC : pv h c = lst 0 (c :: t)) by apply WI.
    set (p := lst 0 (c :: t)) in *. assert (PI : In p (c :: t)) by (apply lst_in; discriminate).
    assert (OP : ok h p) by (apply (rep_ok_in h k a (c :: t)); auto). rewrite PC.
    destruct (Z.eqb_spec p 0) as [E|_]; [destruct OP; congruence|]. stp. stp. stp. flds. rewrite CH. cbn [hd]. stp.
    assert (XC : x <> c) by (intros ->; apply NX; left; reflexivity). assert (XP : x <> p) by (intros ->; contradiction).
    eexists. split; [reflexivity|]. apply (rep_set h _ k a (c :: t) ((c :: t) ++ [x])); auto; flds.
    + intros y Y NY. assert (y <> x) by (intros ->; apply NY, in_or_app; right; left; reflexivity).
      rewrite !upd_other; auto; [intros ->; apply Y; left; reflexivity|intros ->; contradiction].
    + intros y Y NY. destruct NY. apply in_or_app. left. exact Y.
    + unfold wired. flds. rewrite lst_app. cbn [lst]. apply chain_app. split.
      * cbn [hd]. apply (chain_start _ _ c t x ND p). apply chain_v; [exact NX|]. apply (chain_end _ _ (c :: t) x 0 ltac:(discriminate) ND p 0). exact WI.
      * cbn [chain hd lst]. rewrite (upd_other _ c) by exact XC. rewrite upd_same, upd_other by exact XP. repeat split; auto.
Qed.

(** walking along a list *)
Lemma walk_ok h l : (forall x, In x l -> ok h x) -> forall p i fuel, chain (nx h) (pv h) p l 0 -> (length l < fuel)%nat ->
  walk fuel h (hd 0 l) i = Ok (hd 0 (zdrop i l)).
Proof.
  induction l as [|x t IH]; intros OK0 p i fuel C F; (destruct fuel as [|f]; [cbn in F; lia|]); cbn [walk hd].
  - rewrite Z.eqb_refl. cbn [orb]. destruct i; reflexivity || (unfold zdrop; rewrite skipn_nil; reflexivity).
  - assert (OX : ok h x) by (apply OK0; left; reflexivity). destruct (Z.eqb_spec x 0) as [E|_]; [destruct OX; congruence|]. cbn [orb].
    destruct (Z.leb_spec i 0) as [L|L]; [rewrite zdrop_le0 by exact L; reflexivity|]. stp.
    destruct C as (_ & N & C). rewrite N. rewrite (IH ltac:(intros; apply OK0; right; assumption) x (i - 1) f C) by (cbn in F; lia).
    replace (zdrop i (x :: t)) with (zdrop (i - 1) t); [reflexivity|]. rewrite (zdrop_cons i) by lia. reflexivity.
Qed.
Lemma item_ok h k a l i fuel : wf k -> rep h k -> k a = Some l -> (length l < fuel)%nat ->
  get_item fuel h a i = Ok (hd 0 (zdrop i l)).
Proof.
  intros W R K F. assert (OA : ok h a) by (apply (rep_ok h k); auto; congruence). unfold get_item.
  destruct (Z.eqb_spec a 0) as [E|_]; [destruct OA; congruence|]. stp. rewrite (p_ch h k R a l K).
  apply (walk_ok h l) with (p := lst 0 l); auto; [|apply (p_wired h k R a l K)]. intros x X. apply (rep_ok_in h k a l); auto.
Qed.
Lemma count_ok h l : (forall x, In x l -> ok h x) -> forall p fuel, chain (nx h) (pv h) p l 0 -> (length l < fuel)%nat ->
  count fuel h (hd 0 l) = Ok (zlen l).
Proof.
  induction l as [|x t IH]; intros OK0 p fuel C F; (destruct fuel as [|f]; [cbn in F; lia|]); cbn [count hd].
  - rewrite Z.eqb_refl. reflexivity.
  - assert (OX : ok h x) by (apply OK0; left; reflexivity). destruct (Z.eqb_spec x 0) as [E|_]; [destruct OX; congruence|]. stp.
    destruct C as (_ & N & C). rewrite N. rewrite (IH ltac:(intros; apply OK0; right; assumption) x f C) by (cbn in F; lia). cbn [bind].
    rewrite zlen_cons. f_equal. lia.
Qed.
Lemma size_ok h k a l fuel : wf k -> rep h k -> k a = Some l -> (length l < fuel)%nat -> get_size fuel h a = Ok (zlen l).
Proof.
  intros W R K F. assert (OA : ok h a) by (apply (rep_ok h k); auto; congruence). unfold get_size.
  destruct (Z.eqb_spec a 0) as [E|_]; [destruct OA; congruence|]. stp. rewrite (p_ch h k R a l K).
  apply (count_ok h l) with (p := lst 0 l); auto; [|apply (p_wired h k R a l K)]. intros x X. apply (rep_ok_in h k a l); auto.
Qed.

Lemma mid_facts (l1 : list Z) x l2 : NoDup (l1 ++ x :: l2) ->
  NoDup l1 /\ NoDup (x :: l2) /\ ~ In x l1 /\ ~ In x l2 /\ (forall y, In y l1 -> In y (x :: l2) -> False).
Proof.
  intros ND. assert (D : forall y, In y l1 -> In y (x :: l2) -> False).
  { induction l1 as [|z l1 IH]; intros y [] Y2; subst; inversion ND as [|? ? NI ND']; subst.
    - apply NI, in_or_app. right. exact Y2.
    - apply (IH ND' y); auto. }
  split; [|split; [|split; [|split; [|exact D]]]].
  - clear D. induction l1 as [|z l1 IH]; [constructor|]. inversion ND as [|? ? NI ND']; subst. constructor; [|apply IH, ND'].
    intros H. apply NI, in_or_app. auto.
  - clear D. induction l1 as [|z l1 IH]; [exact ND|]. inversion ND; subst. auto.
  - intros H. apply (D x H). left. reflexivity.
  - apply NoDup_remove_2 in ND. intros H. apply ND, in_or_app. auto.
Qed.

Lemma insert_ok0 h k a l1 b l2 x fuel : wf k -> rep h k -> k a = Some (l1 ++ b :: l2) -> may_join k a x ->
  (length (l1 ++ b :: l2) < fuel)%nat ->
  exists h', insert fuel h a (zlen l1) x = Ok (h', true) /\ rep h' (set k a (Some (l1 ++ x :: b :: l2))).
Proof.
  intros W R K J F. set (l := l1 ++ b :: l2) in *. destruct (join_out k a l x K J) as (NX & XA).
  assert (OA : ok h a) by (apply (rep_ok h k); auto; congruence).
  assert (OX : ok h x) by (apply (rep_ok h k); auto; apply J).
  assert (BI : In b l) by (apply in_or_app; right; left; reflexivity).
  assert (OB : ok h b) by (apply (rep_ok_in h k a l); auto).
  destruct (mid_facts l1 b l2 (w_nd k W a l K)) as (ND1 & ND2 & B1 & B2 & DJ).
  assert (JN : joins k a l (l1 ++ x :: b :: l2)).
  { intros y Y. apply in_app_or in Y. destruct Y as [Y|[<-|Y]]; [left; apply in_or_app; auto|auto|left; apply in_or_app; auto]. }
  pose proof (p_ch h k R a l K) as CH. pose proof (p_wired h k R a l K) as WI. unfold wired in WI. set (e := lst 0 l) in *.
  assert (EE : lst 0 (l1 ++ x :: b :: l2) = e) by (unfold e, l; rewrite !lst_app; reflexivity).
  unfold l in WI. apply chain_app in WI. destruct WI as (W1 & W2). cbn [hd] in W1.
  assert (X1 : ~ In x l1) by (intros H; apply NX, in_or_app; auto). assert (X2 : ~ In x (b :: l2)) by (intros H; apply NX, in_or_app; auto).
  assert (XB : x <> b) by (intros ->; apply X2; left; reflexivity).
  unfold insert. destruct (Z.ltb_spec (zlen l1) 0) as [L|_]; [pose proof (zlen_nonneg l1); lia|].
  rewrite (item_ok h k a l) by auto. cbn [bind].
  assert (DR : hd 0 (zdrop (zlen l1) l) = b) by (unfold l; rewrite zdrop_app_r by lia; rewrite Z.sub_diag, zdrop_le0 by lia; reflexivity).
  rewrite DR.
  destruct (Z.eqb_spec b 0) as [E|_]; [destruct OB; congruence|].
  pose proof (proj1 W2) as PB. set (p := lst e l1) in *.
  stp. stp. flds. rewrite PB. stp. stp. stp. flds. rewrite CH. unfold l at 1.
  destruct l1 as [|c t]; cbn [app hd].
  - rewrite Z.eqb_refl. stp. eexists. split; [reflexivity|]. cbn [app] in *. apply (rep_set h _ k a l (x :: b :: l2)); auto; flds.
    + apply upd_same.
    + intros y Y. apply upd_other, Y.
    + intros y Y NY. assert (y <> x) by (intros ->; apply NY; left; reflexivity). assert (y <> b) by (intros ->; contradiction).
      rewrite !upd_other by auto. auto.
    + intros y Y NY. destruct NY. right. exact Y.
    + unfold wired. flds. rewrite EE. cbn [chain hd]. rewrite upd_same. rewrite (upd_other _ b) by exact XB. rewrite upd_same.
      split; [reflexivity|]. split; [reflexivity|]. apply (chain_start _ _ b l2 x ND2 p). apply chain_v; [exact X2|]. apply chain_n; [exact X2|].
      exact W2.
  - assert (BC : b <> c) by (intros ->; apply B1; left; reflexivity). destruct (Z.eqb_spec b c) as [E|_]; [contradiction|].
    stp. flds. rewrite (upd_other _ b) by exact XB. rewrite upd_same.
    assert (PI : In p (c :: t)) by (apply lst_in; discriminate).
    assert (OP : ok h p) by (apply (rep_ok_in h k a l); auto; apply in_or_app; auto). stp.
    assert (XP : x <> p) by (intros Q; apply X1; rewrite Q; exact PI).
    eexists. split; [reflexivity|]. apply (rep_set h _ k a l ((c :: t) ++ x :: b :: l2)); auto; flds.
    + intros y Y NY. assert (y <> x) by (intros ->; apply NY, in_or_app; right; left; reflexivity). assert (y <> b) by (intros ->; contradiction).
      assert (y <> p) by (intros ->; apply Y, in_or_app; auto). rewrite !upd_other by auto. auto.
    + intros y Y NY. destruct NY. apply in_app_or in Y. apply in_or_app. destruct Y; [auto|right; right; assumption].
    + unfold wired. flds. rewrite EE. apply chain_app. cbn [hd]. split.
      * apply chain_v; [exact B1|]. apply chain_v; [exact X1|]. apply (chain_end _ _ (c :: t) x e ltac:(discriminate) ND1 e b).
        apply chain_n; [exact X1|]. exact W1.
      * fold p. cbn [chain hd]. rewrite (upd_other _ b) by exact XB. rewrite upd_same. rewrite (upd_other _ p) by exact XP. rewrite upd_same.
        split; [reflexivity|]. split; [reflexivity|]. apply (chain_start _ _ b l2 x ND2 p). apply chain_v; [exact X2|].
        apply chain_n; [intros H; exact (DJ p PI H)|]. apply chain_n; [exact X2|]. exact W2.
Qed.

Lemma insert_ok h k a l1 b l2 x : wf k -> rep h k -> k a = Some (l1 ++ b :: l2) -> may_join k a x ->
  exists h', (forall fuel, (length (l1 ++ b :: l2) < fuel)%nat -> insert fuel h a (zlen l1) x = Ok (h', true)) /\
    rep h' (set k a (Some (l1 ++ x :: b :: l2))).
Proof.
  intros W R K J. destruct (insert_ok0 h k a l1 b l2 x (S (length (l1 ++ b :: l2))) W R K J) as (h' & E & R'); [lia|].
  exists h'. split; [|exact R']. intros fuel F. rewrite <- E. unfold insert.
  rewrite !(item_ok h k a (l1 ++ b :: l2) (zlen l1)) by (auto; lia). reflexivity.
Qed.
Lemma joins_less k a l1 x l2 : joins k a (l1 ++ x :: l2) (l1 ++ l2).
Proof. intros y Y. left. apply in_app_or in Y. apply in_or_app. destruct Y; [auto|right; right; assumption]. Qed.
Lemma detach_ok h k a l1 x l2 : wf k -> rep h k -> k a = Some (l1 ++ x :: l2) ->
  exists h', detach_via h a x = Ok (h', x) /\ rep h' (set k a (Some (l1 ++ l2))).
Proof.
  intros W R K. set (l := l1 ++ x :: l2) in *.
  assert (OA : ok h a) by (apply (rep_ok h k); auto; congruence).
  assert (XI : In x l) by (apply in_or_app; right; left; reflexivity).
  assert (OX : ok h x) by (apply (rep_ok_in h k a l); auto).
  assert (OKI : forall y, In y l -> ok h y) by (intros; apply (rep_ok_in h k a l); auto).
  destruct (mid_facts l1 x l2 (w_nd k W a l K)) as (ND1 & ND2 & X1 & X2 & DJ).
  pose proof (p_ch h k R a l K) as CH. pose proof (p_wired h k R a l K) as WI. unfold wired in WI. set (e := lst 0 l) in *.
  unfold l in WI. apply chain_app in WI. destruct WI as (W1 & W2). cbn [hd] in W1. destruct W2 as (PX & NX & W2). set (p := lst e l1) in *.
  assert (FIN : forall n' v' c', (c' a = hd 0 (l1 ++ l2)) -> (forall b, b <> a -> c' b = ch h b) ->
    (forall y, ~ In y l -> n' y = nx h y /\ v' y = pv h y) -> chain n' v' (lst 0 (l1 ++ l2)) (l1 ++ l2) 0 ->
    rep (Hp (live h) (upd n' x 0) (upd v' x 0) c') (set k a (Some (l1 ++ l2)))).
  { intros n' v' c' H1 H2 H3 H4. apply (rep_set h _ k a l (l1 ++ l2)); auto; flds; [apply joins_less| | |].
    - intros y Y _. assert (y <> x) by (intros ->; contradiction). rewrite !upd_other by auto. apply H3, Y.
    - intros y Y NY. assert (y = x).
      { apply in_app_or in Y. destruct Y as [Y|[Y|Y]]; [destruct NY; apply in_or_app; auto|auto|destruct NY; apply in_or_app; auto]. }
      subst y. rewrite !upd_same. auto.
    - unfold wired. flds. assert (NI : ~ In x (l1 ++ l2)) by (intros H; apply in_app_or in H; tauto).
      apply chain_v; [exact NI|]. apply chain_n; [exact NI|]. exact H4. }
  unfold detach_via. destruct (Z.eqb_spec a 0) as [E|_]; [destruct OA; congruence|]. destruct (Z.eqb_spec x 0) as [E|_]; [destruct OX; congruence|].
  cbn [orb]. stp. rewrite CH. unfold l at 1. destruct l1 as [|c t]; cbn [app hd].
  - rewrite Z.eqb_refl. cbn [bind]. stp. rewrite NX. destruct l2 as [|y l2]; cbn [hd].
    + rewrite Z.eqb_refl. cbn [bind]. stp. rewrite CH. unfold l at 1. cbn [app hd]. rewrite Z.eqb_refl. stp. stp. stp. stp.
      eexists. split; [reflexivity|]. rewrite NX. cbn [hd]. apply FIN; cbn [app hd lst chain]; auto; [apply upd_same|intros; apply upd_other; assumption].
    + assert (OY : ok h y) by (apply OKI; right; left; reflexivity). destruct (Z.eqb_spec y 0) as [E|_]; [destruct OY; congruence|].
      stp. rewrite PX. stp. stp. flds. rewrite CH. unfold l at 1. cbn [app hd]. rewrite Z.eqb_refl. stp. flds. rewrite NX. cbn [hd]. stp. stp. stp.
      eexists. split; [reflexivity|]. apply FIN; cbn [app hd]; [apply upd_same|intros; apply upd_other; assumption| |].
      * intros z Z0. split; [reflexivity|]. apply upd_other. intros ->. apply Z0. right. left. reflexivity.
      * change (lst 0 (y :: l2)) with e. inversion ND2; subst. apply (chain_start _ _ y l2 e ltac:(assumption) x). exact W2.
  - assert (XC : x <> c) by (intros ->; apply X1; left; reflexivity). destruct (Z.eqb_spec x c) as [E|_]; [contradiction|].
    assert (PI : In p (c :: t)) by (apply lst_in; discriminate). assert (OP : ok h p) by (apply OKI, in_or_app; auto).
    assert (XP : x <> p) by (intros Q; apply X1; rewrite Q; exact PI).
    stp. stp. rewrite PX, NX. stp. stp. flds. rewrite (upd_other _ p) by exact XP. rewrite NX. destruct l2 as [|y l2]; cbn [hd].
    + rewrite Z.eqb_refl. cbn [bind]. stp. flds. rewrite CH. unfold l at 1. cbn [app hd]. destruct (Z.eqb_spec x c) as [E|_]; [contradiction|].
      stp. flds. rewrite (upd_other _ p) by exact XP. rewrite NX. cbn [hd]. rewrite Z.eqb_refl. stp. flds. rewrite PX.
      assert (OC : ok h c) by (apply OKI; left; reflexivity). stp. stp. stp. eexists. split; [reflexivity|]. flds. apply FIN; [rewrite CH; reflexivity|intros; reflexivity| |].
      * intros z Z0. rewrite !upd_other; auto; [intros ->; apply Z0; left; reflexivity|intros Q; apply Z0, in_or_app; left; rewrite Q; exact PI].
      * rewrite app_nil_r. change (lst 0 (c :: t)) with p. apply (chain_start _ _ c t p ND1 e).
        apply (chain_end _ _ (c :: t) 0 e ltac:(discriminate) ND1 e x). exact W1.
    + assert (OY : ok h y) by (apply OKI, in_or_app; right; right; left; reflexivity). destruct (Z.eqb_spec y 0) as [E|_]; [destruct OY; congruence|].
      stp. flds. rewrite PX. stp. stp. flds. rewrite CH. unfold l at 1. cbn [app hd]. destruct (Z.eqb_spec x c) as [E|_]; [contradiction|].
      stp. flds. rewrite (upd_other _ p) by exact XP. rewrite NX. cbn [hd]. destruct (Z.eqb_spec y 0) as [E|_]; [destruct OY; congruence|]. cbn [bind].
      stp. stp. eexists. split; [reflexivity|]. flds. apply FIN; [rewrite CH; reflexivity|intros; reflexivity| |].
      * intros z Z0. rewrite !upd_other; auto; [intros ->; apply Z0, in_or_app; right; right; left; reflexivity|intros Q; apply Z0, in_or_app; left; rewrite Q; exact PI].
      * assert (EE : lst 0 ((c :: t) ++ y :: l2) = e) by (unfold e, l; rewrite !lst_app; reflexivity). rewrite EE.
        apply chain_app. cbn [hd]. inversion ND2 as [|? ? _ ND3]; subst. split.
        -- apply chain_v; [intros H; apply (DJ y H); right; left; reflexivity|]. apply (chain_end _ _ (c :: t) y e ltac:(discriminate) ND1 e x). exact W1.
        -- fold p. apply (chain_start _ _ y l2 p ND3 x). apply chain_n; [intros H; apply (DJ p PI); right; exact H|]. exact W2.
Qed.

(** ** Deletion: only the marks of living items change *)
Definition under (k : forest) (l : list Z) (z : Z) : Prop := exists y, In y l /\ below k y z.
Definition apart (k : forest) (l : list Z) : Prop := forall y y' z, In y l -> In y' l -> below k y z -> below k y' z -> y = y'.
Lemma below_two k x y z : wf k -> below k x z -> below k y z -> below k x y \/ below k y x.
Proof.
  intros W X. revert y. induction X as [|a z l B IH K I0]; intros y Y; [right; exact Y|].
  destruct (Z.eq_dec z y) as [->|N]; [left; eapply below_child; eauto|]. apply IH. apply (below_parent k y a z l W Y N K I0).
Qed.
Lemma siblings_apart k a l : wf k -> k a = Some l -> apart k l.
Proof.
  intros W K y y' z I1 I2 B1 B2.
  assert (H : forall u v, In u l -> In v l -> below k u v -> u = v).
  { intros u v U V B. destruct (Z.eq_dec v u) as [->|N]; [reflexivity|].
    destruct (no_cycle k W a u); [exists l; auto|]. apply (below_parent k u a v l W B N K V). }
  destruct (below_two k y y' z W B1 B2) as [B|B]; [apply H; auto|symmetry; apply H; auto].
Qed.
Definition dels (k : forest) (n v c : Z -> Z) (l : list Z) : Prop :=
  exists N, forall lv, (forall z, under k l z -> lv z = true) ->
  exists lv', (forall fuel, (N <= fuel)%nat -> delete fuel (Hp lv n v c) (hd 0 l) = Ok (Hp lv' n v c)) /\
    (forall z, under k l z -> lv' z = false) /\ (forall z, ~ under k l z -> lv' z = lv z).
Lemma dels_list k n v c : wf k -> (forall a l, k a = Some l -> c a = hd 0 l) -> forall l p,
  chain n v p l 0 -> NoDup l -> apart k l -> (forall x, In x l -> x <> 0 /\ exists m, k x = Some m /\ dels k n v c m) -> dels k n v c l.
Proof.
  intros W PC. induction l as [|x t IH]; intros p C ND A D.
  - exists 1%nat. intros lv _. exists lv. split; [intros [|f] F; [lia|reflexivity]|]. split; [|reflexivity]. intros z (y & [] & _).
  - destruct C as (_ & N & C). destruct (D x (or_introl eq_refl)) as (X0 & m & K & N1 & D1).
    destruct (IH x C) as (N2 & D2).
    { inversion ND; assumption. }
    { intros y y' z I1 I2. apply A; right; assumption. }
    { intros y Y. apply D. right. exact Y. }
    assert (NXM : ~ under k m x).
    { intros (y & Y & B). apply (no_cycle k W x y); [exists m; auto|exact B]. }
    assert (DIS : forall z, under k t z -> below k x z -> False).
    { intros z (y & Y & B) B'. assert (E2 := A x y z (or_introl eq_refl) (or_intror Y) B' B). subst y. inversion ND; subst. contradiction. }
    assert (MB : forall z, below k x z -> z = x \/ under k m z).
    { intros z B. destruct (below_top k x z B) as [->|(y & (m' & KM & Y) & By)]; [left; reflexivity|right].
      rewrite K in KM. injection KM as <-. exists y. auto. }
    assert (BM : forall z, under k m z -> below k x z).
    { intros z (y & Y & B). eapply below_trans; [|exact B]. eapply below_child; [constructor|exact K|exact Y]. }
    assert (XT : ~ under k t x) by (intros U; apply (DIS x U); constructor).
    exists (S (Nat.max N1 N2)). intros lv L.
    assert (LX : lv x = true) by (apply L; exists x; split; [left; reflexivity|constructor]).
    destruct (D1 lv) as (lv1 & E1 & G & H).
    { intros z U. apply L. exists x. split; [left; reflexivity|]. apply BM, U. }
    destruct (D2 (upd lv1 x false)) as (lv' & E3 & G3 & H3).
    { intros z U. rewrite upd_other by (intros ->; contradiction). rewrite H by (intros U'; apply (DIS z U), BM, U').
      apply L. destruct U as (y & Y & B). exists y. split; [right; exact Y|exact B]. }
    exists lv'. split; [|split].
    + intros [|f] F; [lia|]. cbn [delete hd]. destruct (Z.eqb_spec x 0); [contradiction|].
      assert (OX : ok (Hp lv n v c) x) by (split; auto). stp. stp. flds.
      assert (E : (if c x =? 0 then Ok (Hp lv n v c) else delete f (Hp lv n v c) (c x)) = Ok (Hp lv1 n v c)).
      { rewrite (PC x m K). destruct m as [|y m]; cbn [hd].
        - rewrite Z.eqb_refl. specialize (E1 (S N1) ltac:(lia)). exact E1.
        - assert (Y0 : y <> 0) by (intros ->; apply (w_in k W x (0 :: m) 0 K); [left; reflexivity|apply (w_zero k W)]).
          destruct (Z.eqb_spec y 0); [contradiction|]. apply E1. lia. }
      rewrite E. cbn [bind]. unfold release. rewrite (check_ok (Hp lv1 n v c) x) by (split; [exact X0|flds; rewrite (H x NXM); exact LX]).
      cbn [bind]. flds. rewrite N. apply E3. lia.
    + intros z (y & [<-|Y] & B); [|apply G3; exists y; auto]. rewrite H3 by (intros U; exact (DIS z U B)).
      destruct (MB z B) as [->|U]; [apply upd_same|]. rewrite upd_other; [apply G, U|]. intros ->. contradiction.
    + intros z U. rewrite H3 by (intros (y & Y & B); apply U; exists y; split; [right; exact Y|exact B]).
      assert (NB : ~ below k x z) by (intros B; apply U; exists x; split; [left; reflexivity|exact B]).
      rewrite upd_other by (intros ->; apply NB; constructor). apply H. intros U'. apply NB, BM, U'.
Qed.
Lemma dels_kids h k : wf k -> rep h k -> forall a l, k a = Some l -> dels k (nx h) (pv h) (ch h) l.
Proof.
  intros W R a. induction (w_acc k W a) as [a _ IH]. intros l K.
  apply (dels_list k _ _ _ W (p_ch h k R) l (lst 0 l)); [exact (p_wired h k R a l K)|exact (w_nd k W a l K)|exact (siblings_apart k a l W K)|].
  intros x X. pose proof (w_in k W a l x K X) as KX. split; [intros ->; apply KX, (w_zero k W)|].
  destruct (k x) as [m|] eqn:KM; [|contradiction]. exists m. split; [reflexivity|]. apply (IH x); [exists l; auto|exact KM].
Qed.
Lemma delete_ok h k x k1 : wf k -> rep h k -> root k x -> without k x k1 ->
  exists N h', (forall fuel, (N <= fuel)%nat -> delete fuel h x = Ok h') /\ rep h' k1.
Proof.
  intros W R RX WO. assert (D : dels k (nx h) (pv h) (ch h) [x]).
  { destruct (p_root h k R x RX) as (NX & PX).
    apply (dels_list k _ _ _ W (p_ch h k R) [x] 0).
    - cbn [chain hd]. auto.
    - constructor; [intros []|constructor].
    - intros y y' z [<-|[]] [<-|[]] _ _. reflexivity.
    - intros y [<-|[]]. destruct RX as (KX & _). split; [intros ->; apply KX, (w_zero k W)|].
      destruct (k x) as [m|] eqn:KM; [|contradiction]. exists m. split; [reflexivity|]. apply (dels_kids h k W R x m KM). }
  destruct D as (N & D). exists N.
  assert (UB : forall z, under k [x] z <-> below k x z).
  { intros z. split; [intros (y & [<-|[]] & B); exact B|intros B; exists x; split; [left; reflexivity|exact B]]. }
  destruct (D (live h)) as (lv & E & G & H).
  { intros z U. apply UB in U. apply (p_live h k R). inversion U as [|a ? l B KA I0]; subst; [apply RX|apply (w_in k W a l z KA I0)]. }
  exists (Hp lv (nx h) (pv h) (ch h)). split; [destruct h; exact E|].
  assert (OUT : forall z, ~ below k x z -> k1 z = k z) by apply WO.
  assert (INN : forall z, below k x z -> k1 z = None) by apply WO.
  assert (SM : forall z, k1 z <> None -> ~ below k x z) by (intros z Z0 B; apply Z0, INN, B).
  split; flds.
  - intros z. split.
    + intros L. assert (NB : ~ below k x z) by (intros B; rewrite G in L by (apply UB, B); discriminate).
      rewrite (OUT z NB). apply (p_live h k R). rewrite <- (H z) by (intros U; apply NB, UB, U). exact L.
    + intros Z0. pose proof (SM z Z0) as NB. rewrite (H z) by (intros U; apply NB, UB, U). apply (p_live h k R). rewrite <- (OUT z NB). exact Z0.
  - intros a l KA. apply (p_ch h k R). rewrite <- (OUT a); [exact KA|]. apply SM. congruence.
  - intros a l KA. apply (p_wired h k R a). rewrite <- (OUT a); [exact KA|]. apply SM. congruence.
  - intros y (Y0 & RY). pose proof (SM y Y0) as NB. apply (p_root h k R). split; [rewrite <- (OUT y NB); exact Y0|].
    intros a l KA I0. apply (RY a l); [|exact I0]. rewrite (OUT a); [exact KA|]. intros B. apply NB. eapply below_child; eauto.
Qed.

(** ** Replacing: the new item takes the place, then the old one is deleted *)
Lemma replace_link h k a l1 o l2 x : wf k -> rep h k -> k a = Some (l1 ++ o :: l2) -> may_join k a x ->
  exists h', (forall fuel, replace_via fuel h a o x = (let* h := delete fuel h' o in Ok (h, true))) /\ rep h' (set k a (Some (l1 ++ x :: l2))).
Proof.
  intros W R K J. set (l := l1 ++ o :: l2) in *. destruct (join_out k a l x K J) as (NXL & XA).
  assert (OA : ok h a) by (apply (rep_ok h k); auto; congruence).
  assert (OX : ok h x) by (apply (rep_ok h k); auto; apply J).
  assert (OI : In o l) by (apply in_or_app; right; left; reflexivity).
  assert (OO : ok h o) by (apply (rep_ok_in h k a l); auto).
  assert (OKI : forall y, In y l -> ok h y) by (intros; apply (rep_ok_in h k a l); auto).
  destruct (mid_facts l1 o l2 (w_nd k W a l K)) as (ND1 & ND2 & O1 & O2 & DJ).
  pose proof (p_ch h k R a l K) as CH. pose proof (p_wired h k R a l K) as WI. unfold wired in WI. set (e := lst 0 l) in *.
  unfold l in WI. apply chain_app in WI. destruct WI as (W1 & W2). cbn [hd] in W1. destruct W2 as (PO & NO & W2). set (p := lst e l1) in *.
  assert (X1 : ~ In x l1) by (intros H; apply NXL, in_or_app; auto).
  assert (X2 : ~ In x l2) by (intros H; apply NXL, in_or_app; right; right; auto).
  assert (XO : x <> o) by (intros ->; contradiction).
  assert (JN : joins k a l (l1 ++ x :: l2)).
  { intros y Y. apply in_app_or in Y. destruct Y as [Y|[<-|Y]]; [left; apply in_or_app; auto|auto|left; apply in_or_app; right; right; auto]. }
  assert (FIN : forall n' v' c', (c' a = hd 0 (l1 ++ x :: l2)) -> (forall b, b <> a -> c' b = ch h b) ->
    (forall y, ~ In y l -> y <> x -> n' y = nx h y /\ v' y = pv h y) -> chain n' v' (lst 0 (l1 ++ x :: l2)) (l1 ++ x :: l2) 0 ->
    rep (Hp (live h) (upd n' o 0) (upd v' o 0) c') (set k a (Some (l1 ++ x :: l2)))).
  { intros n' v' c' H1 H2 H3 H4. apply (rep_set h _ k a l (l1 ++ x :: l2)); auto; flds.
    - intros y Y NY. assert (y <> o) by (intros ->; contradiction). rewrite !upd_other by auto. apply H3; [exact Y|].
      intros ->. apply NY, in_or_app. right. left. reflexivity.
    - intros y Y NY. assert (y = o).
      { apply in_app_or in Y. destruct Y as [Y|[Y|Y]]; [destruct NY; apply in_or_app; auto|auto|destruct NY; apply in_or_app; right; right; auto]. }
      subst y. rewrite !upd_same. auto.
    - unfold wired. flds. assert (NI : ~ In o (l1 ++ x :: l2)).
      { intros H. apply in_app_or in H. destruct H as [H|[H|H]]; auto. }
      apply chain_v; [exact NI|]. apply chain_n; [exact NI|]. exact H4. }
  cut (exists h', (forall fuel, replace_via fuel h a o x = (let* h0 := delete fuel h' o in Ok (h0, true))) /\ rep h' (set k a (Some (l1 ++ x :: l2)))); [auto|].
  unfold replace_via. destruct (Z.eqb_spec a 0) as [E|_]; [destruct OA; congruence|]. destruct (Z.eqb_spec x 0) as [E|_]; [destruct OX; congruence|].
  destruct (Z.eqb_spec o 0) as [E|_]; [destruct OO; congruence|]. destruct (Z.eqb_spec x o) as [E|_]; [contradiction|]. cbn [orb].
  stp. stp. stp. flds. rewrite PO. stp. stp. flds. rewrite upd_same, NO. destruct l2 as [|y l2]; cbn [hd].
  - rewrite Z.eqb_refl. cbn [bind]. stp. flds. rewrite CH.
    destruct l1 as [|c t]; [assert (HL : hd 0 l = o) by reflexivity|assert (HL : hd 0 l = c) by reflexivity]; rewrite HL; cbn [app hd].
    + rewrite Z.eqb_refl. stp. flds. rewrite upd_other by congruence. rewrite PO. unfold p, e, l. cbn [app lst]. rewrite Z.eqb_refl. stp. stp. stp. stp. flds.
      eexists. split; [intros fuel; reflexivity|]. apply FIN; cbn [app hd lst chain].
      * apply upd_same.
      * intros; apply upd_other; assumption.
      * intros z Z0 Z1. rewrite !upd_other by auto. auto.
      * rewrite !upd_same. auto.
    + assert (CO : c <> o) by (intros ->; apply O1; left; reflexivity). destruct (Z.eqb_spec c o) as [E|_]; [contradiction|].
      assert (PI : In p (c :: t)) by (apply lst_in; discriminate). assert (OP : ok h p) by (apply OKI, in_or_app; auto).
      assert (XP : x <> p) by (intros Q; apply X1; rewrite Q; exact PI).
      stp. flds. rewrite upd_same. destruct (Z.eqb_spec p 0) as [E|_]; [destruct OP; congruence|]. stp. stp. flds.
      rewrite (upd_other _ p) by exact XP. rewrite upd_same, Z.eqb_refl. stp. flds. rewrite CH, HL.
      assert (OC : ok h c) by (apply OKI; left; reflexivity). stp. stp. stp. flds. eexists. split; [intros fuel; reflexivity|].
      assert (XC : x <> c) by (intros ->; apply X1; left; reflexivity). apply FIN.
      * rewrite CH. reflexivity.
      * reflexivity.
      * intros z Z0 Z1. rewrite !upd_other; auto; [intros ->; apply Z0; left; reflexivity|intros Q; apply Z0, in_or_app; left; rewrite Q; exact PI].
      * rewrite lst_app. cbn [lst]. apply chain_app. split.
        -- cbn [hd]. apply (chain_start _ _ c t x ND1 e). apply chain_v; [exact X1|]. apply (chain_end _ _ (c :: t) x e ltac:(discriminate) ND1 e o).
           apply chain_n; [exact X1|]. exact W1.
        -- change (lst x (c :: t)) with p. cbn [chain hd]. rewrite (upd_other _ c) by exact XC. rewrite upd_same.
           rewrite (upd_other _ p) by exact XP. rewrite upd_same. auto.
  - assert (YI : In y l) by (apply in_or_app; right; right; left; reflexivity). assert (OY : ok h y) by (apply OKI, YI).
    assert (XY : x <> y) by (intros ->; contradiction). assert (YO : o <> y) by (intros ->; apply O2; left; reflexivity).
    assert (ND3 : NoDup (y :: l2)) by (inversion ND2; assumption).
    assert (EE : lst 0 (l1 ++ x :: y :: l2) = e) by (unfold e, l; rewrite !lst_app; reflexivity).
    destruct (Z.eqb_spec y 0) as [E|_]; [destruct OY; congruence|]. stp. stp. flds. rewrite CH.
    destruct l1 as [|c t]; [assert (HL : hd 0 l = o) by reflexivity|assert (HL : hd 0 l = c) by reflexivity]; rewrite HL; cbn [app hd].
    + rewrite Z.eqb_refl. stp. flds. rewrite (upd_other _ y) by exact YO. rewrite upd_other by congruence. rewrite PO.
      assert (PNO : p <> o).
      { intros Q. apply O2. rewrite <- Q. change p with (lst o (y :: l2)). apply lst_in. discriminate. }
      destruct (Z.eqb_spec p o) as [E|_]; [contradiction|]. cbn [bind]. stp. stp. stp. flds. eexists. split; [intros fuel; reflexivity|]. apply FIN.
      * apply upd_same.
      * intros; apply upd_other; assumption.
      * intros z Z0 Z1. rewrite !upd_other; auto. intros ->. contradiction.
      * rewrite EE. assert (CC : chain (upd (nx h) x y) (upd (upd (pv h) x p) y x) x (y :: l2) 0).
        { apply (chain_start _ _ y l2 x ND3 o). apply chain_v; [exact X2|]. apply chain_n; [exact X2|]. exact W2. }
        refine (conj _ (conj _ CC)); [rewrite (upd_other _ y) by exact XY|]; apply upd_same.
    + assert (CO : c <> o) by (intros ->; apply O1; left; reflexivity). destruct (Z.eqb_spec c o) as [E|_]; [contradiction|].
      assert (PI : In p (c :: t)) by (apply lst_in; discriminate). assert (OP : ok h p) by (apply OKI, in_or_app; auto).
      assert (XP : x <> p) by (intros Q; apply X1; rewrite Q; exact PI).
      stp. flds. rewrite (upd_other _ y) by exact XY. rewrite upd_same. destruct (Z.eqb_spec p 0) as [E|_]; [destruct OP; congruence|]. stp. stp. flds.
      rewrite (upd_other _ p) by exact XP. rewrite upd_same. destruct (Z.eqb_spec y 0) as [E|_]; [destruct OY; congruence|]. cbn [bind].
      stp. stp. flds. eexists. split; [intros fuel; reflexivity|]. apply FIN.
      * rewrite CH. reflexivity.
      * reflexivity.
      * intros z Z0 Z1. rewrite !upd_other; auto; [intros ->; contradiction|intros Q; apply Z0, in_or_app; left; rewrite Q; exact PI].
      * rewrite EE. apply chain_app. cbn [hd]. split.
        -- apply chain_v; [intros H; apply (DJ y H); right; left; reflexivity|]. apply chain_v; [exact X1|].
           apply (chain_end _ _ (c :: t) x e ltac:(discriminate) ND1 e o). apply chain_n; [exact X1|]. exact W1.
        -- change (lst e (c :: t)) with p.
           assert (CC : chain (upd (upd (nx h) x y) p x) (upd (upd (pv h) x p) y x) x (y :: l2) 0).
           { apply (chain_start _ _ y l2 x ND3 o). apply chain_v; [exact X2|]. apply chain_n; [intros H; apply (DJ p PI); right; exact H|].
             apply chain_n; [exact X2|]. exact W2. }
           refine (conj _ (conj _ CC)); [rewrite (upd_other _ y) by exact XY|rewrite (upd_other _ p) by exact XP]; apply upd_same.
Qed.

(** ** One call, all calls *)
Lemma below_out k x y : k x = None -> below k x y -> y = x.
Proof. intros K B. induction B as [|a y l B IH KA I0]; [reflexivity|]. subst a. congruence. Qed.
Lemma new_ok h k p : wf k -> rep h k -> p <> 0 -> k p = None -> rep (new_item h p) (set k p (Some [])).
Proof.
  intros W R P K. assert (NI : forall a l, k a = Some l -> ~ In p l) by (intros a l KA I0; apply (w_in k W a l p KA I0), K).
  constructor; unfold new_item; flds.
  - intros y. destruct (Z.eq_dec y p) as [->|N]; [rewrite upd_same, set_same; split; [discriminate|reflexivity]|].
    rewrite upd_other, set_other by exact N. apply (p_live h k R).
  - intros a l KA. destruct (Z.eq_dec a p) as [->|N]; [rewrite set_same in KA; injection KA as <-; apply upd_same|].
    rewrite set_other in KA by exact N. rewrite upd_other by exact N. apply (p_ch h k R), KA.
  - intros a l KA. destruct (Z.eq_dec a p) as [->|N]; [rewrite set_same in KA; injection KA as <-; exact I|].
    rewrite set_other in KA by exact N. unfold wired. flds. apply chain_v; [apply (NI a l KA)|]. apply chain_n; [apply (NI a l KA)|].
    apply (p_wired h k R a l KA).
  - intros x (RX & RN). destruct (Z.eq_dec x p) as [->|N]; [rewrite !upd_same; auto|]. rewrite !upd_other by exact N. apply (p_root h k R). split.
    + rewrite set_other in RX by exact N. exact RX.
    + intros a l KA. apply (RN a). rewrite set_other; [exact KA|]. intros ->. congruence.
Qed.
Lemma split_at (l : list Z) i : 0 <= i -> (exists l1 b l2, l = l1 ++ b :: l2 /\ i = zlen l1) \/ zlen l <= i.
Proof.
  intros I0. destruct (Z.leb_spec (zlen l) i) as [L|L]; [right; exact L|left].
  exists (ztake i l). pose proof (ztake_zdrop i l) as E. destruct (zdrop i l) as [|b l2] eqn:D.
  - pose proof (zlen_zdrop i l ltac:(lia)) as Z0. rewrite D in Z0. change (zlen (@nil Z)) with 0 in Z0. lia.
  - exists b, l2. split; [congruence|]. rewrite zlen_ztake by lia. lia.
Qed.
Lemma same_ok h k o r k' N : wf k -> rep h k -> is k' k -> (forall fuel, (N <= fuel)%nat -> step fuel h o = Ok (h, r)) ->
  wf k' /\ exists N h', (forall fuel, (N <= fuel)%nat -> step fuel h o = Ok (h', r)) /\ rep h' k'.
Proof. intros W R E S0. split; [apply (wf_is _ _ E), W|]. exists N, h. split; [exact S0|apply (rep_is _ _ _ E), R]. Qed.
Lemma step_ok h k o r k1 : wf k -> rep h k -> call k o r k1 ->
  wf k1 /\ exists N h', (forall fuel, (N <= fuel)%nat -> step fuel h o = Ok (h', r)) /\ rep h' k1.
Proof.
  intros W R C. destruct C.
  - split; [apply (wf_is _ _ H1), wf_new; auto|]. exists 0%nat. eexists. split; [intros fuel _; reflexivity|]. apply (rep_is _ _ _ H1), new_ok; auto.
  - split.
    { apply (wf_is _ _ H1), (wf_set k a l); auto; [apply nodup_snoc; [apply (w_nd k W a l H)|apply (join_out k a l x); auto]|].
      intros y Y. apply in_app_or in Y. destruct Y as [Y|[<-|[]]]; [left; exact Y|right; exact H0]. }
    destruct (add_ok h k a x l W R H H0) as (h' & E & R'). exists 0%nat, h'. split; [|apply (rep_is _ _ _ H1), R'].
    intros fuel _. unfold step. rewrite E. reflexivity.
  - apply (same_ok h k _ _ _ 0%nat W R); [assumption|]. intros fuel _. unfold step, add_item. cbn [Z.eqb orb]. reflexivity.
  - apply (same_ok h k _ _ _ 0%nat W R); [assumption|]. intros fuel _. unfold step, add_item. cbn [Z.eqb]. rewrite !orb_true_r. reflexivity.
  - apply (same_ok h k _ _ _ 0%nat W R); [assumption|]. intros fuel _. unfold step, add_item. rewrite Z.eqb_refl, !orb_true_r. reflexivity.
  - split.
    { apply (wf_is _ _ H2), (wf_set k a l); auto; [apply nodup_mid; rewrite ztake_zdrop; [apply (w_nd k W a l H)|apply (join_out k a l x); auto]|].
      intros y Y. rewrite <- (ztake_zdrop i l). apply in_app_or in Y. destruct Y as [Y|[<-|Y]]; auto; left; apply in_or_app; auto. }
    destruct (split_at l i H0) as [(l1 & b & l2 & -> & ->)|L].
    + destruct (insert_ok h k a l1 b l2 x W R H H1) as (h' & E & R'). exists (S (length (l1 ++ b :: l2))), h'. split.
      * intros fuel F. unfold step. rewrite E by lia. reflexivity.
      * apply (rep_is _ _ _ H2). rewrite ztake_app_r, zdrop_app_r, Z.sub_diag, zdrop_le0, ztake_le0, app_nil_r by lia. exact R'.
    + destruct (add_ok h k a x l W R H H1) as (h' & E & R'). exists (S (length l)), h'. split.
      * intros fuel F. unfold step, insert. destruct (Z.ltb_spec i 0) as [L0|_]; [lia|].
        rewrite (item_ok h k a l) by auto. cbn [bind]. rewrite (zdrop_all i l L). cbn [hd]. rewrite Z.eqb_refl, E. reflexivity.
      * apply (rep_is _ _ _ H2). rewrite (zdrop_all i l L), (ztake_all i l L). exact R'.
  - apply (same_ok h k _ _ _ 0%nat W R); [assumption|]. intros fuel _. unfold step, insert. destruct (Z.ltb_spec i 0); [reflexivity|lia].
  - split.
    { apply (wf_is _ _ H0), (wf_set k a (l1 ++ x :: l2)); auto; [apply NoDup_remove_1 with (a := x), (w_nd k W a _ H)|apply joins_less]. }
    destruct (detach_ok h k a l1 x l2 W R H) as (h' & E & R'). exists (S (length (l1 ++ x :: l2))), h'. split; [|apply (rep_is _ _ _ H0), R'].
    intros fuel F. unfold step, detach. destruct (Z.ltb_spec (zlen l1) 0) as [L|_]; [pose proof (zlen_nonneg l1); lia|].
    rewrite (item_ok h k a _ _ fuel W R H) by lia. cbn [bind]. rewrite zdrop_app_r, Z.sub_diag, zdrop_le0 by lia. exact E.
  - apply (same_ok h k _ _ _ (S (length l)) W R); [assumption|]. intros fuel F.
    unfold step, detach. destruct (Z.ltb_spec i 0) as [L|L]; [reflexivity|]. rewrite (item_ok h k a l) by auto. cbn [bind].
    rewrite zdrop_all by lia. cbn [hd]. unfold detach_via. rewrite orb_true_r. reflexivity.
  - split.
    { apply (wf_is _ _ H0), (wf_set k a (l1 ++ x :: l2)); auto; [apply NoDup_remove_1 with (a := x), (w_nd k W a _ H)|apply joins_less]. }
    destruct (detach_ok h k a l1 x l2 W R H) as (h' & E & R'). exists 0%nat, h'. split; [intros; exact E|apply (rep_is _ _ _ H0), R'].
  - pose proof (join_out k a _ x H H0) as (NX & XA). destruct (mid_facts l1 o l2 (w_nd k W a _ H)) as (ND1 & ND2 & O1 & O2 & DJ).
    assert (XO : x <> o) by (intros ->; apply NX, in_or_app; right; left; reflexivity).
    assert (WK : wf k1).
    { apply (wf_is _ _ H1), (wf_set k a (l1 ++ o :: l2)); auto.
      - apply nodup_mid; [apply NoDup_remove_1 with (a := o), (w_nd k W a _ H)|]. intros Q. apply NX. apply in_app_or in Q. apply in_or_app.
        destruct Q; [auto|right; right; assumption].
      - intros y Y. apply in_app_or in Y. destruct Y as [Y|[<-|Y]]; [left; apply in_or_app; auto|auto|left; apply in_or_app; right; right; auto]. }
    assert (RO : root k1 o).
    { split.
      - rewrite H1. destruct (Z.eq_dec o a) as [->|N]; [rewrite set_same; discriminate|]. rewrite set_other by exact N.
        apply (w_in k W a _ o H), in_or_app. right. left. reflexivity.
      - intros b m. rewrite H1. destruct (Z.eq_dec b a) as [->|N].
        + rewrite set_same. intros [= <-] Q. apply in_app_or in Q. destruct Q as [Q|[Q|Q]]; [exact (O1 Q)|exact (XO Q)|exact (O2 Q)].
        + rewrite set_other by exact N. intros KB Q. apply N. apply (w_uq k W b a m (l1 ++ o :: l2) o KB H Q), in_or_app. right. left. reflexivity. }
    split; [apply (wf_without k1 o); auto|].
    destruct (replace_link h k a l1 o l2 x W R H H0) as (h1 & E1 & R1). apply (rep_is _ _ _ H1) in R1.
    destruct (delete_ok h1 k1 o k' WK R1 RO H2) as (N & h' & D & R'). exists (Nat.max N (S (length (l1 ++ o :: l2)))), h'. split; [|exact R'].
    intros fuel F. unfold step, replace. destruct (Z.ltb_spec (zlen l1) 0) as [L|_]; [pose proof (zlen_nonneg l1); lia|].
    rewrite (item_ok h k a _ _ fuel W R H) by lia. cbn [bind]. rewrite zdrop_app_r, Z.sub_diag, zdrop_le0 by lia. cbn [hd].
    rewrite E1, D by lia. reflexivity.
  - apply (same_ok h k _ _ _ (S (length (l1 ++ x :: l2))) W R); [assumption|]. intros fuel F.
    assert (OA : ok h a) by (apply (rep_ok h k); auto; congruence).
    assert (OX : ok h x) by (apply (rep_ok_in h k a (l1 ++ x :: l2)); auto; apply in_or_app; right; left; reflexivity).
    unfold step, replace. destruct (Z.ltb_spec (zlen l1) 0) as [L|_]; [pose proof (zlen_nonneg l1); lia|].
    rewrite (item_ok h k a _ _ fuel W R H) by lia. cbn [bind]. rewrite zdrop_app_r, Z.sub_diag, zdrop_le0 by lia. cbn [hd].
    unfold replace_via. destruct (Z.eqb_spec a 0) as [E|_]; [destruct OA; congruence|].
    destruct (Z.eqb_spec x 0) as [E|_]; [destruct OX; congruence|]. cbn [orb]. rewrite Z.eqb_refl. reflexivity.
  - apply (same_ok h k _ _ _ (S (length l)) W R); [assumption|]. intros fuel F.
    unfold step, replace. destruct (Z.ltb_spec i 0) as [L|L]; [reflexivity|]. rewrite (item_ok h k a l) by auto. cbn [bind].
    rewrite zdrop_all by lia. cbn [hd]. unfold replace_via. rewrite !orb_true_r. reflexivity.
  - split; [apply (wf_without k x); auto|]. destruct (delete_ok h k x k' W R H H0) as (N & h' & D & R'). exists N, h'. split; [|exact R'].
    intros fuel F. unfold step. rewrite D by exact F. reflexivity.
  - apply (same_ok h k _ _ _ 1%nat W R); [assumption|]. intros [|f] F; [lia|]. reflexivity.
  - apply (same_ok h k _ _ _ (S (length l)) W R); [assumption|]. intros fuel F. unfold step. rewrite (size_ok h k a l) by auto. reflexivity.
  - apply (same_ok h k _ _ _ (S (length (l1 ++ x :: l2))) W R); [assumption|]. intros fuel F.
    unfold step. destruct (Z.ltb_spec (zlen l1) 0) as [L|_]; [pose proof (zlen_nonneg l1); lia|].
    rewrite (item_ok h k a _ _ fuel W R H) by lia. cbn [bind]. rewrite zdrop_app_r, Z.sub_diag, zdrop_le0 by lia. reflexivity.
  - apply (same_ok h k _ _ _ (S (length l)) W R); [assumption|]. intros fuel F.
    unfold step. destruct (Z.ltb_spec i 0) as [L|L]; [reflexivity|]. rewrite (item_ok h k a l) by auto. cbn [bind].
    rewrite zdrop_all by lia. reflexivity.
Qed.
Lemma run_ok l : forall h k rs k1, wf k -> rep h k -> calls k l rs k1 ->
  exists N h', (forall fuel, (N <= fuel)%nat -> run fuel h l = Ok (h', rs)) /\ rep h' k1.
Proof.
  induction l as [|o l IH]; intros h k rs k1 W R C; inversion C as [|? r k2 ? rs0 ? C1 C2]; subst.
  - exists 0%nat, h. split; [intros; reflexivity|exact R].
  - destruct (step_ok h k o r k2 W R C1) as (W2 & N1 & h1 & S1 & R1).
    destruct (IH h1 k2 rs0 k1 W2 R1 C2) as (N2 & h2 & S2 & R2). exists (Nat.max N1 N2), h2. split; [|exact R2].
    intros fuel F. cbn [run]. rewrite S1 by lia. cbn [bind fst snd]. rewrite S2 by lia. reflexivity.
Qed.
