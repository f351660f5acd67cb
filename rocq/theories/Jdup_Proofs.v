From Verif Require Import Base Jdup_Model Jdup_Spec.
Open Scope Z_scope.

Scheme owns_m := Minimality for owns Sort Prop with chain_m := Minimality for chain Sort Prop.
Combined Scheme owns_chain from owns_m, chain_m.
Scheme reads_m := Minimality for reads Sort Prop with readl_m := Minimality for readl Sort Prop.
Combined Scheme reads_readl from reads_m, readl_m.

Lemma set_eq h a b : set h a b a = b.
Proof. unfold set. rewrite Z.eqb_refl. reflexivity. Qed.
Lemma set_ne h a b x : x <> a -> set h a b x = h x.
Proof. intros H. unfold set. destruct (Z.eqb_spec x a); [congruence|reflexivity]. Qed.
Lemma eqb0 p : p <> 0 -> (p =? 0) = false.
Proof. apply Z.eqb_neq. Qed.

(** ** Texts *)
Lemma text_full h a t F : text h a t F -> forall x, In x F -> h x <> Free.
Proof. intros T x J. destruct T as [|a t N E]; [destruct J|]. destruct J as [<-|[]]. congruence. Qed.
Lemma text_frame h h' a t F : text h a t F -> (forall x, In x F -> h' x = h x) -> text h' a t F.
Proof. intros T H. destruct T as [|a t N E]; [constructor|]. constructor; [exact N|]. rewrite H; [exact E|left; reflexivity]. Qed.
Lemma named_full h c a n F : named h c a n F -> forall x, In x F -> h x <> Free.
Proof. intros T. destruct T; [intros x []|]. eapply text_full; eassumption. Qed.
Lemma named_frame h h' c a n F : named h c a n F -> (forall x, In x F -> h' x = h x) -> named h' c a n F.
Proof. intros T H. destruct T; [constructor|]. constructor. eapply text_frame; eassumption. Qed.

(** ** Frames *)
Lemma owns_chain_full h :
  (forall p v F, owns h p v F -> forall x, In x F -> h x <> Free) /\
  (forall q c l F z, chain h q c l F z -> forall x, In x F -> h x <> Free).
Proof.
  apply owns_chain.
  - intros p it vs nm kids F1 F2 F3 q z NZ E R T N C IH D x [<-|J]; [congruence|].
    apply in_app_or in J. destruct J as [J|J]; [eapply text_full; eassumption|].
    apply in_app_or in J. destruct J as [J|J]; [eapply named_full; eassumption|apply IH; exact J].
  - intros q x [].
  - intros q c it v l F F' z E P O IH1 C IH2 x J. apply in_app_or in J. destruct J; auto.
Qed.
Lemma owns_full h p v F x : owns h p v F -> In x F -> h x <> Free.
Proof. intros O. exact (proj1 (owns_chain_full h) p v F O x). Qed.
Lemma chain_full h q c l F z x : chain h q c l F z -> In x F -> h x <> Free.
Proof. intros O. exact (proj2 (owns_chain_full h) q c l F z O x). Qed.

Lemma owns_self h p v F : owns h p v F -> In p F.
Proof. intros O. destruct O. left. reflexivity. Qed.
Lemma owns_chain_frame h h' :
  (forall p v F, owns h p v F -> (forall x, In x F -> h' x = h x) -> owns h' p v F) /\
  (forall q c l F z, chain h q c l F z -> (forall x, In x F -> h' x = h x) -> chain h' q c l F z).
Proof.
  apply owns_chain.
  - intros p it vs nm kids F1 F2 F3 q z NZ E R T N C IH D H.
    apply (o_item h' p it vs nm kids F1 F2 F3 q z); auto.
    + rewrite H; [exact E|left; reflexivity].
    + eapply text_frame; [exact T|]. intros x J. apply H. right. apply in_or_app. auto.
    + eapply named_frame; [exact N|]. intros x J. apply H. right. apply in_or_app. right. apply in_or_app. auto.
    + apply IH. intros x J. apply H. right. apply in_or_app. right. apply in_or_app. auto.
  - intros q H. constructor.
  - intros q c it v l F F' z E P O IH1 C IH2 H.
    apply (c_cons h' q c it v l F F' z); auto.
    + rewrite H; [exact E|]. apply in_or_app. left. eapply owns_self; exact O.
    + apply IH1. intros x J. apply H. apply in_or_app. auto.
    + apply IH2. intros x J. apply H. apply in_or_app. auto.
Qed.
Lemma owns_frame h h' p v F : owns h p v F -> (forall x, In x F -> h' x = h x) -> owns h' p v F.
Proof. apply (proj1 (owns_chain_frame h h')). Qed.
Lemma chain_frame h h' q c l F z : chain h q c l F z -> (forall x, In x F -> h' x = h x) -> chain h' q c l F z.
Proof. apply (proj2 (owns_chain_frame h h')). Qed.

Lemma NoDup_app_r {A} (l1 l2 : list A) : NoDup (l1 ++ l2) -> NoDup l2.
Proof. induction l1; [auto|]. intros H. inversion H; auto. Qed.
Lemma NoDup_app_l {A} (l1 l2 : list A) : NoDup (l1 ++ l2) -> NoDup l1.
Proof.
  induction l1 as [|a l1 IH]; [constructor|]. intros H. inversion H; subst. constructor; [|auto].
  intros J. apply H2. apply in_or_app. auto.
Qed.
Lemma NoDup_app_no {A} (l1 l2 : list A) x : NoDup (l1 ++ l2) -> In x l1 -> In x l2 -> False.
Proof.
  induction l1 as [|a l1 IH]; [intros _ []|]. intros H [<-|J] K; inversion H; subst; [|auto].
  apply H2. apply in_or_app. auto.
Qed.
Lemma NoDup_join {A} (l1 l2 : list A) : NoDup l1 -> NoDup l2 -> (forall x, In x l1 -> In x l2 -> False) -> NoDup (l1 ++ l2).
Proof.
  induction l1 as [|a l1 IH]; [auto|]. intros H K D. inversion H; subst. simpl. constructor.
  - intros J. apply in_app_or in J. destruct J as [J|J]; [auto|]. exact (D a (or_introl eq_refl) J).
  - apply IH; auto. intros x J1 J2. exact (D x (or_intror J1) J2).
Qed.

(** the list links of an item are not part of its value *)
Definition same_but_links (i j : item) : Prop :=
  i_val j = i_val i /\ i_ref j = i_ref i /\ i_const j = i_const i /\ i_vs j = i_vs i /\ i_name j = i_name i /\ i_ch j = i_ch i.
Lemma owns_links h h' p v F i j : owns h p v F -> NoDup F -> h p = BI i -> h' p = BI j -> same_but_links i j ->
  (forall x, In x F -> x <> p -> h' x = h x) -> owns h' p v F.
Proof.
  intros O ND E E' (S1 & S2 & S3 & S4 & S5 & S6) H. destruct O as [p it vs nm kids F1 F2 F3 q z NZ E0 R T N C D].
  rewrite E in E0. inversion E0; subst it. clear E0. inversion ND as [|? ? NI ND']; subst. rewrite <- S1.
  assert (forall x, In x (F1 ++ F2 ++ F3) -> h' x = h x) as HF.
  { intros x J. apply H; [right; exact J|]. intros ->. exact (NI J). }
  apply (o_item h' p j vs nm kids F1 F2 F3 q z); auto.
  - congruence.
  - rewrite S4. eapply text_frame; [exact T|]. intros x J. apply HF. apply in_or_app. auto.
  - rewrite S3, S5. eapply named_frame; [exact N|]. intros x J. apply HF. apply in_or_app. right. apply in_or_app. auto.
  - rewrite S6. eapply chain_frame; [exact C|]. intros x J. apply HF. apply in_or_app. right. apply in_or_app. auto.
Qed.

Lemma owns_nz h p v F : owns h p v F -> p <> 0.
Proof. intros O. destruct O; assumption. Qed.
Lemma chain_last h q c l F z : chain h q c l F z ->
  (l = [] /\ c = 0 /\ z = q /\ F = []) \/ (l <> [] /\ c <> 0 /\ z <> 0 /\ In z F /\ In c F /\ exists it, h z = BI it /\ i_nx it = 0).
Proof.
  intros C. induction C as [q|q c it v l F F' z E P O C IH]; [left; auto|right].
  split; [discriminate|]. split; [eapply owns_nz; exact O|].
  destruct IH as [(-> & C0 & -> & ->)|(N & C1 & Z1 & J & _ & X)].
  - split; [eapply owns_nz; exact O|]. pose proof (owns_self _ _ _ _ O). rewrite app_nil_r. repeat split; auto. exists it. auto.
  - split; [exact Z1|]. split; [apply in_or_app; auto|]. split; [apply in_or_app; left; eapply owns_self; exact O|exact X].
Qed.

(** one more child at the end *)
Lemma chain_snoc h h' q c l F z p v Fp iz jz ip jp : chain h q c l F z -> l <> [] -> owns h p v Fp -> NoDup (F ++ Fp) ->
  h z = BI iz -> h' z = BI jz -> same_but_links iz jz -> i_pv jz = i_pv iz -> i_nx jz = p ->
  h p = BI ip -> h' p = BI jp -> same_but_links ip jp -> i_pv jp = z -> i_nx jp = 0 ->
  (forall x, In x (F ++ Fp) -> x <> z -> x <> p -> h' x = h x) ->
  chain h' q c (l ++ [v]) (F ++ Fp) p.
Proof.
  intros C. induction C as [q|q c it w l F F' z E P O C IH]; intros NE OP ND Ez Ez' Sz PVz NXz Ep Ep' Sp PVp NXp H; [congruence|].
  clear NE. rewrite <- app_assoc in *.
  assert (JP : In p Fp) by (eapply owns_self; exact OP).
  assert (NP : forall x, In x (F ++ F') -> x <> p).
  { intros x J ->. rewrite app_assoc in ND. exact (NoDup_app_no _ _ p ND J JP). }
  destruct (chain_last _ _ _ _ _ _ C) as [(-> & C0 & -> & ->)|(NL & C1 & Z1 & JZ & JC & _)].
  - (* the first is the last *)
    cbn [app] in *. rewrite E in Ez. inversion Ez; subst iz. clear Ez.
    replace (F ++ Fp) with (F ++ Fp ++ []) by (rewrite app_nil_r; reflexivity).
    apply (c_cons h' q c jz w [v] F (Fp ++ []) p); [exact Ez'|congruence| |].
    + eapply owns_links; [exact O|exact (NoDup_app_l _ _ ND)|exact E|exact Ez'|exact Sz|].
      intros x J NX. apply H; [apply in_or_app; auto|exact NX|]. apply NP. apply in_or_app. auto.
    + rewrite NXz. apply (c_cons h' c p jp v [] Fp [] p); [exact Ep'|exact PVp| |rewrite NXp; constructor].
      eapply owns_links; [exact OP|exact (NoDup_app_r _ _ ND)|exact Ep|exact Ep'|exact Sp|].
      intros x J NX. apply H; [apply in_or_app; auto| |exact NX]. intros ->.
      apply (NoDup_app_no _ _ c ND); [eapply owns_self; exact O|exact J].
  - assert (cz : c <> z).
    { intros ->. apply (NoDup_app_no _ _ z ND); [eapply owns_self; exact O|]. apply in_or_app. left. exact JZ. }
    assert (In c F) by (eapply owns_self; exact O).
    assert (FF : forall x, In x F -> h' x = h x).
    { intros x J. apply H; [apply in_or_app; auto| |apply NP; apply in_or_app; auto].
      intros ->. apply (NoDup_app_no _ _ z ND J). apply in_or_app. auto. }
    cbn [app]. apply (c_cons h' q c it w (l ++ [v]) F (F' ++ Fp) p).
    + rewrite FF; assumption.
    + exact P.
    + eapply owns_frame; [exact O|exact FF].
    + apply IH; try assumption.
      * exact (NoDup_app_r _ _ ND).
      * intros x J NX NX'. apply H; [apply in_or_app; auto|exact NX|exact NX'].
Qed.
(** the back link of the first child *)
Lemma chain_first h h' q q' c l F z i j : chain h q c l F z -> l <> [] -> NoDup F -> h c = BI i -> h' c = BI j ->
  same_but_links i j -> i_nx j = i_nx i -> i_pv j = q' -> (forall x, In x F -> x <> c -> h' x = h x) -> chain h' q' c l F z.
Proof.
  intros C NE ND E E' Sl N P H. destruct C as [|q c it w l F F' z E0 P0 O C]; [congruence|].
  rewrite E in E0. inversion E0; subst it. assert (JC : In c F) by (eapply owns_self; exact O).
  apply (c_cons h' q' c j w l F F' z); [exact E'|exact P| |].
  - eapply owns_links; [exact O|exact (NoDup_app_l _ _ ND)|exact E|exact E'|exact Sl|]. intros x J NX. apply H; [apply in_or_app; auto|exact NX].
  - rewrite N. eapply chain_frame; [exact C|]. intros x J. apply H; [apply in_or_app; auto|].
    intros ->. exact (NoDup_app_no _ _ c ND JC J).
Qed.

(** ** Deleting *)
Lemma free_ok (h : mem) p : h p <> Free -> free h p = Ok (set h p Free).
Proof. intros H. unfold free. destruct (h p); congruence. Qed.
Lemma gone_nil h : gone [] h h.
Proof. split; [intros a []|reflexivity]. Qed.
Lemma gone_app F1 F2 h h1 h2 : gone F1 h h1 -> gone F2 h1 h2 -> (forall x, In x F1 -> In x F2 -> False) -> gone (F1 ++ F2) h h2.
Proof.
  intros (A1 & A2) (B1 & B2) D. split.
  - intros a J. apply in_app_or in J. destruct J as [J|J]; [|auto]. rewrite B2; [auto|]. intros K. exact (D a J K).
  - intros a J. rewrite B2, A2; [reflexivity| |]; intros K; apply J; apply in_or_app; auto.
Qed.
Lemma gone_one h p : gone [p] h (set h p Free).
Proof.
  split; [intros a [<-|[]]; apply set_eq|]. intros a J. apply set_ne. intros ->. apply J. left. reflexivity.
Qed.
Lemma gone_perm F F' h h' : gone F h h' -> (forall x, In x F <-> In x F') -> gone F' h h'.
Proof. intros (A & B) H. split; [intros a J; apply A; apply H; exact J|]. intros a J. apply B. intros K. apply J. apply H. exact K. Qed.

Lemma text_free (h : mem) a t F : text h a t F -> exists h', (if negb (a =? 0) then free h a else Ok h) = Ok h' /\ gone F h h'.
Proof.
  intros T. destruct T as [|a t N E]; [exists h; split; [reflexivity|apply gone_nil]|]. rewrite eqb0 by exact N. cbn [negb].
  exists (set h a Free). split; [apply free_ok; congruence|apply gone_one].
Qed.
Lemma named_free (h : mem) c a n F : named h c a n F -> exists h', (if negb c && negb (a =? 0) then free h a else Ok h) = Ok h' /\ gone F h h'.
Proof.
  intros T. destruct T as [a|a t F T]; [exists h; split; [reflexivity|apply gone_nil]|]. cbn [negb andb]. eapply text_free; exact T.
Qed.

Lemma del_part (h : mem) p it vs nm F1 F2 F3 (h1 : mem) N : p <> 0 -> h p = BI it -> i_ref it = false -> text h (i_vs it) vs F1 ->
  named h (i_const it) (i_name it) nm F2 -> NoDup (p :: F1 ++ F2 ++ F3) ->
  (forall fuel, (N <= fuel)%nat -> delete fuel h (i_ch it) = Ok h1) -> gone F3 h h1 ->
  exists h', (forall fuel, (N <= fuel)%nat -> delete (S fuel) h p = delete fuel h' (i_nx it)) /\ gone (p :: F1 ++ F2 ++ F3) h h'.
Proof.
  intros NZ E R T NM ND D G3. inversion ND as [|? ? NI ND']; subst.
  assert (D12 := ND'). apply NoDup_app_r in D12.
  assert (T1 : text h1 (i_vs it) vs F1).
  { eapply text_frame; [exact T|]. intros x J. apply (proj2 G3). intros K. apply (NoDup_app_no _ _ x ND' J). apply in_or_app. auto. }
  destruct (text_free _ _ _ _ T1) as (h2 & E2 & G1).
  assert (NM2 : named h2 (i_const it) (i_name it) nm F2).
  { eapply named_frame; [exact NM|]. intros x J. rewrite (proj2 G1), (proj2 G3); [reflexivity| |]; intros K.
    - exact (NoDup_app_no _ _ x D12 J K).
    - apply (NoDup_app_no _ _ x ND' K). apply in_or_app. auto. }
  destruct (named_free _ _ _ _ _ NM2) as (h3 & E3 & G2).
  assert (GG : gone (F1 ++ F2 ++ F3) h h3).
  { apply (gone_perm (F3 ++ F1 ++ F2)).
    - apply (gone_app F3 (F1 ++ F2) h h1 h3); [exact G3|apply (gone_app F1 F2 h1 h2 h3); [exact G1|exact G2|]|].
      + intros x J K. apply (NoDup_app_no _ _ x ND' J). apply in_or_app. auto.
      + intros x J K. apply in_app_or in K. destruct K as [K|K]; [|exact (NoDup_app_no _ _ x D12 K J)].
        apply (NoDup_app_no _ _ x ND' K). apply in_or_app. auto.
    - intros x. rewrite !in_app_iff. tauto. }
  exists (set h3 p Free). split.
  - intros fuel F. cbn [delete]. rewrite eqb0 by exact NZ. unfold rd_item. rewrite eqb0, E by exact NZ. cbn [bind].
    rewrite R. change (negb false) with true. rewrite !Bool.andb_true_l.
    assert ((if negb (i_ch it =? 0) then delete fuel h (i_ch it) else Ok h) = Ok h1 \/ (i_ch it = 0 /\ h1 = h)) as X.
    { destruct (Z.eqb_spec (i_ch it) 0) as [Z0|Z0]; [right|left; apply D; exact F]. split; [exact Z0|].
      specialize (D (S N) ltac:(lia)). rewrite Z0 in D. cbn in D. inversion D. reflexivity. }
    assert ((if negb (i_ch it =? 0) then delete fuel h (i_ch it) else Ok h) = Ok h1) as Y.
    { destruct X as [X|(X1 & X2)]; [exact X|]. rewrite X1, X2. reflexivity. }
    rewrite Y. cbn [bind]. rewrite E2. cbn [bind]. rewrite E3. cbn [bind].
    rewrite free_ok; [reflexivity|]. rewrite (proj2 GG); [congruence|exact NI].
  - apply (gone_perm ((F1 ++ F2 ++ F3) ++ [p])).
    + apply (gone_app _ [p] h h3); [exact GG|apply gone_one|]. intros x J [<-|[]]. exact (NI J).
    + intros x. rewrite in_app_iff. cbn [In]. tauto.
Qed.

Lemma del_ok (h : mem) :
  (forall p v F, owns h p v F -> NoDup F -> exists N h', (forall it fuel, h p = BI it -> (N <= fuel)%nat ->
     delete (S fuel) h p = delete fuel h' (i_nx it)) /\ gone F h h') /\
  (forall q c l F z, chain h q c l F z -> NoDup F -> exists N h', (forall fuel, (N <= fuel)%nat -> delete fuel h c = Ok h') /\ gone F h h').
Proof.
  (* the heap changes on the way along a chain, so the induction is over all heaps *)
  enough (forall h0, (forall p v F, owns h0 p v F -> forall h : mem, (forall x, In x F -> h x = h0 x) -> NoDup F ->
      exists N h', (forall it fuel, h p = BI it -> (N <= fuel)%nat -> delete (S fuel) h p = delete fuel h' (i_nx it)) /\ gone F h h') /\
    (forall q c l F z, chain h0 q c l F z -> forall h : mem, (forall x, In x F -> h x = h0 x) -> NoDup F ->
      exists N h', (forall fuel, (N <= fuel)%nat -> delete fuel h c = Ok h') /\ gone F h h')) as X.
  { split; intros; [eapply (proj1 (X h))|eapply (proj2 (X h))]; eauto. }
  clear h. intros h0. apply owns_chain.
  - intros p it vs nm kids F1 F2 F3 q z NZ E R T NM C IH Q h H ND.
    assert (ND' := ND). inversion ND' as [|? ? NI ND2]; subst. clear ND'.
    assert (forall x, In x F3 -> h x = h0 x) as H3 by (intros x J; apply H; right; apply in_or_app; right; apply in_or_app; auto).
    destruct (IH h H3) as (N & h1 & D & G); [exact (NoDup_app_r _ _ (NoDup_app_r _ _ ND2))|].
    assert (E' : h p = BI it) by (rewrite H; [exact E|left; reflexivity]).
    destruct (del_part h p it vs nm F1 F2 F3 h1 N NZ E' R) as (h' & D' & G'); try assumption.
    + eapply text_frame; [exact T|]. intros x J. apply H. right. apply in_or_app. auto.
    + eapply named_frame; [exact NM|]. intros x J. apply H. right. apply in_or_app. right. apply in_or_app. auto.
    + exists N, h'. split; [|exact G']. intros it' fuel EE L. rewrite E' in EE. inversion EE; subst. apply D'. exact L.
  - intros q h H ND. exists 1%nat, h. split; [|apply gone_nil]. intros [|fuel] L; [lia|reflexivity].
  - intros q c it v l F F' z E P O IH1 C IH2 h H ND.
    destruct (IH1 h) as (N1 & h1 & D1 & G1); [intros x J; apply H; apply in_or_app; auto|exact (NoDup_app_l _ _ ND)|].
    destruct (IH2 h1) as (N2 & h2 & D2 & G2).
    + intros x J. rewrite (proj2 G1); [apply H; apply in_or_app; auto|]. intros K. exact (NoDup_app_no _ _ x ND K J).
    + exact (NoDup_app_r _ _ ND).
    + exists (S (N1 + N2)), h2. split.
      * intros [|fuel] L; [lia|]. rewrite (D1 it fuel); [apply D2; lia| |lia].
        rewrite H; [exact E|]. apply in_or_app. left. eapply owns_self; exact O.
      * apply (gone_app F F' h h1 h2 G1 G2). intros x J K. exact (NoDup_app_no _ _ x ND J K).
Qed.
Lemma tree_delete h p v F : tree h p v F -> exists N h', (forall fuel, (N <= fuel)%nat -> delete fuel h p = Ok h') /\ gone F h h'.
Proof.
  intros (O & ND & it & E & NX & _). destruct (proj1 (del_ok h) p v F O ND) as (N & h' & D & G).
  exists (S (S N)), h'. split; [|exact G]. intros [|[|fuel]] L; try lia. rewrite (D it (S fuel) E) by lia. rewrite NX. reflexivity.
Qed.

(** ** Copying *)
Definition agree (h0 : mem) (s : st) : Prop := forall a, h0 a <> Free -> ms_h s a = h0 a.
Lemma alloc_cases s b : exists p s', alloc s b = (p, s') /\
  ((p = 0 /\ ms_h s' = ms_h s /\ ms_no s' = true) \/
   (p <> 0 /\ ms_h s p = Free /\ ms_h s' = set (ms_h s) p b /\ ms_no s' = ms_no s)).
Proof.
  unfold alloc. destruct (ms_os s) as [|[p|] os]; [do 2 eexists; split; [reflexivity|left; auto]| |do 2 eexists; split; [reflexivity|left; auto]].
  destruct (Z.eqb_spec p 0) as [P|P]; [do 2 eexists; split; [reflexivity|left; auto]|].
  destruct (ms_h s p) eqn:E; do 2 eexists; (split; [reflexivity|]); [right|left|left]; auto.
Qed.
Lemma more_nil (h : mem) : more h [] h.
Proof. split; [intros a []|reflexivity]. Qed.
Lemma more_app h F1 h1 F2 h2 : more h F1 h1 -> (forall a, In a F1 -> h1 a <> Free) -> more h1 F2 h2 ->
  more h (F1 ++ F2) h2 /\ (forall a, In a F1 -> In a F2 -> False).
Proof.
  intros (A1 & A2) N (B1 & B2). assert (forall a, In a F1 -> In a F2 -> False) as D by (intros a J K; exact (N a J (B1 a K))).
  split; [|exact D]. split.
  - intros a J. apply in_app_or in J. destruct J as [J|J]; [auto|]. rewrite <- A2; [auto|]. intros K. exact (D a K J).
  - intros a J. rewrite B2, A2; [reflexivity| |]; intros K; apply J; apply in_or_app; auto.
Qed.
Lemma more_gone h F h1 h2 : more h F h1 -> gone F h1 h2 -> same h h2.
Proof.
  intros (A1 & A2) (B1 & B2) a. destruct (in_dec Z.eq_dec a F) as [J|J]; [rewrite B1, A1; auto|]. rewrite B2, A2; auto.
Qed.
Lemma strdup_cases h0 s a t F0 : text h0 a t F0 -> agree h0 s -> exists p s', strdup s a = Ok (p, s') /\
  ((a <> 0 /\ p = 0 /\ ms_h s' = ms_h s /\ ms_no s' = true) \/
   ((a = 0 <-> p = 0) /\ ms_no s' = ms_no s /\ exists F, text (ms_h s') p t F /\ NoDup F /\ more (ms_h s) F (ms_h s'))).
Proof.
  intros T A. unfold strdup. destruct T as [|a t N E].
  - exists 0, s. split; [reflexivity|]. right. split; [tauto|]. split; [reflexivity|]. exists []. split; [constructor|]. split; [constructor|apply more_nil].
  - rewrite eqb0 by exact N. unfold rd_str. rewrite eqb0 by exact N. rewrite A by congruence. rewrite E. cbn [bind].
    destruct (alloc_cases s (BS t)) as (p & s' & -> & [(-> & H & NO)|(P & FR & H & NO)]).
    + exists 0, s'. split; [reflexivity|]. left. auto.
    + exists p, s'. split; [reflexivity|]. right. split; [tauto|]. split; [exact NO|]. exists [p]. rewrite H.
      split; [constructor; [exact P|apply set_eq]|]. split; [repeat constructor; intros []|]. split.
      * intros x [<-|[]]. exact FR.
      * intros x J. apply set_ne. intros ->. apply J. left. reflexivity.
Qed.
Lemma rd_item_ok (h : mem) p it : p <> 0 -> h p = BI it -> rd_item h p = Ok it.
Proof. intros N E. unfold rd_item. rewrite eqb0, E by exact N. reflexivity. Qed.

Lemma dup_fail_ok s p it vs nm F1 F2 F3 q z kids : p <> 0 -> ms_h s p = BI it -> i_ref it = false -> i_nx it = 0 ->
  text (ms_h s) (i_vs it) vs F1 -> named (ms_h s) (i_const it) (i_name it) nm F2 -> chain (ms_h s) q (i_ch it) kids F3 z ->
  NoDup (p :: F1 ++ F2 ++ F3) ->
  exists N h', (forall fuel, (N <= fuel)%nat -> dup_fail fuel s p = Ok (0, hs s h')) /\ gone (p :: F1 ++ F2 ++ F3) (ms_h s) h'.
Proof.
  intros NZ E R NX T NM C ND. inversion ND as [|? ? NI ND2]; subst.
  destruct (proj2 (del_ok (ms_h s)) _ _ _ _ _ C (NoDup_app_r _ _ (NoDup_app_r _ _ ND2))) as (N & h1 & D & G).
  destruct (del_part _ p it vs nm F1 F2 F3 h1 N NZ E R T NM ND D G) as (h' & D' & G').
  exists (S (S N)), h'. split; [|exact G']. intros [|[|fuel]] L; try lia. unfold dup_fail. rewrite D' by lia. rewrite NX. reflexivity.
Qed.

(** lines 2714-2743 *)
Lemma dup_head h0 s x it vs nm G1 G2 : x <> 0 -> h0 x = BI it -> text h0 (i_vs it) vs G1 ->
  named h0 (i_const it) (i_name it) nm G2 -> agree h0 s ->
  (exists N s', (forall fuel rec, (N <= fuel)%nat -> dup fuel s x rec = Ok (0, s')) /\ ms_no s' = true /\ same (ms_h s) (ms_h s')) \/
  (exists new s1 itn F1 F2,
     (forall fuel rec, dup (S fuel) s x rec =
        if negb rec then Ok (new, s1)
        else let* r := dup_kids fuel s1 new (i_ch it) 0 in
             if negb (fst (fst r)) then dup_fail (S fuel) (snd r) new
             else let* i := rd_item (ms_h (snd r)) new in
                  if i_ch i =? 0 then Ok (new, snd r)
                  else let* h := w_pv (ms_h (snd r)) (i_ch i) (snd (fst r)) in Ok (new, hs (snd r) h)) /\
     new <> 0 /\ ms_h s1 new = BI itn /\ i_val itn = i_val it /\ i_ref itn = false /\ i_nx itn = 0 /\ i_pv itn = 0 /\ i_ch itn = 0 /\
     text (ms_h s1) (i_vs itn) vs F1 /\ named (ms_h s1) (i_const itn) (i_name itn) nm F2 /\
     NoDup (new :: F1 ++ F2) /\ more (ms_h s) (new :: F1 ++ F2) (ms_h s1) /\ ms_no s1 = ms_no s).
Proof.
  intros NZ E T NM A.
  destruct (alloc_cases s (BI (It 0 false false 0 0 0 0 0))) as (new & s0 & EA & [(-> & H & NO)|(P & FR & H & NO)]).
  { left. exists 1%nat, s0. split; [|split; [exact NO|rewrite H; intros a; reflexivity]].
    intros [|fuel] rec L; [lia|]. cbn [dup]. rewrite eqb0 by exact NZ.
    rewrite (rd_item_ok _ x it NZ) by (rewrite A by congruence; exact E). cbn [bind]. rewrite EA. reflexivity. }
  set (s1 := hs s0 (set (ms_h s0) new (BI (It (i_val it) false (i_const it) 0 0 0 0 0)))).
  assert (M1 : more (ms_h s) [new] (ms_h s1)).
  { split; [intros a [<-|[]]; exact FR|]. intros a J. assert (a <> new) by (intros ->; apply J; left; reflexivity).
    cbn. rewrite set_ne, H, set_ne by assumption. reflexivity. }
  assert (A1 : agree h0 s1).
  { intros a Na. rewrite (proj2 M1); [apply A; exact Na|]. intros [<-|[]]. apply Na. destruct (h0 new) eqn:X; [reflexivity| |]; rewrite A in FR by congruence; congruence. }
  assert (E1 : ms_h s1 new = BI (It (i_val it) false (i_const it) 0 0 0 0 0)) by (cbn; apply set_eq).
  destruct (strdup_cases h0 s1 _ _ _ T A1) as (v & s2 & ES & [(VN & -> & H2 & NO2)|(VZ & NO2 & F1 & T2 & ND2 & M2)]).
  { left. assert (E2 : ms_h s2 new = BI (It (i_val it) false (i_const it) 0 0 0 0 0)) by (rewrite H2; exact E1).
    destruct (dup_fail_ok s2 new _ None (if i_const it then NConst 0 else NText None) [] [] [] 0 0 [] P E2) as (N & h' & D & G);
      try reflexivity; try constructor; try (intros []); try constructor.
    { cbn. destruct (i_const it); constructor. constructor. }
    exists (S N), (hs s2 h'). split; [|split; [exact NO2|]].
    - intros [|fuel] rec L; [lia|]. cbn [dup]. rewrite eqb0 by exact NZ.
      rewrite (rd_item_ok _ x it NZ) by (rewrite A by congruence; exact E). cbn [bind]. rewrite EA. cbn [fst snd]. rewrite eqb0 by exact P.
      fold s1. rewrite ES. cbn [bind fst snd]. rewrite eqb0 by exact VN. cbn [negb andb Z.eqb]. apply D. lia.
    - cbn. eapply more_gone; [|exact G]. rewrite H2. exact M1. }
  assert (NE2 : ~ In new F1) by (intros J; rewrite (proj1 M2) in E1 by exact J; discriminate).
  assert (E2 : ms_h s2 new = BI (It (i_val it) false (i_const it) 0 0 0 0 0)) by (rewrite (proj2 M2); assumption).
  set (it3 := It (i_val it) false (i_const it) v 0 0 0 0).
  set (s3 := hs s2 (set (ms_h s2) new (BI it3))).
  assert (W3 : w_vs (ms_h s2) new v = Ok (ms_h s3)) by (unfold w_vs; rewrite (rd_item_ok _ _ _ P E2); reflexivity).
  assert (E3 : ms_h s3 new = BI it3) by (cbn; apply set_eq).
  assert (T3 : text (ms_h s3) v vs F1).
  { eapply text_frame; [exact T2|]. intros a J. cbn. apply set_ne. intros ->. exact (NE2 J). }
  assert (M3 : more (ms_h s) (new :: F1) (ms_h s3)).
  { assert (N1 : forall a, In a [new] -> ms_h s1 a <> Free) by (intros a [<-|[]]; congruence).
    destruct (more_app _ _ _ _ _ M1 N1 M2) as ((Q1 & Q2) & _).
    - split; [exact Q1|]. intros a J. cbn. rewrite set_ne; [apply Q2; exact J|]. intros ->. apply J. left. reflexivity. }
  assert (A3 : agree h0 s3).
  { intros a Na. rewrite (proj2 M3); [apply A; exact Na|]. intros J. apply Na. destruct (h0 a) eqn:X; [reflexivity| |]; pose proof (proj1 M3 a J) as Y; rewrite A in Y by congruence; congruence. }
  assert (NO3 : ms_no s3 = ms_no s) by (cbn; rewrite NO2; exact NO).
  assert (exists n s4, (if i_const it then Ok (i_name it, s3) else strdup s3 (i_name it)) = Ok (n, s4) /\
    ((i_name it <> 0 /\ n = 0 /\ ms_h s4 = ms_h s3 /\ ms_no s4 = true) \/
     ((i_name it = 0 <-> n = 0) /\ ms_no s4 = ms_no s3 /\ exists F, named (ms_h s4) (i_const it) n nm F /\ NoDup F /\ more (ms_h s3) F (ms_h s4)))) as (n & s4 & EN & X).
  { destruct NM as [a|a t F NM].
    - exists a, s3. split; [reflexivity|]. right. split; [tauto|]. split; [reflexivity|]. exists []. split; [constructor|]. split; [constructor|apply more_nil].
    - destruct (strdup_cases h0 s3 _ _ _ NM A3) as (n & s4 & ES' & X). exists n, s4. split; [exact ES'|].
      destruct X as [X|(X1 & X2 & F' & X3 & X4)]; [left; exact X|right]. split; [exact X1|]. split; [exact X2|]. exists F'. split; [constructor; exact X3|exact X4]. }
  assert (VC : negb (i_vs it =? 0) && (v =? 0) = false).
  { destruct (Z.eqb_spec (i_vs it) 0); [reflexivity|]. destruct (Z.eqb_spec v 0); [tauto|reflexivity]. }
  destruct X as [(NN & -> & H4 & NO4)|(NZ4 & NO4 & F2 & T4 & ND4 & M4)].
  { left. assert (E4 : ms_h s4 new = BI it3) by (rewrite H4; exact E3).
    destruct (dup_fail_ok s4 new it3 vs (if i_const it then NConst 0 else NText None) F1 [] [] 0 0 [] P E4) as (N & h' & D & G); try reflexivity.
    - rewrite H4. exact T3.
    - cbn. destruct (i_const it); constructor. constructor.
    - constructor.
    - cbn [app]. rewrite app_nil_r. constructor; assumption.
    - exists (S N), (hs s4 h'). split; [|split; [exact NO4|]].
      + intros [|fuel] rec L; [lia|]. cbn [dup]. rewrite eqb0 by exact NZ.
        rewrite (rd_item_ok _ x it NZ) by (rewrite A by congruence; exact E). cbn [bind]. rewrite EA. cbn [fst snd]. rewrite eqb0 by exact P.
        fold s1. rewrite ES. cbn [bind fst snd]. rewrite VC. rewrite W3. cbn [bind]. change (hs s2 (ms_h s3)) with s3. rewrite EN. cbn [bind fst snd].
        rewrite eqb0 by exact NN. cbn [negb andb Z.eqb]. apply D. lia.
      + cbn. eapply more_gone; [|exact G]. rewrite H4. cbn [app]. rewrite app_nil_r. exact M3. }
  right. assert (NE4 : ~ In new F2) by (intros J; rewrite (proj1 M4) in E3 by exact J; discriminate).
  assert (E4 : ms_h s4 new = BI it3) by (rewrite (proj2 M4); assumption).
  set (it5 := It (i_val it) false (i_const it) v n 0 0 0).
  set (s5 := hs s4 (set (ms_h s4) new (BI it5))).
  assert (W5 : w_name (ms_h s4) new n = Ok (ms_h s5)) by (unfold w_name; rewrite (rd_item_ok _ _ _ P E4); reflexivity).
  exists new, s5, it5, F1, F2.
  assert (D12 : forall a, In a F1 -> In a F2 -> False).
  { intros a J K. apply (text_full _ _ _ _ T3 a J). apply (proj1 M4). exact K. }
  split.
  { intros fuel rec. cbn [dup]. rewrite eqb0 by exact NZ.
    rewrite (rd_item_ok _ x it NZ) by (rewrite A by congruence; exact E). cbn [bind]. rewrite EA. cbn [fst snd]. rewrite eqb0 by exact P.
    fold s1. rewrite ES. cbn [bind fst snd]. rewrite VC. rewrite W3. cbn [bind]. change (hs s2 (ms_h s3)) with s3. rewrite EN. cbn [bind fst snd].
    assert (negb (i_name it =? 0) && (n =? 0) = false) as NC.
    { destruct (Z.eqb_spec (i_name it) 0); [reflexivity|]. destruct (Z.eqb_spec n 0); [tauto|reflexivity]. }
    rewrite NC, W5. cbn [bind]. change (hs s4 (ms_h s5)) with s5. reflexivity. }
  split; [exact P|]. split; [cbn; apply set_eq|]. do 5 (split; [reflexivity|]). split; [|split; [|split; [|split]]].
  - eapply text_frame; [exact T3|]. intros a J. cbn [ms_h s5 hs]. rewrite set_ne by (intros ->; exact (NE2 J)).
    apply (proj2 M4). intros K. exact (D12 a J K).
  - eapply named_frame; [exact T4|]. intros a J. cbn. apply set_ne. intros ->. exact (NE4 J).
  - constructor; [|apply NoDup_join; assumption]. intros J. apply in_app_or in J. tauto.
  - assert (N3 : forall a, In a (new :: F1) -> ms_h s3 a <> Free) by (intros a [<-|J]; [congruence|]; eapply text_full; eassumption).
    destruct (more_app _ _ _ _ _ M3 N3 M4) as ((Q1 & Q2) & _).
    + split; [exact Q1|]. intros a J. cbn. rewrite set_ne; [apply Q2; exact J|]. intros ->. apply J. left. reflexivity.
  - cbn. rewrite NO4. exact NO3.
Qed.

Definition outcome (s : st) (v : jv) (p : Z) (s' : st) : Prop :=
  (p = 0 /\ ms_no s' = true /\ same (ms_h s) (ms_h s')) \/
  (p <> 0 /\ ms_no s' = ms_no s /\ exists F, tree (ms_h s') p v F /\ more (ms_h s) F (ms_h s')).
Definition with_ch (i : item) (c : Z) : item := It (i_val i) (i_ref i) (i_const i) (i_vs i) (i_name i) (i_nx i) (i_pv i) c.
Definition dup_done (h0 : mem) (x : Z) (v : jv) : Prop := forall s, agree h0 s ->
  exists N p s', (forall fuel, (N <= fuel)%nat -> dup fuel s x true = Ok (p, s')) /\ outcome s v p s'.
Definition kids_done (h0 : mem) (c : Z) (kids : list jv) : Prop := forall s new next l Fd itn, agree h0 s ->
  new <> 0 -> h0 new = Free -> (forall a, In a Fd -> h0 a = Free) -> ms_h s new = BI itn ->
  chain (ms_h s) 0 (i_ch itn) l Fd next -> NoDup (new :: Fd) ->
  exists N ok next' s' X Fx c', (forall fuel, (N <= fuel)%nat -> dup_kids fuel s new c next = Ok (ok, next', s')) /\
    ms_h s' new = BI (with_ch itn c') /\ chain (ms_h s') 0 c' (l ++ X) (Fd ++ Fx) next' /\ NoDup (new :: Fd ++ Fx) /\
    (forall a, In a Fx -> ms_h s a = Free) /\ (forall a, a <> new -> ~ In a (Fd ++ Fx) -> ms_h s' a = ms_h s a) /\
    (if ok : bool then X = kids /\ ms_no s' = ms_no s else ms_no s' = true).

Lemma with_ch_self i : with_ch i (i_ch i) = i.
Proof. destruct i. reflexivity. Qed.
Lemma kids_nil h0 : kids_done h0 0 [].
Proof.
  intros s new next l Fd itn A NZ HN HF E C ND. exists 1%nat, true, next, s, [], [], (i_ch itn). rewrite !app_nil_r, with_ch_self.
  split; [intros [|fuel] L; [lia|reflexivity]|]. do 3 (split; [assumption|]). split; [intros a []|]. split; [reflexivity|]. auto.
Qed.
Lemma kids_cons h0 c it v l : h0 c = BI it -> c <> 0 -> dup_done h0 c v -> kids_done h0 (i_nx it) l -> kids_done h0 c (v :: l).
Proof.
  intros Ec CZ IH1 IH2 s new next d Fd itn A NZ HN HF E C ND.
  destruct (IH1 s A) as (N1 & p & s1 & D & [(-> & NO & SM)|(PZ & NO & F & (O & NDF & ip & Ep & NXp & PVp) & M)]).
  { exists (S N1), false, next, s1, [], [], (i_ch itn). rewrite !app_nil_r, with_ch_self. split; [|split; [|split; [|split; [|split; [|split]]]]].
    - intros [|fuel] L; [lia|]. cbn [dup_kids]. rewrite eqb0 by exact CZ. rewrite D by lia. reflexivity.
    - rewrite SM. exact E.
    - eapply chain_frame; [exact C|]. intros x _. apply SM.
    - exact ND.
    - intros a [].
    - intros a _ _. apply SM.
    - exact NO. }
  inversion ND as [|? ? NI NDd]; subst.
  assert (NF : ~ In new F) by (intros J; rewrite (proj1 M) in E by exact J; discriminate).
  assert (DF : forall a, In a Fd -> In a F -> False) by (intros a J K; exact (chain_full _ _ _ _ _ _ _ C J (proj1 M a K))).
  assert (JP : In p F) by (eapply owns_self; exact O).
  assert (CF : ~ In c F) by (intros J; pose proof (proj1 M c J) as X; rewrite A in X by congruence; congruence).
  assert (CD : ~ In c Fd) by (intros J; rewrite HF in Ec by exact J; discriminate).
  assert (CN : c <> new) by (intros ->; congruence).
  assert (C1 : chain (ms_h s1) 0 (i_ch itn) d Fd next).
  { eapply chain_frame; [exact C|]. intros x J. apply (proj2 M). intros K. exact (DF x J K). }
  assert (E1 : ms_h s1 new = BI itn) by (rewrite (proj2 M); assumption).
  assert (Ec1 : ms_h s1 c = BI it) by (rewrite (proj2 M) by exact CF; rewrite A; congruence).
  assert (NDD : NoDup (Fd ++ F)) by (apply NoDup_join; assumption).
  (* the state when the new child is in the list *)
  assert (exists h2 c2, (if negb (next =? 0) then let* h := w_nx (ms_h s1) next p in w_pv h p next else w_ch (ms_h s1) new p) = Ok h2 /\
     h2 new = BI (with_ch itn c2) /\ chain h2 0 c2 (d ++ [v]) (Fd ++ F) p /\ h2 c = BI it /\
     (forall a, a <> new -> ~ In a (Fd ++ F) -> h2 a = ms_h s1 a)) as (h2 & c2 & W & E2 & C2 & Ec2 & FR2).
  { destruct (chain_last _ _ _ _ _ _ C1) as [(-> & HC & -> & ->)|(NL & HC & ZZ & JZ & JC & iz & Ez & NXz)].
    - exists (set (ms_h s1) new (BI (with_ch itn p))), p. split; [|split; [|split; [|split]]].
      + cbn [Z.eqb negb]. unfold w_ch. rewrite (rd_item_ok _ _ _ NZ E1). reflexivity.
      + apply set_eq.
      + cbn [app]. replace F with (F ++ []) by apply app_nil_r. apply (c_cons _ 0 p ip v [] F [] p).
        * rewrite set_ne; [exact Ep|]. intros ->. exact (NF JP).
        * exact PVp.
        * eapply owns_frame; [exact O|]. intros x J. apply set_ne. intros ->. exact (NF J).
        * rewrite NXp. constructor.
      + rewrite set_ne; assumption.
      + intros a NA _. apply set_ne. exact NA.
    - assert (ZP : next <> p) by (intros ->; exact (DF p JZ JP)).
      assert (NN : new <> next) by (intros ->; exact (NI JZ)).
      assert (NP : new <> p) by (intros ->; exact (NF JP)).
      set (jz := It (i_val iz) (i_ref iz) (i_const iz) (i_vs iz) (i_name iz) p (i_pv iz) (i_ch iz)).
      set (jp := It (i_val ip) (i_ref ip) (i_const ip) (i_vs ip) (i_name ip) (i_nx ip) next (i_ch ip)).
      set (h1 := set (ms_h s1) next (BI jz)). exists (set h1 p (BI jp)), (i_ch itn).
      assert (FR : forall a, a <> next -> a <> p -> set h1 p (BI jp) a = ms_h s1 a) by (intros a B1 B2; rewrite set_ne by exact B2; apply set_ne; exact B1).
      split; [|split; [|split; [|split]]].
      + rewrite eqb0 by exact ZZ. cbn [negb]. unfold w_nx. rewrite (rd_item_ok _ _ _ ZZ Ez). cbn [bind]. fold jz. fold h1. unfold w_pv.
        rewrite (rd_item_ok h1 p ip PZ) by (unfold h1; rewrite set_ne by congruence; exact Ep). reflexivity.
      + rewrite FR, with_ch_self by assumption. exact E1.
      + apply (chain_snoc (ms_h s1) _ 0 (i_ch itn) d Fd next p v F iz jz ip jp C1 NL O NDD Ez); try reflexivity; try assumption.
        * rewrite set_ne by exact ZP. apply set_eq.
        * repeat split.
        * apply set_eq.
        * repeat split.
        * intros x _ B1 B2. apply FR; assumption.
      + rewrite FR; [exact Ec1| |]; intros ->; [exact (CD JZ)|exact (CF JP)].
      + intros a _ NA. apply FR; intros ->; apply NA; apply in_or_app; auto. }
  set (s2 := hs s1 h2).
  assert (FRs : forall a, a <> new -> ~ In a (Fd ++ F) -> ms_h s2 a = ms_h s a).
  { intros a B1 B2. cbn. rewrite FR2 by assumption. apply (proj2 M). intros K. apply B2. apply in_or_app. auto. }
  assert (HF2 : forall a, In a (Fd ++ F) -> h0 a = Free).
  { intros a J. apply in_app_or in J. destruct J as [J|J]; [auto|]. destruct (h0 a) eqn:X; [reflexivity| |]; pose proof (proj1 M a J) as Y; rewrite A in Y by congruence; congruence. }
  assert (A2 : agree h0 s2).
  { intros a Na. rewrite FRs; [apply A; exact Na| |]; [intros ->; congruence|]. intros J. exact (Na (HF2 a J)). }
  assert (ND2 : NoDup (new :: Fd ++ F)).
  { constructor; [|exact NDD]. intros J. apply in_app_or in J. tauto. }
  destruct (IH2 s2 new p (d ++ [v]) (Fd ++ F) (with_ch itn c2) A2 NZ HN HF2 E2 C2 ND2)
    as (N2 & ok & next' & s' & X & Fx & c' & D2 & E3 & C3 & ND3 & FX & FR3 & R).
  exists (S (N1 + N2)), ok, next', s', (v :: X), (F ++ Fx), c'. rewrite <- !app_assoc in *. cbn [app] in C3.
  split; [|split; [exact E3|split; [exact C3|split; [exact ND3|split; [|split]]]]].
  - intros [|fuel] L; [lia|]. cbn [dup_kids]. rewrite eqb0 by exact CZ. rewrite D by lia. cbn [bind fst snd]. rewrite eqb0 by exact PZ.
    rewrite W. cbn [bind]. rewrite (rd_item_ok h2 c it CZ Ec2). cbn [bind]. apply D2. lia.
  - intros a J. apply in_app_or in J. destruct J as [J|J]; [exact (proj1 M a J)|].
    specialize (FX a J). inversion ND3 as [|? ? NI3 ND4]; subst. rewrite FRs in FX; [exact FX| |].
    + intros ->. apply NI3. apply in_or_app. right. apply in_or_app. auto.
    + intros K. rewrite app_assoc in ND4. exact (NoDup_app_no _ _ a ND4 K J).
  - intros a B1 B2. rewrite FR3; [|exact B1|exact B2]. apply FRs; [exact B1|]. intros K. apply B2. rewrite !in_app_iff in *. tauto.
  - destruct ok; [|exact R]. destruct R as (-> & R). split; [reflexivity|]. rewrite R. exact NO.
Qed.

Lemma dup_item h0 x it vs nm kids G1 G2 : x <> 0 -> h0 x = BI it -> text h0 (i_vs it) vs G1 ->
  named h0 (i_const it) (i_name it) nm G2 -> kids_done h0 (i_ch it) kids -> dup_done h0 x (JV (i_val it) vs nm kids).
Proof.
  intros NZ E T NM K s A.
  destruct (dup_head h0 s x it vs nm G1 G2 NZ E T NM A) as [(N & s' & D & NO & SM)|(new & s1 & itn & F1 & F2 & D & PZ & E1 & V1 & R1 & NX1 & PV1 & CH1 & T1 & N1 & ND & M & NO)].
  { exists N, 0, s'. split; [intros fuel L; apply D; exact L|left; auto]. }
  assert (HN : forall a, In a (new :: F1 ++ F2) -> h0 a = Free).
  { intros a J. destruct (h0 a) eqn:X; [reflexivity| |]; pose proof (proj1 M a J) as Y; rewrite A in Y by congruence; congruence. }
  assert (A1 : agree h0 s1).
  { intros a Na. rewrite (proj2 M); [apply A; exact Na|]. intros J. exact (Na (HN a J)). }
  assert (C1 : chain (ms_h s1) 0 (i_ch itn) [] [] 0) by (rewrite CH1; constructor).
  inversion ND as [|? ? NI NDd]; subst.
  destruct (K s1 new 0 [] [] itn A1 PZ (HN new (or_introl eq_refl)) (fun a J => match J with end) E1 C1)
    as (Nk & ok & z & s2 & X & Fx & c' & Dk & E2 & C2 & ND2 & FX & FR & R); [repeat constructor; intros []|].
  cbn [app] in *. inversion ND2 as [|? ? NI2 NDx]; subst.
  (* blocks of the strings are not touched *)
  assert (FF : forall a, In a (F1 ++ F2) -> h0 a = Free /\ ms_h s2 a = ms_h s1 a /\ ~ In a Fx /\ a <> new).
  { intros a J. assert (a <> new) by (intros ->; exact (NI J)).
    assert (~ In a Fx).
    { intros Kx. specialize (FX a Kx). apply in_app_or in J. destruct J as [J|J]; [exact (text_full _ _ _ _ T1 a J FX)|exact (named_full _ _ _ _ _ N1 a J FX)]. }
    split; [apply HN; right; exact J|]. split; [apply FR; assumption|]. auto. }
  assert (T2 : text (ms_h s2) (i_vs itn) vs F1).
  { eapply text_frame; [exact T1|]. intros a J. apply (FF a). apply in_or_app. auto. }
  assert (N2 : named (ms_h s2) (i_const itn) (i_name itn) nm F2).
  { eapply named_frame; [exact N1|]. intros a J. apply (FF a). apply in_or_app. auto. }
  assert (NDa : NoDup (new :: F1 ++ F2 ++ Fx)).
  { rewrite app_assoc. constructor.
    - intros J. apply in_app_or in J. tauto.
    - apply NoDup_join; [exact NDd|exact NDx|]. intros a J Kx. destruct (FF a J) as (_ & _ & Y & _). exact (Y Kx). }
  assert (Ma : more (ms_h s) (new :: F1 ++ F2 ++ Fx) (ms_h s2)).
  { rewrite app_assoc. split.
    - intros a [<-|J]; [apply (proj1 M); left; reflexivity|]. apply in_app_or in J. destruct J as [J|J]; [apply (proj1 M); right; exact J|].
      rewrite <- (proj2 M); [apply FX; exact J|]. intros [<-|Kx]; [exact (NI2 J)|]. destruct (FF a Kx) as (_ & _ & Y & _). exact (Y J).
    - intros a J. rewrite FR; [apply (proj2 M); intros [<-|Kx]; apply J; [left; reflexivity|right; apply in_or_app; auto]| |].
      + intros ->. apply J. left. reflexivity.
      + intros Kx. apply J. right. apply in_or_app. auto. }
  destruct ok.
  - destruct R as (-> & R).
    destruct (chain_last _ _ _ _ _ _ C2) as [(-> & -> & -> & ->)|(NL & HC & ZZ & JZ & JC & _)].
    + exists (S Nk), new, s2. split.
      * intros [|fuel] L; [lia|]. rewrite D. cbn [negb]. rewrite Dk by lia. cbn [bind fst snd negb]. rewrite (rd_item_ok _ _ _ PZ E2). reflexivity.
      * right. split; [exact PZ|]. split; [congruence|]. exists (new :: F1 ++ F2 ++ []). split; [|exact Ma]. split; [|split; [exact NDa|]].
        -- rewrite <- V1. change (i_val itn) with (i_val (with_ch itn 0)). eapply (o_item _ new (with_ch itn 0)); try eassumption. left. reflexivity.
        -- exists (with_ch itn 0). auto.
    + (* line 2775 *)
      assert (exists ic, ms_h s2 c' = BI ic) as (ic & Ec) by (inversion C2; subst; [congruence|eauto]).
      set (jc := It (i_val ic) (i_ref ic) (i_const ic) (i_vs ic) (i_name ic) (i_nx ic) z (i_ch ic)).
      assert (NC : new <> c') by (intros ->; exact (NI2 JC)).
      exists (S Nk), new, (hs s2 (set (ms_h s2) c' (BI jc))). split.
      * intros [|fuel] L; [lia|]. rewrite D. cbn [negb]. rewrite Dk by lia. cbn [bind fst snd negb]. rewrite (rd_item_ok _ _ _ PZ E2). cbn [bind with_ch i_ch].
        rewrite eqb0 by exact HC. unfold w_pv. rewrite (rd_item_ok _ _ _ HC Ec). reflexivity.
      * right. split; [exact PZ|]. split; [cbn; congruence|]. exists (new :: F1 ++ F2 ++ Fx).
        assert (FC : forall a, a <> c' -> ms_h (hs s2 (set (ms_h s2) c' (BI jc))) a = ms_h s2 a) by (intros a B; cbn; apply set_ne; exact B).
        assert (CF : ~ In c' (F1 ++ F2)) by (intros J; destruct (FF c' J) as (_ & _ & Y & _); exact (Y JC)).
        split; [split; [|split; [exact NDa|]]|].
        -- rewrite <- V1. change (i_val itn) with (i_val (with_ch itn c')). apply (o_item _ new (with_ch itn c') vs nm kids F1 F2 Fx z z); try assumption.
           ++ rewrite FC by exact NC. exact E2.
           ++ eapply text_frame; [exact T2|]. intros a J. apply FC. intros ->. apply CF. apply in_or_app. auto.
           ++ eapply named_frame; [exact N2|]. intros a J. apply FC. intros ->. apply CF. apply in_or_app. auto.
           ++ apply (chain_first (ms_h s2) _ 0 z c' kids Fx z ic jc C2 NL NDx Ec); try reflexivity; [cbn; apply set_eq|repeat split|]. intros a _ B. apply FC. exact B.
           ++ right. reflexivity.
        -- exists (with_ch itn c'). rewrite FC by exact NC. auto.
        -- destruct Ma as (Ma1 & Ma2). split; [exact Ma1|]. intros a J. rewrite FC; [apply Ma2; exact J|]. intros ->. apply J. right. apply in_or_app. right. apply in_or_app. auto.
  - destruct (dup_fail_ok s2 new (with_ch itn c') vs nm F1 F2 Fx 0 z X PZ E2 R1 NX1 T2 N2 C2 NDa) as (N & h' & Df & G).
    exists (S (Nk + N)), 0, (hs s2 h'). split.
    + intros [|fuel] L; [lia|]. rewrite D. cbn [negb]. rewrite Dk by lia. cbn [bind fst snd negb]. apply Df. lia.
    + left. split; [reflexivity|]. split; [exact R|]. cbn. eapply more_gone; [exact Ma|exact G].
Qed.

Lemma dup_ok h0 : (forall x v, reads h0 x v -> dup_done h0 x v) /\ (forall c l, readl h0 c l -> kids_done h0 c l).
Proof.
  enough ((forall x v, reads h0 x v -> x <> 0 /\ dup_done h0 x v) /\ (forall c l, readl h0 c l -> kids_done h0 c l)) as (A & B).
  { split; [|exact B]. intros x v H. apply A. exact H. }
  apply reads_readl.
  - intros x it vs nm kids F1 F2 NZ E T N R IH. split; [exact NZ|]. eapply dup_item; eassumption.
  - apply kids_nil.
  - intros c it v l E R (NZ & IH1) RL IH2. eapply kids_cons; eassumption.
Qed.
Lemma dup_alone h0 x v s : reads h0 x v -> agree h0 s ->
  exists N p s', (forall fuel, (N <= fuel)%nat -> dup fuel s x false = Ok (p, s')) /\ outcome s (copy false v) p s'.
Proof.
  intros R A. destruct R as [x it vs nm kids G1 G2 NZ E T NM RL].
  destruct (dup_head h0 s x it vs nm G1 G2 NZ E T NM A) as [(N & s' & D & NO & SM)|(new & s1 & itn & F1 & F2 & D & PZ & E1 & V1 & R1 & NX1 & PV1 & CH1 & T1 & N1 & ND & M & NO)].
  { exists N, 0, s'. split; [intros fuel L; apply D; exact L|left; auto]. }
  exists 1%nat, new, s1. split; [intros [|fuel] L; [lia|]; rewrite D; reflexivity|]. right. split; [exact PZ|]. split; [exact NO|].
  exists (new :: F1 ++ F2). split; [|exact M]. split; [|split; [exact ND|exists itn; auto]]. cbn [copy]. rewrite <- V1.
  replace (F1 ++ F2) with (F1 ++ F2 ++ []) by (rewrite app_nil_r; reflexivity).
  apply (o_item _ new itn vs nm [] F1 F2 [] 0 0); auto. rewrite CH1. constructor.
Qed.

(** what is owned can be read *)
Lemma owns_reads h : (forall p v F, owns h p v F -> reads h p v) /\ (forall q c l F z, chain h q c l F z -> readl h c l).
Proof.
  apply owns_chain.
  - intros p it vs nm kids F1 F2 F3 q z NZ E R T N C IH Q. eapply r_item; eassumption.
  - intros q. constructor.
  - intros q c it v l F F' z E P O IH1 C IH2. eapply r_cons; eassumption.
Qed.
