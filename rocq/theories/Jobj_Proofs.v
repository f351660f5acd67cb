From Verif Require Import Base Jdup_Model Jdup_Spec Jdup_Proofs Jobj_Model Jobj_Spec.
Open Scope Z_scope.

Lemma owns_inv h p n vs nm kids F : owns h p (JV n vs nm kids) F -> exists it F1 F2 F3 q z,
  p <> 0 /\ h p = BI it /\ i_val it = n /\ i_ref it = false /\ text h (i_vs it) vs F1 /\ named h (i_const it) (i_name it) nm F2 /\
  chain h q (i_ch it) kids F3 z /\ (kids = [] \/ q = z) /\ F = p :: F1 ++ F2 ++ F3.
Proof. intros O. inversion O; subst. do 6 eexists. repeat (split; [eassumption||reflexivity|]). reflexivity. Qed.

Ltac sets := repeat (first [rewrite set_eq | rewrite set_ne by congruence]).

(** one more child *)
Lemma array_ok (h : mem) o n vs nm kids F p w G ip : owns h o (JV n vs nm kids) F -> owns h p w G -> NoDup (F ++ G) ->
  h p = BI ip -> i_nx ip = 0 -> exists h', add_to_array h o p = Ok (true, h') /\
  owns h' o (JV n vs nm (kids ++ [w])) (F ++ G) /\ (forall a, ~ In a (F ++ G) -> h' a = h a) /\
  (forall it it', h o = BI it -> h' o = BI it' -> i_nx it' = i_nx it /\ i_pv it' = i_pv it).
Proof.
  intros O P ND Ep NX. apply owns_inv in O as (it & F1 & F2 & F3 & q & z & OZ & E & V & R & T & N & C & D & ->).
  assert (PZ : p <> 0) by (eapply owns_nz; exact P).
  assert (JP : In p G) by (eapply owns_self; exact P).
  assert (PF : forall x, In x (o :: F1 ++ F2 ++ F3) -> x <> p) by (intros x J ->; exact (NoDup_app_no _ _ p ND J JP)).
  assert (OP : o <> p) by (apply PF; left; reflexivity).
  assert (OG : forall x, In x G -> x <> o) by (intros x J ->; exact (NoDup_app_no _ _ o ND (or_introl eq_refl) J)).
  assert (NDG : NoDup G) by (eapply NoDup_app_r; exact ND).
  assert (NO : ~ In o (F1 ++ F2 ++ F3)) by (apply NoDup_app_l in ND; inversion ND; assumption).
  assert (ND3 : NoDup (F3 ++ G)) by (cbn [app] in ND; inversion ND as [|? ? _ X]; subst; rewrite <- !app_assoc in X; apply NoDup_app_r in X; apply NoDup_app_r in X; exact X).
  unfold add_to_array. rewrite !eqb0 by assumption. destruct (Z.eqb_spec o p) as [|_]; [congruence|]. cbn [orb].
  rewrite (rd_item_ok _ _ _ OZ E). cbn [bind].
  assert (AA : forall X, o :: F1 ++ F2 ++ F3 ++ X = (o :: F1 ++ F2 ++ F3) ++ X) by (intros X; cbn [app]; rewrite <- !app_assoc; reflexivity).
  destruct (chain_last _ _ _ _ _ _ C) as [(-> & C0 & -> & ->)|(NE & CZ & ZZ & JZ & JC & iz & Ez & NXz)].
  - rewrite C0. change (0 =? 0) with true. cbv iota.
    unfold w_ch, w_pv, w_nx. rewrite (rd_item_ok _ _ _ OZ E). cbn [bind].
    rewrite (rd_item_ok _ p ip PZ) by (rewrite set_ne by congruence; exact Ep). cbn [bind].
    erewrite rd_item_ok; [|exact PZ|apply set_eq]. cbn [bind i_val i_ref i_const i_vs i_name i_nx i_pv i_ch].
    eexists. split; [reflexivity|].
    match goal with |- owns ?h' _ _ _ /\ _ => set (h2 := h') end.
    assert (Eo : h2 o = BI (It (i_val it) (i_ref it) (i_const it) (i_vs it) (i_name it) (i_nx it) (i_pv it) p)) by (unfold h2; sets; reflexivity).
    assert (Ep2 : h2 p = BI (It (i_val ip) (i_ref ip) (i_const ip) (i_vs ip) (i_name ip) 0 p (i_ch ip))) by (unfold h2; sets; reflexivity).
    assert (Ex : forall x, x <> o -> x <> p -> h2 x = h x) by (intros x X1 X2; unfold h2; sets; reflexivity).
    split; [|split].
    + rewrite <- AA. cbn [app]. subst n.
      apply (o_item h2 o (It (i_val it) (i_ref it) (i_const it) (i_vs it) (i_name it) (i_nx it) (i_pv it) p) vs nm [w] F1 F2 G p p); auto; cbn [i_ref i_vs i_const i_name i_ch].
      * eapply text_frame; [exact T|]. intros x J. apply Ex; [intros ->; apply NO; apply in_or_app; auto|apply PF; right; apply in_or_app; auto].
      * eapply named_frame; [exact N|]. intros x J. apply Ex; [intros ->; apply NO; apply in_or_app; right; apply in_or_app; auto|apply PF; right; apply in_or_app; right; apply in_or_app; auto].
      * rewrite <- (app_nil_r G). eapply c_cons; [exact Ep2|reflexivity| |constructor].
        eapply owns_links; [exact P|exact NDG|exact Ep|exact Ep2|repeat split|]. intros x J X. apply Ex; [apply OG; exact J|exact X].
    + intros a J. apply Ex; intros ->; apply J; apply in_or_app; [left; left; reflexivity|right; exact JP].
    + intros j j' E1 E2. rewrite E in E1. rewrite Eo in E2. injection E1 as <-. injection E2 as <-. split; reflexivity.
  - rewrite eqb0 by exact CZ. assert (NE' := NE). destruct D as [->|D]; [congruence|]. subst q.
    assert (ZO : z <> o) by (intros ->; apply NO; apply in_or_app; right; apply in_or_app; auto).
    assert (CO : i_ch it <> o) by (intros X; rewrite X in JC; apply NO; apply in_or_app; right; apply in_or_app; auto).
    assert (Z3 : z <> p) by (apply PF; right; apply in_or_app; right; apply in_or_app; auto).
    assert (C3 : i_ch it <> p) by (apply PF; right; apply in_or_app; right; apply in_or_app; auto).
    assert (X : exists ic, h (i_ch it) = BI ic /\ i_pv ic = z).
    { inversion C as [|q' c' ic w' l' Fa Fb z' Ec Pc Oc Cc]; subst; [congruence|]. exists ic. split; [exact Ec|]. congruence. }
    destruct X as (ic & Ec & Pc).
    rewrite (rd_item_ok _ _ _ CZ Ec). cbn [bind]. rewrite Pc, (eqb0 z) by exact ZZ.
    unfold w_nx at 1. rewrite (rd_item_ok _ _ _ ZZ Ez). cbn [bind].
    set (jz := It (i_val iz) (i_ref iz) (i_const iz) (i_vs iz) (i_name iz) p (i_pv iz) (i_ch iz)).
    unfold w_pv at 1. rewrite (rd_item_ok _ p ip PZ) by (rewrite set_ne by congruence; exact Ep). cbn [bind].
    set (jp := It (i_val ip) (i_ref ip) (i_const ip) (i_vs ip) (i_name ip) (i_nx ip) z (i_ch ip)).
    set (h2 := set (set h z (BI jz)) p (BI jp)).
    assert (E2o : h2 o = BI it) by (unfold h2; sets; exact E).
    rewrite (rd_item_ok _ _ _ OZ E2o). cbn [bind].
    assert (X2 : exists jc, h2 (i_ch it) = BI jc /\ (forall F z', chain h2 z (i_ch it) F z' (i_ch it) -> True)).
    { unfold h2. destruct (Z.eq_dec (i_ch it) z) as [->|CN]; [exists jz; sets; auto|exists ic; sets; auto]. }
    destruct X2 as (jc & E2c & _).
    unfold w_pv. rewrite (rd_item_ok _ _ _ CZ E2c). cbn [bind]. eexists. split; [reflexivity|].
    set (kc := It (i_val jc) (i_ref jc) (i_const jc) (i_vs jc) (i_name jc) (i_nx jc) p (i_ch jc)).
    set (h3 := set h2 (i_ch it) (BI kc)).
    assert (E2 : forall x, x <> z -> x <> p -> h2 x = h x) by (intros x Y1 Y2; unfold h2; sets; reflexivity).
    assert (E3 : forall x, x <> i_ch it -> h3 x = h2 x) by (intros x Y1; unfold h3; sets; reflexivity).
    assert (C2 : chain h2 z (i_ch it) (kids ++ [w]) (F3 ++ G) p).
    { apply (chain_snoc h h2 z (i_ch it) kids F3 z p w G iz jz ip jp C NE P ND3 Ez); auto.
      - unfold h2. sets. reflexivity.
      - repeat split.
      - unfold h2. sets. reflexivity.
      - repeat split. }
    assert (C4 : chain h3 p (i_ch it) (kids ++ [w]) (F3 ++ G) p).
    { apply (chain_first h2 h3 z p (i_ch it) (kids ++ [w]) (F3 ++ G) p jc kc C2); auto.
      - destruct kids; discriminate.
      - unfold h3. sets. reflexivity.
      - repeat split. }
    assert (E3o : h3 o = BI it) by (rewrite E3 by congruence; exact E2o).
    assert (FR : forall x, In x (F1 ++ F2) -> h3 x = h x).
    { assert (NDF : NoDup ((F1 ++ F2) ++ F3)) by (apply NoDup_app_l in ND; inversion ND; rewrite <- app_assoc; assumption).
      intros x J. rewrite E3, E2; [reflexivity| | |].
      - intros ->. exact (NoDup_app_no _ _ _ NDF J JZ).
      - apply PF. right. rewrite app_assoc. apply in_or_app. auto.
      - intros ->. exact (NoDup_app_no _ _ _ NDF J JC). }
    split; [|split].
    + rewrite <- AA. subst n.
      apply (o_item h3 o it vs nm (kids ++ [w]) F1 F2 (F3 ++ G) p p); auto.
      * eapply text_frame; [exact T|]. intros x J. apply FR. apply in_or_app. auto.
      * eapply named_frame; [exact N|]. intros x J. apply FR. apply in_or_app. auto.
    + intros a J. rewrite E3, E2; [reflexivity| | |]; intros ->; apply J; apply in_or_app; auto; left; right; apply in_or_app; right; apply in_or_app; auto.
    + intros j j' Y1 Y2. rewrite E in Y1. rewrite E3o in Y2. injection Y1 as <-. injection Y2 as <-. split; reflexivity.
Qed.

(** the name of an item, exchanged *)
Lemma rename_ok (h : mem) p w G ip (h1 : mem) key cst lb K : owns h p w G -> NoDup G -> h p = BI ip ->
  (forall a, h a <> Free -> h1 a = h a) -> named h1 cst key lb K -> (forall a, In a K -> h a = Free) -> NoDup K ->
  exists h', (let* x := free_name h1 p in let* x := w_name x p key in w_const x p cst) = Ok h' /\
    exists G' ip', owns h' p (relabel w lb) G' /\ NoDup G' /\ h' p = BI ip' /\ i_nx ip' = i_nx ip /\ i_pv ip' = i_pv ip /\
    (forall a, In a G' -> In a G \/ In a K) /\ (forall a, In a K -> In a G') /\
    (forall a, ~ In a G' -> In a G -> h' a = Free) /\ (forall a, ~ In a G' -> ~ In a G -> h' a = h1 a).
Proof.
  intros P ND Ep A KN KF NDK. destruct w as [n vs nm kids]. pose proof P as P0.
  apply owns_inv in P as (it & F1 & F2 & F3 & q & z & PZ & E & V & R & T & N & C & D & ->).
  rewrite E in Ep. injection Ep as <-.
  assert (FULL : forall a, In a (p :: F1 ++ F2 ++ F3) -> h a <> Free) by (intros a J; eapply owns_full; [exact P0|exact J]).
  assert (OLD : forall a, In a (p :: F1 ++ F2 ++ F3) -> h1 a = h a) by (intros a J; apply A; apply FULL; exact J).
  assert (E1 : h1 p = BI it) by (rewrite OLD by (left; reflexivity); exact E).
  assert (KD : forall a, In a K -> ~ In a (p :: F1 ++ F2 ++ F3)) by (intros a J J2; exact (FULL a J2 (KF a J))).
  inversion ND as [|? ? NI NDF]; subst.
  assert (N1 : named h1 (i_const it) (i_name it) nm F2).
  { eapply named_frame; [exact N|]. intros x J. apply OLD. right. apply in_or_app. right. apply in_or_app. auto. }
  destruct (named_free h1 _ _ _ _ N1) as (h2 & D2 & G2 & G2').
  unfold free_name. rewrite (rd_item_ok _ _ _ PZ E1). cbn [bind]. rewrite D2. cbn [bind].
  assert (P2 : ~ In p F2) by (intros J; apply NI; apply in_or_app; right; apply in_or_app; auto).
  assert (E2 : h2 p = BI it) by (rewrite G2' by exact P2; exact E1).
  unfold w_name. rewrite (rd_item_ok _ _ _ PZ E2). cbn [bind]. unfold w_const. erewrite rd_item_ok; [|exact PZ|apply set_eq].
  cbn [bind i_val i_ref i_const i_vs i_name i_nx i_pv i_ch].
  eexists. split; [reflexivity|].
  match goal with |- exists _ _, owns ?h' _ _ _ /\ _ => set (h3 := h') end.
  assert (E3 : h3 p = BI (It (i_val it) (i_ref it) cst (i_vs it) key (i_nx it) (i_pv it) (i_ch it))) by (unfold h3; apply set_eq).
  assert (X3 : forall a, a <> p -> h3 a = h2 a) by (intros a X; unfold h3; sets; reflexivity).
  assert (D12 : forall a, In a F1 -> ~ In a F2).
  { intros a J1 J2. apply (NoDup_app_no _ _ a NDF J1). apply in_or_app. auto. }
  assert (D23 : forall a, In a F3 -> ~ In a F2).
  { intros a J1 J2. apply NoDup_app_r in NDF. exact (NoDup_app_no _ _ a NDF J2 J1). }
  exists (p :: F1 ++ K ++ F3), (It (i_val it) (i_ref it) cst (i_vs it) key (i_nx it) (i_pv it) (i_ch it)).
  split; [|split; [|split; [exact E3|split; [reflexivity|split; [reflexivity|split; [|split; [|split]]]]]]].
  - cbn [relabel].
    apply (o_item h3 p (It (i_val it) (i_ref it) cst (i_vs it) key (i_nx it) (i_pv it) (i_ch it)) vs lb kids F1 K F3 q z); auto; cbn [i_vs i_const i_name i_ch].
    + eapply text_frame; [exact T|]. intros x J. rewrite X3, G2', OLD; auto; [right; apply in_or_app; auto|].
      intros ->. apply NI. apply in_or_app. auto.
    + eapply named_frame; [exact KN|]. intros x J. rewrite X3, G2'; [reflexivity| |].
      * intros J2. apply (KD x J). right. apply in_or_app. right. apply in_or_app. auto.
      * intros ->. apply (KD p J). left. reflexivity.
    + eapply chain_frame; [exact C|]. intros x J. rewrite X3, G2', OLD; auto; [right; apply in_or_app; right; apply in_or_app; auto|].
      intros ->. apply NI. apply in_or_app. right. apply in_or_app. auto.
  - constructor.
    + intros J. apply in_app_or in J as [J|J]; [apply NI; apply in_or_app; auto|].
      apply in_app_or in J as [J|J]; [apply (KD p J); left; reflexivity|apply NI; apply in_or_app; right; apply in_or_app; auto].
    + apply NoDup_join; [eapply NoDup_app_l; exact NDF| |].
      * apply NoDup_join; [exact NDK|apply NoDup_app_r in NDF; apply NoDup_app_r in NDF; exact NDF|].
        intros x J1 J2. apply (KD x J1). right. apply in_or_app. right. apply in_or_app. auto.
      * intros x J1 J2. apply in_app_or in J2 as [J2|J2].
        -- apply (KD x J2). right. apply in_or_app. auto.
        -- apply (NoDup_app_no _ _ x NDF J1). apply in_or_app. auto.
  - intros a [<-|J]; [left; left; reflexivity|]. apply in_app_or in J as [J|J]; [left; right; apply in_or_app; auto|].
    apply in_app_or in J as [J|J]; [right; exact J|left; right; apply in_or_app; right; apply in_or_app; auto].
  - intros a J. right. apply in_or_app. right. apply in_or_app. auto.
  - intros a J [<-|J2]; [destruct J; left; reflexivity|]. rewrite X3 by (intros ->; apply J; left; reflexivity).
    apply in_app_or in J2 as [J2|J2]; [destruct J; right; apply in_or_app; auto|].
    apply in_app_or in J2 as [J2|J2]; [apply G2; exact J2|destruct J; right; apply in_or_app; right; apply in_or_app; auto].
  - intros a J J2. rewrite X3, G2'; [reflexivity| |intros ->; apply J; left; reflexivity].
    intros J3. apply J2. right. apply in_or_app. right. apply in_or_app. auto.
Qed.

Lemma add_with (s : st) o n vs nm kids F p w G (h1 : mem) key cst lb K : owns (ms_h s) o (JV n vs nm kids) F -> tree (ms_h s) p w G ->
  NoDup (F ++ G) -> (forall a, ms_h s a <> Free -> h1 a = ms_h s a) -> named h1 cst key lb K -> (forall a, In a K -> ms_h s a = Free) ->
  NoDup K -> (forall a, ~ In a K -> h1 a = ms_h s a) ->
  exists h', (let* h := free_name h1 p in let* h := w_name h p key in let* h := w_const h p cst in
              add_to_array h o p) = Ok (true, h') /\
  given (ms_h s) o (JV n vs nm (kids ++ [relabel w lb])) (F ++ G) h'.
Proof.
  intros O (P & NDG & ip & Ep & NXp & PVp) ND A KN KF NDK A'.
  destruct (rename_ok _ p w G ip h1 key cst lb K P NDG Ep A KN KF NDK) as (h2 & D & G' & ip' & P' & ND' & Ep' & NX' & _ & G1 & G2 & G3 & G4).
  assert (FG : forall a, In a F -> ~ In a G') .
  { intros a J1 J2. destruct (G1 a J2) as [J|J]; [exact (NoDup_app_no _ _ a ND J1 J)|]. exact (owns_full _ _ _ _ _ O J1 (KF a J)). }
  assert (O2 : owns h2 o (JV n vs nm kids) F).
  { eapply owns_frame; [exact O|]. intros a J. rewrite G4; [apply A; eapply owns_full; [exact O|exact J]|apply FG; exact J|].
    intros J2. exact (NoDup_app_no _ _ a ND J J2). }
  assert (ND2 : NoDup (F ++ G')).
  { apply NoDup_join; [eapply NoDup_app_l; exact ND|exact ND'|]. intros a J1 J2. exact (FG a J1 J2). }
  destruct (array_ok h2 o n vs nm kids F p (relabel w lb) G' ip' O2 P' ND2 Ep') as (h3 & D3 & O3 & X3 & L3); [congruence|].
  assert (DD : (let* h := free_name h1 p in let* h := w_name h p key in let* h := w_const h p cst in add_to_array h o p) = Ok (true, h3)).
  { destruct (free_name h1 p) as [x| |]; cbn [bind] in *; try discriminate. destruct (w_name x p key) as [y| |]; cbn [bind] in *; try discriminate.
    rewrite D. cbn [bind]. exact D3. }
  exists h3. split; [exact DD|]. exists (F ++ G'). split; [exact O3|]. split; [exact ND2|]. split; [|split; [|split]].
  - intros a J. apply in_app_or in J as [J|J]; [left; apply in_or_app; auto|]. destruct (G1 a J) as [J'|J']; [left; apply in_or_app; auto|right; auto].
  - intros a J1 J2. rewrite X3 by exact J1. apply in_app_or in J2 as [J2|J2]; [destruct J1; apply in_or_app; auto|].
    apply G3; [intros J; apply J1; apply in_or_app; auto|exact J2].
  - intros a J1 J2. rewrite X3 by exact J1. rewrite G4; [|intros J; apply J1; apply in_or_app; auto|intros J; apply J2; apply in_or_app; auto].
    apply A'. intros J. apply J1. apply in_or_app. right. apply G2. exact J.
  - intros it it' Y1 Y2. apply owns_inv in O as (j & F1 & F2 & F3 & q & z & OZ & E & _ & _ & _ & _ & _ & _ & EF).
    assert (JO : In o F) by (subst F; left; reflexivity).
    assert (E2 : h2 o = BI it).
    { rewrite G4; [rewrite A; congruence|apply FG; exact JO|]. intros J2. exact (NoDup_app_no _ _ o ND JO J2). }
    exact (L3 it it' E2 Y2).
Qed.

(** ** Parts of lists of children: [e] is what comes after the last *)
Inductive seg (h : mem) : Z -> Z -> list jv -> list Z -> Z -> Z -> Prop :=
| s_nil q c : seg h q c [] [] q c
| s_cons q c it v l F F' z e : h c = BI it -> i_pv it = q -> owns h c v F -> seg h c (i_nx it) l F' z e ->
    seg h q c (v :: l) (F ++ F') z e.
Lemma chain_seg h q c l F z : chain h q c l F z -> seg h q c l F z 0.
Proof. intros C. induction C; [constructor|]. econstructor; eassumption. Qed.
Lemma seg_chain h q c l F z e : seg h q c l F z e -> e = 0 -> chain h q c l F z.
Proof. intros C. induction C as [q c|]; intros ->; [constructor|]. econstructor; eauto. Qed.
Lemma seg_app h q c l1 F1 y x : seg h q c l1 F1 y x -> forall l2 F2 z e, seg h y x l2 F2 z e -> seg h q c (l1 ++ l2) (F1 ++ F2) z e.
Proof.
  intros A. induction A as [q c|q c it v l F F' y x E P O A IH]; intros l2 F2 z e B; [exact B|].
  cbn [app]. rewrite <- app_assoc. econstructor; eauto.
Qed.
Lemma seg_frame h h' q c l F z e : seg h q c l F z e -> (forall x, In x F -> h' x = h x) -> seg h' q c l F z e.
Proof.
  intros A. induction A as [q c|q c it v l F F' y x E P O A IH]; intros H; [constructor|].
  econstructor; [| exact P| |].
  - rewrite H; [exact E|]. apply in_or_app. left. eapply owns_self; exact O.
  - eapply owns_frame; [exact O|]. intros a J. apply H. apply in_or_app. auto.
  - apply IH. intros a J. apply H. apply in_or_app. auto.
Qed.
Lemma seg_ends h q c l F z e : seg h q c l F z e ->
  (l = [] /\ c = e /\ z = q /\ F = []) \/
  (l <> [] /\ c <> 0 /\ z <> 0 /\ In z F /\ In c F /\ (exists it, h z = BI it /\ i_nx it = e) /\ exists it, h c = BI it /\ i_pv it = q).
Proof.
  intros C. induction C as [q c|q c it v l F F' z e E P O C IH]; [left; auto|right].
  split; [discriminate|]. split; [eapply owns_nz; exact O|]. pose proof (owns_self _ _ _ _ O) as JC.
  destruct IH as [(-> & C0 & -> & ->)|(N & C1 & Z1 & J & _ & X & _)].
  - split; [eapply owns_nz; exact O|]. rewrite app_nil_r. repeat split; auto; exists it; auto.
  - split; [exact Z1|]. split; [apply in_or_app; auto|]. split; [apply in_or_app; auto|]. split; [exact X|exists it; auto].
Qed.
Lemma seg_first h h' q q' c l F z e i j : seg h q c l F z e -> l <> [] -> NoDup F -> h c = BI i -> h' c = BI j ->
  same_but_links i j -> i_nx j = i_nx i -> i_pv j = q' -> (forall x, In x F -> x <> c -> h' x = h x) -> seg h' q' c l F z e.
Proof.
  intros C NE ND E E' Sl N P H. destruct C as [|q c it w l F F' z e E0 P0 O C]; [congruence|].
  rewrite E in E0. inversion E0; subst it. assert (JC : In c F) by (eapply owns_self; exact O).
  econstructor; [exact E'|exact P| |].
  - eapply owns_links; [exact O|exact (NoDup_app_l _ _ ND)|exact E|exact E'|exact Sl|]. intros x J X. apply H; [apply in_or_app; auto|exact X].
  - rewrite N. eapply seg_frame; [exact C|]. intros x J. apply H; [apply in_or_app; auto|]. intros ->. exact (NoDup_app_no _ _ c ND JC J).
Qed.
Lemma seg_last h h' q c l F z e e' i j : seg h q c l F z e -> l <> [] -> NoDup F -> h z = BI i -> h' z = BI j ->
  same_but_links i j -> i_pv j = i_pv i -> i_nx j = e' -> (forall x, In x F -> x <> z -> h' x = h x) -> seg h' q c l F z e'.
Proof.
  intros C. induction C as [q c|q c it w l F F' z e E0 P0 O C IH]; intros NE ND E E' Sl P N H; [congruence|].
  assert (JC : In c F) by (eapply owns_self; exact O).
  destruct (seg_ends _ _ _ _ _ _ _ C) as [(-> & C0 & -> & ->)|(NL & _ & _ & JZ & _)].
  - rewrite E in E0. inversion E0; subst it. rewrite app_nil_r in *. replace F with (F ++ []) by apply app_nil_r.
    eapply s_cons; [exact E'|congruence| |rewrite N; constructor].
    eapply owns_links; [exact O|exact ND|exact E|exact E'|exact Sl|]. intros x J X. apply H; [exact J|exact X].
  - assert (CZ : c <> z) by (intros ->; exact (NoDup_app_no _ _ z ND JC JZ)).
    eapply s_cons; [rewrite H; [exact E0|apply in_or_app; auto|exact CZ]|exact P0| |].
    + eapply owns_frame; [exact O|]. intros x J. apply H; [apply in_or_app; auto|]. intros ->. exact (NoDup_app_no _ _ z ND J JZ).
    + apply IH; auto; [exact (NoDup_app_r _ _ ND)|]. intros x J X. apply H; [apply in_or_app; auto|exact X].
Qed.

(** ** The links, before the old member is deleted *)
Definition linked (i : item) (nx pv : Z) : item := It (i_val i) (i_ref i) (i_const i) (i_vs i) (i_name i) nx pv (i_ch i).
Lemma sbl_linked i a b : same_but_links i (linked i a b).
Proof. repeat split. Qed.
Lemma w_nx_ok (h : mem) p i v : p <> 0 -> h p = BI i -> w_nx h p v = Ok (set h p (BI (linked i v (i_pv i)))).
Proof. intros N E. unfold w_nx. rewrite (rd_item_ok _ _ _ N E). reflexivity. Qed.
Lemma w_pv_ok (h : mem) p i v : p <> 0 -> h p = BI i -> w_pv h p v = Ok (set h p (BI (linked i (i_nx i) v))).
Proof. intros N E. unfold w_pv. rewrite (rd_item_ok _ _ _ N E). reflexivity. Qed.
Lemma w_ch_ok (h : mem) p i v : p <> 0 -> h p = BI i -> w_ch h p v = Ok (set h p (BI (with_ch i v))).
Proof. intros N E. unfold w_ch. rewrite (rd_item_ok _ _ _ N E). reflexivity. Qed.

Lemma links_ok (h : mem) o io k1 F1 y x ix k2 F2 z p ip : o <> 0 -> x <> 0 -> p <> 0 -> o <> x -> o <> p -> x <> p ->
  h o = BI io -> h x = BI ix -> h p = BI ip -> seg h z (i_ch io) k1 F1 y x -> i_pv ix = y -> seg h x (i_nx ix) k2 F2 z 0 ->
  NoDup (F1 ++ F2) -> (forall a, In a (F1 ++ F2) -> a <> o /\ a <> x /\ a <> p) ->
  exists hb c' y' z', relink h o x p = Ok hb /\
    hb o = BI (with_ch io c') /\ hb x = BI (linked ix 0 0) /\ hb p = BI (linked ip (i_nx ix) y') /\
    seg hb z' c' k1 F1 y' p /\ seg hb p (i_nx ix) k2 F2 z' 0 /\
    (forall a, a <> o -> a <> x -> a <> p -> ~ In a (F1 ++ F2) -> hb a = h a).
Proof.
  intros OZ XZ PZ OX OP XP Eo Ex Ep S1 PV S2 ND DJ.
  assert (ND1 := NoDup_app_l _ _ ND). assert (ND2 := NoDup_app_r _ _ ND).
  unfold relink.
  (* the two links of the new one *)
  set (h1 := set h p (BI (linked ip (i_nx ix) (i_pv ip)))).
  set (h2 := set h1 p (BI (linked (linked ip (i_nx ix) (i_pv ip)) (i_nx ix) y))).
  assert (E2p : h2 p = BI (linked ip (i_nx ix) y)) by (unfold h2; sets; reflexivity).
  assert (X2 : forall a, a <> p -> h2 a = h a) by (intros a Y; unfold h2, h1; sets; reflexivity).
  assert (PRE : forall B (k : mem -> res B),
    (let* i := rd_item h x in let* h := w_nx h p (i_nx i) in let* i := rd_item h x in let* h := w_pv h p (i_pv i) in k h) = k h2).
  { intros B k. rewrite (rd_item_ok _ _ _ XZ Ex). cbn [bind]. rewrite (w_nx_ok _ _ _ _ PZ Ep). cbn [bind]. fold h1.
    rewrite (rd_item_ok _ x ix XZ) by (unfold h1; sets; exact Ex). cbn [bind].
    rewrite (w_pv_ok h1 p (linked ip (i_nx ix) (i_pv ip)) _ PZ) by (unfold h1; sets; reflexivity). cbn [bind i_nx linked]. rewrite PV. reflexivity. }
  rewrite (PRE mem). clear PRE.
  rewrite (rd_item_ok _ _ _ PZ E2p). cbn [bind i_nx linked].
  assert (E2o : h2 o = BI io) by (rewrite X2 by congruence; exact Eo).
  assert (E2x : h2 x = BI ix) by (rewrite X2 by congruence; exact Ex).
  (* the link back of the next one *)
  assert (STEP : exists h3, (if negb (i_nx ix =? 0) then w_pv h2 (i_nx ix) p else Ok h2) = Ok h3 /\
     h3 o = BI io /\ h3 x = BI ix /\ h3 p = BI (linked ip (i_nx ix) y) /\ seg h3 p (i_nx ix) k2 F2 (if i_nx ix =? 0 then p else z) 0 /\
     (forall a, a <> p -> ~ In a F2 -> h3 a = h a)).
  { destruct (seg_ends _ _ _ _ _ _ _ S2) as [(-> & C0 & -> & ->)|(NE & CZ & _ & _ & JC & _ & (ie & Ee & _))].
    - rewrite C0. exists h2. change (0 =? 0) with true. cbn [negb]. split; [reflexivity|]. rewrite <- C0. split; [exact E2o|]. split; [exact E2x|].
      split; [exact E2p|]. rewrite C0. split; [constructor|]. intros a A1 _. apply X2. exact A1.
    - rewrite eqb0 by exact CZ. cbn [negb]. destruct (DJ (i_nx ix)) as (D1 & D2 & D3); [apply in_or_app; auto|].
      rewrite (w_pv_ok h2 (i_nx ix) ie p CZ) by (rewrite X2 by exact D3; exact Ee). eexists. split; [reflexivity|].
      sets. split; [exact E2o|]. split; [exact E2x|]. split; [exact E2p|]. split.
      + eapply seg_first; [exact S2|exact NE|exact ND2|exact Ee|apply set_eq|apply sbl_linked|reflexivity|reflexivity|].
        intros a J A. rewrite set_ne by exact A. apply X2. apply DJ. apply in_or_app. auto.
      + intros a A1 A2. rewrite set_ne by (intros ->; exact (A2 JC)). apply X2. exact A1. }
  destruct STEP as (h3 & -> & E3o & E3x & E3p & S3 & X3). cbn [bind].
  rewrite (rd_item_ok _ _ _ OZ E3o). cbn [bind].
  assert (FIN : forall (h4 : mem), h4 x = BI ix -> (let* h := w_nx h4 x 0 in w_pv h x 0) =
     Ok (set (set h4 x (BI (linked ix 0 (i_pv ix)))) x (BI (linked ix 0 0)))).
  { intros h4 E4. rewrite (w_nx_ok _ _ _ _ XZ E4). cbn [bind].
    rewrite (w_pv_ok (set h4 x _) x (linked ix 0 (i_pv ix)) 0 XZ) by apply set_eq. reflexivity. }
  destruct (seg_ends _ _ _ _ _ _ _ S1) as [(-> & C0 & YZ & ->)|(NE & CZ & YNZ & JY & JC & (iy & Ey & NXy) & (ic & Ec & PVc))].
  - (* the first member *)
    rewrite C0, Z.eqb_refl. rewrite (rd_item_ok _ _ _ XZ E3x). cbn [bind]. rewrite PV, YZ. cbn [app] in *.
    destruct (seg_ends _ _ _ _ _ _ _ S2) as [(-> & N0 & -> & ->)|(NE & CZ & _ & JZ & JE & _)].
    + rewrite Z.eqb_refl. rewrite (w_pv_ok _ _ _ p PZ E3p). cbn [bind].
      rewrite (w_ch_ok _ o io p OZ) by (sets; exact E3o). cbn [bind].
      match goal with |- context [w_nx ?m x 0] => set (h4 := m) end.
      assert (E4x : h4 x = BI ix) by (unfold h4; sets; exact E3x).
      eexists _, p, p, p. split; [apply FIN; exact E4x|]. sets. unfold h4. sets.
      repeat (split; [reflexivity|]). split; [constructor|]. split; [rewrite N0; constructor|].
      intros a A1 A2 A3 _. sets. apply X3; [exact A3|intros []].
    + destruct (DJ z) as (D1 & D2 & D3); [exact JZ|]. destruct (Z.eqb_spec z x) as [|_]; [congruence|]. cbn [bind].
      rewrite (w_ch_ok _ o io p OZ E3o). cbn [bind].
      match goal with |- context [w_nx ?m x 0] => set (h4 := m) end.
      assert (E4x : h4 x = BI ix) by (unfold h4; sets; exact E3x).
      eexists _, p, z, z. split; [apply FIN; exact E4x|]. sets. unfold h4. sets. rewrite YZ in E3p. rewrite E3p.
      repeat (split; [reflexivity|]). split; [constructor|]. split.
      * rewrite eqb0 in S3 by exact CZ. eapply seg_frame; [exact S3|]. intros a J. destruct (DJ a J) as (A1 & A2 & A3). sets. reflexivity.
      * intros a A1 A2 A3 A4. sets. apply X3; [exact A3|exact A4].
  - (* not the first member *)
    assert (DC : i_ch io <> o /\ i_ch io <> x /\ i_ch io <> p) by (apply DJ; apply in_or_app; auto). destruct DC as (DC1 & DC2 & DC3).
    assert (DY : y <> o /\ y <> x /\ y <> p) by (apply DJ; apply in_or_app; auto). destruct DY as (DY1 & DY2 & DY3).
    destruct (Z.eqb_spec (i_ch io) x) as [|_]; [congruence|].
    rewrite (rd_item_ok _ _ _ PZ E3p). cbn [bind i_pv linked]. rewrite (eqb0 y YNZ). cbn [negb].
    assert (E3F : forall a, In a F1 -> h3 a = h a).
    { intros a J. apply X3; [apply DJ; apply in_or_app; auto|]. intros K. exact (NoDup_app_no _ _ a ND J K). }
    rewrite (w_nx_ok h3 y iy p YNZ) by (rewrite E3F by exact JY; exact Ey). cbn [bind].
    set (h4 := set h3 y (BI (linked iy p (i_pv iy)))).
    assert (E4p : h4 p = BI (linked ip (i_nx ix) y)) by (unfold h4; sets; exact E3p).
    assert (E4x : h4 x = BI ix) by (unfold h4; sets; exact E3x).
    assert (E4o : h4 o = BI io) by (unfold h4; sets; exact E3o).
    assert (S4 : seg h4 z (i_ch io) k1 F1 y p).
    { eapply seg_last; [exact S1|exact NE|exact ND1|exact Ey|unfold h4; apply set_eq|apply sbl_linked|reflexivity|reflexivity|].
      intros a J A. unfold h4. rewrite set_ne by exact A. apply E3F. exact J. }
    assert (S4' : seg h4 p (i_nx ix) k2 F2 (if i_nx ix =? 0 then p else z) 0).
    { eapply seg_frame; [exact S3|]. intros a J. unfold h4. apply set_ne. intros ->. exact (NoDup_app_no _ _ y ND JY J). }
    assert (X4 : forall a, a <> p -> ~ In a (F1 ++ F2) -> h4 a = h a).
    { intros a A1 A2. unfold h4. rewrite set_ne by (intros ->; apply A2; apply in_or_app; auto). apply X3; [exact A1|].
      intros J. apply A2. apply in_or_app. auto. }
    rewrite (rd_item_ok _ _ _ PZ E4p). cbn [bind i_nx linked].
    destruct (Z.eqb_spec (i_nx ix) 0) as [N0|N0].
    + rewrite (rd_item_ok _ _ _ OZ E4o). cbn [bind].
      destruct (seg_ends _ _ _ _ _ _ _ S4) as [(? & _)|(_ & _ & _ & _ & _ & _ & (jc & E4c & _))]; [congruence|].
      rewrite (w_pv_ok h4 (i_ch io) jc p CZ E4c). cbn [bind].
      set (h5 := set h4 (i_ch io) (BI (linked jc (i_nx jc) p))).
      assert (E5x : h5 x = BI ix) by (unfold h5; sets; exact E4x).
      eexists _, (i_ch io), y, p. split; [apply FIN; exact E5x|]. sets. unfold h5. sets. rewrite E4o, E4p.
      split; [rewrite with_ch_self; reflexivity|]. split; [reflexivity|]. split; [reflexivity|]. split; [|split].
      * eapply seg_first; [exact S4|exact NE|exact ND1|exact E4c|sets; reflexivity|apply sbl_linked|reflexivity|reflexivity|].
        intros a J A. destruct (DJ a) as (A1 & A2 & A3); [apply in_or_app; auto|]. sets. reflexivity.
      * eapply seg_frame; [exact S4'|]. intros a J. destruct (DJ a) as (A1 & A2 & A3); [apply in_or_app; auto|].
        assert (a <> i_ch io) by (intros ->; exact (NoDup_app_no _ _ _ ND JC J)). sets. reflexivity.
      * intros a A1 A2 A3 A4. assert (a <> i_ch io) by (intros ->; apply A4; apply in_or_app; auto). sets. apply X4; assumption.
    + eexists _, (i_ch io), y, z. split; [apply FIN; exact E4x|]. sets. rewrite E4o, E4p.
      split; [rewrite with_ch_self; reflexivity|]. split; [reflexivity|]. split; [reflexivity|]. split; [|split].
      * eapply seg_frame; [exact S4|]. intros a J. destruct (DJ a) as (A1 & A2 & A3); [apply in_or_app; auto|]. sets. reflexivity.
      * eapply seg_frame; [exact S4'|]. intros a J. destruct (DJ a) as (A1 & A2 & A3); [apply in_or_app; auto|]. sets. reflexivity.
      * intros a A1 A2 A3 A4. sets. apply X4; assumption.
Qed.

(** ** Names *)
Lemma low_letter a b : low a = low b <-> letter a b.
Proof.
  unfold low, letter. destruct (Z.leb_spec 65 a), (Z.leb_spec a 90), (Z.leb_spec 65 b), (Z.leb_spec b 90); cbn [andb]; lia.
Qed.
Lemma low_letters : forall a b, map low a = map low b <-> Forall2 letter b a.
Proof.
  induction a as [|x a IH]; intros [|y b]; cbn [map]; split; intros H; try discriminate; try constructor; try (inversion H; fail); try reflexivity.
  - injection H as E _. apply low_letter. symmetry. exact E.
  - injection H as _ E. apply IH. exact E.
  - inversion H; subst. f_equal; [symmetry; apply low_letter; assumption|apply IH; assumption].
Qed.
Lemma same_name_spec cs t n vs t' kids : same_name cs t t' = true <-> called cs t (JV n vs (NText (Some t')) kids).
Proof.
  unfold same_name, called. cbn [name_of]. destruct cs.
  - rewrite bseq_spec. split; [intros ->; eauto|]. intros (u & E & ->). injection E as ->. reflexivity.
  - rewrite bseq_spec, low_letters. split; [eauto|]. intros (u & E & H). injection E as ->. exact H.
Qed.

Lemma seek_ok h t cs q c kids F z : chain h q c kids F z -> object_like kids ->
  (Forall (fun v => ~ called cs t v) kids /\ exists N, forall fuel, (N <= fuel)%nat -> seek fuel h t c cs = Ok 0) \/
  (exists k1 v k2 F1 Fx F2 y x ix N, kids = k1 ++ v :: k2 /\ Forall (fun v => ~ called cs t v) k1 /\ called cs t v /\
     F = F1 ++ Fx ++ F2 /\ seg h q c k1 F1 y x /\ h x = BI ix /\ i_pv ix = y /\ owns h x v Fx /\ seg h x (i_nx ix) k2 F2 z 0 /\
     i_name ix <> 0 /\ (forall fuel, (N <= fuel)%nat -> seek fuel h t c cs = Ok x)).
Proof.
  intros C. induction C as [q|q c it v l F F' z E P O C IH]; intros OL.
  - left. split; [constructor|]. exists 1%nat. intros [|f] L; [lia|reflexivity].
  - inversion OL as [|? ? (t' & NM) OL']; subst.
    destruct v as [n vs nm ks]. cbn [name_of] in NM. subst nm.
    pose proof O as O'. apply owns_inv in O' as (it' & G1 & G2 & G3 & q' & z' & CZ & E' & _ & _ & _ & NN & _).
    rewrite E in E'. injection E' as <-. inversion NN as [|a tt FF TT Ec Ea En]; subst. inversion TT as [|a tt AZ AE]; subst.
    assert (ST : forall f, seek (S f) h t c cs = if same_name cs t t' then Ok c else seek f h t (i_nx it) cs).
    { intros f. cbn [seek]. rewrite (eqb0 c CZ), (rd_item_ok _ _ _ CZ E). cbn [bind]. rewrite (eqb0 _ AZ).
      unfold rd_str. rewrite (eqb0 _ AZ), AE. cbn [bind]. reflexivity. }
    destruct (same_name cs t t') eqn:SN.
    + right. exists [], (JV n vs (NText (Some t')) ks), l, [], F, F', (i_pv it), c, it, 1%nat.
      split; [reflexivity|]. split; [constructor|]. split; [apply same_name_spec; exact SN|]. split; [reflexivity|].
      split; [constructor|]. split; [exact E|]. split; [reflexivity|]. split; [exact O|]. split; [apply chain_seg; exact C|]. split; [exact AZ|].
      intros [|f] L; [lia|apply ST].
    + assert (NC : ~ called cs t (JV n vs (NText (Some t')) ks)).
      { intros K. apply same_name_spec in K. congruence. }
      destruct (IH OL') as [(FA & N & K)|(k1 & v & k2 & F1 & Fx & F2 & y & x & ix & N & -> & FA & CV & -> & S1 & Ex & PV & OX & S2 & NZ & K)].
      * left. split; [constructor; assumption|]. exists (S N). intros [|f] L; [lia|]. rewrite ST. apply K. lia.
      * right. exists (JV n vs (NText (Some t')) ks :: k1), v, k2, (F ++ F1), Fx, F2, y, x, ix, (S N).
        split; [reflexivity|]. split; [constructor; assumption|]. split; [exact CV|]. split; [rewrite <- app_assoc; reflexivity|].
        split; [econstructor; [exact E|reflexivity|exact O|exact S1]|]. do 5 (split; [assumption|]).
        intros [|f] L; [lia|]. rewrite ST. apply K. lia.
Qed.

Lemma in3 {A} (a : A) l1 l2 l3 : In a (l1 ++ l2 ++ l3) <-> In a l1 \/ In a l2 \/ In a l3.
Proof. rewrite !in_app_iff. reflexivity. Qed.

Lemma replace_ok (h : mem) o io vs nm T1 T2 k1 F1 y x ix v Fx k2 F2 z p w G ip : o <> 0 -> h o = BI io -> i_ref io = false ->
  text h (i_vs io) vs T1 -> named h (i_const io) (i_name io) nm T2 -> seg h z (i_ch io) k1 F1 y x -> h x = BI ix -> i_pv ix = y ->
  owns h x v Fx -> seg h x (i_nx ix) k2 F2 z 0 -> owns h p w G -> h p = BI ip -> NoDup (o :: T1 ++ T2 ++ F1 ++ Fx ++ F2 ++ G) ->
  exists N h', (forall fuel, (N <= fuel)%nat -> replace_at fuel h o x p = Ok (true, h')) /\
    owns h' o (JV (i_val io) vs nm (k1 ++ w :: k2)) (o :: T1 ++ T2 ++ F1 ++ G ++ F2) /\ (forall a, In a Fx -> h' a = Free) /\
    (forall a, ~ In a (o :: T1 ++ T2 ++ F1 ++ Fx ++ F2 ++ G) -> h' a = h a) /\
    (forall it', h' o = BI it' -> i_nx it' = i_nx io /\ i_pv it' = i_pv io).
Proof.
  intros OZ Eo R T NM S1 Ex PV OX S2 OP Ep ND.
  assert (JX : In x Fx) by (eapply owns_self; exact OX). assert (JP : In p G) by (eapply owns_self; exact OP).
  assert (XZ : x <> 0) by (eapply owns_nz; exact OX). assert (PZ : p <> 0) by (eapply owns_nz; exact OP).
  inversion ND as [|? ? NO ND']; subst. rewrite !in_app_iff in NO.
  assert (ND1 : NoDup ((T1 ++ T2) ++ F1 ++ Fx ++ F2 ++ G)) by (rewrite <- app_assoc; exact ND').
  assert (NDF := NoDup_app_r _ _ ND1).
  assert (D1 : forall a, In a T1 \/ In a T2 -> ~ (In a F1 \/ In a Fx \/ In a F2 \/ In a G)).
  { intros a J K. apply (NoDup_app_no _ _ a ND1); rewrite !in_app_iff; auto. }
  assert (D2 : forall a, In a F1 -> ~ (In a Fx \/ In a F2 \/ In a G)).
  { intros a J K. apply (NoDup_app_no _ _ a NDF); rewrite ?in_app_iff; auto. }
  assert (NDF2 := NoDup_app_r _ _ NDF).
  assert (D3 : forall a, In a Fx -> ~ (In a F2 \/ In a G)).
  { intros a J K. apply (NoDup_app_no _ _ a NDF2); rewrite ?in_app_iff; auto. }
  assert (NDF3 := NoDup_app_r _ _ NDF2).
  assert (D4 : forall a, In a F2 -> ~ In a G) by (intros a J K; exact (NoDup_app_no _ _ a NDF3 J K)).
  assert (NDx := NoDup_app_l _ _ NDF2). assert (NDG := NoDup_app_r _ _ NDF3).
  assert (ND12 : NoDup (F1 ++ F2)).
  { apply NoDup_join; [eapply NoDup_app_l; exact NDF|eapply NoDup_app_l; exact NDF3|]. intros a J K. apply (D2 a J). auto. }
  assert (OX' : o <> x) by (intros ->; tauto). assert (OP' : o <> p) by (intros ->; tauto).
  assert (XP : x <> p) by (intros ->; apply (D3 p JX); auto).
  destruct (links_ok h o io k1 F1 (i_pv ix) x ix k2 F2 z p ip OZ XZ PZ OX' OP' XP Eo Ex Ep S1 eq_refl S2 ND12) as (hb & c' & y' & z' & RL & Bo & Bx & Bp & Q1 & Q2 & B).
  { intros a J. apply in_app_or in J. split; [|split]; intros ->; [tauto| |].
    - destruct J as [J|J]; [apply (D2 x J); auto|apply (D3 x JX); auto].
    - destruct J as [J|J]; [apply (D2 p J); auto|apply (D4 p J); auto]. }
  assert (BX : forall a, In a Fx -> a <> x -> hb a = h a).
  { intros a J A. apply B; [intros ->; tauto|exact A|intros ->; apply (D3 p J); auto|]. rewrite in_app_iff. intros [K|K]; [apply (D2 a K); auto|apply (D3 a J); auto]. }
  assert (TX : tree hb x v Fx).
  { split; [|split; [exact NDx|exists (linked ix 0 0); auto]]. eapply owns_links; [exact OX|exact NDx|exact Ex|exact Bx|apply sbl_linked|exact BX]. }
  destruct (tree_delete _ _ _ _ TX) as (N & h' & D & G1 & G2). exists N, h'. split.
  { intros fuel L. unfold replace_at. rewrite !eqb0 by assumption. destruct (Z.eqb_spec p x) as [|_]; [congruence|]. cbn [orb].
    rewrite RL. cbn [bind]. rewrite D by exact L. reflexivity. }
  assert (E'o : h' o = BI (with_ch io c')) by (rewrite G2 by tauto; exact Bo).
  assert (E'p : h' p = BI (linked ip (i_nx ix) y')) by (rewrite G2 by (intros J; apply (D3 p J); auto); exact Bp).
  assert (BT : forall a, In a T1 \/ In a T2 -> h' a = h a).
  { intros a J. specialize (D1 a J). rewrite G2 by tauto. apply B; [intros ->; tauto|intros ->; tauto|intros ->; tauto|]. rewrite in_app_iff. tauto. }
  split; [|split; [exact G1|split]].
  - change (i_val io) with (i_val (with_ch io c')).
    apply (o_item h' o (with_ch io c') vs nm (k1 ++ w :: k2) T1 T2 (F1 ++ G ++ F2) z' z'); auto; cbn [i_vs i_const i_name i_ch with_ch].
    + eapply text_frame; [exact T|]. intros a J. apply BT. auto.
    + eapply named_frame; [exact NM|]. intros a J. apply BT. auto.
    + apply seg_chain with (e := 0); [|reflexivity]. apply seg_app with (y := y') (x := p).
      * eapply seg_frame; [exact Q1|]. intros a J. apply G2. intros K. apply (D2 a J). auto.
      * apply (s_cons h' y' p (linked ip (i_nx ix) y') w k2 G F2 z' 0 E'p); [reflexivity| |].
        -- eapply owns_links; [exact OP|exact NDG|exact Ep|exact E'p|apply sbl_linked|]. intros a J A.
           rewrite G2 by (intros K; apply (D3 a K); auto). apply B; [intros ->; tauto| |exact A|].
           ++ intros ->. apply (D3 x JX). auto.
           ++ rewrite in_app_iff. intros [K|K]; [apply (D2 a K); auto|exact (D4 a K J)].
        -- cbn [i_nx linked]. eapply seg_frame; [exact Q2|]. intros a J. apply G2. intros K. apply (D3 a K). auto.
  - intros a J. cbn [In] in J. rewrite !in_app_iff in J. rewrite G2 by tauto. apply B; [intros ->; apply J; left; reflexivity|intros ->; tauto|intros ->; tauto|rewrite in_app_iff; tauto].
  - intros it' Y. rewrite E'o in Y. injection Y as <-. split; reflexivity.
Qed.

(** ** A name that is released before the new one is made *)
Lemma rename2 (h : mem) p w G ip : owns h p w G -> NoDup G -> h p = BI ip ->
  exists h2, free_name h p = Ok h2 /\ h2 p = BI ip /\
    (forall a, ~ In a G -> h2 a = h a) /\ (forall a, h2 a <> h a -> h2 a = Free /\ i_const ip = false /\ a = i_name ip) /\
    (forall hf h3 key cst lb K, hf p = BI (It (i_val ip) (i_ref ip) cst (i_vs ip) key (i_nx ip) (i_pv ip) (i_ch ip)) ->
       (forall a, a <> p -> hf a = h3 a) -> (forall a, ~ In a K -> h3 a = h2 a) -> (forall a, In a K -> h2 a = Free) ->
       named h3 cst key lb K -> NoDup K ->
       exists G', owns hf p (relabel w lb) G' /\ NoDup G' /\ (forall a, In a G' -> In a G \/ In a K) /\ (forall a, In a K -> In a G') /\
         (forall a, ~ In a G' -> In a G -> hf a = Free) /\ (forall a, ~ In a G' -> ~ In a G -> hf a = h a)).
Proof.
  intros P ND Ep. destruct w as [n vs nm kids]. pose proof P as P0.
  apply owns_inv in P as (it & F1 & F2 & F3 & q & z & PZ & E & V & R & T & N & C & D & ->).
  rewrite E in Ep. injection Ep as <-. inversion ND as [|? ? NI NDF]; subst.
  destruct (named_free h _ _ _ _ N) as (h2 & D2 & G2 & G2').
  assert (P2 : ~ In p F2) by (intros J; apply NI; rewrite !in_app_iff; auto).
  assert (E2 : h2 p = BI it) by (rewrite G2' by exact P2; exact E).
  assert (D12 : forall a, In a F1 -> ~ In a F2) by (intros a J1 J2; apply (NoDup_app_no _ _ a NDF J1); rewrite in_app_iff; auto).
  assert (D23 : forall a, In a F3 -> ~ In a F2) by (intros a J1 J2; apply NoDup_app_r in NDF; exact (NoDup_app_no _ _ a NDF J2 J1)).
  assert (FULL : forall a, In a (p :: F1 ++ F2 ++ F3) -> h a <> Free) by (intros a J; eapply owns_full; [exact P0|exact J]).
  exists h2. split; [unfold free_name; rewrite (rd_item_ok _ _ _ PZ E); exact D2|]. split; [exact E2|].
  split; [intros a J; apply G2'; intros K; apply J; right; rewrite !in_app_iff; auto|]. split.
  { intros a Y. destruct (in_dec Z.eq_dec a F2) as [J|J]; [|destruct Y; apply G2'; exact J]. split; [apply G2; exact J|].
    inversion N as [b Ec Ea Eb|b t FF TT Ec Ea En]; subst; [destruct J|]. split; [reflexivity|]. inversion TT; subst; [destruct J|]. destruct J as [<-|[]]; reflexivity. }
  intros hf h3 key cst lb K Ef X3 H3 KF KN NDK.
  assert (K1 : ~ In p K) by (intros J; apply KF in J; congruence).
  assert (KD1 : forall a, In a F1 -> ~ In a K).
  { intros a J J2. apply KF in J2. rewrite G2' in J2 by (apply D12; exact J). apply (FULL a); [right; rewrite !in_app_iff; auto|exact J2]. }
  assert (KD3 : forall a, In a F3 -> ~ In a K).
  { intros a J J2. apply KF in J2. rewrite G2' in J2 by (apply D23; exact J). apply (FULL a); [right; rewrite !in_app_iff; auto|exact J2]. }
  rewrite !in_app_iff in NI.
  exists (p :: F1 ++ K ++ F3). split; [|split; [|split; [|split; [|split]]]].
  - cbn [relabel].
    apply (o_item hf p (It (i_val it) (i_ref it) cst (i_vs it) key (i_nx it) (i_pv it) (i_ch it)) vs lb kids F1 K F3 q z); auto; cbn [i_vs i_const i_name i_ch].
    + eapply text_frame; [exact T|]. intros a J. rewrite X3, H3, G2'; auto. intros ->. tauto.
    + eapply named_frame; [exact KN|]. intros a J. apply X3. intros ->. tauto.
    + eapply chain_frame; [exact C|]. intros a J. rewrite X3, H3, G2'; auto. intros ->. tauto.
  - constructor; [rewrite !in_app_iff; tauto|].
    apply NoDup_join; [eapply NoDup_app_l; exact NDF| |].
    + apply NoDup_join; [exact NDK|apply NoDup_app_r in NDF; apply NoDup_app_r in NDF; exact NDF|]. intros a J1 J2. exact (KD3 a J2 J1).
    + intros a J1 J2. apply in_app_or in J2 as [J2|J2]; [exact (KD1 a J1 J2)|]. apply (NoDup_app_no _ _ a NDF J1). rewrite in_app_iff. auto.
  - intros a J. cbn [In] in *. rewrite !in_app_iff in *. tauto.
  - intros a J. right. rewrite !in_app_iff. auto.
  - intros a J1 J2. cbn [In] in *. rewrite !in_app_iff in *. rewrite X3 by (intros ->; tauto). rewrite H3 by tauto. apply G2. tauto.
  - intros a J1 J2. cbn [In] in *. rewrite !in_app_iff in *. rewrite X3 by (intros ->; tauto). rewrite H3 by tauto. apply G2'. tauto.
Qed.
