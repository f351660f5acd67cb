(** * References to cJSON items (C149, C150) *)
From Verif Require Import Base Jdup_Model Jdup_Spec Jdup_Proofs Jobj_Model Jobj_Spec Jobj_Proofs Jobj_Props.
Open Scope Z_scope.

(** ** What an item keeps when references are allowed
    [keeps h c F]: the list of items from [c] on, with the blocks [F] that belong to it: every
    item and its own name; the text and the children of an item that is no reference. *)
Inductive keeps (h : mem) : Z -> list Z -> Prop :=
| k_nil : keeps h 0 []
| k_item c it vs nm F1 F2 F3 F4 : c <> 0 -> h c = BI it -> i_ref it = false -> text h (i_vs it) vs F1 ->
    named h (i_const it) (i_name it) nm F2 -> keeps h (i_ch it) F3 -> keeps h (i_nx it) F4 ->
    keeps h c ((c :: F1 ++ F2 ++ F3) ++ F4)
| k_ref c it nm F2 F4 : c <> 0 -> h c = BI it -> i_ref it = true ->
    named h (i_const it) (i_name it) nm F2 -> keeps h (i_nx it) F4 -> keeps h c ((c :: F2) ++ F4).

Lemma keeps_frame h h' c F : keeps h c F -> (forall x, In x F -> h' x = h x) -> keeps h' c F.
Proof.
  intros K. induction K as [|c it vs nm F1 F2 F3 F4 NZ E R T N K3 IH3 K4 IH4|c it nm F2 F4 NZ E R N K4 IH4]; intros H; [constructor| |].
  - apply (k_item h' c it vs nm); auto.
    + rewrite H; [exact E|left; reflexivity].
    + eapply text_frame; [exact T|]. intros x J. apply H. right. rewrite !in_app_iff. auto.
    + eapply named_frame; [exact N|]. intros x J. apply H. right. rewrite !in_app_iff. auto.
    + apply IH3. intros x J. apply H. right. rewrite !in_app_iff. auto.
    + apply IH4. intros x J. apply H. right. rewrite !in_app_iff. auto.
  - apply (k_ref h' c it nm); auto.
    + rewrite H; [exact E|left; reflexivity].
    + eapply named_frame; [exact N|]. intros x J. apply H. right. rewrite in_app_iff. auto.
    + apply IH4. intros x J. apply H. right. rewrite in_app_iff. auto.
Qed.

(** cJSON_Delete releases what the list keeps, each block once, and nothing else: what the
    references in it refer to stays as it is. *)
Theorem C149_references : forall h c F, keeps h c F -> NoDup F ->
  exists N h', (forall fuel, (N <= fuel)%nat -> delete fuel h c = Ok h') /\ gone F h h'.
Proof.
  enough (X : forall h0 c F, keeps h0 c F -> forall h : mem, (forall x, In x F -> h x = h0 x) -> NoDup F ->
     exists N h', (forall fuel, (N <= fuel)%nat -> delete fuel h c = Ok h') /\ gone F h h').
  { intros h c F K ND. apply (X h c F K h); auto. }
  intros h0 c F K. induction K as [|c it vs nm F1 F2 F3 F4 NZ E R T N K3 IH3 K4 IH4|c it nm F2 F4 NZ E R N K4 IH4]; intros h H ND.
  - exists 1%nat, h. split; [intros [|f] L; [lia|reflexivity]|apply gone_nil].
  - pose proof (NoDup_app_l _ _ ND) as ND1. inversion ND1 as [|? ? NI ND2]; subst.
    destruct (IH3 h) as (N3 & h3 & D3 & G3); [intros x J; apply H; right; rewrite !in_app_iff; auto|exact (NoDup_app_r _ _ (NoDup_app_r _ _ ND2))|].
    assert (E' : h c = BI it) by (rewrite H; [exact E|left; reflexivity]).
    destruct (del_part h c it vs nm F1 F2 F3 h3 N3 NZ E' R) as (h1 & D1 & G1); auto.
    + eapply text_frame; [exact T|]. intros x J. apply H. right. rewrite !in_app_iff. auto.
    + eapply named_frame; [exact N|]. intros x J. apply H. right. rewrite !in_app_iff. auto.
    + destruct (IH4 h1) as (N4 & h4 & D4 & G4); [|exact (NoDup_app_r _ _ ND)|].
      * intros x J. rewrite (proj2 G1); [apply H; apply in_or_app; auto|]. intros K. exact (NoDup_app_no _ _ x ND K J).
      * exists (S (N3 + N4)), h4. split; [|apply (gone_app _ F4 h h1 h4 G1 G4); intros x J K; exact (NoDup_app_no _ _ x ND J K)].
        intros [|f] L; [lia|]. rewrite D1 by lia. apply D4. lia.
  - pose proof (NoDup_app_l _ _ ND) as ND1. inversion ND1 as [|? ? NI ND2]; subst.
    assert (E' : h c = BI it) by (rewrite H; [exact E|left; reflexivity]).
    destruct (named_free h (i_const it) (i_name it) nm F2) as (h1 & D1 & G1).
    { eapply named_frame; [exact N|]. intros x J. apply H. right. rewrite in_app_iff. auto. }
    assert (E1 : h1 c = BI it) by (rewrite (proj2 G1); [exact E'|exact NI]).
    assert (G2 : gone (c :: F2) h (set h1 c Free)).
    { apply (gone_perm (F2 ++ [c])); [apply (gone_app F2 [c] h h1 _ G1 (gone_one h1 c)); intros x J [<-|[]]; exact (NI J)|].
      intros x. rewrite in_app_iff. cbn [In]. tauto. }
    destruct (IH4 (set h1 c Free)) as (N4 & h4 & D4 & G4); [|exact (NoDup_app_r _ _ ND)|].
    + intros x J. rewrite (proj2 G2); [apply H; apply in_or_app; auto|]. intros K. exact (NoDup_app_no _ _ x ND K J).
    + exists (S N4), h4. split; [|apply (gone_app _ F4 h _ h4 G2 G4); intros x J K; exact (NoDup_app_no _ _ x ND J K)].
      intros [|f] L; [lia|]. cbn [delete]. rewrite eqb0 by exact NZ. rewrite (rd_item_ok _ _ _ NZ E'). cbn [bind]. rewrite R. cbn [negb andb bind].
      rewrite D1. cbn [bind]. rewrite free_ok by congruence. cbn [bind]. apply D4. lia.
Qed.
Print Assumptions C149_references.

(** ** Lists of children as lists that are kept and read *)
Lemma owns_keeps h : (forall p v F, owns h p v F -> forall it F4, h p = BI it -> keeps h (i_nx it) F4 -> keeps h p (F ++ F4)) /\
  (forall q c l F z, chain h q c l F z -> keeps h c F).
Proof.
  apply owns_chain.
  - intros p it vs nm kids F1 F2 F3 q z NZ E R T N C IH D it' F4 E' K. assert (it' = it) by congruence. subst it'. apply (k_item h p it vs nm); auto.
  - intros q. constructor.
  - intros q c it v l F F' z E P O IH1 C IH2. apply (IH1 it); auto.
Qed.
Lemma seg_keeps h q c l F z e F' : seg h q c l F z e -> keeps h e F' -> keeps h c (F ++ F').
Proof.
  intros A. induction A as [q c|q c it v l F F1 z e E P O A IH]; intros K; [exact K|].
  rewrite <- app_assoc. apply (proj1 (owns_keeps h) c v F O it); auto.
Qed.
Lemma seg_readl h q c l F z e l' : seg h q c l F z e -> readl h e l' -> readl h c (l ++ l').
Proof.
  intros A. induction A as [q c|q c it v l F F1 z e E P O A IH]; intros K; [exact K|].
  cbn [app]. apply (r_cons h c it); auto. apply (proj1 (owns_reads h) _ _ _ O).
Qed.
Lemma keeps_full h c F : keeps h c F -> forall x, In x F -> h x <> Free.
Proof.
  intros K. induction K as [|c it vs nm F1 F2 F3 F4 NZ E R T N K3 IH3 K4 IH4|c it nm F2 F4 NZ E R N K4 IH4]; intros x J; [destruct J| |]; cbn [app In] in J; rewrite ?in_app_iff in J.
  - destruct J as [<-|[[J|[J|J]]|J]]; [congruence| | |auto|auto]; [eapply text_full|eapply named_full]; eassumption.
  - destruct J as [<-|[J|J]]; [congruence| |auto]. eapply named_full; eassumption.
Qed.

(** ** cJSON_AddItemReferenceToObject, when memory is not refused
    The object has one more member with the value of the item under the new name; the item is
    what it was. The object keeps its blocks and two more, and deleting it afterwards releases
    these and leaves the item alone. *)
Theorem C150_reference : forall s o n vs nm kids F p w G key t r k os,
  owns (ms_h s) o (JV n vs nm kids) F -> (exists io, ms_h s o = BI io /\ i_nx io = 0) -> owns (ms_h s) p w G -> NoDup (F ++ G) ->
  key <> 0 -> ms_h s key = BS t -> ms_os s = Some r :: Some k :: os -> r <> 0 -> k <> 0 -> r <> k -> ms_h s r = Free -> ms_h s k = Free ->
  exists s', add_reference s o key p = Ok (true, s') /\
    reads (ms_h s') o (JV n vs nm (kids ++ [relabel w (NText (Some t))])) /\ owns (ms_h s') p w G /\
    (forall a, ~ In a F -> a <> r -> a <> k -> ms_h s' a = ms_h s a) /\
    exists N h', (forall fuel, (N <= fuel)%nat -> delete fuel (ms_h s') o = Ok h') /\ gone (F ++ [r; k]) (ms_h s') h' /\ owns h' p w G.
Proof.
  intros s o n vs nm kids F p w G key t r k os O (io & Eo & NXo) P ND KZ KE OS RZ KZ' RK RF KF.
  destruct w as [wn wvs wnm wkids].
  pose proof (owns_inv _ _ _ _ _ _ _ P) as (ip & P1 & P2 & P3 & pq & pz & PZ & Ep & Vp & Rp & Tp & Np & Cp & _ & EG).
  apply owns_inv in O as (it & F1 & F2 & F3 & q & z & OZ & E & V & R & T & N & C & D & EF).
  assert (it = io) by congruence. subst it. clear Eo.
  assert (FullF : forall x, In x F -> ms_h s x <> Free).
  { subst F. intros x J. cbn [In] in J. rewrite !in_app_iff in J. destruct J as [<-|[J|[J|J]]]; [congruence|exact (text_full _ _ _ _ T x J)|exact (named_full _ _ _ _ _ N x J)|exact (chain_full _ _ _ _ _ _ x C J)]. }
  assert (FullG : forall x, In x G -> ms_h s x <> Free) by (intros x J; eapply owns_full; [exact P|exact J]).
  assert (RNF : ~ In r F) by (intros J; exact (FullF r J RF)). assert (KNF : ~ In k F) by (intros J; exact (FullF k J KF)).
  assert (RNG : ~ In r G) by (intros J; exact (FullG r J RF)). assert (KNG : ~ In k G) by (intros J; exact (FullG k J KF)).
  assert (PR : p <> r) by congruence. assert (PK : p <> k) by congruence. assert (KR : key <> r) by congruence. assert (OR : o <> r) by congruence. assert (OK : o <> k) by congruence.
  unfold add_reference, reference. rewrite (eqb0 o OZ), (eqb0 key KZ), (eqb0 p PZ). cbn [orb].
  assert (AL : alloc s (BI (It 0 false false 0 0 0 0 0)) = (r, Ms (set (ms_h s) r (BI (It 0 false false 0 0 0 0 0))) (Some k :: os) (ms_no s))).
  { unfold alloc. rewrite OS, (eqb0 r RZ), RF. reflexivity. }
  rewrite AL. cbn [fst snd]. rewrite (eqb0 r RZ). cbn [ms_h]. rewrite (rd_item_ok _ p ip PZ) by (sets; exact Ep). cbn [bind fst snd]. unfold hs at 1. cbn [ms_h ms_os ms_no].
  match goal with |- context [add_to_object ?x _ _ _ _] => set (s1 := x) end.
  unfold add_to_object. rewrite (eqb0 o OZ), (eqb0 key KZ), (eqb0 r RZ). destruct (Z.eqb_spec o r) as [|_]; [congruence|]. cbn [orb].
  unfold strdup. rewrite (eqb0 key KZ). unfold rd_str. rewrite (eqb0 key KZ).
  assert (K1 : ms_h s1 key = BS t) by (unfold s1; cbn [ms_h]; sets; exact KE). rewrite K1. cbn [bind].
  assert (AL1 : alloc s1 (BS t) = (k, Ms (set (ms_h s1) k (BS t)) os (ms_no s))).
  { unfold alloc, s1. cbn [ms_os ms_h ms_no]. rewrite (eqb0 k KZ'). rewrite !set_ne by congruence. rewrite KF. reflexivity. }
  rewrite AL1. cbn [fst snd]. rewrite (eqb0 k KZ'). cbn [ms_h].
  set (h0 := set (ms_h s1) k (BS t)).
  assert (E0 : h0 r = BI (It (i_val ip) true (i_const ip) (i_vs ip) 0 0 0 (i_ch ip))) by (unfold h0, s1; cbn [ms_h]; sets; reflexivity).
  assert (E0k : h0 k = BS t) by apply set_eq.
  assert (E0x : forall x, x <> r -> x <> k -> h0 x = ms_h s x) by (intros x X1 X2; unfold h0, s1; cbn [ms_h]; sets; reflexivity).
  assert (FN : free_name h0 r = Ok h0).
  { unfold free_name. rewrite (rd_item_ok _ _ _ RZ E0). cbn [bind i_const i_name]. change (0 =? 0) with true. rewrite andb_false_r. reflexivity. }
  rewrite FN. cbn [bind]. unfold w_name. rewrite (rd_item_ok _ _ _ RZ E0). cbn [bind i_val i_ref i_const i_vs i_name i_nx i_pv i_ch].
  unfold w_const. rewrite (rd_item_ok _ r _ RZ (set_eq _ _ _)). cbn [bind i_val i_ref i_const i_vs i_name i_nx i_pv i_ch].
  set (jr := It (i_val ip) true false (i_vs ip) k 0 0 (i_ch ip)).
  match goal with |- context [add_to_array ?x _ _] => set (h1 := x) end.
  assert (E1 : h1 r = BI jr) by (unfold h1; sets; reflexivity).
  assert (E1k : h1 k = BS t) by (unfold h1; sets; exact E0k).
  assert (E1x : forall x, x <> r -> x <> k -> h1 x = ms_h s x) by (intros x X1 X2; unfold h1; sets; apply E0x; assumption).
  clearbody h1. clear FN E0 E0k E0x K1 AL AL1. 
  (* the new member, linked at the end *)
  assert (X : exists h2 jr' io', add_to_array h1 o r = Ok (true, h2) /\ h2 r = BI jr' /\ same_but_links jr jr' /\ i_nx jr' = 0 /\
     h2 o = BI io' /\ i_nx io' = 0 /\ i_val io' = n /\ i_ref io' = false /\ i_vs io' = i_vs io /\ i_const io' = i_const io /\ i_name io' = i_name io /\
     (exists q' z', seg h2 q' (i_ch io') kids F3 z' r) /\ (forall x, x <> o -> ~ In x F3 -> x <> r -> h2 x = h1 x)).
  { assert (NDF : NoDup F) by (eapply NoDup_app_l; exact ND). rewrite EF in NDF. inversion NDF as [|? ? NO ND2]; subst.
    assert (ND3 : NoDup F3) by exact (NoDup_app_r _ _ (NoDup_app_r _ _ ND2)).
    assert (NO3 : ~ In o F3) by (intros J; apply NO; rewrite !in_app_iff; auto).
    assert (R3 : ~ In r F3) by (intros J; apply RNF; right; rewrite !in_app_iff; auto).
    assert (K3 : ~ In k F3) by (intros J; apply KNF; right; rewrite !in_app_iff; auto).
    assert (E1o : h1 o = BI io) by (rewrite E1x by congruence; exact E).
    assert (C1 : chain h1 q (i_ch io) kids F3 z).
    { eapply chain_frame; [exact C|]. intros x J. apply E1x; intros ->; [exact (R3 J)|exact (K3 J)]. }
    unfold add_to_array. rewrite (eqb0 r RZ), (eqb0 o OZ). destruct (Z.eqb_spec o r) as [|_]; [congruence|]. cbn [orb].
    rewrite (rd_item_ok _ _ _ OZ E1o). cbn [bind].
    destruct (chain_last _ _ _ _ _ _ C1) as [(-> & C0 & -> & ->)|(NE & CZ & ZZ & JZ & JC & iz & Ez & NXz)].
    - rewrite C0. change (0 =? 0) with true. cbv iota. rewrite (w_ch_ok h1 o io r OZ E1o). cbn [bind].
      rewrite (w_pv_ok _ r jr r RZ) by (sets; exact E1). cbn [bind]. rewrite (w_nx_ok _ r _ 0 RZ (set_eq _ _ _)). cbn [bind].
      eexists _, _, _. split; [reflexivity|]. split; [apply set_eq|]. split; [repeat split|]. split; [reflexivity|]. split; [sets; reflexivity|].
      split; [exact NXo|]. split; [reflexivity|]. split; [exact R|]. split; [reflexivity|]. split; [reflexivity|]. split; [reflexivity|]. split.
      + exists 0, 0. constructor.
      + intros x X1 _ X3. sets. reflexivity.
    - rewrite eqb0 by exact CZ. destruct D as [->|D]; [congruence|]. subst q.
      assert (ZO : z <> o) by (intros ->; exact (NO3 JZ)). assert (ZR : z <> r) by (intros ->; exact (R3 JZ)).
      assert (CO : i_ch io <> o) by (intros Y; rewrite Y in JC; exact (NO3 JC)). assert (CR : i_ch io <> r) by (intros Y; rewrite Y in JC; exact (R3 JC)).
      assert (Y : exists ic, h1 (i_ch io) = BI ic /\ i_pv ic = z).
      { inversion C1 as [|q' c' ic w' l' Fa Fb z' Ec Pc Oc Cc]; subst; [congruence|]. exists ic. split; [exact Ec|]. congruence. }
      destruct Y as (ic & Ec & Pc). rewrite (rd_item_ok _ _ _ CZ Ec). cbn [bind]. rewrite Pc, (eqb0 z ZZ).
      rewrite (w_nx_ok h1 z iz r ZZ Ez). cbn [bind]. rewrite (w_pv_ok _ r jr z RZ) by (sets; exact E1). cbn [bind].
      set (h2 := set (set h1 z (BI (linked iz r (i_pv iz)))) r (BI (linked jr (i_nx jr) z))).
      assert (E2o : h2 o = BI io) by (unfold h2; sets; exact E1o). rewrite (rd_item_ok _ _ _ OZ E2o). cbn [bind].
      assert (S2 : seg h2 z (i_ch io) kids F3 z r).
      { apply (seg_last h1 h2 z (i_ch io) kids F3 z 0 r iz (linked iz r (i_pv iz))); auto; [apply chain_seg; exact C1|unfold h2; sets; reflexivity|repeat split|].
        intros x J NX. assert (x <> r) by (intros ->; exact (R3 J)). unfold h2. sets. reflexivity. }
      destruct (seg_ends _ _ _ _ _ _ _ S2) as [(Y & _)|(_ & _ & _ & _ & _ & _ & jc & E2c & _)]; [congruence|].
      rewrite (w_pv_ok h2 (i_ch io) jc r CZ E2c). cbn [bind]. eexists _, _, _. split; [reflexivity|]. split; [rewrite set_ne by congruence; unfold h2; apply set_eq|].
      split; [repeat split|]. split; [reflexivity|]. split; [rewrite set_ne by congruence; exact E2o|]. split; [exact NXo|]. split; [reflexivity|]. split; [exact R|].
      split; [reflexivity|]. split; [reflexivity|]. split; [reflexivity|]. split.
      + exists r, z. apply (seg_first h2 _ z r (i_ch io) kids F3 z r jc (linked jc (i_nx jc) r)); auto; [apply set_eq|repeat split|].
        intros x J NX. apply set_ne. exact NX.
      + intros x X1 X2 X3. rewrite set_ne by (intros ->; exact (X2 JC)). unfold h2. rewrite !set_ne; [reflexivity| |exact X3]. intros ->. exact (X2 JZ). }
  destruct X as (h2 & jr' & io' & AE & Er & (L1 & L2 & L3 & L4 & L5 & L6) & NXr & Eo' & NXo' & Vo & Ro & V1 & V2 & V3 & (q' & z' & SG) & FR).
  rewrite AE. cbn [bind fst snd]. eexists. split; [reflexivity|]. cbn [hs ms_h].
  assert (NDF : NoDup F) by (eapply NoDup_app_l; exact ND).
  assert (NDF' := NDF). rewrite EF in NDF'. inversion NDF' as [|? ? NO ND2]; subst.
  set (F := o :: F1 ++ F2 ++ F3) in *. set (G := p :: P1 ++ P2 ++ P3) in *.
  assert (FR12 : forall x, In x (F1 ++ F2) -> h2 x = ms_h s x).
  { intros x J. assert (JF : In x F) by (right; rewrite app_assoc; apply in_or_app; auto).
    rewrite FR, E1x; [reflexivity| | | | |]; try (intros ->; contradiction).
    - intros ->. apply NO. rewrite app_assoc. apply in_or_app. auto.
    - intros J3. rewrite app_assoc in ND2. exact (NoDup_app_no _ _ x ND2 J J3). }
  assert (FRG : forall x, In x G -> h2 x = ms_h s x).
  { intros x J. assert (XF : ~ In x F) by (intros J2; exact (NoDup_app_no _ _ x ND J2 J)).
    rewrite FR, E1x; [reflexivity| | | | |]; try (intros ->; contradiction).
    - intros ->. apply XF. left. reflexivity.
    - intros J3. apply XF. right. rewrite !in_app_iff. auto. }
  assert (OG : owns h2 p (JV (i_val ip) wvs wnm wkids) G) by (eapply owns_frame; [exact P|exact FRG]).
  assert (E2k : h2 k = BS t).
  { rewrite FR; [exact E1k|congruence| |congruence]. intros J. apply KNF. right. rewrite !in_app_iff. auto. }
  assert (T2 : text h2 (i_vs io') vs F1) by (rewrite V1; eapply text_frame; [exact T|]; intros x J; apply FR12; apply in_or_app; auto).
  assert (N2 : named h2 (i_const io') (i_name io') nm F2) by (rewrite V2, V3; eapply named_frame; [exact N|]; intros x J; apply FR12; apply in_or_app; auto).
  assert (NR : named h2 (i_const jr') (i_name jr') (NText (Some t)) [k]).
  { rewrite L3, L5. unfold jr. cbn [i_const i_name]. constructor. constructor; [exact KZ'|exact E2k]. }
  split; [|split; [exact OG|split]].
  - rewrite <- Vo. eapply r_item; [exact OZ|exact Eo'|exact T2|exact N2|]. eapply seg_readl; [exact SG|].
    eapply r_cons; [exact Er| |rewrite NXr; constructor]. cbn [relabel]. replace (i_val ip) with (i_val jr') by (rewrite L1; reflexivity).
    pose proof (owns_inv _ _ _ _ _ _ _ OG) as (ip' & Q1 & Q2 & Q3 & pq' & pz' & _ & Ep' & _ & _ & Tp' & _ & Cp' & _ & _).
    assert (ip' = ip). { rewrite FRG in Ep' by (left; reflexivity). congruence. } subst ip'.
    eapply r_item; [exact RZ|exact Er|rewrite L4; exact Tp'|exact NR|rewrite L6; exact (proj2 (owns_reads h2) _ _ _ _ _ Cp')].
  - intros a X1 X2 X3. rewrite FR, E1x; auto; [intros ->; apply X1; left; reflexivity|]. intros J. apply X1. right. rewrite !in_app_iff. auto.
  - assert (KP : keeps h2 o (F ++ [r; k])).
    { replace (F ++ [r; k]) with ((o :: F1 ++ F2 ++ (F3 ++ [r; k])) ++ []) by (rewrite app_nil_r; unfold F; cbn [app]; rewrite <- !app_assoc; reflexivity).
      apply (k_item h2 o io' vs nm); auto; [|rewrite NXo'; constructor]. eapply seg_keeps; [exact SG|].
      change [r; k] with ((r :: [k]) ++ []). apply (k_ref h2 r jr' (NText (Some t))); auto; rewrite NXr; constructor. }
    assert (NDK : NoDup (F ++ [r; k])).
    { apply NoDup_join; [exact NDF|constructor; [intros [X|[]]; congruence|constructor; [intros []|constructor]]|]. intros x J [<-|[<-|[]]]; contradiction. }
    destruct (C149_references h2 o _ KP NDK) as (Nf & h' & Df & Gf). exists Nf, h'. split; [exact Df|]. split; [exact Gf|].
    eapply owns_frame; [exact OG|]. intros x J. apply (proj2 Gf). intros J2. apply in_app_or in J2 as [J2|[<-|[<-|[]]]]; [exact (NoDup_app_no _ _ x ND J2 J)|contradiction|contradiction].
Qed.
Print Assumptions C150_reference.

(** The object of C150's example and the item 21 named "b": a reference to the item, added to the
    object under the name at 9; what the object keeps then; deleting it leaves the item. *)
Example ex_C150_reference :
  (exists s', add_reference (Ms h2 [Some 30; Some 31] false) 1 9 21 = Ok (true, s') /\
     ms_h s' 30 = BI (It 8 true false 0 31 0 3 0) /\ ms_h s' 31 = BS [98] /\ ms_h s' 21 = h2 21 /\
     exists h', delete 9 (ms_h s') 1 = Ok h' /\ h' 30 = Free /\ h' 31 = Free /\ h' 3 = Free /\ h' 21 = h2 21 /\ h' 22 = h2 22) /\
  owns h2 1 (JV 64 None (NText None) [m2; m3]) [1; 2; 4; 5; 3; 6] /\ (exists io, h2 1 = BI io /\ i_nx io = 0) /\ owns h2 21 w2 [21; 22] /\
  NoDup ([1; 2; 4; 5; 3; 6] ++ [21; 22]) /\ h2 9 = BS [98] /\ h2 30 = Free /\ h2 31 = Free.
Proof.
  split. { eexists. split; [vm_compute; reflexivity|]. split; [reflexivity|]. split; [reflexivity|]. split; [reflexivity|]. eexists. split; [vm_compute; reflexivity|]. repeat split. }
  split; [exact h2_object|]. split; [eexists; split; reflexivity|]. split; [exact (proj1 h2_item)|].
  split; [repeat constructor; cbn; intuition discriminate|]. repeat split.
Qed.

(** An array 1 of a reference 2, named by its own text 3, to the string item 8 with text 9 *)
Definition hr : mem := fun a =>
  if a =? 1 then BI (It 32 false false 0 0 0 0 2) else if a =? 2 then BI (It 16 true false 9 3 0 2 0) else if a =? 3 then BS [97]
  else if a =? 8 then BI (It 16 false false 9 0 0 0 0) else if a =? 9 then BS [120; 121] else Free.
Example ex_C149_references : keeps hr 1 [1; 2; 3] /\ NoDup [1; 2; 3] /\
  exists h', delete 9 hr 1 = Ok h' /\ h' 2 = Free /\ h' 3 = Free /\ h' 8 = hr 8 /\ h' 9 = BS [120; 121].
Proof.
  split; [|split; [repeat constructor; cbn; intuition discriminate|eexists; split; [vm_compute; reflexivity|repeat split]]].
  change [1; 2; 3] with ((1 :: [] ++ [] ++ ((2 :: [3]) ++ [])) ++ []).
  apply (k_item hr 1 (It 32 false false 0 0 0 0 2) None (NText None)); try reflexivity; try discriminate; repeat constructor.
  apply (k_ref hr 2 (It 16 true false 9 3 0 2 0) (NText (Some [97]))); try reflexivity; try discriminate; repeat constructor. discriminate.
Qed.
