(** * C154, C155: texts of string items, arrays made of C arrays, members taken out of objects *)
From Verif Require Import Base Jdup_Model Jdup_Spec Jdup_Proofs Jobj_Model Jobj_Spec Jobj_Proofs Jobj_Props Jref_Props Jset_Model.
Open Scope Z_scope.

(** ** cJSON_SetValuestring
    Whatever malloc answers: the item has the text that was given, in memory of its own, its old
    text is released if it was not used again, and nothing else changes; or memory was refused,
    the answer is NULL and memory is as before. The text may be any text or part of a text, also
    of the item's name, but not of the item's own text. *)
Theorem C154_text_partial : forall s o io n old nm kids F src t off,
  owns (ms_h s) o (JV n (Some old) nm kids) F -> NoDup F -> ms_h s o = BI io -> Z.testbit n 4 = true ->
  src <> 0 -> ms_h s src = BS t -> src <> i_vs io ->
  exists p s', set_text s o src off = Ok (SRet p s') /\
    ((p = 0 /\ ms_no s' = true /\ same (ms_h s) (ms_h s')) \/
     (p <> 0 /\ ms_no s' = ms_no s /\ ms_h s' p = BS (zdrop off t) /\ given (ms_h s) o (JV n (Some (zdrop off t)) nm kids) F (ms_h s'))).
Proof.
  intros s o io n old nm kids F src t off O ND Eo ST SZ SE NS. pose proof O as O0.
  apply owns_inv in O as (it & F1 & F2 & F3 & q & z & OZ & E & V & R & T & N & C & D & EF).
  rewrite Eo in E. injection E as <-.
  inversion T as [|a u AZ AE X1 X2 X3]; subst.
  assert (ND0 := ND). inversion ND as [|? ? NO NDF]; subst. cbn [app] in NDF. inversion NDF as [|? ? NV NDF2]; subst.
  assert (VO : i_vs io <> o) by (intros Y; apply NO; left; exact Y).
  unfold set_text. rewrite (rd_item_ok _ _ _ OZ Eo). cbn [bind]. unfold is_string. rewrite ST, R. cbn [negb orb].
  unfold rd_str. rewrite (eqb0 src SZ), SE. cbn [bind]. rewrite (eqb0 _ AZ), AE. cbn [bind].
  destruct (zlen (zdrop off t) <=? zlen old).
  - destruct (Z.eqb_spec src (i_vs io)) as [|_]; [congruence|]. eexists _, _. split; [reflexivity|]. right. cbn [ms_h hs ms_no].
    split; [exact AZ|]. split; [reflexivity|]. split; [apply set_eq|].
    set (h' := set (ms_h s) (i_vs io) (BS (zdrop off t))).
    assert (X : forall a, a <> i_vs io -> h' a = ms_h s a) by (intros a Y; unfold h'; sets; reflexivity).
    exists (o :: [i_vs io] ++ F2 ++ F3). split; [|split; [exact ND0|split; [auto|split; [intros a J K; contradiction|split]]]].
    + apply (o_item h' o io (Some (zdrop off t)) nm kids [i_vs io] F2 F3 q z); auto.
      * rewrite X by congruence. exact Eo.
      * constructor; [exact AZ|apply set_eq].
      * eapply named_frame; [exact N|]. intros x J. apply X. intros ->. apply NV. apply in_or_app. auto.
      * eapply chain_frame; [exact C|]. intros x J. apply X. intros ->. apply NV. apply in_or_app. auto.
    + intros a J _. apply X. intros ->. apply J. right. left. reflexivity.
    + intros j j' Y1 Y2. rewrite X in Y2 by congruence. replace j' with j by congruence. split; reflexivity.
  - destruct (alloc_cases s (BS (zdrop off t))) as (k & s1 & -> & [(-> & H1 & NO1)|(NZ & HF & H1 & NO1)]); cbn [fst snd].
    + exists 0, s1. split; [reflexivity|]. left. split; [reflexivity|]. split; [exact NO1|]. intros a. rewrite H1. reflexivity.
    + rewrite (eqb0 k NZ). assert (KV : k <> i_vs io) by congruence. assert (KO : k <> o) by congruence.
      rewrite free_ok by (rewrite H1; sets; congruence). cbn [bind].
      unfold w_vs. rewrite (rd_item_ok _ o io OZ) by (sets; rewrite H1; sets; exact Eo). cbn [bind].
      eexists _, _. split; [reflexivity|]. right. cbn [ms_h hs ms_no]. split; [exact NZ|]. split; [exact NO1|].
      set (io' := It (i_val io) (i_ref io) (i_const io) k (i_name io) (i_nx io) (i_pv io) (i_ch io)).
      set (h' := set (set (ms_h s1) (i_vs io) Free) o (BI io')).
      assert (X : forall a, a <> i_vs io -> a <> k -> a <> o -> h' a = ms_h s a) by (intros a Y1 Y2 Y3; unfold h'; sets; rewrite H1; sets; reflexivity).
      assert (Ek : h' k = BS (zdrop off t)) by (unfold h'; sets; rewrite H1; sets; reflexivity).
      assert (FULL : forall a, In a (o :: [i_vs io] ++ F2 ++ F3) -> a <> k) by (intros a J ->; exact (owns_full _ _ _ _ _ O0 J HF)).
      assert (X2 : forall a, In a (F2 ++ F3) -> h' a = ms_h s a).
      { intros a J. apply X; [intros ->; exact (NV J)|apply FULL; right; right; exact J|intros ->; apply NO; right; exact J]. }
      split; [exact Ek|]. exists (o :: [k] ++ F2 ++ F3). split; [|split; [|split; [|split; [|split]]]].
      * change (i_val io) with (i_val io'). apply (o_item h' o io' (Some (zdrop off t)) nm kids [k] F2 F3 q z); auto.
        -- unfold h'. apply set_eq.
        -- constructor; [exact NZ|exact Ek].
        -- eapply named_frame; [exact N|]. intros x J. apply X2. apply in_or_app. auto.
        -- eapply chain_frame; [exact C|]. intros x J. apply X2. apply in_or_app. auto.
      * constructor; [intros [Y|Y]; [congruence|apply NO; right; exact Y]|]. constructor; [|exact NDF2].
        intros Y. apply (FULL k); [right; right; exact Y|reflexivity].
      * intros a [<-|[<-|J]]; [left; left; reflexivity|right; exact HF|left; right; right; exact J].
      * intros a J [<-|[<-|K]]; [destruct J; left; reflexivity| |destruct J; right; right; exact K]. unfold h'. sets. reflexivity.
      * intros a J1 J2. apply X; [intros ->; apply J2; right; left; reflexivity|intros ->; apply J1; right; left; reflexivity|intros ->; apply J2; left; reflexivity].
      * intros j j' Y1 Y2. unfold h' in Y2. rewrite set_eq in Y2. injection Y2 as <-. rewrite Eo in Y1. injection Y1 as <-. split; reflexivity.
Qed.
Print Assumptions C154_text_partial.

(** other items, and references, are left alone: NULL is the answer *)
Theorem C154_others : forall s o io src off, o <> 0 -> ms_h s o = BI io -> Z.testbit (i_val io) 4 = false \/ i_ref io = true ->
  set_text s o src off = Ok (SRet 0 s).
Proof.
  intros s o io src off OZ E H. unfold set_text. rewrite (rd_item_ok _ _ _ OZ E). cbn [bind]. unfold is_string.
  destruct H as [-> | ->]; [reflexivity|]. rewrite orb_true_r. reflexivity.
Qed.
Print Assumptions C154_others.

(** ** cJSON_CreateIntArray and the others *)
Definition elem_is (h : mem) (e : elem) (v : jv) : Prop :=
  exists tx, text_at h (e_ws e) (e_str e) tx /\ v = JV (e_val e) tx (NText None) [].
Lemma elem_frame h h' e v : elem_is h e v -> (forall a, h a <> Free -> h' a = h a) -> elem_is h' e v.
Proof.
  intros (tx & T & ->) H. exists tx. split; [|reflexivity]. unfold text_at in *. destruct (e_ws e); [|exact T].
  destruct T as (t & A & B & ->). exists t. split; [exact A|]. split; [rewrite H; congruence|reflexivity].
Qed.

Lemma fill_ok h0 a : a <> 0 -> forall es vs, Forall2 (elem_is h0) es vs -> forall s c p l F,
  ms_h s a = BI (It 32 false false 0 0 0 0 c) -> chain (ms_h s) 0 c l F p -> NoDup (a :: F) -> more h0 (a :: F) (ms_h s) -> ms_no s = false ->
  exists N x s', (forall fuel, (N <= fuel)%nat -> fill fuel s a p es = Ok (x, s')) /\
    ((x = 0 /\ ms_no s' = true /\ same h0 (ms_h s')) \/
     (x = a /\ ms_no s' = false /\ exists G, tree (ms_h s') a (JV 32 None (NText None) (l ++ vs)) (a :: G) /\ more h0 (a :: G) (ms_h s'))).
Proof.
  intros AZ es vs FA. induction FA as [|e v es vs EI FA IH]; intros s c p l F E C ND M NO.
  - cbn [fill]. rewrite (rd_item_ok _ _ _ AZ E). cbn [bind i_ch]. inversion ND as [|? ? NA NDF]; subst.
    destruct (chain_last _ _ _ _ _ _ C) as [(-> & -> & -> & ->)|(NE & CZ & PZ & JP & JC & _)].
    + exists 0%nat, a, s. split; [reflexivity|]. right. split; [reflexivity|]. split; [exact NO|]. exists []. split; [|exact M].
      split; [|split; [exact ND|eexists; split; [exact E|split; reflexivity]]].
      apply (o_item (ms_h s) a (It 32 false false 0 0 0 0 0) None (NText None) [] [] [] [] 0 0); auto; repeat constructor.
    + rewrite (eqb0 c CZ). assert (CA : c <> a) by (intros ->; exact (NA JC)).
      assert (Y : exists ic, ms_h s c = BI ic).
      { inversion C; subst; [congruence|]. eexists; eassumption. }
      destruct Y as (ic & Ec). rewrite (w_pv_ok _ _ _ p CZ Ec). cbn [bind].
      eexists 0%nat, a, _. split; [reflexivity|]. right. split; [reflexivity|]. split; [exact NO|]. cbn [ms_h hs]. exists F.
      set (h' := set (ms_h s) c (BI (linked ic (i_nx ic) p))).
      assert (Ea : h' a = BI (It 32 false false 0 0 0 0 c)) by (unfold h'; sets; exact E).
      split; [split; [|split; [exact ND|eexists; split; [exact Ea|split; reflexivity]]]|].
      * apply (o_item h' a (It 32 false false 0 0 0 0 c) None (NText None) (l ++ []) [] [] F p p); auto; try constructor; try constructor.
        cbn [i_ch]. rewrite app_nil_r. eapply chain_first; [exact C|exact NE|exact NDF|exact Ec|apply set_eq|apply sbl_linked|reflexivity|reflexivity|].
        intros x J Y. apply set_ne. exact Y.
      * split; [exact (proj1 M)|]. intros x J. unfold h'. rewrite set_ne by (intros ->; apply J; right; exact JC). apply (proj2 M). exact J.
  - cbn [fill]. inversion ND as [|? ? NA NDF]; subst.
    assert (EI' : elem_is (ms_h s) e v).
    { eapply elem_frame; [exact EI|]. intros b Y. apply (proj2 M). intros J. exact (Y (proj1 M b J)). }
    destruct EI' as (tx & TX & ->).
    destruct (create_ok s (e_val e) (e_ws e) (e_str e) tx TX) as (N1 & n & s1 & D1 & [(-> & NO1 & SM)|(NO1 & G & T & M1)]).
    + assert (E1 : ms_h s1 a = BI (It 32 false false 0 0 0 0 c)) by (rewrite SM; exact E).
      destruct (dup_fail_ok s1 a _ None (NText None) [] [] F 0 p l AZ E1 eq_refl eq_refl) as (N2 & h2 & D2 & G2); auto.
      * constructor.
      * constructor. constructor.
      * eapply chain_frame; [exact C|]. intros x _. apply SM.
      * exists (N1 + N2)%nat, 0, (hs s1 h2). split; [|left; split; [reflexivity|split; [exact NO1|]]].
        -- intros fuel L. rewrite D1 by lia. cbn [bind fst snd]. change (0 =? 0) with true. cbv iota. apply D2. lia.
        -- cbn [ms_h hs]. eapply more_gone; [|exact G2]. cbn [app]. split; [exact (proj1 M)|]. intros x J. rewrite SM. apply (proj2 M). exact J.
    + pose proof T as (TO & TN & itn & En & NXn & PVn).
      assert (NZ : n <> 0) by (eapply owns_nz; exact TO). assert (JN : In n G) by (eapply owns_self; exact TO).
      assert (DJ : forall x, In x (a :: F) -> ~ In x G).
      { intros x J K. apply (proj1 M1) in K. destruct J as [<-|J]; [congruence|]. exact (chain_full _ _ _ _ _ _ x C J K). }
      assert (NAn : n <> a) by (intros ->; apply (DJ a); [left; reflexivity|exact JN]).
      assert (GA : ~ In a G) by (apply DJ; left; reflexivity).
      assert (E1 : ms_h s1 a = BI (It 32 false false 0 0 0 0 c)) by (rewrite (proj2 M1) by exact GA; exact E).
      assert (C1 : chain (ms_h s1) 0 c l F p).
      { eapply chain_frame; [exact C|]. intros x J. apply (proj2 M1). apply DJ. right. exact J. }
      assert (NDG : NoDup (F ++ G)) by (apply NoDup_join; [exact NDF|exact TN|intros x J K; exact (DJ x (or_intror J) K)]).
      assert (ND' : NoDup (a :: F ++ G)) by (constructor; [rewrite in_app_iff; tauto|exact NDG]).
      (* linking *)
      assert (LK : exists h2 c', (if p =? 0 then w_ch (ms_h s1) a n else let* h := w_nx (ms_h s1) p n in w_pv h n p) = Ok h2 /\
        h2 a = BI (It 32 false false 0 0 0 0 c') /\ chain h2 0 c' (l ++ [JV (e_val e) tx (NText None) []]) (F ++ G) n /\
        (forall x, ~ In x (a :: F ++ G) -> h2 x = ms_h s1 x)).
      { destruct (chain_last _ _ _ _ _ _ C1) as [(-> & -> & -> & ->)|(NE & CZ & PZ & JP & JC & ip & Ep & NXp)].
        - change (0 =? 0) with true. cbv iota. rewrite (w_ch_ok _ _ _ n AZ E1). eexists _, n. split; [reflexivity|].
          split; [rewrite set_eq; reflexivity|]. split.
          + cbn [app]. rewrite <- (app_nil_r G). eapply c_cons; [rewrite set_ne by exact NAn; exact En|exact PVn| |rewrite NXn; constructor].
            eapply owns_frame; [exact TO|]. intros x J. apply set_ne. intros ->. exact (GA J).
          + intros x J. apply set_ne. intros ->. apply J. left. reflexivity.
        - rewrite (eqb0 p PZ). assert (PN : p <> n) by (intros ->; exact (DJ n (or_intror JP) JN)). assert (PA : p <> a) by (intros ->; exact (NA JP)).
          rewrite (w_nx_ok _ _ _ n PZ Ep). cbn [bind]. rewrite (w_pv_ok _ n itn p NZ) by (sets; exact En).
          eexists _, c. split; [reflexivity|]. split; [sets; exact E1|]. split.
          + eapply chain_snoc with (z := p) (iz := ip) (ip := itn); [exact C1|exact NE|exact TO|exact NDG|exact Ep|sets; reflexivity|apply sbl_linked|reflexivity|reflexivity|exact En|apply set_eq|apply sbl_linked|reflexivity|exact NXn|].
            intros x J X1 X2. sets. reflexivity.
          + intros x J. rewrite !set_ne; [reflexivity| |]; intros ->; apply J; right; apply in_or_app; auto. }
      destruct LK as (h2 & c' & D2 & E2 & C2 & X2).
      destruct (IH (hs s1 h2) c' n (l ++ [JV (e_val e) tx (NText None) []]) (F ++ G)) as (N3 & x & s3 & D3 & R3); auto.
      * cbn [ms_h hs]. split.
        -- intros b [<-|J]; [apply (proj1 M); left; reflexivity|]. apply in_app_or in J as [J|J]; [apply (proj1 M); right; exact J|].
           assert (Y := proj1 M1 b J). rewrite (proj2 M) in Y; [exact Y|]. intros K. exact (DJ b K J).
        -- intros b J. rewrite X2 by exact J. rewrite (proj2 M1), (proj2 M); [reflexivity| |]; intros K; apply J; cbn [In]; rewrite in_app_iff; cbn [In] in K; tauto.
      * cbn [ms_no hs]. congruence.
      * exists (N1 + N3)%nat, x, s3. rewrite <- app_assoc in R3. split; [|exact R3].
        intros fuel L. rewrite D1 by lia. cbn [bind fst snd]. rewrite (eqb0 n NZ), D2. cbn [bind]. apply D3. lia.
Qed.

(** Whatever malloc answers: the array has the elements in their order and owns all of its
    memory; or memory was refused, the answer is NULL and memory is as before. *)
Theorem C154_array : forall s es vs, Forall2 (elem_is (ms_h s)) es vs -> ms_no s = false ->
  exists N p s', (forall fuel, (N <= fuel)%nat -> create_array fuel s es = Ok (p, s')) /\
    ((p = 0 /\ ms_no s' = true /\ same (ms_h s) (ms_h s')) \/
     (p <> 0 /\ ms_no s' = false /\ exists G, tree (ms_h s') p (JV 32 None (NText None) vs) G /\ more (ms_h s) G (ms_h s'))).
Proof.
  intros s es vs FA NO. unfold create_array, create.
  destruct (alloc_cases s (BI (It 0 false false 0 0 0 0 0))) as (k & s1 & -> & [(-> & H1 & NO1)|(NZ & HF & H1 & NO1)]); cbn [fst snd].
  { exists 0%nat, 0, s1. split; [reflexivity|]. left. split; [reflexivity|]. split; [exact NO1|]. intros a. rewrite H1. reflexivity. }
  rewrite (eqb0 k NZ). cbn [bind fst snd]. rewrite (eqb0 k NZ).
  destruct (fill_ok (ms_h s) k NZ es vs FA (hs s1 (set (ms_h s1) k (BI (It 32 false false 0 0 0 0 0)))) 0 0 [] []) as (N & x & s' & D & R).
  - apply set_eq.
  - constructor.
  - constructor; [intros []|constructor].
  - cbn [ms_h hs]. split; [intros a [<-|[]]; exact HF|]. intros a J. rewrite H1. rewrite !set_ne; [reflexivity| |]; intros ->; apply J; left; reflexivity.
  - cbn [ms_no hs]. congruence.
  - exists N, x, s'. split; [exact D|]. destruct R as [R|(-> & R1 & G & R2 & R3)]; [left; exact R|right]. split; [exact NZ|]. split; [exact R1|]. exists (k :: G). auto.
Qed.
Print Assumptions C154_array.

(** Part of the item's own text, given as the new one: strcpy with texts that overlap. *)
Theorem C154_refuted_own : forall s o io n old nm kids F off,
  owns (ms_h s) o (JV n (Some old) nm kids) F -> ms_h s o = BI io -> Z.testbit n 4 = true -> 0 <= off ->
  set_text s o (i_vs io) off = Ok SOverlap.
Proof.
  intros s o io n old nm kids F off O Eo ST L. apply owns_inv in O as (it & F1 & F2 & F3 & q & z & OZ & E & V & R & T & _).
  rewrite Eo in E. injection E as <-. subst n. inversion T as [|a u AZ AE X1 X2 X3]; subst.
  unfold set_text. rewrite (rd_item_ok _ _ _ OZ Eo). cbn [bind]. unfold is_string. rewrite ST, R. cbn [negb orb].
  unfold rd_str. rewrite (eqb0 _ AZ), AE. cbn [bind]. rewrite Z.eqb_refl.
  assert (Y : zlen (zdrop off old) <=? zlen old = true).
  { apply Z.leb_le. unfold zdrop, zlen. rewrite skipn_length. lia. }
  rewrite Y. reflexivity.
Qed.
Print Assumptions C154_refuted_own.

(** The array [hr] of a reference to the string item 8. A longer text for the item releases the
    text that the reference has: reading the reference's value afterwards is use after release.
    A shorter one changes the value of the reference. *)
Theorem C154_refuted_shared : exists s src1 src2 (w : jv),
  reads (ms_h s) 1 w /\ tree (ms_h s) 8 (JV 16 (Some [120; 121]) (NText None) []) [8; 9] /\
  (exists p s' i, set_text s 8 src1 0 = Ok (SRet p s') /\ p <> 0 /\ ms_h s' 2 = BI i /\ rd_str (ms_h s') (i_vs i) = Fault FUaf) /\
  (exists p s' i, set_text s 8 src2 0 = Ok (SRet p s') /\ p <> 0 /\ ms_h s' 2 = BI i /\ rd_str (ms_h s') (i_vs i) = Ok [122]).
Proof.
  exists (Ms (set (set hr 20 (BS [97; 98; 99])) 21 (BS [122])) [Some 30] false), 20, 21,
    (JV 32 None (NText None) [JV 16 (Some [120; 121]) (NText (Some [97])) []]).
  split; [|split; [|split]].
  - cbn [ms_h]. apply (r_item _ 1 (It 32 false false 0 0 0 0 2) None (NText None) _ [] []); try reflexivity; try discriminate; repeat constructor.
    apply (r_cons _ 2 (It 16 true false 9 3 0 2 0)); [reflexivity| |constructor].
    apply (r_item _ 2 (It 16 true false 9 3 0 2 0) (Some [120; 121]) (NText (Some [97])) [] [9] [3]); try reflexivity; try discriminate; repeat constructor; discriminate.
  - split; [|split; [repeat constructor; cbn; intuition discriminate|eexists; split; [reflexivity|split; reflexivity]]].
    apply (o_item _ 8 (It 16 false false 9 0 0 0 0) (Some [120; 121]) (NText None) [] [9] [] [] 0 0); try reflexivity; try discriminate; repeat constructor; try discriminate.
  - do 3 eexists. split; [vm_compute; reflexivity|]. split; [discriminate|]. split; [reflexivity|reflexivity].
  - do 3 eexists. split; [vm_compute; reflexivity|]. split; [discriminate|]. split; [reflexivity|reflexivity].
Qed.
Print Assumptions C154_refuted_shared.

(** ** Taking a member out of an object *)
Lemma detach_ok (h : mem) o io k1 F1 y x ix k2 F2 z : o <> 0 -> x <> 0 -> o <> x ->
  h o = BI io -> h x = BI ix -> seg h z (i_ch io) k1 F1 y x -> i_pv ix = y -> seg h x (i_nx ix) k2 F2 z 0 ->
  NoDup (F1 ++ F2) -> (forall a, In a (F1 ++ F2) -> a <> o /\ a <> x) ->
  exists hb c' z', detach_at h o x = Ok (x, hb) /\ hb o = BI (with_ch io c') /\ hb x = BI (linked ix 0 0) /\
    chain hb z' c' (k1 ++ k2) (F1 ++ F2) z' /\ (forall a, a <> o -> a <> x -> ~ In a (F1 ++ F2) -> hb a = h a).
Proof.
  intros OZ XZ OX Eo Ex S1 PV S2 ND DJ.
  assert (ND1 := NoDup_app_l _ _ ND). assert (ND2 := NoDup_app_r _ _ ND).
  assert (FIN : forall (h4 : mem), h4 x = BI ix -> (let* h := w_pv h4 x 0 in let* h := w_nx h x 0 in Ok (x, h)) =
     Ok (x, set (set h4 x (BI (linked ix (i_nx ix) 0))) x (BI (linked ix 0 0)))).
  { intros h4 E4. rewrite (w_pv_ok _ _ _ _ XZ E4). cbn [bind].
    rewrite (w_nx_ok (set h4 x _) x (linked ix (i_nx ix) 0) 0 XZ) by apply set_eq. reflexivity. }
  unfold detach_at. rewrite (eqb0 o OZ), (eqb0 x XZ). cbn [orb]. rewrite (rd_item_ok _ _ _ OZ Eo). cbn [bind].
  destruct (seg_ends _ _ _ _ _ _ _ S1) as [(-> & C0 & YZ & ->)|(NE & CZ & YNZ & JY & JC & (iy & Ey & NXy) & (ic & Ec & PVc))].
  - (* the first member *)
    rewrite C0, Z.eqb_refl. cbn [bind]. rewrite (rd_item_ok _ _ _ XZ Ex). cbn [bind]. cbn [app] in *.
    destruct (seg_ends _ _ _ _ _ _ _ S2) as [(-> & N0 & -> & ->)|(NE & CZ & _ & JZ & JE & _ & (ie & Ee & _))].
    + rewrite N0. change (0 =? 0) with true. cbv iota. cbn [bind]. rewrite (rd_item_ok _ _ _ OZ Eo). cbn [bind]. rewrite (rd_item_ok _ _ _ XZ Ex). cbn [bind].
      rewrite C0, Z.eqb_refl, N0. rewrite (w_ch_ok _ _ _ 0 OZ Eo). cbn [bind].
      eexists _, 0, 0. split; [apply FIN; sets; exact Ex|]. sets. split; [reflexivity|]. split; [reflexivity|]. split; [constructor|]. intros a A1 A2 _. sets. reflexivity.
    + rewrite (eqb0 _ CZ). destruct (DJ _ JE) as (D1 & D2). rewrite (w_pv_ok _ _ _ (i_pv ix) CZ Ee). cbn [bind].
      rewrite (rd_item_ok _ o io OZ) by (sets; exact Eo). cbn [bind]. rewrite (rd_item_ok _ x ix XZ) by (sets; exact Ex). cbn [bind].
      rewrite C0, Z.eqb_refl. rewrite (w_ch_ok _ o io (i_nx ix) OZ) by (sets; exact Eo). cbn [bind].
      eexists _, (i_nx ix), z. split; [apply FIN; sets; exact Ex|]. sets. split; [reflexivity|]. split; [reflexivity|]. split.
      * apply seg_chain with (e := 0); [|reflexivity]. eapply seg_first; [exact S2|exact NE|exact ND2|exact Ee|sets; reflexivity|apply sbl_linked|reflexivity|cbn [i_pv linked]; congruence|].
        intros a J A. destruct (DJ a J) as (A1 & A2). sets. reflexivity.
      * intros a A1 A2 A3. assert (a <> i_nx ix) by (intros ->; exact (A3 JE)). sets. reflexivity.
  - (* not the first member *)
    destruct (DJ (i_ch io)) as (DC1 & DC2); [apply in_or_app; auto|]. destruct (DJ y) as (DY1 & DY2); [apply in_or_app; auto|].
    destruct (Z.eqb_spec x (i_ch io)) as [|_]; [congruence|].
    rewrite (rd_item_ok _ _ _ XZ Ex). cbn [bind]. rewrite PV. rewrite (w_nx_ok h y iy (i_nx ix) YNZ Ey). cbn [bind].
    set (h2 := set h y (BI (linked iy (i_nx ix) (i_pv iy)))).
    assert (E2x : h2 x = BI ix) by (unfold h2; sets; exact Ex). assert (E2o : h2 o = BI io) by (unfold h2; sets; exact Eo).
    rewrite (rd_item_ok _ _ _ XZ E2x). cbn [bind].
    assert (Q1 : seg h2 z (i_ch io) k1 F1 y (i_nx ix)).
    { eapply seg_last; [exact S1|exact NE|exact ND1|exact Ey|unfold h2; apply set_eq|apply sbl_linked|reflexivity|reflexivity|]. intros a J A. unfold h2. apply set_ne. exact A. }
    destruct (seg_ends _ _ _ _ _ _ _ S2) as [(-> & N0 & -> & ->)|(NE2 & CZ2 & _ & JZ & JE & _ & (ie & Ee & _))].
    + rewrite N0 in *. change (0 =? 0) with true. cbv iota. cbn [bind]. rewrite (rd_item_ok _ _ _ OZ E2o). cbn [bind]. rewrite (rd_item_ok _ _ _ XZ E2x). cbn [bind].
      destruct (Z.eqb_spec x (i_ch io)) as [|_]; [congruence|]. rewrite N0. change (0 =? 0) with true. cbv iota.
      destruct (seg_ends _ _ _ _ _ _ _ Q1) as [(? & _)|(_ & _ & _ & _ & _ & _ & (jc & E2c & _))]; [congruence|].
      rewrite (w_pv_ok h2 (i_ch io) jc (i_pv ix) CZ E2c). cbn [bind].
      eexists _, (i_ch io), y. split; [apply FIN; sets; exact E2x|]. sets. split; [rewrite with_ch_self; exact E2o|]. split; [reflexivity|]. rewrite !app_nil_r. split.
      * apply seg_chain with (e := 0); [|reflexivity]. eapply seg_first; [exact Q1|exact NE|exact ND1|exact E2c|sets; reflexivity|apply sbl_linked|reflexivity|exact PV|].
        intros a J A. destruct (DJ a) as (A1 & A2); [rewrite app_nil_r; exact J|]. sets. reflexivity.
      * intros a A1 A2 A3. assert (a <> i_ch io) by (intros ->; exact (A3 JC)). sets. unfold h2. apply set_ne. intros ->. exact (A3 JY).
    + rewrite (eqb0 _ CZ2). destruct (DJ (i_nx ix)) as (D1 & D2); [apply in_or_app; auto|].
      assert (YE : i_nx ix <> y) by (intros Y; rewrite Y in JE; exact (NoDup_app_no _ _ y ND JY JE)).
      rewrite (w_pv_ok h2 (i_nx ix) ie (i_pv ix) CZ2) by (unfold h2; sets; exact Ee). cbn [bind].
      rewrite (rd_item_ok _ o io OZ) by (sets; exact E2o). cbn [bind]. rewrite (rd_item_ok _ x ix XZ) by (sets; exact E2x). cbn [bind].
      destruct (Z.eqb_spec x (i_ch io)) as [|_]; [congruence|]. rewrite (eqb0 _ CZ2). cbn [bind].
      eexists _, (i_ch io), z. split; [apply FIN; sets; exact E2x|]. sets. split; [rewrite with_ch_self; exact E2o|]. split; [reflexivity|]. split.
      * apply seg_chain with (e := 0); [|reflexivity]. apply seg_app with (y := y) (x := i_nx ix).
        -- eapply seg_frame; [exact Q1|]. intros a J. destruct (DJ a) as (A1 & A2); [apply in_or_app; auto|].
           assert (a <> i_nx ix) by (intros ->; exact (NoDup_app_no _ _ _ ND J JE)). sets. reflexivity.
        -- eapply seg_first; [exact S2|exact NE2|exact ND2|exact Ee|sets; reflexivity|apply sbl_linked|reflexivity|exact PV|].
           intros a J A. destruct (DJ a) as (A1 & A2); [apply in_or_app; auto|].
           assert (a <> y) by (intros ->; exact (NoDup_app_no _ _ _ ND JY J)). sets. unfold h2. sets. reflexivity.
      * intros a A1 A2 A3. assert (a <> i_nx ix) by (intros ->; apply A3; apply in_or_app; auto). assert (a <> y) by (intros ->; apply A3; apply in_or_app; auto).
        sets. unfold h2. sets. reflexivity.
Qed.

(** The first member of that name is taken out: it is a tree of its own with all its memory, the
    object has the others in their order and owns the rest; or there is no such member, the
    answer is NULL, and memory is as before. *)
Theorem C155_detach : forall h o n vs nm kids F key t cs,
  owns h o (JV n vs nm kids) F -> NoDup F -> object_like kids -> key <> 0 -> h key = BS t ->
  exists N x h', (forall fuel, (N <= fuel)%nat -> detach_member fuel h o key cs = Ok (x, h')) /\
    ((x = 0 /\ Forall (fun u => ~ called cs t u) kids /\ h' = h) \/
     (exists k1 v k2 Fo Fx, kids = k1 ++ v :: k2 /\ Forall (fun u => ~ called cs t u) k1 /\ called cs t v /\
        owns h' o (JV n vs nm (k1 ++ k2)) Fo /\ tree h' x v Fx /\ NoDup (Fo ++ Fx) /\ (forall a, In a F <-> In a (Fo ++ Fx)) /\
        (forall a, ~ In a F -> h' a = h a) /\ (forall i i', h o = BI i -> h' o = BI i' -> i_nx i' = i_nx i /\ i_pv i' = i_pv i))).
Proof.
  intros h o n vs nm kids F key t cs O ND OL KZ KE.
  apply owns_inv in O as (io & T1 & T2 & F3 & q & z & OZ & Eo & Vo & Ro & To & No & Co & Do & FE).
  assert (GI : forall fuel, get_item fuel h o key cs = let* c := seek fuel h t (i_ch io) cs in
      if c =? 0 then Ok 0 else let* i := rd_item h c in Ok (if i_name i =? 0 then 0 else c)).
  { intros fuel. unfold get_item. rewrite (eqb0 o OZ), (eqb0 key KZ). cbn [orb]. unfold rd_str. rewrite (eqb0 key KZ), KE. cbn [bind].
    rewrite (rd_item_ok _ _ _ OZ Eo). reflexivity. }
  destruct (seek_ok h t cs q (i_ch io) kids F3 z Co OL) as [(FA & N & SK)|(k1 & v & k2 & F1 & Fx & F2 & y & x & ix & N & EK & FA & CV & EF & S1 & Ex & PV & OX & S2 & NMZ & SK)].
  - exists N, 0, h. split; [|left; auto]. intros fuel L. unfold detach_member. rewrite GI, SK by exact L. cbn [bind]. change (0 =? 0) with true. cbv iota. cbn [bind].
    unfold detach_at. change (0 =? 0) with true. rewrite orb_true_r. reflexivity.
  - assert (QZ : q = z) by (destruct Do as [Do|Do]; [subst kids; destruct k1; discriminate|exact Do]). subst q.
    assert (XZ : x <> 0) by (eapply owns_nz; exact OX). assert (JX : In x Fx) by (eapply owns_self; exact OX).
    subst F F3. inversion ND as [|? ? NO ND']; subst. rewrite !in_app_iff in NO.
    assert (NDa : NoDup ((T1 ++ T2) ++ F1 ++ Fx ++ F2)) by (rewrite <- app_assoc; exact ND').
    assert (NDF := NoDup_app_r _ _ NDa). assert (NDF2 := NoDup_app_r _ _ NDF).
    assert (D1 : forall a, In a T1 \/ In a T2 -> ~ (In a F1 \/ In a Fx \/ In a F2)) by (intros a J K; apply (NoDup_app_no _ _ a NDa); rewrite !in_app_iff; auto).
    assert (D2 : forall a, In a F1 -> ~ (In a Fx \/ In a F2)) by (intros a J K; apply (NoDup_app_no _ _ a NDF); rewrite ?in_app_iff; auto).
    assert (D3 : forall a, In a Fx -> ~ In a F2) by (intros a J K; exact (NoDup_app_no _ _ a NDF2 J K)).
    assert (ND12 : NoDup (F1 ++ F2)).
    { apply NoDup_join; [eapply NoDup_app_l; exact NDF|eapply NoDup_app_r; exact NDF2|]. intros a J K. apply (D2 a J). auto. }
    assert (OX' : o <> x) by (intros ->; tauto).
    destruct (detach_ok h o io k1 F1 (i_pv ix) x ix k2 F2 z OZ XZ OX' Eo Ex S1 eq_refl S2 ND12) as (hb & c' & z' & DT & Bo & Bx & Q & B).
    { intros a J. apply in_app_or in J. split; intros ->; [tauto|]. destruct J as [J|J]; [apply (D2 x J); auto|exact (D3 x JX J)]. }
    exists N, x, hb. split.
    { intros fuel L. unfold detach_member. rewrite GI, SK by exact L. cbn [bind]. rewrite (eqb0 x XZ), (rd_item_ok _ _ _ XZ Ex). cbn [bind]. rewrite (eqb0 _ NMZ). exact DT. }
    right. exists k1, v, k2, (o :: T1 ++ T2 ++ F1 ++ F2), Fx. split; [reflexivity|]. split; [exact FA|]. split; [exact CV|].
    assert (BT : forall a, In a T1 \/ In a T2 -> hb a = h a).
    { intros a J. specialize (D1 a J). apply B; [intros ->; tauto|intros ->; tauto|]. rewrite in_app_iff. tauto. }
    split; [|split; [split; [|split]|split; [|split; [|split]]]].
    + change (i_val io) with (i_val (with_ch io c')).
      apply (o_item hb o (with_ch io c') vs nm (k1 ++ k2) T1 T2 (F1 ++ F2) z' z'); auto; cbn [i_vs i_const i_name i_ch with_ch].
      * eapply text_frame; [exact To|]. intros a J. apply BT. auto.
      * eapply named_frame; [exact No|]. intros a J. apply BT. auto.
    + eapply owns_links; [exact OX|eapply NoDup_app_l; exact NDF2|exact Ex|exact Bx|apply sbl_linked|]. intros a J A. apply B; [intros ->; tauto|exact A|].
      rewrite in_app_iff. intros [K|K]; [apply (D2 a K); auto|exact (D3 a J K)].
    + eapply NoDup_app_l; exact NDF2.
    + exists (linked ix 0 0). auto.
    + cbn [app]. constructor; [rewrite !in_app_iff; tauto|]. rewrite <- !app_assoc. apply NoDup_join; [eapply NoDup_app_l; exact ND'| |].
      * apply NoDup_join; [apply NoDup_app_r in ND'; eapply NoDup_app_l; exact ND'| |].
        -- apply NoDup_join; [eapply NoDup_app_l; exact NDF| |].
           ++ apply NoDup_join; [eapply NoDup_app_r; exact NDF2|eapply NoDup_app_l; exact NDF2|]. intros a J K. exact (D3 a K J).
           ++ intros a J K. apply (D2 a J). apply in_app_or in K. tauto.
        -- intros a J K. apply (D1 a); [auto|]. rewrite !in_app_iff in K. tauto.
      * intros a J K. apply (NoDup_app_no _ _ a ND' J). rewrite !in_app_iff in *. tauto.
    + intros a. cbn [app In]. rewrite !in_app_iff. tauto.
    + intros a J. cbn [In] in J. rewrite !in_app_iff in J. apply B; [intros ->; tauto|intros ->; tauto|rewrite in_app_iff; tauto].
    + intros i i' Y1 Y2. rewrite Eo in Y1. injection Y1 as <-. rewrite Bo in Y2. injection Y2 as <-. split; reflexivity.
Qed.
Print Assumptions C155_detach.

(** Deleting the member releases its memory, all of it and nothing else. *)
Theorem C155_delete : forall h o n vs nm kids F key t cs,
  owns h o (JV n vs nm kids) F -> NoDup F -> object_like kids -> key <> 0 -> h key = BS t ->
  exists N h', (forall fuel, (N <= fuel)%nat -> delete_member fuel h o key cs = Ok h') /\
    ((Forall (fun u => ~ called cs t u) kids /\ h' = h) \/
     (exists k1 v k2, kids = k1 ++ v :: k2 /\ Forall (fun u => ~ called cs t u) k1 /\ called cs t v /\ given h o (JV n vs nm (k1 ++ k2)) F h')).
Proof.
  intros h o n vs nm kids F key t cs O ND OL KZ KE.
  destruct (C155_detach h o n vs nm kids F key t cs O ND OL KZ KE) as (N & x & h1 & D & [(-> & FA & ->)|(k1 & v & k2 & Fo & Fx & EK & FA & CV & OO & T & NDx & FE & FR & LK)]).
  - exists (S N), h. split; [|left; auto]. intros fuel L. unfold delete_member. rewrite D by lia. cbn [bind fst snd]. destruct fuel; [lia|reflexivity].
  - destruct (tree_delete _ _ _ _ T) as (N2 & h2 & D2 & G1 & G2). exists (N + N2)%nat, h2. split.
    { intros fuel L. unfold delete_member. rewrite D by lia. cbn [bind fst snd]. apply D2. lia. }
    assert (DJ : forall a, In a Fo -> ~ In a Fx) by (intros a J K; exact (NoDup_app_no _ _ a NDx J K)).
    right. exists k1, v, k2. split; [exact EK|]. split; [exact FA|]. split; [exact CV|]. exists Fo. split; [|split; [|split; [|split; [|split]]]].
    + eapply owns_frame; [exact OO|]. intros a J. apply G2. apply DJ. exact J.
    + eapply NoDup_app_l; exact NDx.
    + intros a J. left. apply FE. apply in_or_app. auto.
    + intros a J K. apply FE in K. apply in_app_or in K as [K|K]; [contradiction|]. apply G1. exact K.
    + intros a J K. rewrite G2 by (intros Y; apply K; apply FE; apply in_or_app; auto). apply FR. exact K.
    + intros i i' Y1 Y2. apply (LK i i' Y1). rewrite <- G2; [exact Y2|]. apply DJ. eapply owns_self; exact OO.
Qed.
Print Assumptions C155_delete.

(** ** Examples *)
(** the string item 2 of [h2], with a longer text (20) and a shorter one (part of 20), and without memory *)
Example ex_C154_text : let s := Ms (set h2 20 (BS [97; 98; 99])) [Some 30] false in
  (exists s', set_text s 2 20 0 = Ok (SRet 30 s') /\ ms_h s' 30 = BS [97; 98; 99] /\ ms_h s' 4 = Free) /\
  (exists s', set_text s 2 20 2 = Ok (SRet 4 s') /\ ms_h s' 4 = BS [99] /\ ms_h s' 30 = Free) /\
  (exists s', set_text (Ms (ms_h s) [None] false) 2 20 0 = Ok (SRet 0 s') /\ ms_h s' 4 = BS [120]) /\
  set_text s 2 4 0 = Ok SOverlap /\ set_text s 3 20 0 = Ok (SRet 0 s) /\
  owns (ms_h s) 2 (JV 16 (Some [120]) (NText (Some [97])) []) [2; 4; 5] /\ Z.testbit 16 4 = true.
Proof.
  split; [eexists; split; [vm_compute; reflexivity|split; reflexivity]|].
  split; [eexists; split; [vm_compute; reflexivity|split; reflexivity]|].
  split; [eexists; split; [vm_compute; reflexivity|reflexivity]|].
  split; [reflexivity|]. split; [reflexivity|]. split; [|reflexivity].
  apply (o_item _ 2 (It 16 false false 4 5 3 3 0) (Some [120]) (NText (Some [97])) [] [4] [5] [] 0 0); try reflexivity; try discriminate; try (left; reflexivity); repeat constructor; discriminate.
Qed.
(** ["b", 7]: made; the third allocation refused *)
Example ex_C154_array : let es := [El 16 true 9; El 7 false 0] in
  Forall2 (elem_is h2) es [JV 16 (Some [98]) (NText None) []; JV 7 None (NText None) []] /\
  (exists s', create_array 9 (Ms h2 [Some 30; Some 31; Some 32; Some 33] false) es = Ok (30, s') /\ ms_h s' 30 = BI (It 32 false false 0 0 0 0 31) /\
     ms_h s' 31 = BI (It 16 false false 32 0 33 33 0) /\ ms_h s' 32 = BS [98] /\ ms_h s' 33 = BI (It 7 false false 0 0 0 31 0)) /\
  (exists s', create_array 9 (Ms h2 [Some 30; Some 31; Some 32; None] false) es = Ok (0, s') /\ ms_h s' 30 = Free /\ ms_h s' 31 = Free /\ ms_h s' 32 = Free).
Proof.
  split; [repeat constructor; eexists; (split; [|reflexivity])|].
  - exists [98]. repeat split. discriminate.
  - reflexivity.
  - split; eexists; (split; [vm_compute; reflexivity|]); repeat split.
Qed.
(** "b" taken out of {"a": "x", "b": 7}, by a name in other letters, and deleted; a name that is not there *)
Example ex_C155 : owns h2 1 (JV 64 None (NText None) [m2; m3]) [1; 2; 4; 5; 3; 6] /\ NoDup [1; 2; 4; 5; 3; 6] /\ object_like [m2; m3] /\
  (exists h', detach_member 9 h2 1 9 true = Ok (3, h') /\ h' 2 = BI (It 16 false false 4 5 0 2 0) /\ h' 3 = BI (It 7 false false 0 6 0 0 0) /\ h' 1 = h2 1) /\
  (exists h', delete_member 9 (set h2 9 (BS [66])) 1 9 false = Ok h' /\ h' 3 = Free /\ h' 6 = Free /\ h' 4 = BS [120]) /\
  (exists h', delete_member 9 (set h2 9 (BS [66])) 1 9 true = Ok h' /\ h' 3 = h2 3).
Proof.
  split; [exact h2_object|]. split; [repeat constructor; cbn; intuition discriminate|]. split; [repeat constructor; eexists; reflexivity|].
  split; [|split]; eexists; (split; [vm_compute; reflexivity|]); repeat split.
Qed.
