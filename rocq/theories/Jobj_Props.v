(** * C150: members of cJSON objects *)
From Verif Require Import Base Jdup_Model Jdup_Spec Jdup_Proofs Jobj_Model Jobj_Spec Jobj_Proofs.
Open Scope Z_scope.

(** ** cJSON_AddItemToObject
    Whatever malloc answers: the object has the item as its last member, under the name, and
    owns it with a name of its own; or, if and only if memory was refused, the answer is false
    and memory is as before. The name may be any text, also the name or the text of the item
    itself or of another member. *)
Theorem C150_add : forall s o n vs nm kids F p w G key t,
  owns (ms_h s) o (JV n vs nm kids) F -> tree (ms_h s) p w G -> NoDup (F ++ G) -> key <> 0 -> ms_h s key = BS t ->
  exists ok s', add_to_object s o key p false = Ok (ok, s') /\
    ((ok = false /\ ms_no s' = true /\ same (ms_h s) (ms_h s')) \/
     (ok = true /\ ms_no s' = ms_no s /\ given (ms_h s) o (JV n vs nm (kids ++ [relabel w (NText (Some t))])) (F ++ G) (ms_h s'))).
Proof.
  intros s o n vs nm kids F p w G key t O T ND KZ KE. pose proof T as (P & _).
  assert (OP : o <> p).
  { intros ->. apply (NoDup_app_no _ _ p ND); [eapply owns_self; exact O|eapply owns_self; exact P]. }
  unfold add_to_object. rewrite (eqb0 o (owns_nz _ _ _ _ O)), (eqb0 key KZ), (eqb0 p (owns_nz _ _ _ _ P)).
  destruct (Z.eqb_spec o p) as [|_]; [congruence|]. cbn [orb].
  unfold strdup. rewrite (eqb0 key KZ). unfold rd_str. rewrite (eqb0 key KZ), KE. cbn [bind].
  destruct (alloc_cases s (BS t)) as (k & s1 & -> & [(-> & H1 & NO)|(NZ & HF & H1 & NO)]); cbn [fst snd].
  - exists false, s1. split; [reflexivity|]. left. split; [reflexivity|]. split; [exact NO|]. intros a. rewrite H1. reflexivity.
  - rewrite (eqb0 k NZ).
    destruct (add_with s o n vs nm kids F p w G (ms_h s1) k false (NText (Some t)) [k] O T ND) as (h' & D & GV).
    + intros a Y. rewrite H1, set_ne; [reflexivity|]. intros ->. congruence.
    + constructor. constructor; [exact NZ|]. rewrite H1. apply set_eq.
    + intros a [<-|[]]. exact HF.
    + constructor; [intros []|constructor].
    + intros a Y. rewrite H1, set_ne; [reflexivity|]. intros ->. apply Y. left. reflexivity.
    + destruct (free_name (ms_h s1) p) as [x| |]; cbn [bind] in *; try discriminate.
      destruct (w_name x p k) as [y| |]; cbn [bind] in *; try discriminate.
      destruct (w_const y p false) as [u| |]; cbn [bind] in *; try discriminate. rewrite D. cbn [bind fst snd].
      exists true, (hs s1 h'). split; [reflexivity|]. right. split; [reflexivity|]. split; [exact NO|exact GV].
Qed.
Print Assumptions C150_add.

(** ** cJSON_AddItemToObjectCS: no memory is used, the name stays somebody else's *)
Theorem C150_add_const : forall s o n vs nm kids F p w G key,
  owns (ms_h s) o (JV n vs nm kids) F -> tree (ms_h s) p w G -> NoDup (F ++ G) -> key <> 0 ->
  exists s', add_to_object s o key p true = Ok (true, s') /\ ms_no s' = ms_no s /\ ms_os s' = ms_os s /\
    given (ms_h s) o (JV n vs nm (kids ++ [relabel w (NConst key)])) (F ++ G) (ms_h s').
Proof.
  intros s o n vs nm kids F p w G key O T ND KZ. pose proof T as (P & _).
  assert (OP : o <> p).
  { intros ->. apply (NoDup_app_no _ _ p ND); [eapply owns_self; exact O|eapply owns_self; exact P]. }
  unfold add_to_object. rewrite (eqb0 o (owns_nz _ _ _ _ O)), (eqb0 key KZ), (eqb0 p (owns_nz _ _ _ _ P)).
  destruct (Z.eqb_spec o p) as [|_]; [congruence|]. cbn [orb bind fst snd]. rewrite (eqb0 key KZ).
  destruct (add_with s o n vs nm kids F p w G (ms_h s) key true (NConst key) [] O T ND) as (h' & D & GV).
  - reflexivity.
  - constructor.
  - intros a [].
  - constructor.
  - reflexivity.
  - destruct (free_name (ms_h s) p) as [x| |]; cbn [bind] in *; try discriminate.
    destruct (w_name x p key) as [y| |]; cbn [bind] in *; try discriminate.
    destruct (w_const y p true) as [u| |]; cbn [bind] in *; try discriminate. rewrite D. cbn [bind fst snd].
    exists (hs s h'). split; [reflexivity|]. split; [reflexivity|]. split; [reflexivity|exact GV].
Qed.
Print Assumptions C150_add_const.

(** ** cJSON_AddNullToObject and the others *)
Definition text_at (h : mem) (with_str : bool) (str : Z) (v : option (list Z)) : Prop :=
  if with_str then exists t, str <> 0 /\ h str = BS t /\ v = Some t else v = None.
Lemma create_ok s val ws str v : text_at (ms_h s) ws str v ->
  exists N p s', (forall fuel, (N <= fuel)%nat -> create fuel s val ws str = Ok (p, s')) /\
    ((p = 0 /\ ms_no s' = true /\ same (ms_h s) (ms_h s')) \/
     (ms_no s' = ms_no s /\ exists G, tree (ms_h s') p (JV val v (NText None) []) G /\ more (ms_h s) G (ms_h s'))).
Proof.
  intros TX. unfold create.
  destruct (alloc_cases s (BI (It 0 false false 0 0 0 0 0))) as (k & s1 & -> & [(-> & H1 & NO)|(NZ & HF & H1 & NO)]); cbn [fst snd].
  { exists 0%nat, 0, s1. split; [reflexivity|]. left. split; [reflexivity|]. split; [exact NO|]. intros a. rewrite H1. reflexivity. }
  rewrite (eqb0 k NZ). set (it := It val false false 0 0 0 0 0).
  set (s2 := hs s1 (set (ms_h s1) k (BI it))).
  assert (E2 : ms_h s2 k = BI it) by (apply set_eq).
  assert (X2 : forall a, a <> k -> ms_h s2 a = ms_h s a) by (intros a Y; unfold s2, hs; cbn [ms_h]; rewrite H1; sets; reflexivity).
  destruct ws; cbn [text_at] in TX.
  - destruct TX as (t & SZ & SE & ->).
    assert (SK : str <> k) by congruence.
    unfold strdup. rewrite (eqb0 str SZ). unfold rd_str. rewrite (eqb0 str SZ), X2, SE by exact SK. cbn [bind].
    destruct (alloc_cases s2 (BS t)) as (k3 & s3 & -> & [(-> & H3 & NO3)|(NZ3 & HF3 & H3 & NO3)]); cbn [fst snd].
    + unfold w_vs. rewrite (rd_item_ok _ k it NZ) by (rewrite H3; exact E2). cbn [bind].
      change (0 =? 0) with true. cbv iota. cbn [ms_h hs].
      set (it3 := It (i_val it) (i_ref it) (i_const it) 0 (i_name it) (i_nx it) (i_pv it) (i_ch it)).
      set (h3 := set (ms_h s3) k (BI it3)).
      assert (T3 : tree h3 k (JV val None (NText None) []) [k]).
      { split; [|split; [constructor; [intros []|constructor]|exists it3; unfold h3; sets; auto]].
        apply (o_item h3 k it3 None (NText None) [] [] [] [] 0 0); auto; [unfold h3; sets; reflexivity|constructor|constructor; constructor|constructor]. }
      destruct (tree_delete _ _ _ _ T3) as (N & h4 & D4 & G4 & G4').
      exists N, 0, (hs s3 h4). split; [intros fuel L; unfold hs; cbn [ms_h]; fold h3; rewrite (D4 fuel L); reflexivity|]. left. split; [reflexivity|]. split; [exact NO3|].
      intros a. cbn [ms_h hs]. destruct (Z.eq_dec a k) as [->|Y]; [rewrite G4 by (left; reflexivity); congruence|].
      rewrite G4' by (intros [X|[]]; congruence). unfold h3. sets. rewrite H3. apply X2. exact Y.
    + assert (K3 : k3 <> k) by congruence.
      unfold w_vs. rewrite (rd_item_ok _ k it NZ) by (rewrite H3; sets; exact E2). cbn [bind]. rewrite (eqb0 k3 NZ3).
      eexists 0%nat, k, _. split; [reflexivity|]. right. split; [change (ms_no s3 = ms_no s); rewrite NO3; exact NO|]. cbn [ms_h hs].
      set (it3 := It (i_val it) (i_ref it) (i_const it) k3 (i_name it) (i_nx it) (i_pv it) (i_ch it)).
      set (h3 := set (ms_h s3) k (BI it3)).
      assert (E3 : h3 k3 = BS t) by (unfold h3; sets; rewrite H3; sets; reflexivity).
      exists [k; k3]. split; [split; [|split; [|exists it3; unfold h3; sets; auto]]|split].
      * apply (o_item h3 k it3 (Some t) (NText None) [] [k3] [] [] 0 0); auto; [unfold h3; sets; reflexivity|constructor; assumption|constructor; constructor|constructor].
      * constructor; [intros [|[]]; congruence|constructor; [intros []|constructor]].
      * intros a [<-|[<-|[]]]; [exact HF|]. rewrite <- X2 by exact K3. exact HF3.
      * intros a Y. unfold h3. rewrite set_ne by (intros ->; apply Y; left; reflexivity). rewrite H3, set_ne by (intros ->; apply Y; right; left; reflexivity).
        apply X2. intros ->. apply Y. left. reflexivity.
  - subst v. exists 0%nat, k, s2. split; [reflexivity|]. right. split; [exact NO|]. exists [k]. split; [split; [|split; [|exists it; auto]]|split].
    + apply (o_item (ms_h s2) k it None (NText None) [] [] [] [] 0 0); auto; [constructor|constructor; constructor|constructor].
    + constructor; [intros []|constructor].
    + intros a [<-|[]]. exact HF.
    + intros a Y. apply X2. intros ->. apply Y. left. reflexivity.
Qed.

Theorem C150_new : forall s o n vs nm kids F key t val ws str v,
  owns (ms_h s) o (JV n vs nm kids) F -> NoDup F -> key <> 0 -> ms_h s key = BS t -> text_at (ms_h s) ws str v -> ms_no s = false ->
  exists N p s', (forall fuel, (N <= fuel)%nat -> add_new fuel s o key val ws str = Ok (p, s')) /\
    ((p = 0 /\ ms_no s' = true /\ same (ms_h s) (ms_h s')) \/
     (p <> 0 /\ ms_no s' = false /\ given (ms_h s) o (JV n vs nm (kids ++ [JV val v (NText (Some t)) []])) F (ms_h s'))).
Proof.
  intros s o n vs nm kids F key t val ws str v O ND KZ KE TX NO. unfold add_new.
  destruct (create_ok s val ws str v TX) as (N & p & s1 & D & [(-> & NO1 & SM)|(NO1 & G & T & M1 & M2)]).
  - exists (S N), 0, s1. split; [|left; auto]. intros fuel L. rewrite D by lia. cbn [bind fst snd].
    unfold add_to_object. change (0 =? 0) with true. rewrite Bool.orb_true_r. cbn [orb bind fst snd].
    destruct fuel; [lia|]. cbn [delete]. change (0 =? 0) with true. cbv iota. cbn [bind]. unfold hs. destruct s1. reflexivity.
  - assert (FG : forall a, In a F -> ~ In a G) by (intros a J K; exact (owns_full _ _ _ _ _ O J (M1 a K))).
    assert (O1 : owns (ms_h s1) o (JV n vs nm kids) F) by (eapply owns_frame; [exact O|]; intros a J; apply M2; apply FG; exact J).
    assert (NDFG : NoDup (F ++ G)) by (apply NoDup_join; [exact ND|apply T|intros a J K; exact (FG a J K)]).
    assert (KE1 : ms_h s1 key = BS t) by (rewrite M2; [exact KE|]; intros J; specialize (M1 key J); congruence).
    destruct (C150_add s1 o n vs nm kids F p _ G key t O1 T NDFG KZ KE1) as (ok & s2 & D2 & [(-> & NO2 & SM2)|(-> & NO2 & GV)]).
    + assert (T2 : tree (ms_h s2) p (JV val v (NText None) []) G).
      { destruct T as (TO & TN & it & E & X). split; [|split; [exact TN|exists it; rewrite SM2; auto]]. eapply owns_frame; [exact TO|]. intros a _. apply SM2. }
      destruct (tree_delete _ _ _ _ T2) as (N2 & h3 & D3 & G3 & G3').
      exists (N + N2)%nat, 0, (hs s2 h3). split.
      * intros fuel L. rewrite D by lia. cbn [bind fst snd]. rewrite D2. cbn [bind fst snd]. rewrite D3 by lia. reflexivity.
      * left. split; [reflexivity|]. split; [exact NO2|]. intros a. cbn [ms_h hs].
        destruct (in_dec Z.eq_dec a G) as [J|J]; [rewrite G3, M1 by exact J; reflexivity|]. rewrite G3', SM2, M2 by exact J. reflexivity.
    + exists N, p, s2. split; [intros fuel L; rewrite D by lia; cbn [bind fst snd]; rewrite D2; reflexivity|]. right.
      split; [destruct T as (TO & _); eapply owns_nz; exact TO|]. split; [congruence|].
      destruct GV as (F' & A1 & A2 & A3 & A4 & A5 & A6). exists F'. split; [exact A1|]. split; [exact A2|]. split; [|split; [|split]].
      * intros a J. destruct (A3 a J) as [K|K].
        -- apply in_app_or in K as [K|K]; [auto|right; apply M1; exact K].
        -- right. destruct (in_dec Z.eq_dec a G) as [Y|Y]; [apply M1; exact Y|]. rewrite <- M2 by exact Y. exact K.
      * intros a J K. apply A4; [exact J|apply in_or_app; auto].
      * intros a J K. destruct (in_dec Z.eq_dec a G) as [Y|Y]; [rewrite M1 by exact Y; apply A4; [exact J|apply in_or_app; auto]|].
        rewrite A5, M2; auto. intros Z1. apply in_app_or in Z1 as [Z1|Z1]; contradiction.
      * intros it it' Y1 Y2. apply (A6 it it'); [|exact Y2]. rewrite M2; [exact Y1|]. apply FG. eapply owns_self; exact O.
Qed.
Print Assumptions C150_new.

Lemma nodup_swap {A} (l x b g : list A) : NoDup (l ++ x ++ b ++ g) -> NoDup (l ++ g ++ b).
Proof.
  intros H. pose proof (NoDup_app_r _ _ H) as H1. pose proof (NoDup_app_r _ _ H1) as H2.
  apply NoDup_join; [eapply NoDup_app_l; exact H| |].
  - apply NoDup_join; [eapply NoDup_app_r; exact H2|eapply NoDup_app_l; exact H2|]. intros a J1 J2. exact (NoDup_app_no _ _ a H2 J2 J1).
  - intros a J1 J2. apply (NoDup_app_no _ _ a H J1). rewrite !in_app_iff in *. tauto.
Qed.

(** ** cJSON_ReplaceItemInObject and cJSON_ReplaceItemInObjectCaseSensitive
    If the name that is given is not the text that the replacement itself has as its name: the
    first member of that name is released with all it owns and the replacement takes its place,
    under that name and owned by the object. If there is none, the answer is false, and the
    replacement has got the name; if memory was refused, the answer is false and it has lost the
    name it had. It stays the caller's in both cases, and nothing else changes. *)
Theorem C150_replace_partial : forall s o n vs nm kids F p w G ip key t cs,
  owns (ms_h s) o (JV n vs nm kids) F -> object_like kids -> tree (ms_h s) p w G -> ms_h s p = BI ip -> NoDup (F ++ G) ->
  key <> 0 -> ms_h s key = BS t -> i_const ip = true \/ i_name ip <> key ->
  exists N ok s', (forall fuel, (N <= fuel)%nat -> replace_in_object fuel s o key p cs = Ok (ok, s')) /\
    ((exists k1 v k2, ok = true /\ ms_no s' = ms_no s /\ kids = k1 ++ v :: k2 /\ Forall (fun u => ~ called cs t u) k1 /\ called cs t v /\
        given (ms_h s) o (JV n vs nm (k1 ++ relabel w (NText (Some t)) :: k2)) (F ++ G) (ms_h s')) \/
     (ok = false /\ ms_no s' = ms_no s /\ Forall (fun u => ~ called cs t u) kids /\
        given (ms_h s) p (relabel w (NText (Some t))) G (ms_h s')) \/
     (ok = false /\ ms_no s' = true /\ given (ms_h s) p (relabel w (if i_const ip then NConst 0 else NText None)) G (ms_h s'))).
Proof.
  intros s o n vs nm kids F p w G ip key t cs O OL (P & NDG & ip' & Ep' & NX & PVp) Ep ND KZ KE KN.
  rewrite Ep in Ep'. injection Ep' as <-.
  assert (PZ : p <> 0) by (eapply owns_nz; exact P). assert (JP : In p G) by (eapply owns_self; exact P).
  destruct (rename2 _ p w G ip P NDG Ep) as (h2 & D2 & E2p & X2 & C2 & RN).
  assert (K2 : h2 key = BS t).
  { assert (Y : h2 key = ms_h s key \/ h2 key <> ms_h s key).
    { destruct (h2 key) eqn:Q.
      - destruct (C2 key) as (_ & Y1 & Y2); [rewrite Q, KE; discriminate|]. destruct KN as [KN|KN]; congruence.
      - destruct (C2 key) as (Y0 & _); [rewrite Q, KE; discriminate|]. congruence.
      - destruct (list_eq_dec Z.eq_dec s0 t) as [->|Y]; [left; congruence|right; rewrite KE; congruence]. }
    destruct Y as [Y|Y]; [congruence|]. destruct (C2 key Y) as (_ & Y1 & Y2). destruct KN as [KN|KN]; congruence. }
  unfold replace_in_object. rewrite (eqb0 p PZ), (eqb0 key KZ). cbn [orb]. rewrite D2. cbn [bind].
  unfold strdup. rewrite (eqb0 key KZ). unfold rd_str. cbn [ms_h hs]. rewrite (eqb0 key KZ), K2. cbn [bind].
  destruct (alloc_cases (hs s h2) (BS t)) as (k & s3 & -> & [(-> & H3 & NO)|(NZ & HF & H3 & NO)]); cbn [fst snd].
  - (* no memory *)
    cbn [ms_h hs] in H3. unfold w_name. rewrite (rd_item_ok _ p ip PZ) by (rewrite H3; exact E2p). cbn [bind]. change (0 =? 0) with true. cbv iota.
    exists 0%nat. do 2 eexists. split; [reflexivity|]. right. right. split; [reflexivity|]. split; [exact NO|]. cbn [ms_h hs].
    destruct (RN (set (ms_h s3) p (BI (It (i_val ip) (i_ref ip) (i_const ip) (i_vs ip) 0 (i_nx ip) (i_pv ip) (i_ch ip)))) (ms_h s3) 0
                 (i_const ip) (if i_const ip then NConst 0 else NText None) []) as (G' & Q1 & Q2 & Q3 & _ & Q4 & Q5).
    + apply set_eq.
    + intros a A. sets. reflexivity.
    + intros a _. rewrite H3. reflexivity.
    + intros a [].
    + destruct (i_const ip); constructor. constructor.
    + constructor.
    + exists G'. split; [exact Q1|]. split; [exact Q2|]. split; [intros a J; destruct (Q3 a J) as [K|[]]; auto|]. split; [exact Q4|]. split; [exact Q5|].
      intros j j' Y1 Y2. rewrite Ep in Y1. rewrite set_eq in Y2. injection Y1 as <-. injection Y2 as <-. split; reflexivity.
  - cbn [ms_h hs ms_no] in HF, H3, NO. rewrite (eqb0 k NZ). cbn [ms_h hs].
    assert (KP : k <> p) by congruence. assert (KK : k <> key) by congruence.
    unfold w_name. rewrite (rd_item_ok _ p ip PZ) by (rewrite H3; sets; exact E2p). cbn [bind].
    unfold w_const. erewrite rd_item_ok; [|exact PZ|apply set_eq]. cbn [bind i_val i_ref i_const i_vs i_name i_nx i_pv i_ch].
    match goal with |- context [get_item _ ?m o key cs] => set (hf := m) end.
    assert (Ef : hf p = BI (It (i_val ip) (i_ref ip) false (i_vs ip) k (i_nx ip) (i_pv ip) (i_ch ip))) by (unfold hf; apply set_eq).
    assert (Xf : forall a, a <> p -> hf a = ms_h s3 a) by (intros a A; unfold hf; sets; reflexivity).
    destruct (RN hf (ms_h s3) k false (NText (Some t)) [k] Ef Xf) as (G' & Q1 & Q2 & Q3 & QK & Q4 & Q5).
    { intros a A. rewrite H3. apply set_ne. intros ->. apply A. left. reflexivity. }
    { intros a [<-|[]]. exact HF. }
    { constructor. constructor; [exact NZ|]. rewrite H3. apply set_eq. }
    { constructor; [intros []|constructor]. }
    assert (JK : In k G') by (apply QK; left; reflexivity).
    assert (KG : In k G \/ ms_h s k = Free).
    { destruct (in_dec Z.eq_dec k G) as [J|J]; [auto|right]. rewrite <- X2 by exact J. exact HF. }
    assert (FG : forall a, In a F -> ~ In a G') .
    { intros a J1 J2. assert (J3 : ~ In a G) by (intros J3; exact (NoDup_app_no _ _ a ND J1 J3)).
      destruct (Q3 a J2) as [J|[<-|[]]]; [contradiction|]. rewrite X2 in HF by exact J3. exact (owns_full _ _ _ _ _ O J1 HF). }
    assert (Of : owns hf o (JV n vs nm kids) F).
    { eapply owns_frame; [exact O|]. intros a J. apply Q5; [apply FG; exact J|]. intros J2. exact (NoDup_app_no _ _ a ND J J2). }
    assert (Kf : hf key = BS t).
    { rewrite Xf by congruence. rewrite H3. sets. exact K2. }
    pose proof Of as Of'. apply owns_inv in Of' as (io & T1 & T2 & F3 & q & z & OZ & Eo & Vo & Ro & To & No & Co & Do & FE).
    assert (GI : forall fuel, get_item fuel hf o key cs = let* c := seek fuel hf t (i_ch io) cs in
        if c =? 0 then Ok 0 else let* i := rd_item hf c in Ok (if i_name i =? 0 then 0 else c)).
    { intros fuel. unfold get_item. rewrite (eqb0 o OZ), (eqb0 key KZ). cbn [orb]. unfold rd_str. rewrite (eqb0 key KZ), Kf. cbn [bind].
      rewrite (rd_item_ok _ _ _ OZ Eo). reflexivity. }
    destruct (seek_ok hf t cs q (i_ch io) kids F3 z Co OL) as [(FA & N & SK)|(k1 & v & k2 & F1 & Fx & F2 & y & x & ix & N & EK & FA & CV & EF & S1 & Ex & PV & OX & S2 & NMZ & SK)].
    + exists N, false, (hs s3 hf). split.
      * intros fuel L. rewrite GI, SK by exact L. cbn [bind]. change (0 =? 0) with true. cbv iota. cbn [bind].
        unfold replace_at. change (0 =? 0) with true. rewrite Bool.orb_true_r. reflexivity.
      * right. left. split; [reflexivity|]. split; [exact NO|]. split; [exact FA|]. cbn [ms_h hs].
        exists G'. split; [exact Q1|]. split; [exact Q2|]. split; [intros a J; destruct (Q3 a J) as [K|[<-|[]]]; auto|]. split; [exact Q4|]. split; [exact Q5|].
        intros j j' Y1 Y2. rewrite Ep in Y1. rewrite Ef in Y2. injection Y1 as <-. injection Y2 as <-. split; reflexivity.
    + assert (QZ : q = z) by (destruct Do as [Do|Do]; [subst kids; destruct k1; discriminate|exact Do]). subst q.
      assert (NDall : NoDup (o :: T1 ++ T2 ++ F1 ++ Fx ++ F2 ++ G')).
      { replace (o :: T1 ++ T2 ++ F1 ++ Fx ++ F2 ++ G') with (F ++ G') by (rewrite FE, EF; cbn [app]; rewrite <- !app_assoc; reflexivity).
        apply NoDup_join; [eapply NoDup_app_l; exact ND|exact Q2|]. intros a J1 J2. exact (FG a J1 J2). }
      destruct (replace_ok hf o io vs nm T1 T2 k1 F1 y x ix v Fx k2 F2 z p (relabel w (NText (Some t))) G' _ OZ Eo Ro To No S1 Ex PV OX S2 Q1 Ef NDall)
        as (N2 & h' & D & O' & R1 & R2 & R3).
      assert (XZ : x <> 0) by (eapply owns_nz; exact OX).
      assert (FIN : forall a, In a F <-> In a (o :: T1 ++ T2 ++ F1 ++ Fx ++ F2)) by (intros a; rewrite FE, EF; reflexivity).
      exists (N + N2)%nat, true, (hs s3 h'). split.
      * intros fuel L. rewrite GI, SK by lia. cbn [bind]. rewrite (eqb0 x XZ), (rd_item_ok _ _ _ XZ Ex). cbn [bind].
        rewrite (eqb0 _ NMZ). rewrite D by lia. reflexivity.
      * left. exists k1, v, k2. split; [reflexivity|]. split; [exact NO|]. split; [exact EK|]. split; [exact FA|]. split; [exact CV|]. cbn [ms_h hs].
        exists (o :: T1 ++ T2 ++ F1 ++ G' ++ F2). split; [rewrite <- Vo; exact O'|]. split; [|split; [|split; [|split]]].
        -- inversion NDall as [|? ? Z1 Z2]; subst. constructor; [clear - Z1; rewrite !in_app_iff in *; tauto|].
           pose proof (nodup_swap (T1 ++ T2 ++ F1) Fx F2 G') as SW. rewrite <- !app_assoc in SW. apply SW. exact Z2.
        -- intros a J. assert (Y : In a F \/ In a G') by (clear - J FIN; rewrite FIN; cbn [In] in *; rewrite !in_app_iff in *; tauto).
           rewrite in_app_iff. destruct Y as [Y|Y]; [auto|]. destruct (Q3 a Y) as [Z1|[<-|[]]]; [auto|]. destruct KG; auto.
        -- intros a J1 J2. apply in_app_or in J2. destruct (in_dec Z.eq_dec a Fx) as [Z1|Z1]; [apply R1; exact Z1|].
           assert (Y : ~ In a G') by (intros Y; apply J1; cbn [In]; rewrite !in_app_iff; tauto).
           assert (Y2 : ~ In a F) by (clear - J1 Z1 FIN; rewrite FIN; cbn [In] in *; rewrite !in_app_iff in *; tauto).
           destruct J2 as [J2|J2]; [contradiction|]. rewrite R2; [apply Q4; assumption|].
           rewrite FIN in Y2. clear - Y Y2. cbn [In] in *. rewrite !in_app_iff in *. tauto.
        -- intros a J1 J2. rewrite in_app_iff in J2.
           assert (Y2 : ~ In a F) by tauto. assert (Y : ~ In a G') by (intros Y; apply J1; cbn [In]; rewrite !in_app_iff; tauto).
           rewrite R2; [apply Q5; tauto|]. rewrite FIN in Y2. clear - Y Y2. cbn [In] in *. rewrite !in_app_iff in *. tauto.
        -- intros j j' Y1 Y2. assert (JO : In o F) by (eapply owns_self; exact O).
           assert (hf o = ms_h s o) as Y3 by (apply Q5; [apply FG; exact JO|intros J2; exact (NoDup_app_no _ _ o ND JO J2)]).
           rewrite Y1, Eo in Y3. injection Y3 as <-. exact (R3 j' Y2).
Qed.
Print Assumptions C150_replace_partial.

(** ** Where it fails
    The name that the replacement has, given as the name: it is released, then read. *)
Theorem C150_refuted_own_name : forall s o p w G ip t fuel cs,
  owns (ms_h s) p w G -> ms_h s p = BI ip -> i_const ip = false -> name_of w = NText (Some t) ->
  replace_in_object fuel s o (i_name ip) p cs = Fault FUaf.
Proof.
  intros s o p w G ip t fuel cs P Ep C NM. destruct w as [n vs nm kids]. cbn [name_of] in NM. subst nm.
  apply owns_inv in P as (it & F1 & F2 & F3 & q & z & PZ & E & _ & _ & _ & N & _). rewrite Ep in E. injection E as <-.
  rewrite C in N. inversion N as [|a u FF TT Ec Ea En]; subst. inversion TT as [|a u AZ AE]; subst.
  unfold replace_in_object. rewrite (eqb0 p PZ), (eqb0 _ AZ). cbn [orb]. unfold free_name. rewrite (rd_item_ok _ _ _ PZ Ep). cbn [bind].
  rewrite C, (eqb0 _ AZ). cbn [negb andb]. rewrite free_ok by congruence. cbn [bind].
  unfold strdup. rewrite (eqb0 _ AZ). unfold rd_str. cbn [ms_h hs]. rewrite (eqb0 _ AZ), set_eq. reflexivity.
Qed.
Print Assumptions C150_refuted_own_name.

(** A reference to [item] that cannot get a name: the answer is false, the reference stays
    allocated and nobody has its address. *)
Theorem C150_refuted_reference : forall s o key item it t r os,
  o <> 0 -> key <> 0 -> ms_h s key = BS t -> item <> 0 -> ms_h s item = BI it -> r <> 0 -> r <> o -> ms_h s r = Free ->
  ms_os s = Some r :: None :: os ->
  exists s' i, add_reference s o key item = Ok (false, s') /\ ms_h s' r = BI i /\ (forall a, a <> r -> ms_h s' a = ms_h s a).
Proof.
  intros s o key item it t r os OZ KZ KE IZ IE RZ RO RF OS. unfold add_reference, reference.
  rewrite (eqb0 o OZ), (eqb0 key KZ), (eqb0 item IZ). cbn [orb].
  assert (AL : alloc s (BI (It 0 false false 0 0 0 0 0)) = (r, Ms (set (ms_h s) r (BI (It 0 false false 0 0 0 0 0))) (None :: os) (ms_no s))).
  { unfold alloc. rewrite OS, (eqb0 r RZ), RF. reflexivity. }
  rewrite AL. cbn [fst snd]. rewrite (eqb0 r RZ). cbn [ms_h].
  assert (IR : item <> r) by congruence. assert (KR : key <> r) by congruence.
  rewrite (rd_item_ok _ item it IZ) by (sets; exact IE). cbn [bind fst snd]. unfold hs. cbn [ms_h ms_os ms_no].
  match goal with |- context [add_to_object ?x _ _ _ _] => set (s1 := x) end.
  assert (K1 : ms_h s1 key = BS t) by (unfold s1; cbn [ms_h]; sets; exact KE).
  unfold add_to_object. rewrite (eqb0 o OZ), (eqb0 key KZ), (eqb0 r RZ). destruct (Z.eqb_spec o r) as [|_]; [congruence|]. cbn [orb].
  unfold strdup. rewrite (eqb0 key KZ). unfold rd_str. rewrite (eqb0 key KZ), K1. cbn [bind].
  assert (AL1 : alloc s1 (BS t) = (0, Ms (ms_h s1) os true)) by reflexivity. rewrite AL1. cbn [fst snd]. change (0 =? 0) with true. cbv iota.
  do 2 eexists. split; [reflexivity|]. cbn [ms_h]. unfold s1. cbn [ms_h]. split; [apply set_eq|]. intros a A. sets. reflexivity.
Qed.
Print Assumptions C150_refuted_reference.

(** {"a": "x", "b": 7} as in C149, with a name of its own for the second member; a second item,
    21, with the name "b" of its own; 9 is the text "b" somewhere else *)
Definition h2 : mem := fun a =>
  if a =? 1 then BI (It 64 false false 0 0 0 0 2)
  else if a =? 2 then BI (It 16 false false 4 5 3 3 0)
  else if a =? 3 then BI (It 7 false false 0 6 0 2 0)
  else if a =? 4 then BS [120] else if a =? 5 then BS [97] else if a =? 6 then BS [98] else if a =? 9 then BS [98]
  else if a =? 21 then BI (It 8 false false 0 22 0 0 0)
  else if a =? 22 then BS [98] else Free.
Definition m2 : jv := JV 16 (Some [120]) (NText (Some [97])) [].
Definition m3 : jv := JV 7 None (NText (Some [98])) [].
Definition w2 : jv := JV 8 None (NText (Some [98])) [].
Lemma h2_object : owns h2 1 (JV 64 None (NText None) [m2; m3]) [1; 2; 4; 5; 3; 6].
Proof.
  apply (o_item h2 1 (It 64 false false 0 0 0 0 2) None (NText None) _ [] [] [2; 4; 5; 3; 6] 3 3); try reflexivity; try discriminate.
  - constructor.
  - constructor. constructor.
  - apply (c_cons h2 3 2 (It 16 false false 4 5 3 3 0) _ _ [2; 4; 5] [3; 6] 3); try reflexivity.
    + apply (o_item h2 2 (It 16 false false 4 5 3 3 0) (Some [120]) (NText (Some [97])) [] [4] [5] [] 0 0); try reflexivity; try discriminate.
      * constructor; [discriminate|reflexivity].
      * constructor. constructor; [discriminate|reflexivity].
      * constructor.
      * left. reflexivity.
    + apply (c_cons h2 2 3 (It 7 false false 0 6 0 2 0) m3 [] [3; 6] [] 3); try reflexivity; [|constructor].
      apply (o_item h2 3 (It 7 false false 0 6 0 2 0) None (NText (Some [98])) [] [] [6] [] 0 0); try reflexivity; try discriminate; try (left; reflexivity); try constructor.
      constructor; [discriminate|reflexivity].
  - right. reflexivity.
Qed.
Lemma h2_item : tree h2 21 w2 [21; 22].
Proof.
  split; [|split; [repeat constructor; cbn; intuition discriminate|eexists; split; [reflexivity|split; reflexivity]]].
  apply (o_item h2 21 (It 8 false false 0 22 0 0 0) None (NText (Some [98])) [] [] [22] [] 0 0); try reflexivity; try discriminate; try (left; reflexivity); try constructor.
  constructor; [discriminate|reflexivity].
Qed.
Example ex_C150 : owns h2 1 (JV 64 None (NText None) [m2; m3]) [1; 2; 4; 5; 3; 6] /\ object_like [m2; m3] /\ tree h2 21 w2 [21; 22] /\
  NoDup ([1; 2; 4; 5; 3; 6] ++ [21; 22]) /\ h2 9 = BS [98] /\ called false [66] m3 /\ ~ called false [66] m2 /\ text_at h2 true 9 (Some [98]).
Proof.
  split; [exact h2_object|]. split; [repeat constructor; eexists; reflexivity|]. split; [exact h2_item|].
  split; [repeat constructor; cbn; intuition discriminate|]. split; [reflexivity|]. split; [|split].
  - exists [98]. split; [reflexivity|]. constructor; [|constructor]. right. right. lia.
  - intros (t & E & H). injection E as <-. inversion H as [|? ? ? ? L]; subst. unfold letter in L. lia.
  - exists [98]. repeat split. discriminate.
Qed.
(** added under its own name; replacing "b", the names as in the file and elsewhere; without memory;
    with a name that is not there; the item's own name; a constant name that was the item's own *)
Example ex_C150_runs :
  (exists s, add_to_object (Ms h2 [Some 30] false) 1 22 21 false = Ok (true, s) /\ ms_h s 30 = BS [98] /\ ms_h s 22 = Free /\
     ms_h s 21 = BI (It 8 false false 0 30 0 3 0) /\ ms_h s 3 = BI (It 7 false false 0 6 21 2 0) /\ ms_h s 2 = BI (It 16 false false 4 5 3 21 0)) /\
  (exists s, replace_in_object 5 (Ms h2 [Some 22] false) 1 9 21 true = Ok (true, s) /\ ms_h s 22 = BS [98] /\ ms_h s 3 = Free /\ ms_h s 6 = Free /\
     ms_h s 21 = BI (It 8 false false 0 22 0 2 0) /\ ms_h s 2 = BI (It 16 false false 4 5 21 21 0)) /\
  replace_in_object 5 (Ms h2 [Some 30] false) 1 22 21 true = Fault FUaf.
Proof. split; [|split]; [eexists; split; [vm_compute; reflexivity|]; vm_compute; tauto..|vm_compute; reflexivity]. Qed.

(** Refused, and yet the item is not what it was: without memory it has lost its name, and when
    there is no such member it has got another one. *)
Theorem C150_refuted_refused : exists s o p w G key,
  tree (ms_h s) p w G /\ ms_h s key = BS [122] /\ ~ In key G /\
  (exists s', replace_in_object 5 s o key p true = Ok (false, s') /\ ms_no s' = true /\ reads (ms_h s') p (relabel w (NText None)) /\ name_of w = NText (Some [98])) /\
  (exists s', replace_in_object 5 (Ms (ms_h s) [Some 30] false) o key p true = Ok (false, s') /\ ms_no s' = false /\ reads (ms_h s') p (relabel w (NText (Some [122])))).
Proof.
  exists (Ms (set h2 10 (BS [122])) [] false), 1, 21, w2, [21; 22], 10.
  split; [|split; [reflexivity|split; [cbn; intuition discriminate|split; eexists; (split; [vm_compute; reflexivity|]); (split; [reflexivity|])]]].
  - destruct h2_item as (A & B & C). split; [|split; [exact B|exact C]]. eapply owns_frame; [exact A|]. intros a [<-|[<-|[]]]; reflexivity.
  - split; [|reflexivity]. apply (r_item _ 21 (It 8 false false 0 0 0 0 0) None (NText None) [] [] []); try discriminate; try reflexivity; repeat constructor.
  - apply (r_item _ 21 (It 8 false false 0 30 0 0 0) None (NText (Some [122])) [] [] [30]); try discriminate; try reflexivity; repeat constructor. discriminate.
Qed.
Print Assumptions C150_refuted_refused.

(** A constant name that was the item's own: the item is in the object with a name that is
    released. *)
Theorem C150_refuted_constant : exists s o p w G ip s' jp,
  tree (ms_h s) p w G /\ ms_h s p = BI ip /\ add_to_object s o (i_name ip) p true = Ok (true, s') /\
  ms_h s' p = BI jp /\ i_name jp <> 0 /\ ms_h s' (i_name jp) = Free.
Proof.
  exists (Ms h2 [] false), 1, 21, w2, [21; 22]. do 3 eexists. split; [exact h2_item|]. split; [reflexivity|].
  split; [vm_compute; reflexivity|]. split; [reflexivity|]. split; [discriminate|reflexivity].
Qed.
Print Assumptions C150_refuted_constant.

(** The property as it is stated: with sound arguments no call uses memory that is not there,
    and one that answers false has changed nothing. *)
Definition C150_property : Prop := forall s o n vs nm kids F p w G key t,
  owns (ms_h s) o (JV n vs nm kids) F -> object_like kids -> tree (ms_h s) p w G -> NoDup (F ++ G) -> key <> 0 -> ms_h s key = BS t ->
  (forall fuel, exists ok s', replace_in_object (S (S (S (S (S fuel))))) s o key p true = Ok (ok, s') /\ (ok = false -> same (ms_h s) (ms_h s'))) /\
  exists ok s', add_reference s o key p = Ok (ok, s') /\ (ok = false -> same (ms_h s) (ms_h s')).
Theorem C150_property_refuted : ~ C150_property.
Proof.
  intros H. destruct ex_C150 as (A & B & C & D & _).
  destruct (H (Ms h2 [] false) 1 _ _ _ _ _ 21 w2 [21; 22] 22 [98] A B C D) as (K & _); [discriminate|reflexivity|].
  destruct (K 0%nat) as (ok & s' & E & _). vm_compute in E. discriminate.
Qed.
Print Assumptions C150_property_refuted.
