(** * Who serves a port: theorems (C152) *)
From Coq Require Import String.
From Verif Require Import Base Str_Spec Conf_Model Conf_Props Port_Model.
Local Open Scope Z_scope.
Local Open Scope list_scope.
Local Arguments Z.add : simpl never.
Local Arguments Z.sub : simpl never.
Local Arguments Z.modulo : simpl never.
Local Arguments zlen : simpl never.

(** ** What is expected *)
(** every connection to a port that the configuration gives to a service is handled by this
    service of this instance *)
Definition serves (inst : Z) (c : conf) (ks : list sock) : Prop :=
  forall p k, In (p, k) (wanted c) -> forall h, exists s, deliver ks p h = Some s /\ s_owner s = inst /\ s_kind s = k.
(** a start that succeeds has that effect; otherwise it fails and changes nothing *)
Definition C152_property : Prop := forall inst user c es ks rc ks',
  sane c -> zlen (wanted c) <= 8 -> Forall (fun s => s_owner s <> inst) ks ->
  start inst user c es ks = Ok (rc, ks') ->
  (rc = 0 /\ serves inst c ks') \/ (rc = -1 /\ ks' = ks).

Definition free (ks : list sock) (p : Z) : Prop := Forall (fun s => s_port s <> p) ks.

(** ** Proofs *)
Definition sock_of (inst user : Z) (x : Z * lkind) : sock := Sock (fst x) user true inst (snd x).

Lemma start_table inst user c es ks : sane c -> zlen (wanted c) <= 8 ->
  start inst user c es ks =
  Ok (match open_all ks inst user (map (fun x => Lslot (fst x) (snd x) true) (wanted c)) es with Some ks => (0, ks) | None => (-1, ks) end).
Proof.
  intros S L. unfold start. destruct (listen_table c S) as (t & Et & H). rewrite H. cbn [bind].
  destruct (listen_start_spec t []) as [(a & s & r & _ & A & _)|[_ B]].
  - apply zget_some_range in A. change (zlen (@nil bool)) with 0 in A. lia.
  - rewrite B, Et. rewrite ztake_all by (unfold NSLOT; lia). rewrite map_map. reflexivity.
Qed.
Lemma may_bind_free ks user p : free ks p -> may_bind ks user p = true.
Proof.
  unfold free, may_bind. induction 1 as [|s ks H F IH]; [reflexivity|]. cbn [forallb]. rewrite IH.
  destruct (Z.eqb_spec (s_port s) p); [contradiction|reflexivity].
Qed.
Lemma may_bind_mine ks user p : Forall (fun s => s_port s = p -> s_reuse s = true /\ s_user s = user) ks -> may_bind ks user p = true.
Proof.
  unfold may_bind. induction 1 as [|s ks H F IH]; [reflexivity|]. cbn [forallb]. rewrite IH.
  destruct (Z.eqb_spec (s_port s) p) as [E|]; [|reflexivity]. destruct (H E) as (-> & ->). rewrite Z.eqb_refl. reflexivity.
Qed.
(** when the other calls work and every socket at the wanted ports belongs to the user and has
    SO_REUSEPORT, all slots are opened *)
Lemma open_all_ok inst user : forall (w : list (Z * lkind)) es ks, Forall (fun e => snd e = true) es -> Forall (fun x => fst x <> 0) w ->
  Forall (fun s => In (s_port s) (map fst w) -> s_reuse s = true /\ s_user s = user) ks ->
  open_all ks inst user (map (fun x => Lslot (fst x) (snd x) true) w) es = Some (ks ++ map (sock_of inst user) w).
Proof.
  induction w as [|(p, k) w IH]; intros es ks E N F; cbn [map open_all]; [rewrite app_nil_r; reflexivity|].
  inversion N as [|? ? N1 N2]; subst. cbn [fst] in N1. unfold set_opt. cbn [lport lkind_ fst snd].
  destruct (Z.eqb_spec p 0); [contradiction|].
  assert (OK : snd (match es with [] => (0, true) | e :: _ => e end) = true) by (destruct E; auto). rewrite OK. cbn [andb].
  rewrite may_bind_mine.
  2:{ eapply Forall_impl; [|exact F]. cbv beta. intros s H X. apply H. cbn [map fst]. left. symmetry. exact X. }
  rewrite IH; [rewrite <- app_assoc; reflexivity|destruct E; auto; constructor|exact N2|].
  apply Forall_app. split.
  - eapply Forall_impl; [|exact F]. cbv beta. intros s H X. apply H. cbn [map fst]. right. exact X.
  - constructor; [|constructor]. intros _. cbn [s_reuse s_user]. auto.
Qed.
Lemma deliver_in ks p h : (exists s, In s ks /\ s_port s = p) -> exists s, deliver ks p h = Some s /\ In s ks /\ s_port s = p.
Proof.
  intros (s & I & P). unfold deliver. set (l := filter (fun s => s_port s =? p) ks).
  assert (IL : In s l) by (apply filter_In; split; [exact I|apply Z.eqb_eq; exact P]).
  assert (L : 0 < zlen l). { destruct l as [|x y]; [destruct IL|]. rewrite zlen_cons. pose proof (zlen_nonneg y). lia. }
  destruct (zget_in_range l (h mod zlen l)) as (x & X); [apply Z.mod_pos_bound; lia|]. exists x. split; [exact X|].
  apply zget_In in X. apply filter_In in X as (X & Y). apply Z.eqb_eq in Y. auto.
Qed.
(** every socket of a port gets some connections *)
Lemma deliver_all ks s : In s ks -> exists h, deliver ks (s_port s) h = Some s.
Proof.
  intros I0. unfold deliver. set (l := filter (fun s0 => s_port s0 =? s_port s) ks).
  assert (IL : In s l) by (apply filter_In; split; [exact I0|apply Z.eqb_refl]).
  apply In_nth_error in IL as (n & N). exists (Z.of_nat n).
  assert (LT : (n < List.length l)%nat) by (apply nth_error_Some; congruence).
  assert (ZL : zlen l = Z.of_nat (List.length l)) by reflexivity.
  rewrite Z.mod_small by lia. unfold zget. destruct (Z.ltb_spec (Z.of_nat n) 0); [lia|]. rewrite Nat2Z.id. exact N.
Qed.

(** ** C152 *)
(** Proved: if nobody listens on the wanted ports and each is wanted once (and none is 0), a
    start whose other calls work succeeds, every connection to a wanted port is handled by its
    service, and the other ports are served as before. *)
Theorem C152_partial : forall inst user c es ks, sane c -> zlen (wanted c) <= 8 ->
  NoDup (map fst (wanted c)) -> Forall (fun x => fst x <> 0) (wanted c) -> Forall (fun e => snd e = true) es ->
  (forall x, In x (wanted c) -> free ks (fst x)) ->
  exists ks', start inst user c es ks = Ok (0, ks') /\ serves inst c ks' /\
    forall p h, ~ In p (map fst (wanted c)) -> deliver ks' p h = deliver ks p h.
Proof.
  intros inst user c es ks S L ND NZ OK FR. rewrite start_table by assumption. rewrite open_all_ok; auto.
  2:{ apply Forall_forall. intros s Is X. apply in_map_iff in X as (x & E & X). exfalso.
      pose proof (FR x X) as F. unfold free in F. rewrite Forall_forall in F. apply (F s Is). symmetry. exact E. }
  eexists. split; [reflexivity|]. split.
  - intros p k I0 h. destruct (deliver_in (ks ++ map (sock_of inst user) (wanted c)) p h) as (s & D & Is & P).
    { exists (sock_of inst user (p, k)). split; [apply in_or_app; right; apply in_map; exact I0|reflexivity]. }
    exists s. split; [exact D|]. apply in_app_or in Is as [Is|Is].
    + exfalso. pose proof (FR _ I0) as F. unfold free in F. rewrite Forall_forall in F. exact (F s Is P).
    + apply in_map_iff in Is as ((p', k') & <- & I1). cbn [sock_of s_port s_owner s_kind fst snd] in *. split; [reflexivity|]. subst p'.
      assert (X : forall (w : list (Z * lkind)), NoDup (map fst w) -> In (p, k) w -> In (p, k') w -> k' = k).
      { induction w as [|y w IH]; intros N A B; [destruct A|]. cbn [map] in N. inversion N as [|? ? N1 N2]; subst. destruct A as [->|A], B as [B|B]; try congruence.
        - exfalso. apply N1. apply in_map_iff. exists (p, k'). auto.
        - exfalso. subst y. apply N1. apply in_map_iff. exists (p, k). auto.
        - apply IH; assumption. }
      apply (X _ ND I0 I1).
  - intros p h NI. unfold deliver. rewrite filter_app. replace (filter (fun s => s_port s =? p) (map (sock_of inst user) (wanted c))) with (@nil sock); [rewrite app_nil_r; reflexivity|].
    clear - NI. induction (wanted c) as [|x w IH]; [reflexivity|]. cbn [map filter sock_of s_port]. cbn [map] in NI.
    destruct (Z.eqb_spec (fst x) p) as [E|]; [exfalso; apply NI; left; exact E|]. apply IH. intros X. apply NI. right. exact X.
Qed.
Print Assumptions C152_partial.

(** Proved: a port that another user, or a program without SO_REUSEPORT, listens on makes the
    start fail, and nothing is changed. *)
Theorem C152_reported : forall inst user c es ks s, sane c -> zlen (wanted c) <= 8 ->
  In s ks -> s_reuse s = false \/ s_user s <> user -> s_port s <> 0 -> In (s_port s) (map fst (wanted c)) ->
  start inst user c es ks = Ok (-1, ks).
Proof.
  intros inst user c es ks s S L I0 B P0 W. rewrite start_table by assumption.
  assert (X : forall w es ks, In s ks -> In (s_port s) (map fst w) -> open_all ks inst user (map (fun x : Z * lkind => Lslot (fst x) (snd x) true) w) es = None).
  { clear - B P0. induction w as [|(p, k) w IH]; intros es ks Is W; [destruct W|]. cbn [map open_all].
    destruct (set_opt _ _ _ _ _ _) as [ks'|] eqn:E; [|reflexivity]. unfold set_opt in E. cbn [lport lkind_ fst] in E.
    destruct (snd _ && may_bind ks user _) eqn:M; [|discriminate]. injection E as <-. apply andb_prop in M as (_ & M).
    apply IH; [apply in_or_app; left; exact Is|]. destruct W as [W|W]; [|exact W]. exfalso. cbn [fst] in W. subst p.
    destruct (Z.eqb_spec (s_port s) 0); [contradiction|]. unfold may_bind in M. rewrite forallb_forall in M. specialize (M s Is). cbv beta in M.
    rewrite Z.eqb_refl in M. cbn [negb orb] in M. apply andb_prop in M as (M1 & M2). apply Z.eqb_eq in M2. destruct B as [B|B]; congruence. }
  rewrite X; auto.
Qed.
Print Assumptions C152_reported.

(** Found false, whatever the port: a port given to two services is opened twice without a
    message, and each service gets some of its connections. *)
Theorem C152_refuted_two_services : forall inst user c ks p k k', sane c -> zlen (wanted c) <= 8 ->
  Forall (fun x => fst x <> 0) (wanted c) -> (forall x, In x (wanted c) -> free ks (fst x)) ->
  In (p, k) (wanted c) -> In (p, k') (wanted c) ->
  exists ks', start inst user c [] ks = Ok (0, ks') /\
    exists h h' s s', deliver ks' p h = Some s /\ s_kind s = k /\ deliver ks' p h' = Some s' /\ s_kind s' = k'.
Proof.
  intros inst user c ks p k k' S L NZ FR A B. rewrite start_table by assumption. rewrite open_all_ok; auto.
  2:{ apply Forall_forall. intros s Is X. apply in_map_iff in X as (x & E & X). exfalso.
      pose proof (FR x X) as F. unfold free in F. rewrite Forall_forall in F. apply (F s Is). symmetry. exact E. }
  eexists. split; [reflexivity|].
  destruct (deliver_all (ks ++ map (sock_of inst user) (wanted c)) (sock_of inst user (p, k))) as (h & D); [apply in_or_app; right; apply in_map; exact A|].
  destruct (deliver_all (ks ++ map (sock_of inst user) (wanted c)) (sock_of inst user (p, k'))) as (h' & D'); [apply in_or_app; right; apply in_map; exact B|].
  exists h, h', (sock_of inst user (p, k)), (sock_of inst user (p, k')). auto.
Qed.
Print Assumptions C152_refuted_two_services.

(** Found false, for every configuration: the same user can start the program a second time; the
    start succeeds, and from then on both instances get some of the connections to each port,
    until one of them ends. *)
Theorem C152_refuted_two_instances : forall i1 i2 user c ks, sane c -> zlen (wanted c) <= 8 -> i1 <> i2 ->
  NoDup (map fst (wanted c)) -> Forall (fun x => fst x <> 0) (wanted c) -> (forall x, In x (wanted c) -> free ks (fst x)) ->
  Forall (fun s => s_owner s <> i1) ks ->
  exists ks1 ks2, start i1 user c [] ks = Ok (0, ks1) /\ serves i1 c ks1 /\ start i2 user c [] ks1 = Ok (0, ks2) /\
    (forall x, In x (wanted c) -> exists h1 h2 s1 s2, deliver ks2 (fst x) h1 = Some s1 /\ s_owner s1 = i1 /\
       deliver ks2 (fst x) h2 = Some s2 /\ s_owner s2 = i2) /\
    serves i2 c (ends i1 ks2).
Proof.
  intros i1 i2 user c ks S L N12 ND NZ FR NO. destruct (C152_partial i1 user c [] ks S L ND NZ (Forall_nil _) FR) as (ks1 & S1 & V1 & _).
  assert (NK : Forall (fun s => In (s_port s) (map fst (wanted c)) -> s_reuse s = true /\ s_user s = user) ks).
  { apply Forall_forall. intros s Is X. apply in_map_iff in X as (x & E & X). exfalso.
    pose proof (FR x X) as F. unfold free in F. rewrite Forall_forall in F. apply (F s Is). symmetry. exact E. }
  pose proof S1 as S1'. rewrite start_table in S1' by assumption. rewrite open_all_ok in S1' by auto. injection S1' as <-.
  exists (ks ++ map (sock_of i1 user) (wanted c)), ((ks ++ map (sock_of i1 user) (wanted c)) ++ map (sock_of i2 user) (wanted c)).
  split; [exact S1|]. split; [exact V1|]. split.
  - rewrite start_table by assumption. rewrite open_all_ok; auto. apply Forall_app. split; [exact NK|].
    apply Forall_forall. intros s Is _. apply in_map_iff in Is as (x & <- & _). cbn [sock_of s_reuse s_user]. auto.
  - split.
    + intros x X. destruct (deliver_all ((ks ++ map (sock_of i1 user) (wanted c)) ++ map (sock_of i2 user) (wanted c)) (sock_of i1 user x)) as (h1 & D1).
      { apply in_or_app. left. apply in_or_app. right. apply in_map. exact X. }
      destruct (deliver_all ((ks ++ map (sock_of i1 user) (wanted c)) ++ map (sock_of i2 user) (wanted c)) (sock_of i2 user x)) as (h2 & D2).
      { apply in_or_app. right. apply in_map. exact X. }
      exists h1, h2, (sock_of i1 user x), (sock_of i2 user x). auto.
    + assert (E : ends i1 ((ks ++ map (sock_of i1 user) (wanted c)) ++ map (sock_of i2 user) (wanted c)) = ks ++ map (sock_of i2 user) (wanted c)).
      { unfold ends. rewrite !filter_app.
        assert (A : filter (fun s => negb (s_owner s =? i1)) ks = ks).
        { clear - NO. induction NO as [|s l H F IH]; [reflexivity|]. cbn [filter]. destruct (Z.eqb_spec (s_owner s) i1); [contradiction|]. cbn [negb]. rewrite IH. reflexivity. }
        assert (B : filter (fun s => negb (s_owner s =? i1)) (map (sock_of i1 user) (wanted c)) = []).
        { clear. induction (wanted c) as [|x w IH]; [reflexivity|]. cbn [map filter sock_of s_owner]. rewrite Z.eqb_refl. exact IH. }
        assert (C : filter (fun s => negb (s_owner s =? i1)) (map (sock_of i2 user) (wanted c)) = map (sock_of i2 user) (wanted c)).
        { clear - N12. induction (wanted c) as [|x w IH]; [reflexivity|]. cbn [map filter sock_of s_owner]. destruct (Z.eqb_spec i2 i1); [congruence|]. cbn [negb]. f_equal. exact IH. }
        rewrite A, B, C, app_nil_r. reflexivity. }
      rewrite E. destruct (C152_partial i2 user c [] ks S L ND NZ (Forall_nil _) FR) as (ks3 & S3 & V3 & _).
      rewrite start_table in S3 by assumption. rewrite open_all_ok in S3 by auto. injection S3 as <-. exact V3.
Qed.
Print Assumptions C152_refuted_two_instances.

(** *** Examples *)
Definition two (mode p : Z) (http https : list Z) : conf :=
  Conf 0 0 255 [] [] mode 0 [] [] p 0 [] [] (zlen http) (zlen https) (http ++ zrepeat 0 (64 - zlen http)) (https ++ zrepeat 0 (64 - zlen https)) [] [].
Definition web_conf : conf := two 1 1080 [80; 8080] [443].
Example ex_C152 : sane web_conf /\ wanted web_conf = [(1080, LTunC); (80, LHttp); (8080, LHttp); (443, LHttps)] /\
  NoDup (map fst (wanted web_conf)) /\ (forall x, In x (wanted web_conf) -> free [Sock 22 0 false 9 LHttp] (fst x)) /\
  start 1 1000 web_conf [] [Sock 443 0 false 9 LHttps] = Ok (-1, [Sock 443 0 false 9 LHttps]) /\
  (exists ks, start 1 1000 (two 0 0 [8443] [8443]) [] [] = Ok (0, ks) /\
    deliver ks 8443 6 = Some (Sock 8443 1000 true 1 LHttp) /\ deliver ks 8443 7 = Some (Sock 8443 1000 true 1 LHttps)).
Proof.
  split; [split; vm_compute; split; discriminate|]. split; [vm_compute; reflexivity|]. split; [|split; [|split]].
  - change (map fst (wanted web_conf)) with [1080; 80; 8080; 443]. repeat constructor; cbn [In]; intuition discriminate.
  - intros x X. change (wanted web_conf) with [(1080, LTunC); (80, LHttp); (8080, LHttp); (443, LHttps)] in X. cbn [In] in X.
    constructor; [|constructor]. cbn [s_port]. intuition (subst; cbn [fst] in *; discriminate).
  - vm_compute. reflexivity.
  - eexists. split; [vm_compute; reflexivity|]. split; vm_compute; reflexivity.
Qed.

(** Port 0 is a port: what a file says with 65536 (C72) is a service that listens anywhere, and
    no connection to the port in the configuration reaches it. *)
Theorem C152_refuted_zero : exists c eph, sane c /\ wanted c = [(0, LHttp)] /\
  forall inst user ks, free ks eph -> free ks 0 -> exists ks', start inst user c [(eph, true)] ks = Ok (0, ks') /\
    forall h, deliver ks' 0 h = None.
Proof.
  exists (two 0 0 [0] []), 40000. split; [split; vm_compute; split; discriminate|]. split; [vm_compute; reflexivity|].
  intros inst user ks F F0. rewrite start_table; [|split; vm_compute; split; discriminate|vm_compute; discriminate].
  change (wanted (two 0 0 [0] [])) with [(0, LHttp)]. cbn [map open_all fst snd]. unfold set_opt. cbn [lport lkind_]. cbn [Z.eqb].
  rewrite may_bind_free by exact F. cbn [andb]. eexists. split; [reflexivity|]. intros h. unfold deliver. rewrite filter_app. cbn [filter s_port].
  replace (filter (fun s => s_port s =? 0) ks) with (@nil sock).
  2:{ unfold free in F0. clear - F0. induction F0 as [|s l H F IH]; [reflexivity|]. cbn [filter]. destruct (Z.eqb_spec (s_port s) 0); [contradiction|]. exact IH. }
  change (40000 =? 0) with false. cbn [app]. unfold zget. destruct (_ <? 0); [reflexivity|]. destruct (Z.to_nat _); reflexivity.
Qed.
Print Assumptions C152_refuted_zero.

Theorem C152_property_refuted : ~ C152_property.
Proof.
  intros P. unfold C152_property in P. destruct (proj2 (proj2 (proj2 (proj2 (proj2 ex_C152))))) as (ks & E & D1 & D2).
  assert (SA : sane (two 0 0 [8443] [8443])) by (split; vm_compute; split; discriminate).
  destruct (P 1 1000 (two 0 0 [8443] [8443]) [] [] 0 ks SA ltac:(vm_compute; discriminate) (Forall_nil _) E) as [(_ & V)|(X & _)]; [|discriminate].
  destruct (V 8443 LHttp ltac:(vm_compute; tauto) 7) as (s & X & _ & K). rewrite D2 in X. injection X as <-. discriminate.
Qed.
Print Assumptions C152_property_refuted.
