(** * Making TLS connections: C117 (settings), C118 (certificates), C119 (nothing left
    behind), C120 (whom the client talks to). *)
From Coq Require Import Bool.
From Verif Require Import Base Cert_Model.
Open Scope Z_scope.

(** ** What is wanted *)
(** a connection has all the settings that ssl.c asks for in its role *)
Definition complete (r : role) (o : obj) : Prop :=
  s_min (sets o) = true /\ s_max (sets o) = true /\
  (r = Server -> s_ciph (sets o) = true /\ s_suite (sets o) = true).
(** the library has refused a setting in that role *)
Definition of_role (r : role) (l : lcall) : Prop :=
  match l with LMin q | LMax q => q = r | LCiph | LSuite => r = Server end.
Definition refused (r : role) (tr : list (lcall * bool)) : Prop :=
  exists l, of_role r l /\ In (l, false) tr.
(** a certificate can be shown to the peer if there is a key for it *)
Definition presents (o : obj) (c : cert) (k : pkey) : Prop :=
  exists t, slot (certs o) t = (Some c, Some k).
(** everything read from the files in the history has a key of type [t] *)
Definition of_type (t : Z) (e : env) : Prop :=
  (forall c, e_crt1 e = Some c -> c_ty c = t) /\ (forall c, e_crt2 e = Some c -> c_ty c = t) /\
  (forall k, e_key1 e = Some k -> k_ty k = t) /\ (forall k, e_key2 e = Some k -> k_ty k = t).
Definition one_type (t : Z) (l : list ev) : Prop := forall e, In (New Server e) l -> of_type t e.

(** ** Lemmas *)
Lemma matches_eq c k : matches c k = true <-> c_ty c = k_ty k /\ c_pub c = k_pub k.
Proof. unfold matches. rewrite andb_true_iff, !Z.eqb_eq. tauto. Qed.

Definition wf_store (s : store) : Prop := forall t,
  (forall c k, slot s t = (Some c, k) -> c_ty c = t) /\
  (forall c k, slot s t = (c, Some k) -> k_ty k = t) /\
  (forall c k, slot s t = (Some c, Some k) -> matches c k = true).
Lemma wf0 : wf_store store0.
Proof. intro t. cbn. repeat split; intros; congruence. Qed.
Lemma use_cert_wf s f s' : wf_store s -> use_cert s f = Some s' -> wf_store s'.
Proof.
  intros W H. unfold use_cert in H. destruct f as [c|]; [|discriminate].
  injection H as <-. intro t. cbn. destruct (Z.eqb_spec t (c_ty c)) as [->|N]; [|apply W].
  destruct (W (c_ty c)) as (A & B & C).
  destruct (slot s (c_ty c)) as [x y] eqn:E. cbn.
  repeat split.
  - intros c0 k0 H. injection H as <- H. reflexivity.
  - intros c0 k0 H. injection H as <- H. destruct y as [k|]; [|discriminate].
    destruct (matches c k) eqn:M; [|discriminate]. injection H as <-. now apply B with x.
  - intros c0 k0 H. injection H as <- H. destruct y as [k|]; [|discriminate].
    destruct (matches c k) eqn:M; [|discriminate]. now injection H as <-.
Qed.
Lemma use_key_wf s f s' : wf_store s -> use_key s f = Some s' -> wf_store s'.
Proof.
  intros W H. unfold use_key in H. destruct f as [k|]; [|discriminate].
  destruct (W (k_ty k)) as (A & B & C).
  destruct (slot s (k_ty k)) as [x y] eqn:E. cbn in H. destruct x as [c|].
  - destruct (matches c k) eqn:M; [|discriminate]. injection H as <-.
    intro t. cbn. destruct (Z.eqb_spec t (k_ty k)) as [->|N]; [|apply W].
    repeat split; intros c0 k0 H; injection H as H1 H2; subst; auto.
    now apply A with y.
  - injection H as <-. intro t. cbn. destruct (Z.eqb_spec t (k_ty k)) as [->|N]; [|apply W].
    repeat split; intros c0 k0 H; try congruence.
Qed.
Lemma load_pair_wf s fc fk s' : wf_store s -> load_pair s fc fk = Some s' -> wf_store s'.
Proof.
  intros W H. unfold load_pair in H.
  destruct (use_cert s fc) as [s1|] eqn:E1; [|discriminate].
  destruct (use_key s1 fk) as [s2|] eqn:E2; [|discriminate].
  destruct (check_key s2); [|discriminate]. injection H as <-.
  eapply use_key_wf; [|exact E2]. eapply use_cert_wf; eauto.
Qed.

(** what is in the store afterwards *)
Lemma load_pair_slots s fc fk s' : load_pair s fc fk = Some s' ->
  exists c k, fc = Some c /\ fk = Some k /\
  (exists c0, slot s' (k_ty k) = (Some c0, Some k) /\ matches c0 k = true) /\
  forall t c0 k0, slot s' t = (Some c0, Some k0) -> c0 = c \/ exists y, slot s t = (Some c0, y).
Proof.
  intro H. unfold load_pair in H.
  destruct (use_cert s fc) as [s1|] eqn:E1; [|discriminate].
  destruct (use_key s1 fk) as [s2|] eqn:E2; [|discriminate].
  destruct (check_key s2) eqn:E3; [|discriminate]. injection H as <-.
  unfold use_cert in E1. destruct fc as [c|]; [|discriminate].
  unfold use_key in E2. destruct fk as [k|]; [|discriminate].
  exists c, k. split; [reflexivity|]. split; [reflexivity|].
  injection E1 as <-. cbn [slot put] in E2.
  set (kk := match snd (slot s (c_ty c)) with Some k => if matches c k then Some k else None | None => None end) in *.
  destruct (Z.eqb_spec (k_ty k) (c_ty c)) as [T|T].
  - cbn [fst] in E2. destruct (matches c k) eqn:M; [|discriminate]. injection E2 as <-.
    split.
    + exists c. cbn. rewrite Z.eqb_refl. auto.
    + intros t c0 k0 H. cbn in H. destruct (Z.eqb_spec t (k_ty k)).
      * injection H as <- _. now left.
      * destruct (Z.eqb_spec t (c_ty c)); [congruence|]. right. eauto.
  - destruct (slot s (k_ty k)) as [x y] eqn:E. cbn [fst] in E2. destruct x as [c1|].
    + destruct (matches c1 k) eqn:M; [|discriminate]. injection E2 as <-.
      split.
      * exists c1. cbn. rewrite Z.eqb_refl. auto.
      * intros t c0 k0 H. cbn in H. destruct (Z.eqb_spec t (k_ty k)) as [->|].
        -- injection H as <- _. right. eauto.
        -- destruct (Z.eqb_spec t (c_ty c)); [injection H as <- _; now left|]. right. eauto.
    + injection E2 as <-. unfold check_key in E3. cbn in E3. rewrite Z.eqb_refl in E3. discriminate.
Qed.

(** with one type of key, the pair is that of the files *)
Lemma load_pair_one s fc fk s' ty : wf_store s -> (forall t, t <> ty -> slot s t = (None, None)) ->
  (forall c, fc = Some c -> c_ty c = ty) -> (forall k, fk = Some k -> k_ty k = ty) ->
  load_pair s fc fk = Some s' ->
  exists c k, fc = Some c /\ fk = Some k /\ matches c k = true /\
  forall t, slot s' t = if t =? ty then (Some c, Some k) else (None, None).
Proof.
  intros W O Hc Hk H. unfold load_pair in H.
  destruct (use_cert s fc) as [s1|] eqn:E1; [|discriminate].
  destruct (use_key s1 fk) as [s2|] eqn:E2; [|discriminate].
  destruct (check_key s2) eqn:E3; [|discriminate]. injection H as <-.
  unfold use_cert in E1. destruct fc as [c|]; [|discriminate].
  unfold use_key in E2. destruct fk as [k|]; [|discriminate].
  specialize (Hc _ eq_refl). specialize (Hk _ eq_refl).
  exists c, k. split; [reflexivity|]. split; [reflexivity|].
  injection E1 as <-. cbn [slot put] in E2. rewrite Hc, Hk, Z.eqb_refl in E2. cbn [fst] in E2.
  destruct (matches c k) eqn:M; [|discriminate]. injection E2 as <-.
  split; [reflexivity|]. intro t. cbn.
  destruct (Z.eqb_spec t ty); [reflexivity|]. now apply O.
Qed.
(** ** The invariant *)
Definition on_ctx (P : obj -> Prop) (N : Prop) (x : option obj) : Prop :=
  match x with Some o => P o | None => N end.
Definition srcs (l : list ev) (c : cert) : Prop := exists e, In (New Server e) l /\ e_crt1 e = Some c.

Record Inv (l : list ev) (s : st) (outs : list (role * obj)) : Prop := {
  i_up : up s = true;
  i_c : on_ctx (fun o => complete Client o <-> ~ refused Client (trace s)) (~ refused Client (trace s)) (ctx_c s);
  i_s : on_ctx (fun o => complete Server o <-> ~ refused Server (trace s)) (~ refused Server (trace s)) (ctx_s s);
  i_outs : forall r o, In (r, o) outs -> exists o', match r with Client => ctx_c s | Server => ctx_s s end = Some o' /\ sets o = sets o';
  i_wf : on_ctx (fun o => wf_store (certs o)) True (ctx_s s);
  i_src : on_ctx (fun o => forall t c y, slot (certs o) t = (Some c, y) -> srcs l c) True (ctx_s s);
  i_cl : on_ctx (fun o => certs o = store0) True (ctx_c s);
  i_one : forall ty, one_type ty l -> on_ctx (fun o => forall t, t <> ty -> slot (certs o) t = (None, None)) True (ctx_s s);
  i_nv : (forall o, ctx_c s = Some o -> s_verify (sets o) = false) /\ (forall o, ctx_s s = Some o -> s_verify (sets o) = false);
  i_n : n_ctx s = (match ctx_c s with Some _ => 1 | None => 0 end) + (match ctx_s s with Some _ => 1 | None => 0 end);
}.

Lemma refused_app r tr l b : refused r (tr ++ [(l, b)]) <-> refused r tr \/ (of_role r l /\ b = false).
Proof.
  unfold refused. split.
  - intros (x & R & H). apply in_app_iff in H. destruct H as [H|[H|[]]].
    + left. eauto.
    + injection H as -> ->. auto.
  - intros [(x & R & H)|[R ->]].
    + exists x. split; [easy|]. apply in_app_iff. now left.
    + exists l. split; [easy|]. apply in_app_iff. right. now left.
Qed.

(** *** the context of the client *)
Lemma load_ctx_client e s s' x : load_ctx Client e s = (s', x) ->
  ctx_s s' = ctx_s s /\ up s' = up s /\ n_ssl s' = n_ssl s /\ n_blk s' = n_blk s /\
  (x = None \/ x = ctx_c s') /\
  (match ctx_c s with
   | Some o => s' = s
   | None =>
      (s' = s /\ x = None) \/
      exists o, ctx_c s' = Some o /\ certs o = store0 /\ s_verify (sets o) = false /\
        n_ctx s' = n_ctx s + 1 /\
        ((x = Some o /\ complete Client o /\ (refused Client (trace s') <-> refused Client (trace s))) \/
         (x = None /\ ~ complete Client o /\ refused Client (trace s'))) /\
        (refused Server (trace s') <-> refused Server (trace s))
   end).
Proof.
  unfold load_ctx. destruct (ctx_c s) as [o|] eqn:E.
  { intro H. injection H as <- <-. rewrite E. repeat split; auto. }
  destruct (e_ctxnew e).
  2:{ intro H. injection H as <- <-. repeat split; auto. }
  unfold client_sets, try_sets, try_set.
  destruct (e_min e).
  2:{ cbn. intro H; injection H as <- <-; cbn. repeat split; auto.
      right. eexists. split; [reflexivity|]. cbn. do 3 (split; [reflexivity|]). split; [right|].
      - split; [reflexivity|]. split; [unfold complete; cbn; intuition congruence|].
        rewrite !refused_app; cbn; intuition congruence.
      - rewrite !refused_app; cbn; intuition congruence. }
  destruct (e_max e).
  2:{ cbn. intro H; injection H as <- <-; cbn. repeat split; auto.
      right. eexists. split; [reflexivity|]. cbn. do 3 (split; [reflexivity|]). split; [right|].
      - split; [reflexivity|]. split; [unfold complete; cbn; intuition congruence|].
        rewrite !refused_app; cbn; intuition congruence.
      - rewrite !refused_app; cbn; intuition congruence. }
  cbn. intro H; injection H as <- <-; cbn. repeat split; auto.
  right. eexists. split; [reflexivity|]. cbn. do 3 (split; [reflexivity|]). split; [left|].
  - split; [reflexivity|]. split; [unfold complete; cbn; intuition congruence|].
    rewrite !refused_app; cbn; intuition congruence.
  - rewrite !refused_app; cbn; intuition congruence.
Qed.
Lemma load_ctx_server e s s' x : load_ctx Server e s = (s', x) ->
  ctx_c s' = ctx_c s /\ up s' = up s /\ n_ssl s' = n_ssl s /\ n_blk s' = n_blk s /\
  (x = None \/ x = ctx_s s') /\ (refused Client (trace s') <-> refused Client (trace s)) /\
  (match ctx_s s with
   | Some o => s' = s
   | None =>
      (ctx_s s' = None /\ x = None /\ n_ctx s' = n_ctx s /\ (refused Server (trace s') <-> refused Server (trace s))) \/
      exists o, ctx_s s' = Some o /\ s_verify (sets o) = false /\
        n_ctx s' = n_ctx s + 1 /\
        ((x = Some o /\ complete Server o /\ (refused Server (trace s') <-> refused Server (trace s)) /\
          load_pair store0 (e_crt1 e) (e_key1 e) = Some (certs o)) \/
         (x = None /\ ~ complete Server o /\ refused Server (trace s') /\ certs o = store0))
   end).
Proof.
  unfold load_ctx. destruct (ctx_s s) as [o|] eqn:E.
  { intro H. injection H as <- <-. rewrite E. repeat split; auto. }
  destruct (e_ctxnew e).
  2:{ intro H. injection H as <- <-. rewrite E. repeat split; auto. left. repeat split; auto. }
  unfold server_sets, try_sets, try_set.
  destruct (e_min e).
  2:{ cbn. intro H; injection H as <- <-; cbn. repeat split; auto; try (rewrite ?refused_app; cbn; intuition congruence).
      right. eexists. split; [reflexivity|]. cbn. split; [reflexivity|]. split; [reflexivity|]. right.
      split; [reflexivity|]. split; [unfold complete; cbn; intuition congruence|]. split; [|reflexivity].
      rewrite !refused_app; cbn; intuition congruence. }
  destruct (e_max e).
  2:{ cbn. intro H; injection H as <- <-; cbn. repeat split; auto; try (rewrite ?refused_app; cbn; intuition congruence).
      right. eexists. split; [reflexivity|]. cbn. split; [reflexivity|]. split; [reflexivity|]. right.
      split; [reflexivity|]. split; [unfold complete; cbn; intuition congruence|]. split; [|reflexivity].
      rewrite !refused_app; cbn; intuition congruence. }
  destruct (e_ciph e).
  2:{ cbn. intro H; injection H as <- <-; cbn. repeat split; auto; try (rewrite ?refused_app; cbn; intuition congruence).
      right. eexists. split; [reflexivity|]. cbn. split; [reflexivity|]. split; [reflexivity|]. right.
      split; [reflexivity|]. split; [unfold complete; cbn; intuition congruence|]. split; [|reflexivity].
      rewrite !refused_app; cbn; intuition congruence. }
  destruct (e_suite e).
  2:{ cbn. intro H; injection H as <- <-; cbn. repeat split; auto; try (rewrite ?refused_app; cbn; intuition congruence).
      right. eexists. split; [reflexivity|]. cbn. split; [reflexivity|]. split; [reflexivity|]. right.
      split; [reflexivity|]. split; [unfold complete; cbn; intuition congruence|]. split; [|reflexivity].
      rewrite !refused_app; cbn; intuition congruence. }
  cbn [ctx_s set_s note add_ctx sets certs obj0 fst snd].
  destruct (load_pair store0 (e_crt1 e) (e_key1 e)) as [cs|] eqn:L;
    intro H; injection H as <- <-; cbn [ctx_s ctx_c up n_ssl n_blk n_ctx trace set_s add_ctx note sets certs].
  - repeat split; auto; try (rewrite ?refused_app; cbn; intuition congruence).
    right. eexists. split; [reflexivity|]. cbn. split; [reflexivity|]. split; [reflexivity|]. left.
    split; [reflexivity|]. split; [repeat split|]. split; [|exact eq_refl].
    rewrite !refused_app; cbn; intuition congruence.
  - repeat split; auto; try (rewrite ?refused_app; cbn; intuition congruence).
    left. split; [reflexivity|]. split; [reflexivity|]. split; [lia|].
    rewrite !refused_app; cbn; intuition congruence.
Qed.
Lemma create_cases r e s s' x : up s = true -> create r e s = Ok (s', x) ->
  (s' = s /\ x = None) \/
  exists s1 y, load_ctx r e (add_blk s 1) = (s1, y) /\
    ctx_c s' = ctx_c s1 /\ ctx_s s' = ctx_s s1 /\ up s' = up s1 /\ n_ctx s' = n_ctx s1 /\ trace s' = trace s1 /\
    ((x = None /\ n_ssl s' = n_ssl s1 /\ n_blk s' = n_blk s1 - 1) \/
     exists o c, y = Some o /\ x = Some c /\ sets c = sets o /\ n_ssl s' = n_ssl s1 + 1 /\ n_blk s' = n_blk s1 /\
       match r with Client => c = o | Server => load_pair (certs o) (e_crt2 e) (e_key2 e) = Some (certs c) end).
Proof.
  intros U. unfold create. destruct (e_alloc e).
  2:{ intro H. injection H as <- <-. now left. }
  replace (up (add_blk s 1)) with true by (cbn; congruence).
  destruct (load_ctx r e (add_blk s 1)) as [s1 [o|]] eqn:L.
  2:{ intro H. injection H as <- <-. right. exists s1, None. cbn. repeat split; auto; left; repeat split; lia. }
  unfold load_con. destruct (e_new e).
  2:{ intro H. injection H as <- <-. right. exists s1, (Some o). cbn. repeat split; auto; left; repeat split; lia. }
  destruct r.
  - destruct (e_fd e && e_ex e); intro H; injection H as <- <-; right; exists s1, (Some o); cbn; repeat split; auto.
    + right. exists o, o. repeat split; lia.
    + left. repeat split; lia.
  - destruct (load_pair (certs o) (e_crt2 e) (e_key2 e)) as [cs|] eqn:P.
    2:{ intro H. injection H as <- <-. right. exists s1, (Some o). cbn. repeat split; auto; left; repeat split; lia. }
    destruct (e_fd e && e_ex e); intro H; injection H as <- <-; right; exists s1, (Some o); cbn; repeat split; auto.
    + right. eexists o, _. split; [reflexivity|]. split; [reflexivity|]. cbn. repeat split; auto; lia.
    + left. repeat split; lia.
Qed.
Lemma create_ok r e s : up s = true -> exists p, create r e s = Ok p.
Proof.
  intro U. unfold create. destruct (e_alloc e); [|eauto].
  replace (up (add_blk s 1)) with true by (cbn; congruence).
  destruct (load_ctx r e (add_blk s 1)) as [s1 [o|]]; [|eauto].
  destruct (load_con o r e s1) as [s2 [c|]]; [|eauto].
  destruct (e_fd e && e_ex e); eauto.
Qed.

Lemma inv0 : Inv [] st0 [].
Proof.
  constructor; cbn; auto.
  - intros (l & _ & []).
  - intros (l & _ & []).
  - intros r o [].
  - split; intros; discriminate.
Qed.
Lemma srcs_mono l x c : srcs l c -> srcs (l ++ [x]) c.
Proof. intros (e & H & E). exists e. rewrite in_app_iff. auto. Qed.
Lemma one_type_app ty l x : one_type ty (l ++ [x]) -> one_type ty l.
Proof. intros H e I. apply H, in_app_iff. now left. Qed.
Lemma on_ctx_mono (P Q : obj -> Prop) N x : (forall o, P o -> Q o) -> on_ctx P N x -> on_ctx Q N x.
Proof. destruct x; cbn; auto. Qed.

Lemma inv_step l s outs x s' o : Inv l s outs -> step s x = Ok (s', o) -> Inv (l ++ [x]) s' (outs ++ o).
Proof.
  intros V H. pose proof V as V0. destruct V. destruct x as [r e|].
  2:{ injection H as <- <-. rewrite app_nil_r. constructor; cbn; auto.
      - eapply on_ctx_mono; [|exact i_src0]. intros o H t c y E. eapply srcs_mono, H; eauto.
      - intros ty T. apply i_one0. eapply one_type_app; eauto. }
  cbn [step] in H. destruct (create r e s) as [[s2 x]| |] eqn:C; try discriminate.
  cbn in H. injection H as <- <-.
  destruct (create_cases _ _ _ _ _ i_up0 C) as [[-> ->]|(s1 & y & L & Cc & Cs & U & N & T & R)].
  { rewrite app_nil_r. constructor; cbn; auto.
    - eapply on_ctx_mono; [|exact i_src0]. intros o H t c y E. eapply srcs_mono, H; eauto.
    - intros ty T. apply i_one0. eapply one_type_app; eauto. }
  assert (X : x = None \/ exists o c, y = Some o /\ x = Some c /\ sets c = sets o).
  { destruct R as [(R & _)|(o & c & A & B & D & _)]; eauto 8. }
  clear R. destruct r.
  - apply load_ctx_client in L. cbn [ctx_s ctx_c up n_ssl n_blk n_ctx trace add_blk] in L.
    destruct L as (A & B & _ & _ & Y & L).
    destruct (ctx_c s) as [oc|] eqn:E.
    + subst s1. cbn [ctx_s ctx_c up n_ssl n_blk n_ctx trace add_blk] in *. constructor; rewrite ?Cc, ?Cs, ?U, ?T, ?N, ?E; auto.
      * intros r o H. apply in_app_iff in H. destruct H as [H|H]; [apply i_outs0 in H; exact H|].
        destruct X as [->|(o1 & c1 & Y1 & -> & S1)]; [destruct H|]. destruct H as [H|[]]. injection H as <- <-.
        exists oc. split; [reflexivity|]. rewrite S1. destruct Y as [Y|Y]; congruence.
      * eapply on_ctx_mono; [|exact i_src0]. intros o H t c z K. eapply srcs_mono, H; eauto.
      * intros ty Ty. apply i_one0. eapply one_type_app; eauto.
    + assert (O : forall r o, In (r, o) outs -> r = Server).
      { intros r o H. destruct r; [|reflexivity]. apply i_outs0 in H. destruct H as (o' & H & _). congruence. }
      destruct L as [[-> ->]|(o1 & E1 & St0 & Vf & N1 & L & RS)].
      * cbn [ctx_s ctx_c up n_ssl n_blk n_ctx trace add_blk] in *. constructor; rewrite ?Cc, ?Cs, ?U, ?T, ?N, ?E; auto.
        -- intros r o H. apply in_app_iff in H. destruct H as [H|H]; [apply i_outs0 in H; exact H|].
           destruct X as [->|(o1 & c1 & Y1 & _)]; [destruct H|discriminate].
        -- eapply on_ctx_mono; [|exact i_src0]. intros o H t c z K. eapply srcs_mono, H; eauto.
        -- intros ty Ty. apply i_one0. eapply one_type_app; eauto.
      * constructor; rewrite ?Cc, ?Cs, ?U, ?T, ?N, ?E1, ?A; auto; try congruence.
        -- cbn in *. destruct L as [(_ & L & R)|(_ & L & R)]; [rewrite R; tauto|tauto].
        -- destruct (ctx_s s); cbn in *; rewrite RS; auto.
        -- intros r o H. apply in_app_iff in H. destruct H as [H|H].
           { pose proof (O _ _ H). subst r. apply i_outs0 in H. exact H. }
           destruct X as [->|(o2 & c1 & Y1 & -> & S1)]; [destruct H|]. destruct H as [H|[]]. injection H as <- <-.
           exists o1. split; [reflexivity|]. rewrite S1. destruct Y as [Y|Y]; congruence.
        -- eapply on_ctx_mono; [|exact i_src0]. intros o H t c z K. eapply srcs_mono, H; eauto.
        -- intros ty Ty. apply i_one0. eapply one_type_app; eauto.
        -- split; [intros o H; injection H as <-; exact Vf | apply i_nv0].
        -- cbn [ctx_s ctx_c n_ctx add_blk] in *. lia.
  - apply load_ctx_server in L. cbn [ctx_s ctx_c up n_ssl n_blk n_ctx trace add_blk] in L.
    destruct L as (A & B & _ & _ & Y & RC & L).
    destruct (ctx_s s) as [oc|] eqn:E.
    + subst s1. cbn [ctx_s ctx_c up n_ssl n_blk n_ctx trace add_blk] in *. constructor; rewrite ?Cc, ?Cs, ?U, ?T, ?N, ?E; auto.
      * intros r o H. apply in_app_iff in H. destruct H as [H|H]; [apply i_outs0 in H; exact H|].
        destruct X as [->|(o1 & c1 & Y1 & -> & S1)]; [destruct H|]. destruct H as [H|[]]. injection H as <- <-.
        exists oc. split; [reflexivity|]. rewrite S1. destruct Y as [Y|Y]; congruence.
      * eapply on_ctx_mono; [|exact i_src0]. intros o H t c z K. eapply srcs_mono, H; eauto.
      * intros ty Ty. apply (i_one0 ty). eapply one_type_app; eauto.
    + assert (O : forall r o, In (r, o) outs -> r = Client).
      { intros r o H. destruct r; [reflexivity|]. apply i_outs0 in H. destruct H as (o' & H & _). congruence. }
      destruct L as [(E1 & -> & N1 & RS)|(o1 & E1 & Vf & N1 & L)].
      * constructor; rewrite ?Cc, ?Cs, ?U, ?T, ?N, ?E1, ?A; cbn; auto; try congruence.
        -- destruct (ctx_c s); cbn in *; rewrite RC; auto.
        -- cbn in *. now rewrite RS.
        -- intros r o H. apply in_app_iff in H. destruct H as [H|H].
           { pose proof (O _ _ H). subst r. apply i_outs0 in H. exact H. }
           destruct X as [->|(o1 & c1 & Y1 & _)]; [destruct H|discriminate].
      * assert (W : wf_store (certs o1)).
        { destruct L as [(_ & _ & _ & L)|(_ & _ & _ & ->)]; [|apply wf0]. eapply load_pair_wf; [apply wf0|exact L]. }
        constructor; rewrite ?Cc, ?Cs, ?U, ?T, ?N, ?E1, ?A; auto; try congruence.
        -- destruct (ctx_c s); cbn in *; rewrite RC; auto.
        -- cbn in *. destruct L as [(_ & L & R & _)|(_ & L & R & _)]; [rewrite R; tauto|tauto].
        -- intros r o H. apply in_app_iff in H. destruct H as [H|H].
           { pose proof (O _ _ H). subst r. apply i_outs0 in H. exact H. }
           destruct X as [->|(o2 & c1 & Y1 & -> & S1)]; [destruct H|]. destruct H as [H|[]]. injection H as <- <-.
           exists o1. split; [reflexivity|]. rewrite S1. destruct Y as [Y|Y]; congruence.
        -- cbn. destruct L as [(_ & _ & _ & L)|(_ & _ & _ & ->)]; [|cbn; intros; congruence].
           intros t c z K. exists e. split; [apply in_app_iff; right; now left|].
           unfold load_pair in L.
           destruct (use_cert store0 (e_crt1 e)) as [s3|] eqn:L1; [|discriminate].
           destruct (use_key s3 (e_key1 e)) as [s4|] eqn:L2; [|discriminate].
           destruct (check_key s4); [|discriminate]. injection L as L. rewrite <- L in K.
           unfold use_cert in L1. destruct (e_crt1 e) as [c1|]; [|discriminate]. injection L1 as <-.
           unfold use_key in L2. destruct (e_key1 e) as [k1|]; [|discriminate]. cbn in L2.
           destruct (Z.eqb_spec (k_ty k1) (c_ty c1)) as [Q|Q]; cbn in L2.
           ++ destruct (matches c1 k1); [|discriminate]. injection L2 as <-. cbn in K.
              destruct (t =? k_ty k1); [now injection K as <- _|]. destruct (t =? c_ty c1); [now injection K as <- _|discriminate].
           ++ injection L2 as <-. cbn in K.
              destruct (t =? k_ty k1); [discriminate|]. destruct (t =? c_ty c1); [now injection K as <- _|discriminate].
        -- intros ty Ty. cbn. destruct L as [(_ & _ & _ & L)|(_ & _ & _ & ->)]; [|reflexivity].
           destruct (Ty e) as (T1 & T2 & T3 & T4); [apply in_app_iff; right; now left|].
           destruct (load_pair_one store0 _ _ _ ty wf0 (fun _ _ => eq_refl) T1 T3 L) as (c & k & _ & _ & _ & Q).
           intros t Ht. rewrite Q. destruct (Z.eqb_spec t ty); congruence.
        -- split; [apply i_nv0|intros o H; injection H as <-; exact Vf].
        -- cbn [ctx_s ctx_c n_ctx add_blk] in *. lia.
Qed.

Lemma run_snoc s l s' outs : forall l0 outs0, Inv l0 s outs0 -> run s l = Ok (s', outs) -> Inv (l0 ++ l) s' (outs0 ++ outs).
Proof.
  revert s outs. induction l as [|x l IH]; intros s outs l0 outs0 V H; cbn [run] in H.
  - injection H as <- <-. now rewrite !app_nil_r.
  - destruct (step s x) as [[s1 o]| |] eqn:E; try discriminate. cbn in H.
    destruct (run s1 l) as [[s2 o2]| |] eqn:R; try discriminate. cbn in H. injection H as <- <-.
    pose proof (inv_step _ _ _ _ _ _ V E) as V1. specialize (IH _ _ _ _ V1 R).
    now rewrite <- !app_assoc in IH.
Qed.
Lemma run_inv l s outs : run st0 l = Ok (s, outs) -> Inv l s outs.
Proof. intro H. exact (run_snoc _ _ _ _ _ _ inv0 H). Qed.

(** ** C117 *)
(** the history is followed to its end, whatever the library and the files answer *)
Theorem C117_no_crash l : exists s outs, run st0 l = Ok (s, outs).
Proof.
  assert (G : forall l s, up s = true -> exists p, run s l = Ok p).
  { clear l. induction l as [|x l IH]; intros s U; [cbn; eauto|]. cbn [run]. destruct x as [r e|].
    - destruct (create_ok r e s U) as [[s1 y] C]. cbn [step]. rewrite C. cbn [bind fst snd].
      assert (U1 : up s1 = true).
      { destruct (create_cases _ _ _ _ _ U C) as [[-> _]|(s2 & z & L & _ & _ & U2 & _)]; [exact U|].
        rewrite U2. destruct r; [apply load_ctx_client in L|apply load_ctx_server in L];
          destruct L as (_ & L & _); rewrite L; exact U. }
      destruct (IH s1 U1) as [q Q]. rewrite Q. cbn. eauto.
    - cbn [step bind fst snd]. destruct (IH (add_blk (add_ssl s (-1)) (-1)) U) as [q Q]. rewrite Q. cbn. eauto. }
  destruct (G l st0 eq_refl) as [[s o] H]. eauto.
Qed.
(** exactly when a connection has all the settings: no setting of its role was ever refused *)
Theorem C117_exact l s outs r o : run st0 l = Ok (s, outs) -> In (r, o) outs ->
  (complete r o <-> ~ refused r (trace s)).
Proof.
  intros H I. apply run_inv in H. destruct H. destruct (i_outs0 _ _ I) as (o' & E & S1).
  assert (Q : complete r o <-> complete r o') by (unfold complete; rewrite S1; tauto).
  rewrite Q. destruct r; rewrite E in *; assumption.
Qed.
Theorem C117_partial l s outs r o : run st0 l = Ok (s, outs) -> In (r, o) outs ->
  (forall q b, In (q, b) (trace s) -> b = true) -> complete r o.
Proof.
  intros H I A. eapply C117_exact; eauto. intros (q & _ & J). apply A in J. discriminate.
Qed.
(** what the outside answers when all goes well, with these files *)
Definition good (c : cert) (k : pkey) : env :=
  Env true true true true true true (Some c) (Some k) true (Some c) (Some k) true true.
(** the same, but the library refuses the first setting (the lowest version) *)
Definition no_min (c : cert) (k : pkey) : env :=
  Env true true false true true true (Some c) (Some k) true (Some c) (Some k) true true.

(** as stated it is false, in both roles: one refusal, and the connections made afterwards
    have no lowest version *)
Theorem C117_refuted r : exists l s outs o,
  run st0 l = Ok (s, outs) /\ In (r, o) outs /\ s_min (sets o) = false /\ s_max (sets o) = false.
Proof.
  pose (c := Cert 6 1 1). pose (k := Pkey 6 1).
  exists [New r (no_min c k); New r (good c k)].
  destruct r; (eexists; eexists; eexists; split; [cbn; reflexivity|split; [now left|split; reflexivity]]).
Qed.
Theorem C117_property_refuted :
  ~ (forall l s outs r o, run st0 l = Ok (s, outs) -> In (r, o) outs -> complete r o).
Proof.
  intro H. destruct (C117_refuted Server) as (l & s & outs & o & R & I & M & _).
  destruct (H _ _ _ _ _ R I) as (A & _). congruence.
Qed.
(** once refused, every connection of that role lacks something, for ever *)
Theorem C117_for_ever_refuted l s outs r o :
  run st0 l = Ok (s, outs) -> refused r (trace s) -> In (r, o) outs -> ~ complete r o.
Proof. intros H R I C. apply (C117_exact _ _ _ _ _ H I) in C. tauto. Qed.

(** ** C118 *)
Lemma create_server l s outs e s' o : run st0 l = Ok (s, outs) -> create Server e s = Ok (s', Some o) ->
  exists o1, ctx_s s' = Some o1 /\ Inv (l ++ [New Server e]) s' (outs ++ [(Server, o)]) /\
  load_pair (certs o1) (e_crt2 e) (e_key2 e) = Some (certs o).
Proof.
  intros H C. apply run_inv in H.
  assert (V : Inv (l ++ [New Server e]) s' (outs ++ [(Server, o)])).
  { eapply inv_step; [exact H|]. cbn. rewrite C. reflexivity. }
  destruct (create_cases _ _ _ _ _ (i_up _ _ _ H) C) as [[_ X]|(s1 & y & L & Cc & Cs & _ & _ & _ & R)]; [discriminate|].
  destruct R as [(X & _)|(o1 & c & -> & X & _ & _ & _ & P)]; [discriminate|]. injection X as <-.
  apply load_ctx_server in L. destruct L as (_ & _ & _ & _ & [Y|Y] & _); [discriminate|].
  exists o1. rewrite Cs. auto.
Qed.
(** every history: a connection is made only from readable files; it has a certificate to
    show; each one it can show has its own key; and it comes from the files, either now or
    when the context was made *)
Theorem C118_pairs l s outs e s' o :
  run st0 l = Ok (s, outs) -> create Server e s = Ok (s', Some o) ->
  (exists c, e_crt2 e = Some c) /\ (exists c k, e_key2 e = Some k /\ presents o c k) /\
  forall c k, presents o c k ->
    matches c k = true /\
    (e_crt2 e = Some c \/ exists e', In (New Server e') (l ++ [New Server e]) /\ e_crt1 e' = Some c).
Proof.
  intros H C. destruct (create_server _ _ _ _ _ _ H C) as (o1 & E & V & P). destruct V.
  rewrite E in *. cbn in i_wf0, i_src0.
  pose proof (load_pair_wf _ _ _ _ i_wf0 P) as W.
  apply load_pair_slots in P. destruct P as (c & k & -> & -> & (c0 & P & M) & Q).
  split; [eauto|]. split; [exists c0, k; split; [reflexivity|]; now exists (k_ty k)|].
  intros c1 k1 (t & K). split; [now apply (W t)|].
  destruct (Q _ _ _ K) as [->|(y & Z)]; [now left|]. right. exact (i_src0 _ _ _ Z).
Qed.
(** if the type of the key never changes, the certificate shown is the one in the file at
    that moment, with the key in the key file, and no other *)
Theorem C118_partial l s outs e s' o ty c k :
  run st0 l = Ok (s, outs) -> create Server e s = Ok (s', Some o) ->
  one_type ty (l ++ [New Server e]) ->
  (presents o c k <-> e_crt2 e = Some c /\ e_key2 e = Some k).
Proof.
  intros H C T. destruct (create_server _ _ _ _ _ _ H C) as (o1 & E & V & P). destruct V.
  rewrite E in *. cbn in i_wf0. specialize (i_one0 ty T). cbn in i_one0.
  destruct (T e) as (T1 & T2 & T3 & T4); [apply in_app_iff; right; now left|].
  destruct (load_pair_one _ _ _ _ ty i_wf0 i_one0 T2 T4 P) as (c1 & k1 & -> & -> & M & Q).
  split.
  - intros (t & K). rewrite Q in K. destruct (t =? ty); [|discriminate]. now injection K as <- <-.
  - intros [A B]. injection A as <-. injection B as <-. exists ty. rewrite Q, Z.eqb_refl. reflexivity.
Qed.
(** files that do not belong together are refused (type unchanged) *)
Theorem C118_mismatch_partial l s outs e ty c k :
  run st0 l = Ok (s, outs) -> one_type ty (l ++ [New Server e]) ->
  e_crt2 e = Some c -> e_key2 e = Some k -> matches c k = false ->
  exists s', create Server e s = Ok (s', None).
Proof.
  intros H T A B M. pose proof (run_inv _ _ _ H) as V.
  destruct (create_ok Server e s (i_up _ _ _ V)) as [[s' [o|]] C]; [|eauto].
  destruct (proj2 (C118_partial _ _ _ _ _ _ ty c k H C T) (conj A B)) as (t & K).
  destruct (C118_pairs _ _ _ _ _ _ H C) as (_ & _ & Q).
  destruct (Q c k) as (M' & _); [now exists t|]. congruence.
Qed.
(** loading a pair that belongs together always works, and puts it into its place *)
Lemma load_pair_good s c k : matches c k = true ->
  exists s', load_pair s (Some c) (Some k) = Some s' /\
  forall t, slot s' t = if t =? c_ty c then (Some c, Some k) else slot s t.
Proof.
  intro M. assert (T : c_ty c = k_ty k) by (apply matches_eq in M; tauto).
  unfold load_pair, use_cert, use_key. cbn [slot put]. rewrite <- T, Z.eqb_refl. cbn [fst]. rewrite M.
  unfold check_key. cbn [cur slot put]. rewrite Z.eqb_refl, M. eexists. split; [reflexivity|].
  intro t. cbn [slot put]. now destruct (t =? c_ty c).
Qed.
(** a certificate beside the key of another one that is there already *)
Lemma load_pair_other s c0 k0 c : matches c0 k0 = true -> c_ty c0 <> c_ty c ->
  slot s (c_ty c0) = (Some c0, Some k0) -> slot s (c_ty c) = (None, None) ->
  exists s', load_pair s (Some c) (Some k0) = Some s' /\
  forall t, slot s' t = if t =? c_ty c then (Some c, None) else slot s t.
Proof.
  intros M N S0 S1. assert (T : c_ty c0 = k_ty k0) by (apply matches_eq in M; tauto).
  unfold load_pair, use_cert, use_key. rewrite S1. cbn [slot put snd]. rewrite <- T.
  rewrite (proj2 (Z.eqb_neq _ _) N), S0. cbn [fst]. rewrite M. unfold check_key. cbn [cur slot put].
  rewrite Z.eqb_refl, M. eexists. split; [reflexivity|].
  intro t. cbn [slot put]. destruct (Z.eqb_spec t (c_ty c0)) as [->|].
  - rewrite (proj2 (Z.eqb_neq _ _) N). now rewrite S0.
  - reflexivity.
Qed.
(** making a connection when all goes well *)
Lemma create_again e c k s o1 cs : up s = true -> ctx_s s = Some o1 ->
  load_pair (certs o1) (Some c) (Some k) = Some cs -> e = good c k ->
  exists s', create Server e s = Ok (s', Some (Obj (sets o1) cs)) /\ ctx_s s' = Some o1 /\ up s' = true.
Proof.
  intros U E P ->. unfold create, load_ctx, load_con. cbn [e_alloc good e_new e_crt2 e_key2 e_fd e_ex andb].
  replace (up (add_blk s 1)) with true by (cbn; congruence). cbn [ctx_s add_blk]. rewrite E, P.
  eexists. split; [reflexivity|]. cbn [ctx_s up add_ssl add_blk]. auto.
Qed.
Lemma load_ctx_first c k s cs : ctx_s s = None -> load_pair store0 (Some c) (Some k) = Some cs ->
  exists s' o1, load_ctx Server (good c k) s = (s', Some o1) /\ certs o1 = cs /\ ctx_s s' = Some o1 /\ up s' = up s.
Proof.
  intros E P. unfold load_ctx. rewrite E. cbn [e_ctxnew good].
  cbn [server_sets try_sets try_set e_min e_max e_ciph e_suite good].
  cbn [ctx_s set_s note add_ctx sets certs obj0 fst snd e_crt1 e_key1 good]. rewrite P.
  eexists. eexists. split; [reflexivity|]. split; [reflexivity|]. split; [reflexivity|]. reflexivity.
Qed.
Lemma create_first c k s cs cs2 : up s = true -> ctx_s s = None ->
  load_pair store0 (Some c) (Some k) = Some cs -> load_pair cs (Some c) (Some k) = Some cs2 ->
  exists s' o1 o, create Server (good c k) s = Ok (s', Some o) /\ certs o = cs2 /\
  ctx_s s' = Some o1 /\ certs o1 = cs /\ up s' = true.
Proof.
  intros U E P P2. unfold create. cbn [e_alloc good].
  destruct (load_ctx_first c k (add_blk s 1) cs E P) as (s1 & o1 & L & C & E1 & U1).
  replace (up (add_blk s 1)) with true by (cbn; congruence). rewrite L.
  unfold load_con. cbn [e_new good e_crt2 e_key2 e_fd e_ex andb]. rewrite C, P2.
  eexists. eexists. eexists. split; [reflexivity|]. split; [reflexivity|].
  split; [exact E1|]. split; [exact C|]. cbn [up add_ssl]. rewrite U1. exact U.
Qed.
(** a renewed pair of files is taken up by the next connection *)
Theorem C118_renewed l s outs c k : run st0 l = Ok (s, outs) -> matches c k = true ->
  exists s' o, create Server (good c k) s = Ok (s', Some o) /\ presents o c k.
Proof.
  intros H M. pose proof (run_inv _ _ _ H) as V. destruct V.
  destruct (ctx_s s) as [o1|] eqn:E.
  - destruct (load_pair_good (certs o1) c k M) as (cs & P & Q).
    destruct (create_again _ c k s o1 cs i_up0 E P eq_refl) as (s' & C & _).
    exists s'. eexists. split; [exact C|]. exists (c_ty c). cbn [certs]. rewrite Q, Z.eqb_refl. reflexivity.
  - destruct (load_pair_good store0 c k M) as (cs & P & _).
    destruct (load_pair_good cs c k M) as (cs2 & P2 & Q).
    destruct (create_first c k s cs cs2 i_up0 E P P2) as (s' & o1 & o & C & D & _).
    exists s', o. split; [exact C|]. exists (c_ty c). rewrite D, Q, Z.eqb_refl. reflexivity.
Qed.
(** the first connection of all *)
Lemma first_ok c k : matches c k = true ->
  exists s outs o1, run st0 [New Server (good c k)] = Ok (s, outs) /\ ctx_s s = Some o1 /\ up s = true /\
  forall t, slot (certs o1) t = if t =? c_ty c then (Some c, Some k) else (None, None).
Proof.
  intro M. destruct (load_pair_good store0 c k M) as (cs & P & Q0).
  destruct (load_pair_good cs c k M) as (cs2 & P2 & Q).
  destruct (create_first c k st0 cs cs2 eq_refl eq_refl P P2) as (s' & o1 & o & C & D & E & F & U).
  exists s', [(Server, o)], o1. split; [cbn [run step]; rewrite C; reflexivity|].
  split; [exact E|]. split; [exact U|]. rewrite F. exact Q0.
Qed.
(** but with another type of key the old certificate is shown as well *)
Theorem C118_refuted c1 k1 c2 k2 : matches c1 k1 = true -> matches c2 k2 = true -> c_ty c1 <> c_ty c2 ->
  exists s outs s' o, run st0 [New Server (good c1 k1)] = Ok (s, outs) /\
  create Server (good c2 k2) s = Ok (s', Some o) /\ presents o c2 k2 /\ presents o c1 k1.
Proof.
  intros M1 M2 N. destruct (first_ok c1 k1 M1) as (s & outs & o1 & R & E & U & Q).
  destruct (load_pair_good (certs o1) c2 k2 M2) as (cs & P & Q2).
  destruct (create_again _ c2 k2 s o1 cs U E P eq_refl) as (s' & C & _).
  exists s, outs, s'. eexists. split; [exact R|]. split; [exact C|]. split.
  - exists (c_ty c2). cbn [certs]. rewrite Q2, Z.eqb_refl. reflexivity.
  - exists (c_ty c1). cbn [certs]. rewrite Q2, (proj2 (Z.eqb_neq _ _) N), Q, Z.eqb_refl. reflexivity.
Qed.
(** and a new certificate beside an old key of another type is taken without complaint *)
Theorem C118_mismatch_refuted c1 k1 c2 : matches c1 k1 = true -> c_ty c1 <> c_ty c2 ->
  matches c2 k1 = false /\
  exists s outs s' o, run st0 [New Server (good c1 k1)] = Ok (s, outs) /\
  create Server (good c2 k1) s = Ok (s', Some o) /\ presents o c1 k1 /\ forall k, ~ presents o c2 k.
Proof.
  intros M1 N. split.
  { apply matches_eq in M1. unfold matches. destruct (Z.eqb_spec (c_ty c2) (k_ty k1)); [|reflexivity]. destruct M1. congruence. }
  destruct (first_ok c1 k1 M1) as (s & outs & o1 & R & E & U & Q).
  pose proof (proj2 (Z.eqb_neq _ _) N) as N1.
  assert (N2 : (c_ty c2 =? c_ty c1) = false) by (apply Z.eqb_neq; congruence).
  destruct (load_pair_other (certs o1) c1 k1 c2 M1 N) as (cs & P & Q2).
  { rewrite Q, Z.eqb_refl. reflexivity. }
  { rewrite Q, N2. reflexivity. }
  destruct (create_again _ c2 k1 s o1 cs U E P eq_refl) as (s' & C & _).
  exists s, outs, s'. eexists. split; [exact R|]. split; [exact C|]. split.
  - exists (c_ty c1). cbn [certs]. rewrite Q2, N1, Q, Z.eqb_refl. reflexivity.
  - intros k (t & H). cbn [certs] in H. rewrite Q2 in H. destruct (t =? c_ty c2); [discriminate|].
    rewrite Q in H. destruct (t =? c_ty c1); [|discriminate]. injection H as H _. congruence.
Qed.

(** ** C119 *)
Definition n_new (outs : list (role * obj)) : Z := zlen outs.
Fixpoint n_free (l : list ev) : Z :=
  match l with [] => 0 | Free :: t => 1 + n_free t | _ :: t => n_free t end.
Lemma counts_step s x s' o : up s = true -> step s x = Ok (s', o) ->
  n_ssl s' - n_ssl s = zlen o - (match x with Free => 1 | _ => 0 end) /\
  n_blk s' - n_blk s = zlen o - (match x with Free => 1 | _ => 0 end).
Proof.
  intros U H. destruct x as [r e|].
  2:{ injection H as <- <-. cbn. unfold zlen; cbn; lia. }
  cbn [step] in H. destruct (create r e s) as [[s2 x]| |] eqn:C; try discriminate. cbn in H. injection H as <- <-.
  destruct (create_cases _ _ _ _ _ U C) as [[-> ->]|(s1 & y & L & _ & _ & _ & _ & _ & R)]; [unfold zlen; cbn; lia|].
  assert (Q : n_ssl s1 = n_ssl s /\ n_blk s1 = n_blk s + 1).
  { destruct r; [apply load_ctx_client in L|apply load_ctx_server in L]; cbn in L; tauto. }
  destruct R as [(-> & A & B)|(o & c & _ & -> & _ & A & B & _)]; unfold zlen; cbn; lia.
Qed.
(** at every moment: as many connections and blocks as were handed out and not yet
    released; one context per role at most; and none after [ssl_end] *)
Theorem C119_nothing_left l s outs : run st0 l = Ok (s, outs) ->
  n_ssl s = zlen outs - n_free l /\ n_blk s = zlen outs - n_free l /\
  0 <= n_ctx s <= 2 /\ n_ctx (ssl_end s) = 0.
Proof.
  intro H. pose proof (run_inv _ _ _ H) as V.
  assert (G : forall l l0 s s' outs0 outs, Inv l0 s outs0 -> run s l = Ok (s', outs) ->
    n_ssl s' - n_ssl s = zlen outs - n_free l /\ n_blk s' - n_blk s = zlen outs - n_free l).
  { clear. induction l as [|x l IH]; intros l0 s s' outs0 outs V H; cbn [run] in H.
    - injection H as <- <-. unfold zlen. cbn. lia.
    - destruct (step s x) as [[s1 o]| |] eqn:E; try discriminate. cbn in H.
      destruct (run s1 l) as [[s2 o2]| |] eqn:R; try discriminate. cbn in H. injection H as <- <-.
      pose proof (counts_step _ _ _ _ (i_up _ _ _ V) E). pose proof (inv_step _ _ _ _ _ _ V E) as V1.
      specialize (IH _ _ _ _ _ V1 R). assert (zlen (o ++ o2) = zlen o + zlen o2) by (unfold zlen; rewrite app_length; lia).
      destruct x; cbn [n_free]; lia. }
  destruct (G _ _ _ _ _ _ inv0 H) as [A B]. cbn in A, B.
  destruct V. split; [lia|]. split; [lia|].
  unfold ssl_end. rewrite i_n0. destruct (ctx_c s) eqn:E1, (ctx_s s) eqn:E2; cbn; rewrite ?E2; cbn; lia.
Qed.

(** ** C120 *)
(** the client takes every server, whatever certificate it shows, and then sends its key *)
Theorem C120_refuted l s outs o trusted : run st0 l = Ok (s, outs) -> In (Client, o) outs ->
  accepts_peer o trusted = true.
Proof.
  intros H I. apply run_inv in H. destruct H. destruct (i_outs0 _ _ I) as (o' & E & S1).
  unfold accepts_peer. rewrite S1, (proj1 i_nv0 _ E). reflexivity.
Qed.
Theorem C120_property_refuted :
  ~ (forall l s outs o trusted, run st0 l = Ok (s, outs) -> In (Client, o) outs ->
     accepts_peer o trusted = true -> trusted = true).
Proof.
  intro H. pose (e := good (Cert 6 1 1) (Pkey 6 1)).
  assert (R : exists s o, run st0 [New Client e] = Ok (s, [(Client, o)])) by (do 2 eexists; reflexivity).
  destruct R as (s & o & R).
  assert (I : In (Client, o) [(Client, o)]) by now left.
  specialize (H _ _ _ o false R I (C120_refuted _ _ _ _ false R I)). discriminate.
Qed.

(** ** Examples *)
Definition rsa1 := Cert 6 11 1. Definition rsa1k := Pkey 6 11.
Definition rsa2 := Cert 6 22 1. Definition rsa2k := Pkey 6 22.
Definition ec := Cert 408 33 1. Definition eck := Pkey 408 33.
Definition ex_history : list ev :=
  [New Server (good rsa1 rsa2k); New Server (good rsa1 rsa1k); New Client (good rsa1 rsa1k); Free; New Server (good rsa2 rsa2k)].
Definition ex_shown (x : res (st * list (role * obj))) : list (role * list Z) :=
  match x with
  | Ok (_, outs) => map (fun p => (fst p,
      flat_map (fun t => match slot (certs (snd p)) t with (Some c, Some _) => [c_pub c] | _ => [] end) [6; 408])) outs
  | _ => []
  end.
(** a pair that does not match is refused; a renewed pair is used at once *)
Example ex_renewed : ex_shown (run st0 ex_history) = [(Server, [11]); (Client, []); (Server, [22])].
Proof. reflexivity. Qed.
Example ex_one_type : one_type 6 ex_history.
Proof.
  intros e H. cbn in H.
  repeat (destruct H as [H|H]; [first [discriminate H | injection H as <-; repeat split; cbn; intros ? X; injection X as <-; reflexivity]|]).
  destruct H.
Qed.
(** from RSA to EC: the old certificate is shown beside the new one *)
Example ex_other_type :
  ex_shown (run st0 [New Server (good rsa1 rsa1k); New Server (good ec eck)]) = [(Server, [11]); (Server, [11; 33])].
Proof. reflexivity. Qed.
(** settings: two refusals, then a connection without them *)
Example ex_settings :
  match run st0 [New Server (good rsa1 rsa2k); New Server (no_min rsa1 rsa1k); New Server (good rsa1 rsa1k)] with
  | Ok (s, outs) => (n_ctx s, n_ssl s, n_blk s, map (fun p => (s_min (sets (snd p)), s_ciph (sets (snd p)))) outs)
  | _ => (0, 0, 0, [])
  end = (1, 1, 1, [(false, false)]).
Proof. reflexivity. Qed.
Example ex_complete :
  match run st0 ex_history with Ok (s, outs) => (forallb snd (trace s), n_ctx s, n_ssl s, zlen outs) | _ => (false, 0, 0, 0) end
  = (true, 2, 2, 3).
Proof. reflexivity. Qed.

Print Assumptions C117_no_crash.
Print Assumptions C117_exact.
Print Assumptions C117_partial.
Print Assumptions C117_refuted.
Print Assumptions C117_property_refuted.
Print Assumptions C117_for_ever_refuted.
Print Assumptions C118_pairs.
Print Assumptions C118_partial.
Print Assumptions C118_mismatch_partial.
Print Assumptions C118_renewed.
Print Assumptions C118_refuted.
Print Assumptions C118_mismatch_refuted.
Print Assumptions C119_nothing_left.
Print Assumptions C120_refuted.
Print Assumptions C120_property_refuted.
