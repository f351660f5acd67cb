(** * C112: the whole tunnel, from an application through client, TLS and server to the target *)
From Verif Require Import Base Str_Spec Ac_Model Meta_Model Meta_Proofs S5_Model S5_Spec S5_Proofs S5_Req_Props
  S5_Auth_Props S5_Dial_Props Relay_Model Relay_Proofs Relay_Any_Props Tun_Model Tun_Spec Tun_Proofs Tun_Polite_Proofs.

Local Arguments Z.add : simpl never.
Local Arguments Z.sub : simpl never.

(** ** What the invariant says about the bytes *)
Lemma tinv_up hdr t : tinv hdr t -> exists lost,
  hdr ++ t_app t = t_rcv t ++ concat (t_cs t) ++ lost ++ t_ac t /\
  (t_cl t <> CDead -> lost = cl_pending hdr (t_cl t)).
Proof.
  intros (took & cin & tt & C & _ & EA & _). destruct (cl_account _ _ _ _ _ _ C) as ((lost & E & L) & _).
  exists lost. split; [|exact L]. rewrite EA, app_assoc, E, <- !app_assoc. reflexivity.
Qed.

Lemma tinv_down hdr t : tinv hdr t ->
  h_sent (sv_hs (t_sv t)) ++ t_ans t = t_got t ++ cl_pending_down (t_cl t) ++ t_sc t ++ sv_pending_down (t_sv t) ++ t_ts t.
Proof.
  intros (took & cin & tt & C & V & _ & ET & _). destruct (cl_account _ _ _ _ _ _ C) as (_ & EC).
  destruct (t_sv t) as [h|h r]; cbn [sv_inv sv_hs sv_pending_down] in *.
  - destruct V as (-> & _ & <- & _). rewrite ET, EC, <- !app_assoc. reflexivity.
  - destruct V as (ES & _ & -> & (D & _) & _). destruct (D false) as (_ & _ & E). cbn [app] in E.
    rewrite ET, E. transitivity ((h_sent h ++ d_out (get r false)) ++ mdata (d_buf (get r false)) ++ t_ts t); [rewrite <- !app_assoc; reflexivity|].
    rewrite <- ES, EC, <- !app_assoc. reflexivity.
Qed.

Lemma tinv_sent hdr t : tinv hdr t -> forall h, t_sv t = SHs h -> prefix (t_got t) (h_sent h).
Proof.
  intros (took & cin & tt & C & V & _) h E. destruct (cl_account _ _ _ _ _ _ C) as (_ & EC). rewrite E in V. cbn [sv_inv] in V.
  destruct V as (_ & _ & <- & _). rewrite EC. eexists. rewrite <- !app_assoc. reflexivity.
Qed.

Lemma tinv_tgt hdr t : tinv hdr t -> match t_sv t with
  | SHs _ => t_tgt t = []
  | SRel _ r => d_in (get r true) = t_tgt t ++ sv_pending (t_sv t) /\ exists seen, t_rcv t = hdr ++ seen ++ d_in (get r true)
  end.
Proof.
  intros (took & cin & tt & _ & V & _). destruct (t_sv t) as [h|h r]; cbn [sv_inv sv_pending] in *.
  - apply V.
  - destruct V as (_ & -> & _ & (D & _) & _ & seen & E). destruct (D true) as (_ & _ & E1). cbn [app] in E1. split; [exact E1|]. exists seen. exact E.
Qed.

(** what a step of the server receives comes next in the stream; during the check of the
    header it is a part of the header *)
Lemma tun_take hdr t i : zlen hdr = AUTH_LEN -> tinv hdr t -> tun_ok t (TSrv i) ->
  prefix (t_rcv t ++ sv_takes_tls (t_sv t) i) (hdr ++ t_app t) /\
  (in_auth (t_sv t) -> prefix (t_rcv t ++ sv_takes_tls (t_sv t) i) hdr).
Proof.
  intros LH V OK. destruct (tinv_up _ _ V) as (lost & EU & _). destruct V as (took & cin & tt & _ & SV & _ & _ & NE & B). cbn [tun_ok] in OK. destruct OK as (_ & P1 & _).
  destruct (sv_takes_tls (t_sv t) i) as [|b bs].
  - rewrite app_nil_r. split; [rewrite EU; eexists; reflexivity|]. intros A. destruct (B A) as (c1 & c2 & h & _ & E2 & _). eexists. exact E2.
  - destruct (t_cs t) as [|r0 q] eqn:EQ; [contradiction|]. split.
    + rewrite EU. destruct P1 as (z & ->). cbn [concat]. eexists. rewrite <- !app_assoc. reflexivity.
    + intros A. refine (proj1 (bnd_take hdr (t_rcv t) (r0 :: q) (b :: bs) r0 q _ eq_refl P1 _ (B A))); [discriminate|].
      eapply sv_auth_bound; eauto.
Qed.

Lemma tun_other hdr t a : tinv hdr t -> tun_ok t a -> (forall i h, a = TSrv (SHsIn i) -> t_sv t = SHs h -> exists h', hs_step h i = Ok h') ->
  exists t', tun_step hdr t a = Ok t'.
Proof.
  intros V OK H. destruct a as [bs|bs|i|i]; cbn [tun_step] in *; eauto.
  - destruct V as (took & cin & tt & C & _). destruct OK as (E & _). destruct (cl_total hdr _ _ _ _ _ _ C E) as (c' & ->). cbn [bind]. eauto.
  - destruct OK as (E & _). destruct (t_sv t) as [h|h r] eqn:ES; destruct i as [i|x]; try contradiction; cbn [server_step].
    + destruct (H i h eq_refl eq_refl) as (h' & ->). cbn [bind]. destruct (h_ph h'); cbn [bind]; eauto.
    + destruct V as (took & cin & tt & _ & SV & _). rewrite ES in SV. cbn [sv_inv] in SV. destruct SV as (_ & _ & _ & W & _).
      destruct (any_step_inv _ _ _ _ W E) as (r' & -> & _). cbn [bind]. eauto.
Qed.

(** ** Any application *)
(** whatever the application does: the bytes the target has got are a piece of what the
    application wrote, without gap, change or repetition, and what the application has got is a
    beginning of what the server answered in the handshake followed by what the target wrote;
    the rest is in the buffers and connections named. Nothing but the server's handling of the
    handshake can go wrong. *)
Theorem C112_any_application :
  forall key c acts, zlen key <= 16 -> tun_along (header_of key) tun_ok (tun_init c) acts ->
    match tun_run (header_of key) (tun_init c) acts with
    | Ok t =>
        (t_tgt t = [] \/
         exists shake lost, t_app t = shake ++ t_tgt t ++ sv_pending (t_sv t) ++ concat (t_cs t) ++ lost ++ t_ac t /\
           (t_cl t <> CDead -> lost = cl_pending (header_of key) (t_cl t))) /\
        h_sent (sv_hs (t_sv t)) ++ t_ans t =
          t_got t ++ cl_pending_down (t_cl t) ++ t_sc t ++ sv_pending_down (t_sv t) ++ t_ts t
    | _ => exists l1 i l2 t1 h, acts = l1 ++ TSrv (SHsIn i) :: l2 /\ tun_run (header_of key) (tun_init c) l1 = Ok t1 /\
             t_sv t1 = SHs h /\ enabled h i /\ forall h', hs_step h i <> Ok h'
    end.
Proof.
  intros key c acts LK. pose proof (header_len key LK) as LH. assert (LH' : zlen (header_of key) = AUTH_LEN) by exact LH.
  revert LH LH'. generalize (header_of key). intros hdr LH LH'. pose proof (tinv_init hdr c LH') as V.
  revert V. generalize (tun_init c). induction acts as [|a acts IH]; intros t V AL; cbn [tun_run].
  - split; [|exact (tinv_down _ _ V)]. destruct (tinv_up _ _ V) as (lost & EU & EL). pose proof (tinv_tgt _ _ V) as T.
    destruct (t_sv t) as [h|h r] eqn:ES; [left; exact T|]. right. destruct T as (E1 & seen & E2). exists seen, lost. split; [|exact EL].
    rewrite E2, E1, <- !app_assoc in EU. apply app_inv_head in EU. exact EU.
  - destruct AL as (OK & AL). destruct (tun_step hdr t a) as [t'|f|] eqn:ST; cbn [bind].
    + specialize (IH t' (tinv_step _ _ _ _ LH' V OK ST) (AL t' eq_refl)).
      destruct (tun_run hdr t' acts) as [t2|f|]; [exact IH| |];
        destruct IH as (l1 & i & l2 & t1 & h & -> & R & H); exists (a :: l1), i, l2, t1, h; cbn [app tun_run]; rewrite ST; cbn [bind]; auto.
    + assert (F : exists i h, a = TSrv (SHsIn i) /\ t_sv t = SHs h /\ forall h', hs_step h i <> Ok h').
      { destruct a as [bs|bs|i|i]; try discriminate.
        - destruct (tun_other hdr t _ V OK) as (t' & E); [discriminate|]. rewrite E in ST. discriminate.
        - destruct i as [i|x]; [|destruct (tun_other hdr t _ V OK) as (t' & E); [discriminate|]; rewrite E in ST; discriminate].
          destruct (t_sv t) as [h|h r] eqn:ES; [|destruct (tun_other hdr t _ V OK) as (t' & E); [congruence|]; rewrite E in ST; discriminate].
          exists i, h. split; [reflexivity|]. split; [reflexivity|]. intros h' E. destruct (tun_other hdr t _ V OK) as (t' & E'); [|rewrite E' in ST; discriminate].
          intros i0 h0 [= <-] E0. rewrite ES in E0. injection E0 as <-. eauto. }
      destruct F as (i & h & -> & ES & N). exists [], i, acts, t, h. cbn [app tun_run]. repeat (split; [reflexivity || exact ES|]). split; [|exact N].
      destruct OK as (E & _). rewrite ES in E. exact E.
    + assert (F : exists i h, a = TSrv (SHsIn i) /\ t_sv t = SHs h /\ forall h', hs_step h i <> Ok h').
      { destruct a as [bs|bs|i|i]; try discriminate.
        - destruct (tun_other hdr t _ V OK) as (t' & E); [discriminate|]. rewrite E in ST. discriminate.
        - destruct i as [i|x]; [|destruct (tun_other hdr t _ V OK) as (t' & E); [discriminate|]; rewrite E in ST; discriminate].
          destruct (t_sv t) as [h|h r] eqn:ES; [|destruct (tun_other hdr t _ V OK) as (t' & E); [congruence|]; rewrite E in ST; discriminate].
          exists i, h. split; [reflexivity|]. split; [reflexivity|]. intros h' E. destruct (tun_other hdr t _ V OK) as (t' & E'); [|rewrite E' in ST; discriminate].
          intros i0 h0 [= <-] E0. rewrite ES in E0. injection E0 as <-. eauto. }
      destruct F as (i & h & -> & ES & N). exists [], i, acts, t, h. cbn [app tun_run]. repeat (split; [reflexivity || exact ES|]). split; [|exact N].
      destruct OK as (E & _). rewrite ES in E. exact E.
Qed.
Print Assumptions C112_any_application.

(** ** An application that follows the protocol *)
Definition svp (hdr g q : list Z) (c : ac) (s : server) (rcv : list Z) (fnd : list (list Z)) : Prop :=
  match s with
  | SHs h => phs hdr g q c h rcv fnd
  | SRel h r => phs hdr g q c h (hdr ++ g ++ q) fnd /\ h_ph h = PhRelay /\ rcv = hdr ++ g ++ q ++ d_in (get r true)
  end.
Definition pinv (hdr g q : list Z) (c : ac) (t : tun) : Prop :=
  tinv hdr t /\ svp hdr g q c (t_sv t) (t_rcv t) (t_fnd t) /\ may_write g q (t_app t) (t_got t).

Lemma may_write_more g q a got x : may_write g q a got -> may_write g q a (got ++ x).
Proof. pose proof (zlen_nonneg x) as NX. intros [H|[(L & H')|(L & H')]]; [left; exact H|right; left|right; right]; (split; [rewrite zlen_app; lia|assumption]). Qed.

Lemma pinv_step g q c key t a : 1 <= zlen key <= 16 -> no_nul key -> (exists c', ezac_find c key = Ok (true, c')) -> hello g -> connect_to q ->
  pinv (header_of key) g q c t -> polite g q t a -> exists t', tun_step (header_of key) t a = Ok t' /\ pinv (header_of key) g q c t'.
Proof.
  intros LK NK FK HG HQ (V & SV & MW) (OK & PO). pose proof (header_len key (proj2 LK)) as LH. assert (LH' : zlen (header_of key) = AUTH_LEN) by exact LH.
  set (hdr := header_of key) in *.
  assert (HS : forall i h, a = TSrv (SHsIn i) -> t_sv t = SHs h -> exists h', hs_step h i = Ok h' /\ phs hdr g q c h' (t_rcv t ++ in_bytes i) (t_fnd t ++ answers [i])).
  { intros i h -> ES. destruct (tun_take hdr t _ LH' V OK) as (P1 & P2). pose proof (tinv_sent _ _ V h ES) as SP. apply prefix_len in SP.
    destruct OK as (E & _). rewrite ES in E, P1, P2, SV. cbn [sv_enabled svp in_auth] in *.
    assert (EB : sv_takes_tls (SHs h) (SHsIn i) = in_bytes i) by (destruct i as [[| |]| | | | | | | |]; reflexivity). rewrite EB in P1, P2.
    assert (PA : forall seen, t_rcv t = hdr ++ seen -> prefix (seen ++ in_bytes i) (t_app t)).
    { intros seen EQ. rewrite EQ, <- app_assoc in P1. exact (prefix_cancel _ _ _ P1). }
    pose proof (zlen_nonneg (t_got t)). eapply phs_step; eauto.
    - reflexivity.
    - intros seen EQ S0. rewrite S0, zlen_nil in SP. eapply prefix_trans; [exact (PA _ EQ)|].
      destruct MW as [M|[(L & M)|(L & M)]]; [exact M|lia|lia].
    - intros seen EQ S0. eapply prefix_trans; [exact (PA _ EQ)|].
      destruct MW as [M|[(L & M)|(L & M)]]; [apply prefix_app_r; exact M|exact M|lia]. }
  destruct (tun_other hdr t a V OK) as (t' & ST). { intros i h E1 E2. destruct (HS i h E1 E2) as (h' & E & _). eauto. }
  exists t'. split; [exact ST|]. split; [eapply tinv_step; eauto|].
  destruct a as [bs|bs|i|i]; cbn [tun_step] in ST.
  - injection ST as <-. cbn [t_sv t_rcv t_fnd t_app t_got]. auto.
  - injection ST as <-. cbn [t_sv t_rcv t_fnd t_app t_got]. auto.
  - destruct (client_step hdr (t_cl t) i); try discriminate. cbn [bind] in ST. injection ST as <-. cbn [t_sv t_rcv t_fnd t_app t_got].
    split; [exact SV|]. apply may_write_more. exact MW.
  - destruct (server_step (t_sv t) i) as [s'| |] eqn:SS; try discriminate. cbn [bind] in ST. injection ST as <-. cbn [t_sv t_rcv t_fnd t_app t_got].
    split; [|exact MW]. destruct OK as (E & P1 & P2). destruct (t_sv t) as [h|h r] eqn:ES; destruct i as [i|x]; try contradiction; cbn [server_step] in SS.
    + destruct (HS i h eq_refl eq_refl) as (h' & E' & PH). rewrite E' in SS. cbn [bind] in SS.
      assert (EB : sv_takes_tls (SHs h) (SHsIn i) = in_bytes i) by (destruct i as [[| |]| | | | | | | |]; reflexivity).
      assert (EF : sv_found (SHsIn i) = answers [i]) by (destruct i as [x|x|b|a|a|b|x|b|]; try (destruct a); reflexivity).
      rewrite EB, EF. destruct (h_ph h') eqn:P'; injection SS as <-; try exact PH. cbn [svp].
      pose proof PH as PH'. unfold phs in PH'. rewrite P' in PH'. destruct PH' as (ER & _). split; [rewrite <- ER; exact PH|]. split; [exact P'|].
      rewrite ER. destruct (relay_init_io (h_meta h') TLS_TUNNEL_METAN true) as (I1 & _). rewrite I1, app_nil_r. reflexivity.
    + destruct (any_step r x) as [r'| |] eqn:AS; try discriminate. cbn [bind] in SS. injection SS as <-. cbn [svp sv_takes_tls sv_found] in *. rewrite app_nil_r.
      destruct SV as (S1 & S2 & S3). split; [exact S1|]. split; [exact S2|]. destruct (rel_step_io _ _ _ E AS true) as (I1 & _). rewrite S3, I1, <- !app_assoc. reflexivity.
Qed.

Lemma pinv_init g q c key : 1 <= zlen key <= 16 -> pinv (header_of key) g q c (tun_init c).
Proof.
  intros LK. pose proof (header_len key (proj2 LK)) as LH. split; [apply tinv_init; exact LH|]. split.
  - unfold tun_init. cbn [t_sv t_rcv t_fnd svp]. unfold phs. cbn [hs_init h_ph h_meta h_ac h_s5 h_sent]. split.
    { unfold buf_of. change (zlen (@nil Z)) with 0. rewrite Z.sub_0_r. reflexivity. }
    split; [reflexivity|]. split; [reflexivity|]. split; [reflexivity|]. split; [reflexivity|]. split; reflexivity.
  - left. exists g. reflexivity.
Qed.

Lemma pinv_run g q c key acts : 1 <= zlen key <= 16 -> no_nul key -> (exists c', ezac_find c key = Ok (true, c')) -> hello g -> connect_to q ->
  forall t, pinv (header_of key) g q c t -> tun_along (header_of key) (polite g q) t acts ->
  exists t', tun_run (header_of key) t acts = Ok t' /\ pinv (header_of key) g q c t'.
Proof.
  intros LK NK FK HG HQ. induction acts as [|a acts IH]; intros t V AL; cbn [tun_run]; [eauto|]. destruct AL as (PO & AL).
  destruct (pinv_step g q c key t a LK NK FK HG HQ V PO) as (t1 & E & V1). rewrite E. cbn [bind]. apply IH; auto.
Qed.

(** both ends run the relay *)
Definition tunnel_up (t : tun) : Prop := match t_cl t, t_sv t with CRel _, SRel _ _ => True | _, _ => False end.

Theorem C112_tunnel :
  forall key c c' g q acts, 1 <= zlen key <= 16 -> no_nul key -> ezac_find c key = Ok (true, c') ->
    hello g -> connect_to q -> tun_along (header_of key) (polite g q) (tun_init c) acts ->
    exists t, tun_run (header_of key) (tun_init c) acts = Ok t /\
      (t_tgt t = [] \/ prefix (g ++ q ++ t_tgt t) (t_app t)) /\
      (exists reply, reply_ok reply /\ prefix (t_got t) ([5; 0] ++ reply ++ t_ans t) /\
         (zlen (t_got t) < 12 \/ prefix ([5; 0] ++ reply) (t_got t)) /\
         (tunnel_up t ->
            t_app t = g ++ q ++ t_tgt t ++ sv_pending (t_sv t) ++ concat (t_cs t) ++ cl_pending (header_of key) (t_cl t) ++ t_ac t /\
            [5; 0] ++ reply ++ t_ans t =
              t_got t ++ cl_pending_down (t_cl t) ++ t_sc t ++ sv_pending_down (t_sv t) ++ t_ts t)) /\
      as_requested q (t_fnd t) (h_asked (sv_hs (t_sv t))) (h_dialled (sv_hs (t_sv t))).
Proof.
  intros key c c' g q acts LK NK FK HG HQ AL.
  destruct (pinv_run g q c key acts LK NK (ex_intro _ c' FK) HG HQ _ (pinv_init g q c key LK) AL) as (t & R & V & SV & MW).
  exists t. split; [exact R|]. clear R AL. set (hdr := header_of key) in *.
  pose proof (tinv_down _ _ V) as ED. pose proof (tinv_tgt _ _ V) as T. destruct (tinv_up _ _ V) as (lost & EU & EL).
  assert (RD : forall r, reply_ok r -> prefix (t_got t) ([5; 0] ++ r ++ t_ans t) -> zlen (t_got t) < 12 \/ prefix ([5; 0] ++ r) (t_got t)).
  { intros r (Lr & _) P. destruct (Z_lt_ge_dec (zlen (t_got t)) 12); [left; assumption|right].
    apply (prefix_same _ _ ([5; 0] ++ r ++ t_ans t)); [exists (t_ans t); rewrite <- app_assoc; reflexivity|exact P|].
    rewrite zlen_app, Lr. change (zlen [5; 0]) with 2. lia. }
  destruct (t_sv t) as [h|h r] eqn:ES; cbn [svp sv_hs sv_pending sv_pending_down] in *.
  - pose proof (tinv_sent _ _ V h ES) as SP.
    assert (X : (exists r, reply_ok r /\ prefix (h_sent h) ([5; 0] ++ r)) /\ as_requested q (t_fnd t) (h_asked h) (h_dialled h)).
    { destruct dummy_reply as (r0 & R0 & P0).
      assert (Q0 : prefix [] ([5; 0] ++ r0)) by (eexists; reflexivity).
      assert (AQ : forall s2, prefix s2 q -> inv33 h s2 (t_fnd t) -> as_requested q (t_fnd t) (h_asked h) (h_dialled h)).
      { intros s2 (z & ->) G. apply as_requested_app, inv33_closed, G. }
      assert (PQ : prefix q q) by (exists []; rewrite app_nil_r; reflexivity).
      assert (LQ : quiet h -> as_requested q (t_fnd t) (h_asked h) (h_dialled h)) by (intros Q; left; exact Q).
      unfold phs in SV. destruct (h_ph h).
      - destruct SV as (_ & _ & _ & _ & -> & Q). split; [eauto|auto].
      - destruct SV as (seen & _ & -> & Q & _). split; [eauto|auto].
      - destruct SV as (_ & S0 & _ & _ & _ & Q). split; [|auto]. exists r0. split; [exact R0|]. rewrite <- S0. eexists. rewrite <- app_assoc. reflexivity.
      - destruct SV as (s2 & _ & -> & P & G & _). split; [eauto|eauto].
      - destruct SV as (_ & -> & G & _). split; eauto.
      - destruct SV as (_ & -> & G & _). split; eauto.
      - destruct SV as (_ & -> & G & _). split; eauto.
      - destruct SV as (_ & -> & G & _). split; eauto.
      - destruct SV as (_ & -> & G & _). split; eauto.
      - destruct SV as (_ & -> & G & _). split; eauto.
      - destruct SV as (_ & S0 & _ & _ & G). split; [|eauto]. eexists. split; [apply p2_reply_ok|]. rewrite <- S0. eexists. reflexivity.
      - destruct SV as (_ & -> & G & _). split; [|eauto]. eexists. split; [apply p2_reply_ok|]. exists []. rewrite app_nil_r. reflexivity.
      - destruct SV as (P & s2 & (z & ->) & G). split; [exact P|]. apply as_requested_app. exact G. }
    destruct X as ((r & R & P) & AQ). split; [left; exact T|]. split; [|exact AQ]. exists r. split; [exact R|].
    assert (P' : prefix (t_got t) ([5; 0] ++ r ++ t_ans t)).
    { rewrite app_assoc. apply prefix_app_r. eapply prefix_trans; eauto. }
    split; [exact P'|]. split; [apply RD; assumption|]. unfold tunnel_up. rewrite ES. destruct (t_cl t); contradiction.
  - destruct SV as (S1 & S2 & S3). unfold phs in S1. rewrite S2 in S1. destruct S1 as (_ & S4 & S5 & _).
    destruct T as (E1 & _). rewrite S3, E1, <- !app_assoc in EU. apply app_inv_head in EU. split.
    + right. rewrite EU. eexists. rewrite <- !app_assoc. reflexivity.
    + split; [|exact (inv33_closed _ _ _ S5)]. exists (p2_reply (h_addr h) (h_port h)). split; [apply p2_reply_ok|].
      rewrite S4, <- app_assoc in ED.
      assert (P' : prefix (t_got t) ([5; 0] ++ p2_reply (h_addr h) (h_port h) ++ t_ans t)) by (rewrite ED; eexists; reflexivity).
      split; [exact P'|]. split; [apply RD; [apply p2_reply_ok|exact P']|].
      unfold tunnel_up. rewrite ES. intros U. split; [|exact ED]. rewrite EU. rewrite <- EL; [reflexivity|]. intros X. rewrite X in U. exact U.
Qed.
Print Assumptions C112_tunnel.

(** ** Nothing closes without a failure *)
Definition rel_alive (r : relay) : Prop :=
  match r_pc r with PDead _ => False | _ => True end /\ d_err (r_dn r) = false /\ d_err (r_up r) = false.

Lemma alive_put r (b : bool) d p : (d_err (r_dn r) = false /\ d_err (r_up r) = false) -> d_err d = false -> match p with PDead _ => False | _ => True end -> rel_alive (put r b d p).
Proof. intros (A & B) D P. destruct b; unfold put; cbn [rel_alive r_pc r_dn r_up]; repeat split; assumption. Qed.

Lemma alive_after_recv r (b : bool) d : (d_err (r_dn r) = false /\ d_err (r_up r) = false) -> d_err d = false -> rel_alive (after_recv r b d).
Proof. intros A D. unfold after_recv. rewrite D. destruct (0 <? _); apply alive_put; auto; exact I. Qed.
Lemma alive_recv_loop r (b : bool) d : (d_err (r_dn r) = false /\ d_err (r_up r) = false) -> d_err d = false -> rel_alive (recv_loop r b d).
Proof. intros A D. unfold recv_loop. destruct (0 <? _); [apply alive_put; auto; exact I|apply alive_after_recv; auto]. Qed.
Lemma alive_send_loop r (b : bool) d : (d_err (r_dn r) = false /\ d_err (r_up r) = false) -> d_err d = false -> rel_alive (send_loop r b d).
Proof.
  intros A D. unfold send_loop. destruct (0 <? _); [apply alive_put; auto; exact I|]. unfold after_send. rewrite D.
  apply alive_recv_loop; [exact A|]. exact D.
Qed.

Lemma alive_step r x r' : rel_alive r -> rel_enabled r x -> any_step r x = Ok r' -> ~ fails_relay x -> rel_alive r'.
Proof.
  intros (AL & A) E ST NF. destruct x as [i|b rc wc].
  2:{ injection ST as <-. apply alive_put; [exact A| |exact AL]. destruct b; apply A. }
  cbn [any_step rel_enabled fails_relay] in *. unfold relay_step, r_enabled in *.
  assert (G : forall b, d_err (get r b) = false) by (intros []; apply A).
  destruct (r_pc r) as [|b|b|why] eqn:Epc; destruct i as [x|x|b'|b'|]; try contradiction; try tauto.
  - destruct (d_rcb _); injection ST as <-; [apply alive_recv_loop; auto|split; [rewrite Epc; exact I|exact A]].
  - destruct (d_wcb _); injection ST as <-; [apply alive_send_loop; auto|split; [rewrite Epc; exact I|exact A]].
  - destruct (_ <? 1); [discriminate|]. destruct x as [bs| |]; [| |tauto].
    + destruct (meta_store _ _) as [m| |]; try discriminate. cbn [bind] in ST. injection ST as <-. apply alive_recv_loop; [exact A|]. apply (G b).
    + injection ST as <-. apply alive_after_recv; auto.
  - destruct (_ <? 1); [discriminate|]. destruct x as [n| |]; [| |tauto]; injection ST as <-.
    + apply alive_send_loop; [exact A|]. apply (G b).
    + split; [exact I|exact A].
Qed.

Lemma alive_init m cap : rel_alive (relay_init m cap).
Proof. unfold relay_init. apply alive_recv_loop; [split; reflexivity|reflexivity]. Qed.

Definition cl_alive (c : client) : Prop :=
  match c with
  | CPre _ m _ => mpos m = 0 /\ meta_cap m = TLS_TUNNEL_METAN
  | CRel r => rel_alive r
  | CDead => False
  end.
Definition sv_alive (s : server) : Prop :=
  match s with SHs h => h_ph h <> PhClosed | SRel _ r => rel_alive r end.

Lemma hello_len g : hello g -> zlen g <= 257.
Proof. intros (ms & -> & L). unfold greeting. rewrite !zlen_cons. lia. Qed.

Lemma cl_alive_step hdr t i c' : tinv hdr t -> (t_got t = [] -> zlen (t_app t) <= 257) -> tun_ok t (TCli i) ->
  client_step hdr (t_cl t) i = Ok c' -> ~ fails (TCli i) -> cl_alive (t_cl t) -> cl_alive c'.
Proof.
  intros (took & cin & tt & C & _ & EA & _) SH (E & P1 & _) ST NF AL. destruct (t_cl t) as [p m l|r|]; [| |contradiction].
  - cbn [cl_inv cl_alive] in *. destruct C as (W & _ & TK & _ & GV & _). destruct AL as (M0 & CP). specialize (SH GV).
    assert (EQ : client_step hdr (CPre p m l) i = Ok c' /\ match i with CRecv _ => True | CTimer => False | CConn ok => p = CpConn /\ ok = true | CShake x => p = CpShake /\ x <> ConErr | CSend x => p = CpAuth /\ x <> TxErr | _ => False end).
    { split; [exact ST|]. destruct i as [x|ok|x|x| |x]; cbn [cl_enabled fails] in *; auto.
      - destruct p; try contradiction. split; [reflexivity|]. destruct ok; tauto.
      - destruct p; try contradiction. split; [reflexivity|]. intros ->. tauto.
      - destruct p; try contradiction. split; [reflexivity|]. intros ->. tauto.
      - destruct p; contradiction. }
    destruct EQ as (_ & EQ). destruct i as [x|ok|x|x| |x]; try contradiction.
    + cbn [cl_takes_app] in P1.
      assert (ST' : (if meta_getfree m <? 1 then Ok CDead else
        match x with
        | RxData bs => let* m' := meta_store m bs in if meta_getfree m' <? 1 then Ok CDead else Ok (CPre p m' l)
        | RxAgain => Ok (CPre p m l) | RxErr => Ok CDead end) = Ok c') by (rewrite <- ST; destruct p; reflexivity).
      clear ST. pose proof (mdata_len m W) as ML. unfold meta_getlen in ML. assert (LT : zlen took <= 257) by (rewrite EA, zlen_app in SH; pose proof (zlen_nonneg (t_ac t)); lia).
      rewrite TK, ML in LT. unfold meta_getfree in ST' at 1. rewrite CP in ST'.
      destruct (Z.ltb_spec (TLS_TUNNEL_METAN - mlast m) 1); [unfold TLS_TUNNEL_METAN in *; lia|].
      destruct x as [bs| |]; [| |cbn [fails] in NF; tauto].
      * assert (RX : rx_ok m (RxData bs)) by (destruct p; exact E). destruct RX as (_ & _ & LB).
        destruct (meta_store_ok m bs W LB) as (m' & SM & W' & D' & C' & P' & F'). rewrite SM in ST'. cbn [bind] in ST'.
        assert (LB2 : zlen (mdata m) + zlen bs <= 257).
        { apply prefix_len in P1. rewrite EA, TK, zlen_app in SH. lia. }
        unfold meta_getfree in ST'. rewrite C', F', CP in ST'. destruct (Z.ltb_spec (TLS_TUNNEL_METAN - (mlast m + zlen bs)) 1); [unfold TLS_TUNNEL_METAN in *; lia|].
        injection ST' as <-. cbn [cl_alive]. rewrite P', C'. auto.
      * injection ST' as <-. cbn [cl_alive]. auto.
    + destruct EQ as (-> & ->). injection ST as <-. cbn [cl_alive]. auto.
    + destruct EQ as (-> & N). destruct x; [| |congruence]; injection ST as <-; cbn [cl_alive]; auto.
    + destruct EQ as (-> & N). cbn [client_step] in ST. destruct x as [n| |]; [| |congruence].
      * destruct (_ <? _); injection ST as <-; cbn [cl_alive]; auto. apply alive_init.
      * injection ST as <-; cbn [cl_alive]; auto.
  - destruct i as [x|ok|x|x| |x]; try contradiction. cbn [client_step cl_enabled cl_alive fails] in *. destruct (any_step r x) as [r'| |] eqn:AS; try discriminate. injection ST as <-.
    cbn [cl_alive]. eapply alive_step; eauto.
Qed.

(** with an application that follows the protocol and an accepted key, as long as no call fails,
    no stream ends, no timer fires and the name is found, neither program ends the session *)
Theorem C112_stays_up :
  forall key c c' g q acts t, 1 <= zlen key <= 16 -> no_nul key -> ezac_find c key = Ok (true, c') ->
    hello g -> connect_to q -> tun_along (header_of key) (polite g q) (tun_init c) acts ->
    Forall (fun a => ~ fails a) acts -> tun_run (header_of key) (tun_init c) acts = Ok t ->
    t_cl t <> CDead /\ (forall r why, t_cl t = CRel r -> r_pc r <> PDead why) /\
    (forall h, t_sv t = SHs h -> h_ph h <> PhClosed) /\ (forall h r why, t_sv t = SRel h r -> r_pc r <> PDead why).
Proof.
  intros key c c' g q acts t LK NK F HG HQ.
  assert (G : forall t0, pinv (header_of key) g q c t0 -> cl_alive (t_cl t0) -> sv_alive (t_sv t0) ->
    tun_along (header_of key) (polite g q) t0 acts -> Forall (fun a => ~ fails a) acts -> tun_run (header_of key) t0 acts = Ok t ->
    cl_alive (t_cl t) /\ sv_alive (t_sv t)).
  { induction acts as [|a acts IH]; intros t0 V A1 A2 AL NF R; cbn [tun_run] in R; [injection R as <-; auto|].
    destruct AL as (PO & AL). pose proof (Forall_inv NF) as N1. apply Forall_inv_tail in NF.
    destruct (pinv_step g q c key t0 a LK NK (ex_intro _ c' F) HG HQ V PO) as (t1 & E & V1). rewrite E in R. cbn [bind] in R.
    assert (X : cl_alive (t_cl t1) /\ sv_alive (t_sv t1)).
    { destruct V as (TV & SV & MW). destruct PO as (OK & PO). pose proof (header_len key (proj2 LK)) as LH. assert (LH' : zlen (header_of key) = AUTH_LEN) by exact LH.
      destruct a as [bs|bs|i|i]; cbn [tun_step] in E.
      - injection E as <-. auto.
      - injection E as <-. auto.
      - destruct (client_step (header_of key) (t_cl t0) i) as [c1| |] eqn:ST; try discriminate. injection E as <-. cbn [t_cl t_sv]. split; [|exact A2].
        eapply cl_alive_step; eauto. intros G0. pose proof (hello_len g HG).
        destruct MW as [M|[(L & M)|(L & M)]]; [apply prefix_len in M; lia|rewrite G0, zlen_nil in L; lia|rewrite G0, zlen_nil in L; lia].
      - destruct (server_step (t_sv t0) i) as [s1| |] eqn:ST; try discriminate. injection E as <-. cbn [t_cl t_sv]. split; [exact A1|].
        destruct (tun_take _ t0 _ LH' TV OK) as (P1 & P2). pose proof (tinv_sent _ _ TV) as SP.
        destruct OK as (E & _). destruct (t_sv t0) as [h|h r] eqn:ES; destruct i as [i|x]; try contradiction; cbn [server_step sv_alive] in *.
        + destruct (hs_step h i) as [h'| |] eqn:HS; try discriminate. cbn [bind] in ST.
          assert (NC : h_ph h' <> PhClosed).
          { specialize (SP h eq_refl). apply prefix_len in SP.
            assert (EB : sv_takes_tls (SHs h) (SHsIn i) = in_bytes i) by (destruct i as [[| |]| | | | | | | |]; reflexivity). rewrite EB in P1, P2.
            eapply phs_open; eauto. intros seen EQ S0. rewrite EQ, <- app_assoc in P1. eapply prefix_trans; [exact (prefix_cancel _ _ _ P1)|].
            destruct MW as [M|[(L & M)|(L & M)]]; [apply prefix_app_r; exact M|exact M|lia]. }
          destruct (h_ph h') eqn:P'; injection ST as <-; cbn [sv_alive]; rewrite ?P'; try discriminate; [apply alive_init|congruence].
        + destruct (any_step r x) as [r'| |] eqn:AS; try discriminate. injection ST as <-. cbn [sv_alive]. eapply alive_step; eauto. }
    destruct X as (X1 & X2). eapply IH; eauto. }
  intros AL NF R. destruct (G _ (pinv_init g q c key LK)) as (A1 & A2); auto.
  - unfold tun_init. cbn [t_cl cl_alive]. destruct (meta_new_wf TLS_TUNNEL_METAN) as (_ & CP & _); [unfold TLS_TUNNEL_METAN; lia|]. split; [reflexivity|exact CP].
  - unfold tun_init. cbn [t_sv sv_alive hs_init h_ph]. discriminate.
  - split; [intros X; rewrite X in A1; exact A1|]. split; [|split].
    + intros r why X Y. rewrite X in A1. cbn [cl_alive] in A1. destruct A1 as (A1 & _). rewrite Y in A1. exact A1.
    + intros h X. rewrite X in A2. exact A2.
    + intros h r why X Y. rewrite X in A2. cbn [sv_alive] in A2. destruct A2 as (A2 & _). rewrite Y in A2. exact A2.
Qed.
Print Assumptions C112_stays_up.

(** ** A key that the server does not accept *)
Lemma auth_check_nokey h cap key c' : no_nul key -> zlen key <= 16 -> 600 <= cap ->
  ezac_find (h_ac h) key = Ok (false, c') ->
  auth_check h (buf_of cap (header_of key)) = Ok (with_ac h PhClosed (buf_of cap (header_of key)) c').
Proof.
  intros NN L C F. unfold auth_check.
  assert (E : mbuf (buf_of cap (header_of key)) = MAGIC ++ (key ++ zrepeat 0 (cap - 4 - zlen key))).
  { unfold buf_of. cbn [mbuf]. rewrite header_len by lia. unfold header_of. change MAGIC with [160; 1; 190; 239].
    rewrite <- !app_assoc. do 2 f_equal. pose proof (zlen_nonneg key). rewrite <- !zrepeat_app by lia. f_equal. lia. }
  rewrite E. change (mpos (buf_of cap (header_of key))) with 0.
  change (0 + 4) with 4. rewrite zslice_head by reflexivity.
  assert (B : bseq MAGIC MAGIC = true) by reflexivity. rewrite B.
  change (zdrop 4 (MAGIC ++ (key ++ zrepeat 0 (cap - 4 - zlen key)))) with (key ++ zrepeat 0 (cap - 4 - zlen key)).
  rewrite <- app_assoc. change [0] with (zrepeat 0 1). rewrite <- zrepeat_app by (pose proof (zlen_nonneg key); lia).
  rewrite cstr_zeros by (auto; lia). cbn [of_opt bind]. rewrite F. reflexivity.
Qed.

Definition shut (c : ac) (s : server) (rcv : list Z) : Prop :=
  match s with
  | SHs h => h_sent h = [] /\ quiet h /\
      match h_ph h with
      | PhAuth => h_meta h = buf_of TLS_TUNNEL_METAN rcv /\ zlen rcv < AUTH_LEN /\ h_ac h = c
      | PhClosed => True
      | _ => False
      end
  | SRel _ _ => False
  end.

Lemma shut_step c c' key h rcv i : no_nul key -> zlen key <= 16 -> ezac_find c key = Ok (false, c') ->
  shut c (SHs h) rcv -> enabled h i -> (in_auth (SHs h) -> prefix (rcv ++ in_bytes i) (header_of key)) ->
  exists h', hs_step h i = Ok h' /\ shut c (SHs h') (rcv ++ in_bytes i).
Proof.
  intros NK LK F (SE & QU & V) E B0. pose proof (header_len key LK) as LH. unfold enabled in E. cbn [in_auth] in B0.
  destruct (h_ph h) eqn:Ph; try contradiction. specialize (B0 eq_refl). destruct V as (M & L & AC).
  destruct i; try contradiction; cbn [in_bytes].
  - destruct r as [bs| |]; cbn [rx_bytes in_bytes] in *.
    + pose proof (prefix_len _ _ B0) as LL. rewrite zlen_app, LH in LL.
      rewrite (auth_recv h TLS_TUNNEL_METAN rcv (RxData bs)); [|split; assumption|exact L|unfold TLS_TUNNEL_METAN; lia| |exact I]; cbn [rx_bytes].
      2:{ unfold TLS_TUNNEL_METAN; lia. }
      destruct (Z.ltb_spec (zlen (rcv ++ bs)) AUTH_LEN) as [LT|GE].
      * eexists. split; [reflexivity|]. cbn [shut with_pm h_ph h_meta h_ac h_sent]. auto.
      * assert (EQ : rcv ++ bs = header_of key). { apply prefix_eq; [exact B0|]. rewrite LH. exact GE. }
        rewrite EQ. rewrite (auth_check_nokey h TLS_TUNNEL_METAN key c'); [|exact NK|lia|unfold TLS_TUNNEL_METAN; lia|rewrite AC; exact F].
        eexists. split; [reflexivity|]. cbn [shut with_ac h_ph h_meta h_ac h_sent]. auto.
    + rewrite (auth_recv h TLS_TUNNEL_METAN rcv RxAgain); [|split; assumption|exact L|unfold TLS_TUNNEL_METAN; lia| |exact I]; cbn [rx_bytes]; rewrite ?app_nil_r.
      2:{ rewrite zlen_nil. unfold AUTH_LEN, TLS_TUNNEL_METAN in *. lia. }
      destruct (Z.ltb_spec (zlen rcv) AUTH_LEN); [|lia]. eexists. split; [reflexivity|]. cbn [shut with_pm h_ph h_meta h_ac h_sent]. auto.
    + unfold hs_step. rewrite Ph. unfold do_recv, meta_getfree. rewrite M, buf_of_cap by (unfold AUTH_LEN, TLS_TUNNEL_METAN in *; lia).
      cbn [buf_of mlast]. destruct (Z.ltb_spec (TLS_TUNNEL_METAN - zlen rcv) 1); [unfold AUTH_LEN, TLS_TUNNEL_METAN in *; lia|].
      eexists. split; [reflexivity|]. cbn [shut close with_ph h_ph h_sent]. auto.
  - unfold hs_step. rewrite Ph. eexists. split; [reflexivity|]. cbn [shut close with_ph h_ph h_sent]. auto.
Qed.

(** with a key the server does not accept, whatever the application does and whatever happens:
    nothing goes wrong, no name is looked up, nothing is dialled, and neither the application nor
    any target ever receives a byte *)
Theorem C112_wrong_key :
  forall key c c' acts, zlen key <= 16 -> no_nul key -> ezac_find c key = Ok (false, c') ->
    tun_along (header_of key) tun_ok (tun_init c) acts ->
    exists t, tun_run (header_of key) (tun_init c) acts = Ok t /\ t_tgt t = [] /\ t_got t = [] /\
      h_asked (sv_hs (t_sv t)) = [] /\ h_dialled (sv_hs (t_sv t)) = [].
Proof.
  intros key c c' acts LK NK F. pose proof (header_len key LK) as LH. assert (LH' : zlen (header_of key) = AUTH_LEN) by exact LH.
  assert (S0 : shut c (t_sv (tun_init c)) (t_rcv (tun_init c))).
  { unfold tun_init. cbn [t_sv t_rcv shut hs_init h_ph h_meta h_ac h_sent]. split; [reflexivity|]. split; [split; reflexivity|].
    split; [unfold buf_of; change (zlen (@nil Z)) with 0; rewrite Z.sub_0_r; reflexivity|]. split; reflexivity. }
  revert S0. pose proof (tinv_init (header_of key) c LH') as V. revert V. generalize (tun_init c).
  induction acts as [|a acts IH]; intros t V SV AL; cbn [tun_run].
  - exists t. split; [reflexivity|]. pose proof (tinv_tgt _ _ V) as T. pose proof (tinv_sent _ _ V) as S.
    destruct (t_sv t) as [h|h r]; [|contradiction]. destruct SV as (SE & (Q1 & Q2) & _). specialize (S h eq_refl). rewrite SE in S.
    destruct S as (z & E). symmetry in E. apply app_eq_nil in E as (-> & _). cbn [sv_hs]. split; [exact T|].
    auto.
  - destruct AL as (OK & AL).
    assert (HS : forall i h, a = TSrv (SHsIn i) -> t_sv t = SHs h -> exists h', hs_step h i = Ok h' /\ shut c (SHs h') (t_rcv t ++ in_bytes i)).
    { intros i h -> ES. destruct (tun_take _ t _ LH' V OK) as (_ & P2). destruct OK as (E & _). rewrite ES in E, P2, SV.
      assert (EB : sv_takes_tls (SHs h) (SHsIn i) = in_bytes i) by (destruct i as [[| |]| | | | | | | |]; reflexivity). rewrite EB in P2.
      eapply shut_step; eauto. }
    destruct (tun_other (header_of key) t a V OK) as (t' & ST). { intros i h E1 E2. destruct (HS i h E1 E2) as (h' & E & _). eauto. }
    rewrite ST. cbn [bind]. apply IH; [eapply tinv_step; eauto| |exact (AL t' ST)].
    destruct a as [bs|bs|i|i]; cbn [tun_step] in ST.
    + injection ST as <-. exact SV.
    + injection ST as <-. exact SV.
    + destruct (client_step _ (t_cl t) i); try discriminate. cbn [bind] in ST. injection ST as <-. exact SV.
    + destruct (server_step (t_sv t) i) as [s'| |] eqn:SS; try discriminate. cbn [bind] in ST. injection ST as <-. cbn [t_sv t_rcv].
      destruct OK as (E & _). destruct (t_sv t) as [h|h r] eqn:ES; [|contradiction]. destruct i as [i|x]; [|contradiction]. cbn [server_step] in SS.
      destruct (HS i h eq_refl eq_refl) as (h' & E' & PH). rewrite E' in SS. cbn [bind] in SS.
      assert (EB : sv_takes_tls (SHs h) (SHsIn i) = in_bytes i) by (destruct i as [[| |]| | | | | | | |]; reflexivity). rewrite EB.
      pose proof PH as PH'. cbn [shut] in PH'. destruct PH' as (_ & _ & PH'). destruct (h_ph h') eqn:P'; try contradiction; injection SS as <-; exact PH.
Qed.
Print Assumptions C112_wrong_key.

(** ** A run, checked by computation *)
Fixpoint prefixb (a b : list Z) : bool :=
  match a, b with
  | [], _ => true
  | x :: a', y :: b' => (x =? y) && prefixb a' b'
  | _, [] => false
  end.
Lemma prefixb_sound a : forall b, prefixb a b = true -> prefix a b.
Proof.
  induction a as [|x a IH]; intros b H; [exists b; reflexivity|]. destruct b as [|y b]; [discriminate|]. cbn [prefixb] in H.
  apply andb_prop in H as (E & H). apply Z.eqb_eq in E as ->. destruct (IH b H) as (z & ->). exists z. reflexivity.
Qed.

Definition rx_okb (m : meta) (x : rx) : bool :=
  match x with RxData bs => negb (zlen bs =? 0) && bytesb bs && (zlen bs <=? meta_getfree m) | _ => true end.
Definition tx_okb (n : Z) (x : tx) : bool := match x with TxSent k => (0 <=? k) && (k <=? n) | _ => true end.
Lemma rx_okb_sound m x : rx_okb m x = true -> rx_ok m x.
Proof.
  destruct x as [bs| |]; cbn [rx_okb rx_ok]; auto. intros H. apply andb_prop in H as (H & L). apply andb_prop in H as (N & B).
  apply Z.leb_le in L. apply bytesb_spec in B. split; [|auto]. intros ->. discriminate N.
Qed.
Lemma tx_okb_sound n x : tx_okb n x = true -> match x with TxSent k => 0 <= k <= n | _ => True end.
Proof. destruct x; cbn [tx_okb]; auto. intros H. apply andb_prop in H as (A & B). apply Z.leb_le in A, B. lia. Qed.

Definition rel_enabledb (r : relay) (x : ain) : bool :=
  match x with
  | ASet _ _ _ => true
  | AIn i => match r_pc r, i with
             | PRecv b, RRecv x => rx_okb (d_buf (get r b)) x
             | PSend b, RSend x => tx_okb (meta_getlen (d_buf (get r b))) x
             | PIdle, RReadable _ | PIdle, RWritable _ | PIdle, RTimer => true
             | _, _ => false
             end
  end.
Lemma rel_enabledb_sound r x : rel_enabledb r x = true -> rel_enabled r x.
Proof.
  destruct x as [i|]; cbn [rel_enabledb rel_enabled]; auto. unfold r_enabled. destruct (r_pc r), i; try discriminate; auto.
  - apply rx_okb_sound.
  - apply tx_okb_sound.
Qed.

Definition enabledb (h : hs) (i : inp) : bool :=
  match h_ph h, i with
  | PhAuth, InRecv r | PhP1, InRecv r | PhP2, InRecv r => rx_okb (h_meta h) r
  | PhP1Rsp, InSend r | PhP2Rsp, InSend r => tx_okb (meta_getlen (h_meta h)) r
  | PhAddr, InAlloc _ => true
  | PhLookup, InLookup a | PhDns, InDns a => match a with Some ip => (zlen ip =? 4) && bytesb ip | None => true end
  | PhConnect, InConnect _ => true
  | PhConnWait, InSockUp _ | PhConnChk, InSockUp _ => true
  | _, _ => false
  end.
Lemma enabledb_sound h i : enabledb h i = true -> enabled h i.
Proof.
  unfold enabledb, enabled. destruct (h_ph h), i; try discriminate; auto; try apply rx_okb_sound; try apply tx_okb_sound;
    destruct a; auto; intros H; apply andb_prop in H as (A & B); apply Z.eqb_eq in A; apply bytesb_spec in B; split; assumption.
Qed.

Definition tun_okb (t : tun) (a : tact) : bool :=
  match a with
  | TApp bs | TTgt bs => bytesb bs
  | TCli i =>
      (match t_cl t, i with
       | CPre _ m _, CRecv x => rx_okb m x
       | CPre _ _ _, CTimer => true
       | CPre CpConn _ _, CConn _ => true
       | CPre CpShake _ _, CShake _ => true
       | CPre CpAuth _ l, CSend x => tx_okb (zlen l) x
       | CRel r, CRelay x => rel_enabledb r x
       | _, _ => false
       end) && prefixb (cl_takes_app (t_cl t) i) (t_ac t) && prefixb (cl_takes_tls (t_cl t) i) (t_sc t)
  | TSrv i =>
      (match t_sv t, i with
       | SHs h, SHsIn i => enabledb h i
       | SRel _ r, SRelay x => rel_enabledb r x
       | _, _ => false
       end) &&
      match sv_takes_tls (t_sv t) i with
      | [] => true
      | bs => match t_cs t with r :: _ => prefixb bs r | [] => false end
      end && prefixb (sv_takes_tgt (t_sv t) i) (t_ts t)
  end.
Lemma tun_okb_sound t a : tun_okb t a = true -> tun_ok t a.
Proof.
  destruct a as [bs|bs|i|i]; cbn [tun_okb tun_ok].
  - apply bytesb_spec.
  - apply bytesb_spec.
  - intros H. apply andb_prop in H as (H & C). apply andb_prop in H as (A & B). apply prefixb_sound in B, C. split; [|auto]. clear B C.
    unfold cl_enabled. destruct (t_cl t) as [p m l|r|]; [|destruct i; try discriminate; apply rel_enabledb_sound; exact A|discriminate].
    destruct i as [x|ok|x|x| |x]; destruct p; try discriminate; auto using rx_okb_sound; apply tx_okb_sound; exact A.
  - intros H. apply andb_prop in H as (H & C). apply andb_prop in H as (A & B). apply prefixb_sound in C. split; [|split; [|exact C]].
    + unfold sv_enabled. destruct (t_sv t) as [h|h r]; destruct i; try discriminate; [apply enabledb_sound|apply rel_enabledb_sound]; exact A.
    + destruct (sv_takes_tls (t_sv t) i); [exact I|]. destruct (t_cs t); [discriminate|]. apply prefixb_sound. exact B.
Qed.

Definition politeb (g q : list Z) (t : tun) (a : tact) : bool :=
  tun_okb t a && match a with
  | TApp bs => prefixb (t_app t ++ bs) g || ((2 <=? zlen (t_got t)) && prefixb (t_app t ++ bs) (g ++ q)) ||
               ((12 <=? zlen (t_got t)) && prefixb (g ++ q) (t_app t ++ bs))
  | _ => true end.
Lemma politeb_sound g q t a : politeb g q t a = true -> polite g q t a.
Proof.
  unfold politeb, polite. intros H. apply andb_prop in H as (A & B). split; [apply tun_okb_sound; exact A|]. destruct a; auto. unfold may_write.
  apply orb_prop in B as [B|B]; [apply orb_prop in B as [B|B]|].
  - left. apply prefixb_sound. exact B.
  - right. left. apply andb_prop in B as (L & B). apply Z.leb_le in L. split; [exact L|apply prefixb_sound; exact B].
  - right. right. apply andb_prop in B as (L & B). apply Z.leb_le in L. split; [exact L|apply prefixb_sound; exact B].
Qed.

(** the run, with [P] checked before every step *)
Fixpoint tun_check (hdr : list Z) (P : tun -> tact -> bool) (t : tun) (l : list tact) : option tun :=
  match l with
  | [] => Some t
  | a :: r => if P t a then match tun_step hdr t a with Ok t' => tun_check hdr P t' r | _ => None end else None
  end.
Lemma tun_check_sound hdr Pb (P : tun -> tact -> Prop) l : (forall t a, Pb t a = true -> P t a) -> forall t t', tun_check hdr Pb t l = Some t' ->
  tun_along hdr P t l /\ tun_run hdr t l = Ok t'.
Proof.
  intros HP. induction l as [|a l IH]; intros t t' H; cbn [tun_check tun_along tun_run] in *.
  - injection H as <-. split; [exact I|reflexivity].
  - destruct (Pb t a) eqn:E; [|discriminate]. destruct (tun_step hdr t a) as [t1| |] eqn:ST; try discriminate. cbn [bind].
    destruct (IH t1 t' H) as (A & B). split; [|exact B]. split; [apply HP; exact E|]. intros t2 [= <-]. exact A.
Qed.

Definition ex_key := [107; 49].
Definition ex_hdr := header_of ex_key.
Definition ex_ac : ac := match ac_build [ex_key] with Ok c => c | _ => ezac_init end.
Definition ex_g := greeting 5 [0].
Definition ex_q := request_v4 5 1 0 [10; 0; 0; 1] [0; 80].
Definition cr (x : rin) := TCli (CRelay (AIn x)).
Definition sr (x : rin) := TSrv (SRelay (AIn x)).
Definition got1 := [RRecv RxAgain; RSend (TxSent 2); RRecv RxAgain].
Definition ex_run : list tact :=
  [TApp ex_g; TCli (CRecv (RxData ex_g)); TCli (CConn true); TCli (CShake ConOk); TCli (CSend (TxSent 20));
   TSrv (SHsIn (InRecv (RxData (ztake 20 ex_hdr)))); TCli (CSend (TxSent 16));
   cr (RRecv RxAgain); cr (RSend (TxSent 3)); cr (RRecv RxAgain);
   TSrv (SHsIn (InRecv (RxData (zdrop 20 ex_hdr)))); TSrv (SHsIn (InRecv (RxData ex_g))); TSrv (SHsIn (InSend (TxSent 2)));
   cr (RReadable false); cr (RRecv (RxData [5; 0])); cr (RRecv RxAgain); cr (RSend (TxSent 2)); cr (RRecv RxAgain);
   TApp ex_q; cr (RReadable true); cr (RRecv (RxData ex_q)); cr (RRecv RxAgain); cr (RSend (TxSent 10)); cr (RRecv RxAgain);
   TSrv (SHsIn (InRecv (RxData ex_q))); TSrv (SHsIn (InAlloc true)); TSrv (SHsIn (InConnect ConAgain)); TSrv (SHsIn (InSockUp true));
   TSrv (SHsIn (InSend (TxSent 10))); sr (RRecv RxAgain);
   cr (RReadable false); cr (RRecv (RxData [5; 0; 0; 1; 0; 10; 0; 0; 80; 0])); cr (RRecv RxAgain); cr (RSend (TxSent 10)); cr (RRecv RxAgain);
   TApp [104; 105]; cr (RReadable true); cr (RRecv (RxData [104; 105])); cr (RRecv RxAgain); cr (RSend (TxSent 2)); cr (RRecv RxAgain);
   sr (RReadable true); sr (RRecv (RxData [104; 105])); sr (RRecv RxAgain); sr (RSend (TxSent 2)); sr (RRecv RxAgain);
   TTgt [121; 111; 33]; sr (RReadable false); sr (RRecv (RxData [121; 111])); sr (RRecv RxAgain); sr (RSend (TxSent 2)); sr (RRecv RxAgain);
   cr (RReadable false); cr (RRecv (RxData [121; 111])); cr (RRecv RxAgain); cr (RSend (TxSent 1))].

Example C112_example :
  1 <= zlen ex_key <= 16 /\ no_nul ex_key /\ (exists c', ezac_find ex_ac ex_key = Ok (true, c')) /\ hello ex_g /\ connect_to ex_q /\
  tun_along ex_hdr (polite ex_g ex_q) (tun_init ex_ac) ex_run /\
  exists t, tun_run ex_hdr (tun_init ex_ac) ex_run = Ok t /\ tunnel_up t /\ t_tgt t = [104; 105] /\ t_ts t = [33] /\
    t_got t = [5; 0] ++ [5; 0; 0; 1; 0; 10; 0; 0; 80; 0] ++ [121] /\ h_dialled (sv_hs (t_sv t)) = [([10; 0; 0; 1], [0; 80])].
Proof.
  split; [split; vm_compute; discriminate|]. split; [repeat constructor; discriminate|]. split; [eexists; vm_compute; reflexivity|].
  split; [exists [0]; split; [reflexivity|split; vm_compute; discriminate]|].
  split; [left; exists 0, [10; 0; 0; 1], [0; 80]; repeat split|].
  assert (P : match tun_check ex_hdr (politeb ex_g ex_q) (tun_init ex_ac) ex_run with
              | Some t => match t_cl t, t_sv t with CRel _, SRel h _ => (t_tgt t, t_ts t, t_got t, h_dialled h) | _, _ => ([], [], [], []) end
              | None => ([], [], [], []) end = ([104; 105], [33], [5; 0; 5; 0; 0; 1; 0; 10; 0; 0; 80; 0; 121], [([10; 0; 0; 1], [0; 80])])) by (vm_compute; reflexivity).
  destruct (tun_check _ _ _ _) as [t|] eqn:C; [|discriminate P].
  destruct (tun_check_sound _ _ _ _ (politeb_sound ex_g ex_q) _ _ C) as (A & R). split; [exact A|]. exists t. split; [exact R|].
  unfold tunnel_up. destruct (t_cl t); try discriminate P. destruct (t_sv t); try discriminate P. injection P as P1 P2 P3 P4. cbn [sv_hs]. auto 10.
Qed.

(** no event of that run is a failure: the hypotheses of [C112_stays_up] *)
Example C112_stays_up_example : Forall (fun a => ~ fails a) ex_run.
Proof. unfold ex_run. repeat (apply Forall_cons; [cbn; tauto|]). apply Forall_nil. Qed.

(** the hypotheses of [C112_wrong_key]: the server knows another key *)
Definition ex_ac2 : ac := match ac_build [[120; 121]] with Ok c => c | _ => ezac_init end.
Definition ex_bad : list tact :=
  [TApp (ex_g ++ ex_q); TCli (CRecv (RxData (ex_g ++ ex_q))); TCli (CConn true); TCli (CShake ConOk); TCli (CSend (TxSent 36));
   TSrv (SHsIn (InRecv (RxData ex_hdr))); cr (RRecv RxAgain); cr (RSend (TxSent 13))].
Example C112_wrong_key_example :
  (exists c', ezac_find ex_ac2 ex_key = Ok (false, c')) /\ tun_along ex_hdr tun_ok (tun_init ex_ac2) ex_bad /\
  exists t h, tun_run ex_hdr (tun_init ex_ac2) ex_bad = Ok t /\ t_sv t = SHs h /\ h_ph h = PhClosed.
Proof.
  split; [eexists; vm_compute; reflexivity|].
  assert (P : match tun_check ex_hdr tun_okb (tun_init ex_ac2) ex_bad with
              | Some t => match t_sv t with SHs h => match h_ph h with PhClosed => true | _ => false end | _ => false end
              | None => false end = true) by (vm_compute; reflexivity).
  destruct (tun_check _ _ _ _) as [t|] eqn:C; [|discriminate P].
  destruct (tun_check_sound _ _ _ _ tun_okb_sound _ _ C) as (A & R). split; [exact A|].
  destruct (t_sv t) as [h|h r] eqn:ES; [|discriminate P]. exists t, h. split; [exact R|]. split; [exact ES|]. destruct (h_ph h); try discriminate P. reflexivity.
Qed.

(** ** What does not hold *)
(** an application that does not wait: greeting and request arrive together at the server, which
    answers the greeting and forgets the request. Nothing is under way any more, nobody has
    closed, and no connection will be made. *)
Definition ex_eager : list tact :=
  [TApp (ex_g ++ ex_q); TCli (CRecv (RxData (ex_g ++ ex_q))); TCli (CConn true); TCli (CShake ConOk); TCli (CSend (TxSent 36));
   TSrv (SHsIn (InRecv (RxData ex_hdr))); cr (RRecv RxAgain); cr (RSend (TxSent 13)); cr (RRecv RxAgain);
   TSrv (SHsIn (InRecv (RxData (ex_g ++ ex_q)))); TSrv (SHsIn (InSend (TxSent 2)))].
Theorem C112_without_waiting_refuted :
  exists key c c' g q acts t h, 1 <= zlen key <= 16 /\ no_nul key /\ ezac_find c key = Ok (true, c') /\ hello g /\ connect_to q /\
    tun_along (header_of key) tun_ok (tun_init c) acts /\ tun_run (header_of key) (tun_init c) acts = Ok t /\
    t_app t = g ++ q /\ t_rcv t = header_of key ++ g ++ q /\
    t_sv t = SHs h /\ h_ph h = PhP2 /\ s_state (h_s5 h) = 0 /\ h_asked h = [] /\ h_dialled h = [].
Proof.
  destruct (ezac_find ex_ac ex_key) as [[ok c']| |] eqn:F; [|vm_compute in F; discriminate F|vm_compute in F; discriminate F].
  assert (ok = true) as -> by (vm_compute in F; injection F as <- _; reflexivity).
  assert (P : match tun_check ex_hdr tun_okb (tun_init ex_ac) ex_eager with
              | Some t => match t_sv t with
                          | SHs h => match h_ph h with PhP2 => Some (t_app t, t_rcv t, s_state (h_s5 h), h_asked h, h_dialled h) | _ => None end
                          | _ => None end
              | None => None end = Some (ex_g ++ ex_q, ex_hdr ++ ex_g ++ ex_q, 0, [], [])) by (vm_compute; reflexivity).
  destruct (tun_check _ _ _ _) as [t|] eqn:C; [|discriminate P].
  destruct (tun_check_sound _ _ _ _ tun_okb_sound _ _ C) as (A & R).
  destruct (t_sv t) as [h|h r] eqn:ES; [|discriminate P]. destruct (h_ph h) eqn:Ph; try discriminate P. injection P as P1 P2 P3 P4 P5.
  exists ex_key, ex_ac, c', ex_g, ex_q, ex_eager, t, h. split; [split; vm_compute; discriminate|]. split; [repeat constructor; discriminate|]. split; [exact F|].
  split; [exists [0]; split; [reflexivity|split; vm_compute; discriminate]|]. split; [left; exists 0, [10; 0; 0; 1], [0; 80]; repeat split|]. auto 12.
Qed.
Print Assumptions C112_without_waiting_refuted.

(** an application that has written as much as the client's buffer holds before the connection to
    the server is up is cut off, with no failure of any call *)
Theorem C112_early_data_cut_off :
  forall hdr c bs, zlen bs = TLS_TUNNEL_METAN -> bytes bs ->
    let acts := [TApp bs; TCli (CRecv (RxData bs))] in
    tun_along hdr tun_ok (tun_init c) acts /\
    exists t, tun_run hdr (tun_init c) acts = Ok t /\ t_cl t = CDead.
Proof.
  intros hdr c bs L B acts. unfold acts. destruct (meta_new_wf TLS_TUNNEL_METAN) as (W & CP & D); [unfold TLS_TUNNEL_METAN; lia|].
  assert (FR : meta_getfree (meta_new TLS_TUNNEL_METAN) = TLS_TUNNEL_METAN) by (unfold meta_getfree; rewrite CP; cbn [meta_new mlast]; lia).
  destruct (meta_store_ok (meta_new TLS_TUNNEL_METAN) bs W) as (m' & SM & W' & D' & C' & P' & F'); [lia|].
  assert (FR' : meta_getfree m' = 0) by (unfold meta_getfree in *; rewrite C', F'; lia).
  cbn [tun_along tun_run tun_step tun_ok]. split.
  - split; [exact B|]. intros t [= <-]. split; [|auto]. unfold tun_init. cbn [t_cl t_ac t_sc cl_enabled cl_takes_app cl_takes_tls app rx_ok]. rewrite FR. split.
    + split; [intros ->; rewrite zlen_nil in L; discriminate L|]. split; [exact B|lia].
    + split; [exists []; rewrite app_nil_r; reflexivity|exists []; reflexivity].
  - unfold tun_init. cbn [bind t_cl client_step]. rewrite FR. change (TLS_TUNNEL_METAN <? 1) with false. rewrite SM. cbn [bind].
    replace (meta_getfree m' <? 1) with true by (symmetry; apply Z.ltb_lt; lia). cbn [bind]. eexists. split; reflexivity.
Qed.
Print Assumptions C112_early_data_cut_off.

Theorem C112_early_data_refuted :
  exists key c bs acts t, 1 <= zlen key <= 16 /\ bytes bs /\ acts = [TApp bs; TCli (CRecv (RxData bs))] /\
    tun_along (header_of key) tun_ok (tun_init c) acts /\ tun_run (header_of key) (tun_init c) acts = Ok t /\ t_cl t = CDead.
Proof.
  assert (B : bytes (zrepeat 7 TLS_TUNNEL_METAN)).
  { unfold zrepeat. generalize (Z.to_nat TLS_TUNNEL_METAN). intros n. induction n; constructor; [unfold is_byte; lia|assumption]. }
  destruct (C112_early_data_cut_off ex_hdr ex_ac (zrepeat 7 TLS_TUNNEL_METAN)) as (A & t & R & D); [apply zlen_zrepeat; unfold TLS_TUNNEL_METAN; lia|exact B|].
  exists ex_key, ex_ac, (zrepeat 7 TLS_TUNNEL_METAN). eexists. exists t. split; [split; vm_compute; discriminate|]. split; [exact B|]. split; [reflexivity|]. auto.
Qed.
Print Assumptions C112_early_data_refuted.
