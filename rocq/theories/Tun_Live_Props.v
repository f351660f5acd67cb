(** * C121: the tunnel never gets stuck *)
From Verif Require Import Base Str_Spec Ac_Model Meta_Model Meta_Proofs S5_Model S5_Spec S5_Proofs S5_Req_Props
  S5_Auth_Props S5_Dial_Props Relay_Model Relay_Proofs Relay_Any_Props Tun_Model Tun_Spec Tun_Proofs Tun_Polite_Proofs Tun_Props
  Tun_Live_Spec Tun_Live_Proofs.

Local Arguments Z.add : simpl never.
Local Arguments Z.sub : simpl never.

(** With an application that follows the protocol and an accepted key, whatever has happened so
    far without a failure, in whatever order, however the messages were cut and however often a
    call had to wait: the two programs can go on by themselves so that everything that was
    written arrives, without another byte from the application or the target.
    Partial: no callback of the relay is changed from outside ([plain]). ssl.c does change
    them when a TLS call has to wait; what comes of that is the subject of C89 and C91. *)
Theorem C121_never_stuck_partial :
  forall key c c' g q acts, 1 <= zlen key <= 16 -> no_nul key -> bytes key -> ezac_find c key = Ok (true, c') ->
    hello g -> connect_to q -> tun_along (header_of key) (polite g q) (tun_init c) acts ->
    Forall (fun a => ~ fails a /\ plain a) acts ->
    exists t, tun_run (header_of key) (tun_init c) acts = Ok t /\
      exists more t', Forall calm more /\ tun_along (header_of key) tun_ok t more /\
        tun_run (header_of key) t more = Ok t' /\ t_app t' = t_app t /\ t_ans t' = t_ans t /\ delivered g q t'.
Proof.
  intros key c c' g q acts LK NK BK FK HG HQ AL NF. pose proof (ex_intro (fun x => ezac_find c key = Ok (true, x)) c' FK) as FK'.
  destruct (live_run g q c key LK NK FK' HG HQ acts _ (live_init g q c key LK) AL NF) as (t & R & V). exists t. split; [exact R|].
  destruct (live_all g q c key LK NK BK FK' HG HQ t V) as (t' & (more & C & A & R' & _) & E1 & E2 & D).
  exists more, t'. auto 10.
Qed.
Print Assumptions C121_never_stuck_partial.

(** the hypotheses, and a state in which bytes are in the buffers and on the way in both
    directions: it is not [delivered] yet *)
Example C121_example :
  1 <= zlen ex_key <= 16 /\ no_nul ex_key /\ bytes ex_key /\ (exists c', ezac_find ex_ac ex_key = Ok (true, c')) /\ hello ex_g /\ connect_to ex_q /\
  tun_along ex_hdr (polite ex_g ex_q) (tun_init ex_ac) ex_run /\ Forall (fun a => ~ fails a /\ plain a) ex_run /\
  exists t, tun_run ex_hdr (tun_init ex_ac) ex_run = Ok t /\ t_ts t = [33] /\ ~ delivered ex_g ex_q t.
Proof.
  destruct C112_example as (A1 & A2 & A3 & A4 & A5 & A6 & t & R & _ & T1 & T2 & T3 & _). split; [exact A1|]. split; [exact A2|].
  split; [repeat constructor; unfold is_byte; lia|]. repeat (split; [assumption|]). split.
  - unfold ex_run. repeat (apply Forall_cons; [split; [cbn; tauto|exact I]|]). apply Forall_nil.
  - exists t. split; [exact R|]. split; [exact T2|]. intros (_ & _ & D). destruct D as (r & (L & _) & E).
    + assert (E : match tun_run ex_hdr (tun_init ex_ac) ex_run with Ok t => zlen (ex_g ++ ex_q) <=? zlen (t_app t) | _ => false end = true) by (vm_compute; reflexivity).
      rewrite R in E. apply Z.leb_le. exact E.
    + assert (E2 : match tun_run ex_hdr (tun_init ex_ac) ex_run with Ok t => t_ans t | _ => [] end = [121; 111; 33]) by (vm_compute; reflexivity).
      rewrite R in E2. rewrite E2, T3 in E. apply (f_equal (@zlen Z)) in E. rewrite !zlen_app, L in E. discriminate E.
Qed.

(** ** What does not hold *)
Lemma tinv_run hdr l : forall t0 t1, zlen hdr = AUTH_LEN -> tinv hdr t0 -> tun_along hdr tun_ok t0 l -> tun_run hdr t0 l = Ok t1 -> tinv hdr t1.
Proof.
  induction l as [|a l IH]; intros t0 t1 LH V AL R; cbn [tun_run] in R; [injection R as <-; exact V|]. destruct AL as (OK & AL).
  destruct (tun_step hdr t0 a) as [u| |] eqn:ST; try discriminate. cbn [bind] in R.
  exact (IH u t1 LH (tinv_step _ _ _ _ LH V OK ST) (AL u eq_refl) R).
Qed.

(** the server holds no byte that it has not looked at and waits for more of the request: it
    stays there as long as the application writes nothing, whatever else happens *)
Lemma waits_on hdr t h acts : zlen hdr = AUTH_LEN -> tinv hdr t -> t_sv t = SHs h -> h_ph h = PhP2 -> 0 < meta_getfree (h_meta h) -> t_rcv t = hdr ++ t_app t ->
  tun_along hdr tun_ok t acts -> Forall (fun a => ~ fails a /\ match a with TApp _ => False | _ => True end) acts ->
  exists t', tun_run hdr t acts = Ok t' /\ t_sv t' = SHs h /\ t_app t' = t_app t /\ t_tgt t' = [].
Proof.
  intros LH. revert t. induction acts as [|a acts IH]; intros t V ES P F R AL NF; cbn [tun_run].
  - exists t. pose proof (tinv_tgt _ _ V) as T. rewrite ES in T. auto.
  - destruct AL as (OK & AL). destruct (Forall_inv NF) as (N1 & N2). apply Forall_inv_tail in NF.
    assert (X : exists t1, tun_step hdr t a = Ok t1 /\ t_sv t1 = SHs h /\ t_rcv t1 = t_rcv t /\ t_app t1 = t_app t).
    { destruct a as [bs|bs|i|i]; [contradiction| | |].
      - eexists. split; [reflexivity|]. auto.
      - destruct (tun_other hdr t _ V OK) as (t1 & E); [discriminate|]. exists t1. split; [exact E|]. cbn [tun_step] in E.
        destruct (client_step hdr (t_cl t) i); try discriminate. injection E as <-. auto.
      - destruct (tun_take hdr t i LH V OK) as (PT & _). rewrite R in PT.
        assert (T0 : sv_takes_tls (t_sv t) i = []).
        { apply prefix_len in PT. rewrite !zlen_app in PT. apply zlen_0_nil. pose proof (zlen_nonneg (sv_takes_tls (t_sv t) i)). lia. }
        destruct OK as (EN & _). rewrite ES in EN, T0. destruct i as [i|x]; [|contradiction]. cbn [sv_enabled] in EN. unfold enabled in EN. rewrite P in EN.
        destruct i as [x| | | | | | | |]; try contradiction. destruct x as [bs| |]; [|clear T0|cbn [fails] in N1; tauto].
        + cbn [sv_takes_tls] in T0. destruct EN as (NE & _). congruence.
        + eexists. cbn [tun_step]. rewrite ES. cbn [server_step]. unfold hs_step. rewrite P. unfold do_recv.
          destruct (Z.ltb_spec (meta_getfree (h_meta h)) 1); [lia|]. cbn [bind]. rewrite P. cbn [bind sv_takes_tls]. split; [reflexivity|]. cbn [t_sv t_rcv t_app]. rewrite app_nil_r. auto. }
    destruct X as (t1 & E & S1 & R1 & A1). rewrite E. cbn [bind]. rewrite <- A1.
    apply IH; auto; [eapply tinv_step; eauto|congruence].
Qed.

(** an application that does not wait for the answer to its greeting: the server forgets the
    request that came in the same record, and from then on nothing that the programs, the
    network or the target do brings the connection about. The application gets no answer to its
    request and is not told; only the timer ends the session. *)
Theorem C121_without_waiting_refuted :
  exists key c c' g q acts t, 1 <= zlen key <= 16 /\ no_nul key /\ bytes key /\ ezac_find c key = Ok (true, c') /\ hello g /\ connect_to q /\
    tun_along (header_of key) tun_ok (tun_init c) acts /\ Forall (fun a => ~ fails a /\ plain a) acts /\
    tun_run (header_of key) (tun_init c) acts = Ok t /\ t_app t = g ++ q /\
    forall more, tun_along (header_of key) tun_ok t more -> Forall (fun a => ~ fails a /\ match a with TApp _ => False | _ => True end) more ->
      exists t', tun_run (header_of key) t more = Ok t' /\ h_dialled (sv_hs (t_sv t')) = [] /\ zlen (t_got t') <= 2 /\ ~ delivered g q t'.
Proof.
  destruct (ezac_find ex_ac ex_key) as [[ok c']| |] eqn:FK; [|vm_compute in FK; discriminate FK|vm_compute in FK; discriminate FK].
  assert (ok = true) as -> by (vm_compute in FK; injection FK as <- _; reflexivity).
  assert (P : match tun_check ex_hdr tun_okb (tun_init ex_ac) ex_eager with
              | Some t => match t_sv t with
                          | SHs h => match h_ph h with PhP2 => Some (t_app t, t_rcv t, h_sent h, h_dialled h, 0 <? meta_getfree (h_meta h)) | _ => None end
                          | _ => None end
              | None => None end = Some (ex_g ++ ex_q, ex_hdr ++ ex_g ++ ex_q, [5; 0], [], true)) by (vm_compute; reflexivity).
  destruct (tun_check _ _ _ _) as [t|] eqn:C; [|discriminate P].
  destruct (tun_check_sound _ _ _ _ tun_okb_sound _ _ C) as (A & R).
  destruct (t_sv t) as [h|h r] eqn:ES; [|discriminate P]. destruct (h_ph h) eqn:Ph; try discriminate P. injection P as P1 P2 P3 P4 P5.
  exists ex_key, ex_ac, c', ex_g, ex_q, ex_eager, t. split; [split; vm_compute; discriminate|]. split; [repeat constructor; discriminate|].
  split; [repeat constructor; unfold is_byte; lia|]. split; [exact FK|].
  split; [exists [0]; split; [reflexivity|split; vm_compute; discriminate]|]. split; [left; exists 0, [10; 0; 0; 1], [0; 80]; repeat split|].
  split; [exact A|]. split. { unfold ex_eager. repeat (apply Forall_cons; [split; [cbn; tauto|exact I]|]). apply Forall_nil. }
  split; [exact R|]. split; [exact P1|]. intros more AL NF.
  assert (LH : zlen (header_of ex_key) = AUTH_LEN) by reflexivity.
  pose proof (tinv_run _ _ _ _ LH (tinv_init _ ex_ac LH) A R) as V.
  destruct (waits_on _ t h more LH V ES Ph) as (t' & R' & S' & A' & T'); auto.
  { apply Z.ltb_lt. exact P5. } { rewrite P1. exact P2. }
  exists t'. split; [exact R'|]. rewrite S'. cbn [sv_hs]. split; [exact P4|].
  pose proof (tinv_sent _ _ (tinv_run _ _ _ _ LH V AL R') h S') as SP. apply prefix_len in SP. rewrite P3 in SP. change (zlen [5; 0]) with 2 in SP. split; [exact SP|].
  intros (_ & _ & D). destruct D as (r & (L & _) & E); [rewrite A', P1; apply Z.le_refl|]. rewrite E, !zlen_app, L in SP. change (zlen [5; 0]) with 2 in SP.
  pose proof (zlen_nonneg (t_ans t')). lia.
Qed.
Print Assumptions C121_without_waiting_refuted.
