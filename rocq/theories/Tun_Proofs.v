(** * Invariants of the whole tunnel: where every byte is *)
From Verif Require Import Base Str_Spec Ac_Model Meta_Model Meta_Proofs S5_Model S5_Spec S5_Proofs S5_Props S5_Req_Props
  S5_Auth_Props S5_Dial_Props Relay_Model Relay_Proofs Relay_Props Relay_Any_Props Tun_Model.

Local Arguments Z.add : simpl never.
Local Arguments Z.sub : simpl never.

(** ** Relay steps *)
Lemma put_io r b d p (b' : bool) :
  d_in (get (put r b d p) b') = (if Bool.eqb b' b then d_in d else d_in (get r b')) /\
  d_out (get (put r b d p) b') = (if Bool.eqb b' b then d_out d else d_out (get r b')).
Proof. destruct b, b'; split; reflexivity. Qed.
Lemma after_recv_io r b d (b' : bool) :
  d_in (get (after_recv r b d) b') = (if Bool.eqb b' b then d_in d else d_in (get r b')) /\
  d_out (get (after_recv r b d) b') = (if Bool.eqb b' b then d_out d else d_out (get r b')).
Proof.
  unfold after_recv. destruct (_ <? _); [|destruct (d_err d); apply put_io].
  exact (put_io r b (d_setcb d false true) (PSend b) b').
Qed.
Lemma recv_loop_io r b d (b' : bool) :
  d_in (get (recv_loop r b d) b') = (if Bool.eqb b' b then d_in d else d_in (get r b')) /\
  d_out (get (recv_loop r b d) b') = (if Bool.eqb b' b then d_out d else d_out (get r b')).
Proof. unfold recv_loop. destruct (_ <? _); [apply put_io|apply after_recv_io]. Qed.
Lemma send_loop_io r b d (b' : bool) :
  d_in (get (send_loop r b d) b') = (if Bool.eqb b' b then d_in d else d_in (get r b')) /\
  d_out (get (send_loop r b d) b') = (if Bool.eqb b' b then d_out d else d_out (get r b')).
Proof.
  unfold send_loop. destruct (_ <? _); [apply put_io|]. unfold after_send. destruct (d_err d); [apply put_io|].
  pose proof (recv_loop_io r b (d_setcb (d_setbuf d (meta_clr (d_buf d))) true false) b') as H. exact H.
Qed.

Lemma rel_step_io r x r' : rel_enabled r x -> any_step r x = Ok r' -> forall b,
  d_in (get r' b) = d_in (get r b) ++ rel_takes r x b /\ d_out (get r' b) = d_out (get r b) ++ rel_gives r x b.
Proof.
  intros EN E b. unfold rel_takes, rel_gives. destruct x as [i|b0 rc wc].
  2:{ injection E as <-. rewrite !app_nil_r. destruct b, b0; split; reflexivity. }
  cbn [any_step rel_enabled] in *. unfold relay_step, r_enabled in *.
  destruct (r_pc r) as [|b1|b1|why] eqn:Epc; destruct i as [x|x|b2|b2|]; try contradiction.
  - rewrite !app_nil_r. destruct (d_rcb (get r b2)); injection E as <-; [|split; reflexivity].
    destruct (recv_loop_io r b2 (get r b2) b) as (-> & ->). destruct (Bool.eqb_spec b b2) as [->|]; split; reflexivity.
  - rewrite !app_nil_r. destruct (d_wcb (get r b2)); injection E as <-; [|split; reflexivity].
    destruct (send_loop_io r b2 (get r b2) b) as (-> & ->). destruct (Bool.eqb_spec b b2) as [->|]; split; reflexivity.
  - injection E as <-. rewrite get_with_pc, !app_nil_r. split; reflexivity.
  - destruct (_ <? 1); [discriminate|]. destruct x as [bs| |].
    + destruct (meta_store (d_buf (get r b1)) bs) as [m| |]; try discriminate E. cbn [bind] in E. injection E as <-.
      destruct (recv_loop_io r b1 (d_recvd (get r b1) m bs) b) as (-> & ->).
      destruct (Bool.eqb_spec b b1) as [->|]; rewrite ?app_nil_r; split; reflexivity.
    + injection E as <-. rewrite !app_nil_r. destruct (after_recv_io r b1 (get r b1) b) as (-> & ->).
      destruct (Bool.eqb_spec b b1) as [->|]; split; reflexivity.
    + injection E as <-. rewrite !app_nil_r. destruct (after_recv_io r b1 (d_seterr (get r b1)) b) as (-> & ->).
      destruct (Bool.eqb_spec b b1) as [->|]; split; reflexivity.
  - destruct (_ <? 1); [discriminate|]. destruct x as [n| |]; injection E as <-.
    + match goal with |- context [send_loop r b1 ?d] => destruct (send_loop_io r b1 d b) as (-> & ->) end.
      destruct (Bool.eqb_spec b b1) as [->|]; rewrite ?app_nil_r; split; reflexivity.
    + rewrite get_with_pc, !app_nil_r. split; reflexivity.
    + rewrite get_with_pc, !app_nil_r. split; reflexivity.
Qed.

Lemma relay_init_io m cap b : d_in (get (relay_init m cap) b) = [] /\ d_out (get (relay_init m cap) b) = [].
Proof.
  unfold relay_init. match goal with |- context [recv_loop ?r ?b0 ?d] => destruct (recv_loop_io r b0 d b) as (-> & ->) end.
  destruct b; split; reflexivity.
Qed.
Lemma relay_init_winv m cap : handover_ok m -> 0 < cap -> winv (mdata m) [] (relay_init m cap).
Proof.
  intros H C. pose proof (relay_init_inv m cap H C) as (D0 & PC0). split; [exact D0|].
  destruct (r_pc (relay_init m cap)) as [|b|b|[b|b|]]; try exact I.
  - destruct PC0 as (_ & _ & _ & F & _). exact F.
  - destruct PC0 as ((_ & _ & L) & _). exact L.
  - destruct PC0 as (E & L & _). split; assumption.
Qed.

Lemma meta_store_wf m bs m' : meta_wf m -> meta_store m bs = Ok m' ->
  meta_wf m' /\ mdata m' = mdata m ++ bs /\ meta_cap m' = meta_cap m /\ mlast m' = mlast m + zlen bs /\ mpos m' = mpos m.
Proof.
  intros W E. destruct (Z_le_gt_dec (zlen bs) (meta_getfree m)) as [L|L].
  - destruct (meta_store_ok m bs W L) as (m2 & S1 & S2 & S3 & S4 & S5 & S6). rewrite E in S1. injection S1 as <-. auto.
  - rewrite meta_store_fault in E by (auto; lia). discriminate.
Qed.

(** a well-formed buffer of a given size *)
Definition mok (c : Z) (m : meta) : Prop := meta_wf m /\ meta_cap m = c.
Lemma mok_store c m bs m' : mok c m -> meta_store m bs = Ok m' -> mok c m'.
Proof. intros (W & C) E. destruct (meta_store_wf _ _ _ W E) as (W' & _ & C' & _). split; [exact W'|congruence]. Qed.
Lemma mok_clr c m : mok c m -> mok c (meta_clr m).
Proof. intros (W & C). split; [apply meta_clr_wf; exact W|exact C]. Qed.
Lemma mok_consume c m n : mok c m -> 0 <= n <= meta_getlen m -> mok c (meta_consume m n).
Proof. intros (W & C) L. split; [apply meta_consume_ok; assumption|exact C]. Qed.
Lemma mok_skip c m : mok c m -> mok c (mkMeta (mbuf m) (mlast m) (mlast m)).
Proof. intros (W & C). split; [|exact C]. unfold meta_wf in *. cbn [mpos mlast]. unfold meta_cap in *. cbn [mbuf]. lia. Qed.

(** ** The client
    [took]: bytes taken from the application; [out]: given to TLS; [cin]: taken from TLS;
    [gave]: given to the application *)
Definition cl_pending (hdr : list Z) (c : client) : list Z :=
  match c with
  | CPre CpAuth m l => l ++ mdata m
  | CPre _ m _ => hdr ++ mdata m
  | CRel r => mdata (d_buf (get r true))
  | CDead => []
  end.
Definition cl_pending_down (c : client) : list Z :=
  match c with CRel r => mdata (d_buf (get r false)) | _ => [] end.

Definition cl_inv (hdr : list Z) (c : client) (took out cin gave : list Z) : Prop :=
  match c with
  | CPre p m l => meta_wf m /\ 0 < meta_getfree m /\ took = mdata m /\ cin = [] /\ gave = [] /\
      match p with CpAuth => hdr = out ++ l /\ l <> [] | _ => out = [] end
  | CRel r => exists pre, winv pre [] r /\ took = pre ++ d_in (get r true) /\ out = hdr ++ d_out (get r true) /\
      cin = d_in (get r false) /\ gave = d_out (get r false)
  | CDead => (exists lost, hdr ++ took = out ++ lost) /\ cin = [] /\ gave = [] /\ prefix out hdr
  end.

Lemma cl_account hdr c took out cin gave : cl_inv hdr c took out cin gave ->
  (exists lost, hdr ++ took = out ++ lost /\ (c <> CDead -> lost = cl_pending hdr c)) /\
  cin = gave ++ cl_pending_down c.
Proof.
  destruct c as [p m l|r|]; cbn [cl_inv cl_pending cl_pending_down].
  - intros (W & F & -> & -> & -> & P). split; [|reflexivity]. destruct p.
    + subst out. exists (hdr ++ mdata m). split; reflexivity.
    + subst out. exists (hdr ++ mdata m). split; reflexivity.
    + destruct P as (-> & _). exists (l ++ mdata m). rewrite <- app_assoc. split; reflexivity.
  - intros (pre & (D & _) & -> & -> & -> & ->). destruct (D true) as (_ & _ & E1). destruct (D false) as (_ & _ & E2). split.
    + exists (mdata (d_buf (get r true))). split; [|reflexivity]. rewrite E1, <- app_assoc. reflexivity.
    + exact E2.
  - intros ((lost & E) & -> & -> & _). split; [|reflexivity]. exists lost. split; [exact E|congruence].
Qed.

Lemma cl_step hdr c i c' took out cin gave : hdr <> [] -> cl_inv hdr c took out cin gave -> cl_enabled c i -> client_step hdr c i = Ok c' ->
  cl_inv hdr c' (took ++ cl_takes_app c i) (out ++ cl_gives_tls c i) (cin ++ cl_takes_tls c i) (gave ++ cl_gives_app c i).
Proof.
  intros NH V E ST. destruct c as [p m l|r|]; cbn [cl_inv] in V.
  - destruct V as (W & F & -> & -> & -> & P).
    assert (DIE : forall x, exists lost, hdr ++ (mdata m ++ x) = out ++ lost).
    { intros x. destruct p; [subst out; eexists; reflexivity..|]. destruct P as (-> & _). exists (l ++ mdata m ++ x).
      rewrite <- app_assoc. reflexivity. }
    assert (PO : prefix out hdr).
    { destruct p; [subst out; exists hdr; reflexivity..|]. destruct P as (-> & _). exists l. reflexivity. }
    destruct i as [x|ok|x|x| |x]; cbn [cl_enabled] in E.
    + (* receive *)
      assert (ST' : (if meta_getfree m <? 1 then Ok CDead else
        match x with
        | RxData bs => let* m' := meta_store m bs in if meta_getfree m' <? 1 then Ok CDead else Ok (CPre p m' l)
        | RxAgain => Ok (CPre p m l) | RxErr => Ok CDead end) = Ok c') by (destruct p; exact ST). clear ST.
      destruct (Z.ltb_spec (meta_getfree m) 1); [lia|].
      assert (G : cl_gives_tls (CPre p m l) (CRecv x) = []) by (destruct p; reflexivity). rewrite G, !app_nil_r. cbn [app].
      destruct x as [bs| |]; cbn [cl_takes_app cl_takes_tls cl_gives_app] in *.
      * assert (Lb : zlen bs <= meta_getfree m) by (destruct p; apply E). destruct (meta_store_ok m bs W Lb) as (m' & S1 & S2 & S3 & S4 & S5 & S6).
        rewrite S1 in ST'. cbn [bind] in ST'. destruct (Z.ltb_spec (meta_getfree m') 1); injection ST' as <-.
        -- split; [apply DIE|]. auto.
        -- cbn [cl_inv]. split; [exact S2|]. split; [lia|]. split; [rewrite S3; reflexivity|]. auto.
      * injection ST' as <-. rewrite app_nil_r. cbn [cl_inv]. auto 10.
      * injection ST' as <-. rewrite app_nil_r. split; [destruct (DIE []) as (z & Z); rewrite app_nil_r in Z; exists z; exact Z|]. auto.
    + destruct p; try contradiction. cbn [client_step] in ST. subst out.
      destruct ok; injection ST as <-; cbn [cl_takes_app cl_gives_tls cl_takes_tls cl_gives_app]; rewrite !app_nil_r; cbn [cl_inv]; auto 10.
      split; [exists (hdr ++ mdata m); reflexivity|auto].
    + destruct p; try contradiction. cbn [client_step] in ST. subst out.
      destruct x; injection ST as <-; cbn [cl_takes_app cl_gives_tls cl_takes_tls cl_gives_app]; rewrite !app_nil_r; cbn [cl_inv]; auto 10.
      split; [exists (hdr ++ mdata m); reflexivity|auto].
    + destruct p; try contradiction. cbn [client_step] in ST. destruct P as (EH & NL).
      destruct x as [n| |]; cbn [cl_takes_app cl_gives_tls cl_takes_tls cl_gives_app]; rewrite !app_nil_r; cbn [app].
      * destruct (Z.ltb_spec n (zlen l)); injection ST as <-.
        -- cbn [cl_inv]. repeat (split; [assumption || reflexivity|]). split.
           ++ rewrite <- app_assoc, ztake_zdrop. exact EH.
           ++ intros Z0. assert (ZL : zlen (zdrop n l) = 0) by (rewrite Z0; reflexivity). rewrite zlen_zdrop in ZL by lia. lia.
        -- rewrite ztake_all by lia. cbn [cl_inv]. exists (mdata m). split.
           ++ apply relay_init_winv; [|unfold TLS_TUNNEL_METAN; lia]. split; [exact W|]. split; [|right; exact F].
              destruct W as (W1 & W2). unfold meta_getfree in F. lia.
           ++ destruct (relay_init_io m TLS_TUNNEL_METAN true) as (-> & ->).
              destruct (relay_init_io m TLS_TUNNEL_METAN false) as (-> & ->). rewrite !app_nil_r. auto.
      * injection ST as <-. cbn [cl_inv]. auto 10.
      * injection ST as <-. split; [destruct (DIE []) as (z & Z); rewrite app_nil_r in Z; exists z; exact Z|]. auto.
    + assert (client_step hdr (CPre p m l) CTimer = Ok CDead) as X by (destruct p; reflexivity). rewrite X in ST. injection ST as <-.
      assert (G : cl_gives_tls (CPre p m l) CTimer = []) by (destruct p; reflexivity). rewrite G.
      cbn [cl_takes_app cl_takes_tls cl_gives_app]. rewrite !app_nil_r. cbn [cl_inv].
      split; [destruct (DIE []) as (z & Z); rewrite app_nil_r in Z; exists z; exact Z|]. auto.
    + destruct p; contradiction.
  - destruct V as (pre & V & -> & -> & -> & ->). destruct i; try contradiction. cbn [cl_enabled client_step] in *.
    destruct (any_step_inv _ _ _ _ V E) as (r' & S1 & V'). rewrite S1 in ST. cbn [bind] in ST. injection ST as <-.
    cbn [cl_takes_app cl_gives_tls cl_takes_tls cl_gives_app cl_inv]. exists pre. split; [exact V'|].
    destruct (rel_step_io _ _ _ E S1 true) as (-> & ->). destruct (rel_step_io _ _ _ E S1 false) as (-> & ->).
    rewrite !app_assoc. auto.
  - contradiction.
Qed.

(** the client alone never faults *)
Lemma cl_total hdr c i took out cin gave : cl_inv hdr c took out cin gave -> cl_enabled c i -> exists c', client_step hdr c i = Ok c'.
Proof.
  intros V E. destruct c as [p m l|r|]; cbn [cl_inv] in V; [| |contradiction].
  - destruct V as (W & F & _). destruct i as [x|ok|x|x| |x]; cbn [cl_enabled] in E.
    + assert (ST' : client_step hdr (CPre p m l) (CRecv x) = (if meta_getfree m <? 1 then Ok CDead else
        match x with
        | RxData bs => let* m' := meta_store m bs in if meta_getfree m' <? 1 then Ok CDead else Ok (CPre p m' l)
        | RxAgain => Ok (CPre p m l) | RxErr => Ok CDead end)) by (destruct p; reflexivity).
      rewrite ST'. destruct (_ <? 1); [eauto|]. destruct x as [bs| |]; eauto.
      destruct (meta_store_ok m bs W) as (m' & -> & _); [destruct p; apply E|]. cbn [bind]. destruct (_ <? 1); eauto.
    + destruct p; try contradiction. cbn [client_step]. destruct ok; eauto.
    + destruct p; try contradiction. cbn [client_step]. destruct x; eauto.
    + destruct p; try contradiction. cbn [client_step]. destruct x; eauto. destruct (_ <? _); eauto.
    + destruct p; eexists; reflexivity.
    + destruct p; contradiction.
  - destruct V as (pre & V & _). destruct i; try contradiction. cbn [cl_enabled client_step] in *.
    destruct (any_step_inv _ _ _ _ V E) as (r' & -> & _). cbn [bind]. eauto.
Qed.

(** ** The server *)
Definition sv_pending (s : server) : list Z :=
  match s with SRel _ r => mdata (d_buf (get r true)) | _ => [] end.
Definition sv_pending_down (s : server) : list Z :=
  match s with SRel _ r => mdata (d_buf (get r false)) | _ => [] end.
Definition sv_hs (s : server) : hs := match s with SHs h | SRel h _ => h end.
Definition in_auth (s : server) : Prop := match s with SHs h => h_ph h = PhAuth | _ => False end.

Definition sv_inv (hdr : list Z) (s : server) (rcv sent took gave : list Z) : Prop :=
  match s with
  | SHs h => took = [] /\ gave = [] /\ sent = h_sent h /\ mok TLS_TUNNEL_METAN (h_meta h) /\
      match h_ph h with
      | PhAuth => h_meta h = buf_of TLS_TUNNEL_METAN rcv /\ zlen rcv < AUTH_LEN
      | PhRelay => False
      | PhClosed => True
      | _ => exists seen, rcv = hdr ++ seen
      end
  | SRel h r => sent = h_sent h ++ d_out (get r false) /\ gave = d_out (get r true) /\ took = d_in (get r false) /\
      winv [] [] r /\ h_ph h = PhRelay /\ exists seen, rcv = hdr ++ seen ++ d_in (get r true)
  end.

Lemma hs_step_other c h i h' : h_ph h <> PhAuth -> h_ph h <> PhClosed -> h_ph h <> PhRelay -> mok c (h_meta h) -> enabled h i -> hs_step h i = Ok h' ->
  h_ph h' <> PhAuth /\ mok c (h_meta h') /\ h_sent h' = h_sent h ++ sv_gives_tls (SHs h) (SHsIn i) /\
  (h_ph h' = PhRelay -> sv_takes_tls (SHs h) (SHsIn i) = [] /\ mpos (h_meta h') = 0 /\ mlast (h_meta h') = 0).
Proof.
  intros N1 N2 N3 W E ST. unfold enabled in E. unfold hs_step in ST.
  destruct (h_ph h) eqn:Ph; try congruence; destruct i; try contradiction;
    cbn [sv_gives_tls sv_takes_tls] in *; rewrite ?app_nil_r.
  Ltac fin := cbn [h_ph h_meta h_sent with_s5 with_sent with_addr with_asked with_ph with_dial with_pm close]; rewrite ?app_nil_r;
     (split; [congruence|]); (split; [auto using mok_clr, mok_consume, mok_skip|]); (split; [reflexivity|congruence]).
  all: try (injection ST as <-; fin; fail).
  - (* P1 recv *)
    unfold do_recv in ST. destruct (_ <? 1); [discriminate|]. destruct r as [bs| |].
    + destruct (meta_store (h_meta h) bs) as [m| |] eqn:SM; try discriminate. cbn [bind] in ST.
      pose proof (mok_store _ _ _ _ W SM) as Wm. unfold p1_feed in ST.
      destruct (p1_loop (h_s5 h) (mdata m)) as [[s1 d]| |]; try discriminate. cbn [bind fst snd] in ST. destruct d.
      * destruct (meta_store (meta_clr m) [5; 0]) as [m2| |] eqn:SM2; try discriminate. cbn [bind] in ST. injection ST as <-.
        pose proof (mok_store _ _ _ _ (mok_clr _ _ Wm) SM2) as W2. fin.
      * injection ST as <-. fin.
    + injection ST as <-. fin.
    + injection ST as <-. fin.
  - (* P1Rsp send *)
    unfold do_send in ST. destruct r as [n| |].
    + destruct (0 <? _); injection ST as <-; fin.
    + injection ST as <-. fin.
    + injection ST as <-. fin.
  - (* P2 recv *)
    unfold do_recv in ST. destruct (_ <? 1); [discriminate|]. destruct r as [bs| |].
    + destruct (meta_store (h_meta h) bs) as [m| |] eqn:SM; try discriminate. cbn [bind] in ST.
      pose proof (mok_store _ _ _ _ W SM) as Wm. unfold p2_feed in ST.
      destruct (p2_loop (h_s5 h) (mdata m)) as [[s1 d]| |]; try discriminate. cbn [bind fst snd] in ST. destruct d; injection ST as <-; try fin.
      destruct (p2_accept s1); fin.
    + injection ST as <-. fin.
    + injection ST as <-. fin.
  - destruct ok; [|injection ST as <-; fin]. destruct (_ =? _); injection ST as <-; fin.
  - destruct (cstr _); [|discriminate]. cbn [of_opt bind] in ST. destruct a; injection ST as <-; fin.
  - destruct a; injection ST as <-; fin.
  - destruct ok; injection ST as <-; fin.
  - destruct r; injection ST as <-; fin.
  - destruct ok; [|injection ST as <-; fin].
    destruct (meta_store (h_meta h) _) as [m| |] eqn:SM; try discriminate. cbn [bind] in ST. injection ST as <-.
    pose proof (mok_store _ _ _ _ W SM) as Wm. fin.
  - destruct ok; injection ST as <-; fin.
  - destruct ok; [|injection ST as <-; fin].
    destruct (meta_store (h_meta h) _) as [m| |] eqn:SM; try discriminate. cbn [bind] in ST. injection ST as <-.
    pose proof (mok_store _ _ _ _ W SM) as Wm. fin.
  - unfold do_send in ST. destruct r as [n| |].
    + destruct (0 <? _); injection ST as <-; [fin|]. cbn [h_ph h_meta h_sent with_sent].
      split; [discriminate|]. split; [auto using mok_clr, mok_consume|]. split; [reflexivity|]. intros _. repeat split.
    + injection ST as <-. fin.
    + injection ST as <-. fin.
Qed.

Lemma sv_step hdr s i s' rcv sent took gave : zlen hdr = AUTH_LEN -> sv_inv hdr s rcv sent took gave -> sv_enabled s i ->
  (in_auth s -> prefix (rcv ++ sv_takes_tls s i) hdr) -> server_step s i = Ok s' ->
  sv_inv hdr s' (rcv ++ sv_takes_tls s i) (sent ++ sv_gives_tls s i) (took ++ sv_takes_tgt s i) (gave ++ sv_gives_tgt s i).
Proof.
  intros LH V E PX ST. destruct s as [h|h r]; destruct i as [i|x]; try contradiction; cbn [sv_inv server_step sv_enabled sv_takes_tgt sv_gives_tgt] in *.
  - destruct V as (-> & -> & -> & W & P). cbn [app].
    destruct (hs_step h i) as [h'| |] eqn:HS; try discriminate. cbn [bind] in ST.
    destruct (h_ph h) eqn:Ph.
    1:{ (* PhAuth *)
      destruct P as (M & L). specialize (PX Ph). unfold enabled in E. rewrite Ph in E.
      assert (CL : forall h2, h2 = h' -> h_ph h2 = PhClosed -> h_sent h2 = h_sent h -> mok TLS_TUNNEL_METAN (h_meta h2) ->
                sv_gives_tls (SHs h) (SHsIn i) = [] ->
                sv_inv hdr s' (rcv ++ sv_takes_tls (SHs h) (SHsIn i)) (h_sent h ++ sv_gives_tls (SHs h) (SHsIn i)) [] []).
      { intros h2 -> P2 S2 W2 G. rewrite P2 in ST. injection ST as <-. cbn [sv_inv]. rewrite P2, G, app_nil_r. auto. }
      destruct i; try contradiction.
      - destruct r as [bs| |].
        + cbn [sv_takes_tls sv_gives_tls] in *. destruct E as (NE & BB & LB).
          assert (LL : zlen (rcv ++ bs) <= AUTH_LEN).
          { destruct PX as (z & Z). rewrite <- LH, Z, (zlen_app (rcv ++ bs) z). pose proof (zlen_nonneg z). lia. }
          pose proof LL as LL2. rewrite zlen_app in LL2. unfold AUTH_LEN in LL2, L.
          rewrite (auth_recv h TLS_TUNNEL_METAN rcv (RxData bs)) in HS; [|split; assumption|exact L|unfold TLS_TUNNEL_METAN; lia| |exact I].
          2:{ cbn [rx_bytes]. unfold TLS_TUNNEL_METAN. lia. }
          cbn [rx_bytes] in HS.
          destruct (Z.ltb_spec (zlen (rcv ++ bs)) AUTH_LEN) as [LT|GE].
          * injection HS as <-. cbn [h_ph with_pm] in ST. injection ST as <-. cbn [sv_inv h_ph with_pm h_sent h_meta].
            rewrite app_nil_r. repeat (split; [reflexivity|]). split; [|split; [reflexivity|exact LT]].
            split; [|apply buf_of_cap; rewrite zlen_app; unfold TLS_TUNNEL_METAN; lia]. unfold meta_wf. rewrite buf_of_cap by (rewrite zlen_app; unfold TLS_TUNNEL_METAN; lia). cbn [buf_of mpos mlast].
            rewrite zlen_app. pose proof (zlen_nonneg rcv). pose proof (zlen_nonneg bs). unfold TLS_TUNNEL_METAN. lia.
          * assert (EQ : rcv ++ bs = hdr).
            { destruct PX as (z & Z). assert (z = []) as ->; [|rewrite app_nil_r in Z; auto]. apply zlen_0_nil.
              rewrite Z, (zlen_app (rcv ++ bs) z) in LH. pose proof (zlen_nonneg z). lia. }
            assert (Wb : mok TLS_TUNNEL_METAN (buf_of TLS_TUNNEL_METAN (rcv ++ bs))).
            { split; [|apply buf_of_cap; rewrite zlen_app; unfold TLS_TUNNEL_METAN; lia]. unfold meta_wf. rewrite buf_of_cap by (rewrite zlen_app; unfold TLS_TUNNEL_METAN; lia). cbn [buf_of mpos mlast].
              rewrite zlen_app. pose proof (zlen_nonneg rcv). pose proof (zlen_nonneg bs). unfold TLS_TUNNEL_METAN. lia. }
            unfold auth_check in HS. destruct (bseq _ MAGIC).
            -- destruct (cstr _); [|discriminate]. cbn [of_opt bind] in HS. destruct (ezac_find _ _) as [f| |]; try discriminate. cbn [bind] in HS.
               destruct (fst f); injection HS as <-.
               ++ cbn [h_ph with_ac] in ST. injection ST as <-. cbn [sv_inv h_ph with_ac h_sent h_meta].
                  rewrite app_nil_r. repeat (split; [reflexivity|]). split; [apply mok_clr; exact Wb|]. exists []. rewrite app_nil_r. exact EQ.
               ++ eapply CL; [reflexivity|reflexivity|reflexivity|exact Wb|reflexivity].
            -- injection HS as <-. eapply CL; [reflexivity|reflexivity|reflexivity|exact Wb|reflexivity].
        + cbn [sv_takes_tls sv_gives_tls] in *. rewrite !app_nil_r.
          rewrite (auth_recv h TLS_TUNNEL_METAN rcv RxAgain) in HS; [|split; assumption|exact L|unfold TLS_TUNNEL_METAN; lia| |exact I].
          2:{ cbn [rx_bytes]. rewrite zlen_nil. unfold AUTH_LEN, TLS_TUNNEL_METAN in *. lia. }
          cbn [rx_bytes] in HS. rewrite app_nil_r in HS. destruct (Z.ltb_spec (zlen rcv) AUTH_LEN); [|lia].
          injection HS as <-. cbn [h_ph with_pm] in ST. injection ST as <-. cbn [sv_inv h_ph with_pm h_sent h_meta].
          rewrite M in W. auto 10.
        + cbn [sv_takes_tls sv_gives_tls] in *. unfold hs_step in HS. rewrite Ph in HS. unfold do_recv in HS.
          destruct (_ <? 1); [discriminate|]. injection HS as <-. eapply CL; auto.
      - unfold hs_step in HS. rewrite Ph in HS. injection HS as <-. eapply CL; auto. }
    all: try contradiction P.
    all: try (unfold enabled in E; rewrite Ph in E; contradiction E).
    all: destruct P as (seen & ->);
      destruct (hs_step_other TLS_TUNNEL_METAN h i h') as (A1 & A2 & A3 & A4); auto; try congruence;
      destruct (h_ph h') eqn:Ph'; try congruence; injection ST as <-;
      cbn [sv_inv]; rewrite ?Ph', ?A3; try (repeat (split; [reflexivity || exact A2|]); first [exact I | eexists; rewrite <- app_assoc; reflexivity]).
    all: destruct (A4 eq_refl) as (B1 & B3 & B4); try congruence.
    all: destruct (relay_init_io (h_meta h') TLS_TUNNEL_METAN true) as (-> & ->).
    all: destruct (relay_init_io (h_meta h') TLS_TUNNEL_METAN false) as (-> & ->).
    all: rewrite B1, !app_nil_r.
    all: repeat (split; [reflexivity|]); (split; [|split; [reflexivity|]; exists seen; rewrite app_nil_r; reflexivity]).
    all: assert (mdata (h_meta h') = []) as MN by (apply mdata_nil; [apply A2|]; unfold meta_getlen; lia).
    all: rewrite <- MN at 1; destruct A2 as (A2 & A5); apply relay_init_winv; [|unfold TLS_TUNNEL_METAN; lia].
    all: (split; [exact A2|]); rewrite A5; (split; [unfold TLS_TUNNEL_METAN; lia|]); right; unfold meta_getfree; rewrite A5, B4;
      unfold TLS_TUNNEL_METAN; lia.
  - destruct V as (-> & -> & -> & V & PH & seen & ->).
    destruct (any_step_inv _ _ _ _ V E) as (r' & S1 & V'). rewrite S1 in ST. cbn [bind] in ST. injection ST as <-.
    cbn [sv_takes_tls sv_gives_tls sv_inv].
    destruct (rel_step_io _ _ _ E S1 true) as (-> & ->). destruct (rel_step_io _ _ _ E S1 false) as (-> & ->).
    rewrite !app_assoc. repeat (split; [reflexivity || assumption|]). exists seen. rewrite <- !app_assoc. reflexivity.
Qed.

Lemma in_auth_back hdr s i s' rcv sent took gave : sv_inv hdr s rcv sent took gave -> sv_enabled s i -> server_step s i = Ok s' -> in_auth s' -> in_auth s.
Proof.
  intros V E ST A. destruct s as [h|h r]; destruct i as [i|x]; try contradiction; cbn [server_step sv_enabled sv_inv in_auth] in *.
  - destruct V as (_ & _ & _ & W & P). destruct (hs_step h i) as [h'| |] eqn:HS; try discriminate. cbn [bind] in ST.
    assert (D : h_ph h' = PhAuth).
    { destruct (h_ph h') eqn:Ph; injection ST as <-; cbn [in_auth] in A; first [contradiction|congruence]. }
    destruct (h_ph h) eqn:Ph; [reflexivity|..]; exfalso; try contradiction P; try (unfold enabled in E; rewrite Ph in E; contradiction E);
      destruct (hs_step_other _ h i h' ltac:(congruence) ltac:(congruence) ltac:(congruence) W E HS) as (N & _); congruence.
  - destruct (any_step r x); try discriminate. injection ST as <-. exact A.
Qed.

(** ** Records *)
Lemma concat_put q bs : concat (rec_put q bs) = concat q ++ bs.
Proof. unfold rec_put. destruct bs; [rewrite app_nil_r; reflexivity|]. rewrite concat_app. cbn [concat]. rewrite app_nil_r. reflexivity. Qed.
Lemma rec_drop_spec q bs r0 q' : q = r0 :: q' -> prefix bs r0 -> concat q = bs ++ concat (rec_drop (zlen bs) q).
Proof.
  intros -> (z & ->). unfold rec_drop. rewrite zlen_app. pose proof (zlen_nonneg z). destruct (Z.ltb_spec (zlen bs) (zlen bs + zlen z)).
  - rewrite zdrop_app_r, Z.sub_diag, zdrop_le0 by lia. cbn [concat]. rewrite app_assoc. reflexivity.
  - assert (z = []) as -> by (apply zlen_0_nil; lia). rewrite app_nil_r. reflexivity.
Qed.
Definition nonempty (l : list Z) : Prop := l <> [].
Lemma rec_put_ne q bs : Forall nonempty q -> Forall nonempty (rec_put q bs).
Proof. intros F. unfold rec_put. destruct bs; [exact F|]. apply Forall_app. split; [exact F|]. repeat constructor. intros X. discriminate X. Qed.
Lemma rec_drop_ne q n : Forall nonempty q -> Forall nonempty (rec_drop n q).
Proof.
  intros F. unfold rec_drop. destruct q as [|r q]; [exact F|]. pose proof (Forall_inv_tail F) as F'.
  destruct (Z.ltb_spec n (zlen r)) as [L|L]; [|exact F']. constructor; [|exact F']. intros X.
  destruct (Z_le_gt_dec n 0).
  - rewrite zdrop_le0 in X by lia. exact (Forall_inv F X).
  - assert (Y : zlen (zdrop n r) = 0) by (rewrite X; reflexivity). rewrite zlen_zdrop in Y by lia. lia.
Qed.

(** no record carries bytes of the header together with bytes behind it *)
Definition bnd (hdr rcv : list Z) (cs : list (list Z)) : Prop :=
  exists c1 c2 h, cs = c1 ++ c2 /\ hdr = rcv ++ concat c1 ++ h /\ (h = [] \/ c2 = []).

Lemma bnd_put hdr rcv cs bs : Forall nonempty cs -> bnd hdr rcv cs ->
  (* the new record is a part of the header, or the header has been sent *)
  (exists h, hdr = (rcv ++ concat cs) ++ bs ++ h) \/ prefix hdr (rcv ++ concat cs) -> bnd hdr rcv (rec_put cs bs).
Proof.
  intros NE (c1 & c2 & h & -> & E & D) O. destruct bs as [|b bs]; [exists c1, c2, h; auto|]. cbn [rec_put].
  destruct O as [(h' & O)|(z & O)].
  - assert (c2 = []) as ->.
    { destruct D as [->|D]; [|exact D]. rewrite app_nil_r in E. rewrite concat_app, !app_assoc in O. rewrite <- E in O.
      exfalso. apply (f_equal (@zlen Z)) in O. rewrite !zlen_app, zlen_cons in O.
      pose proof (zlen_nonneg (concat c2)). pose proof (zlen_nonneg bs). pose proof (zlen_nonneg h'). lia. }
    rewrite app_nil_r in *. exists (c1 ++ [b :: bs]), [], h'. rewrite app_nil_r. split; [reflexivity|]. split; [|auto].
    rewrite concat_app. cbn [concat]. rewrite app_nil_r, <- !app_assoc. rewrite <- app_assoc in O. exact O.
  - exists c1, (c2 ++ [b :: bs]), h. split; [rewrite app_assoc; reflexivity|]. split; [exact E|]. left.
    destruct D as [D|D]; [exact D|]. subst c2. rewrite app_nil_r, E in O. apply zlen_0_nil.
    apply (f_equal (@zlen Z)) in O. rewrite !zlen_app in O. pose proof (zlen_nonneg h). pose proof (zlen_nonneg z). lia.
Qed.

Lemma bnd_take hdr rcv cs bs r0 q : bs <> [] -> cs = r0 :: q -> prefix bs r0 -> zlen rcv < zlen hdr -> bnd hdr rcv cs ->
  prefix (rcv ++ bs) hdr /\ bnd hdr (rcv ++ bs) (rec_drop (zlen bs) cs).
Proof.
  intros NB -> (z & ->) L (c1 & c2 & h & E1 & E2 & D).
  destruct c1 as [|r1 c1].
  { exfalso. cbn [app concat] in *. destruct D as [->|D]; [|subst; discriminate]. rewrite app_nil_r in E2. subst hdr. lia. }
  cbn [app] in E1. injection E1 as <- ->. cbn [concat] in E2. rewrite <- !app_assoc in E2. split.
  - eexists. rewrite E2, <- app_assoc. reflexivity.
  - unfold rec_drop. rewrite zlen_app. pose proof (zlen_nonneg z). destruct (Z.ltb_spec (zlen bs) (zlen bs + zlen z)).
    + rewrite zdrop_app_r, Z.sub_diag, zdrop_le0 by lia. exists (z :: c1), c2, h. split; [reflexivity|]. split; [|exact D].
      cbn [concat]. rewrite E2, <- !app_assoc. reflexivity.
    + assert (z = []) as -> by (apply zlen_0_nil; lia). exists c1, c2, h. split; [reflexivity|]. split; [|exact D].
      rewrite E2, <- !app_assoc. reflexivity.
Qed.

(** ** All together *)
Definition tinv (hdr : list Z) (t : tun) : Prop :=
  exists took cin tt,
    cl_inv hdr (t_cl t) took (t_rcv t ++ concat (t_cs t)) cin (t_got t) /\
    sv_inv hdr (t_sv t) (t_rcv t) (cin ++ t_sc t) tt (t_tgt t) /\
    t_app t = took ++ t_ac t /\ t_ans t = tt ++ t_ts t /\
    Forall nonempty (t_cs t) /\ (in_auth (t_sv t) -> bnd hdr (t_rcv t) (t_cs t)).

Lemma prefix_drop (l q : list Z) : prefix l q -> q = l ++ zdrop (zlen l) q.
Proof. intros (z & ->). rewrite zdrop_app_r, Z.sub_diag, zdrop_le0 by lia. reflexivity. Qed.

Lemma sv_auth_bound hdr s rcv sent took gave : zlen hdr = AUTH_LEN -> sv_inv hdr s rcv sent took gave -> in_auth s -> zlen rcv < zlen hdr.
Proof.
  intros L V A. destruct s as [h|h r]; [|contradiction]. cbn [in_auth sv_inv] in *. destruct V as (_ & _ & _ & _ & V).
  rewrite A in V. rewrite L. apply V.
Qed.

Lemma tinv_step hdr t a t' : zlen hdr = AUTH_LEN -> tinv hdr t -> tun_ok t a -> tun_step hdr t a = Ok t' -> tinv hdr t'.
Proof.
  intros LH (took & cin & tt & C & V & EA & ET & NE & B) OK ST. destruct a as [bs|bs|i|i]; cbn [tun_step tun_ok] in *.
  - injection ST as <-. exists took, cin, tt. cbn [t_cl t_sv t_ac t_cs t_sc t_ts t_app t_got t_tgt t_ans t_rcv].
    rewrite EA, <- app_assoc. auto 10.
  - injection ST as <-. exists took, cin, tt. cbn [t_cl t_sv t_ac t_cs t_sc t_ts t_app t_got t_tgt t_ans t_rcv].
    rewrite ET, <- app_assoc. auto 10.
  - destruct OK as (E & P1 & P2). destruct (client_step hdr (t_cl t) i) as [c'| |] eqn:CS; try discriminate. cbn [bind] in ST. injection ST as <-.
    assert (NH : hdr <> []) by (intros ->; rewrite zlen_nil in LH; unfold AUTH_LEN in LH; lia).
    pose proof (cl_step hdr _ _ _ _ _ _ _ NH C E CS) as C'.
    exists (took ++ cl_takes_app (t_cl t) i), (cin ++ cl_takes_tls (t_cl t) i), tt.
    cbn [t_cl t_sv t_ac t_cs t_sc t_ts t_app t_got t_tgt t_ans t_rcv]. rewrite concat_put, !app_assoc.
    split; [rewrite <- app_assoc in *; exact C'|]. rewrite <- !app_assoc, <- !prefix_drop by assumption.
    split; [exact V|]. split; [exact EA|]. split; [exact ET|]. split; [apply rec_put_ne; exact NE|].
    intros A. specialize (B A). destruct (list_eq_dec Z.eq_dec (cl_gives_tls (t_cl t) i) []) as [Z0|NZ]; [rewrite Z0; exact B|].
    apply bnd_put; [exact NE|exact B|].
    destruct (t_cl t) as [p m l|r|] eqn:EC; cbn [cl_inv] in C; [| |contradiction].
    + destruct p; cbn [cl_gives_tls] in NZ; [destruct i; contradiction NZ; reflexivity..|].
      destruct C as (_ & _ & _ & _ & _ & EH & _). destruct i as [x|ok|x|x| |x]; try (contradiction NZ; reflexivity).
      destruct x as [n| |]; try (contradiction NZ; reflexivity). cbn [cl_gives_tls]. left. exists (zdrop n l). rewrite ztake_zdrop. exact EH.
    + destruct C as (pre & _ & _ & -> & _). right. eexists. reflexivity.
  - destruct OK as (E & P1 & P2). destruct (server_step (t_sv t) i) as [s'| |] eqn:SS; try discriminate. cbn [bind] in ST. injection ST as <-.
    exists took, cin, (tt ++ sv_takes_tgt (t_sv t) i). cbn [t_cl t_sv t_ac t_cs t_sc t_ts t_app t_got t_tgt t_ans t_rcv].
    assert (Q : concat (t_cs t) = sv_takes_tls (t_sv t) i ++ concat (match sv_takes_tls (t_sv t) i with [] => t_cs t | bs => rec_drop (zlen bs) (t_cs t) end) /\
                (in_auth (t_sv t) -> prefix (t_rcv t ++ sv_takes_tls (t_sv t) i) hdr /\
                   bnd hdr (t_rcv t ++ sv_takes_tls (t_sv t) i) (match sv_takes_tls (t_sv t) i with [] => t_cs t | bs => rec_drop (zlen bs) (t_cs t) end)) /\
                Forall nonempty (match sv_takes_tls (t_sv t) i with [] => t_cs t | bs => rec_drop (zlen bs) (t_cs t) end)).
    { destruct (sv_takes_tls (t_sv t) i) as [|b bs] eqn:TK.
      - split; [reflexivity|]. split; [|exact NE]. intros A. rewrite app_nil_r. split; [|exact (B A)].
        destruct (B A) as (c1 & c2 & h & _ & E2 & _). eexists. exact E2.
      - destruct (t_cs t) as [|r0 q] eqn:EQ; [contradiction|]. split; [eapply rec_drop_spec; [reflexivity|exact P1]|].
        split; [|apply rec_drop_ne; exact NE]. intros A. eapply bnd_take; [discriminate|reflexivity|exact P1| |exact (B A)].
        eapply sv_auth_bound; eauto. }
    destruct Q as (Q1 & Q2 & Q3).
    pose proof (sv_step hdr _ _ _ _ _ _ _ LH V E (fun A => proj1 (Q2 A)) SS) as V'.
    split; [rewrite <- app_assoc, <- Q1; exact C|]. split; [rewrite app_assoc; exact V'|]. split; [exact EA|].
    split; [rewrite <- app_assoc, <- prefix_drop by exact P2; exact ET|]. split; [exact Q3|].
    intros A. apply Q2. eapply in_auth_back; eauto.
Qed.

Lemma tinv_init hdr c : zlen hdr = AUTH_LEN -> tinv hdr (tun_init c).
Proof.
  intros LH. exists [], [], []. unfold tun_init. cbn [t_cl t_sv t_ac t_cs t_sc t_ts t_app t_got t_tgt t_ans t_rcv].
  destruct (meta_new_wf TLS_TUNNEL_METAN) as (W & C & D); [unfold TLS_TUNNEL_METAN; lia|].
  split.
  { cbn [cl_inv]. rewrite D. unfold meta_getfree. rewrite C. split; [exact W|]. split; [vm_compute; reflexivity|]. auto. }
  split.
  { cbn [sv_inv hs_init h_ph h_meta h_sent app]. repeat (split; [reflexivity|]). split; [split; assumption|]. split; [|reflexivity].
    unfold buf_of. change (zlen (@nil Z)) with 0. rewrite Z.sub_0_r. reflexivity. }
  repeat (split; [reflexivity || constructor|]). intros _. exists [], [], hdr. cbn. auto.
Qed.
