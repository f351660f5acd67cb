(** * Property C145: writes over TLS that had to wait. *)
From Coq Require Import String.
From Verif Require Import Base Str_Spec Meta_Model Meta_Proofs S5_Model Send_Model Send_Props
  Relay_Model Relay_Proofs Relay_Props Relay_Any_Props Twr_Model.
Open Scope Z_scope.
Local Arguments Z.add : simpl never.
Local Arguments Z.sub : simpl never.
Local Arguments zlen : simpl never.

(** ** The relay *)
(** the bytes received from the source of direction [b] along a run *)
Fixpoint got (b : bool) (r : relay) (t : tlsw) (l : list tin) : list Z :=
  match l with
  | [] => []
  | i :: l => match i with TIn (AIn x) => ins (observe r x) b | _ => [] end ++
              match tstep b r t i with Ok (r', t') => got b r' t' l | _ => [] end
  end.

Lemma recv_loop_buf r b1 d b : d_buf (get (recv_loop r b1 d) b) = if Bool.eqb b b1 then d_buf d else d_buf (get r b).
Proof.
  unfold recv_loop, after_recv.
  destruct (_ <? _); [|destruct (_ <? _); [|destruct (d_err d)]]; destruct b, b1; reflexivity.
Qed.
Lemma after_recv_buf r b1 d b : d_buf (get (after_recv r b1 d) b) = if Bool.eqb b b1 then d_buf d else d_buf (get r b).
Proof. unfold after_recv. destruct (_ <? _); [|destruct (d_err d)]; destruct b, b1; reflexivity. Qed.
Lemma send_loop_buf r b1 d b : (b = b1 -> 0 < meta_getlen (d_buf d)) ->
  d_buf (get (send_loop r b1 d) b) = if Bool.eqb b b1 then d_buf d else d_buf (get r b).
Proof.
  intros H. unfold send_loop. destruct (Z.ltb_spec 0 (meta_getlen (d_buf d))); [destruct b, b1; reflexivity|].
  destruct (Bool.eqb_spec b b1) as [->|N]; [specialize (H eq_refl); lia|].
  unfold after_send. destruct (d_err d); [destruct b, b1; try reflexivity; congruence|].
  rewrite recv_loop_buf. destruct (Bool.eqb_spec b b1); [congruence|reflexivity].
Qed.

(** as long as bytes of direction [b] are left, steps other than its own send keep them where
    they are and only add to them *)
Lemma keeps pd pu r x r' b : winv pd pu r -> match x with AIn i => r_enabled r i | ASet _ _ _ => True end ->
  (forall y, x = AIn (RSend y) -> r_pc r <> PSend b) -> any_step r x = Ok r' -> 0 < meta_getlen (d_buf (get r b)) ->
  mpos (d_buf (get r' b)) = mpos (d_buf (get r b)) /\
  exists e, mdata (d_buf (get r' b)) = mdata (d_buf (get r b)) ++ e.
Proof.
  intros (D & PC) EN NS E L.
  assert (K : d_buf (get r' b) = d_buf (get r b) -> mpos (d_buf (get r' b)) = mpos (d_buf (get r b)) /\
    exists e, mdata (d_buf (get r' b)) = mdata (d_buf (get r b)) ++ e).
  { intros ->. split; [reflexivity|]. exists []. rewrite app_nil_r. reflexivity. }
  destruct x as [i|b0 rc wc].
  2:{ injection E as <-. apply K. destruct b, b0; reflexivity. }
  cbn [any_step] in E. unfold relay_step, r_enabled in *.
  destruct (r_pc r) as [|b1|b1|why] eqn:Epc; destruct i as [x|x|b2|b2|]; try contradiction.
  - destruct (d_rcb (get r b2)); injection E as <-; [|apply K; reflexivity]. apply K. rewrite recv_loop_buf.
    destruct (Bool.eqb_spec b b2) as [->|]; reflexivity.
  - destruct (d_wcb (get r b2)); injection E as <-; [|apply K; reflexivity]. apply K.
    rewrite send_loop_buf by (intros ->; exact L). destruct (Bool.eqb_spec b b2) as [->|]; reflexivity.
  - injection E as <-. apply K. rewrite get_with_pc. reflexivity.
  - destruct (_ <? 1); [discriminate|]. destruct x as [bs| |].
    + destruct (meta_store (d_buf (get r b1)) bs) as [m| |] eqn:SM; try discriminate E. cbn [bind] in E. injection E as <-.
      rewrite recv_loop_buf. destruct (Bool.eqb_spec b b1) as [->|]; [|split; [reflexivity|exists []; rewrite app_nil_r; reflexivity]].
      cbn [d_recvd d_buf].
      destruct (meta_store_ok (d_buf (get r b1)) bs) as (m' & S1 & W1 & M1 & P1); [apply D|apply EN|].
      rewrite S1 in SM. injection SM as ->. split; [|exists bs; exact M1].
      unfold meta_store in S1. destruct (zput _ _ _); [|discriminate]. cbn [of_opt bind] in S1. injection S1 as <-. reflexivity.
    + injection E as <-. apply K. rewrite after_recv_buf. destruct (Bool.eqb_spec b b1) as [->|]; reflexivity.
    + injection E as <-. apply K. rewrite after_recv_buf. destruct (Bool.eqb_spec b b1) as [->|]; reflexivity.
  - assert (N : b1 <> b) by (intros ->; apply (NS x eq_refl); reflexivity).
    destruct (_ <? 1); [discriminate|]. destruct x as [n| |]; injection E as <-.
    + apply K. rewrite send_loop_buf by congruence. destruct (Bool.eqb_spec b b1) as [->|]; [congruence|reflexivity].
    + apply K. rewrite get_with_pc. reflexivity.
    + apply K. rewrite get_with_pc. reflexivity.
Qed.

Lemma ztake_more k j (l : list Z) : 0 <= k -> 0 <= j -> ztake k l ++ ztake j (zdrop k l) = ztake (k + j) l.
Proof.
  intros K J. unfold ztake, zdrop. rewrite Z2Nat.inj_add by lia. revert l. induction (Z.to_nat k) as [|n IH]; intros l; [reflexivity|].
  destruct l; cbn [firstn skipn Nat.add app]; [rewrite firstn_nil; reflexivity|]. f_equal. apply IH.
Qed.
Definition waiting_ok (b : bool) (r : relay) (t : tlsw) : Prop :=
  w_bad t = false /\
  match w_wait t with
  | None => w_plain t = d_out (get r b)
  | Some (p, k) => p = (0, mpos (d_buf (get r b))) /\ 0 <= k <= zlen (mdata (d_buf (get r b))) /\
                   0 < meta_getlen (d_buf (get r b)) /\ w_plain t = d_out (get r b) ++ ztake k (mdata (d_buf (get r b)))
  end.

Lemma tstep_ok pd pu b r t i : winv pd pu r -> waiting_ok b r t -> t_enabled b r i ->
  exists r' t', tstep b r t i = Ok (r', t') /\ winv pd pu r' /\ waiting_ok b r' t' /\
    d_in (get r' b) = d_in (get r b) ++ match i with TIn (AIn x) => ins (observe r x) b | _ => [] end.
Proof.
  intros W (WB & WW) EN. pose proof W as (D & PC). destruct i as [x|w]; cbn [tstep t_enabled] in *.
  - assert (EN' : match x with AIn i => r_enabled r i | ASet _ _ _ => True end) by (destruct x as [[]|]; tauto).
    assert (NS : forall y, x = AIn (RSend y) -> r_pc r <> PSend b) by (intros y ->; tauto).
    destruct (any_step_inv pd pu r x W EN') as (r' & E & W'). rewrite E. exists r', t.
    split; [reflexivity|]. split; [exact W'|].
    destruct (any_step_spec r x r' EN' E) as (S1 & S2 & _).
    assert (O : outs (match x with AIn i => observe r i | ASet _ _ _ => [] end) b = []).
    { destruct x as [i|]; [|reflexivity]. unfold observe.
      destruct (r_pc r) as [|b1|b1|why] eqn:Epc; destruct i as [y|y|b2|b2|]; try reflexivity.
      - destruct y; reflexivity.
      - assert (N : b1 <> b) by (intros ->; apply (NS y eq_refl); reflexivity).
        destruct y; try reflexivity. cbn [outs]. destruct (Bool.eqb_spec b b1); [congruence|reflexivity]. }
    assert (DO : d_out (get r' b) = d_out (get r b)) by (rewrite (S2 b), O, app_nil_r; reflexivity).
    split; [|destruct x; exact (S1 b)].
    split; [exact WB|]. destruct (w_wait t) as [(p, k)|].
    + destruct WW as (P & K & L & Q). destruct (keeps pd pu r x r' b W EN' NS E L) as (MP & e & MD).
      rewrite MP, MD, DO. split; [exact P|]. rewrite zlen_app. pose proof (zlen_nonneg e).
      split; [lia|]. destruct (D b) as (WFb & _). destruct (proj1 W' b) as (WF' & _).
      split; [|rewrite ztake_app_l by lia; exact Q].
      rewrite <- (mdata_len _ WF'), MD, zlen_app, (mdata_len _ WFb). lia.
    + rewrite DO. exact WW.
  - rewrite EN in PC. destruct (D b) as (WF & _ & EQ).
    set (m := d_buf (get r b)) in *. pose proof (mdata_len m WF) as ML.
    (* what the library does *)
    assert (T : exists k, 0 <= k <= zlen (mdata m) /\ w_plain t = d_out (get r b) ++ ztake k (mdata m) /\
      tls_write t (0, mpos m) (mdata m) w =
      match w with
      | WAll => (TxSent (zlen (mdata m)), Tw None (w_plain t ++ zdrop k (mdata m)) (w_bad t))
      | WWait j => let j := Z.max 0 (Z.min j (zlen (mdata m) - k)) in
                 (TxAgain, Tw (Some ((0, mpos m), k + j)) (w_plain t ++ ztake j (zdrop k (mdata m))) (w_bad t))
      | WErr => (TxErr, t)
      end).
    { unfold tls_write. destruct (w_wait t) as [(p, k)|] eqn:Ew.
      - destruct WW as (-> & K & _ & Q). exists k. split; [exact K|]. split; [exact Q|].
        unfold place_eqb. cbn [fst snd]. rewrite !Z.eqb_refl. destruct (Z.leb_spec k (zlen (mdata m))); [reflexivity|lia].
      - exists 0. pose proof (zlen_nonneg (mdata m)). split; [lia|]. rewrite ztake_le0 by lia. rewrite app_nil_r. auto. }
    destruct T as (k & K & Q & ->).
    set (x := fst (match w with WAll => _ | WWait j => _ | WErr => _ end)).
    assert (TX : tx_ok m x).
    { subst x. destruct w; cbn [fst tx_ok]; try exact Logic.I. pose proof (zlen_nonneg (mdata m)). lia. }
    assert (ENx : r_enabled r (RSend x)) by (unfold r_enabled; rewrite EN; exact TX).
    destruct (any_step_inv pd pu r (AIn (RSend x)) W ENx) as (r' & E & W').
    destruct (any_step_spec r (AIn (RSend x)) r' ENx E) as (S1 & S2 & _).
    cbn [any_step] in E. rewrite E. cbn [bind]. eexists r', _. split; [reflexivity|]. split; [exact W'|].
    assert (INS : ins (observe r (RSend x)) b = []) by (unfold observe; rewrite EN; destruct x; reflexivity).
    split; [|rewrite (S1 b), INS; reflexivity].
    split; [destruct w; exact WB|].
    pose proof (S2 b) as S2b. unfold observe in S2b. rewrite EN in S2b.
    subst x. destruct w as [|j|]; cbn [fst snd w_wait w_plain] in *.
    + (* taken *)
      rewrite S2b. cbn [outs]. rewrite Bool.eqb_reflx, app_nil_r. fold m.
      change (zdrop (mpos m) (mbuf m)) with (zdrop (mpos m) (mbuf m)).
      assert (X : ztake (zlen (mdata m)) (zdrop (mpos m) (mbuf m)) = mdata m).
      { rewrite ML. unfold mdata, zslice, meta_getlen. reflexivity. }
      rewrite X, Q, <- app_assoc, ztake_zdrop. reflexivity.
    + (* it waits *)
      unfold relay_step in E. rewrite EN in E. fold m in E.
      destruct (Z.ltb_spec (meta_getlen m) 1); [lia|]. injection E as <-. rewrite get_with_pc. fold m.
      cbn [outs] in *. split; [reflexivity|]. split; [lia|]. split; [lia|].
      rewrite Q, <- app_assoc. f_equal.
      apply ztake_more; lia.
    + unfold relay_step in E. rewrite EN in E. fold m in E.
      destruct (Z.ltb_spec (meta_getlen m) 1); [lia|]. injection E as <-. rewrite get_with_pc. fold m. exact WW.
Qed.

Lemma trun_ok pd pu b : forall l r t, winv pd pu r -> waiting_ok b r t -> t_valid b r t l ->
  exists r' t', trun b r t l = Ok (r', t') /\ winv pd pu r' /\ waiting_ok b r' t' /\
    d_in (get r' b) = d_in (get r b) ++ got b r t l.
Proof.
  induction l as [|i l IH]; intros r t W K V.
  - exists r, t. rewrite app_nil_r. auto.
  - destruct V as (EN & V). destruct (tstep_ok pd pu b r t i W K EN) as (r1 & t1 & E & W1 & K1 & D1).
    destruct (IH r1 t1 W1 K1 (V r1 t1 E)) as (r2 & t2 & E2 & W2 & K2 & D2).
    exists r2, t2. cbn [trun got]. rewrite E. cbn [bind fst snd]. split; [exact E2|]. split; [exact W2|]. split; [exact K2|].
    rewrite D2, D1, <- app_assoc. reflexivity.
Qed.
Lemma relay_init_w m cap : handover_ok m -> 0 < cap -> winv (mdata m) [] (relay_init m cap).
Proof.
  intros H C. destruct (relay_init_inv m cap H C) as (D0 & PC0). split; [exact D0|].
  destruct (r_pc (relay_init m cap)) as [|b|b|[b|b|]]; try exact Logic.I.
  - destruct PC0 as (_ & _ & _ & F & _). exact F.
  - destruct PC0 as ((_ & _ & L) & _). exact L.
  - destruct PC0 as (E & L & _). split; assumption.
Qed.

(** ** C145 for the relay. Direction [b] ends in a TLS connection. Whatever the network and the
    event loop do, whichever callbacks are installed and however often a write has to wait: a
    write that waited is repeated the way TLS demands; what the peer can decrypt is the
    beginning of what was received (with what was there at hand-over), every byte once and in
    order; and all of it when the session ends because the source has ended. *)
Theorem C145_relay (b : bool) (m : meta) (cap : Z) (l : list tin) :
  handover_ok m -> 0 < cap -> t_valid b (relay_init m cap) tlsw0 l ->
  exists r t, trun b (relay_init m cap) tlsw0 l = Ok (r, t) /\ w_bad t = false /\
    prefix (w_plain t) ((if b then mdata m else []) ++ got b (relay_init m cap) tlsw0 l) /\
    (r_pc r = PDead (DClosed b) -> w_plain t = (if b then mdata m else []) ++ got b (relay_init m cap) tlsw0 l).
Proof.
  intros H C V. pose proof (relay_init_w m cap H C) as W.
  assert (Z0 : d_in (get (relay_init m cap) b) = [] /\ d_out (get (relay_init m cap) b) = []).
  { unfold relay_init, recv_loop, after_recv. destruct (_ <? _); [|destruct (_ <? _)]; destruct b; split; reflexivity. }
  destruct Z0 as (Z1 & Z2).
  assert (K : waiting_ok b (relay_init m cap) tlsw0) by (split; [reflexivity|]; cbn; symmetry; exact Z2).
  destruct (trun_ok _ _ b l _ _ W K V) as (r & t & E & (D & PC) & (WB & WW) & DI). rewrite Z1 in DI. cbn [app] in DI.
  exists r, t. split; [exact E|]. split; [exact WB|]. destruct (D b) as (WF & _ & EQ). rewrite DI in EQ. rewrite EQ.
  destruct (w_wait t) as [(p, k)|].
  - destruct WW as (_ & Kk & L & ->). split.
    + exists (zdrop k (mdata (d_buf (get r b)))). rewrite <- app_assoc, ztake_zdrop. reflexivity.
    + intros X. rewrite X in PC. lia.
  - rewrite WW. split; [exists (mdata (d_buf (get r b))); reflexivity|].
    intros X. rewrite X in PC. rewrite (mdata_nil _ WF) by tauto. rewrite app_nil_r. reflexivity.
Qed.
Print Assumptions C145_relay.

(** ** A chain of buffers *)
Lemma first_left_spec c : Forall meta_wf c -> forall n, match first_left n c with
  | None => pending c = []
  | Some (i, m) => meta_wf m /\ 0 < meta_getlen m /\ exists rest, pending c = mdata m ++ rest /\
      forall k, 0 <= k <= meta_getlen m -> Forall meta_wf (use c k) /\ pending (use c k) = zdrop k (mdata m) ++ rest
  end.
Proof.
  induction c as [|x c IH]; intros W n; [reflexivity|].
  pose proof (Forall_inv W) as Wx. pose proof (Forall_inv_tail W) as Wc. cbn [first_left use].
  pose proof (mdata_len x Wx) as L. unfold pending in *. cbn [map List.concat].
  destruct (Z.eqb_spec (meta_getlen x) 0) as [E|E].
  - rewrite (mdata_nil x Wx E). cbn [app]. specialize (IH Wc (n + 1)).
    destruct (first_left (n + 1) c) as [(i, m)|]; [|exact IH]. destruct IH as (Wm & Lm & rest & P & U).
    split; [exact Wm|]. split; [exact Lm|]. exists rest. split; [exact P|]. intros k K.
    destruct (U k K) as (U1 & U2). split; [constructor; assumption|]. cbn [map List.concat]. rewrite (mdata_nil x Wx E). exact U2.
  - pose proof (zlen_nonneg (mdata x)). split; [exact Wx|]. split; [lia|].
    exists (List.concat (map mdata c)). split; [reflexivity|]. intros k K.
    destruct (meta_consume_ok x k Wx K) as (W1 & M1). split; [constructor; assumption|]. cbn [map List.concat]. rewrite M1. reflexivity.
Qed.

(** how much of the chain is encrypted though it is not reported as sent *)
Definition ahead (t : tlsw) : Z := match w_wait t with Some (_, k) => k | None => 0 end.
Definition chain_ok (c : list meta) (t : tlsw) : Prop :=
  Forall meta_wf c /\ w_bad t = false /\
  match w_wait t with
  | None => True
  | Some (p, k) => exists n m, first_left 0 c = Some (n, m) /\ p = (n, mpos m) /\ 0 <= k <= zlen (mdata m)
  end.

Lemma tls_chain_ok : forall ws c t rc c' t' ws', chain_ok c t -> tls_chain c t ws = (rc, c', t', ws') ->
  chain_ok c' t' /\ w_plain t' ++ zdrop (ahead t') (pending c') = w_plain t ++ zdrop (ahead t) (pending c) /\
  (rc = RAll <-> pending c' = []).
Proof.
  induction ws as [|w ws IH]; intros c t rc c' t' ws' KK E; pose proof KK as (W & B & K); pose proof (first_left_spec c W 0) as F;
    cbn [tls_chain] in E; destruct (first_left 0 c) as [(n, m)|] eqn:FL.
  - injection E as <- <- <- <-. split; [exact KK|]. split; [reflexivity|].
    split; [discriminate|]. intros P. destruct F as (Wm & L & rest & P' & _). rewrite P in P'.
    symmetry in P'. apply app_eq_nil in P' as (P' & _). pose proof (mdata_len m Wm) as X. rewrite P' in X. change (zlen (@nil Z)) with 0 in X. lia.
  - injection E as <- <- <- <-. split; [exact KK|]. split; [reflexivity|]. tauto.
  - destruct F as (Wm & L & rest & P & U). pose proof (mdata_len m Wm) as ML.
    assert (T : 0 <= ahead t <= zlen (mdata m) /\
      tls_write t (n, mpos m) (mdata m) w =
      match w with
      | WAll => (TxSent (zlen (mdata m)), Tw None (w_plain t ++ zdrop (ahead t) (mdata m)) (w_bad t))
      | WWait j => let j := Z.max 0 (Z.min j (zlen (mdata m) - ahead t)) in
                 (TxAgain, Tw (Some ((n, mpos m), ahead t + j)) (w_plain t ++ ztake j (zdrop (ahead t) (mdata m))) (w_bad t))
      | WErr => (TxErr, t)
      end).
    { unfold tls_write, ahead. destruct (w_wait t) as [(p, k)|] eqn:Ew; [|split; [lia|reflexivity]].
      destruct K as (n' & m' & K1 & -> & K2). injection K1 as <- <-. split; [exact K2|].
      unfold place_eqb. cbn [fst snd]. rewrite !Z.eqb_refl. destruct (Z.leb_spec k (zlen (mdata m))); [reflexivity|lia]. }
    destruct T as (A & T). rewrite T in E. set (a := ahead t) in *.
    assert (NP : pending c <> []).
    { rewrite P. intros X. apply app_eq_nil in X as (X & _). rewrite X in ML. change (zlen (@nil Z)) with 0 in ML. lia. }
    destruct w as [|j|]; cbn [fst snd] in E.
    + destruct (U (zlen (mdata m)) ltac:(lia)) as (U1 & U2). rewrite zdrop_all in U2 by lia. cbn [app] in U2.
      assert (K1 : chain_ok (use c (zlen (mdata m))) (Tw None (w_plain t ++ zdrop a (mdata m)) (w_bad t))) by (split; [exact U1|split; [exact B|exact Logic.I]]).
      destruct (IH _ _ _ _ _ _ K1 E) as (C' & Q & R). split; [exact C'|]. split; [|exact R].
      rewrite Q. unfold ahead at 1. cbn [w_plain w_wait]. rewrite (zdrop_le0 0 (pending _)) by lia. rewrite U2, P, zdrop_app_l, <- app_assoc by lia. reflexivity.
    + injection E as <- <- <- <-. split.
      { split; [exact W|]. split; [exact B|]. cbn [w_wait]. exists n, m. split; [exact FL|]. split; [reflexivity|]. lia. }
      split; [|split; [discriminate|contradiction]]. unfold ahead at 1. cbn [w_plain w_wait].
      set (jj := Z.max 0 (Z.min j (zlen (mdata m) - a))). rewrite P, <- app_assoc. f_equal.
      rewrite (zdrop_app_l (a + jj)), (zdrop_app_l a), app_assoc by lia. f_equal.
      rewrite <- (ztake_zdrop jj (zdrop a (mdata m))) at 2. f_equal. rewrite zdrop_zdrop by lia. f_equal. lia.
    + injection E as <- <- <- <-. split; [exact KK|].
      split; [reflexivity|]. split; [discriminate|contradiction].
  - injection E as <- <- <- <-. split; [exact KK|]. split; [reflexivity|]. tauto.
Qed.
Lemma tls_all_ok : forall fuel c t ws rc c' t' ws', chain_ok c t -> tls_all fuel c t ws = (rc, c', t', ws') ->
  chain_ok c' t' /\ w_plain t' ++ zdrop (ahead t') (pending c') = w_plain t ++ zdrop (ahead t) (pending c) /\
  (rc = RAll -> pending c' = []).
Proof.
  induction fuel as [|f IH]; intros c t ws rc c' t' ws' K E; cbn [tls_all] in E.
  - injection E as <- <- <- <-. split; [exact K|]. split; [reflexivity|]. discriminate.
  - destruct (tls_chain c t ws) as (((rc1, c1), t1), ws1) eqn:S. destruct (tls_chain_ok _ _ _ _ _ _ _ K S) as (K1 & Q1 & R1).
    destruct rc1; try (injection E as <- <- <- <-; split; [exact K1|split; [exact Q1|apply R1]]).
    destruct (IH _ _ _ _ _ _ _ K1 E) as (K2 & Q2 & R2). split; [exact K2|]. split; [congruence|exact R2].
Qed.

(** C145 for messages: a chain that is sent over TLS, called again as often as it has to wait, is
    repeated the way TLS demands; the peer decrypts the beginning of the message and, if the
    chain is reported as sent, the message. *)
Theorem C145_chain (fuel : nat) (c : list meta) (ws : list wres) rc c' t' ws' : Forall meta_wf c ->
  tls_all fuel c tlsw0 ws = (rc, c', t', ws') ->
  w_bad t' = false /\ prefix (w_plain t') (pending c) /\ (rc = RAll -> w_plain t' = pending c).
Proof.
  intros W E. assert (K : chain_ok c tlsw0) by (split; [exact W|split; [reflexivity|exact Logic.I]]).
  destruct (tls_all_ok fuel c tlsw0 ws rc c' t' ws' K E) as ((_ & B & _) & Q & R).
  change (w_plain tlsw0) with (@nil Z) in Q. change (ahead tlsw0) with 0 in Q. rewrite (zdrop_le0 0 (pending c)) in Q by lia. cbn [app] in Q. split; [exact B|].
  split; [exists (zdrop (ahead t') (pending c')); symmetry; exact Q|].
  intros X. rewrite (R X) in Q. unfold zdrop in Q. rewrite skipn_nil, app_nil_r in Q. exact Q.
Qed.
Print Assumptions C145_chain.

(** three buffers, one of them empty; the first two writes of the first buffer wait *)
Example ex_C145_chain : Forall meta_wf ex_chain /\
  exists c' t', tls_all 4 ex_chain tlsw0 [WWait 1; WWait 0; WAll; WWait 3; WAll] = (RAll, c', t', []) /\ w_plain t' = str "abcdef".
Proof.
  split; [repeat (apply Forall_cons; [vm_compute; repeat split; discriminate|]); apply Forall_nil|].
  eexists _, _. split; vm_compute; reflexivity.
Qed.
(** a write of 5 bytes waits with 2 of them encrypted; another write puts the receive callback
    back, 2 more bytes arrive, the write is repeated with 7 bytes *)
Definition tls_wait : list tin :=
  [ TIn (AIn (RRecv (RxData [1; 2]))); TIn (AIn (RRecv RxAgain)); TWrite (WWait 2); TIn (ASet true true true);
    TIn (AIn (RReadable true)); TIn (AIn (RRecv (RxData [3; 4]))); TIn (AIn (RRecv RxAgain)); TWrite (WWait 1); TIn (AIn (RWritable true));
    TWrite WAll; TIn (AIn (RRecv (RxData [5]))); TIn (AIn (RRecv RxErr)); TWrite WAll ].
Ltac valid := repeat (split; [vm_compute; repeat split; first [discriminate | reflexivity | (repeat constructor; discriminate)] |
  let r := fresh "r" in let t := fresh "t" in let E := fresh "E" in intros r t E; vm_compute in E; injection E as <- <-]); try exact Logic.I.
Example ex_C145_relay : t_valid true (relay_init demo_meta 12288) tlsw0 tls_wait /\
  exists r t, trun true (relay_init demo_meta 12288) tlsw0 tls_wait = Ok (r, t) /\ r_pc r = PDead (DClosed true) /\
              w_plain t = [71; 69; 84; 1; 2; 3; 4; 5].
Proof.
  split; [|eexists _, _; split; [vm_compute; reflexivity|split; reflexivity]].
  unfold tls_wait. valid.
Qed.
