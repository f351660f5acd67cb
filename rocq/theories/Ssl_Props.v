(** * TLS layer (src/common/ssl.c): properties C66 and C67 *)
From Verif Require Import Base Ssl_Model.

(** ** C66: what the application had set is there again after a wait *)

(** nothing is cached, the connection is registered, the callbacks are the application's *)
Definition own (k : cbk) : Prop := match k with Nul | App _ => True | _ => False end.
Definition fresh (c : con) : Prop :=
  typ c = INo /\ cbr c = Nul /\ cbw c = Nul /\ opt c <> INo /\ own (rcb c) /\ own (wcb c).
(** same callbacks, same interest *)
Definition same (c c' : con) : Prop := rcb c' = rcb c /\ wcb c' = wcb c /\ opt c' = opt c.
Definition want (r : result) : Prop := r = WantR \/ r = WantW.
(** a call repeated until it is done *)
Definition waits (op : result -> con -> con) (c : con) (ws : list result) : con :=
  fold_left (fun c r => op r c) ws c.
Lemma waits_snoc op c ws r : waits op c (ws ++ [r]) = op r (waits op c ws).
Proof. unfold waits. rewrite fold_left_app. reflexivity. Qed.

Lemma snoc_ind (A : Type) (P : list A -> Prop) : P [] -> (forall l x, P l -> P (l ++ [x])) -> forall l, P l.
Proof. intros H0 H1 l. rewrite <- (rev_involutive l). induction (rev l) as [|x t IH]; simpl; auto. Qed.
Definition isR (r : result) : bool := match r with WantR => true | _ => false end.
Definition isW (r : result) : bool := match r with WantW => true | _ => false end.
Lemma existsb_isR ws : existsb isR ws = true <-> In WantR ws.
Proof.
  rewrite existsb_exists. split.
  - intros ([] & H & E); try discriminate. exact H.
  - intros H. exists WantR. auto.
Qed.
Lemma existsb_isW ws : existsb isW ws = true <-> In WantW ws.
Proof.
  rewrite existsb_exists. split.
  - intros ([] & H & E); try discriminate. exact H.
  - intros H. exists WantW. auto.
Qed.
Lemma existsb_snoc (f : result -> bool) ws r : existsb f (ws ++ [r]) = existsb f ws || f r.
Proof. rewrite existsb_app. simpl. rewrite orb_false_r. reflexivity. Qed.


(** the state while a call waits; [hr], [hw]: some wait was for reading / for writing;
    [kr], [kw]: what the operation puts in the place of the callbacks *)
Definition put_in (h : bool) (k : option cbk) (old : cbk) : cbk :=
  if h then match k with Some k => k | None => old end else old.
Definition kept (h : bool) (k : option cbk) (old now : cbk) : Prop :=
  match old with Nul => now = Nul \/ (h = true /\ k = Some now) | _ => now = old end.
Definition during (c : con) (hr hw : bool) (kr kw : option cbk) (c' : con) : Prop :=
  typ c' = opt c /\ rcb c' = put_in hr kr (rcb c) /\ wcb c' = put_in hw kw (wcb c) /\
  kept hr kr (rcb c) (cbr c') /\ kept hw kw (wcb c) (cbw c').

Lemma save_typ c : match typ c with INo => set_typ (opt c) c | _ => c end =
  set_typ (match typ c with INo => opt c | t => t end) c.
Proof. destruct c as [r w o [] cr cw]; reflexivity. Qed.
Lemma save_cbr c : match cbr c with Nul => match rcb c with Nul => c | k => set_cbr k c end | _ => c end =
  set_cbr (match cbr c with Nul => rcb c | k => k end) c.
Proof. destruct c as [r w o t cr cw]. destruct cr; try reflexivity. destruct r; reflexivity. Qed.
Lemma save_cbw c : match cbw c with Nul => match wcb c with Nul => c | k => set_cbw k c end | _ => c end =
  set_cbw (match cbw c with Nul => wcb c | k => k end) c.
Proof. destruct c as [r w o t cr cw]. destruct cw; try reflexivity. destruct w; reflexivity. Qed.
Lemma save_parts c : opt c <> INo \/ typ c <> INo ->
  rcb (save c) = rcb c /\ wcb (save c) = wcb c /\
  typ (save c) = match typ c with INo => opt c | t => t end /\
  cbr (save c) = match cbr c with Nul => rcb c | k => k end /\
  cbw (save c) = match cbw c with Nul => wcb c | k => k end.
Proof.
  intros _. unfold save. rewrite save_typ, save_cbr, save_cbw. destruct c. cbn. auto.
Qed.
Lemma kept_saved h k old now : kept h k old now ->
  kept h k old (match now with Nul => put_in h k old | x => x end).
Proof.
  unfold kept, put_in. destruct old; intros K; try (subst; reflexivity).
  destruct K as [->|[E ->]]; [|rewrite E; destruct now; auto].
  destruct h; auto. destruct k as [k|]; auto.
Qed.
Lemma save_during c hr hw kr kw c' : opt c <> INo -> during c hr hw kr kw c' -> during c hr hw kr kw (save c').
Proof.
  intros O (D1 & D2 & D3 & D4 & D5).
  destruct (save_parts c') as (S1 & S2 & S3 & S4 & S5); [right; rewrite D1; exact O|].
  unfold during. rewrite S1, S2, S3, S4, S5, D1, D2, D3. repeat split; auto.
  - destruct (opt c); congruence.
  - pose proof (kept_saved hr kr (rcb c) (cbr c') D4) as K. destruct (cbr c'); exact K.
  - pose proof (kept_saved hw kw (wcb c) (cbw c') D5) as K. destruct (cbw c'); exact K.
Qed.
Lemma save_fresh c kr kw : fresh c -> during c false false kr kw (save c).
Proof.
  intros (T & B1 & B2 & O & R & W).
  destruct (save_parts c) as (S1 & S2 & S3 & S4 & S5); [left; exact O|].
  unfold during, put_in, kept. rewrite S1, S2, S3, S4, S5, T, B1, B2.
  repeat split; auto; [destruct (rcb c)|destruct (wcb c)]; auto.
Qed.
Lemma kept_more h h' k old now : kept h k old now -> kept (h || h') k old now.
Proof. unfold kept. destruct old; auto. intros [->|[-> ->]]; auto. Qed.

(** what the three operations have in common: they save, then change the callback of the
    direction they wait for, or leave it alone *)
Definition waiter (op : result -> con -> con) (kr kw : option cbk) : Prop :=
  (forall c, op WantR c = set_opt IR (set_rcb (put_in true kr (rcb (save c))) (save c))) /\
  (forall c, op WantW c = set_opt IW (set_wcb (put_in true kw (wcb (save c))) (save c))).
Lemma set_rcb_same c : set_rcb (rcb c) c = c.
Proof. destruct c; reflexivity. Qed.
Lemma set_wcb_same c : set_wcb (wcb c) c = c.
Proof. destruct c; reflexivity. Qed.
Lemma handshake_waiter : waiter handshake (Some KHandshake) (Some KHandshake).
Proof. split; reflexivity. Qed.
Lemma read_waiter : waiter read None (Some KRead).
Proof. split; intros c; cbn [put_in]; rewrite ?set_rcb_same; reflexivity. Qed.
Lemma write_waiter : waiter write (Some KWrite) None.
Proof. split; intros c; cbn [put_in]; rewrite ?set_wcb_same; reflexivity. Qed.

Lemma put_in_again k old h : put_in true k (put_in h k old) = put_in (h || true) k old.
Proof. destruct h, k; reflexivity. Qed.
Lemma saved_wait op kr kw c c' hr hw r : waiter op kr kw -> want r ->
  during c hr hw kr kw (save c') -> during c (hr || isR r) (hw || isW r) kr kw (op r c').
Proof.
  intros [WR WW] [-> | ->] (D1 & D2 & D3 & D4 & D5); cbn [isR isW]; rewrite ?orb_false_r.
  - rewrite WR. unfold during. cbn. rewrite D1, D3. repeat split; auto.
    + rewrite D2. apply put_in_again.
    + apply kept_more. exact D4.
  - rewrite WW. unfold during. cbn. rewrite D1, D2. repeat split; auto.
    + rewrite D3. apply put_in_again.
    + apply kept_more. exact D5.
Qed.
Lemma waits_during op kr kw c ws : waiter op kr kw -> fresh c -> Forall want ws -> ws <> [] ->
  during c (existsb isR ws) (existsb isW ws) kr kw (waits op c ws).
Proof.
  intros Wt F. induction ws as [|ws r IH] using snoc_ind; intros A N; [congruence|].
  apply Forall_app in A as [A Ar]. inversion Ar; subst. rewrite waits_snoc, !existsb_snoc.
  apply saved_wait; auto. destruct ws as [|x ws].
  - apply save_fresh. exact F.
  - apply save_during; [apply F|]. apply IH; auto. discriminate.
Qed.

(** A handshake that had to wait, possibly many times, leaves callbacks and interest as
    the application had set them if and only if there was a callback for every direction
    it waited for. *)
Theorem C66_handshake_partial c ws : fresh c -> Forall want ws -> ws <> [] ->
  (same c (handshake_end (waits handshake c ws)) <->
   (In WantR ws -> rcb c <> Nul) /\ (In WantW ws -> wcb c <> Nul)).
Proof.
  intros F A N. pose proof (waits_during _ _ _ c ws handshake_waiter F A N) as (D1 & D2 & D3 & D4 & D5).
  rewrite <- existsb_isR, <- existsb_isW. destruct F as (_ & _ & _ & O & R & W).
  destruct (waits handshake c ws) as [r w o t cr cw]. cbn in *. subst t r w.
  unfold same, handshake_end. cbn.
  destruct (rcb c) as [|a| | |] eqn:Er; try contradiction; cbn in D4;
  destruct (wcb c) as [|b| | |] eqn:Ew; try contradiction; cbn in D5;
  (destruct (opt c) eqn:Eo; [congruence|..]); unfold put_in;
  repeat match goal with
  | H : _ \/ _ |- _ => destruct H
  | H : _ /\ _ |- _ => destruct H
  | H : Some _ = Some _ |- _ => inversion H; clear H
  end; subst; cbn;
  destruct (existsb isR ws), (existsb isW ws); cbn;
  intuition (try congruence; try discriminate).
Qed.
(** The same for a read (only waiting for writing needs the other callback) … *)
Theorem C66_read_partial c ws : fresh c -> Forall want ws -> ws <> [] ->
  (same c (read Done (waits read c ws)) <-> (In WantW ws -> wcb c <> Nul)).
Proof.
  intros F A N. pose proof (waits_during _ _ _ c ws read_waiter F A N) as (D1 & D2 & D3 & D4 & D5).
  rewrite <- existsb_isW. destruct F as (_ & _ & _ & O & R & W).
  destruct (waits read c ws) as [r w o t cr cw]. cbn in *. subst t r w.
  unfold same, restore_typ. cbn.
  destruct (wcb c) as [|b| | |] eqn:Ew; try contradiction; cbn in D5;
  (destruct (opt c) eqn:Eo; [congruence|..]); unfold put_in;
  repeat match goal with
  | H : _ \/ _ |- _ => destruct H
  | H : existsb isW ws = true /\ _ |- _ => destruct H
  | H : Some _ = Some _ |- _ => inversion H; clear H
  end; subst; cbn;
  destruct (existsb isR ws), (existsb isW ws); cbn;
  intuition (try congruence; try discriminate).
Qed.
(** … and for a write. *)
Theorem C66_write_partial c ws : fresh c -> Forall want ws -> ws <> [] ->
  (same c (write Done (waits write c ws)) <-> (In WantR ws -> rcb c <> Nul)).
Proof.
  intros F A N. pose proof (waits_during _ _ _ c ws write_waiter F A N) as (D1 & D2 & D3 & D4 & D5).
  rewrite <- existsb_isR. destruct F as (_ & _ & _ & O & R & W).
  destruct (waits write c ws) as [r w o t cr cw]. cbn in *. subst t r w.
  unfold same, restore_typ. cbn.
  destruct (rcb c) as [|b| | |] eqn:Er; try contradiction; cbn in D4;
  (destruct (opt c) eqn:Eo; [congruence|..]); unfold put_in;
  repeat match goal with
  | H : _ \/ _ |- _ => destruct H
  | H : existsb isR ws = true /\ _ |- _ => destruct H
  | H : Some _ = Some _ |- _ => inversion H; clear H
  end; subst; cbn;
  destruct (existsb isR ws), (existsb isW ws); cbn;
  intuition (try congruence; try discriminate).
Qed.
Print Assumptions C66_handshake_partial.
Print Assumptions C66_read_partial.
Print Assumptions C66_write_partial.
Example C66_example :
  let c := Con (App 1) (App 2) IRW INo Nul Nul in
  fresh c /\ Forall want [WantR; WantW; WantR] /\
  waits handshake c [WantR; WantW; WantR] = Con KHandshake KHandshake IR IRW (App 1) (App 2) /\
  handshake_end (waits handshake c [WantR; WantW; WantR]) = Con (App 1) (App 2) IRW IRW Nul Nul.
Proof. cbn. unfold fresh, want. cbn. repeat split; auto; try discriminate; repeat constructor; auto. Qed.

(** Without a callback for the direction waited for: the server has no write callback
    during the handshake, and the handshake's own callback stays as write callback, which
    is also the one called next: it calls itself for ever. *)
Theorem C66_refuted_handshake n o : o <> INo ->
  let c := Con (App n) Nul o INo Nul Nul in
  fresh c /\ handshake_next (handshake_end (waits handshake c [WantW])) = KHandshake.
Proof.
  intros O. cbn. split; [unfold fresh; cbn; auto 10|]. destruct o; [congruence|reflexivity..].
Qed.
(** What is cached is not forgotten: a read that waited has cached the read callback; the
    application installs another one; the next successful write brings the old one back. *)
Theorem C66_refuted_stale_callback a b w o ws : fresh (Con (App a) w o INo Nul Nul) -> Forall want ws -> ws <> [] ->
  let c1 := read Done (waits read (Con (App a) w o INo Nul Nul) ws) in
  let c2 := write Done (set_rcb (App b) c1) in
  rcb (set_rcb (App b) c1) = App b /\ rcb c2 = App a.
Proof.
  intros F A N. pose proof (waits_during _ _ _ _ ws read_waiter F A N) as (D1 & D2 & D3 & D4 & D5).
  cbn zeta. split; [reflexivity|].
  destruct (waits read (Con (App a) w o INo Nul Nul) ws) as [r' w' o' t' cr' cw']. cbn in *. subst t' cr'.
  unfold restore_typ. destruct o, cw'; reflexivity.
Qed.
(** The interest cached by a handshake is not forgotten either: the next successful read
    brings it back, whatever the application has asked for since. *)
Theorem C66_refuted_stale_interest c ws o2 : fresh c -> Forall want ws -> ws <> [] ->
  let c1 := handshake_end (waits handshake c ws) in
  opt (set_opt o2 c1) = o2 /\ opt (read Done (set_opt o2 c1)) = opt c.
Proof.
  intros F A N. pose proof (waits_during _ _ _ c ws handshake_waiter F A N) as (D1 & _).
  cbn zeta. split; [reflexivity|].
  destruct F as (_ & _ & _ & O & _). destruct (waits handshake c ws) as [r w o t cr cw]. cbn in D1. subst t.
  unfold handshake_end, read, restore_typ. cbn.
  destruct (opt c); [congruence|..]; destruct cw, cr; reflexivity.
Qed.
Print Assumptions C66_refuted_handshake.
Print Assumptions C66_refuted_stale_callback.
Print Assumptions C66_refuted_stale_interest.
Example C66_refuted_stale_callback_example :
  let c := Con (App 1) Nul IR INo Nul Nul in
  fresh c /\ write Done (set_rcb (App 2) (read Done (waits read c [WantR]))) = Con (App 1) Nul IR INo Nul Nul.
Proof. cbn. unfold fresh. cbn. repeat split; auto; discriminate. Qed.
Example C66_refuted_stale_interest_example :
  let c := Con (App 1) Nul IR INo Nul Nul in
  fresh c /\ opt (read Done (set_opt IRW (handshake_end (waits handshake c [WantR; WantR])))) = IR.
Proof. cbn. unfold fresh. cbn. repeat split; auto; discriminate. Qed.

(** ** C67: calls into the TLS layer return *)
Definition codes (q : queue) : Prop := Forall (fun e => e <> 0) q.
Lemma clear_error_nil f : clear_error (S f) [] = Ok [].
Proof. reflexivity. Qed.
Lemma clear_error_stuck f q : codes q -> q <> [] -> clear_error f q = NoFuel.
Proof.
  intros C N. destruct q as [|e q]; [congruence|]. inversion C as [|x y H1 H2]; subst.
  induction f as [|f IH]; auto. cbn [clear_error peek]. destruct (Z.eqb_spec e 0) as [E|E]; [contradiction|auto].
Qed.
Lemma dump_error_all q : forall f, codes q -> (length q < f)%nat -> dump_error f q = Ok [].
Proof.
  induction q as [|e q IH]; intros f C L; (destruct f as [|f]; [inversion L|]); [reflexivity|].
  inversion C as [|x y H1 H2]; subst. cbn [dump_error peek tl]. destruct (Z.eqb_spec e 0) as [E|E]; [contradiction|].
  apply IH; auto. simpl in L. lia.
Qed.

(** The loop of [ssl_clear_error] ends exactly if there is nothing to clear: every read,
    write, handshake or shutdown of any connection returns if and only if the queue is
    empty. *)
Theorem C67_exact q : codes q ->
  (q = [] <-> exists fuel r es q' x, do_call fuel q (Io r es) = Ok (q', x)) /\
  (q = [] <-> exists fuel i r1 r2 es1 es2 q' x, do_call fuel q (Shutdown i r1 r2 es1 es2) = Ok (q', x)).
Proof.
  intros C. split; split.
  - intros ->. exists 1%nat, Done, [], [], 0. reflexivity.
  - intros (f & r & es & q' & x & E). destruct q as [|e q]; auto. exfalso. cbn [do_call] in E.
    rewrite clear_error_stuck in E by (auto; discriminate). discriminate.
  - intros ->. exists 1%nat, true, Done, Done, [], [], [], 0. reflexivity.
  - intros (f & i & r1 & r2 & es1 & es2 & q' & x & E). destruct q as [|e q]; auto. exfalso. cbn [do_call] in E.
    rewrite clear_error_stuck in E by (auto; discriminate). discriminate.
Qed.

(** the library leaves errors only with a failing result, and creating a connection does
    not fail *)
Definition tidy (c : call) : Prop :=
  match c with
  | Io Failed es => codes es
  | Io _ es => es = []
  | Shutdown _ r1 r2 es1 es2 =>
      codes es1 /\ codes es2 /\
      match r1, r2 with
      | Failed, Failed => True
      | Failed, _ => es1 = [] /\ es2 = []
      | _, _ => es1 = []
      end
  | Create _ es => es = []
  end.
Lemma tidy_call c : tidy c -> exists n x, forall fuel, (n < fuel)%nat -> do_call fuel [] c = Ok ([], x).
Proof.
  destruct c as [r es|i r1 r2 es1 es2|r es]; intros T.
  - destruct r; cbn in T.
    1-3: subst; exists 0%nat; eexists; intros [|f] L; [inversion L|]; reflexivity.
    exists (length es). eexists. intros f L. cbn [do_call].
    assert (E : clear_error f [] = Ok []) by (destruct f; [inversion L|reflexivity]).
    rewrite E. cbn [bind app]. rewrite dump_error_all by auto. reflexivity.
  - destruct T as (T1 & T2 & T3). exists (length (es1 ++ es2)).
    assert (E : forall f, (length (es1 ++ es2) < f)%nat -> clear_error f [] = Ok []).
    { intros f L. destruct f; [inversion L|reflexivity]. }
    destruct i.
    { eexists. intros f L. cbn [do_call]. rewrite E by auto. reflexivity. }
    destruct r1.
    1-3: cbn in T3; eexists; intros f L; cbn [do_call]; rewrite E by auto; subst; reflexivity.
    destruct r2.
    1-3: destruct T3; eexists; intros f L; cbn [do_call]; rewrite E by auto; subst; reflexivity.
    eexists. intros f L. cbn [do_call]. rewrite E by auto. cbn [bind app].
    rewrite dump_error_all by (auto; apply Forall_app; auto). reflexivity.
  - cbn in T. subst. exists 0%nat. eexists. intros f L. reflexivity.
Qed.
(** then every sequence of calls, on any number of connections, returns, and leaves the
    queue empty *)
Theorem C67_partial l : Forall tidy l ->
  exists n xs, forall fuel, (n < fuel)%nat -> calls fuel [] l = Ok ([], xs).
Proof.
  induction 1 as [|c l T F (n & xs & IH)].
  - exists 0%nat, []. reflexivity.
  - destruct (tidy_call c T) as (m & x & E). exists (max n m), (x :: xs). intros fuel L. cbn [calls].
    rewrite E by lia. cbn [bind fst snd]. rewrite IH by lia. reflexivity.
Qed.
(** The certificate file cannot be read (it is loaded again for every connection): the
    error stays in the queue, and the next call of any other connection never returns. *)
Theorem C67_refuted e es : codes (e :: es) ->
  forall fuel r es', calls fuel [] [Create Failed (e :: es); Io r es'] = NoFuel.
Proof.
  intros C f r es'. cbn [calls app do_call bind fst snd]. rewrite clear_error_stuck by (auto; discriminate). reflexivity.
Qed.
Print Assumptions C67_exact.
Print Assumptions C67_partial.
Print Assumptions C67_refuted.
Example C67_example :
  Forall tidy [Create Done []; Io WantR []; Io Done []; Io Failed [5; 6]; Shutdown false Failed Failed [7] [8]; Io Done []] /\
  calls 10 [] [Create Done []; Io WantR []; Io Done []; Io Failed [5; 6]; Shutdown false Failed Failed [7] [8]; Io Done []] =
    Ok ([], [0; -11; 0; -1; -1; 0]) /\ codes [33558530].
Proof.
  split; [|split; [reflexivity|repeat constructor; discriminate]].
  repeat constructor; try discriminate; unfold codes; repeat constructor; discriminate.
Qed.
