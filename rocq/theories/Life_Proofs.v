(** * Sessions: the reachable states *)
From Verif Require Import Base Reach Life_Model.

Scheme Equality for cb.
Scheme Equality for life.
Scheme Equality for fdst.
Scheme Equality for intr.
Scheme Equality for tlst.
Scheme Equality for who.
Scheme Equality for con.
Scheme Equality for pcs.
Scheme Equality for st.
Lemma st_eqb_ok a b : st_beq a b = true -> a = b.
Proof. apply internal_st_dec_bl. Qed.

(** search keys; nothing depends on them but the time it takes *)
Definition key_cb (c : cb) (k : list bool) : list bool :=
  match c with
  | NoCb => false :: false :: false :: false :: false :: false :: k
  | SAccept => true :: false :: false :: false :: false :: false :: k
  | SStart => false :: true :: false :: false :: false :: false :: k
  | SAuth => true :: true :: false :: false :: false :: false :: k
  | Proc => false :: false :: true :: false :: false :: false :: k
  | TRecv => true :: false :: true :: false :: false :: false :: k
  | TSend => false :: true :: true :: false :: false :: false :: k
  | RRecv => true :: true :: true :: false :: false :: false :: k
  | RSend => false :: false :: false :: true :: false :: false :: k
  | P1Req => true :: false :: false :: true :: false :: false :: k
  | P1Rsp => false :: true :: false :: true :: false :: false :: k
  | P2Req => true :: true :: false :: true :: false :: false :: k
  | CupAddr => false :: false :: true :: true :: false :: false :: k
  | DnsAlloc => true :: false :: true :: true :: false :: false :: k
  | TryRead => false :: true :: true :: true :: false :: false :: k
  | Connect => true :: true :: true :: true :: false :: false :: k
  | ConnChk => false :: false :: false :: false :: true :: false :: k
  | P2Rsp => true :: false :: false :: false :: true :: false :: k
  | CAccept => false :: true :: false :: false :: true :: false :: k
  | CRecv => true :: true :: false :: false :: true :: false :: k
  | CConnChk => false :: false :: true :: false :: true :: false :: k
  | CConnSsl => true :: false :: true :: false :: true :: false :: k
  | CAuthSend => false :: true :: true :: false :: true :: false :: k
  | QSend => true :: true :: true :: false :: true :: false :: k
  | QRecv => false :: false :: false :: true :: true :: false :: k
  | Hs => true :: false :: false :: true :: true :: false :: k
  | Rd => false :: true :: false :: true :: true :: false :: k
  | Wr => true :: true :: false :: true :: true :: false :: k
  | Shut => false :: false :: true :: true :: true :: false :: k
  | HNetExp => true :: false :: true :: true :: true :: false :: k
  | HSesExp => false :: true :: true :: true :: true :: false :: k
  | HSslCexp => true :: true :: true :: true :: true :: false :: k
  | HFree => false :: false :: false :: false :: false :: true :: k
  | HDns => true :: false :: false :: false :: false :: true :: k
  end.
Definition key_life (l : life) (k : list bool) :=
  match l with Absent => false :: false :: k | Alive => true :: false :: k | Freed => false :: true :: k end.
Definition key_intr (l : intr) (k : list bool) :=
  match l with
  | INo => false :: false :: k | IR => true :: false :: k | IW => false :: true :: k | IRW => true :: true :: k
  end.
Definition key (s : st) : list bool :=
  let d := down s in let u := up s in
  let k := key_cb (tm d) (key_cb (tm u) (key_life (lif (q s)) (key_cb (cbr u) (key_cb (cbr d) [])))) in
  let k := key_intr (opt d) (key_intr (opt u) (key_intr (typ d) (key_intr (typ u) k))) in
  let k := key_cb (cbw d) (dbuf s :: ubuf s :: edown s :: eup s :: key_cb (cbw u) k) in
  let k := key_cb (wcb u) (key_cb (wcb d) (key_cb (rcb u) (key_cb (rcb d) k))) in
  match pc s with Idle => key_cb NoCb k | Run w c => key_cb c k end.

(** the labels that matter in a state: the result [Err] of SSL_shutdown has the effect of
    [All] *)
Definition labels_idle : list lab := map EvR [Down; Up; Q] ++ map EvW [Down; Up; Q] ++ map Tmo [Down; Up; Q].
Definition labels_run : list lab :=
  flat_map (fun b => flat_map (fun f => map (Do b f) [All; WantR; WantW]) [All; WantR; WantW; Err]) [true; false].
Definition labels (s : st) : list lab := match pc s with Idle => labels_idle | _ => labels_run end.

(** guards that do not look at the result of SSL_shutdown *)
Definition blind (allowed : st -> lab -> bool) : Prop :=
  forall s b f d d', allowed s (Do b f d) = allowed s (Do b f d').
Lemma body_err s w k b f : body s w k b f Err = body s w k b f All.
Proof. destruct k, f, b; reflexivity. Qed.
Lemma labels_enough allowed s l : blind allowed -> allowed s l = true ->
  step s l = Ok s \/ exists l', In l' (labels s) /\ allowed s l' = true /\ step s l' = step s l.
Proof.
  intros B A. unfold labels, step. destruct (pc s) as [|w k].
  - destruct l as [w|w|w|b f d]; [right..|left; reflexivity].
    + exists (EvR w). split; [destruct w; vm_compute; tauto|auto].
    + exists (EvW w). split; [destruct w; vm_compute; tauto|auto].
    + exists (Tmo w). split; [destruct w; vm_compute; tauto|auto].
  - destruct l as [w'|w'|w'|b f d]; [left; reflexivity..|right].
    destruct d.
    4:{ exists (Do b f All). split; [destruct b, f; vm_compute; tauto|]. split; [rewrite (B s b f All Err); exact A|].
        symmetry. apply body_err. }
    all: eexists; split; [|split; [exact A|reflexivity]]; destruct b, f; vm_compute; tauto.
Qed.

(** a trace all of whose labels are allowed where they are taken *)
Fixpoint along (allowed : st -> lab -> bool) (s : st) (l : list lab) : bool :=
  match l with
  | [] => true
  | x :: t => allowed s x && match step s x with Ok s' => along allowed s' t | _ => true end
  end.

Lemma checked_run allowed ok edge fuel s0 : blind allowed ->
  checked st_beq key labels allowed step ok edge fuel s0 = true ->
  forall l, along allowed s0 l = true -> exists s, run s0 l = Ok s /\ ok s = true.
Proof.
  intros B C l A.
  destruct (checked_ok st_beq st_eqb_ok key labels allowed step ok edge fuel s0 C) as (X & X0 & G). clear C.
  revert s0 X0 A. induction l as [|x l IH]; simpl; intros s0 X0 A.
  - exists s0. split; auto. apply (G s0 X0).
  - apply andb_true_iff in A as [A1 A2].
    destruct (labels_enough allowed s0 x B A1) as [E|(x' & I1 & I2 & I3)].
    + rewrite E in *. cbn [bind]. auto.
    + destruct (G s0 X0) as [_ G2]. destruct (G2 x' I1 I2) as (s' & E & _ & X').
      rewrite I3 in E. rewrite E in *. cbn [bind]. auto.
Qed.

(** the same for a property that is inductive as long as [g] holds *)
Definition keeps (g : st -> lab -> bool) (P : st -> bool) (s : st) (l : lab) (s' : st) : bool :=
  if g s l then if P s then P s' else true else true.
Lemma checked_keeps allowed g P ok fuel s0 : blind allowed -> blind g ->
  checked st_beq key labels allowed step ok (keeps g P) fuel s0 = true -> P s0 = true ->
  forall l, along (fun s x => allowed s x && g s x) s0 l = true -> exists s, run s0 l = Ok s /\ P s = true.
Proof.
  intros B Bg C P0 l A.
  destruct (checked_ok st_beq st_eqb_ok key labels allowed step ok (keeps g P) fuel s0 C) as (X & X0 & G). clear C.
  revert s0 X0 P0 A. induction l as [|x l IH]; simpl; intros s0 X0 P0 A.
  - exists s0. split; auto.
  - apply andb_true_iff in A as [A1 A2].
    destruct (labels_enough (fun s x => allowed s x && g s x) s0 x) as [E|(x' & I1 & I2 & I3)]; auto.
    + intros s b f d d'. rewrite (B s b f d d'), (Bg s b f d d'). reflexivity.
    + rewrite E in *. cbn [bind]. auto.
    + apply andb_true_iff in I2 as [I2 Ig].
      destruct (G s0 X0) as [_ G2]. destruct (G2 x' I1 I2) as (s' & E & K & X').
      rewrite I3 in E. rewrite E in *. cbn [bind]. apply IH; auto.
      unfold keeps in K. rewrite Ig, P0 in K. exact K.
Qed.
