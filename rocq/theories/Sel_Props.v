(** * C108: the select() back end *)
From Verif Require Import Base Ev_Model Ev_Proofs Ev_Props Sel_Model.
From Coq Require FinFun Permutation.
Local Arguments Z.add : simpl never.
Local Arguments Z.sub : simpl never.
Local Arguments Z.mul : simpl never.
Local Arguments zlen : simpl never.

(** ** The specification: everything is read off the history *)

(** the interest last asked for, the descriptor, and whether the connection exists *)
Definition sasked (l : list sop) (c : Z) : Z :=
  fold_left (fun a o => match o with
    | SOpt c' w => if c' =? c then w else a
    | SNew c' | SClose c' => if c' =? c then 0 else a
    | _ => a end) l 0.
Definition sdesc (l : list sop) (c : Z) : Z :=
  fold_left (fun a o => match o with
    | SFd c' d => if c' =? c then d else a
    | SNew c' | SClose c' => if c' =? c then 0 else a
    | _ => a end) l 0.
Definition salive (l : list sop) (c : Z) : bool :=
  fold_left (fun a o => match o with
    | SNew c' => if c' =? c then true else a
    | SClose c' => if c' =? c then false else a
    | _ => a end) l false.
(** the descriptors open after [l]: [sopen l d] *)
Definition sopen (l : list sop) (d : Z) : bool :=
  fst (fold_left (fun (a : bool * list sop) o => (match o with
    | SFd _ d' => if d' =? d then true else fst a
    | SFile d' on => if d' =? d then on else fst a
    | SClose c => if (0 <? d) && (sdesc (snd a) c =? d) then false else fst a
    | _ => fst a end, snd a ++ [o])) l (false, [])).

(** interest in reading ([false]) or writing ([true]) *)
Definition wants (o : Z) (k : bool) : bool :=
  if k then (o =? EV_W) || (o =? EV_R + EV_W) else (o =? EV_R) || (o =? EV_R + EV_W).
Definition told (b : list report) (c : Z) (k : bool) : Prop :=
  exists r w, In (c, (r, w)) b /\ (if k then w else r) = true.
Definition is_ready (rdy : Z -> bool * bool) (d : Z) (k : bool) : bool := if k then snd (rdy d) else fst (rdy d).

(** a connection was closed on descriptor [d] while it was asking for [k] *)
Definition closed_asking (l : list sop) (d : Z) (k : bool) : Prop :=
  exists l1 c l2, l = l1 ++ SClose c :: l2 /\ sdesc l1 c = d /\ wants (sasked l1 c) k = true.

(** The rules: a connection is new, gets one descriptor that is not open (1..1023: the
    kernel never gives 0 here, and the sets have no room for more), asks only then, and
    for one of the four interests; other parts of the program leave the descriptors of
    connections alone. *)
Definition sok (l : list sop) (o : sop) : Prop :=
  match o with
  | SNew c => salive l c = false
  | SFd c d => salive l c = true /\ sdesc l c = 0 /\ 0 < d < SETSIZE /\ sopen l d = false
  | SOpt c w => salive l c = true /\ sdesc l c <> 0 /\ (w = 0 \/ w = EV_R \/ w = EV_W \/ w = EV_R + EV_W)
  | SClose c => salive l c = true
  | SFile d on => forall c, sdesc l c <> d
  end.
Fixpoint sall (l m : list sop) : Prop :=
  match m with [] => True | o :: t => sok l o /\ sall (l ++ [o]) t end.

(** ** Invariant *)
Lemma asked_snoc l o c : sasked (l ++ [o]) c = match o with
    | SOpt c' w => if c' =? c then w else sasked l c
    | SNew c' | SClose c' => if c' =? c then 0 else sasked l c
    | _ => sasked l c end.
Proof. unfold sasked. rewrite fold_left_app. destruct o; reflexivity. Qed.
Lemma desc_snoc l o c : sdesc (l ++ [o]) c = match o with
    | SFd c' d => if c' =? c then d else sdesc l c
    | SNew c' | SClose c' => if c' =? c then 0 else sdesc l c
    | _ => sdesc l c end.
Proof. unfold sdesc. rewrite fold_left_app. destruct o; reflexivity. Qed.
Lemma alive_snoc l o c : salive (l ++ [o]) c = match o with
    | SNew c' => if c' =? c then true else salive l c
    | SClose c' => if c' =? c then false else salive l c
    | _ => salive l c end.
Proof. unfold salive. rewrite fold_left_app. destruct o; reflexivity. Qed.
Lemma open_snoc l o d : sopen (l ++ [o]) d = match o with
    | SFd _ d' => if d' =? d then true else sopen l d
    | SFile d' on => if d' =? d then on else sopen l d
    | SClose c => if (0 <? d) && (sdesc l c =? d) then false else sopen l d
    | _ => sopen l d end.
Proof.
  unfold sopen. rewrite fold_left_app.
  match goal with |- context [fold_left ?f l ?a] => set (F := f); set (A := a) end.
  assert (G : forall l a, snd (fold_left F l a) = snd a ++ l).
  { clear. induction l as [|x l IH]; intros a; cbn [fold_left]; [rewrite app_nil_r; reflexivity|].
    rewrite IH. cbn [F snd]. rewrite <- app_assoc. reflexivity. }
  cbn [fold_left]. unfold F at 1. cbn [fst]. rewrite (G l A). destruct o; reflexivity.
Qed.

Definition bit (s : sst) (d : Z) (k : bool) : bool := if k then s_w s d else s_r s d.

Record sinv (s : sst) (l : list sop) : Prop := Sinv {
  i_q : NoDup (s_queue s);
  i_mem : forall c, In c (s_queue s) <-> salive l c = true;
  i_fd : forall c, s_fd (s_con s c) = sdesc l c;
  i_opt : forall c, s_opt (s_con s c) = sasked l c;
  i_w : forall c, sasked l c = 0 \/ sasked l c = EV_R \/ sasked l c = EV_W \/ sasked l c = EV_R + EV_W;
  i_rng : forall c, sdesc l c = 0 \/ 0 < sdesc l c < SETSIZE;
  i_dead : forall c, salive l c = false -> sdesc l c = 0;
  i_none : forall c, sdesc l c = 0 -> sasked l c = 0;
  i_own : forall c, sdesc l c <> 0 -> sopen l (sdesc l c) = true;
  i_inj : forall c c', sdesc l c <> 0 -> sdesc l c = sdesc l c' -> c = c';
  i_open : forall d, s_open s d = sopen l d;
  i_set : forall c k, wants (sasked l c) k = true -> bit s (sdesc l c) k = true;
  i_why : forall d k, bit s d k = true -> 0 < d < SETSIZE /\
    ((exists c, sdesc l c = d /\ wants (sasked l c) k = true) \/ closed_asking l d k) }.

Lemma sinv0 : sinv sst0 [].
Proof.
  constructor; cbn; auto; try tauto; try discriminate; try congruence.
  - constructor.
  - intros c. split; [tauto|discriminate].
  - intros d k. destruct k; discriminate.
Qed.

Lemma closed_more l o d k : closed_asking l d k -> closed_asking (l ++ [o]) d k.
Proof.
  intros (l1 & c & l2 & -> & A & B). exists l1, c, (l2 ++ [o]). split; [rewrite <- app_assoc; reflexivity|auto].
Qed.

Lemma in_drop c x q : In x (drop c q) <-> In x q /\ x <> c.
Proof. unfold drop. rewrite filter_In, negb_true_iff, Z.eqb_neq. tauto. Qed.

Lemma hasr_of w : w = 0 \/ w = EV_R \/ w = EV_W \/ w = EV_R + EV_W -> has_r w = wants w false.
Proof. intros [->|[->|[->| ->]]]; reflexivity. Qed.
Lemma hasw_of w : w = 0 \/ w = EV_R \/ w = EV_W \/ w = EV_R + EV_W -> has_w w = wants w true.
Proof. intros [->|[->|[->| ->]]]; reflexivity. Qed.

Lemma put_ok m d b : 0 < d < SETSIZE -> fd_put m d b = Ok (upd m d b).
Proof. intros H. unfold fd_put. destruct (Z.leb_spec 0 d), (Z.ltb_spec d SETSIZE); try lia. reflexivity. Qed.

(** ev_select_opt makes the bits of its descriptor what is asked for, if the bits that
    were asked for before were set; a bit that was left over stays unless it is asked
    for and dropped *)
Lemma opt_spec s c want : 0 < s_fd (s_con s c) < SETSIZE ->
  (let w := s_opt (s_con s c) in w = 0 \/ w = EV_R \/ w = EV_W \/ w = EV_R + EV_W) ->
  (want = 0 \/ want = EV_R \/ want = EV_W \/ want = EV_R + EV_W) ->
  exists s', sel_opt s c want = Ok s' /\ s_queue s' = s_queue s /\ s_open s' = s_open s /\
    (forall c', s_con s' c' = if c' =? c then SCon (s_fd (s_con s c)) want else s_con s c') /\
    forall d k, bit s' d k =
      if d =? s_fd (s_con s c)
      then (if Bool.eqb (wants want k) (wants (s_opt (s_con s c)) k) then bit s d k else wants want k)
      else bit s d k.
Proof.
  intros R O W. unfold sel_opt. cbv zeta in *.
  set (o := s_opt (s_con s c)) in *. set (d0 := s_fd (s_con s c)) in *.
  destruct (Z.eqb_spec o want) as [E|E].
  - exists s. repeat split; auto.
    + intros c'. destruct (Z.eqb_spec c' c) as [->|]; auto. rewrite <- E. unfold o, d0. destruct (s_con s c); reflexivity.
    + intros d k. rewrite E. rewrite Bool.eqb_reflx. destruct (d =? d0); reflexivity.
  - assert (G : forall r w t,
        (t = Ok (r, w) :> res ((Z -> bool) * (Z -> bool))) ->
        (forall d, r d = if d =? d0 then (if Bool.eqb (wants want false) (wants o false) then s_r s d else wants want false) else s_r s d) ->
        (forall d, w d = if d =? d0 then (if Bool.eqb (wants want true) (wants o true) then s_w s d else wants want true) else s_w s d) ->
        exists s', (let* rw := t in Ok (Sst (s_queue s) (upd (s_con s) c (SCon d0 want)) (fst rw) (snd rw) (s_open s))) = Ok s' /\
          s_queue s' = s_queue s /\ s_open s' = s_open s /\
          (forall c', s_con s' c' = if c' =? c then SCon d0 want else s_con s c') /\
          forall d k, bit s' d k = if d =? d0 then (if Bool.eqb (wants want k) (wants o k) then bit s d k else wants want k) else bit s d k).
    { intros r w t -> Hr Hw. cbn [bind fst snd]. eexists. split; [reflexivity|]. cbn [s_queue s_open s_con].
      repeat split; auto. intros d [|]; cbn [bit s_r s_w]; auto. }
    clearbody o d0.
    destruct O as [->|[->|[->| ->]]]; destruct W as [->|[->|[->| ->]]]; try congruence;
      (eapply G;
       [ cbn [EV_R EV_W has_r has_w Z.eqb Z.add Z.testbit]; vm_compute (_ =? _);
         unfold fd_put_if; cbn; rewrite ?put_ok by auto; cbn [bind]; rewrite ?put_ok by auto; cbn [bind]; reflexivity
       | intros d; unfold upd; destruct (d =? d0); reflexivity
       | intros d; unfold upd; destruct (d =? d0); reflexivity ]).
Qed.

Lemma sinv_step s l o : sinv s l -> sok l o -> exists s', sel_step s o = Ok s' /\ sinv s' (l ++ [o]).
Proof.
  intros [Q M F O W R D N OW J OP ST WY] K.
  destruct o as [c|c d|c want|c|d on]; cbn [sel_step sok] in *.
  - (* a new connection *)
    eexists. split; [reflexivity|].
    pose proof (D c K) as D0. pose proof (N c D0) as A0.
    assert (AS : forall x, sasked (l ++ [SNew c]) x = sasked l x).
    { intros x. rewrite asked_snoc. destruct (Z.eqb_spec c x); subst; auto. }
    assert (DS : forall x, sdesc (l ++ [SNew c]) x = sdesc l x).
    { intros x. rewrite desc_snoc. destruct (Z.eqb_spec c x); subst; auto. }
    assert (OS : forall x, sopen (l ++ [SNew c]) x = sopen l x) by (intros; rewrite open_snoc; reflexivity).
    constructor; cbn [s_queue s_con s_r s_w s_open]; intros; rewrite ?AS, ?DS, ?OS; auto.
    + apply NoDup_rev in Q. rewrite <- (rev_involutive (s_queue s ++ [c])). apply NoDup_rev. rewrite rev_unit.
      constructor; auto. rewrite <- in_rev. intros H. apply M in H. congruence.
    + rewrite alive_snoc. rewrite in_app_iff, M. cbn [In]. destruct (Z.eqb_spec c c0); intuition congruence.
    + unfold upd. destruct (Z.eqb_spec c0 c); subst; cbn [s_fd]; auto.
    + unfold upd. destruct (Z.eqb_spec c0 c); subst; cbn [s_opt]; auto.
    + rewrite alive_snoc in H. destruct (c =? c0); [discriminate|auto].
    + rewrite DS in H. auto.
    + rewrite DS in H. auto.
    + rewrite !DS in *. auto.
    + rewrite AS in H. apply (ST c0 k H).
    + destruct (WY d k H) as [B [(x & X & Y)|X]]; (split; [auto|]).
      * left. exists x. rewrite AS, DS. auto.
      * right. apply closed_more. auto.
  - (* a descriptor *)
    destruct K as (Ka & Kd & Kr & Ko). eexists. split; [reflexivity|].
    pose proof (N c Kd) as A0.
    assert (NO : forall x, sdesc l x <> d).
    { intros x E. destruct (Z.eq_dec (sdesc l x) 0); [lia|]. rewrite <- E, OW in Ko by auto. discriminate. }
    assert (AS : forall x, sasked (l ++ [SFd c d]) x = sasked l x) by (intros; rewrite asked_snoc; reflexivity).
    assert (LS : forall x, salive (l ++ [SFd c d]) x = salive l x) by (intros; rewrite alive_snoc; reflexivity).
    assert (DS : forall x, sdesc (l ++ [SFd c d]) x = if c =? x then d else sdesc l x) by (intros; rewrite desc_snoc; reflexivity).
    assert (OS : forall x, sopen (l ++ [SFd c d]) x = if d =? x then true else sopen l x) by (intros; rewrite open_snoc; reflexivity).
    constructor; cbn [s_queue s_con s_r s_w s_open]; intros; rewrite ?AS, ?DS, ?OS, ?LS; auto.
    + unfold upd. rewrite (Z.eqb_sym c). destruct (Z.eqb_spec c0 c); subst; cbn [s_fd]; auto.
    + unfold upd. destruct (Z.eqb_spec c0 c); subst; cbn [s_opt]; auto.
    + destruct (c =? c0); auto.
    + rewrite LS in H. destruct (Z.eqb_spec c c0); subst; [congruence|auto].
    + rewrite DS in H. destruct (Z.eqb_spec c c0); subst; auto.
    + rewrite DS in H. destruct (Z.eqb_spec c c0); subst; [rewrite Z.eqb_refl; auto|].
      destruct (Z.eqb_spec d (sdesc l c0)); auto.
    + rewrite !DS in *. destruct (Z.eqb_spec c c0), (Z.eqb_spec c c'); subst; auto; exfalso; eapply NO; eauto.
    + unfold upd. rewrite (Z.eqb_sym d). destruct (d0 =? d); auto.
    + rewrite AS in H. destruct (Z.eqb_spec c c0); subst; [|apply (ST c0 k H)]. rewrite A0 in H. destruct k; discriminate.
    + destruct (WY d0 k H) as [B [(x & X & Y)|X]]; (split; [auto|]).
      * left. exists x. rewrite AS, DS. destruct (Z.eqb_spec c x); subst; auto. rewrite A0 in Y. destruct k; discriminate.
      * right. apply closed_more. auto.
  - (* interest *)
    destruct K as (Ka & Kd & Kw).
    destruct (opt_spec s c want) as (s' & E & Eq & Eo & Ec & Eb).
    { rewrite F. destruct (R c); [contradiction|auto]. }
    { cbv zeta. rewrite O. apply W. }
    { auto. }
    exists s'. split; [exact E|]. rewrite F, ?O in *.
    assert (AS : forall x, sasked (l ++ [SOpt c want]) x = if c =? x then want else sasked l x) by (intros; rewrite asked_snoc; reflexivity).
    assert (LS : forall x, salive (l ++ [SOpt c want]) x = salive l x) by (intros; rewrite alive_snoc; reflexivity).
    assert (DS : forall x, sdesc (l ++ [SOpt c want]) x = sdesc l x) by (intros; rewrite desc_snoc; reflexivity).
    assert (OS : forall x, sopen (l ++ [SOpt c want]) x = sopen l x) by (intros; rewrite open_snoc; reflexivity).
    constructor; intros; rewrite ?AS, ?DS, ?OS, ?LS, ?Eq, ?Eo, ?Ec; auto.
    + destruct (Z.eqb_spec c0 c); subst; cbn [s_fd]; auto.
    + rewrite (Z.eqb_sym c). destruct (Z.eqb_spec c0 c); subst; cbn [s_opt]; auto.
    + destruct (c =? c0); [auto|apply W].
    + rewrite LS in H. auto.
    + rewrite DS in H. destruct (Z.eqb_spec c c0); subst; [contradiction|auto].
    + rewrite DS in H. auto.
    + rewrite !DS in *. auto.
    + rewrite AS in H. rewrite Eb. destruct (Z.eqb_spec c c0) as [->|NE].
      * rewrite Z.eqb_refl, H. destruct (wants (sasked l c0) k) eqn:X; cbn [Bool.eqb]; auto.
      * destruct (Z.eqb_spec (sdesc l c0) (sdesc l c)) as [Q1|]; [|apply (ST c0 k H)].
        destruct (Z.eq_dec (sdesc l c0) 0) as [Z0|Z0]; [rewrite Z0 in Q1; congruence|]. destruct NE. symmetry. apply J; auto.
    + rewrite Eb in H.
      assert (P : bit s d k = true -> d <> sdesc l c \/ wants want k = wants (sasked l c) k ->
         0 < d < SETSIZE /\ ((exists c0, sdesc (l ++ [SOpt c want]) c0 = d /\ wants (sasked (l ++ [SOpt c want]) c0) k = true) \/
           closed_asking (l ++ [SOpt c want]) d k)).
      { intros HB HD. destruct (WY d k HB) as [B [(x & X & Y)|X]]; (split; [auto|]).
        - left. exists x. rewrite AS, DS. split; [auto|]. destruct (Z.eqb_spec c x); subst; auto.
          destruct HD as [HD|HD]; [contradiction|congruence].
        - right. apply closed_more. auto. }
      destruct (Z.eqb_spec d (sdesc l c)) as [->|NE]; [|apply P; auto].
      destruct (Bool.eqb (wants want k) (wants (sasked l c) k)) eqn:X; [apply P; auto; right; apply eqb_prop; auto|].
      split; [destruct (R c); [contradiction|auto]|]. left. exists c. rewrite AS, DS, Z.eqb_refl. auto.
  - (* close *)
    eexists. split; [reflexivity|]. rewrite F.
    assert (AS : forall x, sasked (l ++ [SClose c]) x = if c =? x then 0 else sasked l x) by (intros; rewrite asked_snoc; reflexivity).
    assert (LS : forall x, salive (l ++ [SClose c]) x = if c =? x then false else salive l x) by (intros; rewrite alive_snoc; reflexivity).
    assert (DS : forall x, sdesc (l ++ [SClose c]) x = if c =? x then 0 else sdesc l x) by (intros; rewrite desc_snoc; reflexivity).
    assert (OS : forall x, sopen (l ++ [SClose c]) x = if (0 <? x) && (sdesc l c =? x) then false else sopen l x) by (intros; rewrite open_snoc; reflexivity).
    constructor; cbn [s_queue s_con s_r s_w s_open]; intros; rewrite ?AS, ?DS, ?OS, ?LS; auto.
    + apply NoDup_filter. auto.
    + rewrite in_drop, M. destruct (Z.eqb_spec c c0); intuition congruence.
    + unfold upd. rewrite (Z.eqb_sym c). destruct (Z.eqb_spec c0 c); subst; cbn [s_fd]; auto.
    + unfold upd. rewrite (Z.eqb_sym c). destruct (Z.eqb_spec c0 c); subst; cbn [s_opt]; auto.
    + destruct (c =? c0); [auto|apply W].
    + destruct (c =? c0); auto.
    + rewrite LS in H. destruct (Z.eqb_spec c c0); subst; auto.
    + rewrite DS in H. destruct (Z.eqb_spec c c0); subst; auto.
    + rewrite DS in H. destruct (Z.eqb_spec c c0) as [->|NE]; [lia|].
      destruct (Z.eqb_spec (sdesc l c) (sdesc l c0)) as [Q1|Q1].
      * destruct NE. symmetry. apply J; auto.
      * rewrite andb_false_r. auto.
    + rewrite !DS in *. destruct (Z.eqb_spec c c0), (Z.eqb_spec c c'); subst; auto; try contradiction; try congruence.
    + destruct (Z.ltb_spec 0 (sdesc l c)).
      * unfold upd. rewrite (Z.eqb_sym (sdesc l c)). destruct (Z.eqb_spec d (sdesc l c)); subst.
        -- destruct (Z.ltb_spec 0 (sdesc l c)); [reflexivity|lia].
        -- rewrite andb_false_r. auto.
      * destruct (R c) as [Z0|]; [|lia]. rewrite Z0. destruct (Z.eqb_spec 0 d) as [<-|]; [change (0 <? 0) with false; cbn [andb]|rewrite andb_false_r]; auto.
    + rewrite AS in H. destruct (Z.eqb_spec c c0); subst; [destruct k; discriminate|]. apply (ST c0 k H).
    + destruct (WY d k H) as [B [(x & X & Y)|X]]; (split; [auto|]).
      * destruct (Z.eq_dec c x) as [->|NE].
        -- right. exists l, x, []. auto.
        -- left. exists x. rewrite AS, DS. destruct (Z.eqb_spec c x); [contradiction|auto].
      * right. apply closed_more. auto.
  - (* something else *)
    eexists. split; [reflexivity|].
    assert (AS : forall x, sasked (l ++ [SFile d on]) x = sasked l x) by (intros; rewrite asked_snoc; reflexivity).
    assert (LS : forall x, salive (l ++ [SFile d on]) x = salive l x) by (intros; rewrite alive_snoc; reflexivity).
    assert (DS : forall x, sdesc (l ++ [SFile d on]) x = sdesc l x) by (intros; rewrite desc_snoc; reflexivity).
    assert (OS : forall x, sopen (l ++ [SFile d on]) x = if d =? x then on else sopen l x) by (intros; rewrite open_snoc; reflexivity).
    constructor; cbn [s_queue s_con s_r s_w s_open]; intros; rewrite ?AS, ?DS, ?OS, ?LS; auto.
    + rewrite LS in H. auto.
    + rewrite DS in H. auto.
    + rewrite DS in H. destruct (Z.eqb_spec d (sdesc l c)) as [E|]; auto. exfalso. apply (K c). auto.
    + rewrite !DS in *. auto.
    + unfold upd. rewrite (Z.eqb_sym d). destruct (d0 =? d); auto.
    + rewrite AS in H. apply (ST c k H).
    + destruct (WY d0 k H) as [B [(x & X & Y)|X]]; (split; [auto|]).
      * left. exists x. rewrite AS, DS. auto.
      * right. apply closed_more. auto.
Qed.

Lemma sinv_run m : forall s l, sinv s l -> sall l m -> exists s', sel_run s m = Ok s' /\ sinv s' (l ++ m).
Proof.
  induction m as [|o m IH]; intros s l I A; cbn [sel_run sall] in *.
  - exists s. rewrite app_nil_r. auto.
  - destruct A as [A1 A2]. destruct (sinv_step s l o I A1) as (s1 & E & I1). rewrite E. cbn [bind].
    destruct (IH s1 (l ++ [o]) I1 A2) as (s2 & E2 & I2). exists s2. split; [exact E2|].
    rewrite <- app_assoc in I2. exact I2.
Qed.

(** ** A round *)
Lemma fdmax_fold (f : Z -> Z) q : forall a,
  a <= fold_left (fun m c => if f c >? m then f c else m) q a /\
  (forall c, In c q -> f c <= fold_left (fun m c => if f c >? m then f c else m) q a) /\
  (fold_left (fun m c => if f c >? m then f c else m) q a = a \/
   exists c, In c q /\ fold_left (fun m c => if f c >? m then f c else m) q a = f c).
Proof.
  induction q as [|x q IH]; intros a; cbn [fold_left In]; [intuition lia|].
  destruct (IH (if f x >? a then f x else a)) as (A & B & C).
  rewrite Z.gtb_ltb in *. destruct (Z.ltb_spec a (f x)).
  - split; [lia|]. split; [intros c [->|H1]; [lia|apply B; auto]|].
    destruct C as [C|(c & C1 & C2)]; right; [exists x|exists c]; auto.
  - split; [lia|]. split; [intros c [->|H1]; [lia|apply B; auto]|].
    destruct C as [C|(c & C1 & C2)]; [left|right; exists c]; auto.
Qed.
Lemma fdmax_ge s c : In c (s_queue s) -> s_fd (s_con s c) <= fdmax s.
Proof. apply (fdmax_fold (fun c => s_fd (s_con s c)) (s_queue s) (-1)). Qed.
Lemma fdmax_is s : fdmax s = -1 \/ exists c, In c (s_queue s) /\ fdmax s = s_fd (s_con s c).
Proof. apply (fdmax_fold (fun c => s_fd (s_con s c)) (s_queue s) (-1)). Qed.

Lemma in_upto d n : In d (upto n) <-> 0 <= d < n.
Proof.
  unfold upto. rewrite in_map_iff. split.
  - intros (x & <- & H). apply in_seq in H. lia.
  - intros H. exists (Z.to_nat d). split; [lia|]. apply in_seq. lia.
Qed.

Lemma bit_or s d k : bit s d k = true -> s_r s d || s_w s d = true.
Proof. destruct k; cbn [bit]; intros ->; auto with bool. Qed.

Lemma round_spec s l rdy : sinv s l ->
  (sel_round s rdy = Ok None /\
     exists d k c, closed_asking l d k /\ sopen l d = false /\ salive l c = true /\ d < sdesc l c) \/
  (exists b, sel_round s rdy = Ok (Some b) /\ NoDup (map fst b) /\ forall c k,
     (salive l c = true -> wants (sasked l c) k = true -> is_ready rdy (sdesc l c) k = true -> told b c k) /\
     (told b c k -> salive l c = true /\ is_ready rdy (sdesc l c) k = true /\
        (wants (sasked l c) k = true \/ closed_asking l (sdesc l c) k))).
Proof.
  intros I. pose proof I as [Q M F O W R D N OW J OP ST WY].   assert (MX : fdmax s < SETSIZE).
  { destruct (fdmax_is s) as [->|(c & H & ->)]; [reflexivity|]. rewrite F. destruct (R c); unfold SETSIZE in *; lia. }
  destruct (existsb (fun d => (s_r s d || s_w s d) && negb (s_open s d)) (upto (fdmax s + 1))) eqn:EX.
  - left. split.
    { unfold sel_round. destruct (Z.leb_spec SETSIZE (fdmax s)); [lia|]. unfold kselect. rewrite EX. reflexivity. } apply existsb_exists in EX as (d & H1 & H2).
    apply in_upto in H1. apply andb_true_iff in H2 as [H2 H3]. rewrite OP, negb_true_iff in H3.
    assert (B : exists k, bit s d k = true).
    { apply orb_true_iff in H2 as [H2|H2]; [exists false|exists true]; exact H2. }
    destruct B as (k & B). destruct (WY d k B) as (Rd & [(c & C1 & C2)|C]).
    + assert (sdesc l c <> 0) by lia. rewrite <- C1, OW in H3 by auto. discriminate.
    + destruct (fdmax_is s) as [E|(c & E1 & E2)]; [lia|]. exists d, k, c. repeat split; auto.
      * apply M; auto.
      * rewrite F in E2. destruct (Z.eq_dec d (sdesc l c)) as [->|]; [|lia]. rewrite OW in H3 by lia. discriminate.
  - right.
    set (r := fun d => (d <? fdmax s + 1) && s_r s d && fst (rdy d)).
    set (w := fun d => (d <? fdmax s + 1) && s_w s d && snd (rdy d)).
    assert (EQ : sel_round s rdy = if existsb (fun d => r d || w d) (upto (fdmax s + 1))
        then Ok (Some (map (fun c => (c, (r (s_fd (s_con s c)), w (s_fd (s_con s c))))) (s_queue s))) else Ok (Some [])).
    { unfold sel_round. destruct (Z.leb_spec SETSIZE (fdmax s)); [lia|]. unfold kselect. rewrite EX. reflexivity. }
    rewrite EQ. assert (TK : forall c (k : bool), In c (s_queue s) ->
       (if k then w (sdesc l c) else r (sdesc l c)) = bit s (sdesc l c) k && is_ready rdy (sdesc l c) k).
    { intros c k H1. pose proof (fdmax_ge s c H1) as G. rewrite F in G.
      destruct (Z.ltb_spec (sdesc l c) (fdmax s + 1)) as [L|L]; [|lia].
      unfold r, w. destruct (Z.ltb_spec (sdesc l c) (fdmax s + 1)); [|lia]. destruct k; reflexivity. }
    destruct (existsb (fun d => r d || w d) (upto (fdmax s + 1))) eqn:EY.
    + eexists. split; [reflexivity|]. split; [rewrite map_map; cbn [fst]; rewrite map_id; exact Q|].
      intros c k. split.
      * intros H1 H2 H3. eexists _, _. split; [apply in_map_iff; exists c; split; [reflexivity|apply M; auto]|].
        rewrite F, TK by (apply M; auto). rewrite (ST c k H2), H3. reflexivity.
      * intros (a & b & H1 & H2). apply in_map_iff in H1 as (c' & H3 & H4). inversion H3; subst c' a b; clear H3.
        rewrite F, TK in H2 by auto. apply andb_true_iff in H2 as [H2 H3]. split; [apply M; auto|]. split; [auto|].
        destruct (WY _ _ H2) as (Rd & [(c' & C1 & C2)|C]); [|auto]. left.
        assert (c' = c) as -> by (apply J; lia). auto.
    + exists []. split; [reflexivity|]. split; [constructor|]. intros c k. split.
      * intros H1 H2 H3. exfalso. apply M in H1. pose proof (TK c k H1) as T. rewrite (ST c k H2), H3 in T.
        pose proof (fdmax_ge s c H1) as G. rewrite F in G.
        assert (X : existsb (fun d => r d || w d) (upto (fdmax s + 1)) = true).
        { apply existsb_exists. exists (sdesc l c). split; [apply in_upto; destruct (R c); lia|].
          destruct k; cbn [andb] in T; rewrite T; auto with bool. }
        congruence.
      * intros (a & b & [] & _).
Qed.

(** ** C108: what holds for every history within the rules. No connection that is ready
    is passed over in a round that succeeds, each is entered at most once, and every
    event is real; a round fails, or tells a connection something it has not asked for,
    only because of an earlier connection that was closed while it was asking. *)
Theorem C108_partial : forall l, sall [] l -> exists s, sel_run sst0 l = Ok s /\ forall rdy,
  (sel_round s rdy = Ok None /\
     exists d k c, closed_asking l d k /\ sopen l d = false /\ salive l c = true /\ d < sdesc l c) \/
  (exists b, sel_round s rdy = Ok (Some b) /\ NoDup (map fst b) /\ forall c k,
     (salive l c = true -> wants (sasked l c) k = true -> is_ready rdy (sdesc l c) k = true -> told b c k) /\
     (told b c k -> salive l c = true /\ is_ready rdy (sdesc l c) k = true /\
        (wants (sasked l c) k = true \/ closed_asking l (sdesc l c) k))).
Proof.
  intros l A. destruct (sinv_run l sst0 [] sinv0 A) as (s & E & I). exists s. split; [exact E|].
  intros rdy. apply round_spec. exact I.
Qed.
Print Assumptions C108_partial.

(** as long as every connection drops its interest before it is closed, the property
    itself *)
Theorem C108_tidy_partial : forall l, sall [] l -> (forall d k, ~ closed_asking l d k) ->
  exists s, sel_run sst0 l = Ok s /\ forall rdy, exists b, sel_round s rdy = Ok (Some b) /\ NoDup (map fst b) /\
    forall c k, told b c k <->
      salive l c = true /\ wants (sasked l c) k = true /\ is_ready rdy (sdesc l c) k = true.
Proof.
  intros l A T. destruct (C108_partial l A) as (s & E & H). exists s. split; [exact E|]. intros rdy.
  destruct (H rdy) as [(_ & d & k & c & C & _)|(b & B1 & B2 & B3)]; [destruct (T d k C)|].
  exists b. split; [exact B1|]. split; [exact B2|]. intros c k. destruct (B3 c k) as (P1 & P2). split.
  - intros X. destruct (P2 X) as (Y1 & Y2 & [Y3|Y3]); [auto|destruct (T _ _ Y3)].
  - intros (Y1 & Y2 & Y3). auto.
Qed.
Print Assumptions C108_tidy_partial.

(** A listener on 4, two clients on 5 and 6; the first client changes its interest, and
    drops it before it is closed. *)
Definition sex : list sop :=
  [SNew 1; SFd 1 4; SOpt 1 EV_R; SNew 2; SFd 2 5; SOpt 2 EV_R; SNew 3; SFd 3 6; SOpt 3 EV_R; SOpt 2 (EV_R + EV_W);
   SOpt 3 EV_W; SOpt 3 (EV_R + EV_W); SOpt 2 0; SClose 2].
Lemma sex_ok : sall [] sex.
Proof. unfold sex. cbn [sall app]. repeat split; try reflexivity; try discriminate; auto. Qed.
Example C108_ex : sall [] sex /\ (forall d k, ~ closed_asking sex d k) /\
  salive sex 3 = true /\ wants (sasked sex 3) true = true /\ sdesc sex 3 = 6.
Proof.
  split; [exact sex_ok|]. split; [|repeat split; reflexivity].
  intros d k (l1 & c & l2 & E & _ & X). unfold sex in E.
  do 13 (destruct l1 as [|? l1]; [discriminate E|injection E as <- E]).
  destruct l1 as [|? l1].
  - injection E as <- <-. destruct k; discriminate X.
  - injection E as <- E. destruct l1; discriminate E.
Qed.

(** ** The program never drops its interest before closing (no call asks for EV_NONE).
    Whenever a connection that asks for something is closed and another one has a higher
    number, every later round fails for everybody, whatever is ready, until the number is
    given out again or all higher ones are gone. *)
Lemma stuck_inv m : forall s l d k, sinv s l -> sall l m -> bit s d k = true -> sopen l d = false ->
  (forall x, ~ In (SFd x d) m) -> ~ In (SFile d true) m ->
  exists s', sel_run s m = Ok s' /\ sinv s' (l ++ m) /\ bit s' d k = true /\ sopen (l ++ m) d = false.
Proof.
  induction m as [|o m IH]; intros s l d k I A B O F1 F2; cbn [sel_run sall] in *.
  - exists s. rewrite app_nil_r. auto.
  - destruct A as [A1 A2]. destruct (sinv_step s l o I A1) as (s1 & E & I1). rewrite E. cbn [bind].
    destruct (IH s1 (l ++ [o]) d k I1 A2) as (s2 & E2 & I2 & B2 & O2).
    + destruct o as [c|c d'|c want|c|d' on]; cbn [sel_step] in E; try (injection E as <-; exact B).
      cbn [sok] in A1. destruct A1 as (K1 & K2 & K3).
      destruct (opt_spec s c want) as (s' & E' & _ & _ & _ & Eb).
      { rewrite (i_fd _ _ I). destruct (i_rng _ _ I c); [contradiction|auto]. }
      { cbv zeta. rewrite (i_opt _ _ I). apply (i_w _ _ I). }
      { auto. }
      rewrite E in E'. injection E' as <-. rewrite Eb. rewrite (i_fd _ _ I).
      destruct (Z.eqb_spec d (sdesc l c)) as [->|]; auto. rewrite (i_own _ _ I) in O by auto. discriminate.
    + rewrite open_snoc. destruct o as [c|c d'|c want|c|d' on]; auto.
      * destruct (Z.eqb_spec d' d) as [->|]; auto. exfalso. eapply F1. left; reflexivity.
      * destruct ((0 <? d) && (sdesc l c =? d)); auto.
      * destruct (Z.eqb_spec d' d) as [->|]; auto. destruct on; auto. exfalso. apply F2. left; reflexivity.
    + intros x H. apply (F1 x). right; auto.
    + intros H. apply F2. right; auto.
    + exists s2. rewrite <- app_assoc in *. auto.
Qed.

Theorem C108_stuck : forall l c0 m k, sall [] (l ++ SClose c0 :: m) ->
  wants (sasked l c0) k = true ->
  (forall x, ~ In (SFd x (sdesc l c0)) m) -> ~ In (SFile (sdesc l c0) true) m ->
  (exists c, salive (l ++ SClose c0 :: m) c = true /\ sdesc l c0 < sdesc (l ++ SClose c0 :: m) c) ->
  exists s, sel_run sst0 (l ++ SClose c0 :: m) = Ok s /\ forall rdy, sel_round s rdy = Ok None.
Proof.
  intros l c0 m k A W F1 F2 (c & L1 & L2).
  assert (SP : forall m l1 l2, sall l1 (l2 ++ m) -> sall l1 l2 /\ sall (l1 ++ l2) m).
  { clear. intros m l1 l2. revert l1. induction l2 as [|o l2 IH]; intros l1 H; cbn [app sall] in *.
    - rewrite app_nil_r. auto.
    - destruct H as [H1 H2]. apply IH in H2 as [H2 H3]. rewrite <- app_assoc in H3. auto. }
  assert (RA : forall m l s, sel_run s (l ++ m) = let* s1 := sel_run s l in sel_run s1 m).
  { clear. intros m l. induction l as [|o l IH]; intros s; cbn [app sel_run bind]; [reflexivity|].
    destruct (sel_step s o); cbn [bind]; auto. }
  change (l ++ SClose c0 :: m) with (l ++ [SClose c0] ++ m) in *. rewrite app_assoc in *.
  destruct (SP m [] (l ++ [SClose c0]) A) as [A1 A2]. cbn [app] in A2.
  destruct (SP [SClose c0] [] l A1) as [A3 A4]. cbn [app] in A4.
  destruct (sinv_run l sst0 [] sinv0 A3) as (s1 & E1 & I1). cbn [app] in I1.
  destruct A4 as [A4 _]. destruct (sinv_step s1 l (SClose c0) I1 A4) as (s2 & E2 & I2).
  assert (D0 : sdesc l c0 <> 0).
  { intros Z0. rewrite (i_none _ _ I1 c0 Z0) in W. destruct k; discriminate. }
  assert (DR : 0 < sdesc l c0) by (destruct (i_rng _ _ I1 c0); lia).
  assert (B : bit s2 (sdesc l c0) k = true).
  { cbn [sel_step] in E2. injection E2 as <-. apply (i_set _ _ I1). exact W. }
  destruct (stuck_inv m s2 (l ++ [SClose c0]) (sdesc l c0) k I2 A2 B) as (s3 & E3 & I3 & B3 & O3); auto.
  { rewrite open_snoc. destruct (Z.ltb_spec 0 (sdesc l c0)); [|lia]. rewrite Z.eqb_refl. reflexivity. }
  exists s3. rewrite RA, RA, E1. cbn [bind sel_run]. rewrite E2. cbn [bind]. split; [exact E3|].
  intros rdy. unfold sel_round.
  assert (MX : fdmax s3 < SETSIZE).
  { destruct (fdmax_is s3) as [->|(x & H & ->)]; [reflexivity|]. rewrite (i_fd _ _ I3).
    destruct (i_rng _ _ I3 x); unfold SETSIZE in *; lia. }
  destruct (Z.leb_spec SETSIZE (fdmax s3)); [lia|]. unfold kselect.
  assert (X : existsb (fun d => (s_r s3 d || s_w s3 d) && negb (s_open s3 d)) (upto (fdmax s3 + 1)) = true).
  { apply existsb_exists. exists (sdesc l c0). split.
    - apply in_upto. assert (In c (s_queue s3)) as H1 by (apply (i_mem _ _ I3); auto).
      apply fdmax_ge in H1. rewrite (i_fd _ _ I3) in H1. lia.
    - rewrite (bit_or _ _ _ B3), (i_open _ _ I3), O3. reflexivity. }
  rewrite X. reflexivity.
Qed.
Print Assumptions C108_stuck.

(** a listener on 4, two clients on 5 and 6; the first one goes *)
Definition sbad : list sop :=
  [SNew 1; SFd 1 4; SOpt 1 EV_R; SNew 2; SFd 2 5; SOpt 2 EV_R; SNew 3; SFd 3 6; SOpt 3 EV_R].
Example C108_stuck_ex : sall [] (sbad ++ SClose 2 :: []) /\ wants (sasked sbad 2) false = true /\
  salive (sbad ++ [SClose 2]) 3 = true /\ sdesc sbad 2 < sdesc (sbad ++ [SClose 2]) 3.
Proof. split; [|repeat split; reflexivity]. unfold sbad. cbn [sall app]. repeat split; try reflexivity; try discriminate; auto. Qed.

(** the other client is ready, asked for it, and is not told; neither is the listener *)
Theorem C108_refuted : exists l s, sall [] l /\ sel_run sst0 l = Ok s /\
  exists c k rdy, salive l c = true /\ wants (sasked l c) k = true /\ is_ready rdy (sdesc l c) k = true /\
    forall b, sel_round s rdy = Ok (Some b) -> ~ In c (map fst b).
Proof.
  destruct (C108_stuck sbad 2 [] false) as (s & E & H).
  - apply C108_stuck_ex.
  - reflexivity.
  - intros x [].
  - intros [].
  - exists 3. split; reflexivity.
  - exists (sbad ++ [SClose 2]), s. split; [apply C108_stuck_ex|]. split; [exact E|].
    exists 3, false, (fun _ => (true, true)). repeat split. intros b X. rewrite H in X. discriminate.
Qed.
Print Assumptions C108_refuted.

(** the number of a closed connection is given out again: the new connection, which
    waits for its connect, is told that it can be read *)
Theorem C108_refuted_stray : exists l s, sall [] l /\ sel_run sst0 l = Ok s /\
  exists c k rdy b, wants (sasked l c) k = false /\ sel_round s rdy = Ok (Some b) /\ told b c k.
Proof.
  pose (l := sbad ++ [SClose 2; SNew 4; SFd 4 5; SOpt 4 EV_W]).
  assert (A : sall [] l) by (unfold l, sbad; cbn [sall app]; repeat split; try reflexivity; try discriminate; auto).
  pose (rdy := fun d : Z => (d =? 5, false)).
  assert (P : match sel_run sst0 l with Ok s => match sel_round s rdy with
      | Ok (Some b) => existsb (fun x : report => (fst x =? 4) && fst (snd x)) b | _ => false end | _ => false end = true)
    by (vm_compute; reflexivity).
  destruct (sel_run sst0 l) as [s| |] eqn:E; try discriminate P.
  destruct (sel_round s rdy) as [[b|]| |] eqn:E2; try discriminate P.
  exists l, s. split; [exact A|]. split; [exact E|]. exists 4, false, rdy, b. split; [reflexivity|]. split; [exact E2|].
  apply existsb_exists in P as ([c [r w]] & P1 & P2). cbn [fst snd] in P2. apply andb_true_iff in P2 as [P2 P3].
  apply Z.eqb_eq in P2 as ->. exists r, w. auto.
Qed.
Print Assumptions C108_refuted_stray.

(** a descriptor above 1023: the interest is written outside the set *)
Theorem C108_refuted_oob : forall s c d want, SETSIZE <= d -> want = EV_R \/ want = EV_W \/ want = EV_R + EV_W ->
  sel_run s [SNew c; SFd c d; SOpt c want] = Fault FOob.
Proof.
  intros s c d want H W. cbn [sel_run sel_step bind].
  assert (G : forall s, s_con s c = SCon d 0 -> sel_opt s c want = Fault FOob).
  { clear s. intros s E. unfold sel_opt. rewrite E. cbn [s_opt s_fd].
    assert (P : forall m b, fd_put m d b = Fault FOob).
    { intros m b. unfold fd_put. destruct (Z.ltb_spec d SETSIZE); [lia|]. rewrite andb_false_r. reflexivity. }
    change (has_r 0) with false. change (has_w 0) with false. cbn [negb fd_put_if].
    rewrite !P. destruct W as [->|[->| ->]]; reflexivity. }
  rewrite G; [reflexivity|]. cbn [s_con]. unfold upd. rewrite Z.eqb_refl. reflexivity.
Qed.
Print Assumptions C108_refuted_oob.

(** ** The batch is not limited: with more than 768 connections that are ready for both,
    the table of events is written beyond its end. *)

(** [n] connections on the descriptors 1..n, all asking for both *)
Fixpoint many (n : nat) : list sop :=
  match n with
  | O => []
  | S n' => many n' ++ [SNew (Z.of_nat n); SFd (Z.of_nat n) (Z.of_nat n); SOpt (Z.of_nat n) (EV_R + EV_W)]
  end.

Lemma many_is n : forall c,
  salive (many n) c = ((0 <? c) && (c <=? Z.of_nat n)) /\
  sdesc (many n) c = (if (0 <? c) && (c <=? Z.of_nat n) then c else 0) /\
  sasked (many n) c = (if (0 <? c) && (c <=? Z.of_nat n) then EV_R + EV_W else 0) /\
  sopen (many n) c = ((0 <? c) && (c <=? Z.of_nat n)).
Proof.
  induction n as [|n IH]; intros c.
  - cbn [many]. change (Z.of_nat 0) with 0.
    assert ((0 <? c) && (c <=? 0) = false) as -> by (destruct (Z.ltb_spec 0 c), (Z.leb_spec c 0); auto; lia).
    repeat split.
  - destruct (IH c) as (A & B & C & D). cbn [many].
    change [SNew (Z.of_nat (S n)); SFd (Z.of_nat (S n)) (Z.of_nat (S n)); SOpt (Z.of_nat (S n)) (EV_R + EV_W)] with
      ([SNew (Z.of_nat (S n))] ++ [SFd (Z.of_nat (S n)) (Z.of_nat (S n))] ++ [SOpt (Z.of_nat (S n)) (EV_R + EV_W)]).
    rewrite !app_assoc, !alive_snoc, !desc_snoc, !asked_snoc, !open_snoc, A, B, C, D.
    destruct (Z.eqb_spec (Z.of_nat (S n)) c) as [<-|NE].
    + destruct (Z.ltb_spec 0 (Z.of_nat (S n))), (Z.leb_spec (Z.of_nat (S n)) (Z.of_nat (S n))); try lia. auto.
    + destruct (Z.ltb_spec 0 c); cbn [andb]; [|auto].
      destruct (Z.leb_spec c (Z.of_nat n)), (Z.leb_spec c (Z.of_nat (S n))); try lia; auto.
Qed.

Lemma many_ok n : Z.of_nat n < SETSIZE -> sall [] (many n).
Proof.
  assert (SP : forall l2 l1 m, sall l1 l2 -> sall (l1 ++ l2) m -> sall l1 (l2 ++ m)).
  { clear. induction l2 as [|o l2 IH]; intros l1 m H1 H2; cbn [app sall] in *.
    - rewrite app_nil_r in H2. auto.
    - destruct H1 as [H1 H3]. split; auto. apply IH; auto. rewrite <- app_assoc. auto. }
  induction n as [|n IH]; intros H; cbn [many]; [exact I|].
  apply SP; [apply IH; lia|]. cbn [app].
  set (x := Z.of_nat (S n)) in *.
  destruct (many_is n x) as (A & B & C & D).
  assert (E : (0 <? x) && (x <=? Z.of_nat n) = false).
  { destruct (Z.leb_spec x (Z.of_nat n)); [lia|apply andb_false_r]. }
  rewrite E in *. cbn [sall sok]. rewrite !alive_snoc, !desc_snoc, !open_snoc, Z.eqb_refl, A, D.
  repeat split; auto; lia.
Qed.

(** entering a batch of events for reading and writing that is too long *)
Lemma enter_full s e w : zlen (tab s) = TABLE -> evn s = TABLE -> live (evm s e) = true ->
  enter s (e, (true, w)) = Fault FOob.
Proof.
  intros T N L. unfold enter. rewrite L.
  assert (P : forall s' e', tab s' = tab s -> evn s' = evn s -> push s' e' = Fault FOob).
  { intros s' e' E1 E2. unfold push. destruct (zput (tab s') (evn s') _) eqn:E; [|reflexivity].
    apply zput_some in E as (_ & E & _). rewrite E1, E2 in E.
    match type of E with _ + ?z <= _ => change z with 1 in E end. lia. }
  rewrite P; reflexivity.
Qed.

Lemma enter_all_full b : forall s k, zlen (tab s) = TABLE -> evn s = 2 * k -> 0 <= k <= BATCH ->
  (forall x, In x b -> live (evm s (fst x)) = true /\ snd x = (true, true)) -> BATCH < k + zlen b ->
  enter_all s b = Fault FOob.
Proof.
  induction b as [|[e [r w]] b IH]; intros s k T N K L M; [unfold zlen in M; cbn [Datatypes.length Z.of_nat] in M; lia|].
  destruct (L (e, (r, w)) (or_introl eq_refl)) as [L1 L2]. cbn [fst snd] in *. injection L2 as -> ->.
  cbn [enter_all]. rewrite zlen_cons in M. destruct (Z.eq_dec k BATCH) as [->|NE].
  - rewrite enter_full; [reflexivity|auto|rewrite N; reflexivity|auto].
  - destruct (enter_spec s e true true T) as (s1 & E1 & N1 & _ & T1 & O1 & S1 & _); auto.
    { lia. }
    { change (zlen (slots1 (e, (true, true)))) with 2. unfold TABLE. lia. }
    rewrite E1. cbn [bind]. change (zlen (slots1 (e, (true, true)))) with 2 in N1.
    apply (IH s1 (k + 1)); auto; try lia.
    intros x Hx. destruct (L x (or_intror Hx)) as [X1 X2]. split; [|exact X2].
    destruct (Z.eq_dec (fst x) e) as [->|D]; [rewrite S1; reflexivity|rewrite O1; auto].
Qed.

(** the connections exist in the table of events as well *)
Lemma new_all q : forall s, NoDup q -> (forall e, In e q -> live (evm s e) = false) ->
  exists s', do_acts s (map ANew q) = Ok s' /\ tab s' = tab s /\ evn s' = evn s /\
    (forall e, In e q -> live (evm s' e) = true) /\ (forall e, ~ In e q -> evm s' e = evm s e).
Proof.
  induction q as [|e q IH]; intros s ND L; cbn [map do_acts]; [exists s; repeat split; auto; intros e []|].
  inversion ND as [|? ? N1 N2]; subst. cbn [do_act]. rewrite (L e (or_introl eq_refl)). cbn [bind].
  destruct (IH (ev_alloc s e) N2) as (s' & E & A & B & C & D).
  { intros x Hx. unfold ev_alloc, set_ev, upd. cbn [evm]. destruct (Z.eqb_spec x e); [congruence|]. apply L. right; auto. }
  exists s'. split; [exact E|]. repeat split; auto.
  - intros x [->|Hx]; auto. rewrite D by auto. unfold ev_alloc, set_ev, upd. cbn [evm]. rewrite Z.eqb_refl. reflexivity.
  - intros x Hx. rewrite D by (intros Q; apply Hx; right; auto). unfold ev_alloc, set_ev, upd. cbn [evm].
    destruct (Z.eqb_spec x e); [subst; exfalso; apply Hx; left; auto|reflexivity].
Qed.

(** for every number of connections above 768 that the sets can hold *)
Theorem C108_refuted_table : forall n, BATCH < n < SETSIZE -> exists l s, sall [] l /\ sel_run sst0 l = Ok s /\
  zlen (s_queue s) = n /\
  exists b e, sel_round s (fun _ => (true, true)) = Ok (Some b) /\
    do_acts st0 (map ANew (s_queue s)) = Ok e /\ ev_loop e b [] = Fault FOob.
Proof.
  intros n H. assert (HB : BATCH = 768) by reflexivity. pose (l := many (Z.to_nat n)).
  assert (A : sall [] l) by (apply many_ok; lia).
  destruct (sinv_run l sst0 [] sinv0 A) as (s & E & I). cbn [app] in I.
  assert (MI : forall c, In c (s_queue s) <-> In c (map (fun i => i + 1) (upto n))).
  { intros c. rewrite (i_mem _ _ I). destruct (many_is (Z.to_nat n) c) as (X & _). fold l in X. rewrite X.
    rewrite in_map_iff, andb_true_iff, Z.ltb_lt, Z.leb_le. split.
    - intros [H1 H2]. exists (c - 1). rewrite in_upto. lia.
    - intros (x & <- & H1). apply in_upto in H1. lia. }
  assert (NU : NoDup (map (fun i => i + 1) (upto n))).
  { unfold upto. rewrite map_map. apply FinFun.Injective_map_NoDup; [intros x y; lia|apply seq_NoDup]. }
  assert (LQ : zlen (s_queue s) = n).
  { assert (Datatypes.length (s_queue s) = Datatypes.length (map (fun i => i + 1) (upto n))) as L.
    { apply Permutation.Permutation_length. apply Permutation.NoDup_Permutation; auto. apply (i_q _ _ I). }
    unfold zlen. rewrite L. unfold upto. rewrite !map_length, seq_length. lia. }
  exists l, s. split; [exact A|]. split; [exact E|]. split; [exact LQ|].
  destruct (new_all (s_queue s) st0 (i_q _ _ I)) as (e & E1 & T1 & N1 & L1 & _); [reflexivity|].
  assert (CA : forall l, (forall c, ~ In (SClose c) l) -> forall d k, ~ closed_asking l d k).
  { intros l0 NC d k (l1 & c & l2 & -> & _). apply (NC c). apply in_or_app. right. left. reflexivity. }
  assert (NC : forall m c, ~ In (SClose c) (many m)).
  { induction m as [|m IHm]; intros c; cbn [many]; [intros []|]. intros X. apply in_app_or in X as [X|X]; [eapply IHm; eauto|].
    destruct X as [X|[X|[X|[]]]]; discriminate. }
  destruct (round_spec s l (fun _ => (true, true)) I) as [(_ & d & k & c & C & _)|(b & B1 & B2 & B3)].
  { destruct (CA l (NC _) d k C). }
  assert (S : b = map (fun c => (c, (true, true))) (s_queue s)).
  { assert (BM : b = [] \/ exists f, b = map (fun c => (c, f c)) (s_queue s)).
    { revert B1. unfold sel_round. destruct (SETSIZE <=? fdmax s); [discriminate|].
      destruct (kselect s (fdmax s + 1) (fun _ => (true, true))) as [[r w]|]; [|discriminate].
      destruct (existsb _ _); intros X; injection X as <-; [right|left; reflexivity].
      exists (fun c => (r (s_fd (s_con s c)), w (s_fd (s_con s c)))). reflexivity. }
    assert (TT : forall c k, In c (s_queue s) -> told b c k).
    { intros c k Hc. apply (B3 c k); [apply (i_mem _ _ I); auto| |destruct k; reflexivity].
      pose proof Hc as Hc'. apply MI in Hc'. apply in_map_iff in Hc' as (x & <- & Hx). apply in_upto in Hx.
      destruct (many_is (Z.to_nat n) (x + 1)) as (_ & _ & X & _). fold l in X. rewrite X.
      destruct (Z.ltb_spec 0 (x + 1)), (Z.leb_spec (x + 1) (Z.of_nat (Z.to_nat n))); try lia. destruct k; reflexivity. }
    destruct BM as [->|(f & ->)].
    - assert (Hc : In 1 (s_queue s)) by (apply MI, in_map_iff; exists 0; rewrite in_upto; lia).
      destruct (TT 1 false Hc) as (? & ? & [] & _).
    - apply map_ext_in. intros c Hc.
      assert (G : forall k : bool, (if k then snd (f c) else fst (f c)) = true).
      { intros k. destruct (TT c k Hc) as (r & w & X & Y). apply in_map_iff in X as (c' & X & _).
        injection X as -> X. rewrite X. destruct k; exact Y. }
      pose proof (G false). pose proof (G true). cbv iota in *. destruct (f c). cbn [fst snd] in *. congruence. }
  exists b, e. split; [exact B1|]. split; [exact E1|]. unfold ev_loop.
  rewrite (enter_all_full b e 0); [reflexivity| | | | |].
  - rewrite T1. reflexivity.
  - rewrite N1. reflexivity.
  - unfold BATCH; lia.
  - intros x Hx. rewrite S in Hx. apply in_map_iff in Hx as (c & <- & Hc). cbn [fst snd]. auto.
  - rewrite S, zlen_map, LQ. lia.
Qed.
Print Assumptions C108_refuted_table.

(** with at most 768 connections the batch is one that the table is made for, so C62 and
    C65 hold for this back end as well; and unless it is empty it contains every
    connection *)
Definition covers (s : st) (b : list report) : Prop :=
  b = [] \/ forall e, live (evm s e) = true -> In e (map fst b).

Theorem C108_table_partial : forall l, sall [] l -> exists s, sel_run sst0 l = Ok s /\
  forall rdy b e, sel_round s rdy = Ok (Some b) -> zlen (s_queue s) <= BATCH ->
    (forall c, live (evm e c) = salive l c) -> valid e b /\ covers e b.
Proof.
  intros l A. destruct (sinv_run l sst0 [] sinv0 A) as (s & E & I). cbn [app] in I. exists s. split; [exact E|].
  intros rdy b e R Q L.
  destruct (round_spec s l rdy I) as [(X & _)|(b' & B1 & B2 & _)]; [congruence|].
  rewrite R in B1. injection B1 as <-.
  assert (BM : b = [] \/ exists f, b = map (fun c => (c, f c)) (s_queue s)).
  { revert R. unfold sel_round. destruct (SETSIZE <=? fdmax s); [discriminate|].
    destruct (kselect s (fdmax s + 1) rdy) as [[r w]|]; [|discriminate].
    destruct (existsb _ _); intros X; injection X as <-; [right|left; reflexivity].
    exists (fun c => (r (s_fd (s_con s c)), w (s_fd (s_con s c)))). reflexivity. }
  split; [constructor; auto|].
  - destruct BM as [->|(f & ->)]; [vm_compute; discriminate|rewrite zlen_map; exact Q].
  - intros c Hc. rewrite L. destruct BM as [->|(f & ->)]; [destruct Hc|].
    rewrite map_map in Hc. cbn [fst] in Hc. rewrite map_id in Hc. apply (i_mem _ _ I). exact Hc.
  - destruct BM as [->|(f & ->)]; [left; reflexivity|right]. intros c Hc. rewrite L in Hc.
    rewrite map_map. cbn [fst]. rewrite map_id. apply (i_mem _ _ I). exact Hc.
Qed.
Print Assumptions C108_table_partial.

Example C108_table_ex : exists s, sel_run sst0 sex = Ok s /\ s_queue s = [1; 3] /\ zlen (s_queue s) <= BATCH /\
  exists e, do_acts st0 [ANew 1; ANew 2; ANew 3; AFree 2] = Ok e /\ live (evm e 3) = salive sex 3 /\ live (evm e 2) = salive sex 2.
Proof.
  assert (P : match sel_run sst0 sex with Ok s => match s_queue s with [1; 3] => true | _ => false end | _ => false end = true)
    by (vm_compute; reflexivity).
  destruct (sel_run sst0 sex) as [s| |]; try discriminate P. exists s. split; [reflexivity|].
  assert (Q : s_queue s = [1; 3]).
  { destruct (s_queue s) as [|[|[| |]|] [|[|[[| |]| |]|] [|]]]; try discriminate P. reflexivity. }
  rewrite Q. split; [reflexivity|]. split; [vm_compute; discriminate|].
  destruct (do_acts st0 [ANew 1; ANew 2; ANew 3; AFree 2]) as [e| |] eqn:E; try (vm_compute in E; discriminate).
  exists e. split; [reflexivity|].
  destruct (ev_free (ev_alloc (ev_alloc (ev_alloc st0 1) 2) 3) 2) as [e'| |] eqn:E'; try (vm_compute in E'; discriminate).
  assert (e' = e) as -> by (cbn in E; cbn in E'; congruence). injection E' as <-. split; reflexivity.
Qed.

(** Every round of this back end puts the indices of all connections back, so the stale
    indices of C63 cannot do harm: every event of a connection that stays is delivered,
    whatever the callbacks release. *)
Inductive reach_sel : st -> Prop :=
| rs0 : reach_sel st0
| rs_acts s l s' : reach_sel s -> do_acts s l = Ok s' -> reach_sel s'
| rs_loop s b progs s' log : reach_sel s -> valid s b -> covers s b ->
    ev_loop s b progs = Ok (s', log) -> reach_sel s'.

Lemma covers_loop s b progs s' log : ready s -> valid s b -> covers s b ->
  ev_loop s b progs = Ok (s', log) -> hit s = false -> hit s' = false.
Proof.
  intros R V T H HH. destruct (start_ok s b R V) as (s1 & E1 & En). unfold ev_loop in H. rewrite E1 in H. cbn [bind] in H.
  apply bind_ok in H as ([s2 log2] & E2 & H). cbn [fst snd] in H. inversion H; subst; clear H. cbn [hit].
  destruct T as [->|T].
  { cbn [enter_all] in E1. injection E1 as <-. rewrite (r_evn _ R) in E2. cbn in E2. injection E2 as <- <-. exact HH. }
  pose proof (valid_max _ _ V) as M. pose proof (entered_safe s s1 b En M) as A.
  pose proof (n_evn _ _ _ En) as N. pose proof (zlen_nonneg (flat b)).
  pose (ids := flat_map (fun p => flat_map (fun a => match a with AFree e => [e] | _ => [] end) p) progs).
  eapply (dispatch_own (flat b) (fun e => gen (evm s e)) ids); [| |exact A| | |exact E2| ]; try lia.
  - intros e i _ Lv Hi. apply (entered_own _ _ _ En e i); auto. apply T. destruct (n_ev _ _ _ En e). congruence.
  - intros p e Hp He. unfold ids. apply in_flat_map. exists p. split; [exact Hp|]. apply in_flat_map.
    exists (AFree e). split; [exact He|left; reflexivity].
  - rewrite (n_hit _ _ _ En). auto.
Qed.

Lemma reach_sel_ok s : reach_sel s -> reach s /\ hit s = false.
Proof.
  induction 1 as [|s l s' R [R1 H1] E|s b progs s' log R [R1 H1] V T E].
  - split; [constructor|reflexivity].
  - split; [eapply reach_acts; eauto|]. eapply acts_idle_hit; eauto. apply reach_ready; auto.
  - split; [eapply reach_loop; eauto|]. eapply covers_loop; eauto. apply reach_ready; auto.
Qed.

Theorem C108_delivered : forall s b progs s' log, reach_sel s -> valid s b -> covers s b ->
  ev_loop s b progs = Ok (s', log) ->
  forall e r w, In (e, (r, w)) b -> stays s s' e ->
    (r = true -> delivered log e (gen (evm s e)) false) /\
    (w = true -> delivered log e (gen (evm s e)) true).
Proof.
  intros s b progs s' log R V T H. apply reach_sel_ok in R as [R HH].
  eapply C63_exact; eauto. eapply covers_loop; eauto. apply reach_ready; auto.
Qed.
Print Assumptions C108_delivered.

(** the round in which the first callback releases a connection that has no event *)
Definition bsel : list report := [(1, (true, false)); (2, (false, false)); (3, (false, true)); (4, (false, false))].
Example C108_delivered_ex : exists s' log, reach_sel four /\ valid four bsel /\ covers four bsel /\
  ev_loop four bsel p2 = Ok (s', log) /\ stays four s' 3 /\ delivered log 3 1 true.
Proof.
  eexists _, _. split; [|split; [|split; [|split; [vm_compute; reflexivity|]]]].
  - apply (rs_acts st0 setup); [constructor|reflexivity].
  - apply valid_small; [reflexivity|vm_compute; discriminate|repeat constructor; cbn; intuition discriminate].
  - right. intros e H. revert H. unfold four, bsel. cbn. unfold upd.
    repeat (match goal with |- context [e =? ?b] => destruct (Z.eqb_spec e b); [subst; auto|] end). cbn. discriminate.
  - split; [split; reflexivity|]. left. cbn. auto.
Qed.
