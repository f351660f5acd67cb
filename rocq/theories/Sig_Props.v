(** * Signals at any moment: C113, C116 *)
From Verif Require Import Base Sig_Model.
From Verif Require Proc_Model.

(** ** Specification *)

(** statements of the part between start-up and end *)
Definition middle (o : op) : Prop :=
  match o with
  | OQuiet | OBlock | OFork _ _ | OChild _ | OUnblock | OFlags | OSuspend => True
  | _ => False
  end.
(** every process of the program runs such a list of statements *)
Definition life (n : nat) (mid : list op) : list op := boot n ++ mid ++ finish.

(** the two critical periods, by the statements still to come: at least one handler is
    installed and the context is not there yet; the table or the context was released *)
Definition starting (n : nat) (mid todo : list op) : Prop :=
  exists done rest, map OInstall all_sg = done ++ rest /\ done <> [] /\
    todo = rest ++ [OCtx; OMaster; OShm n; OQuiet] ++ mid ++ finish.
Definition ending (todo : list op) : Prop :=
  todo = [OCtxFree; OQuiet] \/ todo = [OQuiet] \/ todo = [].

Definition signal (a : act) : Prop := match a with Do => False | _ => True end.
Definition start_of (n : nat) (mid : list op) : proc := Run ps0 (life n mid).

(** the property: whatever happens, the process does not crash *)
Definition C113_property : Prop := forall n mid t f, Forall middle mid -> exec (start_of n mid) t <> Fault f.

(** the programs of the model are such lives *)
Lemma forks_middle pids : Forall middle (forks pids).
Proof. unfold forks. apply Forall_forall. intros o (x & <- & _)%in_map_iff. exact I. Qed.
Lemma round_middle again : Forall middle (round again).
Proof.
  unfold round. repeat (apply Forall_app; split); repeat constructor.
  apply Forall_forall. intros o (x & <- & _)%in_map_iff. exact I.
Qed.
Lemma rounds_middle rounds : Forall middle (concat (map round rounds)).
Proof.
  induction rounds as [|r rs IH]; cbn [map concat]; [constructor|].
  apply Forall_app; split; [apply round_middle|exact IH].
Qed.
Lemma master_life pids rounds : exists mid, Forall middle mid /\ master_prog pids rounds = life (length pids) mid.
Proof.
  exists ([OBlock] ++ forks pids ++ concat (map round rounds)). split.
  - repeat (apply Forall_app; split); [repeat constructor|apply forks_middle|apply rounds_middle].
  - unfold master_prog, life. rewrite <- !app_assoc. reflexivity.
Qed.
Lemma flags_middle k : Forall middle (repeat OFlags k).
Proof. apply Forall_forall. intros o H. apply repeat_spec in H. subst. exact I. Qed.
Lemma single_life k : exists mid, Forall middle mid /\ single_prog k = life 0 mid.
Proof.
  exists ([OUnblock] ++ repeat OFlags k). split; [|unfold single_prog, life; rewrite <- !app_assoc; reflexivity].
  apply Forall_app; split; [repeat constructor|apply flags_middle].
Qed.
(** the master's statements up to a fork are the start-up and a part of the middle *)
Lemma app_prefix {A} : forall (a b c d : list A), a ++ b = c ++ d -> (length c <= length a)%nat -> exists m, a = c ++ m /\ d = m ++ b.
Proof.
  induction a as [|x a IH]; intros b c d E L.
  - destruct c; [|cbn in L; inversion L]. exists []. cbn in *. auto.
  - destruct c as [|y c]; [exists (x :: a); auto|]. cbn in E. injection E as <- E.
    destruct (IH b c d E) as (m & -> & ->); [cbn in L; apply le_S_n; exact L|]. exists m. auto.
Qed.
Lemma worker_life pids rounds pre i pid rest k :
  master_prog pids rounds = pre ++ OFork i pid :: rest ->
  exists mid, Forall middle mid /\ worker_prog pre i k = life (length pids) mid.
Proof.
  intros E. destruct (master_life pids rounds) as (mid & M & EM). rewrite EM in E. unfold life in E.
  assert (L : (length (boot (length pids)) <= length pre)%nat).
  { destruct (Compare_dec.le_lt_dec (length (boot (length pids))) (length pre)) as [|H]; [assumption|exfalso].
    symmetry in E. assert (N : nth_error (boot (length pids)) (length pre) = Some (OFork i pid)).
    { rewrite <- (nth_error_app1 _ (mid ++ finish) H), <- E, nth_error_app2, PeanoNat.Nat.sub_diag; [reflexivity|apply le_n]. }
    apply nth_error_In in N. unfold boot in N. cbn in N. intuition discriminate. }
  symmetry in E. destruct (app_prefix _ _ _ _ E L) as (m & -> & E2).
  assert (MM : Forall middle m).
  { apply Forall_forall. intros o IN. 
    assert (L2 : (length m < length mid)%nat \/ exists m', m = mid ++ m').
    { destruct (Compare_dec.le_lt_dec (length mid) (length m)) as [H|H]; [right|left; exact H].
      symmetry in E2. destruct (app_prefix _ _ _ _ E2 H) as (m' & -> & _). eauto. }
    destruct L2 as [L2|(m' & ->)].
    - destruct (app_prefix _ _ _ _ E2 (PeanoNat.Nat.lt_le_incl _ _ L2)) as (m' & -> & _).
      rewrite Forall_app in M. destruct M as [M _]. rewrite Forall_forall in M. auto.
    - rewrite <- app_assoc in E2. apply app_inv_head in E2. exfalso.
      assert (K : In (OFork i pid) finish) by (rewrite E2; apply in_or_app; right; left; reflexivity).
      cbn in K. intuition discriminate. }
  exists (m ++ [OChild i; OUnblock] ++ repeat OFlags k). split.
  - apply Forall_app; split; [exact MM|]. apply Forall_app; split; [repeat constructor|apply flags_middle].
  - unfold worker_prog, life. rewrite <- !app_assoc. reflexivity.
Qed.

(** ** Invariant: what is there, by what is still to come *)
Inductive stage (n : nat) (mid : list op) : ps -> list op -> Prop :=
| st_first p : ctx p = BNone -> (forall s, inst p s = false) -> stage n mid p (life n mid)
| st_inst p done rest : map OInstall all_sg = done ++ rest -> ctx p = BNone -> 
    (done = [] -> forall s, inst p s = false) ->
    stage n mid p (rest ++ [OCtx; OMaster; OShm n; OQuiet] ++ mid ++ finish)
| st_ctx p rest : ctx p = BLive -> tab p = [] ->
    (rest = [OMaster; OShm n; OQuiet] \/ rest = [OShm n; OQuiet]) ->
    stage n mid p (rest ++ mid ++ finish)
| st_quiet p : ctx p = BLive -> shm p = BLive -> stage n mid p (OQuiet :: mid ++ finish)
| st_mid p done rest : ctx p = BLive -> shm p = BLive -> mid = done ++ rest ->
    stage n mid p (rest ++ finish)
| st_fin p : ctx p = BLive -> shm p = BLive -> stage n mid p [OShmFree; OCtxFree; OQuiet]
| st_end p : (ctx p = BLive \/ ctx p = BGone) -> shm p = BGone -> forall todo, ending todo ->
    (ctx p = BLive <-> todo = [OCtxFree; OQuiet]) -> stage n mid p todo.

Lemma wait_ctx : forall dead p q, waitpids p dead = Ok q -> ctx q = ctx p /\ shm q = shm p /\ inst q = inst p /\ (tab p = [] -> tab q = []) /\ quit q = quit p /\ pend q = pend p /\ blocked q = blocked p /\ id_ q = id_ p.
Proof.
  induction dead as [|d r IH]; intros p q E; cbn [waitpids] in E.
  - injection E as <-. repeat split; auto.
  - destruct (tab p) as [|x l] eqn:T.
    + apply IH in E. rewrite T in E. intuition.
    + apply bind_ok in E as (u & _ & E). apply IH in E. cbn in E.
      repeat split; try tauto. discriminate.
Qed.
Lemma wait_ok : forall dead p, shm p = BLive \/ tab p = [] -> exists q, waitpids p dead = Ok q.
Proof.
  induction dead as [|d r IH]; intros p H; cbn [waitpids]; [eauto|].
  destruct (tab p) eqn:T; [apply IH; auto|].
  destruct H as [H|H]; [|discriminate]. rewrite H. cbn [deref bind]. apply IH. cbn. auto.
Qed.
Lemma handler_ctx p s dead e q : handler p s dead e = Ok q ->
  ctx q = ctx p /\ shm q = shm p /\ inst q = inst p /\ (tab p = [] -> tab q = []) /\ errno_ q = errno_ p /\
  pend q = pend p /\ blocked q = blocked p /\ id_ q = id_ p /\
  quit q = (match s with SInt => true | _ => quit p end).
Proof.
  unfold handler. intros E. apply bind_ok in E as (u & _ & E). apply bind_ok in E as (p' & E1 & E). injection E as <-.
  destruct (id_ p =? MASTER) eqn:IM; destruct s; try (injection E1 as <-; cbn; repeat split; auto; fail).
  apply bind_ok in E1 as (w & E1 & E2). injection E2 as <-. apply wait_ctx in E1. cbn in *. intuition.
Qed.
Lemma handler_ok p s dead e : ctx p = BLive -> shm p = BLive \/ tab p = [] -> exists q, handler p s dead e = Ok q.
Proof.
  intros C H. unfold handler. rewrite C. cbn [deref bind].
  destruct (id_ p =? MASTER); destruct s; cbn [bind]; eauto.
  destruct (wait_ok dead (set_reap p true)) as (q & ->); [exact H|]. cbn [bind]. eauto.
Qed.

Lemma life_unfold n mid : life n mid = OQuiet :: map OInstall all_sg ++ [OCtx; OMaster; OShm n; OQuiet] ++ mid ++ finish.
Proof. unfold life, boot. rewrite <- !app_assoc. reflexivity. Qed.

Lemma handler_stage n mid p s dead e q todo : stage n mid p todo -> handler p s dead e = Ok q -> stage n mid q todo.
Proof.
  intros H E. apply handler_ctx in E as (E1 & E2 & E3 & E4 & _).
  destruct H as [p HC HI|p d r HE HC HI|p r HC HT HR|p HC HS|p d r HC HS HE|p HC HS|p HC HS todo HE HQ].
  - apply st_first; [congruence|rewrite E3; exact HI].
  - eapply st_inst; [exact HE|congruence|rewrite E3; exact HI].
  - apply st_ctx; [congruence|auto|exact HR].
  - apply st_quiet; congruence.
  - eapply st_mid; [congruence|congruence|exact HE].
  - apply st_fin; congruence.
  - apply st_end; [rewrite E1; exact HC|congruence|exact HE|rewrite E1; exact HQ].
Qed.
Lemma pend_stage n mid p f todo : stage n mid p todo -> stage n mid (set_pend p f) todo.
Proof.
  intros [q HC HI|q d r HE HC HI|q r HC HT HR|q HC HS|q d r HC HS HE|q HC HS|q HC HS todo' HE HQ].
  - apply st_first; auto.
  - eapply st_inst; eauto.
  - apply st_ctx; auto.
  - apply st_quiet; auto.
  - eapply st_mid; eauto.
  - apply st_fin; auto.
  - apply st_end; auto.
Qed.

(** a statement keeps the invariant and never faults *)
Lemma op_stage n mid p o todo : Forall middle mid -> stage n mid p (o :: todo) -> o <> OSuspend ->
  exists q, do_op p o = Ok q /\ stage n mid q todo.
Proof.
  intros M H NS. remember (o :: todo) as l eqn:EL.
  destruct H as [p HC HI|p d r HE HC HI|p r HC HT HR|p HC HS|p d r HC HS HE|p HC HS|p HC HS todo' HE HQ].
  - rewrite life_unfold in EL. injection EL as <- <-. exists p. split; [reflexivity|].
    apply (st_inst n mid p [] (map OInstall all_sg)); auto.
  - destruct r as [|x r].
    + cbn in EL. injection EL as <- <-. cbn [do_op]. eexists. split; [reflexivity|].
      apply (st_ctx n mid _ [OMaster; OShm n; OQuiet]); auto.
    + assert (IX : In x (map OInstall all_sg)) by (rewrite HE; apply in_or_app; right; left; reflexivity).
      apply in_map_iff in IX as (s & <- & _). cbn [app] in EL. injection EL as <- <-.
      cbn [do_op]. eexists. split; [reflexivity|].
      apply (st_inst n mid _ (d ++ [OInstall s]) r); [rewrite <- app_assoc; exact HE|exact HC|].
      intros K. apply app_eq_nil in K as [_ K]. discriminate.
  - destruct HR as [-> | ->]; cbn [app] in EL; injection EL as <- <-; cbn [do_op]; rewrite HC; cbn [deref bind].
    + eexists. split; [reflexivity|]. apply (st_ctx n mid _ [OShm n; OQuiet]); auto.
    + eexists. split; [reflexivity|]. apply st_quiet; auto.
  - injection EL as <- <-. exists p. split; [reflexivity|]. apply (st_mid n mid p [] mid); auto.
  - destruct r as [|x r].
    + cbn in EL. injection EL as <- <-. exists p. split; [reflexivity|]. apply st_fin; auto.
    + cbn [app] in EL. injection EL as -> <-.
      assert (MO : middle o). { rewrite Forall_forall in M. apply M. rewrite HE. apply in_or_app. right. left. reflexivity. }
      assert (HE2 : mid = (d ++ [o]) ++ r) by (rewrite <- app_assoc; exact HE).
      destruct o; try destruct MO; try congruence; cbn [do_op]; rewrite ?HC, ?HS; cbn [deref bind];
        (eexists; split; [reflexivity|]; eapply st_mid; [| |exact HE2]; auto).
  - injection EL as <- <-. cbn [do_op]. rewrite HC, HS. cbn [deref bind]. eexists. split; [reflexivity|].
    apply st_end; cbn; auto; [left; reflexivity|tauto].
  - subst todo'. destruct HE as [K|[K|K]]; try discriminate; injection K as -> ->.
    + cbn [do_op]. destruct HQ as [_ HQ]. rewrite (HQ eq_refl). cbn [deref bind]. eexists. split; [reflexivity|].
      apply st_end; cbn; auto; [right; left; reflexivity|split; discriminate].
    + exists p. split; [reflexivity|]. apply st_end; auto; [right; right; reflexivity|].
      split; [|discriminate]. intros K. apply HQ in K. discriminate.
Qed.

Definition pstage n mid (x : proc) : Prop := match x with Run p todo => stage n mid p todo | _ => True end.

Lemma suspend_mid n mid p r : Forall middle mid -> stage n mid p (OSuspend :: r) ->
  ctx p = BLive /\ shm p = BLive /\ forall q, ctx q = BLive -> shm q = BLive -> stage n mid q r.
Proof.
  intros M H. remember (OSuspend :: r) as l eqn:EL.
  destruct H as [p HC HI|p d r' HE HC HI|p r' HC HT HR|p HC HS|p d r' HC HS HE|p HC HS|p HC HS todo' HE HQ]; try discriminate.
  - destruct r'; [discriminate|]. assert (IX : In o (map OInstall all_sg)) by (rewrite HE; apply in_or_app; right; left; reflexivity).
    apply in_map_iff in IX as (s & <- & _). discriminate.
  - destruct HR as [-> | ->]; discriminate.
  - destruct r' as [|x r']; [discriminate|]. cbn [app] in EL. injection EL as -> <-. repeat split; auto.
    intros q C S1. eapply (st_mid _ _ q (d ++ [OSuspend])); auto. rewrite <- app_assoc. exact HE.
  - subst todo'. destruct HE as [K|[K|K]]; discriminate.
Qed.

(** where a fault can happen *)
Definition critical n mid p todo (s : sg) (f : fault) : Prop :=
  inst p s = true /\
  ((starting n mid todo /\ f = FNull) \/
   (ending todo /\ (blocked p = true -> in_set s = false) /\ f = FUaf)).

Lemma step_stage n mid x a : Forall middle mid -> pstage n mid x ->
  match step x a with
  | Ok (Some y) => pstage n mid y
  | Ok None => True
  | Fault f => exists p todo s, x = Run p todo /\ signal a /\ critical n mid p todo s f /\ exists dead e, a = Sig s dead e
  | NoFuel => False
  end.
Proof.
  intros M H. destruct x as [p todo| |]; [|exact I|exact I]. cbn [pstage] in H. cbn [step].
  destruct a as [|s dead e|s dead e].
  - destruct todo as [|o todo]; [exact I|].
    destruct (match o with OSuspend => true | _ => false end) eqn:OS.
    + destruct o; try discriminate. exact I.
    + destruct (op_stage n mid p o todo M H) as (q & E & HS); [destruct o; discriminate|].
      destruct o; try discriminate; rewrite E; cbn [bind]; exact HS.
  - destruct (inst p s) eqn:IN; cbn [negb].
    2:{ destruct s; cbn; auto. }
    destruct (match todo with OSuspend :: _ => true | _ => false end) eqn:OS.
    + destruct todo as [|o todo]; [discriminate|]. destruct o; try discriminate.
      destruct (suspend_mid n mid p todo M H) as (C & S1 & K).
      destruct (handler_ok p s dead e C (or_introl S1)) as (q & E). rewrite E. cbn [bind pstage].
      apply handler_ctx in E as (E1 & E2 & _). apply K; congruence.
    + assert (G : match (if blocked p && in_set s then Ok (Some (Run (set_pend p (fun y => sg_eqb s y || pend p y)) todo))
                  else let* p' := handler p s dead e in Ok (Some (Run p' todo))) with
                  | Ok (Some y) => pstage n mid y
                  | Ok None => True
                  | Fault f => exists p1 todo1 s0, Run p todo = Run p1 todo1 /\ signal (Sig s dead e) /\ critical n mid p1 todo1 s0 f /\ exists dead0 e0, Sig s dead e = Sig s0 dead0 e0
                  | NoFuel => False end).
      2:{ destruct todo as [|o todo]; [exact G|]. destruct o; try discriminate; exact G. }
      destruct (blocked p && in_set s) eqn:B; [cbn [pstage]; apply pend_stage; exact H|].
      assert (BL : blocked p = true -> in_set s = false).
      { intros Bp. rewrite Bp in B. exact B. }
      destruct (handler p s dead e) as [q|f|] eqn:E; cbn [bind].
      * cbn [pstage]. eapply handler_stage; eauto.
      * exists p, todo, s. split; [reflexivity|]. split; [exact I|]. split; [|eauto]. split; [exact IN|].
        destruct H as [p HC HI|p d r HE HC HI|p r HC HT HR|p HC HS|p d r HC HS HE|p HC HS|p HC HS todo HE HQ];
          try (destruct (handler_ok p s dead e HC) as (q & E'); [auto|congruence]).
        -- congruence.
        -- left. unfold handler in E. rewrite HC in E. cbn [deref bind] in E. injection E as <-. split; [|reflexivity].
           exists d, r. split; [exact HE|split; [|reflexivity]]. intros ->. rewrite HI in IN; [discriminate|reflexivity].
        -- right. split; [exact HE|split; [exact BL|]]. unfold handler in E.
           destruct HC as [HC|HC]; rewrite HC in E; cbn [deref bind] in E; [|congruence].
           destruct (id_ p =? MASTER); destruct s; cbn [bind] in E; try discriminate.
           destruct (waitpids (set_reap p true) dead) as [w|f'|] eqn:W; cbn [bind] in E; try discriminate.
           injection E as ->.
           assert (K : forall l q0, shm q0 = BGone -> waitpids q0 l = Fault f -> f = FUaf).
           { induction l as [|d' l IH]; intros q0 G0 W0; cbn [waitpids] in W0; [discriminate|].
             destruct (tab q0); [apply IH in W0; auto|]. rewrite G0 in W0. cbn in W0. congruence. }
           apply (K dead (set_reap p true)); auto.
      * exfalso. unfold handler in E. destruct (ctx p); cbn [deref bind] in E; try discriminate.
        destruct (id_ p =? MASTER); destruct s; cbn [bind] in E; try discriminate.
        destruct (waitpids (set_reap p true) dead) as [w|f'|] eqn:W; cbn [bind] in E; try discriminate.
        assert (K : forall l q0, waitpids q0 l <> NoFuel).
        { induction l as [|d' l IH]; intros q0; cbn [waitpids]; [discriminate|].
          destruct (tab q0); [apply IH|]. destruct (shm q0); cbn [deref bind]; try discriminate. apply IH. }
        exact (K _ _ W).
  - destruct todo as [|o todo]; [exact I|]. destruct o; try exact I.
    destruct (pend p s) eqn:PD; [|exact I].
    destruct (suspend_mid n mid p todo M H) as (C & S1 & K).
    destruct (handler_ok (set_pend p (fun y => negb (sg_eqb s y) && pend p y)) s dead e C (or_introl S1)) as (q & E).
    rewrite E. cbn [bind pstage]. apply handler_ctx in E as (E1 & E2 & _). apply K; [rewrite E1; exact C|rewrite E2; exact S1].
Qed.

Lemma exec_stage n mid : Forall middle mid -> forall t x, pstage n mid x ->
  match exec x t with
  | Ok (Some y) => pstage n mid y
  | Ok None => True
  | Fault f => exists t1 s dead e t2 p todo, t = t1 ++ Sig s dead e :: t2 /\ exec x t1 = Ok (Some (Run p todo)) /\ critical n mid p todo s f
  | NoFuel => False
  end.
Proof.
  intros M t. induction t as [|a r IH]; intros x H; cbn [exec]; [exact H|].
  pose proof (step_stage n mid x a M H) as G. destruct (step x a) as [[y|]|f|] eqn:E; cbn [bind].
  - specialize (IH y G). destruct (exec y r) as [[z|]|f|]; auto.
    destruct IH as (t1 & s & dead & e & t2 & p & todo & -> & E1 & K).
    exists (a :: t1), s, dead, e, t2, p, todo. split; [reflexivity|]. split; [|exact K].
    cbn [exec]. rewrite E. cbn [bind]. exact E1.
  - exact I.
  - destruct G as (p & todo & s & -> & _ & K & dead & e & ->).
    exists [], s, dead, e, r, p, todo. split; [reflexivity|]. split; [reflexivity|exact K].
  - exact G.
Qed.
Lemma start_stage n mid : pstage n mid (start_of n mid).
Proof. cbn [pstage start_of]. apply st_first; reflexivity. Qed.

(** ** C113 *)

(** A crash needs a signal for which a handler is installed, in one of the two critical
    periods; outside them no signal and no statement of any process of the program
    crashes it, and every handler leaves errno as it was. *)
Theorem C113_partial : forall n mid t f, Forall middle mid ->
  exec (start_of n mid) t = Fault f ->
  exists t1 s dead e t2 p todo, t = t1 ++ Sig s dead e :: t2 /\
    exec (start_of n mid) t1 = Ok (Some (Run p todo)) /\ inst p s = true /\
    ((starting n mid todo /\ f = FNull) \/
     (ending todo /\ (blocked p = true -> in_set s = false) /\ f = FUaf)).
Proof.
  intros n mid t f M E. pose proof (exec_stage n mid M t _ (start_stage n mid)) as G. rewrite E in G. exact G.
Qed.
Print Assumptions C113_partial.

(** in other words: if no signal falls into the critical periods, there is no crash *)
Theorem C113_no_crash_partial : forall n mid t, Forall middle mid ->
  (forall t1 s dead e t2 p todo, t = t1 ++ Sig s dead e :: t2 ->
     exec (start_of n mid) t1 = Ok (Some (Run p todo)) -> ~ starting n mid todo /\ ~ ending todo) ->
  exists r, exec (start_of n mid) t = Ok r.
Proof.
  intros n mid t M H. pose proof (exec_stage n mid M t _ (start_stage n mid)) as G.
  destruct (exec (start_of n mid) t) as [r|f|]; [eauto| |destruct G].
  destruct G as (t1 & s & dead & e & t2 & p & todo & -> & E & _ & [(K & _)|(K & _)]);
    destruct (H _ _ _ _ _ _ _ eq_refl E) as (K1 & K2); tauto.
Qed.
Print Assumptions C113_no_crash_partial.

(** the interrupted computation finds errno as it was *)
Theorem C113_errno : forall p todo s dead e a p' todo', a = Sig s dead e \/ a = Dlv s dead e ->
  step (Run p todo) a = Ok (Some (Run p' todo')) -> errno_ p' = errno_ p.
Proof.
  intros p todo s dead e a p' todo' [-> | ->] E; cbn [step] in E.
  - destruct (inst p s); cbn [negb] in E.
    2:{ destruct s; try discriminate. injection E as <- _. reflexivity. }
    assert (HH : forall r, (let* q := handler p s dead e in Ok (Some (Run q r))) = Ok (Some (Run p' todo')) -> errno_ p' = errno_ p).
    { intros r E1. apply bind_ok in E1 as (q & E1 & E2). injection E2 as <- _. apply handler_ctx in E1. tauto. }
    destruct todo as [|o r]; [|destruct o]; try (destruct (blocked p && in_set s); [injection E as <- _; reflexivity|eapply HH; exact E]).
    eapply HH; exact E.
  - destruct todo as [|o r]; [discriminate|]. destruct o; try discriminate. destruct (pend p s); [|discriminate].
    apply bind_ok in E as (q & E1 & E2). injection E2 as <- _. apply handler_ctx in E1. cbn in E1. tauto.
Qed.
Print Assumptions C113_errno.

(** process.c:224-225: the handlers are installed before the context is there *)
Theorem C113_start_refuted : forall n mid s, exec (start_of n mid) (repeat Do 7 ++ [Sig s [] 0]) = Fault FNull.
Proof. intros n mid s. destruct s; reflexivity. Qed.
Print Assumptions C113_start_refuted.

(** process.c:244: the context is released, the handlers stay. With [n] workers: whichever
    worker it is and however often it looked at the flag, a second SIGINT right before its
    end finds released memory *)
Definition one_worker (n i k : nat) : list op := worker_prog (boot n ++ [OBlock]) i k.
Lemma do_app : forall a x b, exec x (a ++ b) =
  match exec x a with Ok (Some y) => exec y b | Ok None => Ok None | Fault f => Fault f | NoFuel => NoFuel end.
Proof.
  induction a as [|c a IH]; intros x b; cbn [app exec]; [reflexivity|].
  destruct (step x c) as [[y|]|f|]; cbn [bind]; auto.
Qed.
Lemma do_flags : forall k p todo, ctx p = BLive -> shm p = BLive ->
  exec (Run p (repeat OFlags k ++ todo)) (repeat Do k) = Ok (Some (Run p todo)).
Proof.
  induction k as [|k IH]; intros p todo C H; cbn [repeat app exec step do_op]; [reflexivity|].
  rewrite C, H. cbn [deref bind]. apply IH; auto.
Qed.
Lemma boot_worker n i todo : exists p, exec (Run ps0 (boot n ++ [OBlock; OChild i; OUnblock] ++ todo)) (repeat Do 14) = Ok (Some (Run p todo)) /\
    ctx p = BLive /\ shm p = BLive /\ inst p SInt = true /\ blocked p = false.
Proof. eexists. split; [vm_compute; reflexivity|]. repeat split. Qed.
Theorem C113_end_refuted : forall n k, exists t,
  exec (Run ps0 (one_worker (S n) n k)) t = Fault FUaf /\
  t = repeat Do 14 ++ [Sig SInt [] 0] ++ repeat Do k ++ repeat Do 3 ++ [Sig SInt [] 0].
Proof.
  intros n k. eexists. split; [|reflexivity].
  destruct (boot_worker (S n) n (repeat OFlags k ++ finish)) as (p & E1 & C & H & IN & B).
  change (boot (S n) ++ [OBlock; OChild n; OUnblock] ++ repeat OFlags k ++ finish) with (one_worker (S n) n k) in E1.
  rewrite do_app, E1, do_app.
  destruct (handler_ok p SInt [] 0 C (or_introl H)) as (q & E2).
  assert (E3 : exec (Run p (repeat OFlags k ++ finish)) [Sig SInt [] 0] = Ok (Some (Run q (repeat OFlags k ++ finish)))).
  { cbn [exec step]. rewrite IN, B, E2. cbn [negb andb]. destruct k; reflexivity. }
  rewrite E3. apply handler_ctx in E2 as (C2 & H2 & I2 & _ & _ & _ & B2 & _).
  rewrite do_app, do_flags by congruence.
  assert (E4 : exec (Run q finish) (repeat Do 3) = Ok (Some (Run (set_ctx (set_shm q BGone) BGone) [OQuiet]))).
  { cbn [finish repeat exec step do_op bind]. rewrite C2, C, H2, H. cbn [deref bind step do_op ctx set_shm]. rewrite C2, C. reflexivity. }
  rewrite do_app, E4. cbn [exec step inst set_ctx set_shm]. rewrite I2, IN. cbn [negb blocked set_ctx set_shm]. rewrite B2, B. reflexivity.
Qed.
Print Assumptions C113_end_refuted.

Theorem C113_property_refuted : ~ C113_property.
Proof.
  intros H. apply (H 0%nat [] (repeat Do 7 ++ [Sig SInt [] 0]) FNull); [constructor|].
  apply (C113_start_refuted 0 [] SInt).
Qed.
Print Assumptions C113_property_refuted.

(** process.c:116-117 does send the second SIGINT: the master tells all workers to stop
    again whenever it wakes up, here because worker 1 has ended, while worker 0, told
    before, is still on its way out *)
Definition go := Proc_Model.AGo true false.
Definition stop_two : list Proc_Model.act :=
  [go; go; go; Proc_Model.AInt; Proc_Model.ADeliver false true;
   go; go; go; go; go; go; go; go;
   Proc_Model.AStop 1; Proc_Model.ADeliver true false; go].
Theorem C113_second_stop : exists s s',
  Proc_Model.run (Proc_Model.start 2) stop_two = Some s /\
  nth_error (Proc_Model.ws s) 0 = Some (Proc_Model.Wk Proc_Model.KRun false true) /\
  Proc_Model.at_ s = Proc_Model.PQuit 0 /\
  Proc_Model.step s go = Some s' /\ Proc_Model.at_ s' = Proc_Model.PQuit 1.
Proof. eexists. eexists. split; [vm_compute; reflexivity|]. repeat split. Qed.
Print Assumptions C113_second_stop.

(** *** the master's end: only SIGHUP and SIGPIPE are dangerous there, the others are
    blocked *)
Definition keeps_blocked (p : ps) (todo : list op) : Prop :=
  ~ In OUnblock todo /\ (blocked p = true \/ In OBlock todo).
Lemma blocked_step p todo a p' todo' : keeps_blocked p todo -> step (Run p todo) a = Ok (Some (Run p' todo')) -> keeps_blocked p' todo'.
Proof.
  intros (U & B) E. cbn [step] in E. destruct a as [|s dead e|s dead e].
  - destruct todo as [|o r]; [discriminate|].
    assert (X : (let* q := do_op p o in Ok (Some (Run q r))) = Ok (Some (Run p' todo'))) by (destruct o; try discriminate; exact E).
    apply bind_ok in X as (q & X & E2). injection E2 as <- <-. split; [intros K; apply U; right; exact K|].
    destruct B as [B|[->|B]]; [|injection X as <-; left; reflexivity|right; exact B].
    left. destruct o; cbn [do_op] in X; try (injection X as <-; exact B || reflexivity);
      try (apply bind_ok in X as (u & _ & X)); try (injection X as <-; exact B);
      try (apply bind_ok in X as (u2 & _ & X)); try (injection X as <-; exact B).
    destruct (U (or_introl eq_refl)).
  - destruct (inst p s); cbn [negb] in E.
    2:{ destruct s; try discriminate. injection E as <- <-. split; assumption. }
    assert (HH : forall r, (forall o, In o r -> In o todo) -> (In OBlock todo -> In OBlock r) -> (let* q := handler p s dead e in Ok (Some (Run q r))) = Ok (Some (Run p' todo')) -> keeps_blocked p' todo').
    { intros r S1 S2 E1. apply bind_ok in E1 as (q & E1 & E2). injection E2 as <- <-. apply handler_ctx in E1 as (_ & _ & _ & _ & _ & _ & BB & _).
      split; [intros K; apply U; auto|rewrite BB; tauto]. }
    destruct todo as [|o r]; [|destruct o];
      try (destruct (blocked p && in_set s); [injection E as <- <-; split; assumption|eapply HH; [| |exact E]; auto; fail]).
    eapply HH; [| |exact E]; [intros; right; assumption|]. intros [K|K]; [discriminate|exact K].
  - destruct todo as [|o r]; [discriminate|]. destruct o; try discriminate. destruct (pend p s); [|discriminate].
    apply bind_ok in E as (q & E1 & E2). injection E2 as <- <-. apply handler_ctx in E1 as (_ & _ & _ & _ & _ & _ & BB & _).
    split; [intros K; apply U; right; exact K|rewrite BB]. cbn. destruct B as [B|[B|B]]; [tauto|discriminate|tauto].
Qed.
Lemma blocked_exec : forall t p todo p' todo', keeps_blocked p todo -> exec (Run p todo) t = Ok (Some (Run p' todo')) -> keeps_blocked p' todo'.
Proof.
  induction t as [|a t IH]; intros p todo p' todo' K E; cbn [exec] in E.
  - injection E as <- <-. exact K.
  - apply bind_ok in E as ([[q r| |]|] & E1 & E2); try discriminate.
    + apply (IH q r _ _ (blocked_step _ _ _ _ _ K E1) E2).
    + destruct t; cbn in E2; discriminate.
    + destruct t; cbn in E2; discriminate.
Qed.
Lemma master_no_unblock pids rounds : ~ In OUnblock (master_prog pids rounds).
Proof.
  unfold master_prog. rewrite !in_app_iff. intros [K|[K|[K|[K|K]]]].
  - cbn in K. intuition discriminate.
  - cbn in K. intuition discriminate.
  - unfold forks in K. apply in_map_iff in K as (x & K & _). discriminate.
  - apply in_concat in K as (l & K & K2). apply in_map_iff in K as (ag & <- & _). unfold round in K2. rewrite !in_app_iff in K2.
    cbn in K2. destruct K2 as [K2|[K2|K2]]; [intuition discriminate| |intuition discriminate].
    apply in_map_iff in K2 as (x & K2 & _). discriminate.
  - cbn in K. intuition discriminate.
Qed.
Theorem C113_master_end : forall pids rounds t f,
  exec (Run ps0 (master_prog pids rounds)) t = Fault f ->
  exists t1 s dead e t2 p todo, t = t1 ++ Sig s dead e :: t2 /\
    exec (Run ps0 (master_prog pids rounds)) t1 = Ok (Some (Run p todo)) /\
    ((f = FNull /\ In OCtx todo) \/ (f = FUaf /\ ending todo /\ (s = SHup \/ s = SPipe))).
Proof.
  intros pids rounds t f E. destruct (master_life pids rounds) as (mid & M & EM). rewrite EM in E.
  change (Run ps0 (life (length pids) mid)) with (start_of (length pids) mid) in E.
  pose proof (exec_stage (length pids) mid M t _ (start_stage (length pids) mid)) as G. rewrite E in G.
  destruct G as (t1 & s & dead & e & t2 & p & todo & ET & E1 & IN & K).
  exists t1, s, dead, e, t2, p, todo. split; [exact ET|]. split; [rewrite EM; exact E1|].
  destruct K as [(K1 & K2)|(K1 & K2 & K3)].
  - left. split; [exact K2|]. destruct K1 as (dn & rest & _ & _ & ->). apply in_or_app. right. left. reflexivity.
  - right. split; [exact K3|]. split; [exact K1|].
    assert (KB : keeps_blocked p todo).
    { apply (blocked_exec t1 ps0 (life (length pids) mid)); [|exact E1]. rewrite <- EM. split; [apply master_no_unblock|].
      right. unfold master_prog. rewrite !in_app_iff. right. left. left. reflexivity. }
    destruct KB as (_ & [B|B]); [specialize (K2 B); destruct s; try discriminate; auto|].
    destruct K1 as [->|[->| ->]]; cbn in B; intuition discriminate.
Qed.
Print Assumptions C113_master_end.

(** and SIGHUP, or SIGPIPE, does it *)
Theorem C113_master_end_refuted : forall s, s = SHup \/ s = SPipe -> exists t p,
  exec (Run ps0 (master_prog [7] [[]])) t = Ok (Some (Run p [OQuiet])) /\
  exec (Run ps0 (master_prog [7] [[]])) (t ++ [Sig s [] 0]) = Fault FUaf.
Proof.
  intros s H. exists (repeat Do 13 ++ [Sig SInt [] 0] ++ repeat Do 5). eexists. split; [vm_compute; reflexivity|].
  destruct H as [-> | ->]; reflexivity.
Qed.
Print Assumptions C113_master_end_refuted.

(** ** C116: a stop request made while the program starts is obeyed *)

(** the master sleeps: it waits in sigsuspend and no signal is pending *)
Definition asleep (x : proc) : Prop :=
  exists p r, x = Run p (OSuspend :: r) /\ forall s, pend p s = false.
(** the first sigsuspend of the master of the workers [pids] *)
Definition first_wait (rounds : list (list (nat * Z))) (x : proc) : Prop :=
  exists p, x = Run p (concat (map round rounds) ++ finish).
(** the property: a SIGINT came before the first sigsuspend is reached; then the master
    does not sleep there *)
Definition C116_property : Prop := forall pids rounds t x dead e,
  exec (Run ps0 (master_prog pids rounds)) t = Ok (Some x) -> first_wait rounds x ->
  In (Sig SInt dead e) t -> ~ asleep x.

(** process.c:195, 92, 106-112: one that comes when the context is there and the signals
    are not blocked yet sets the flag; the master then sleeps without looking at it. For
    every number of workers. *)
Lemma do_forks : forall l p todo, ctx p = BLive -> shm p = BLive ->
  exists q, exec (Run p (map (fun x => OFork (fst x) (snd x)) l ++ todo)) (repeat Do (length l)) = Ok (Some (Run q todo)) /\
    ctx q = ctx p /\ shm q = shm p /\ pend q = pend p /\ quit q = quit p.
Proof.
  induction l as [|x l IH]; intros p todo C H; cbn [map app length repeat exec step do_op].
  - exists p. auto.
  - rewrite C, H. cbn [deref bind]. destruct (IH (set_tab p (upd_tab (tab p) (fst x) (snd x, false))) todo C H) as (q & E & K).
    exists q. split; [exact E|]. cbn in K. rewrite C, H in K. exact K.
Qed.
Lemma boot_int n todo : exists p, exec (Run ps0 (boot n ++ [OBlock] ++ todo)) (repeat Do 11 ++ [Sig SInt [] 0] ++ [Do]) = Ok (Some (Run p todo)) /\
     ctx p = BLive /\ shm p = BLive /\ quit p = true /\ forall s, pend p s = false.
Proof. eexists. split; [vm_compute; reflexivity|]. repeat split. Qed.
Theorem C116_early_refuted : forall pids r rounds, exists t p todo,
  t = repeat Do 11 ++ [Sig SInt [] 0] ++ repeat Do (1 + length pids) /\
  exec (Run ps0 (master_prog pids (r :: rounds))) t = Ok (Some (Run p todo)) /\
  first_wait (r :: rounds) (Run p todo) /\ asleep (Run p todo) /\ quit p = true.
Proof.
  intros pids r rounds. eexists.
  destruct (boot_int (length pids) (forks pids ++ concat (map round (r :: rounds)) ++ finish)) as (p & E & C & H & Q & P).
  destruct (do_forks (combine (seq 0 (length pids)) pids) p (concat (map round (r :: rounds)) ++ finish) C H) as (q & E2 & C2 & H2 & P2 & Q2).
  rewrite combine_length, seq_length, PeanoNat.Nat.min_id in E2.
  exists q. eexists. split; [reflexivity|]. split.
  - replace (repeat Do (1 + length pids)) with ([Do] ++ repeat Do (length pids)) by reflexivity.
    unfold master_prog.
    rewrite (app_assoc [Sig SInt [] 0]), (app_assoc (repeat Do 11)), do_app, E. exact E2.
  - split; [exists q; reflexivity|]. split; [|congruence]. exists q. eexists. split; [reflexivity|]. intros s. rewrite P2. apply P.
Qed.
Print Assumptions C116_early_refuted.
Theorem C116_property_refuted : ~ C116_property.
Proof.
  intros H. destruct (C116_early_refuted [7] [] []) as (t & p & todo & T & E & F & A & _).
  eapply H; [exact E|exact F| |exact A]. rewrite T. apply in_or_app. right. left. reflexivity.
Qed.
Print Assumptions C116_property_refuted.

(** one that comes after the blocking is kept, and delivered as soon as the master waits *)
Definition waits (todo : list op) : nat := length (filter (fun o => match o with OSuspend => true | _ => false end) todo).
Definition child_free (todo : list op) : Prop := forall i, ~ In (OChild i) todo.
Lemma step_kept p todo a p' todo' : child_free todo -> step (Run p todo) a = Ok (Some (Run p' todo')) ->
  child_free todo' /\ (waits todo' <= waits todo)%nat /\
  (waits todo' = waits todo -> pend p SInt = true -> pend p' SInt = true).
Proof.
  intros U E. cbn [step] in E. destruct a as [|s dead e|s dead e].
  - destruct todo as [|o r]; [discriminate|].
    assert (X : (let* q := do_op p o in Ok (Some (Run q r))) = Ok (Some (Run p' todo')) /\ o <> OSuspend) by (destruct o; try discriminate; (split; [exact E|discriminate])).
    destruct X as (X & NS). apply bind_ok in X as (q & X & E2). injection E2 as <- <-.
    split; [intros i K; apply (U i); right; exact K|]. split; [unfold waits; cbn [filter]; destruct o; cbn [length]; auto|].
    intros _ P. destruct o; cbn [do_op] in X; try (injection X as <-; exact P);
      try (apply bind_ok in X as (u & _ & X)); try (injection X as <-; exact P);
      try (apply bind_ok in X as (u2 & _ & X)); try (injection X as <-; exact P).
    destruct (U i (or_introl eq_refl)).
  - destruct (inst p s); cbn [negb] in E.
    2:{ destruct s; try discriminate. injection E as <- <-. auto. }
    assert (HH : forall r, (let* q := handler p s dead e in Ok (Some (Run q r))) = Ok (Some (Run p' todo')) -> r = todo' /\ pend p' = pend p).
    { intros r E1. apply bind_ok in E1 as (q & E1 & E2). injection E2 as <- <-. apply handler_ctx in E1. tauto. }
    destruct (match todo with OSuspend :: _ => true | _ => false end) eqn:OS.
    + destruct todo as [|o r]; [discriminate|]. destruct o; try discriminate. apply HH in E as (<- & _).
      split; [intros i K; apply (U i); right; exact K|]. unfold waits; cbn [filter length]. split; [auto|]. intros K. exfalso. revert K. apply PeanoNat.Nat.neq_succ_diag_r.
    + assert (G : (if blocked p && in_set s then Ok (Some (Run (set_pend p (fun y => sg_eqb s y || pend p y)) todo))
                  else let* p' := handler p s dead e in Ok (Some (Run p' todo))) = Ok (Some (Run p' todo'))).
      { destruct todo as [|o r]; [exact E|]. destruct o; try discriminate; exact E. }
      destruct (blocked p && in_set s).
      * injection G as <- <-. split; [exact U|]. split; [auto|]. intros _ P. cbn. rewrite P. apply Bool.orb_true_r.
      * apply HH in G as (<- & G). split; [exact U|]. split; [auto|]. intros _ P. congruence.
  - destruct todo as [|o r]; [discriminate|]. destruct o; try discriminate. destruct (pend p s); [|discriminate].
    apply bind_ok in E as (q & E1 & E2). injection E2 as <- <-.
    split; [intros i K; apply (U i); right; exact K|]. unfold waits; cbn [filter length]. split; [auto|]. intros K. exfalso. revert K. apply PeanoNat.Nat.neq_succ_diag_r.
Qed.
Lemma exec_kept : forall t p todo p' todo', child_free todo -> exec (Run p todo) t = Ok (Some (Run p' todo')) ->
  child_free todo' /\ (waits todo' <= waits todo)%nat /\
  (waits todo' = waits todo -> pend p SInt = true -> pend p' SInt = true).
Proof.
  induction t as [|a t IH]; intros p todo p' todo' U E; cbn [exec] in E.
  - injection E as <- <-. auto.
  - apply bind_ok in E as ([[q r| |]|] & E1 & E2); try discriminate.
    2,3: destruct t; cbn in E2; discriminate.
    destruct (step_kept _ _ _ _ _ U E1) as (U1 & L1 & P1). destruct (IH _ _ _ _ U1 E2) as (U2 & L2 & P2).
    split; [exact U2|]. split; [lia|]. intros W P. apply P2; [lia|]. apply P1; [lia|exact P].
Qed.
Lemma round_child : forall rounds, child_free (concat (map round rounds) ++ finish).
Proof.
  intros rounds i K. apply in_app_or in K as [K|K]; [|cbn in K; intuition discriminate].
  apply in_concat in K as (l & K & K2). apply in_map_iff in K as (ag & <- & _). unfold round in K2. rewrite !in_app_iff in K2.
  cbn in K2. destruct K2 as [K2|[K2|K2]]; [intuition discriminate| |intuition discriminate].
  apply in_map_iff in K2 as (x & K2 & _). discriminate.
Qed.
Lemma master_child pids rounds : child_free (master_prog pids rounds).
Proof.
  intros i. unfold master_prog. rewrite !in_app_iff. intros [K|[K|[K|K]]].
  - cbn in K. intuition discriminate.
  - cbn in K. intuition discriminate.
  - unfold forks in K. apply in_map_iff in K as (x & K & _). discriminate.
  - apply (round_child rounds i). rewrite in_app_iff. exact K.
Qed.
Lemma master_waits pids rounds : waits (master_prog pids rounds) = waits (concat (map round rounds) ++ finish).
Proof.
  unfold master_prog, waits. rewrite !filter_app, !app_length. cbn [boot all_sg map app filter length].
  assert (Z : filter (fun o => match o with OSuspend => true | _ => false end) (forks pids) = []).
  { unfold forks. induction (combine _ _) as [|x l IH]; cbn; auto. }
  rewrite Z. reflexivity.
Qed.

Theorem C116_late_partial : forall pids rounds t1 t2 dead e p1 todo1 p todo r,
  exec (Run ps0 (master_prog pids rounds)) t1 = Ok (Some (Run p1 todo1)) ->
  inst p1 SInt = true -> blocked p1 = true ->
  exec (Run ps0 (master_prog pids rounds)) (t1 ++ Sig SInt dead e :: t2) = Ok (Some (Run p todo)) ->
  first_wait rounds (Run p todo) -> todo = OSuspend :: r ->
  ~ asleep (Run p todo) /\
  exists p', step (Run p todo) (Dlv SInt [] 0) = Ok (Some (Run p' r)) /\ quit p' = true.
Proof.
  intros pids rounds t1 t2 dead e p1 todo1 p todo r E1 IN B E F T.
  destruct (exec_kept _ _ _ _ _ (master_child pids rounds) E1) as (U1 & L1 & _).
  pose proof E as E0. rewrite do_app, E1 in E. cbn [exec] in E.
  apply bind_ok in E as ([[q rr| |]|] & E2 & E3); try discriminate.
  2,3: destruct t2; cbn in E3; discriminate.
  destruct (step_kept _ _ _ _ _ U1 E2) as (U2 & L2 & _). destruct (exec_kept _ _ _ _ _ U2 E3) as (U3 & L3 & K).
  destruct F as (p9 & F). injection F as <- F.
  rewrite master_waits, <- F in L1.
  assert (P : pend p SInt = true).
  { apply K; [lia|]. cbn [step] in E2. rewrite IN, B in E2. cbn [negb andb in_set] in E2.
    destruct todo1 as [|o r1]; [injection E2 as <- <-; reflexivity|].
    destruct o; try (injection E2 as <- <-; reflexivity).
    exfalso. apply bind_ok in E2 as (q2 & _ & E2). injection E2 as <- <-. unfold waits in *. cbn [filter length] in *. lia. }
  assert (S1 : stage (length pids) ([OBlock] ++ forks pids ++ concat (map round rounds)) p todo).
  { assert (EM : master_prog pids rounds = life (length pids) ([OBlock] ++ forks pids ++ concat (map round rounds))).
    { unfold master_prog, life. rewrite <- !app_assoc. reflexivity. }
    rewrite EM in E0.
    assert (M : Forall middle ([OBlock] ++ forks pids ++ concat (map round rounds))).
    { repeat (apply Forall_app; split); [repeat constructor|apply forks_middle|apply rounds_middle]. }
    pose proof (exec_stage _ _ M (t1 ++ Sig SInt dead e :: t2) _ (start_stage (length pids) _)) as G.
    unfold start_of in G. rewrite E0 in G. exact G. }
  clear - P T S1. subst todo. split.
  - intros (p9 & r9 & E9 & A). injection E9 as <- <-. rewrite A in P. discriminate.
  - assert (M : Forall middle ([OBlock] ++ forks pids ++ concat (map round rounds))).
    { repeat (apply Forall_app; split); [repeat constructor|apply forks_middle|apply rounds_middle]. }
    destruct (suspend_mid _ _ _ _ M S1) as (C & SH & _). cbn [step]. rewrite P.
    destruct (handler_ok (set_pend p (fun y => negb (sg_eqb SInt y) && pend p y)) SInt [] 0 C (or_introl SH)) as (q9 & E9).
    rewrite E9. cbn [bind]. exists q9. split; [reflexivity|]. apply handler_ctx in E9. tauto.
Qed.
Print Assumptions C116_late_partial.

(** one that comes before the handler is there ends the program at once *)
Theorem C116_first_partial : forall n mid dead e,
  exec (start_of n mid) [Sig SInt dead e] = Ok (Some Killed) /\
  exec (start_of n mid) [Do; Sig SInt dead e] = Ok (Some Killed).
Proof. intros. split; reflexivity. Qed.
Print Assumptions C116_first_partial.

(** ** What a signal does besides
    A signal changes the three flags and the marks of the workers that have ended, nothing
    else: the slots of the others keep theirs (the master starts anew what is marked). *)
Lemma mark_spec t pid : NoDup (map fst t) -> mark t pid = map (fun x => (fst x, snd x || (fst x =? pid))) t.
Proof.
  induction t as [|(q, e) t IH]; intros N; [reflexivity|]. cbn [mark map fst snd] in *. inversion N as [|? ? NI N']; subst.
  destruct (Z.eqb_spec q pid) as [->|D]; [|rewrite Bool.orb_false_r; f_equal; apply IH; exact N'].
  rewrite Bool.orb_true_r. f_equal. clear IH N N'. induction t as [|(q, e') t IH]; [reflexivity|]. cbn [map fst snd] in *.
  destruct (Z.eqb_spec q pid) as [->|D]; [destruct NI; left; reflexivity|]. rewrite Bool.orb_false_r. f_equal. apply IH. intros K. apply NI. right. exact K.
Qed.
Definition marked (t : list (Z * bool)) (dead : list Z) : list (Z * bool) :=
  map (fun x => (fst x, snd x || existsb (Z.eqb (fst x)) dead)) t.
Lemma waitpids_spec : forall dead p p', NoDup (map fst (tab p)) -> waitpids p dead = Ok p' -> p' = set_tab p (marked (tab p) dead).
Proof.
  induction dead as [|d dead IH]; intros p p' N E.
  - injection E as <-. unfold marked. cbn [existsb]. rewrite map_ext with (g := fun x => x) by (intros (? & ?); cbn; rewrite Bool.orb_false_r; reflexivity).
    rewrite map_id. destruct p. reflexivity.
  - cbn [waitpids] in E.
    assert (X : exists q, waitpids q dead = Ok p' /\ q = set_tab p (mark (tab p) d)).
    { destruct (tab p) as [|x t] eqn:T; [exists p; split; [exact E|destruct p; cbn in T; subst; reflexivity]|].
      apply bind_ok in E as (u & _ & E). eexists. split; [exact E|reflexivity]. }
    destruct X as (q & E' & Q). apply IH in E'.
    + subst p' q. destruct p as [i0 b0 pe0 c0 s0 id0 q0 r0 rl0 t0 e0]. cbn [tab set_tab] in *. unfold set_tab. cbn [inst blocked pend ctx shm id_ quit reap reload tab errno_].
      f_equal. rewrite mark_spec by exact N. unfold marked. rewrite map_map. apply map_ext. intros (a & b). cbn. rewrite Bool.orb_assoc. reflexivity.
    + subst q. cbn [tab set_tab]. rewrite mark_spec by exact N. rewrite map_map. cbn. rewrite map_ext with (g := fst) by (intros (? & ?); reflexivity). exact N.
Qed.
Theorem C113_effect : forall p todo s dead e a p' todo', a = Sig s dead e \/ a = Dlv s dead e ->
  step (Run p todo) a = Ok (Some (Run p' todo')) -> NoDup (map fst (tab p)) ->
  inst p' = inst p /\ blocked p' = blocked p /\ ctx p' = ctx p /\ shm p' = shm p /\ id_ p' = id_ p /\ errno_ p' = errno_ p /\
  (tab p' = tab p \/ s = SChld /\ id_ p = MASTER /\ reap p' = true /\ tab p' = marked (tab p) dead) /\
  (quit p' = quit p \/ s = SInt /\ quit p' = true) /\ (reload p' = reload p \/ s = SHup /\ id_ p = MASTER /\ reload p' = true).
Proof.
  intros p todo s dead e a p' todo' A E N.
  assert (H : forall q, handler p s dead e = Ok q ->
    inst q = inst p /\ blocked q = blocked p /\ ctx q = ctx p /\ shm q = shm p /\ id_ q = id_ p /\ errno_ q = errno_ p /\
    (tab q = tab p \/ s = SChld /\ id_ p = MASTER /\ reap q = true /\ tab q = marked (tab p) dead) /\
    (quit q = quit p \/ s = SInt /\ quit q = true) /\ (reload q = reload p \/ s = SHup /\ id_ p = MASTER /\ reload q = true)).
  { intros q E'. unfold handler in E'. apply bind_ok in E' as (u & _ & E'). apply bind_ok in E' as (r & E1 & E2). injection E2 as <-.
    destruct (Z.eqb_spec (id_ p) MASTER) as [M|M].
    - destruct s; try (injection E1 as <-; cbn; tauto). apply bind_ok in E1 as (w & E1 & E2). injection E2 as <-.
      apply waitpids_spec in E1; [|exact N]. subst w. cbn. tauto.
    - destruct s; injection E1 as <-; cbn; tauto. }
  cbn [step] in E. destruct A as [-> | ->].
  - destruct (inst p s); cbn [negb] in E; [|destruct s; try discriminate; injection E as <- <-; tauto].
    destruct todo as [|o r].
    + destruct (blocked p && in_set s); [injection E as <- <-; cbn; tauto|]. apply bind_ok in E as (q & E1 & E2). injection E2 as <- <-. apply H; exact E1.
    + assert (X : (exists q, handler p s dead e = Ok q /\ q = p') \/ p' = set_pend p (fun y => sg_eqb s y || pend p y)).
      { destruct o; try (destruct (blocked p && in_set s); [injection E as <- <-; right; reflexivity|]);
          apply bind_ok in E as (q & E1 & E2); injection E2 as <- <-; left; exists q; auto. }
      destruct X as [(q & E1 & <-)| ->]; [apply H; exact E1|cbn; tauto].
  - destruct todo as [|o r]; [discriminate|]. destruct o; try discriminate. destruct (pend p s); [|discriminate].
    apply bind_ok in E as (q & E1 & E2). injection E2 as <- <-.
    unfold handler in E1. apply bind_ok in E1 as (u & _ & E1). apply bind_ok in E1 as (w & E1 & E2). injection E2 as <-.
    cbn [id_ set_pend] in E1. destruct (Z.eqb_spec (id_ p) MASTER) as [M|M].
    + destruct s; try (injection E1 as <-; cbn; tauto). apply bind_ok in E1 as (x & E1 & E2). injection E2 as <-.
      apply waitpids_spec in E1; [|exact N]. subst x. cbn. tauto.
    + destruct s; injection E1 as <-; cbn; tauto.
Qed.
Print Assumptions C113_effect.

(** worker 8 has ended, worker 7 has not *)
Example ex_C113_effect : exists p p',
  step (Run p []) (Sig SChld [8] 10) = Ok (Some (Run p' [])) /\ tab p = [(7, false); (8, false)] /\ NoDup (map fst (tab p)) /\
  tab p' = [(7, false); (8, true)].
Proof.
  exists (Ps (fun _ => true) false (fun _ => false) BLive BLive MASTER false false false [(7, false); (8, false)] 0).
  eexists. split; [reflexivity|]. split; [reflexivity|]. split; [repeat constructor; cbn; intuition discriminate|reflexivity].
Qed.

(** ** Examples *)
Example C113_example : exists p todo,
  exec (Run ps0 (master_prog [7; 8] [[(1%nat, 9)]; []]))
    (repeat Do 14 ++ [Sig SChld [8] 10] ++ [Sig SHup [] 0; Dlv SChld [8] 10]) = Ok None /\
  exec (Run ps0 (master_prog [7; 8] [[(1%nat, 9)]; []]))
    (repeat Do 13 ++ [Sig SChld [8] 10; Do] ++ [Dlv SChld [8] 10; Do; Do; Sig SHup [] 0; Do; Sig SInt [] 4]) = Ok (Some (Run p todo)) /\
  tab p = [(7, false); (9, false)] /\ reap p = true /\ reload p = true /\ quit p = true /\ errno_ p = 0 /\ todo = OFlags :: OFlags :: finish.
Proof. eexists. eexists. split; [vm_compute; reflexivity|]. split; [vm_compute; reflexivity|]. repeat split. Qed.
Example C116_example : exists p,
  exec (Run ps0 (master_prog [7; 8] [[]])) (repeat Do 12 ++ Sig SInt [] 0 :: [Do; Do]) = Ok (Some (Run p (concat (map round [[]]) ++ finish))) /\
  pend p SInt = true /\ quit p = false.
Proof. eexists. split; [vm_compute; reflexivity|]. split; reflexivity. Qed.
