(** * Theorems about accepting connections: C102-C104 *)
From Verif Require Import Base Heap_Model Heap_Proofs Timer_Model Timer_Props Acc_Model.
From Verif Require Life_Model.
From Coq Require Import Permutation.
Local Arguments Z.add : simpl never.

(** the connections that have arrived, in order *)
Fixpoint arrived (os : list aop) : list Z :=
  match os with [] => [] | Arrive id :: r => id :: arrived r | _ :: r => arrived r end.
(** an iteration that takes a connection without trouble *)
Definition smooth (o : aop) : Prop :=
  match o with Iter (AGot _ alloc nbio nodelay) => alloc = true /\ nbio = true /\ nodelay = true | Iter _ => False | _ => True end.
(** when the queue is empty the result of the call does not matter *)
Definition resting (s : ast) : Prop := edge s = false /\ run s = false.

Lemma arrived_app a b : arrived (a ++ b) = arrived a ++ arrived b.
Proof. induction a as [|o a IH]; [reflexivity|]. destruct o; cbn [arrived app]; rewrite IH; reflexivity. Qed.
Lemma acc_run_app a : forall s b, acc_run s (a ++ b) = match acc_run s a with Some s' => acc_run s' b | None => None end.
Proof.
  induction a as [|o a IH]; intros s b; [reflexivity|]. cbn [app acc_run]. destruct (acc_step s o); [apply IH|reflexivity].
Qed.

(** ** C102: every connection that reaches the listener is taken *)
Definition C102_property : Prop := forall tls os s, acc_run (acc0 tls) os = Some s -> resting s ->
  rev (map a_id (live s)) = arrived os.

Lemma acc_inv tls os : Forall smooth os -> forall s, acc_run (acc0 tls) os = Some s ->
  rev (map a_id (live s)) ++ q s = arrived os /\ (resting s -> q s = []) /\
  Forall (fun c => a_read c = true /\ a_timer c = ACCEPT_TMOUT /\ a_tls c = tls) (live s) /\ Acc_Model.tls s = tls.
Proof.
  induction os as [|o os IH] using rev_ind; intros F s R.
  - injection R as <-. split; [reflexivity|]. split; [reflexivity|]. split; [constructor|reflexivity].
  - apply Forall_app in F as (F & Fo). rewrite acc_run_app in R. destruct (acc_run (acc0 tls) os) as [s0|] eqn:E0; [|discriminate].
    destruct (IH F s0 eq_refl) as (A & B & C & D). cbn [acc_run] in R.
    destruct (acc_step s0 o) as [s1|] eqn:S; [|discriminate]. injection R as <-.
    rewrite arrived_app. apply Forall_inv in Fo. destruct o as [id| |r]; cbn [acc_step] in S.
    + injection S as <-. cbn. rewrite app_assoc, A. repeat split; auto. intros (X & _). discriminate X.
    + destruct (edge s0 && negb (run s0)); [|discriminate]. injection S as <-. cbn. rewrite app_nil_r. repeat split; auto.
      intros (_ & X). discriminate X.
    + destruct (run s0) eqn:RU; [|discriminate]. injection S as <-. cbn [arrived app]. rewrite app_nil_r. unfold acc_iter.
      destruct (q s0) as [|id t] eqn:Q.
      * cbn. rewrite app_nil_r in *. repeat split; auto.
      * destruct r as [fd al nb nd| | | ]; cbn in Fo; try contradiction. destruct Fo as (-> & -> & ->). cbn.
        rewrite <- app_assoc. cbn [app]. split; [exact A|]. split; [intros (_ & X); discriminate X|].
        split; [|exact D]. constructor; [|exact C]. cbn. auto.
Qed.

(** as long as accept, the allocation and the socket options succeed: everything that has
    arrived is taken, in order, with its read event, its timer and the TLS flag of the
    listener; and every callback ends *)
Theorem C102_partial : forall tls os s, Forall smooth os -> acc_run (acc0 tls) os = Some s ->
  (resting s -> rev (map a_id (live s)) = arrived os) /\
  Forall (fun c => a_read c = true /\ a_timer c = ACCEPT_TMOUT /\ a_tls c = tls) (live s) /\
  (run s = true -> exists is s', Forall (fun o => exists r, o = Iter r) is /\ Forall smooth is /\
     acc_run s is = Some s' /\ run s' = false /\ q s' = []).
Proof.
  intros tls os s F R. destruct (acc_inv tls os F s R) as (A & B & C & D).
  split; [|split; [exact C|]].
  - intros X. rewrite (B X), app_nil_r in A. exact A.
  - clear. remember (q s) as l eqn:L. revert s L. induction l as [|id l IH]; intros s L RU.
    + exists [Iter (AGot 1 true true true)], (acc_iter s (AGot 1 true true true)).
      split; [repeat constructor; eauto|]. split; [repeat constructor|]. cbn [acc_run acc_step]. rewrite RU.
      split; [reflexivity|]. unfold acc_iter. rewrite <- L. split; reflexivity.
    + destruct (IH (acc_iter s (AGot 1 true true true))) as (is & s' & P1 & P2 & P3 & P4).
      { unfold acc_iter. rewrite <- L. reflexivity. }
      { unfold acc_iter. rewrite <- L. reflexivity. }
      exists (Iter (AGot 1 true true true) :: is), s'. split; [constructor; eauto|]. split; [constructor; [repeat split|auto]|].
      split; [|exact P4]. cbn [acc_run acc_step]. rewrite RU. exact P3.
Qed.
Print Assumptions C102_partial.

(** what can stop it: any trouble while several connections wait *)
Definition trouble (r : aret) : Prop :=
  match r with AGot _ alloc nbio nodelay => alloc && (nbio && nodelay) = false | _ => True end.
(** then the others stay in the queue, nothing is pending, and whatever the loop does, they
    stay there until yet another connection arrives *)
Theorem C102_refuted : forall tls r a b, trouble r ->
  exists s, acc_run (acc0 tls) [Arrive a; Arrive b; Notify; Iter r] = Some s /\ resting s /\
    live s = [] /\ In b (q s) /\
    forall o os s', acc_run s (o :: os) = Some s' -> exists id, o = Arrive id.
Proof.
  intros tls r a b T. cbn.
  assert (K : forall s, resting s -> forall o os s', acc_run s (o :: os) = Some s' -> exists id, o = Arrive id).
  { intros s (X & Y) o os s' R. cbn [acc_run] in R. destruct o; cbn [acc_step] in R; [eauto| |].
    - rewrite X in R. discriminate R.
    - rewrite Y in R. discriminate R. }
  destruct r as [fd al nb nd| | | ]; cbn.
  - cbn in T. destruct al; cbn in *.
    + rewrite T. cbn. eexists. split; [reflexivity|]. split; [split; reflexivity|]. split; [reflexivity|]. split; [left; reflexivity|].
      apply K. split; reflexivity.
    + eexists. split; [reflexivity|]. split; [split; reflexivity|]. split; [reflexivity|]. split; [left; reflexivity|].
      apply K. split; reflexivity.
  - eexists. split; [reflexivity|]. split; [split; reflexivity|]. split; [reflexivity|]. split; [right; left; reflexivity|].
    apply K. split; reflexivity.
  - eexists. split; [reflexivity|]. split; [split; reflexivity|]. split; [reflexivity|]. split; [left; reflexivity|].
    apply K. split; reflexivity.
  - eexists. split; [reflexivity|]. split; [split; reflexivity|]. split; [reflexivity|]. split; [right; left; reflexivity|].
    apply K. split; reflexivity.
Qed.
Print Assumptions C102_refuted.
Theorem C102_property_refuted : ~ C102_property.
Proof.
  intros P. destruct (C102_refuted false AIntr 1 2 I) as (s & R & X & L & _).
  specialize (P _ _ _ R X). rewrite L in P. discriminate P.
Qed.
Print Assumptions C102_property_refuted.

Example C102_example : exists s,
  acc_run (acc0 true) [Arrive 1; Notify; Arrive 2; Iter (AGot 7 true true true); Iter (AGot 8 true true true); Arrive 3;
    Iter (AGot 9 true true true); Iter AIntr; Notify; Iter AIntr] = Some s /\ resting s /\ map a_id (live s) = [3; 2; 1].
Proof. eexists. split; [reflexivity|]. repeat split. Qed.
Example C102_smooth_example : exists s,
  acc_run (acc0 true) [Arrive 1; Notify; Arrive 2; Iter (AGot 7 true true true); Iter (AGot 8 true true true);
    Iter (AGot 9 true true true); Notify; Iter (AGot 9 true true true)] = Some s /\ resting s /\ rev (map a_id (live s)) = [1; 2].
Proof. eexists. split; [reflexivity|]. repeat split. Qed.

(** ** C103: no descriptor is lost while accepting, and none is closed that is in use.
    Descriptors handed out are distinct among the open ones; for this every history of the
    descriptors handed out so far is a list without repetitions (closed ones may come again in
    the program; a history in which they do not is the general case up to renaming). *)
Definition positive (o : aop) : Prop := match o with Iter (AGot fd _ _ _) => 0 < fd | _ => True end.

Theorem C103_partial : forall tls os s, acc_run (acc0 tls) os = Some s -> Forall positive os ->
  Permutation (opened s) (map a_fd (live s) ++ closed s).
Proof.
  intros tls os. induction os as [|o os IH] using rev_ind; intros s R F.
  - injection R as <-. constructor.
  - apply Forall_app in F as (F & Fo). apply Forall_inv in Fo. rewrite acc_run_app in R.
    destruct (acc_run (acc0 tls) os) as [s0|] eqn:E0; [|discriminate]. specialize (IH s0 eq_refl F).
    cbn [acc_run] in R. destruct (acc_step s0 o) as [s1|] eqn:S; [|discriminate]. injection R as <-.
    destruct o as [id| |r]; cbn [acc_step] in S.
    + injection S as <-. exact IH.
    + destruct (edge s0 && negb (run s0)); [|discriminate]. injection S as <-. exact IH.
    + destruct (run s0); [|discriminate]. injection S as <-. unfold acc_iter. destruct (q s0) as [|id t]; [exact IH|].
      destruct r as [fd al nb nd| | | ]; try exact IH. cbn in Fo. destruct al; cbn.
      * destruct (nb && nd); cbn.
        -- constructor. exact IH.
        -- unfold close_fd. destruct (Z.ltb_spec 0 fd); [|lia]. apply Permutation_cons_app. exact IH.
      * apply Permutation_cons_app. exact IH.
Qed.
Print Assumptions C103_partial.
(** in particular: with distinct descriptors, none of a live connection has been closed, and
    none has been closed twice *)
Corollary C103_closed_once : forall tls os s, acc_run (acc0 tls) os = Some s -> Forall positive os ->
  NoDup (opened s) -> NoDup (closed s) /\ forall c, In c (live s) -> ~ In (a_fd c) (closed s).
Proof.
  intros tls os s R F N. pose proof (C103_partial tls os s R F) as P.
  apply (Permutation_NoDup P) in N. clear - N. induction (live s) as [|c l IH]; cbn [map app] in N.
  - split; [exact N|]. intros c [].
  - inversion N as [|? ? N1 N2]; subst. destruct (IH N2) as (A & B). split; [exact A|].
    intros c' [<-|I]; [|exact (B c' I)]. intros H. apply N1. apply in_app_iff. right. exact H.
Qed.
Print Assumptions C103_closed_once.
(** a program started without standard input gets descriptor 0, which is never closed *)
Theorem C103_refuted : exists os s, acc_run (acc0 false) os = Some s /\ resting s /\
  opened s = [0] /\ live s = [] /\ closed s = [].
Proof. exists [Arrive 1; Notify; Iter (AGot 0 true false true)]. eexists. split; [reflexivity|]. repeat split. Qed.
Print Assumptions C103_refuted.
Example C103_example : exists s, acc_run (acc0 false)
  [Arrive 1; Arrive 2; Notify; Iter (AGot 7 true true true); Iter (AGot 8 true true false); Arrive 3; Notify; Iter (AGot 9 false true true)] = Some s /\
  closed s = [9; 8] /\ map a_fd (live s) = [7].
Proof. eexists. split; [reflexivity|]. split; reflexivity. Qed.

(** ** C104: a new client has time to send its first message.
    Every other wait of the program lasts 5 or 10 seconds. *)
Definition FIRST_WAIT : Z := 5000.
(** the worker loop (process.c:57-64) with one new connection: accepted at [t], the loop
    sleeps as long as the timers allow and the client stays silent *)
Definition silent (t t' : Z) : list tin := [TTick t; TArm 1 ACCEPT_TMOUT; TExpire; TIter; TTick t'; TExpire; TIter].

(** it is never cut off before 5 ms *)
Theorem C104_partial : forall space is es s', 0 <= space ->
  trun (timers0 space) is = Ok (es, s') -> Forall accepted es ->
  forall h1 x t0 h2 t h3, es = h1 ++ EArm x ACCEPT_TMOUT t0 true :: h2 ++ EFire x t :: h3 ->
  Forall (fun e => ~ about x e) h2 -> t0 + 5 <= t.
Proof.
  intros space is es s' L R F h1 x t0 h2 t h3 E N.
  destruct (C13_no_spurious_fire space is es s' L R F (h1 ++ EArm x ACCEPT_TMOUT t0 true :: h2) x t h3) as (g1 & d & t1 & g2 & Q & D & NB).
  { rewrite E, <- app_assoc. reflexivity. }
  (* both are the last arming of [x] *)
  assert (K : forall (A B A' B' : list tev) u v, about x u -> about x v -> Forall (fun e => ~ about x e) B -> Forall (fun e => ~ about x e) B' ->
     A ++ u :: B = A' ++ v :: B' -> u = v).
  { clear. intros A B A' B' u v U V FB FB' Q. apply (f_equal (@rev tev)) in Q. rewrite !rev_app_distr in Q. cbn [rev] in Q. rewrite <- !app_assoc in Q. cbn [app] in Q.
    apply Forall_rev in FB. apply Forall_rev in FB'. revert FB' Q. generalize (rev B') as c. revert FB. generalize (rev B) as b.
    induction b as [|y b IH]; intros FB c FC Q.
    - destruct c as [|z c]; [injection Q as Q _; exact Q|]. injection Q as Q _. subst. apply Forall_inv in FC. contradiction.
    - destruct c as [|z c]; [injection Q as Q _; subst; apply Forall_inv in FB; contradiction|].
      injection Q as _ Q. exact (IH (Forall_inv_tail FB) c (Forall_inv_tail FC) Q). }
  assert (EArm x ACCEPT_TMOUT t0 true = EArm x d t1 true) as Q2.
  { apply (K h1 h2 g1 g2); [reflexivity|reflexivity|exact N|exact NB|exact Q]. }
  injection Q2 as <- <-. unfold ACCEPT_TMOUT in D. lia.
Qed.
Print Assumptions C104_partial.

(** but it is cut off after 5 ms: the loop sleeps 5 ms, the timer fires, and the connection
    is released (server and client program alike) *)
Theorem C104_refuted : forall t, exists es s',
  trun (timers0 1536) (silent t (t + 5)) = Ok (es, s') /\
  es = [ETick t; EArm 1 5 t true; EExpire; EDone 5 t; ETick (t + 5); EExpire; EFire 1 (t + 5)] /\
  t + 5 < t + FIRST_WAIT /\
  forall s, s = Life_Model.server0 \/ s = Life_Model.client0 -> forall b f d, exists s',
    Life_Model.run s [Life_Model.Tmo Life_Model.Down; Life_Model.Do b f d] = Ok s' /\
    Life_Model.lif (Life_Model.down s') = Life_Model.Freed /\ Life_Model.fd (Life_Model.down s') = Life_Model.FdNo.
Proof.
  intros t. unfold silent.
  assert (exists s1, tstep (mkT (heap_create 1536) (fun _ => false) t false) (TArm 1 ACCEPT_TMOUT) = Ok (EArm 1 5 t true, s1) /\
    heap_min (t_heap s1) = Ok (Some 1) /\ hkey (t_heap s1) 1 = t + 5 /\ t_set s1 1 = true /\ hidx (t_heap s1) 1 = 1 /\
    heap_del (t_heap s1) 1 = Ok (true, set_n (mkHeap 0 1536 (upd (upd (fun _ => None) 1 (Some 1)) 1 (Some 1)) (hkey (t_heap s1)) (upd (upd (fun _ => 0) 1 1) 1 1)) 0) /\
    t_now s1 = t) as (s1 & E1 & M & K & S & X & D & N).
  { eexists. split; [reflexivity|]. repeat split; reflexivity. }
  unfold timers0. cbn [trun]. unfold tstep at 1. cbn [bind fst snd t_heap t_set t_now t_running].
  rewrite E1. cbn [bind fst snd tstep]. unfold timer_iter at 1. cbn [t_heap t_set t_now t_running]. rewrite M. cbn [bind]. rewrite K, N.
  replace (t <? t + 5) with true by lia. cbn [bind fst snd t_heap t_set t_now t_running].
  unfold timer_iter. cbn [t_heap t_set t_now t_running]. rewrite M. cbn [bind]. rewrite K.
  replace (t + 5 <? t + 5) with false by lia. unfold tm_del. cbn [t_heap t_set t_now t_running]. rewrite S, X, D. cbn [bind fst snd].
  replace (t + 5 - t) with 5 by lia. change (cast_int 5) with 5.
  do 2 eexists. split; [reflexivity|]. split; [reflexivity|]. split; [unfold FIRST_WAIT; lia|].
  intros s [-> | ->] b f d; eexists; split; [reflexivity|split; reflexivity|reflexivity|split; reflexivity].
Qed.
Print Assumptions C104_refuted.
Example C104_example : exists es s', trun (timers0 1536) [TTick 100; TArm 1 ACCEPT_TMOUT; TExpire; TIter; TTick 107; TExpire; TIter] = Ok (es, s') /\
  Forall accepted es /\ es = [ETick 100] ++ EArm 1 ACCEPT_TMOUT 100 true :: [EExpire; EDone 5 100; ETick 107; EExpire] ++ EFire 1 107 :: [] /\
  Forall (fun e => ~ about 1 e) [EExpire; EDone 5 100; ETick 107; EExpire].
Proof.
  let r := eval vm_compute in (trun (timers0 1536) [TTick 100; TArm 1 ACCEPT_TMOUT; TExpire; TIter; TTick 107; TExpire; TIter]) in
  match r with Ok (?es, ?s') => exists es, s' end.
  split; [vm_compute; reflexivity|]. split; [repeat constructor|]. split; [reflexivity|].
  repeat constructor; intros H; exact H.
Qed.
