(** C159: what is printed about the start appears once, first, and shows no key *)
From Coq Require Import String.
From Verif Require Import Base Str_Spec Sout_Model.
Open Scope Z_scope.
Local Arguments Z.add : simpl never.
Local Arguments Z.sub : simpl never.

(** ** Specification *)
(** everything that is printed, and that there are no log records in between *)
Fixpoint said (ops : list op) : list Z :=
  match ops with [] => [] | Say s :: r => s ++ said r | Rec _ :: r => said r end.
Definition no_rec (ops : list op) : Prop := forall r, ~ In (Rec r) ops.
Definition newline_end (s : list Z) : Prop := exists t, s = t ++ [10].
(** standard output is a terminal: after a newline nothing is kept *)
Definition line (keep : list Z -> Z) : Prop := forall t, newline_end t -> keep t = 0.
(** it is a pipe or a file: what fits in the buffer of [n] bytes is kept *)
Definition block (n : Z) (keep : list Z -> Z) : Prop := forall t, zlen t <= n -> keep t = zlen t.

(** what is heard after the start if every process holds [t] back and says it when it
    ends by itself *)
Fixpoint off (l : list bool) (i : nat) : list bool :=
  match l, i with [], _ => [] | _ :: t, O => false :: t | b :: t, S j => b :: off t j end.
Fixpoint heard (t : list Z) (live : list bool) (es : list event) : list Z :=
  match es with
  | [] => []
  | ERec i b :: r => (if nth i live false then b else []) ++ heard t live r
  | EFork i :: r => heard t (if nth i live false then live ++ [true] else live) r
  | EEnd i :: r => (if nth i live false then t else []) ++ heard t (if nth i live false then off live i else live) r
  | EKill i :: r => heard t (if nth i live false then off live i else live) r
  end.
(** only the records *)
Definition records (live : list bool) (es : list event) : list Z := heard [] live es.

(** [w] workers are started, all of them end, then the master ends *)
Definition work (w : nat) : list event := repeat (EFork 0) w ++ map EEnd (seq 1 w) ++ [EEnd 0].
Fixpoint times (n : nat) (s : list Z) : list Z := match n with O => [] | S m => s ++ times m s end.

(** ** Proofs *)
Lemma ztake_zdrop n (s : list Z) : ztake n s ++ zdrop n s = s.
Proof. unfold ztake, zdrop; apply firstn_skipn. Qed.

Lemma put_all keep ops : forall out pend, no_rec ops ->
  exists sent, fst (fold_left (put keep) ops (out, pend)) = out ++ sent /\
    sent ++ snd (fold_left (put keep) ops (out, pend)) = pend ++ said ops.
Proof.
  induction ops as [|o r IH]; intros out pend H; cbn [fold_left said].
  - exists []. cbn. rewrite app_nil_r; split; [reflexivity|]. now rewrite app_nil_r.
  - assert (Hr : no_rec r) by (intros x Hx; apply (H x); now right).
    destruct o as [s|b]; [|exfalso; apply (H b); now left].
    unfold put at 2 4.
    set (t := pend ++ s). set (n := zlen t - Z.max 0 (Z.min (keep t) (zlen t))).
    destruct (IH (out ++ ztake n t) (zdrop n t) Hr) as [x [E1 E2]].
    exists (ztake n t ++ x). split.
    + now rewrite E1, app_assoc.
    + rewrite <- app_assoc, E2, app_assoc, ztake_zdrop. unfold t. now rewrite app_assoc.
Qed.

Lemma put_block keep n ops : block n keep -> forall out pend, no_rec ops -> zlen (pend ++ said ops) <= n ->
  fold_left (put keep) ops (out, pend) = (out, pend ++ said ops).
Proof.
  intros B. induction ops as [|o r IH]; intros out pend H L; cbn [fold_left said].
  - now rewrite app_nil_r.
  - assert (Hr : no_rec r) by (intros x Hx; apply (H x); now right).
    destruct o as [s|b]; [|exfalso; apply (H b); now left].
    cbn [said] in L. rewrite app_assoc in L.
    assert (L' : zlen (pend ++ s) <= n).
    { unfold zlen in *. rewrite app_length in L. lia. }
    unfold put at 2. rewrite (B _ L'), Z.min_id, Z.max_r by (unfold zlen; lia).
    rewrite Z.sub_diag. change (ztake 0 (pend ++ s)) with (@nil Z). change (zdrop 0 (pend ++ s)) with (pend ++ s).
    rewrite app_nil_r, IH; auto. now rewrite app_assoc.
Qed.

Lemma put_line keep ops : line keep -> forall out, no_rec ops ->
  (forall s, In (Say s) ops -> newline_end s) ->
  fold_left (put keep) ops (out, []) = (out ++ said ops, []).
Proof.
  intros B. induction ops as [|o r IH]; intros out H N; cbn [fold_left said].
  - now rewrite app_nil_r.
  - assert (Hr : no_rec r) by (intros x Hx; apply (H x); now right).
    destruct o as [s|b]; [|exfalso; apply (H b); now left].
    unfold put at 2. cbn [app]. rewrite (B s) by (apply N; now left).
    rewrite Z.max_l by (unfold zlen; lia). rewrite Z.sub_0_r.
    unfold ztake, zdrop, zlen. rewrite Nat2Z.id, firstn_all, skipn_all.
    rewrite IH; auto. + now rewrite app_assoc. + intros x Hx; apply N; now right.
Qed.

(** the processes all hold [t] back and write to the same place *)
Definition like (t : list Z) (nl : bool) (b : bool) : proc := mkProc t nl (negb b).
Lemma set_off t nl live i b : set_proc (map (like t nl) live) i (end_of (like t nl b)) = map (like t nl) (off live i).
Proof. revert i; induction live as [|c r IH]; intros [|i]; cbn; f_equal; auto. Qed.
Lemma nth_like t nl live i : nth_error (map (like t nl) live) i =
  match nth_error live i with Some b => Some (like t nl b) | None => None end.
Proof. rewrite nth_error_map. now destruct (nth_error live i). Qed.

Lemma run_heard t nl es : forall out live,
  w_out (wrun (mkWorld out (map (like t nl) live)) es) = out ++ (if nl then [] else heard t live es).
Proof.
  induction es as [|e r IH]; intros out live.
  - cbn. destruct nl; now rewrite app_nil_r.
  - assert (Q : forall i, nth i live false = match nth_error live i with Some b => b | None => false end).
    { intros i. clear. revert live. induction i as [|i IHi]; intros [|c l]; cbn; auto. }
    assert (M : map (like t nl) live ++ [like t nl true] = map (like t nl) (live ++ [true])) by now rewrite map_app.
    unfold wrun in *. cbn [fold_left heard].
    destruct e as [i b|i|i|i]; unfold wstep; cbn [w_procs w_out]; rewrite nth_like, (Q i);
      destruct (nth_error live i) as [[]|]; cbn [p_gone like negb written p_null p_pend].
    all: try (rewrite IH; cbn [app]; destruct nl; rewrite <- ?app_assoc; reflexivity).
    + change (mkProc t nl false) with (like t nl true). rewrite M, IH. reflexivity.
    + change (mkProc t nl false) with (like t nl true). rewrite set_off, IH. unfold written, like. cbn.
      destruct nl; rewrite <- ?app_assoc; reflexivity.
    + change (mkProc t nl false) with (like t nl true). rewrite set_off, IH. reflexivity.
Qed.

Lemma start_no_rec ts f : no_rec (start_ops ts f []).
Proof.
  intros r H. unfold start_ops, welcome, conf_ops, tip in H. cbn [map] in H.
  apply in_app_or in H. destruct f; cbn in H; intuition discriminate.
Qed.

(** A daemon prints its start exactly once, wherever standard output goes and whatever
    happens to it and its workers; nothing else is heard of it. *)
Theorem C159_daemon keep ops es : no_rec ops -> w_out (wrun (start keep true ops) es) = said ops.
Proof.
  intros H. unfold start. destruct (put_all keep ops [] [] H) as [x [E1 E2]].
  destruct (fold_left (put keep) ops ([], [])) as [out pend]. cbn [fst snd app] in *. subst x.
  refine (eq_trans (run_heard pend true es (out ++ pend) [true]) _). now rewrite app_nil_r.
Qed.

(** Without that: exactly what was not held back comes first, and each process that
    ends by itself says what was held back. *)
Theorem C159_exactly keep ops es : no_rec ops ->
  exists sent kept, sent ++ kept = said ops /\
    w_out (wrun (start keep false ops) es) = sent ++ heard kept [true] es /\
    (line keep -> (forall s, In (Say s) ops -> newline_end s) -> kept = []) /\
    (forall n, block n keep -> zlen (said ops) <= n -> sent = []).
Proof.
  intros H. unfold start. destruct (put_all keep ops [] [] H) as [x [E1 E2]].
  assert (L := fun B => put_line keep ops B [] H). assert (B := fun n B => put_block keep n ops B [] [] H).
  destruct (fold_left (put keep) ops ([], [])) as [out pend]. cbn [fst snd app] in *. subst x.
  exists out, pend. split; [exact E2|]. split; [|split].
  - exact (run_heard pend false es out [true]).
  - intros B1 N. specialize (L B1 N). congruence.
  - intros n B1 N. specialize (B n B1 N). congruence.
Qed.

(** To a terminal, with a configuration file that ends with a newline, the start is
    printed once and before every record. *)
Theorem C159_partial keep ts f es : line keep ->
  match f with Some b => newline_end (upto0 b) | None => True end ->
  w_out (wrun (start keep false (start_ops ts f [])) es) = said (start_ops ts f []) ++ records [true] es.
Proof.
  intros L N. destruct (C159_exactly keep (start_ops ts f []) es (start_no_rec ts f)) as [s [k [E [W [K _]]]]].
  assert (k = []) as ->; [apply (K L)|rewrite app_nil_r in E; now rewrite W, E].
  - assert (T : forall a s, newline_end s -> forall x, tip a s = Say x -> newline_end x).
    { intros a s0 [t ->] x Hx. injection Hx as <-. unfold newline_end.
      exists (str "[Ahead tips]-" ++ str a ++ str " " ++ t). now rewrite <- !app_assoc. }
    intros x Hx. unfold start_ops, welcome, conf_ops in Hx. cbn [map] in Hx. rewrite app_nil_r in Hx.
    apply in_app_or in Hx. destruct Hx as [Hx|Hx].
    + cbn [In] in Hx. destruct Hx as [Hx|[Hx|[Hx|[Hx|[]]]]]; (eapply T; [|exact Hx]).
      * exists (str "Welcome to <S5>, buildts <" ++ ts ++ str ">"). now rewrite <- !app_assoc.
      * eexists; reflexivity. * eexists; reflexivity. * eexists; reflexivity.
    + destruct f as [b|]; [|destruct Hx].
      cbn [In] in Hx. destruct Hx as [Hx|[Hx|[]]]; (eapply T; [|exact Hx]); [eexists; reflexivity|exact N].
Qed.

Lemma heard_forks t n : forall live es, nth 0 live false = true ->
  heard t live (repeat (EFork 0) n ++ es) = heard t (live ++ repeat true n) es.
Proof.
  induction n as [|n IH]; intros live es H; cbn [repeat app heard].
  - now rewrite app_nil_r.
  - rewrite H, IH.
    + rewrite <- app_assoc. reflexivity.
    + destruct live; [discriminate|exact H].
Qed.
Lemma off_mid n : forall k b, off (repeat b k ++ repeat true (S n)) k = repeat b k ++ false :: repeat true n.
Proof. induction k; intros b; cbn; f_equal; auto. Qed.
Lemma heard_ends t n : forall k es,
  heard t (true :: repeat false k ++ repeat true n) (map EEnd (seq (S k) n) ++ es) =
  times n t ++ heard t (true :: repeat false (k + n)) es.
Proof.
  induction n as [|n IH]; intros k es; cbn [seq map app heard times].
  - rewrite app_nil_r, Nat.add_0_r. reflexivity.
  - assert (Hn : nth (S k) (true :: repeat false k ++ repeat true (S n)) false = true).
    { cbn [nth]. rewrite app_nth2; rewrite repeat_length; [|lia]. now rewrite Nat.sub_diag. }
    rewrite Hn. cbn [off]. rewrite off_mid.
    replace (repeat false k ++ false :: repeat true n) with (repeat false (S k) ++ repeat true n).
    + rewrite IH, <- app_assoc. now replace (S k + n)%nat with (k + S n)%nat by lia.
    + clear. induction k; cbn; f_equal; auto.
Qed.

(** Into a pipe or a file the start is printed once for every process: with [w] workers
    [w + 1] times. *)
Theorem C159_refuted keep n ts f w : block n keep -> zlen (said (start_ops ts f [])) <= n ->
  w_out (wrun (start keep false (start_ops ts f [])) (work w)) = times (S w) (said (start_ops ts f [])).
Proof.
  intros B L. destruct (C159_exactly keep (start_ops ts f []) (work w) (start_no_rec ts f)) as [s [k [E [W [_ K]]]]].
  rewrite (K n B L) in *. cbn [app] in E, W. subst k. rewrite W. unfold work.
  rewrite heard_forks by reflexivity.
  rewrite (heard_ends _ w 0 [EEnd 0] : heard _ ([true] ++ repeat true w) _ = _).
  cbn [heard nth]. rewrite !app_nil_r. set (t := said _).
  generalize t; clear; intros t. cbn [times]. induction w as [|w IH]; cbn [times]; [now rewrite app_nil_r|].
  now rewrite <- app_assoc, IH.
Qed.

(** It comes after the records, and not at all if the program is killed. *)
Theorem C159_refuted_late keep n ts f rs : block n keep -> zlen (said (start_ops ts f [])) <= n ->
  w_out (wrun (start keep false (start_ops ts f [])) (map (ERec 0) rs ++ [EEnd 0]))
    = concat rs ++ said (start_ops ts f []) /\
  w_out (wrun (start keep false (start_ops ts f [])) (map (ERec 0) rs ++ [EKill 0])) = concat rs.
Proof.
  intros B L.
  assert (H : forall es, w_out (wrun (start keep false (start_ops ts f [])) es) = heard (said (start_ops ts f [])) [true] es).
  { intros es. destruct (C159_exactly keep (start_ops ts f []) es (start_no_rec ts f)) as [s [k [E [W [_ K]]]]].
    rewrite (K n B L) in *. cbn [app] in E, W. now subst k. }
  rewrite !H. set (t := said _). clearbody t. clear.
  split; induction rs as [|r rs IH]; cbn [map app heard nth concat].
  - now rewrite app_nil_r. - now rewrite IH, app_assoc. - reflexivity. - now rewrite IH.
Qed.

Lemma put_recs keep rs : forall out pend,
  fold_left (put keep) (map Rec rs) (out, pend) = (out ++ concat rs, pend).
Proof.
  induction rs as [|r rs IH]; intros out pend; cbn [map fold_left concat].
  - now rewrite app_nil_r.
  - cbn [put]. now rewrite IH, app_assoc.
Qed.

(** The records of the start itself, such as those of a configuration that is refused,
    overtake what was printed before them, also when the program is a daemon. *)
Theorem C159_refuted_early keep n ts f rs daemon : block n keep -> zlen (said (start_ops ts f [])) <= n ->
  w_out (wrun (start keep daemon (start_ops ts f rs)) [EEnd 0]) = concat rs ++ said (start_ops ts f []).
Proof.
  intros B L.
  assert (E : start_ops ts f rs = start_ops ts f [] ++ map Rec rs).
  { unfold start_ops, conf_ops. cbn [map]. now rewrite app_nil_r, !app_assoc. }
  unfold start. rewrite E, fold_left_app, (put_block keep n _ B [] [] (start_no_rec ts f) L), put_recs.
  cbn [app]. destruct daemon; cbn; now rewrite ?app_nil_r.
Qed.

Lemma upto0_app a b : (forall x, In x a -> x <> 0) -> upto0 (a ++ b) = a ++ upto0 b.
Proof.
  induction a as [|x a IH]; intros H; cbn; [reflexivity|].
  destruct (Z.eqb_spec x 0) as [E|_]; [exfalso; apply (H x); [now left|assumption]|].
  f_equal. apply IH. intros y Hy; apply H; now right.
Qed.

(** What is printed, word for word: four lines, and the configuration file up to its
    first NUL if there is one. *)
Theorem C159_text ts pre post : (forall x, In x pre -> x <> 0) -> post = [] \/ (exists x, post = 0 :: x) ->
  let greeting := str "[Ahead tips]-main:99 Welcome to <S5>, buildts <" ++ ts ++ str ">" ++ [10] ++
    str "[Ahead tips]-main:100  /\_/\" ++ [10] ++ str "[Ahead tips]-main:101 ( o.o )" ++ [10] ++
    str "[Ahead tips]-main:102  > ^ <" ++ [10] in
  said (start_ops ts None []) = greeting /\
  said (start_ops ts (Some (pre ++ post)) []) = greeting ++
    str "[Ahead tips]-config_init:135 config string:" ++ [10] ++ str "[Ahead tips]-config_init:136 " ++ pre.
Proof.
  intros N P g. assert (E : upto0 (pre ++ post) = pre).
  { rewrite upto0_app by exact N. destruct P as [->|[x ->]]; cbn; apply app_nil_r. }
  unfold start_ops, conf_ops. rewrite E. unfold g, welcome, tip.
  cbn [app said map]. rewrite !app_nil_r. split; rewrite <- !app_assoc; reflexivity.
Qed.

(** Whatever the configuration file says up to its first NUL, the key in it among the
    rest, is on standard output: of every daemon, and on every terminal. *)
Theorem C159_refuted_key keep ts pre key post es daemon :
  (forall x, In x (pre ++ key) -> x <> 0) ->
  (daemon = true \/ line keep /\ newline_end (upto0 (pre ++ key ++ post))) ->
  exists a z, w_out (wrun (start keep daemon (start_ops ts (Some (pre ++ key ++ post)) [])) es) = a ++ key ++ z.
Proof.
  intros H D.
  assert (U : exists a z, said (start_ops ts (Some (pre ++ key ++ post)) []) = a ++ key ++ z).
  { exists (said (welcome ts ++ [tip "config_init:135" (str "config string:" ++ [10])])
             ++ str "[Ahead tips]-" ++ str "config_init:136" ++ str " " ++ pre), (upto0 post).
    rewrite (app_assoc pre key post). unfold start_ops, conf_ops. rewrite (upto0_app _ _ H).
    unfold welcome, tip. cbn [app said map]. rewrite !app_nil_r, <- !app_assoc. reflexivity. }
  destruct D as [->|[L N]].
  - rewrite C159_daemon by apply start_no_rec. exact U.
  - destruct daemon.
    + rewrite C159_daemon by apply start_no_rec. exact U.
    + rewrite C159_partial by assumption. destruct U as [a [z ->]].
      exists a, (z ++ records [true] es). now rewrite <- !app_assoc.
Qed.

(** ** Examples: a buffer of 4096 bytes; a terminal *)
Definition pipe (t : list Z) : Z := if zlen t <=? 4096 then zlen t else zlen t mod 4096.
Fixpoint after_nl (acc t : list Z) : list Z :=
  match t with [] => acc | b :: r => if b =? 10 then after_nl [] r else after_nl (acc ++ [b]) r end.
Definition tty (t : list Z) : Z := zlen (after_nl [] t).
Lemma pipe_block : block 4096 pipe.
Proof. intros t H. unfold pipe. now rewrite (proj2 (Z.leb_le _ _) H). Qed.
Lemma tty_line : line tty.
Proof.
  intros t [u ->]. unfold tty. enough (forall acc, after_nl acc (u ++ [10]) = []) as -> by reflexivity.
  induction u as [|b u IH]; intros acc; cbn; [reflexivity|]. destruct (b =? 10); apply IH.
Qed.

Definition conf_text : list Z := str "{""s5_mode"":1,""s5_local_auth"":""secret""}" ++ [10].
Definition buildts : list Z := str "Nov 15 2026 20:00:00".

(** The property is false: one worker, output into a pipe, and the start is there twice. *)
Theorem C159_property_refuted :
  ~ (forall keep ts f es, w_out (wrun (start keep false (start_ops ts f [])) es) =
       said (start_ops ts f []) ++ records [true] es).
Proof.
  intros H. specialize (H pipe buildts (Some conf_text) (work 1)).
  rewrite (C159_refuted pipe 4096) in H by (apply pipe_block || (vm_compute; discriminate)).
  apply (f_equal (@length Z)) in H. vm_compute in H. discriminate.
Qed.

Example ex_C159 : line tty /\ newline_end (upto0 conf_text) /\
  w_out (wrun (start tty false (start_ops buildts (Some conf_text) [])) (ERec 0 (str "up") :: work 2))
    = said (start_ops buildts (Some conf_text) []) ++ str "up".
Proof. split; [apply tty_line|]. split; [|vm_compute; reflexivity].
  exists (str "{""s5_mode"":1,""s5_local_auth"":""secret""}"). vm_compute; reflexivity. Qed.

Example ex_C159_refuted : block 4096 pipe /\ zlen (said (start_ops buildts (Some conf_text) [])) <= 4096 /\
  zlen (w_out (wrun (start pipe false (start_ops buildts (Some conf_text) [])) (work 2)))
    = 3 * zlen (said (start_ops buildts (Some conf_text) [])).
Proof. split; [apply pipe_block|]. split; [vm_compute; discriminate|vm_compute; reflexivity]. Qed.

Example ex_C159_text : (forall x, In x (str "ab") -> x <> 0) /\
  zlen (said (start_ops buildts (Some (str "ab" ++ [0; 99])) [])) = zlen (said (start_ops buildts None [])) + 75.
Proof. split; [intros x Hx E; subst x; vm_compute in Hx; intuition discriminate|vm_compute; reflexivity]. Qed.

Example ex_C159_early : block 4096 pipe /\ zlen (said (start_ops buildts (Some conf_text) [])) <= 4096 /\
  w_out (wrun (start pipe true (start_ops buildts (Some conf_text) [str "cfg refused"])) [EEnd 0])
    = str "cfg refused" ++ said (start_ops buildts (Some conf_text) []).
Proof. split; [apply pipe_block|]. split; [vm_compute; discriminate|vm_compute; reflexivity]. Qed.

(** the key "secret" is printed by a daemon *)
Example ex_C159_key : exists a z,
  w_out (wrun (start pipe true (start_ops buildts (Some conf_text) [])) (work 2)) = a ++ str "secret" ++ z.
Proof.
  change conf_text with ((str "{""s5_mode"":1,""s5_local_auth"":""") ++ str "secret" ++ (str """}" ++ [10])).
  apply C159_refuted_key; [|now left].
  intros x Hx E. subst x. vm_compute in Hx. intuition discriminate.
Qed.

Print Assumptions C159_daemon.
Print Assumptions C159_exactly.
Print Assumptions C159_partial.
Print Assumptions C159_refuted.
Print Assumptions C159_refuted_late.
Print Assumptions C159_refuted_early.
Print Assumptions C159_text.
Print Assumptions C159_refuted_key.
Print Assumptions C159_property_refuted.
