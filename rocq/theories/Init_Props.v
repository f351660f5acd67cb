(** * Theorems about the start of a worker: C105 *)
From Coq Require Import String.
From Verif Require Import Base Str_Spec Ac_Model Conf_Model Json_Model Json_Spec Auth_Model Auth_Props Init_Model.
Open Scope Z_scope.

(** ** C105: a worker that could not be set up does not serve; one that reports success has
    everything it follows *)
Definition C105_property : Prop := forall server e rc g, modules_init server e = Ok (rc, g) ->
  forall n, worker server e (repeat Round n) = Ok g -> rc = 0.
Definition all_ok (e : env) : Prop :=
  ok_mem e = true /\ ok_ssl e = true /\ ok_heap e = true /\ ok_ev e = true /\ ok_ses e = true /\
  ok_web e = true /\ ok_dns e = true /\ ok_hash e = true.
Definition no_key (w : work) : Prop := match w with Key _ => False | _ => True end.

Lemma works_rounds g : g_heap g = true -> g_ev g = true -> forall n, works g (repeat Round n) = Ok g.
Proof.
  intros H E n. induction n as [|n IH]; [reflexivity|]. cbn [repeat works do_work]. rewrite H, E. cbn. exact IH.
Qed.

(** if every call succeeds and, in server mode, the keys could be read, nothing that the
    worker follows is missing, and the matcher in use is the one of the key file *)
Theorem C105_partial : forall server e c, all_ok e ->
  (server = true -> auth_init (key_file e) = Ok (0, c)) ->
  exists g, modules_init server e = Ok (0, g) /\ g_ac g = (if server then Some c else None) /\
    forall ws, Forall no_key ws -> worker server e ws = Ok g.
Proof.
  intros server e c (A1 & A2 & A3 & A4 & A5 & A6 & A7 & A8) K.
  assert (exists g, modules_init server e = Ok (0, g) /\ g = Globals true true true true true (if server then Some c else None) true true true) as (g & M & E).
  { unfold modules_init. rewrite A1, A2, A3, A4, A5, A6, A7, A8. cbn [negb].
    destruct server; [rewrite (K eq_refl)|]; cbn; eauto. }
  exists g. split; [exact M|]. split; [rewrite E; reflexivity|]. intros ws F. unfold worker. rewrite M. cbn [bind snd].
  subst g. induction ws as [|w ws IH]; [reflexivity|]. inversion F as [|? ? F1 F2]; subst.
  destruct w; try contradiction; cbn; exact (IH F2).
Qed.
Print Assumptions C105_partial.

Definition good (kf : option (list Z)) : env := Env true true true true true kf true true true.
Example C105_example : exists c, all_ok (good (Some auth_text)) /\ auth_init (key_file (good (Some auth_text))) = Ok (0, c) /\
  Forall no_key [Round; Web; Name; Round].
Proof.
  destruct C100_example as (_ & _ & c & E). exists c. split; [repeat split|]. split; [exact E|]. repeat constructor.
Qed.

(** false: a server whose key file is missing reports it and serves all the same; the first
    web request or name lookup follows NULL *)
Theorem C105_refuted : forall e n, all_ok e -> key_file e = None -> exists g,
  modules_init true e = Ok (-1, g) /\ worker true e (repeat Round n) = Ok g /\
  worker true e (repeat Round n ++ [Web]) = Fault FNull /\
  worker true e (repeat Round n ++ [Name]) = Fault FNull.
Proof.
  intros e n (A1 & A2 & A3 & A4 & A5 & A6 & A7 & A8) K.
  assert (modules_init true e = Ok (-1, Globals true true true true true (Some ezac_init) false false false)) as M.
  { unfold modules_init. rewrite A1, A2, A3, A4, A5, K. reflexivity. }
  exists (Globals true true true true true (Some ezac_init) false false false).
  assert (forall g w, g_heap g = true -> g_ev g = true -> works g (repeat Round n ++ [w]) = (let* g' := do_work g w in Ok g')) as W.
  { clear. intros g w H E. induction n as [|n IH]; [reflexivity|]. cbn [repeat app works]. unfold do_work at 1. rewrite H, E. exact IH. }
  split; [exact M|]. unfold worker. rewrite M. cbn [bind snd].
  split; [apply works_rounds; reflexivity|]. split; rewrite W; reflexivity.
Qed.
Print Assumptions C105_refuted.
Theorem C105_property_refuted : ~ C105_property.
Proof.
  intros P. destruct (C105_refuted (good None) 3 ltac:(repeat split) eq_refl) as (g & M & W & _).
  specialize (P _ _ _ _ M 3%nat W). discriminate P.
Qed.
Print Assumptions C105_property_refuted.

(** a timer heap that cannot be allocated is reported as success; the first round follows NULL *)
Theorem C105_refuted_heap : exists e, ok_heap e = false /\ exists g, modules_init false e = Ok (0, g) /\
  worker false e [Round] = Fault FNull.
Proof. exists (Env true true false true true None true true true). split; [reflexivity|]. eexists. split; reflexivity. Qed.
Print Assumptions C105_refuted_heap.

(** without memory for the pool, the TLS context or the event table the worker does not end
    in order either: it crashes (and is started again, see C70) *)
Theorem C105_refuted_early : forall server e, ok_mem e && ok_ssl e && ok_ev e = false ->
  (exists g, modules_init server e = Ok (-1, g)) /\ worker server e [Round] = Fault FNull.
Proof.
  intros server e H. unfold worker, modules_init. destruct (ok_mem e); cbn; [|eauto].
  destruct (ok_ssl e); cbn; [|eauto]. destruct (ok_ev e); cbn; [discriminate H|]. split; [eauto|].
  destruct (ok_heap e); reflexivity.
Qed.
Print Assumptions C105_refuted_early.
Example C105_early_example : ok_mem (Env true false true true true None true true true) && ok_ssl (Env true false true true true None true true true) && true = false.
Proof. reflexivity. Qed.

(** ** What exactly is reported, and what exactly crashes
    The calls made by the initialisation in their order, without that for the timer heap. *)
Definition keys_read (server : bool) (e : env) : bool :=
  if server then match auth_init (key_file e) with Ok p => fst p =? 0 | _ => false end else true.
Definition calls (server : bool) (e : env) : list bool :=
  [ok_mem e; ok_ssl e; ok_ev e; ok_ses e; keys_read server e; ok_web e; ok_dns e; ok_hash e].
(** the first [n] of them succeeded *)
Definition succeeded (n : nat) (server : bool) (e : env) : Prop := Forall (fun b => b = true) (firstn n (calls server e)).

(** every failure is reported, except that of the timer heap; a web request finds its context
    if and only if everything up to the web module succeeded, a lookup if and only if
    everything did, and a round of the loop if and only if pool, TLS, heap and event table
    are there *)
Theorem C105_exact_partial : forall server e rc g, modules_init server e = Ok (rc, g) ->
  (rc = 0 <-> succeeded 8 server e) /\
  (do_work g Web = Ok g <-> succeeded 6 server e) /\ (do_work g Web = Fault FNull <-> ~ succeeded 6 server e) /\
  (do_work g Name = Ok g <-> succeeded 8 server e) /\ (do_work g Name = Fault FNull <-> ~ succeeded 8 server e) /\
  (do_work g Round = Ok g <-> succeeded 3 server e /\ ok_heap e = true) /\
  (do_work g Round = Fault FNull <-> ~ (succeeded 3 server e /\ ok_heap e = true)).
Proof.
  assert (SP : forall n server e, succeeded n server e <-> forallb (fun b => b) (firstn n (calls server e)) = true).
  { intros n server e. unfold succeeded. rewrite Forall_forall, forallb_forall. reflexivity. }
  intros server e rc g M. rewrite !SP. unfold modules_init in M.
  assert (KR : keys_read server e = match (if server then let* p := auth_init (key_file e) in Ok (fst p, Some (snd p)) else Ok (0, None)) with
    | Ok a => fst a =? 0 | _ => false end).
  { unfold keys_read. destruct server; [|reflexivity]. destruct (auth_init (key_file e)); reflexivity. }
  cbn [calls firstn forallb]. rewrite KR.
  destruct (ok_mem e); cbn [negb] in M; [|injection M as <- <-; cbn; intuition discriminate].
  destruct (ok_ssl e); cbn [negb] in M; [|injection M as <- <-; cbn; intuition discriminate].
  destruct (ok_ev e); cbn [negb] in M; [|injection M as <- <-; destruct (ok_heap e); cbn; intuition discriminate].
  destruct (ok_ses e); cbn [negb] in M; [|injection M as <- <-; destruct (ok_heap e); cbn; intuition discriminate].
  destruct (if server then _ else _) as [[k c]|f|]; cbn [bind fst snd] in M |- *; try discriminate M.
  destruct (k =? 0); cbn [negb] in M; [|injection M as <- <-; destruct (ok_heap e); cbn; intuition discriminate].
  destruct (ok_web e); cbn [negb] in M; [|injection M as <- <-; destruct (ok_heap e); cbn; intuition discriminate].
  destruct (ok_dns e); cbn [negb] in M; [|injection M as <- <-; destruct (ok_heap e); cbn; intuition discriminate].
  destruct (ok_hash e); cbn [negb] in M; injection M as <- <-; destruct (ok_heap e); cbn; intuition discriminate.
Qed.
Print Assumptions C105_exact_partial.
Example C105_exact_example : exists g1 g2, modules_init false (Env true true true true true None true false true) = Ok (-1, g1) /\
  do_work g1 Web = Ok g1 /\ do_work g1 Name = Fault FNull /\
  modules_init false (Env true true true true true None true true false) = Ok (-1, g2) /\ do_work g2 Name = Fault FNull.
Proof. eexists _, _. repeat split. Qed.
