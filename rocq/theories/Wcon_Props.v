(** * Connections of the web server under the event loop: theorems (C122, C123) *)
From Verif Require Import Base Ssl_Model Wcon_Model Wcon_Spec Wcon_Proofs.
Open Scope Z_scope.

(** ** C122: an answer that had to wait is continued *)
(** TLS: whatever happened, if nothing failed the answers can still be sent completely, and
    the next request is read or the connection is ended; also if the client ends its sending
    before it has got the answer. Missing: handshakes that had to wait for the socket to become writable (C66). *)
Theorem C122_tls_partial l s : calm l -> hs_sent l -> run (start true) l = Ok (Some s) ->
  exists l' s', calm l' /\ no_request l' /\ run s l' = Ok (Some s') /\ s_wire s' = asked l /\ settled s'.
Proof. apply tls_goes_on. Qed.
Print Assumptions C122_tls_partial.
(** ... and nothing goes wrong before *)
Theorem C122_no_crash_partial l : calm l -> hs_sent l -> exists o, run (start true) l = Ok o.
Proof. intros C H. apply trun_no_fault; auto. apply start_tinv. Qed.
Print Assumptions C122_no_crash_partial.
(** plain: as long as no send has to wait, the answers are complete when the connection waits *)
Theorem C122_plain_partial l s : ~ In (Snd SWaitW) l -> run (start false) l = Ok (Some s) -> waiting s ->
  s_wire s = asked l.
Proof. apply plain_done. Qed.
Print Assumptions C122_plain_partial.
Theorem C122_plain_no_crash l : exists o, run (start false) l = Ok o.
Proof. apply prun_no_fault, start_pinv. Qed.
Print Assumptions C122_plain_no_crash.
(** plain: once the connection waits with something unsent, nothing more is ever sent *)
Theorem C122_plain_silent l s : run (start false) l = Ok (Some s) -> waiting s -> s_wire s <> asked l -> silent s.
Proof. apply plain_silent. Qed.
Print Assumptions C122_plain_silent.

Local Arguments zlen : simpl never.
Local Arguments ztake : simpl never.
Local Arguments zdrop : simpl never.
(** every answer with a file can end after its head, though nothing failed *)
Theorem C122_plain_refuted : forall h f, h <> [] -> f <> [] ->
  exists l s, calm l /\ run (start false) l = Ok (Some s) /\ asked l = h ++ f /\ s_wire s = h /\ silent s.
Proof.
  intros h f H F. set (r := Rsp h (BFile f) true).
  set (l := [EvR; Rd (RdReq r); Snd (SSent (zlen h)); Get (Some 1); Snd SWaitW]).
  assert (E : exists s, run (start false) l = Ok (Some s) /\ waiting s /\ s_wire s = h).
  { destruct h as [|y h]; [contradiction|]. destruct f as [|z f]; [contradiction|].
    set (w := (y :: h) ++ z :: f) in *.
    set (c1 := Con CTry CHdr IR INo Nul Nul). set (c2 := Con CTry CFile IR INo Nul Nul).
    set (s1 := St false c1 false false WHdr r (y :: h) 0 [] 0 0 [] w).
    set (s2 := St false c2 false false WGet r [] 0 (z :: f) 0 (zlen (z :: f)) (y :: h) w).
    set (s3 := St false c2 false false WSnd r [z] 0 f 0 (zlen (z :: f)) (y :: h) w).
    assert (E1 : run (start false) [EvR; Rd (RdReq r)] = Ok (Some s1)) by reflexivity.
    assert (E2 : step s1 (Snd (SSent (zlen (y :: h)))) = Ok (Some s2)).
    { unfold step. change (s_pc s1) with WHdr. change (s_pend s1) with (y :: h).
      assert (P : 1 <= zlen (y :: h)) by (rewrite zlen_cons; pose proof (zlen_nonneg h); lia).
      assert (P2 : 0 < zlen (z :: f)) by (rewrite zlen_cons; pose proof (zlen_nonneg f); lia).
      rewrite (proj2 (Z.leb_le _ _) P), Z.leb_refl. cbn [andb]. cbv zeta. rewrite zdrop_all, ztake_all by lia.
      cbn [with_wire s_pend]. apply (f_equal (fun x => Ok (Some x))). unfold head_done. cbv zeta.
      change (r_body (s_rsp _)) with (BFile (z :: f)). cbv iota. unfold ff_enter. cbn [with_con with_buf s_pend].
      unfold ff_after. cbn [with_con with_buf s_fsize s_fsend]. rewrite (proj2 (Z.leb_gt _ _) P2). reflexivity. }
    assert (E3 : step s2 (Get (Some 1)) = Ok (Some s3)).
    { unfold step. cbn [s2 s_pc]. change (1 <=? 1) with true. cbv iota zeta. cbn [s_pend s_off s_rest s2].
      change (Z.min 1 (PAY - (0 + zlen (@nil Z)))) with 1. reflexivity. }
    exists (wait s3). split; [|split; reflexivity].
    change l with ([EvR; Rd (RdReq r)] ++ [Snd (SSent (zlen (y :: h))); Get (Some 1); Snd SWaitW]).
    rewrite (run_app _ _ _ _ E1). cbn [bind run]. rewrite E2. cbn [bind]. rewrite E3. reflexivity. }
  destruct E as (s & E & W & Q). exists l, s. split; [repeat constructor|]. split; [exact E|].
  assert (A : asked l = h ++ f) by (cbn; unfold whole; cbn; apply app_nil_r).
  split; [exact A|]. split; [exact Q|]. apply (plain_silent l s E W). rewrite A, Q. intros X.
  apply (f_equal zlen) in X. rewrite zlen_app in X. destruct f as [|z f]; [contradiction|]. rewrite zlen_cons in X.
  pose proof (zlen_nonneg f). lia.
Qed.
Print Assumptions C122_plain_refuted.
Theorem C122_property_refuted : ~ goes_on false.
Proof.
  intros G. destruct (C122_plain_refuted [72] [1; 2] ltac:(discriminate) ltac:(discriminate)) as (l & s & C & R & A & W & Q).
  destruct (G l s C R) as (l' & s' & _ & _ & R' & E). rewrite (Q l' s' R'), W, A in E. discriminate.
Qed.
Print Assumptions C122_property_refuted.

Definition r0 : rsp := Rsp [72; 84] (BFile [1; 2; 3]) true.
(** TLS: request, head, part of the file read, the send waits; then the rest is sent *)
Definition l0 : list act := [EvR; Hs WantR; EvR; Hs Done; Rd RdWaitR; EvR; Rd (RdReq r0); Snd (SSent 2); Get (Some 2); Snd SWaitW].
Example ex_C122_tls : exists s, run (start true) l0 = Ok (Some s) /\ calm l0 /\ hs_sent l0 /\ waiting s /\ s_wire s = [72; 84] /\
  asked l0 = [72; 84; 1; 2; 3].
Proof.
  eexists. split; [vm_compute; reflexivity|]. split; [repeat constructor|]. split.
  - unfold hs_sent, l0, not. cbn. intros H. repeat destruct H as [H|H]; try discriminate; exact H.
  - repeat split; vm_compute; reflexivity.
Qed.
Example ex_C122_tls_on : exists s s', run (start true) l0 = Ok (Some s) /\
  run s [EvW; Snd (SSent 2); Get (Some 5); Snd (SSent 1); Rd RdWaitR] = Ok (Some s') /\ s_wire s' = [72; 84; 1; 2; 3] /\ waiting s'.
Proof. eexists. eexists. split; [vm_compute; reflexivity|]. split; [vm_compute; reflexivity|]. split; vm_compute; reflexivity. Qed.
(** plain: the same exchange; the socket is never reported writable *)
Definition l1 : list act := [EvR; Rd (RdReq r0); Snd (SSent 2); Get (Some 2); Snd SWaitW].
Example ex_C122_plain : exists s, run (start false) l1 = Ok (Some s) /\ waiting s /\ s_wire s <> asked l1 /\ step s EvW = Ok None.
Proof. eexists. split; [vm_compute; reflexivity|]. split; [vm_compute; reflexivity|]. split; [vm_compute; discriminate|vm_compute; reflexivity]. Qed.
Example ex_C122_plain_done : exists s, run (start false) [EvR; Rd (RdReq r0); Snd (SSent 1); Snd (SSent 1); Get (Some 2); Snd (SSent 1); Get (Some 9); Snd (SSent 2); Rd RdWaitR] = Ok (Some s)
  /\ waiting s /\ s_wire s = [72; 84; 1; 2; 3].
Proof. eexists. split; [vm_compute; reflexivity|]. split; vm_compute; reflexivity. Qed.

(** ** C123: no connection waits without a deadline *)
(** whatever happens, failures included: while the event loop has the connection the timer is armed *)
Theorem C123_armed t l s : run (start t) l = Ok (Some s) -> waiting s -> s_tmr s = true.
Proof. apply deadline. Qed.
Print Assumptions C123_armed.
(** when it runs out, the connection is released or being shut down; from then on nothing is
    sent, and if it has to wait again the next time the timer runs out it is released *)
Theorem C123_ends t l s : run (start t) l = Ok (Some s) -> waiting s ->
  exists s1, step s Expire = Ok (Some s1) /\ (s_pc s1 = WDead \/ s_pc s1 = WShut) /\
  forall l' s2, run s1 l' = Ok (Some s2) -> s_wire s2 = s_wire s /\
    (waiting s2 -> exists s3, step s2 Expire = Ok (Some s3) /\ s_pc s3 = WDead).
Proof.
  intros R W. pose proof (deadline t l s R W) as T.
  assert (X : exists s1, step s Expire = Ok (Some s1)).
  { unfold step. unfold waiting in W. rewrite W, T. cbv zeta. repeat match goal with |- context [match ?x with _ => _ end] => destruct x end; eauto. }
  destruct X as (s1 & E). exists s1. split; [exact E|]. destruct (expire_closing s s1 W E) as (D & Q). split; [exact D|].
  intros l' s2 R2. assert (C : closing s1) by (unfold closing; tauto).
  destruct (closing_run l' s1 s2 C R2) as (C2 & Q2). split; [congruence|]. intros W2. apply closing_expire; auto.
  apply (deadline t (l ++ Expire :: l')); [|exact W2]. rewrite (run_app _ _ _ _ R). cbn [run]. rewrite E. exact R2.
Qed.
Print Assumptions C123_ends.
Example ex_C123 : exists s s1 s2 s3, run (start true) l0 = Ok (Some s) /\ waiting s /\ s_tmr s = true /\
  step s Expire = Ok (Some s1) /\ s_pc s1 = WShut /\ run s1 [Sh WantW] = Ok (Some s2) /\ waiting s2 /\
  step s2 Expire = Ok (Some s3) /\ s_pc s3 = WDead.
Proof. do 4 eexists. repeat (split; [vm_compute; reflexivity|]). vm_compute; reflexivity. Qed.
(** the accepted connection that stays silent *)
Example ex_C123_start : waiting (start false) /\ exists s, step (start false) Expire = Ok (Some s) /\ s_pc s = WDead.
Proof. split; [vm_compute; reflexivity|]. eexists. split; vm_compute; reflexivity. Qed.
