(** * Sessions: what the environment may do, what should hold *)
From Verif Require Import Base Reach Life_Model Life_Proofs.

(** ** What the environment does *)
Definition reads (o : intr) : bool := match o with IR | IRW => true | _ => false end.
Definition writes (o : intr) : bool := match o with IW | IRW => true | _ => false end.
Definition alive (c : con) : bool := match lif c with Alive => true | _ => false end.
Definition freed (c : con) : bool := match lif c with Freed => true | _ => false end.

(** The kernel reports only what was asked for. (Without this restriction the theorems
    also cover reports that were fetched before the interest was changed.) *)
Definition heard (s : st) (l : lab) : bool :=
  match pc s, l with
  | Idle, EvR w => reads (opt (con_of s w))
  | Idle, EvW w => writes (opt (con_of s w))
  | _, _ => true
  end.

(** Server, what is excluded:
    - a TLS read that has to wait for writing, a TLS write that has to wait for reading, a
      handshake that has to wait for writing;
    - the client's socket failing while a name is being looked up;
    - no socket or buffer for the DNS query. *)
Definition calm_server (s : st) (l : lab) : bool :=
  match pc s, l with
  | Run Down (SAccept | Hs | SAuth | P1Req | P2Req | TRecv), Do _ WantW _ => false
  | Run Down (P1Rsp | P2Rsp | RSend), Do _ WantR _ => false
  | Run Down TryRead, Do false _ _ => negb (alive (q s))
  | Run Down DnsAlloc, Do _ (WantW | Err) _ => false
  | _, _ => true
  end.
(** Client, what is excluded:
    - TLS waiting for the other direction after the handshake;
    - the timeout that ssl.c sets during the handshake. *)
Definition calm_client (s : st) (l : lab) : bool :=
  match pc s, l with
  | Run Up RRecv, Do _ WantW _ => false
  | Run Up (CAuthSend | TSend), Do _ WantR _ => false
  | Run Up HSslCexp, _ => match tls (up s) with TUp => true | _ => false end
  | _, _ => true
  end.
(** the short replies and the authorization record fit into the socket buffer *)
Definition fits (s : st) (l : lab) : bool :=
  match pc s, l with
  | Run Down (P1Rsp | P2Rsp), Do _ WantW _ | Run Up CAuthSend, Do _ WantW _ => false
  | _, _ => true
  end.
(** memory for the record of a DNS query is available *)
Definition dns_memory (s : st) (l : lab) : bool :=
  match pc s, l with Run Down DnsAlloc, Do _ WantR _ => false | _, _ => true end.
(** connect does not fail after net.c:101 has stored the descriptor *)
Definition connects (s : st) (l : lab) : bool :=
  match pc s, l with
  | Run Up Connect, Do true Err _ | Run Down CAccept, Do true Err _ => false
  | _, _ => true
  end.
Definition both (f g : st -> lab -> bool) (s : st) (l : lab) : bool := f s l && g s l.

(** ** What should hold between two events *)
Definition waiting (s : st) : bool := match pc s with Idle => true | _ => false end.
Definition shutting (c : con) : bool := match rcb c, wcb c with Shut, _ | _, Shut => true | _, _ => false end.
(** once the client connection is gone, so is everything else (the upstream connection
    may be waiting for the other side's TLS close, for which it has a timer) *)
Definition together (s : st) : bool :=
  negb (waiting s && freed (down s)) ||
  (match ses s with Alive => false | _ => true end && negb (alive (q s)) &&
   (negb (alive (up s)) || (shutting (up s) && negb (is_no (tm (up s)))))).
(** something that is alive has a deadline *)
Definition has_timer (c : con) : bool := alive c && negb (is_no (tm c)).
Definition watched (s : st) : bool :=
  negb (waiting s && (alive (down s) || alive (up s) || alive (q s))) ||
  has_timer (down s) || has_timer (up s) || has_timer (q s).
(** once the relay has started ([Proc] asks for both directions upstream), the code of
    the earlier phases does not run any more *)
Definition relay_only (s : st) : bool :=
  match opt (up s), pc s with
  | IRW, Run Down (SAccept | SStart | SAuth | P1Req | P1Rsp | P2Req | CupAddr | TryRead | P2Rsp) => false
  | IRW, Run Up (Connect | ConnChk) => false
  | _, _ => true
  end.
Definition relay_only_client (s : st) : bool :=
  match opt (down s), pc s with
  | IRW, Run Down (CAccept | CRecv) => false
  | IRW, Run Up (CConnChk | CConnSsl | CAuthSend | Hs) => false
  | _, _ => true
  end.
(** bytes for this side are pending, so writability is asked for; the side may be read,
    so readability is asked for *)
Definition asks_up (s : st) : bool :=
  negb (waiting s && alive (up s)) ||
  ((match wcb (up s) with TSend => negb (dbuf s) || writes (opt (up s)) | _ => true end) &&
   (match rcb (up s) with RRecv => reads (opt (up s)) | _ => true end)).
Definition asks_down (s : st) : bool :=
  negb (waiting s && alive (down s)) ||
  ((match wcb (down s) with RSend => negb (ubuf s) || writes (opt (down s)) | _ => true end) &&
   (match rcb (down s) with TRecv => reads (opt (down s)) | _ => true end)).
(** no descriptor has been closed twice, and none is about to be *)
Definition half_closed (c : con) : bool := match fd c with FdClosed => true | _ => false end.
Definition closed_once (s : st) : bool :=
  negb (dbl s) && negb (half_closed (down s)) && negb (half_closed (up s)) && negb (half_closed (q s)).

Definition always (allowed : st -> lab -> bool) (s0 : st) (ok : st -> bool) : Prop :=
  forall l, along allowed s0 l = true -> exists s, run s0 l = Ok s /\ ok s = true.
Lemma always_imp allowed s0 ok ok' :
  (forall s, ok s = true -> ok' s = true) -> always allowed s0 ok -> always allowed s0 ok'.
Proof. intros H A l Al. destruct (A l Al) as (s & E & K). eauto. Qed.
Lemma along_sub f g s l : (forall s x, g s x = true -> f s x = true) -> along g s l = true -> along f s l = true.
Proof.
  intros H. revert s. induction l as [|x l IH]; simpl; intros s A; auto.
  apply andb_true_iff in A as [A B]. rewrite (H _ _ A). simpl. destruct (step s x); auto.
Qed.
Lemma always_sub f g s0 ok : (forall s x, g s x = true -> f s x = true) -> always f s0 ok -> always g s0 ok.
Proof. intros H A l Al. apply A. eapply along_sub; eauto. Qed.

Definition any (s : st) (l : lab) (s' : st) : bool := true.
Definition check allowed s0 ok edge :=
  checked st_beq key labels allowed step ok edge (Z.to_nat 20000) s0.
Lemma check_always allowed s0 ok edge : blind allowed -> check allowed s0 ok edge = true -> always allowed s0 ok.
Proof.
  unfold check. generalize (Z.to_nat 20000). intros n B C l. exact (checked_run allowed ok edge n s0 B C l).
Qed.
Lemma check_keeps allowed g s0 ok P : blind allowed -> blind g -> check allowed s0 ok (keeps g P) = true ->
  P s0 = true -> always (both allowed g) s0 P.
Proof.
  unfold check. generalize (Z.to_nat 20000). intros n B Bg C P0 l A.
  exact (checked_keeps allowed g P ok n s0 B Bg C P0 l A).
Qed.
