(** * Sessions (src/app/tls_tunnel_s.c, tls_tunnel_c.c, socks5.c, src/dns/dns.c,
    src/common/net.c, ssl.c): properties C68 and C89-C93.

    The machine of Life_Model.v has finitely many states, so a theorem about every
    execution of any length follows from a set of states that contains the initial one, is
    closed under every allowed step, and satisfies the property ([checked_run]). The set is
    computed and checked by [search], which is proved correct in Reach.v. *)
From Verif Require Import Base Reach Life_Model Life_Proofs Life_Spec.

(** ** C68: sessions are released exactly once

    Reading or writing through a pointer to released memory, releasing something twice
    and calling a NULL callback are the faults of the machine. *)
Lemma calm_server_blind : blind calm_server.
Proof. intros s b f d d'. unfold calm_server. destruct (pc s) as [|[] []]; reflexivity. Qed.
Lemma calm_client_blind : blind calm_client.
Proof. intros s b f d d'. unfold calm_client. destruct (pc s) as [|[] []]; reflexivity. Qed.
Lemma fits_blind : blind fits.
Proof. intros s b f d d'. unfold fits. destruct (pc s) as [|[] []]; reflexivity. Qed.
Lemma heard_blind : blind heard.
Proof. intros s b f d d'. unfold heard. destruct (pc s) as [|[] []]; reflexivity. Qed.
Lemma dns_memory_blind : blind dns_memory.
Proof. intros s b f d d'. unfold dns_memory. destruct (pc s) as [|[] []]; reflexivity. Qed.
Lemma connects_blind : blind connects.
Proof. intros s b f d d'. unfold connects. destruct (pc s) as [|[] []]; reflexivity. Qed.
Lemma both_blind f g : blind f -> blind g -> blind (both f g).
Proof. intros F G s b x d d'. unfold both. rewrite (F s b x d d'), (G s b x d d'). reflexivity. Qed.
Local Hint Resolve calm_server_blind calm_client_blind fits_blind heard_blind dns_memory_blind connects_blind both_blind : blind.

Lemma server_check : check calm_server server0 asks_up (keeps connects closed_once) = true.
Proof. vm_compute. reflexivity. Qed.
Lemma server_all : always calm_server server0 asks_up.
Proof. eapply check_always; [auto with blind|exact server_check]. Qed.
Lemma server_connects : always (both calm_server connects) server0 closed_once.
Proof. eapply check_keeps; [auto with blind|auto with blind|exact server_check|reflexivity]. Qed.
Lemma server_fits : always (both calm_server fits) server0 relay_only.
Proof. apply check_always with (edge := any); [auto with blind|]. vm_compute. reflexivity. Qed.
Lemma server_heard : always (both calm_server heard) server0 together.
Proof. apply check_always with (edge := any); [auto with blind|]. vm_compute. reflexivity. Qed.
Lemma server_memory : always (both (both calm_server heard) dns_memory) server0 watched.
Proof. apply check_always with (edge := any); [auto with blind|]. vm_compute. reflexivity. Qed.
Definition client_ok (s : st) : bool := together s && watched s && asks_down s.
Lemma client_check : check calm_client client0 client_ok (keeps connects closed_once) = true.
Proof. vm_compute. reflexivity. Qed.
Lemma client_all : always calm_client client0 client_ok.
Proof. eapply check_always; [auto with blind|exact client_check]. Qed.
Lemma client_connects : always (both calm_client connects) client0 closed_once.
Proof. eapply check_keeps; [auto with blind|auto with blind|exact client_check|reflexivity]. Qed.
Lemma client_fits : always (both (both calm_client fits) heard) client0 relay_only_client.
Proof. apply check_always with (edge := any); [auto with blind|]. vm_compute. reflexivity. Qed.

(** Server: every order of client close, upstream close, timeouts, name lookup and TLS
    shutdown, of any length, including stale reports of the kernel, runs without touching
    released memory, releasing anything twice or calling a missing callback, as long as the
    listed accidents do not happen. Each of them alone breaks the property (below). *)
Theorem C68_server_partial l : along calm_server server0 l = true -> exists s, run server0 l = Ok s.
Proof. intros A. destruct (server_all l A) as (s & E & _). eauto. Qed.
Theorem C68_client_partial l : along calm_client client0 l = true -> exists s, run client0 l = Ok s.
Proof. intros A. destruct (client_all l A) as (s & E & _). eauto. Qed.
Print Assumptions C68_server_partial.
Print Assumptions C68_client_partial.

(** from the accepted connection to the relay: handshake, authorization, both SOCKS5
    exchanges, connect *)
Definition to_relay : list lab := EvR Down :: repeat (Do true All All) 10.
(** a session with a name lookup that relays in both directions and ends by a timeout,
    its TLS shutdown having to wait *)
Definition session : list lab :=
  [EvR Down; Do true WantR All; EvR Down] ++ repeat (Do true All All) 7 ++
  [Do true WantR All; Do true All All; Do true WantR All; EvW Q; Do true All All; Do true WantR All;
   EvR Down; Do true WantR All; EvR Q; Do true All All; Do true WantW All; EvW Up; Do true All All; Do true All All;
   Do true All All; Do true WantR All; Do true All All; Do false WantR All;
   EvR Up; Do true WantR All; Do true All All; Do false WantR All; Tmo Down; Do true All WantR;
   EvR Down; Do true All All].
Example C68_server_example :
  along (both calm_server heard) server0 session = true /\
  (let* s := run server0 to_relay in Ok (pc s)) = Ok (Run Down Proc) /\
  (let* s := run server0 session in Ok (lif (down s), lif (up s), ses s, dns s, dbl s, pc s)) =
    Ok (Freed, Freed, Freed, Freed, false, Idle).
Proof. vm_compute. auto. Qed.
(** the client's session: connect, handshake in two rounds, authorization, relay; the
    local client closes *)
Definition to_relay_client : list lab :=
  [EvR Down; Do true WantR All; EvW Up; Do true All All; Do true WantR All; EvR Up] ++ repeat (Do true All All) 3.
Definition session_client : list lab :=
  to_relay_client ++
  [Do true All All; Do true WantR All; Do true All All; Do false WantR All;
   EvR Up; Do true WantR All; Do true All All; Do false WantR All; EvR Down; Do false Err All].
Example C68_client_example :
  along (both calm_client heard) client0 session_client = true /\
  (let* s := run client0 to_relay_client in Ok (pc s)) = Ok (Run Down Proc) /\
  (let* s := run client0 session_client in Ok (lif (down s), lif (up s), ses s, dbl s, pc s)) =
    Ok (Freed, Freed, Freed, false, Idle).
Proof. vm_compute. auto. Qed.

(** *** What is excluded above does break sessions

    Each of these traces consists of events the kernel does report. *)
Definition breaks (s0 : st) (f : fault) : Prop := exists l, along heard s0 l = true /\ run s0 l = Fault f.

(** socks5.c:6-16: while a name is looked up the client closes; [s5_try_read] releases both
    connections and the session; the answer (or the timeout) of the query then uses them *)
Definition dns_pending : list lab :=
  EvR Down :: repeat (Do true All All) 6 ++ [Do true WantR All; Do true All All; Do true All All; Do true WantR All].
Theorem C68_refuted_dns :
  along heard server0 (dns_pending ++ [EvR Down; Do false All All; EvR Q; Do true All All]) = true /\
  run server0 (dns_pending ++ [EvR Down; Do false All All; EvR Q; Do true All All]) = Fault FUaf /\
  along heard server0 (dns_pending ++ [EvR Down; Do false All All; Tmo Q; Do true All All]) = true /\
  run server0 (dns_pending ++ [EvR Down; Do false All All; Tmo Q; Do true All All]) = Fault FUaf.
Proof. vm_compute. auto. Qed.
(** dns.c:328-368: without a socket for the query, [dns_free(NULL)] *)
Theorem C68_refuted_no_socket : breaks server0 FNull.
Proof.
  exists (EvR Down :: repeat (Do true All All) 6 ++ [Do true WantR All; Do true WantW All]).
  vm_compute. auto.
Qed.
(** ssl.c:155-176: the server has no write callback during the handshake; when the
    handshake has to wait for writing, the callback that is restored is the handshake
    callback itself, which then calls itself *)
Theorem C68_refuted_handshake : breaks server0 FRecursion.
Proof. exists [EvR Down; Do true WantW All; EvW Down; Do true All All]. vm_compute. auto. Qed.
(** ssl.c:203-220: a read that has to wait for writing; then the relay takes the read
    callback away (it has bytes to send first); the writability calls NULL *)
Theorem C68_refuted_read : breaks server0 FNull /\ breaks client0 FNull.
Proof.
  split.
  - exists (to_relay ++ [Do true All All; Do true WantW All; Do true WantR All; EvW Down; Do true All All]).
    vm_compute. auto.
  - exists [EvR Down; Do true All All; Do true All All; Do true All All; Do true All All; Do true All All;
      Do false WantR All; EvR Up; Do true WantW All; Do true WantW All; EvW Up; Do true All All].
    vm_compute. auto.
Qed.
(** ssl.c:248-265: a write that has to wait for reading; its callback stays installed as
    read callback and later calls a write callback that is gone *)
Theorem C68_refuted_write : breaks server0 FNull /\ breaks client0 FNull.
Proof.
  split.
  - exists (to_relay ++ [Do true All All; Do true All All; Do true WantR All; EvR Up; Do true All All; Do true WantR All;
      EvR Down; Do true All All; Do true All All; Do false WantR All; EvR Down; Do true All All]).
    vm_compute. auto.
  - exists [EvR Down; Do true All All; Do true All All; Do true All All; Do true All All; Do true All All;
      Do false WantR All; EvR Up; Do true All All; Do true WantR All; EvR Down; Do true All All; Do true WantR All;
      EvR Up; Do true All All; Do true All All; Do false WantR All; EvR Up; Do true All All].
    vm_compute. auto.
Qed.
(** ssl.c:101-106, 144-180: the client's handshake needs a second round; the timeout
    installed by ssl.c releases the upstream connection only; the session still points to
    it, and the local client's close releases it again *)
Definition client_orphan : list lab :=
  [EvR Down; Do true All All; Do true All All; Do true WantR All; EvR Up; Do true WantR All; Tmo Up; Do true All All].
Theorem C68_refuted_client :
  along heard client0 (client_orphan ++ [EvR Down; Do true All All]) = true /\
  run client0 (client_orphan ++ [EvR Down; Do true All All]) = Fault FUaf.
Proof. vm_compute. auto. Qed.
Print Assumptions C68_refuted_dns.
Print Assumptions C68_refuted_no_socket.
Print Assumptions C68_refuted_handshake.
Print Assumptions C68_refuted_read.
Print Assumptions C68_refuted_write.
Print Assumptions C68_refuted_client.

(** ** C89: a side with pending bytes is asked for writability, a side that may be read
    for readability

    True of the plain (not TLS) side of both programs, for all executions; false of the
    TLS side. *)
Theorem C89_plain_partial l :
  (along calm_server server0 l = true -> exists s, run server0 l = Ok s /\ asks_up s = true) /\
  (along calm_client client0 l = true -> exists s, run client0 l = Ok s /\ asks_down s = true).
Proof.
  split; intros A.
  - apply server_all. exact A.
  - destruct (client_all l A) as (s & E & K). exists s. split; auto.
    unfold client_ok in K. apply andb_true_iff in K. tauto.
Qed.
(** ssl.c:190-220: the relay's send to the TLS client had to wait for writability; a
    successful read restores the interest of before, and the next read that has to wait
    asks for readability only: the pending bytes are not sent however writable the socket
    is, until the client sends something or the session times out *)
Definition relay_tls_blocked : list lab :=
  to_relay ++ [Do true All All; Do true All All; Do true WantR All; EvR Up; Do true All All; Do true WantW All;
   EvW Up; Do true All All; Do false WantR All].
Theorem C89_refuted :
  along (both calm_server heard) server0 relay_tls_blocked = true /\
  exists s, run server0 relay_tls_blocked = Ok s /\
    waiting s = true /\ alive (down s) = true /\ ubuf s = true /\ wcb (down s) = RSend /\ opt (down s) = IR /\
    asks_down s = false.
Proof. split; [vm_compute; reflexivity|]. eexists. split; [vm_compute; reflexivity|]. vm_compute. auto 10. Qed.
(** in that state the kernel's only reports are: the client sent something, the upstream
    side is ready, a timer fires *)
Theorem C89_refuted_deaf s : run server0 relay_tls_blocked = Ok s -> heard s (EvW Down) = false.
Proof. intros E. vm_compute in E. inversion E. subst s. reflexivity. Qed.
Print Assumptions C89_plain_partial.
Print Assumptions C89_refuted.
Print Assumptions C89_refuted_deaf.
Example C89_example :
  along (both calm_server heard) server0
    (to_relay ++ [Do true All All; Do true WantR All; Do true WantW All]) = true /\
  exists s, run server0 (to_relay ++ [Do true All All; Do true WantR All; Do true WantW All]) = Ok s /\
    wcb (up s) = TSend /\ dbuf s = true /\ opt (up s) = IRW /\ pc s = Idle.
Proof. split; [vm_compute; reflexivity|]. eexists. split; [vm_compute; reflexivity|]. vm_compute. auto. Qed.

(** ** C90: something alive has a deadline *)
Theorem C90_partial l :
  (along (both (both calm_server heard) dns_memory) server0 l = true ->
     exists s, run server0 l = Ok s /\ watched s = true) /\
  (along calm_client client0 l = true -> exists s, run client0 l = Ok s /\ watched s = true).
Proof.
  split; intros A.
  - apply server_memory. exact A.
  - destruct (client_all l A) as (s & E & K). exists s. split; auto.
    unfold client_ok in K. apply andb_true_iff in K as [K _]. apply andb_true_iff in K. tauto.
Qed.
(** dns.c:329-330 returns without telling anyone when there is no memory: both
    connections stay for ever *)
Definition dns_no_memory : list lab :=
  EvR Down :: repeat (Do true All All) 6 ++ [Do true WantR All; Do true WantR All].
Theorem C90_refuted :
  along heard server0 dns_no_memory = true /\
  exists s, run server0 dns_no_memory = Ok s /\ waiting s = true /\ alive (down s) = true /\ alive (up s) = true /\
    tm (down s) = NoCb /\ tm (up s) = NoCb /\ alive (q s) = false /\ watched s = false.
Proof. split; [vm_compute; reflexivity|]. eexists. split; [vm_compute; reflexivity|]. vm_compute. auto 10. Qed.
(** the timeout of the client's handshake leaves the local client's connection behind,
    without a timer *)
Theorem C90_refuted_client :
  along heard client0 client_orphan = true /\
  exists s, run client0 client_orphan = Ok s /\ waiting s = true /\ alive (down s) = true /\ alive (up s) = false /\
    tm (down s) = NoCb /\ watched s = false.
Proof. split; [vm_compute; reflexivity|]. eexists. split; [vm_compute; reflexivity|]. vm_compute. auto 10. Qed.
Print Assumptions C90_partial.
Print Assumptions C90_refuted.
Print Assumptions C90_refuted_client.
Example C90_example :
  along (both (both calm_server heard) dns_memory) server0 (firstn 30 session) = true /\
  (let* s := run server0 (firstn 30 session) in Ok (alive (down s), alive (up s), tm (down s))) =
    Ok (true, true, HSesExp).
Proof. vm_compute. auto. Qed.

(** ** C91: once the relay runs, only relay code runs *)
Theorem C91_partial l :
  (along (both calm_server fits) server0 l = true ->
     exists s, run server0 l = Ok s /\ relay_only s = true) /\
  (along (both (both calm_client fits) heard) client0 l = true ->
     exists s, run client0 l = Ok s /\ relay_only_client s = true).
Proof.
  split; intros A.
  - apply server_fits. exact A.
  - apply client_fits. exact A.
Qed.
(** When the last SOCKS5 reply had to wait, ssl.c keeps its callback; the first read of
    the relay installs it again, and the next writability runs [s5_p2_rsp] on the buffer
    in which the client's bytes for the upstream wait: they are sent back to the client. *)
Definition reply_blocked : list lab :=
  EvR Down :: repeat (Do true All All) 9 ++
  [Do true WantW All; EvW Down; Do true All All; Do true All All; Do true All All; Do true WantR All; EvW Down].
Theorem C91_refuted :
  along (both calm_server heard) server0 reply_blocked = true /\
  exists s, run server0 reply_blocked = Ok s /\ pc s = Run Down P2Rsp /\ dbuf s = true /\ wcb (up s) = TSend /\
    relay_only s = false /\
  exists s', step s (Do true All All) = Ok s' /\ dbuf s' = false.
Proof.
  split; [vm_compute; reflexivity|]. eexists. split; [vm_compute; reflexivity|].
  split; [vm_compute; reflexivity|]. split; [vm_compute; reflexivity|]. split; [vm_compute; reflexivity|].
  split; [vm_compute; reflexivity|]. eexists. split; vm_compute; reflexivity.
Qed.
(** The same on the client's side, when the authorization record had to wait: the bytes of
    the upstream that wait for the local client are sent back to the upstream. *)
Definition record_blocked : list lab :=
  EvR Down :: repeat (Do true All All) 3 ++
  [Do true WantW All; EvW Up; Do true All All; Do true All All; Do false WantR All; EvR Up; Do true All All;
   Do true WantW All; EvW Up].
Theorem C91_refuted_client :
  along (both calm_client heard) client0 record_blocked = true /\
  exists s, run client0 record_blocked = Ok s /\ pc s = Run Up CAuthSend /\ ubuf s = true /\ wcb (down s) = RSend /\
    relay_only_client s = false /\
  exists s', step s (Do true All All) = Ok s' /\ ubuf s' = false.
Proof.
  split; [vm_compute; reflexivity|]. eexists. split; [vm_compute; reflexivity|].
  split; [vm_compute; reflexivity|]. split; [vm_compute; reflexivity|]. split; [vm_compute; reflexivity|].
  split; [vm_compute; reflexivity|]. eexists. split; vm_compute; reflexivity.
Qed.
Print Assumptions C91_partial.
Print Assumptions C91_refuted_client.
Print Assumptions C91_refuted.
Example C91_example :
  along (both calm_server fits) server0 session = true /\
  (let* s := run server0 (firstn 26 session) in Ok (pc s, opt (up s))) = Ok (Run Up TSend, IRW) /\
  along (both (both calm_client fits) heard) client0 session_client = true.
Proof. vm_compute. auto. Qed.

(** ** C92: a descriptor is closed once *)
Theorem C92_partial l :
  (along (both calm_server connects) server0 l = true ->
     exists s, run server0 l = Ok s /\ dbl s = false) /\
  (along (both calm_client connects) client0 l = true ->
     exists s, run client0 l = Ok s /\ dbl s = false).
Proof.
  split; intros A.
  - destruct (server_connects l A) as (s & E & K). exists s. split; auto.
    unfold closed_once in K. rewrite !andb_true_iff in K. apply negb_true_iff. tauto.
  - destruct (client_connects l A) as (s & E & K). exists s. split; auto.
    unfold closed_once in K. rewrite !andb_true_iff in K. apply negb_true_iff. tauto.
Qed.
(** net.c:103-125: connect fails at once; the descriptor is closed, and again when the
    connection is released *)
Theorem C92_refuted :
  (exists l s, along (both calm_server heard) server0 l = true /\ run server0 l = Ok s /\ dbl s = true) /\
  (exists l s, along (both calm_client heard) client0 l = true /\ run client0 l = Ok s /\ dbl s = true).
Proof.
  split.
  - exists (EvR Down :: repeat (Do true All All) 7 ++ [Do true Err All]). eexists.
    split; [vm_compute; reflexivity|]. split; vm_compute; reflexivity.
  - exists [EvR Down; Do true Err All]. eexists.
    split; [vm_compute; reflexivity|]. split; vm_compute; reflexivity.
Qed.
Print Assumptions C92_partial.
Print Assumptions C92_refuted.
Example C92_example :
  along (both calm_server connects) server0 session = true /\
  along (both calm_client connects) client0 session_client = true.
Proof. vm_compute. auto. Qed.

(** ** C93: when the client connection is released, everything else is, too *)
Theorem C93_partial l :
  (along (both calm_server heard) server0 l = true ->
     exists s, run server0 l = Ok s /\ together s = true) /\
  (along calm_client client0 l = true -> exists s, run client0 l = Ok s /\ together s = true).
Proof.
  split; intros A.
  - apply server_heard. exact A.
  - destruct (client_all l A) as (s & E & K). exists s. split; auto.
    unfold client_ok in K. apply andb_true_iff in K as [K _]. apply andb_true_iff in K. tauto.
Qed.
(** the client closes while a name is looked up: the query stays *)
Theorem C93_refuted :
  exists l s, along heard server0 l = true /\ run server0 l = Ok s /\
    waiting s = true /\ freed (down s) = true /\ alive (q s) = true /\ together s = false.
Proof.
  exists (dns_pending ++ [EvR Down; Do false All All]). eexists.
  split; [vm_compute; reflexivity|]. split; [vm_compute; reflexivity|]. vm_compute. auto 10.
Qed.
Print Assumptions C93_partial.
Print Assumptions C93_refuted.
Example C93_example :
  along (both calm_server heard) server0 session = true /\
  (let* s := run server0 session in Ok (freed (down s), waiting s)) = Ok (true, true).
Proof. vm_compute. auto. Qed.
