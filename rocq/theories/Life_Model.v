(** * Model of the life cycle of a tunnel session: client connection, upstream
    connection, session record, DNS query, their callbacks, timers and TLS state
    (src/app/tls_tunnel_s.c, tls_tunnel_c.c, socks5.c, src/dns/dns.c,
    src/common/net.c, ssl.c). No proofs here.

    The callbacks of this program call each other only in tail position, so the machine
    has a program counter: [Idle] (in the event loop) or [Run w c]: callback [c] runs for
    connection [w]. One step runs one callback body. Results of library and kernel calls
    inside a body are choices of the environment (the label). Contents of messages are
    left out: what matters is whether a buffer holds data. *)
From Verif Require Import Base.

(** the connections of a session: client side, upstream side, the DNS query's socket *)
Inductive who := Down | Up | Q.

(** callbacks and timer handlers. [NoCb] is the NULL pointer. *)
Inductive cb :=
| NoCb
(* tls_tunnel_s.c *)
| SAccept | SStart | SAuth | Proc | TRecv | TSend | RRecv | RSend
(* socks5.c *)
| P1Req | P1Rsp | P2Req | CupAddr | DnsAlloc | TryRead | Connect | ConnChk | P2Rsp
(* tls_tunnel_c.c *)
| CAccept | CRecv | CConnChk | CConnSsl | CAuthSend
(* dns.c *)
| QSend | QRecv
(* ssl.c *)
| Hs | Rd | Wr | Shut
(* timer handlers: net_exp, tls_ses_exp, ssl_cexp, net_free_direct, dns_cexp *)
| HNetExp | HSesExp | HSslCexp | HFree | HDns.

Inductive life := Absent | Alive | Freed.
Inductive fdst := FdNo | FdOpen | FdClosed.
(** interest: none, read, write, both *)
Inductive intr := INo | IR | IW | IRW.
(** no TLS, TLS before the end of the handshake, after it *)
Inductive tlst := TNo | TInit | TUp.

(** net.h:19-33 with event.h:20-34 and ssl.h:15-30 *)
Record con := Con {
  lif : life; fd : fdst; rcb : cb; wcb : cb; opt : intr; tm : cb;
  tls : tlst; ferr : bool; typ : intr; cbr : cb; cbw : cb }.
Definition no_con : con := Con Absent FdNo NoCb NoCb INo NoCb TNo false INo NoCb NoCb.
Definition new_con : con := Con Alive FdNo NoCb NoCb INo NoCb TNo false INo NoCb NoCb.

Inductive pcs := Idle | Run (w : who) (c : cb).

(** [ses]: the session record; [dnsp]: [ses->dns] is set; [dns]: the query record.
    [dbuf], [ubuf]: the buffer of the client / upstream connection holds bytes;
    [edown], [eup]: tls_tunnel_s.h:24-25. [dbl] is a ghost: a descriptor was closed
    twice. *)
Record st := St {
  down : con; up : con; q : con; ses : life; dnsp : bool; dns : life;
  dbuf : bool; ubuf : bool; edown : bool; eup : bool; dbl : bool; pc : pcs }.

(** server: a connection has been accepted (net.c:150-170) *)
Definition server0 : st :=
  St (Con Alive FdOpen SAccept NoCb IR HNetExp TNo false INo NoCb NoCb) no_con no_con
     Absent false Absent false false false false false Idle.
Definition client0 : st :=
  St (Con Alive FdOpen CAccept NoCb IR HNetExp TNo false INo NoCb NoCb) no_con no_con
     Absent false Absent false false false false false Idle.

(** ** Access *)
Definition con_of (s : st) (w : who) : con := match w with Down => down s | Up => up s | Q => q s end.
Definition put (s : st) (w : who) (c : con) : st :=
  match w with
  | Down => St c (up s) (q s) (ses s) (dnsp s) (dns s) (dbuf s) (ubuf s) (edown s) (eup s) (dbl s) (pc s)
  | Up => St (down s) c (q s) (ses s) (dnsp s) (dns s) (dbuf s) (ubuf s) (edown s) (eup s) (dbl s) (pc s)
  | Q => St (down s) (up s) c (ses s) (dnsp s) (dns s) (dbuf s) (ubuf s) (edown s) (eup s) (dbl s) (pc s)
  end.
(** reading through a pointer to a connection, to the session *)
Definition live (l : life) : res unit :=
  match l with Alive => Ok tt | Absent => Fault FNull | Freed => Fault FUaf end.
Definition chg (s : st) (w : who) (f : con -> con) : res st :=
  let* _ := live (lif (con_of s w)) in Ok (put s w (f (con_of s w))).
Definition goto (s : st) (w : who) (c : cb) : st :=
  St (down s) (up s) (q s) (ses s) (dnsp s) (dns s) (dbuf s) (ubuf s) (edown s) (eup s) (dbl s) (Run w c).
Definition idle (s : st) : st :=
  St (down s) (up s) (q s) (ses s) (dnsp s) (dns s) (dbuf s) (ubuf s) (edown s) (eup s) (dbl s) Idle.
Definition set_ses (l : life) (s : st) : st :=
  St (down s) (up s) (q s) l (dnsp s) (dns s) (dbuf s) (ubuf s) (edown s) (eup s) (dbl s) (pc s).
Definition set_dns (p : bool) (l : life) (s : st) : st :=
  St (down s) (up s) (q s) (ses s) p l (dbuf s) (ubuf s) (edown s) (eup s) (dbl s) (pc s).
Definition set_bufs (d u : bool) (s : st) : st :=
  St (down s) (up s) (q s) (ses s) (dnsp s) (dns s) d u (edown s) (eup s) (dbl s) (pc s).
Definition set_errs (d u : bool) (s : st) : st :=
  St (down s) (up s) (q s) (ses s) (dnsp s) (dns s) (dbuf s) (ubuf s) d u (dbl s) (pc s).
Definition set_dbl (s : st) : st :=
  St (down s) (up s) (q s) (ses s) (dnsp s) (dns s) (dbuf s) (ubuf s) (edown s) (eup s) true (pc s).

Definition s_rcb (k : cb) (c : con) := Con (lif c) (fd c) k (wcb c) (opt c) (tm c) (tls c) (ferr c) (typ c) (cbr c) (cbw c).
Definition s_wcb (k : cb) (c : con) := Con (lif c) (fd c) (rcb c) k (opt c) (tm c) (tls c) (ferr c) (typ c) (cbr c) (cbw c).
Definition s_tm (k : cb) (c : con) := Con (lif c) (fd c) (rcb c) (wcb c) (opt c) k (tls c) (ferr c) (typ c) (cbr c) (cbw c).
Definition s_opt (o : intr) (c : con) := Con (lif c) (fd c) (rcb c) (wcb c) o (tm c) (tls c) (ferr c) (typ c) (cbr c) (cbw c).
Definition s_fd (x : fdst) (c : con) := Con (lif c) x (rcb c) (wcb c) (opt c) (tm c) (tls c) (ferr c) (typ c) (cbr c) (cbw c).
Definition s_tls (x : tlst) (c : con) := Con (lif c) (fd c) (rcb c) (wcb c) (opt c) (tm c) x (ferr c) (typ c) (cbr c) (cbw c).
Definition s_err (c : con) := Con (lif c) (fd c) (rcb c) (wcb c) (opt c) (tm c) (tls c) true (typ c) (cbr c) (cbw c).
Definition s_cbs (r w : cb) (c : con) := s_rcb r (s_wcb w c).
Definition s_cache (t : intr) (r w : cb) (c : con) :=
  Con (lif c) (fd c) (rcb c) (wcb c) (opt c) (tm c) (tls c) (ferr c) t r w.

(** ** Results of the calls inside a body *)
Inductive fin := All | WantR | WantW | Err.
(** [Do b f d]: [f] is the final result of a receive or send loop (or handshake, connect,
    allocation), [b] whether some call before it succeeded, [d] the result of
    SSL_shutdown if a TLS connection is torn down. *)
Inductive lab := EvR (w : who) | EvW (w : who) | Tmo (w : who) | Do (b : bool) (f : fin) (d : fin).

(** ** TLS layer, ssl.c *)
Definition is_no (k : cb) : bool := match k with NoCb => true | _ => false end.
Definition is_hs (k : cb) : bool := match k with Hs => true | _ => false end.
Definition or_cb (a b : cb) : cb := if is_no a then b else a.
Definition or_intr (a b : intr) : intr := match a with INo => b | _ => a end.
Definition cache (c : con) : con := s_cache (or_intr (typ c) (opt c)) (or_cb (cbr c) (rcb c)) (or_cb (cbw c) (wcb c)) c.

(** ssl.c:155-176 *)
Definition hs_want (f : fin) (c : con) : con :=
  let c := cache c in
  match f with
  | WantR => s_opt IR (s_rcb Hs c)
  | WantW => s_opt IW (s_wcb Hs c)
  | _ => c
  end.
(** ssl.c:190-200 *)
Definition rd_ok (c : con) : con :=
  let c1 := match typ c with INo => c | t => s_opt t (s_cache INo (cbr c) (cbw c) c) end in
  if is_no (cbw c1) then c1 else s_cache (typ c1) (cbr c1) NoCb (s_wcb (cbw c1) c1).
(** ssl.c:203-220 *)
Definition rd_want (f : fin) (c : con) : con :=
  let c := cache c in
  match f with
  | WantR => s_opt IR c
  | WantW => s_opt IW (s_wcb Rd c)
  | _ => c
  end.
(** ssl.c:235-245 *)
Definition wr_ok (c : con) : con :=
  let c1 := match typ c with INo => c | t => s_opt t (s_cache INo (cbr c) (cbw c) c) end in
  if is_no (cbr c1) then c1 else s_cache (typ c1) NoCb (cbw c1) (s_rcb (cbr c1) c1).
(** ssl.c:248-265 *)
Definition wr_want (f : fin) (c : con) : con :=
  let c := cache c in
  match f with
  | WantR => s_opt IR (s_rcb Wr c)
  | WantW => s_opt IW c
  | _ => c
  end.
(** a loop that ends with everything received or sent has had a successful call *)
Definition ok1 (b : bool) (f : fin) : bool := match f with All => true | _ => b end.
(** a loop of receives: TLS connections only have effects on the callbacks *)
Definition recvs (b : bool) (f : fin) (c : con) : con :=
  match tls c with
  | TUp =>
      let c := if b then rd_ok c else c in
      match f with WantR | WantW => rd_want f c | _ => c end
  | _ => c
  end.
Definition sends (b : bool) (f : fin) (c : con) : con :=
  match tls c with
  | TUp =>
      let c := if b then wr_ok c else c in
      match f with WantR | WantW => wr_want f c | _ => c end
  | _ => c
  end.

(** ** Release. net.c:175-208: close, timer, event, then the session through [data_cb]
    (tls_tunnel_s.c:31-45: the client connection owns it), then the TLS record and the
    connection itself *)
Definition free_direct (s : st) (w : who) : res st :=
  let c := con_of s w in
  let* _ := live (lif c) in
  let s1 := match fd c with FdClosed => set_dbl s | _ => s end in
  let s2 := put s1 w (Con Freed FdNo NoCb NoCb INo NoCb TNo false INo NoCb NoCb) in
  match w with
  | Down =>
      match ses s2 with
      | Absent => Ok s2
      | Alive => Ok (set_ses Freed s2)
      | Freed => Fault FUaf
      end
  | _ => Ok s2
  end.
(** net.c:210-242 with ssl.c:58-99 *)
Definition shut_want (d : fin) (c : con) : con :=
  match d with
  | WantR => s_opt IR (s_cbs Shut NoCb c)
  | _ => s_opt IW (s_cbs NoCb Shut c)
  end.
Definition net_free (s : st) (w : who) (d : fin) : res st :=
  let c := con_of s w in
  let* _ := live (lif c) in
  match tls c with
  | TUp =>
      if ferr c then free_direct s w
      else match d with
           | WantR | WantW => chg s w (fun c => s_tm HFree (shut_want d c))
           | _ => free_direct s w
           end
  | _ => free_direct s w
  end.
(** upstream first, then the client connection, as everywhere in the code *)
Definition free_both (s : st) (d : fin) : res st :=
  let* _ := live (ses s) in
  let* s := net_free s Up d in
  let* _ := live (ses s) in
  let* s := net_free s Down d in
  Ok (idle s).
Definition free_down (s : st) (d : fin) : res st :=
  let* s := net_free s Down d in Ok (idle s).

(** socks5.c:98-129 [s5_cup_dns_cb] *)
Definition dns_result (s : st) (good : bool) (d : fin) : res st :=
  let* _ := live (ses s) in
  if dnsp s then
    let* _ := live (dns s) in
    let* s := net_free s Q d in
    let s := set_dns true Freed s in
    if good then
      let* s := chg s Up (s_cbs NoCb Connect) in Ok (goto s Up Connect)
    else free_both s d
  else Fault FNull.

Definition bufs_of (s : st) (w : who) : bool := match w with Down => dbuf s | _ => ubuf s end.

(** ** The bodies *)
Definition body (s : st) (w : who) (k : cb) (b : bool) (f : fin) (d : fin) : res st :=
  match k with
  (* tls_tunnel_s.c:300-338 tls_tunnel_s_accept; [b]: ssl_create_connection succeeds *)
  | SAccept =>
      let* s := chg s Down (s_tm NoCb) in
      let fresh := match tls (down s) with TNo => true | _ => false end in
      if fresh && negb b then free_down s d
      else
        let* s := chg s Down (fun c => if fresh then s_tls TInit c else c) in
        if ferr (down s) then free_down s d
        else match tls (down s), f with
             | TUp, _ => let* s := chg s Down (s_cbs SStart NoCb) in Ok (goto s Down SStart)
             | _, All => let* s := chg s Down (fun c => s_cbs SStart NoCb (s_tls TUp c)) in Ok (goto s Down SStart)
             | _, Err => let* s := chg s Down s_err in free_down s d
             | _, _ => let* s := chg s Down (fun c => s_tm HNetExp (hs_want f c)) in Ok (idle s)
             end
  (* tls_tunnel_s.c:269-298; WantR: the second allocation fails *)
  | SStart =>
      let* s := chg s Down (s_tm NoCb) in
      match f with
      | All => let* s := chg (set_ses Alive s) Down (s_cbs SAuth NoCb) in Ok (goto s Down SAuth)
      | WantR => free_down (set_ses Alive s) d
      | _ => free_down s d
      end
  (* tls_tunnel_s.c:231-267; All: the record is complete and accepted *)
  | SAuth =>
      let* s := chg s Down (recvs (ok1 b f) f) in
      match f with
      | All => let* s := chg s Down (fun c => s_cbs P1Req NoCb (s_tm NoCb c)) in Ok (goto s Down P1Req)
      | Err => free_down s d
      | _ => let* s := chg s Down (s_tm HSesExp) in Ok (idle s)
      end
  (* socks5.c:371-436 *)
  | P1Req =>
      let* _ := live (ses s) in
      let* s := chg s Down (recvs (ok1 b f) f) in
      match f with
      | All => let* s := chg s Down (fun c => s_cbs NoCb P1Rsp (s_tm NoCb c)) in
               Ok (goto (set_bufs true (ubuf s) s) Down P1Rsp)
      | Err => free_down s d
      | _ => let* s := chg s Down (s_tm HSesExp) in Ok (idle s)
      end
  (* socks5.c:347-369 *)
  | P1Rsp =>
      let* s := chg s Down (fun c => if dbuf s then sends (ok1 b f) f c else c) in
      match (if dbuf s then f else All) with
      | All => let* s := chg s Down (fun c => s_cbs P2Req NoCb (s_tm NoCb c)) in
               Ok (goto (set_bufs false (ubuf s) s) Down P2Req)
      | Err => free_down s d
      | _ => let* s := chg s Down (s_tm HSesExp) in Ok (idle s)
      end
  (* socks5.c:196-345 *)
  | P2Req =>
      let* _ := live (ses s) in
      let* s := chg s Down (recvs (ok1 b f) f) in
      match f with
      | All => let* s := chg s Down (fun c => s_cbs CupAddr NoCb (s_tm NoCb c)) in Ok (goto s Down CupAddr)
      | Err => free_down s d
      | _ => let* s := chg s Down (s_tm HSesExp) in Ok (idle s)
      end
  (* socks5.c:131-193; All: address known; WantR: a name to resolve; otherwise: type not
     supported or no memory *)
  | CupAddr =>
      let* _ := live (ses s) in
      let* s := chg s Down (s_cbs TryRead NoCb) in
      match f with
      | All => let* s := chg (put s Up new_con) Up (s_cbs NoCb Connect) in Ok (goto s Up Connect)
      | WantR => Ok (goto (put s Up new_con) Down DnsAlloc)
      | _ => free_down s d
      end
  (* dns.c:328-368 with dns_request_packet 291-326; WantR: the first allocation fails;
     otherwise: one of the later calls (socket) fails *)
  | DnsAlloc =>
      match f with
      | All =>
          let s := set_dns true Alive (put s Q new_con) in
          let* s := chg s Q (fun c => s_opt IRW (s_cbs NoCb QSend (s_fd FdOpen c))) in Ok (goto s Q QSend)
      | WantR => Ok (idle s)
      | _ => dns_result (set_dns (dnsp s) Alive (put s Q new_con)) false d
      end
  (* dns.c:234-258 *)
  | QSend =>
      let* _ := live (dns s) in
      match f with
      | All => let* s := chg s Q (s_cbs QRecv NoCb) in Ok (goto s Q QRecv)
      | Err => dns_result s false d
      | _ => let* s := chg s Q (s_tm HDns) in Ok (idle s)
      end
  (* dns.c:193-232, 97-191 *)
  | QRecv =>
      let* _ := live (dns s) in
      match f with
      | All => let* s := chg s Q (s_tm NoCb) in dns_result s true d
      | Err => dns_result s false d
      | _ => let* s := chg s Q (s_tm HDns) in Ok (idle s)
      end
  (* dns.c:25-29 *)
  | HDns => let* _ := live (dns s) in dns_result s false d
  (* socks5.c:6-16; [b]: the socket is in order *)
  | TryRead =>
      let* _ := live (ses s) in
      if b then Ok (idle s) else free_both s d
  (* socks5.c:77-96 with net.c:87-125; All: connected at once; Err: with [b] after the
     descriptor was stored, otherwise before *)
  | Connect =>
      let* _ := live (ses s) in
      let* s := chg s Up (s_cbs NoCb ConnChk) in
      match f with
      | All => let* s := chg s Up (fun c => s_opt IW (s_fd FdOpen c)) in Ok (goto s Up ConnChk)
      | Err => let* s := chg s Up (fun c => if b then s_opt IW (s_fd FdClosed c) else c) in free_both s d
      | _ => let* s := chg s Up (fun c => s_tm HSesExp (s_opt IW (s_fd FdOpen c))) in Ok (idle s)
      end
  (* socks5.c:45-75; [b]: the socket is in order *)
  | ConnChk =>
      let* _ := live (ses s) in
      let* s := chg s Up (s_tm NoCb) in
      let* s := chg s Down (fun c => c) in
      if b then
        let* s := chg s Up (s_cbs NoCb NoCb) in
        let* s := chg s Down (s_cbs NoCb P2Rsp) in
        Ok (goto (set_bufs true (ubuf s) s) Down P2Rsp)
      else free_both s d
  (* socks5.c:18-43 *)
  | P2Rsp =>
      let* _ := live (ses s) in
      let* s := chg s Down (fun c => if dbuf s then sends (ok1 b f) f c else c) in
      match (if dbuf s then f else All) with
      | All => let* s := chg s Down (fun c => s_cbs Proc NoCb (s_tm NoCb c)) in
               Ok (goto (set_bufs false (ubuf s) s) Down Proc)
      | Err => free_both s d
      | _ => let* s := chg s Down (s_tm HSesExp) in Ok (idle s)
      end
  (* tls_tunnel_s.c:193-229; [b]: memory is available *)
  | Proc =>
      let* _ := live (ses s) in
      if b then
        let* s := chg s Down (fun c => s_opt IRW (s_cbs TRecv NoCb c)) in
        let* s := chg s Up (fun c => s_opt IRW (s_cbs RRecv NoCb c)) in
        Ok (goto (set_bufs (dbuf s) false s) Down TRecv)
      else free_both s d
  (* tls_tunnel_s.c:57-88 *)
  | TRecv =>
      let* _ := live (ses s) in
      let b := if dbuf s then b else ok1 b f in
      let* s := chg s Down (fun c => recvs b f (s_tm HSesExp c)) in
      let* s := chg s Up (fun c => c) in
      let s := set_errs (match f with Err => true | _ => edown s end) (eup s) (set_bufs (dbuf s || b) (ubuf s) s) in
      if dbuf s then
        let* s := chg s Down (s_rcb NoCb) in
        let* s := chg s Up (s_wcb TSend) in
        Ok (goto s Up TSend)
      else if edown s then free_both s d
      else Ok (idle s)
  (* tls_tunnel_s.c:90-123 *)
  | TSend =>
      let* _ := live (ses s) in
      let* s := chg s Up (fun c => (if dbuf s then sends (ok1 b f) f else fun c => c) (s_tm HSesExp c)) in
      let* s := chg s Down (fun c => c) in
      match (if dbuf s then f else All) with
      | All =>
          if edown s then free_both s d
          else
            let* s := chg s Up (s_wcb NoCb) in
            let* s := chg s Down (s_rcb TRecv) in
            Ok (goto (set_bufs false (ubuf s) s) Down TRecv)
      | Err => free_both s d
      | _ => Ok (idle s)
      end
  (* tls_tunnel_s.c:125-156 *)
  | RRecv =>
      let* _ := live (ses s) in
      let b := if ubuf s then b else ok1 b f in
      let* s := chg s Up (fun c => recvs b f (s_tm HSesExp c)) in
      let* s := chg s Down (fun c => c) in
      let s := set_errs (edown s) (match f with Err => true | _ => eup s end) (set_bufs (dbuf s) (ubuf s || b) s) in
      if ubuf s then
        let* s := chg s Up (s_rcb NoCb) in
        let* s := chg s Down (s_wcb RSend) in
        Ok (goto s Down RSend)
      else if eup s then free_both s d
      else Ok (idle s)
  (* tls_tunnel_s.c:158-191 *)
  | RSend =>
      let* _ := live (ses s) in
      let* s := chg s Down (fun c => (if ubuf s then sends (ok1 b f) f else fun c => c) (s_tm HSesExp c)) in
      let* s := chg s Up (fun c => c) in
      match (if ubuf s then f else All) with
      | All =>
          if eup s then free_both s d
          else
            let* s := chg s Down (s_wcb NoCb) in
            let* s := chg s Up (s_rcb RRecv) in
            Ok (goto (set_bufs (dbuf s) false s) Up RRecv)
      | Err => free_both s d
      | _ => Ok (idle s)
      end
  (* tls_tunnel_c.c:150-209; Err without [b] and WantW: no memory before / after the
     session exists; Err with [b]: connect fails *)
  | CAccept =>
      let* s := chg s Down (s_tm NoCb) in
      match f with
      | WantW =>
          if b then let* s := chg (put (set_ses Alive s) Up new_con) Down (s_cbs CRecv NoCb) in free_both s d
          else let* s := chg (set_ses Alive s) Down (s_cbs CRecv NoCb) in free_down s d
      | Err =>
          if b then
            let* s := chg (set_ses Alive s) Down (s_cbs CRecv NoCb) in
            let s := put s Up (s_opt IW (s_fd FdClosed (s_wcb CConnChk new_con))) in free_both s d
          else free_down s d
      | _ =>
          let* s := chg (set_ses Alive s) Down (s_cbs CRecv NoCb) in
          let s := put s Up (s_opt IW (s_fd FdOpen (s_wcb CConnChk new_con))) in
          match f with
          | All => Ok (goto s Up CConnChk)
          | _ => let* s := chg s Up (s_tm HSesExp) in Ok (idle s)
          end
      end
  (* tls_tunnel_c.c:7-34; All: the buffer is full *)
  | CRecv =>
      let* _ := live (ses s) in
      let* s := chg s Down (recvs b f) in
      let s := set_bufs (dbuf s || b) (ubuf s) s in
      match f with
      | WantR | WantW => Ok (idle s)
      | _ => free_both s d
      end
  (* tls_tunnel_c.c:133-147; [b]: the socket is in order *)
  | CConnChk =>
      let* _ := live (ses s) in
      let* s := chg s Up (s_tm NoCb) in
      if b then let* s := chg s Up (s_wcb CConnSsl) in Ok (goto s Up CConnSsl)
      else free_both s d
  (* tls_tunnel_c.c:88-130 with tls_tunnel_c_auth_build 68-86; [b]: the TLS record could
     be created *)
  | CConnSsl =>
      let* _ := live (ses s) in
      let* s := chg s Up (fun c => c) in
      let fresh := match tls (up s) with TNo => true | _ => false end in
      if fresh && negb b then free_both s d
      else
        let* s := chg s Up (fun c => if fresh then s_tls TInit c else c) in
        let fwd s := let* s := chg s Up (s_cbs NoCb CAuthSend) in Ok (goto (set_bufs (dbuf s) true s) Up CAuthSend) in
        if ferr (up s) then free_both s d
        else match tls (up s), f with
             | TUp, _ => fwd s
             | _, All => let* s := chg s Up (s_tls TUp) in fwd s
             | _, Err => let* s := chg s Up s_err in free_both s d
             | _, _ => let* s := chg s Up (fun c => s_tm HSesExp (hs_want f c)) in Ok (idle s)
             end
  (* tls_tunnel_c.c:44-66 *)
  | CAuthSend =>
      let* _ := live (ses s) in
      let* s := chg s Up (fun c => if ubuf s then sends (ok1 b f) f c else c) in
      match (if ubuf s then f else All) with
      | All =>
          let* s := chg s Up (s_tm NoCb) in
          let* s := chg s Down (s_cbs Proc NoCb) in
          Ok (goto (set_bufs (dbuf s) false s) Down Proc)
      | Err => free_both s d
      | _ => let* s := chg s Up (s_tm HSesExp) in Ok (idle s)
      end
  (* ssl.c:101-142. After the end of the handshake SSL_do_handshake reports success at
     once, so a write callback that is still this function calls itself for ever. *)
  | Hs =>
      match tls (con_of s w), f with
      | TInit, WantR | TInit, WantW =>
          let* s := chg s w (fun c => s_tm HSslCexp (hs_want f c)) in Ok (idle s)
      | TInit, Err =>
          let h := match w with Up => CConnSsl | _ => SAccept end in
          let* s := chg s w (fun c => s_tm NoCb (s_err c)) in
          let* s := chg s w (fun c => if is_no (wcb c) then s_rcb h c else s_wcb h c) in
          Ok (goto s w h)
      | _, _ =>
          let* s := chg s w (fun c => s_tm NoCb (s_tls TUp c)) in
          let* s := chg s w (fun c => match typ c with INo => c | t => s_opt t c end) in
          let* s := chg s w (fun c => if is_no (cbw c) then c else s_cache (typ c) (cbr c) NoCb (s_wcb (cbw c) c)) in
          let* s := chg s w (fun c => if is_no (cbr c) then c else s_cache (typ c) NoCb (cbw c) (s_rcb (cbr c) c)) in
          let c := con_of s w in
          let n := or_cb (wcb c) (rcb c) in
          if is_no n then Fault FNull
          else if is_hs n then Fault FRecursion
          else Ok (goto s w n)
      end
  (* ssl.c:182, 228 *)
  | Rd => let* s := chg s w (fun c => c) in let n := rcb (con_of s w) in
          if is_no n then Fault FNull else Ok (goto s w n)
  | Wr => let* s := chg s w (fun c => c) in let n := wcb (con_of s w) in
          if is_no n then Fault FNull else Ok (goto s w n)
  (* ssl.c:44-56 *)
  | Shut =>
      match d with
      | WantR | WantW => let* s := chg s w (fun c => s_tm HSslCexp (shut_want d c)) in Ok (idle s)
      | _ => let* s := chg s w (s_tm NoCb) in let* s := free_direct s w in Ok (idle s)
      end
  (* net.c:244-247; tls_tunnel_s.c:47-54; ssl.c:37-42; net.c:175 *)
  | HNetExp => let* s := net_free s w d in Ok (idle s)
  | HSesExp =>
      let* _ := live (lif (con_of s w)) in
      let* _ := live (ses s) in
      let* s := (match lif (up s) with Absent => Ok s | _ => net_free s Up d end) in
      let* _ := live (ses s) in
      let* s := net_free s Down d in Ok (idle s)
  | HSslCexp => let* s := chg s w s_err in let* s := net_free s w d in Ok (idle s)
  | HFree => let* s := free_direct s w in Ok (idle s)
  | NoCb => Fault FNull
  end.

(** An event for a connection whose descriptor is registered. Which directions are
    reported is left open (events of one batch are delivered even if the interest has
    changed meanwhile); see [heard] in Life_Spec.v for what the kernel reports afresh. A label that does
    not apply changes nothing. *)
Definition step (s : st) (l : lab) : res st :=
  match pc s, l with
  | Run w k, Do b f d => body s w k b f d
  | Idle, EvR w =>
      match lif (con_of s w), fd (con_of s w), opt (con_of s w) with
      | Alive, FdOpen, INo => Ok s
      | Alive, FdOpen, _ => if is_no (rcb (con_of s w)) then Ok s else Ok (goto s w (rcb (con_of s w)))
      | _, _, _ => Ok s
      end
  | Idle, EvW w =>
      match lif (con_of s w), fd (con_of s w), opt (con_of s w) with
      | Alive, FdOpen, INo => Ok s
      | Alive, FdOpen, _ => if is_no (wcb (con_of s w)) then Ok s else Ok (goto s w (wcb (con_of s w)))
      | _, _, _ => Ok s
      end
  | Idle, Tmo w =>
      match lif (con_of s w) with
      | Alive => if is_no (tm (con_of s w)) then Ok s
                 else Ok (goto (put s w (s_tm NoCb (con_of s w))) w (tm (con_of s w)))
      | _ => Ok s
      end
  | _, _ => Ok s
  end.
Fixpoint run (s : st) (l : list lab) : res st :=
  match l with [] => Ok s | x :: t => let* s1 := step s x in run s1 t end.
