(** * Model of the server side of a tunnel session up to the relay:
      authentication, SOCKS5 greeting, SOCKS5 request, dialling and replies
      (src/app/tls_tunnel_s.c, src/app/socks5.c) and of the client side header
      (src/app/tls_tunnel_c.c). No proofs here.

    One step of the machine is one call of the environment (recv, send,
    allocation, cache lookup, DNS answer, connect, socket status, time-out); its
    result is the input of the step, so every schedule and every segmentation is
    a list of inputs. *)
From Verif Require Import Base Ac_Model Meta_Model.

(** the bytes of the C string that starts at the head of [l]; reading on past the
    end of the object is the [None] case *)
Fixpoint cstr (l : list Z) : option (list Z) :=
  match l with
  | [] => None
  | b :: r => if b =? 0 then Some [] else
      match cstr r with Some s => Some (b :: s) | None => None end
  end.

(** macro.h:146 DOMAIN_LENGTH, socks5.h:21 size of [methods] *)
Definition METHODS_SIZE : Z := 255.
Definition DST_SIZE : Z := 255.

(** socks5.h:17-22, 29-38, 50-54 [s5_t]; tls_tunnel_s.c:287 allocates it zeroed *)
Record s5 := mkS5 {
  s_state : Z;
  p1_ver : Z; p1_n : Z; p1_cnt : Z; p1_methods : list Z;
  p2_ver : Z; p2_cmd : Z; p2_rsv : Z; p2_atyp : Z;
  p2_n : Z; p2_cnt : Z; p2_addr : list Z; p2_port0 : Z; p2_port1 : Z }.

Definition s5_zero : s5 :=
  mkS5 0 0 0 0 (zrepeat 0 METHODS_SIZE) 0 0 0 0 0 0 (zrepeat 0 DST_SIZE) 0 0.

(** writing one byte into an array member; outside the array is a fault *)
Definition put1 (a : list Z) (i b : Z) : res (list Z) := of_opt FOob (zput a i [b]).

(** increment of an [unsigned char] *)
Definition u8 (x : Z) : Z := x mod 256.

Definition set_state (s : s5) (x : Z) : s5 :=
  mkS5 x (p1_ver s) (p1_n s) (p1_cnt s) (p1_methods s) (p2_ver s) (p2_cmd s) (p2_rsv s)
       (p2_atyp s) (p2_n s) (p2_cnt s) (p2_addr s) (p2_port0 s) (p2_port1 s).
Definition set_p1 (s : s5) (ver n cnt : Z) (m : list Z) : s5 :=
  mkS5 (s_state s) ver n cnt m (p2_ver s) (p2_cmd s) (p2_rsv s)
       (p2_atyp s) (p2_n s) (p2_cnt s) (p2_addr s) (p2_port0 s) (p2_port1 s).
Definition set_p2hdr (s : s5) (ver cmd rsv atyp : Z) : s5 :=
  mkS5 (s_state s) (p1_ver s) (p1_n s) (p1_cnt s) (p1_methods s) ver cmd rsv
       atyp (p2_n s) (p2_cnt s) (p2_addr s) (p2_port0 s) (p2_port1 s).
Definition set_p2addr (s : s5) (n cnt : Z) (a : list Z) : s5 :=
  mkS5 (s_state s) (p1_ver s) (p1_n s) (p1_cnt s) (p1_methods s) (p2_ver s) (p2_cmd s) (p2_rsv s)
       (p2_atyp s) n cnt a (p2_port0 s) (p2_port1 s).
Definition set_port (s : s5) (a b : Z) : s5 :=
  mkS5 (s_state s) (p1_ver s) (p1_n s) (p1_cnt s) (p1_methods s) (p2_ver s) (p2_cmd s) (p2_rsv s)
       (p2_atyp s) (p2_n s) (p2_cnt s) (p2_addr s) a b.

(** socks5.c:382-386 parser states of the greeting *)
Definition VERSION : Z := 0.
Definition METHODN : Z := 1.
Definition METHOD : Z := 2.

(** socks5.c:404-433: body of the byte loop of [s5_p1_req]; the flag says that
    the greeting is complete (lines 418-422). *)
Definition p1_byte (s : s5) (b : Z) : res (s5 * bool) :=
  if s_state s =? VERSION then
    Ok (set_state (set_p1 s b (p1_n s) (p1_cnt s) (p1_methods s)) METHODN, false)
  else if s_state s =? METHODN then
    Ok (set_state (set_p1 s (p1_ver s) b 0 (p1_methods s)) METHOD, false)
  else if s_state s =? METHOD then
    let* m := put1 (p1_methods s) (p1_cnt s) b in
    let c := u8 (p1_cnt s + 1) in
    let s' := set_p1 s (p1_ver s) (p1_n s) c m in
    if p1_n s =? c then Ok (set_state s' 0, true) else Ok (s', false)
  else Ok (s, false).

(** socks5.c:403-434 byte loop over the pending data; completing drops the rest *)
Fixpoint p1_loop (s : s5) (bs : list Z) : res (s5 * bool) :=
  match bs with
  | [] => Ok (s, false)
  | b :: r =>
      let* p := p1_byte s b in
      if snd p then Ok p else p1_loop (fst p) r
  end.

(** socks5.c:204-215 parser states of the request *)
Definition VER : Z := 0.
Definition CMD : Z := 1.
Definition RSV : Z := 2.
Definition TYP : Z := 3.
Definition TYP_V4 : Z := 4.
Definition TYP_V6 : Z := 5.
Definition TYP_DOMAINN : Z := 6.
Definition TYP_DOMAIN : Z := 7.
Definition PORT : Z := 8.
Definition ENDS : Z := 9.

Definition S5_IPV4 : Z := 1.
Definition S5_DOMAIN : Z := 3.
Definition S5_IPV6 : Z := 4.

Inductive p2out := P2More | P2Reject | P2Done.

(** one address byte: lines 291-295, 298-302 and 312-316; the fall-through to the
    later tests has no effect because none of them matches the state *)
Definition p2_addr_byte (s : s5) (b stop : Z) : res (s5 * p2out) :=
  let* a := put1 (p2_addr s) (p2_cnt s) b in
  let c := u8 (p2_cnt s + 1) in
  let s' := set_p2addr s (p2_n s) c a in
  if c =? stop then Ok (set_state s' PORT, P2More) else Ok (s', P2More).

(** socks5.c:239-342: body of the byte loop of [s5_p2_req]. [P2Reject] is line
    286-288 (unknown address type); [P2Done] is lines 323-328. *)
Definition p2_byte (s : s5) (b : Z) : res (s5 * p2out) :=
  if s_state s =? VER then
    Ok (set_state (set_p2hdr s b (p2_cmd s) (p2_rsv s) (p2_atyp s)) CMD, P2More)
  else if s_state s =? CMD then
    Ok (set_state (set_p2hdr s (p2_ver s) b (p2_rsv s) (p2_atyp s)) RSV, P2More)
  else if s_state s =? RSV then
    Ok (set_state (set_p2hdr s (p2_ver s) (p2_cmd s) b (p2_atyp s)) TYP, P2More)
  else if s_state s =? TYP then
    let s' := set_p2hdr s (p2_ver s) (p2_cmd s) (p2_rsv s) b in
    if b =? S5_IPV4 then Ok (set_state (set_p2addr s' 4 0 (p2_addr s)) TYP_V4, P2More)
    else if b =? S5_IPV6 then Ok (set_state (set_p2addr s' 16 0 (p2_addr s)) TYP_V6, P2More)
    else if b =? S5_DOMAIN then Ok (set_state (set_p2addr s' 0 0 (p2_addr s)) TYP_DOMAINN, P2More)
    else Ok (s', P2Reject)
  else if s_state s =? TYP_V4 then p2_addr_byte s b 4
  else if s_state s =? TYP_V6 then p2_addr_byte s b 16
  else if s_state s =? TYP_DOMAINN then
    (* dst_addr_n is an unsigned char, the two clamps are without effect *)
    Ok (set_state (set_p2addr s b (p2_cnt s) (p2_addr s)) TYP_DOMAIN, P2More)
  else if s_state s =? TYP_DOMAIN then p2_addr_byte s b (p2_n s)
  else if s_state s =? PORT then Ok (set_state (set_port s b (p2_port1 s)) ENDS, P2More)
  else if s_state s =? ENDS then Ok (set_state (set_port s (p2_port0 s) b) 0, P2Done)
  else Ok (s, P2More).

(** socks5.c:238-343 byte loop; completing or rejecting drops the rest *)
Fixpoint p2_loop (s : s5) (bs : list Z) : res (s5 * p2out) :=
  match bs with
  | [] => Ok (s, P2More)
  | b :: r =>
      let* p := p2_byte s b in
      match snd p with
      | P2More => p2_loop (fst p) r
      | _ => Ok p
      end
  end.

(** socks5.c:331-333: the three checks on a complete request *)
Definition p2_accept (s : s5) : bool :=
  (p2_ver s =? 5) && (p2_cmd s =? 1) && negb (p2_atyp s =? S5_IPV6).

(** snprintf of one [%d] for an octet, and of "%d.%d.%d.%d" (socks5.c:109,151,169) *)
Definition dec_octet (b : Z) : list Z :=
  (if 100 <=? b then [48 + b / 100] else []) ++
  (if 10 <=? b then [48 + (b / 10) mod 10] else []) ++
  [48 + b mod 10].
Definition fmt_ip (ip : list Z) : list Z :=
  match ip with
  | [a; b; c; d] => dec_octet a ++ [46] ++ dec_octet b ++ [46] ++ dec_octet c ++ [46] ++ dec_octet d
  | _ => []
  end.

(** libc [inet_addr] on dotted quads: each part is decimal, or octal when it has
    more than one digit and starts with 0; the result is the four bytes of
    [s_addr] in memory. Anything else is INADDR_NONE = 255.255.255.255.
    Simplification: forms with fewer than four parts and hexadecimal parts, which
    "%d.%d.%d.%d" cannot produce, count as anything else. *)
Fixpoint parse_num (base acc : Z) (seen : bool) (s : list Z) : option (Z * list Z) :=
  match s with
  | d :: r => if (48 <=? d) && (d <? 48 + base)
              then parse_num base (acc * base + (d - 48)) true r
              else if seen then Some (acc, s) else None
  | [] => if seen then Some (acc, []) else None
  end.
Definition parse_part (s : list Z) : option (Z * list Z) :=
  match s with
  | 48 :: r => parse_num 8 0 true r
  | _ => parse_num 10 0 false s
  end.
Fixpoint parse_parts (n : nat) (s : list Z) : option (list Z) :=
  match parse_part s with
  | Some (v, r) =>
      if v <? 256 then
        match n, r with
        | O, [] => Some [v]
        | S n', 46 :: r' => match parse_parts n' r' with Some l => Some (v :: l) | None => None end
        | _, _ => None
        end
      else None
  | None => None
  end.
Definition inet_addr (s : list Z) : list Z :=
  match parse_parts 3 s with Some l => l | None => [255; 255; 255; 255] end.

(** htons on a little-endian machine *)
Definition bswap16 (x : Z) : Z := (x mod 256) * 256 + (x / 256) mod 256.
Definition le16 (x : Z) : list Z := [x mod 256; (x / 256) mod 256].
Definition le32 (x : Z) : list Z := [x mod 256; (x / 256) mod 256; (x / 65536) mod 256; (x / 16777216) mod 256].
Definition of_le (l : list Z) : Z := fold_right (fun b acc => b + 256 * acc) 0 l.

(** socks5.c:60-67 the reply record in memory order. [addr] are the four bytes of
    [sin_addr] and [port] the two bytes of [sin_port] in memory. *)
Definition p2_reply (addr port : list Z) : list Z :=
  [5; 0; 0; 1] ++ le32 (bswap16 (of_le addr mod 65536)) ++ le16 (bswap16 (of_le port)).

(** tls_tunnel_s.h:10, 15-19: magic number as sent, header length *)
Definition MAGIC : list Z := [160; 1; 190; 239].
Definition AUTH_LEN : Z := 36.
Definition TLS_TUNNEL_METAN : Z := 12288.

(** tls_tunnel_c.c:74-80: the header built from the configured key; [conf] is the
    33-byte field [s5_local_auth] (config.h) and its first 16 bytes are copied *)
Definition auth_header (conf : list Z) : res (list Z) :=
  if 16 <=? zlen conf then Ok (MAGIC ++ ztake 16 conf ++ zrepeat 0 16) else Fault FOob.

(** config.c: [s5_local_auth] holds the key followed by zeros *)
Definition conf_auth (key : list Z) : list Z := key ++ zrepeat 0 (33 - zlen key).

(** ** The session machine *)
Inductive rx := RxData (bs : list Z) | RxAgain | RxErr.
Inductive tx := TxSent (n : Z) | TxAgain | TxErr.
Inductive conres := ConOk | ConAgain | ConErr.

Inductive phase :=
| PhAuth       (* tls_tunnel_s_auth_chk waits for the header *)
| PhP1         (* s5_p1_req *)
| PhP1Rsp      (* s5_p1_rsp *)
| PhP2         (* s5_p2_req *)
| PhAddr       (* s5_cup_addr before net_alloc *)
| PhLookup     (* s5_cup_addr before dns_rec_find *)
| PhDns        (* a DNS query is pending *)
| PhConnect    (* s5_cup_connect before net_connect *)
| PhConnWait   (* connect in progress *)
| PhConnChk    (* s5_cup_connect_chk before the socket status check *)
| PhP2Rsp      (* s5_p2_rsp *)
| PhRelay      (* tls_tunnel_traffic_proc *)
| PhClosed.    (* session torn down *)

Inductive inp :=
| InRecv (r : rx)                 (* result of cdown->recv *)
| InSend (r : tx)                 (* result of cdown->send *)
| InAlloc (ok : bool)             (* result of net_alloc *)
| InLookup (a : option (list Z))  (* result of dns_rec_find, four octets *)
| InDns (a : option (list Z))     (* answer handed to s5_cup_dns_cb *)
| InConnect (r : conres)          (* result of net_connect *)
| InSockUp (ok : bool)            (* socket status of the upstream connection *)
| InTryRead (ok : bool)           (* socket status of cdown in s5_try_read *)
| InTimeout.                      (* tls_ses_exp *)

(** [h_sent]: bytes accepted by cdown->send so far; [h_asked]: names passed to
    the resolver; [h_dialled]: address and port bytes passed to connect *)
Record hs := mkHs {
  h_ph : phase; h_meta : meta; h_s5 : s5; h_ac : ac;
  h_addr : list Z; h_port : list Z;
  h_sent : list Z; h_asked : list (list Z); h_dialled : list (list Z * list Z) }.

Definition with_ph (h : hs) (p : phase) : hs :=
  mkHs p (h_meta h) (h_s5 h) (h_ac h) (h_addr h) (h_port h) (h_sent h) (h_asked h) (h_dialled h).
Definition with_pm (h : hs) (p : phase) (m : meta) : hs :=
  mkHs p m (h_s5 h) (h_ac h) (h_addr h) (h_port h) (h_sent h) (h_asked h) (h_dialled h).
Definition with_s5 (h : hs) (p : phase) (m : meta) (s : s5) : hs :=
  mkHs p m s (h_ac h) (h_addr h) (h_port h) (h_sent h) (h_asked h) (h_dialled h).
Definition with_ac (h : hs) (p : phase) (m : meta) (c : ac) : hs :=
  mkHs p m (h_s5 h) c (h_addr h) (h_port h) (h_sent h) (h_asked h) (h_dialled h).
Definition with_addr (h : hs) (p : phase) (a po : list Z) : hs :=
  mkHs p (h_meta h) (h_s5 h) (h_ac h) a po (h_sent h) (h_asked h) (h_dialled h).
Definition with_sent (h : hs) (p : phase) (m : meta) (bs : list Z) : hs :=
  mkHs p m (h_s5 h) (h_ac h) (h_addr h) (h_port h) (h_sent h ++ bs) (h_asked h) (h_dialled h).
Definition with_asked (h : hs) (p : phase) (n : list Z) : hs :=
  mkHs p (h_meta h) (h_s5 h) (h_ac h) (h_addr h) (h_port h) (h_sent h) (h_asked h ++ [n]) (h_dialled h).
Definition with_dial (h : hs) (p : phase) : hs :=
  mkHs p (h_meta h) (h_s5 h) (h_ac h) (h_addr h) (h_port h) (h_sent h) (h_asked h)
       (h_dialled h ++ [(h_addr h, h_port h)]).

Definition close (h : hs) : hs := with_ph h PhClosed.

(** tls_tunnel_s_start (tls_tunnel_s.c:269-298): fresh buffer and zeroed s5_t;
    [c] is the shared matcher built at start-up *)
Definition hs_init (cap : Z) (c : ac) : hs :=
  mkHs PhAuth (meta_new cap) s5_zero c [] [] [] [] [].

(** tls_tunnel_s.c:249-266, after the header is complete. strlen may read from
    the key to the end of the buffer and on into the zeroed slack of the pool
    object (mem.c:173, class 16384 for a buffer of 12288+40), so the end of the
    buffer acts as a terminator. *)
Definition auth_check (h : hs) (m : meta) : res hs :=
  if bseq (zslice (mpos m) (mpos m + 4) (mbuf m)) MAGIC then
    let* t := of_opt FOob (cstr (zdrop (mpos m + 4) (mbuf m) ++ [0])) in
    let* f := ezac_find (h_ac h) t in
    if fst f then Ok (with_ac h PhP1 (meta_clr m) (snd f))
    else Ok (with_ac h PhClosed m (snd f))
  else Ok (with_pm h PhClosed m).

(** socks5.c:403-431 after a receive: run the byte loop; on completion the buffer
    is cleared and the two reply bytes are stored *)
Definition p1_feed (h : hs) (m : meta) : res hs :=
  let* p := p1_loop (h_s5 h) (mdata m) in
  if snd p then
    let* m' := meta_store (meta_clr m) [5; 0] in
    Ok (with_s5 h PhP1Rsp m' (fst p))
  else Ok (with_s5 h PhP1 (mkMeta (mbuf m) (mlast m) (mlast m)) (fst p)).

(** socks5.c:238-342 after a receive *)
Definition p2_feed (h : hs) (m : meta) : res hs :=
  let* p := p2_loop (h_s5 h) (mdata m) in
  match snd p with
  | P2More => Ok (with_s5 h PhP2 (mkMeta (mbuf m) (mlast m) (mlast m)) (fst p))
  | P2Reject => Ok (with_s5 h PhClosed m (fst p))
  | P2Done => Ok (with_s5 h (if p2_accept (fst p) then PhAddr else PhClosed) (meta_clr m) (fst p))
  end.

(** the receive call shared by tls_tunnel_s.c:235-245, socks5.c:225-235, 390-400:
    net_send.c:5 / ssl.c:186 abort when there is no room; [k] continues with the
    extended buffer. -11 returns to the event loop, which calls again. *)
Definition do_recv (h : hs) (r : rx) (k : meta -> res hs) : res hs :=
  if meta_getfree (h_meta h) <? 1 then Fault FAbort else
  match r with
  | RxData bs => let* m := meta_store (h_meta h) bs in k m
  | RxAgain => Ok h
  | RxErr => Ok (close h)
  end.

(** send loops socks5.c:350-368 and 23-42; [next] is the phase after the last byte *)
Definition do_send (h : hs) (r : tx) (next : phase) : res hs :=
  match r with
  | TxSent n =>
      let m := meta_consume (h_meta h) n in
      let bs := ztake n (mdata (h_meta h)) in
      if 0 <? meta_getlen m then Ok (with_sent h (h_ph h) m bs)
      else Ok (with_sent h next (meta_clr m) bs)
  | TxAgain => Ok h
  | TxErr => Ok (close h)
  end.

(** port bytes as stored by the parser (socks5.c:108,150,168 copy them verbatim
    into sin_port) *)
Definition s5_port (s : s5) : list Z := [p2_port0 s; p2_port1 s].

Definition hs_step (h : hs) (i : inp) : res hs :=
  match h_ph h, i with
  | PhClosed, _ => Ok h
  | PhRelay, _ => Ok h
  | _, InTimeout => Ok (close h)
  (* tls_tunnel_s.c:234-247 *)
  | PhAuth, InRecv r =>
      do_recv h r (fun m => if meta_getlen m <? AUTH_LEN then Ok (with_pm h PhAuth m) else auth_check h m)
  | PhP1, InRecv r => do_recv h r (p1_feed h)
  | PhP1Rsp, InSend r => do_send h r PhP2
  | PhP2, InRecv r => do_recv h r (p2_feed h)
  (* socks5.c:137-164 *)
  | PhAddr, InAlloc ok =>
      if ok then
        if p2_atyp (h_s5 h) =? S5_IPV4
        then Ok (with_addr h PhConnect (inet_addr (fmt_ip (ztake 4 (p2_addr (h_s5 h))))) (s5_port (h_s5 h)))
        else Ok (with_ph h PhLookup)
      else Ok (close h)
  (* socks5.c:166-187 *)
  | PhLookup, InLookup a =>
      let* host := of_opt FOob (cstr (p2_addr (h_s5 h))) in
      match a with
      | Some ip => Ok (with_addr (with_asked h PhConnect host) PhConnect (inet_addr (fmt_ip ip)) (s5_port (h_s5 h)))
      | None => Ok (with_asked h PhDns host)
      end
  (* socks5.c:98-129 *)
  | PhDns, InDns a =>
      match a with
      | Some ip => Ok (with_addr h PhConnect (inet_addr (fmt_ip ip)) (s5_port (h_s5 h)))
      | None => Ok (close h)
      end
  (* socks5.c:77-96 *)
  | PhConnect, InConnect r =>
      match r with
      | ConOk => Ok (with_dial h PhConnChk)
      | ConAgain => Ok (with_dial h PhConnWait)
      | ConErr => Ok (close (with_dial h PhClosed))
      end
  (* socks5.c:45-75 *)
  | PhConnWait, InSockUp ok | PhConnChk, InSockUp ok =>
      if ok then
        let* m := meta_store (h_meta h) (p2_reply (h_addr h) (h_port h)) in
        Ok (with_pm h PhP2Rsp m)
      else Ok (close h)
  | PhP2Rsp, InSend r => do_send h r PhRelay
  (* socks5.c:6-16: cdown's read callback while dialling *)
  | PhDns, InTryRead ok | PhConnWait, InTryRead ok => if ok then Ok h else Ok (close h)
  | _, _ => Ok h
  end.

Fixpoint hs_run (h : hs) (is : list inp) : res hs :=
  match is with
  | [] => Ok h
  | i :: r => let* h' := hs_step h i in hs_run h' r
  end.

(** which inputs the environment can deliver in a state: receives return between
    one byte and the room offered, sends accept at most what was offered *)
Definition rx_ok (m : meta) (r : rx) : Prop :=
  match r with RxData bs => bs <> [] /\ bytes bs /\ zlen bs <= meta_getfree m | _ => True end.
Definition tx_ok (m : meta) (r : tx) : Prop :=
  match r with TxSent n => 0 <= n <= meta_getlen m | _ => True end.
Definition ip4 (l : list Z) : Prop := zlen l = 4 /\ bytes l.

Definition enabled (h : hs) (i : inp) : Prop :=
  match h_ph h, i with
  | PhAuth, InRecv r | PhP1, InRecv r | PhP2, InRecv r => rx_ok (h_meta h) r
  | PhP1Rsp, InSend r | PhP2Rsp, InSend r => tx_ok (h_meta h) r
  | PhAddr, InAlloc _ => True
  | PhLookup, InLookup a | PhDns, InDns a => match a with Some ip => ip4 ip | None => True end
  | PhConnect, InConnect _ => True
  | PhConnWait, InSockUp _ | PhConnChk, InSockUp _ => True
  | PhDns, InTryRead _ | PhConnWait, InTryRead _ => True
  | PhAuth, InTimeout | PhP1, InTimeout | PhP1Rsp, InTimeout | PhP2, InTimeout
  | PhDns, InTimeout | PhConnWait, InTimeout | PhP2Rsp, InTimeout => True
  | _, _ => False
  end.

Fixpoint valid (h : hs) (is : list inp) : Prop :=
  match is with
  | [] => True
  | i :: r => enabled h i /\ forall h', hs_step h i = Ok h' -> valid h' r
  end.
