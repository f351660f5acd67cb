(** * Model of one whole tunnel: an application, the client program, the TLS connection, the
      server program and the target. No proofs here.

    The server is the session machine of S5_Model followed by the relay of Relay_Model; the
    client is the machine below (src/app/tls_tunnel_c.c) followed by the same relay. One step
    is one step of the application, the client, the server or the target; the steps may be
    interleaved in any way. *)
From Verif Require Import Base Meta_Model Ac_Model S5_Model Relay_Model.

(** ** The client before the relay (tls_tunnel_c.c)
    [CpConn]: waiting for the connection to the server (lines 133-147, 192-208); [CpShake]:
    the TLS handshake (lines 88-130); [CpAuth]: sending the header (lines 44-66). The read
    callback of the upstream connection is NULL in all of them (lines 83, 127, 192). *)
Inductive cphase := CpConn | CpShake | CpAuth.

(** [m] is the buffer of the application's connection; [left] what is still to be sent of the
    header (the upstream buffer; only in [CpAuth]) *)
Inductive client :=
| CPre (p : cphase) (m : meta) (left : list Z)
| CRel (r : relay)
| CDead.

Inductive cin :=
| CRecv (x : rx)        (* result of recv on the application's connection *)
| CConn (ok : bool)     (* the connection to the server is up, or not *)
| CShake (x : conres)   (* result of the TLS handshake *)
| CSend (x : tx)        (* result of ssl_write for the header *)
| CTimer                (* tls_ses_exp *)
| CRelay (x : ain).     (* a step of the relay *)

(** [hdr] is the header built at lines 74-80. Lines 7-34 [tls_tunnel_c_recv]: the data of the
    application is kept; a buffer without room ends the session, and the test at the head of
    the loop is made again right after each receive. Simplification: between two receives of
    that loop other steps of the client may happen. *)
Definition client_step (hdr : list Z) (c : client) (i : cin) : res client :=
  match c, i with
  | CPre p m l, CRecv x =>
      if meta_getfree m <? 1 then Ok CDead else
      match x with
      | RxData bs => let* m' := meta_store m bs in
                     if meta_getfree m' <? 1 then Ok CDead else Ok (CPre p m' l)
      | RxAgain => Ok c
      | RxErr => Ok CDead
      end
  | CPre _ _ _, CTimer => Ok CDead
  | CPre CpConn m l, CConn ok => if ok then Ok (CPre CpShake m l) else Ok CDead
  | CPre CpShake m l, CShake x =>
      match x with
      | ConOk => Ok (CPre CpAuth m hdr)
      | ConAgain => Ok c
      | ConErr => Ok CDead
      end
  | CPre CpAuth m l, CSend x =>
      match x with
      | TxSent n =>
          (* lines 60-65: all sent, the relay starts *)
          if n <? zlen l then Ok (CPre CpAuth m (zdrop n l))
          else Ok (CRel (relay_init m TLS_TUNNEL_METAN))
      | TxAgain => Ok c
      | TxErr => Ok CDead
      end
  | CRel r, CRelay x => let* r' := any_step r x in Ok (CRel r')
  | _, _ => Ok c
  end.

(** what a step of a relay takes from the source of direction [b] and gives to its sink *)
Definition rel_takes (r : relay) (x : ain) (b : bool) : list Z :=
  match x, r_pc r with
  | AIn (RRecv (RxData bs)), PRecv b' => if Bool.eqb b b' then bs else []
  | _, _ => []
  end.
Definition rel_gives (r : relay) (x : ain) (b : bool) : list Z :=
  match x, r_pc r with
  | AIn (RSend (TxSent n)), PSend b' => if Bool.eqb b b' then ztake n (mdata (d_buf (get r b))) else []
  | _, _ => []
  end.
Definition rel_enabled (r : relay) (x : ain) : Prop :=
  match x with AIn i => r_enabled r i | ASet _ _ _ => True end.

(** what a step of the client takes from the application and from TLS, and gives to them *)
Definition cl_takes_app (c : client) (i : cin) : list Z :=
  match c, i with
  | CPre _ _ _, CRecv (RxData bs) => bs
  | CRel r, CRelay x => rel_takes r x true
  | _, _ => []
  end.
Definition cl_gives_tls (c : client) (i : cin) : list Z :=
  match c, i with
  | CPre CpAuth _ l, CSend (TxSent n) => ztake n l
  | CRel r, CRelay x => rel_gives r x true
  | _, _ => []
  end.
Definition cl_takes_tls (c : client) (i : cin) : list Z :=
  match c, i with CRel r, CRelay x => rel_takes r x false | _, _ => [] end.
Definition cl_gives_app (c : client) (i : cin) : list Z :=
  match c, i with CRel r, CRelay x => rel_gives r x false | _, _ => [] end.

(** the results that calls can return in each state of the client *)
Definition cl_enabled (c : client) (i : cin) : Prop :=
  match c, i with
  | CPre _ m _, CRecv x => rx_ok m x
  | CPre _ _ _, CTimer => True
  | CPre CpConn _ _, CConn _ => True
  | CPre CpShake _ _, CShake _ => True
  | CPre CpAuth _ l, CSend x => match x with TxSent n => 0 <= n <= zlen l | _ => True end
  | CRel r, CRelay x => rel_enabled r x
  | _, _ => False
  end.

(** ** The server: the session machine and, from [PhRelay] on, the relay *)
Inductive server := SHs (h : hs) | SRel (h : hs) (r : relay).
Inductive sin := SHsIn (i : inp) | SRelay (x : ain).

(** tls_tunnel_s.c:193-229: at the hand-over the relay starts with the buffer of the session *)
Definition server_step (s : server) (i : sin) : res server :=
  match s, i with
  | SHs h, SHsIn i =>
      let* h' := hs_step h i in
      match h_ph h' with
      | PhRelay => Ok (SRel h' (relay_init (h_meta h') TLS_TUNNEL_METAN))
      | _ => Ok (SHs h')
      end
  | SRel h r, SRelay x => let* r' := any_step r x in Ok (SRel h r')
  | _, _ => Ok s
  end.

Definition sv_takes_tls (s : server) (i : sin) : list Z :=
  match s, i with
  | SHs _, SHsIn (InRecv (RxData bs)) => bs
  | SRel _ r, SRelay x => rel_takes r x true
  | _, _ => []
  end.
Definition sv_gives_tls (s : server) (i : sin) : list Z :=
  match s, i with
  | SHs h, SHsIn (InSend (TxSent n)) => ztake n (mdata (h_meta h))
  | SRel _ r, SRelay x => rel_gives r x false
  | _, _ => []
  end.
Definition sv_takes_tgt (s : server) (i : sin) : list Z :=
  match s, i with SRel _ r, SRelay x => rel_takes r x false | _, _ => [] end.
Definition sv_gives_tgt (s : server) (i : sin) : list Z :=
  match s, i with SRel _ r, SRelay x => rel_gives r x true | _, _ => [] end.
Definition sv_enabled (s : server) (i : sin) : Prop :=
  match s, i with
  | SHs h, SHsIn i => enabled h i
  | SRel _ r, SRelay x => rel_enabled r x
  | _, _ => False
  end.

(** ** All together
    [t_ac], [t_ts]: bytes on the way from the application to the client and from the target to
    the server. [t_cs]: TLS records from client to server; ssl_write makes one record of what it
    accepts and SSL_read returns bytes of one record only. [t_sc]: from server to client;
    record boundaries are left out there, which allows more. A byte given to the application or
    the target counts as received. The other fields record the history: what the application
    has written ([t_app]) and got ([t_got]), what the target got ([t_tgt]) and wrote ([t_ans]),
    what the server received over TLS ([t_rcv]) and what addresses it was given ([t_fnd]). *)
Record tun := mkTun {
  t_cl : client; t_sv : server;
  t_ac : list Z; t_cs : list (list Z); t_sc : list Z; t_ts : list Z;
  t_app : list Z; t_got : list Z; t_tgt : list Z; t_ans : list Z;
  t_rcv : list Z; t_fnd : list (list Z) }.

Inductive tact :=
| TApp (bs : list Z)      (* the application writes *)
| TTgt (bs : list Z)      (* the target writes *)
| TCli (i : cin)
| TSrv (i : sin).

(** n bytes leave a queue of records; a record that is used up disappears *)
Definition rec_drop (n : Z) (q : list (list Z)) : list (list Z) :=
  match q with
  | [] => []
  | r :: l => if n <? zlen r then zdrop n r :: l else l
  end.
Definition rec_put (q : list (list Z)) (bs : list Z) : list (list Z) :=
  match bs with [] => q | _ => q ++ [bs] end.

(** addresses given to the server by the cache or the resolver *)
Definition sv_found (i : sin) : list (list Z) :=
  match i with SHsIn (InLookup (Some ip)) | SHsIn (InDns (Some ip)) => [ip] | _ => [] end.

Definition tun_step (hdr : list Z) (t : tun) (a : tact) : res tun :=
  match a with
  | TApp bs => Ok (mkTun (t_cl t) (t_sv t) (t_ac t ++ bs) (t_cs t) (t_sc t) (t_ts t)
                         (t_app t ++ bs) (t_got t) (t_tgt t) (t_ans t) (t_rcv t) (t_fnd t))
  | TTgt bs => Ok (mkTun (t_cl t) (t_sv t) (t_ac t) (t_cs t) (t_sc t) (t_ts t ++ bs)
                         (t_app t) (t_got t) (t_tgt t) (t_ans t ++ bs) (t_rcv t) (t_fnd t))
  | TCli i =>
      let c := t_cl t in
      let* c' := client_step hdr c i in
      Ok (mkTun c' (t_sv t) (zdrop (zlen (cl_takes_app c i)) (t_ac t)) (rec_put (t_cs t) (cl_gives_tls c i))
                (zdrop (zlen (cl_takes_tls c i)) (t_sc t)) (t_ts t)
                (t_app t) (t_got t ++ cl_gives_app c i) (t_tgt t) (t_ans t) (t_rcv t) (t_fnd t))
  | TSrv i =>
      let s := t_sv t in
      let* s' := server_step s i in
      Ok (mkTun (t_cl t) s' (t_ac t)
                (match sv_takes_tls s i with [] => t_cs t | bs => rec_drop (zlen bs) (t_cs t) end)
                (t_sc t ++ sv_gives_tls s i) (zdrop (zlen (sv_takes_tgt s i)) (t_ts t))
                (t_app t) (t_got t) (t_tgt t ++ sv_gives_tgt s i) (t_ans t)
                (t_rcv t ++ sv_takes_tls s i) (t_fnd t ++ sv_found i))
  end.

Fixpoint tun_run (hdr : list Z) (t : tun) (l : list tact) : res tun :=
  match l with
  | [] => Ok t
  | a :: r => let* t' := tun_step hdr t a in tun_run hdr t' r
  end.

(** what can happen: only bytes can be written; a receive returns the bytes that are there *)
Definition tun_ok (t : tun) (a : tact) : Prop :=
  match a with
  | TApp bs | TTgt bs => bytes bs
  | TCli i => cl_enabled (t_cl t) i /\ prefix (cl_takes_app (t_cl t) i) (t_ac t) /\
              prefix (cl_takes_tls (t_cl t) i) (t_sc t)
  | TSrv i => sv_enabled (t_sv t) i /\
              match sv_takes_tls (t_sv t) i with
              | [] => True
              | bs => match t_cs t with r :: _ => prefix bs r | [] => False end
              end /\
              prefix (sv_takes_tgt (t_sv t) i) (t_ts t)
  end.

(** [P] holds before every step of a run *)
Fixpoint tun_along (hdr : list Z) (P : tun -> tact -> Prop) (t : tun) (l : list tact) : Prop :=
  match l with
  | [] => True
  | a :: r => P t a /\ forall t', tun_step hdr t a = Ok t' -> tun_along hdr P t' r
  end.

(** an accepted connection at the client (tls_tunnel_c.c:150-209) and the TLS connection it
    makes, accepted by the server (tls_tunnel_s.c:269-298); [c] is the server's matcher *)
Definition tun_init (c : ac) : tun :=
  mkTun (CPre CpConn (meta_new TLS_TUNNEL_METAN) []) (SHs (hs_init TLS_TUNNEL_METAN c))
        [] [] [] [] [] [] [] [] [] [].
