(** * Model of a connection of the web server as the event loop sees it
    (src/app/webser.c, src/common/event.c:204-232, src/common/net.c:127-172, 210-242,
    src/common/ssl.c). No proofs here.

    Kept are the callbacks, the interest, the timer and what is still to be sent. Request
    parsing and the choice of the answer are inputs (C49-C60 and C107 are about them), as
    are the results of all calls. One step is one event or one result. The callbacks
    [webser_start], [webser_req_router], [webser_req_file], [webser_req_api],
    [webser_rsp_payload_send] and [webser_keepalive] are called at once by whoever sets
    them and set others before anything can wait; they are passed through here.
    Simplifications: allocations succeed, the timer heap has room, ev_opt succeeds, the
    secret mode (webser.c:466-506, C85) is left out, and both calls of SSL_shutdown in one
    [ssl_shutdown] are one result. *)
From Verif Require Import Base Ssl_Model.
Open Scope Z_scope.

(** callbacks that can stay set while the event loop runs *)
Definition CAccept : cbk := App 0.   (* webser_accept_cb, webser_accept_cb_ssl: 508-556 *)
Definition CProc : cbk := App 2.     (* webser_req_proc: 416-436 *)
Definition CTry : cbk := App 3.      (* webser_try_read: 88-106 *)
Definition CHdr : cbk := App 4.      (* webser_rsp_hdr_send: 231-259 *)
Definition CFile : cbk := App 6.     (* webser_rsp_payload_send_ff: 167-210 *)
Definition CApi : cbk := App 7.      (* webser_rsp_payload_send_api: 142-165 *)
Definition CShut : cbk := App 9.     (* ssl_shutdown_cb, ssl.c:44-56 *)

(** an answer: the head, a file's content or the data of a handler, and whether the
    connection is kept *)
Inductive body := BNo | BFile (f : list Z) | BApi (p : list Z).
Record rsp := Rsp { r_head : list Z; r_body : body; r_keep : bool }.

(** where the connection stands: in the event loop, or about to make a call: handshake
    (from [ssl_handshake_cb] or not), receive, peek, send of head, handler's data or file
    buffer, read of the file, shutdown; or released *)
Inductive wpc := WIdle | WHs (cb : bool) | WRd | WTry | WHdr | WApi | WSnd | WGet | WShut | WDead.

(** [s_hs]: the handshake is done; [s_tmr]: the timer is armed; [s_pend]: the bytes in the
    buffer being sent, [s_off] its position in the buffer, [s_rest]: the bytes of the file
    not read yet, [s_fsend], [s_fsize]: the counters. [s_wire]: what was given to the socket.
    [s_want] (only for the statements): all answers begun. *)
Record wst := St {
  s_tls : bool; s_con : con; s_tmr : bool; s_hs : bool; s_pc : wpc;
  s_rsp : rsp; s_pend : list Z; s_off : Z; s_rest : list Z; s_fsend : Z; s_fsize : Z;
  s_wire : list Z; s_want : list Z }.
Definition with_pc (s : wst) p := St (s_tls s) (s_con s) (s_tmr s) (s_hs s) p (s_rsp s) (s_pend s) (s_off s) (s_rest s) (s_fsend s) (s_fsize s) (s_wire s) (s_want s).
Definition with_con (s : wst) c := St (s_tls s) c (s_tmr s) (s_hs s) (s_pc s) (s_rsp s) (s_pend s) (s_off s) (s_rest s) (s_fsend s) (s_fsize s) (s_wire s) (s_want s).
Definition with_tmr (s : wst) t := St (s_tls s) (s_con s) t (s_hs s) (s_pc s) (s_rsp s) (s_pend s) (s_off s) (s_rest s) (s_fsend s) (s_fsize s) (s_wire s) (s_want s).
Definition with_hs (s : wst) := St (s_tls s) (s_con s) (s_tmr s) true (s_pc s) (s_rsp s) (s_pend s) (s_off s) (s_rest s) (s_fsend s) (s_fsize s) (s_wire s) (s_want s).
(** the file buffer *)
Definition with_buf (s : wst) pend off rest fsend fsize := St (s_tls s) (s_con s) (s_tmr s) (s_hs s) (s_pc s) (s_rsp s) pend off rest fsend fsize (s_wire s) (s_want s).
Definition with_rsp (s : wst) r pend want := St (s_tls s) (s_con s) (s_tmr s) (s_hs s) (s_pc s) r pend (s_off s) (s_rest s) (s_fsend s) (s_fsize s) (s_wire s) want.
Definition with_wire (s : wst) pend w := St (s_tls s) (s_con s) (s_tmr s) (s_hs s) (s_pc s) (s_rsp s) pend (s_off s) (s_rest s) (s_fsend s) (s_fsize s) w (s_want s).

(** the two callbacks of the connection are set *)
Definition cbs (s : wst) r w := with_con s (set_wcb w (set_rcb r (s_con s))).

(** net.c:210-237 [net_free]: a TLS connection whose handshake is done is shut down first
    (SSL_in_init, ssl.c:65-68, is true before) *)
Definition net_free (s : wst) : wst :=
  if s_tls s && s_hs s then with_pc s WShut else with_pc s WDead.

(** webser.c:157-164, 202-209, 245-258: the answer is out. 108-133, 438-463: the next
    request is awaited, or the connection ends *)
Definition finish (s : wst) : wst :=
  let s := with_tmr s false in
  if r_keep (s_rsp s) then with_pc (cbs s CProc Nul) WRd else net_free s.

(** webser.h: WEB_PAYLOAD_LEN - sizeof(meta_t), webser.c:216 *)
Definition PAY : Z := 16344.
(** webser.c:184-199, up to the read of the file or the next send *)
Definition ff_after (s : wst) : wst :=
  if s_fsize s <=? s_fsend s then finish s
  else
    let off := match s_pend s with [] => 0 | _ => s_off s end in
    let s := with_buf s (s_pend s) off (s_rest s) (s_fsend s) (s_fsize s) in
    if off + zlen (s_pend s) <? PAY then with_pc s WGet else with_pc s WSnd.
(** webser.c:171-172 *)
Definition ff_enter (s : wst) : wst :=
  match s_pend s with [] => ff_after s | _ => with_pc s WSnd end.

(** webser.c:231-259 with 212-229 and 167-171: all of the head was sent *)
Definition head_done (s : wst) : wst :=
  let s := with_tmr s false in
  match r_body (s_rsp s) with
  | BNo => finish s
  | BApi [] => finish s
  | BApi p => with_pc (with_con (with_buf s p 0 [] 0 0) (set_wcb CApi (s_con s))) WApi
  | BFile [] => finish s
  | BFile f => ff_enter (with_con (with_buf s [] 0 f 0 (zlen f)) (set_wcb CFile (s_con s)))
  end.

(** webser.c:508-556 *)
Definition accept_cb (s : wst) : wst :=
  let s := with_tmr s false in
  if s_tls s && negb (s_hs s) then with_pc s (WHs false)
  else with_pc (cbs s CProc Nul) WRd.

(** a callback of the application or of ssl.c:101-142 is entered *)
Definition enter_app (s : wst) (k : cbk) : res wst :=
  match k with
  | Nul => Fault FNull
  | KHandshake => Ok (with_pc s (WHs true))
  | App 0 => Ok (accept_cb s)
  | App 2 => Ok (with_pc s WRd)
  | App 3 => Ok (with_pc s WTry)
  | App 4 => Ok (with_pc s WHdr)
  | App 6 => Ok (ff_enter s)
  | App 7 => Ok (with_pc s WApi)
  | App 9 => Ok (with_pc s WShut)
  | _ => Fault FRecursion (* KRead, KWrite: see [enter]; other numbers are not used *)
  end.
(** ssl.c:182 and 228: [ssl_read_cb] calls the read callback, [ssl_write_cb] the write
    callback; if that leads back to one of the two it never ends *)
Definition enter (s : wst) (k : cbk) : res wst :=
  match k with
  | KRead => match rcb (s_con s) with
             | KRead => Fault FRecursion
             | KWrite => enter_app s (wcb (s_con s))
             | x => enter_app s x
             end
  | KWrite => match wcb (s_con s) with
              | KWrite => Fault FRecursion
              | KRead => enter_app s (rcb (s_con s))
              | x => enter_app s x
              end
  | x => enter_app s x
  end.

Inductive rdres := RdSome (* more is needed *) | RdReq (r : rsp) (* the request is complete *)
                 | RdWaitR | RdWaitW | RdFail (* also: the request is refused *).
Inductive sndres := SSent (n : Z) | SWaitR | SWaitW | SFail.
Inductive peek := PkByte | PkNone | PkEnd (* end of input or an error *).
Inductive act :=
| EvR | EvW                    (* the event loop reports the connection *)
| Expire                       (* the timer fires *)
| Hs (r : result) | Rd (x : rdres) | Pk (x : peek) | Snd (x : sndres)
| Get (x : option Z)           (* read(2) of the file: at most so many bytes, or an error *)
| Sh (r : result).

Definition has_r (o : intr) : bool := match o with IR | IRW => true | _ => false end.
Definition has_w (o : intr) : bool := match o with IW | IRW => true | _ => false end.

(** the layer below on success and when it has to wait: ssl.c for a TLS connection, nothing
    for a plain one (net_send.c:3-51) *)
Definition below (f : con -> con) (s : wst) : wst := if s_tls s then with_con s (f (s_con s)) else s.

(** back to the event loop with the timer armed *)
Definition wait (s : wst) : wst := with_pc (with_tmr s true) WIdle.

(** [Ok None]: this cannot happen now *)
Definition step (s : wst) (a : act) : res (option wst) :=
  let some x := let* y := x in Ok (Some y) in
  match s_pc s, a with
  (* event.c:218-230: reported according to the interest; NULL is not called *)
  | WIdle, EvR => if has_r (opt (s_con s))
                  then match rcb (s_con s) with Nul => Ok (Some s) | k => some (enter s k) end else Ok None
  | WIdle, EvW => if has_w (opt (s_con s))
                  then match wcb (s_con s) with Nul => Ok (Some s) | k => some (enter s k) end else Ok None
  (* net_exp, web_exp: net_free; while shutting down net_free_direct or ssl_cexp *)
  | WIdle, Expire =>
      if s_tmr s then
        let s := with_tmr s false in
        match rcb (s_con s), wcb (s_con s) with
        | App 9, _ | _, App 9 => Ok (Some (with_pc s WDead))
        | _, _ => Ok (Some (net_free s))
        end
      else Ok None
  (* 521-537; ssl.c:101-180 *)
  | WHs cb, Hs Done =>
      let s := with_hs s in
      if cb then
        let s := with_con (with_tmr s false) (handshake_end (s_con s)) in
        match handshake_next (s_con s) with
        | KHandshake => Fault FRecursion (* the handshake is done, so this repeats for ever *)
        | k => some (enter s k)
        end
      else Ok (Some (with_pc (cbs s CProc Nul) WRd))
  | WHs _, Hs Failed => Ok (Some (with_pc (with_tmr s false) WDead))
  | WHs _, Hs r => Ok (Some (wait (with_con s (handshake r (s_con s)))))
  (* 416-436; http_req.c *)
  | WRd, Rd RdSome => Ok (Some (below (read Done) s))
  | WRd, Rd RdWaitR => Ok (Some (wait (below (read WantR) s)))
  | WRd, Rd RdWaitW => if s_tls s then Ok (Some (wait (below (read WantW) s))) else Ok None
  | WRd, Rd RdFail => Ok (Some (net_free s))
  | WRd, Rd (RdReq r) =>
      (* 430-435, 391-414, 344-384, 296-341 *)
      let s := with_tmr (below (read Done) s) false in
      match r_head r with
      | [] => Ok None (* there is always a status line *)
      | _ => Ok (Some (with_pc (with_rsp (cbs s CTry CHdr) r (r_head r) (s_want s ++ r_head r ++
               match r_body r with BNo => [] | BFile f => f | BApi p => p end)) WHdr))
      end
  (* 88-106 *)
  | WTry, Pk PkEnd => Ok (Some (net_free s))
  | WTry, Pk _ => Ok (Some (with_pc s WIdle))
  (* 231-245, 142-157, 172-183: send; the chains are sent buffer by buffer *)
  | (WHdr | WApi | WSnd), Snd SWaitW => Ok (Some (wait (below (write WantW) s)))
  | (WHdr | WApi | WSnd), Snd SWaitR => if s_tls s then Ok (Some (wait (below (write WantR) s))) else Ok None
  | (WHdr | WApi | WSnd), Snd SFail => Ok (Some (net_free s))
  | WHdr, Snd (SSent n) =>
      if (1 <=? n) && (n <=? zlen (s_pend s)) then
        let s := with_wire (below (write Done) s) (zdrop n (s_pend s)) (s_wire s ++ ztake n (s_pend s)) in
        Ok (Some (match s_pend s with [] => head_done s | _ => s end))
      else Ok None
  | WApi, Snd (SSent n) =>
      if (1 <=? n) && (n <=? zlen (s_pend s)) then
        let s := with_wire (below (write Done) s) (zdrop n (s_pend s)) (s_wire s ++ ztake n (s_pend s)) in
        Ok (Some (match s_pend s with [] => finish s | _ => s end))
      else Ok None
  | WSnd, Snd (SSent n) =>
      (* without SSL_MODE_ENABLE_PARTIAL_WRITE SSL_write takes all or nothing *)
      if (1 <=? n) && (n <=? zlen (s_pend s)) && (negb (s_tls s) || (n =? zlen (s_pend s))) then
        let s' := with_wire (below (write Done) s) (zdrop n (s_pend s)) (s_wire s ++ ztake n (s_pend s)) in
        Ok (Some (ff_after (with_buf s' (s_pend s') (s_off s + n) (s_rest s) (s_fsend s + n) (s_fsize s))))
      else Ok None
  (* 190-199 *)
  | WGet, Get (Some k) =>
      if 1 <=? k then
        let got := ztake (Z.min k (PAY - (s_off s + zlen (s_pend s)))) (s_rest s) in
        match got with
        | [] => Ok (Some (net_free s))
        | _ => Ok (Some (with_pc (with_buf s (s_pend s ++ got) (s_off s) (zdrop (zlen got) (s_rest s)) (s_fsend s) (s_fsize s)) WSnd))
        end
      else Ok None
  | WGet, Get None => Ok (Some (net_free s))
  (* ssl.c:44-99, net.c:231-240 *)
  | WShut, Sh WantR => Ok (Some (wait (with_con s (set_opt IR (set_wcb Nul (set_rcb CShut (s_con s)))))))
  | WShut, Sh WantW => Ok (Some (wait (with_con s (set_opt IW (set_wcb CShut (set_rcb Nul (s_con s)))))))
  | WShut, Sh _ => Ok (Some (with_pc (with_tmr s false) WDead))
  | _, _ => Ok None
  end.
Fixpoint run (s : wst) (l : list act) : res (option wst) :=
  match l with
  | [] => Ok (Some s)
  | a :: r => let* x := step s a in match x with Some s' => run s' r | None => Ok None end
  end.

(** net.c:152-170: as accepted, with a timer of 5 ms *)
Definition start (t : bool) : wst :=
  St t (Con CAccept Nul IR INo Nul Nul) true false WIdle (Rsp [] BNo false) [] 0 [] 0 0 [] [].
