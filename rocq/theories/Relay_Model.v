(** * Model of the relay phase of a tunnel session (src/app/tls_tunnel_s.c:57-229),
      used by the server and by the client side. No proofs here.

    The two directions are transcribed once: [tls_tunnel_traffic_recv]/[_send]
    (lines 57-123) and [tls_tunnel_traffic_reverse_recv]/[_send] (lines 125-191)
    are the same code with cdown and cup exchanged, and share no data except the
    life of the session. A direction is named by its source: [true] is client to
    upstream, [false] is upstream to client.

    One step is one call of recv or send (its result is the input) or one event
    delivered by the event loop while nothing runs. *)
From Verif Require Import Base Meta_Model S5_Model.

(** one direction: its buffer (the meta of the source connection), whether the
    read callback of the source is the recv function ([d_rcb]), whether the write
    callback of the sink is the send function ([d_wcb]); otherwise they are NULL;
    the flag frecv_err_down / frecv_err_up; and the ghost streams *)
Record dir := mkDir {
  d_buf : meta; d_rcb : bool; d_wcb : bool; d_err : bool;
  d_in : list Z;      (* bytes received from the source since hand-over *)
  d_out : list Z }.   (* bytes accepted by send of the sink *)

Inductive death := DClosed (b : bool)   (* recv of source [b] failed and its data was sent *)
                 | DSendErr (b : bool)  (* send to the sink of direction [b] failed *)
                 | DTimeout.            (* tls_ses_exp, lines 47-54 *)

Inductive rpc := PIdle                  (* back in the event loop *)
               | PRecv (b : bool)       (* about to call recv on source [b] *)
               | PSend (b : bool)       (* about to call send for direction [b] *)
               | PDead (why : death).   (* both connections freed *)

Record relay := mkRelay { r_pc : rpc; r_dn : dir; r_up : dir }.

Definition get (r : relay) (b : bool) : dir := if b then r_dn r else r_up r.
Definition put (r : relay) (b : bool) (d : dir) (p : rpc) : relay :=
  if b then mkRelay p d (r_up r) else mkRelay p (r_dn r) d.
Definition with_pc (r : relay) (p : rpc) : relay := mkRelay p (r_dn r) (r_up r).

Definition d_setbuf (d : dir) (m : meta) : dir := mkDir m (d_rcb d) (d_wcb d) (d_err d) (d_in d) (d_out d).
Definition d_setcb (d : dir) (rcb wcb : bool) : dir := mkDir (d_buf d) rcb wcb (d_err d) (d_in d) (d_out d).
Definition d_seterr (d : dir) : dir := mkDir (d_buf d) (d_rcb d) (d_wcb d) true (d_in d) (d_out d).
Definition d_recvd (d : dir) (m : meta) (bs : list Z) : dir :=
  mkDir m (d_rcb d) (d_wcb d) (d_err d) (d_in d ++ bs) (d_out d).
Definition d_sent (d : dir) (m : meta) (bs : list Z) : dir :=
  mkDir m (d_rcb d) (d_wcb d) (d_err d) (d_in d) (d_out d ++ bs).

(** lines 77-87: after the receive loop of direction [b]; with data the send
    function is entered (line 97 tests the length, which is positive) *)
Definition after_recv (r : relay) (b : bool) (d : dir) : relay :=
  if 0 <? meta_getlen (d_buf d) then put r b (d_setcb d false true) (PSend b)
  else if d_err d then put r b d (PDead (DClosed b))
  else put r b d PIdle.

(** line 65: condition of the receive loop *)
Definition recv_loop (r : relay) (b : bool) (d : dir) : relay :=
  if 0 <? meta_getfree (d_buf d) then put r b d (PRecv b) else after_recv r b d.

(** lines 112-122: after the send loop *)
Definition after_send (r : relay) (b : bool) (d : dir) : relay :=
  if d_err d then put r b d (PDead (DClosed b))
  else recv_loop r b (d_setcb (d_setbuf d (meta_clr (d_buf d))) true false).

(** line 97: condition of the send loop *)
Definition send_loop (r : relay) (b : bool) (d : dir) : relay :=
  if 0 <? meta_getlen (d_buf d) then put r b d (PSend b) else after_send r b d.

Inductive rin :=
| RRecv (x : rx)          (* result of the pending recv *)
| RSend (x : tx)          (* result of the pending send *)
| RReadable (b : bool)    (* read event of the source of direction [b] *)
| RWritable (b : bool)    (* write event of the sink of direction [b] *)
| RTimer.                 (* the session timer fires *)

Definition relay_step (r : relay) (i : rin) : res relay :=
  match r_pc r, i with
  (* lines 66-74: net_send.c:5 aborts on an empty buffer, excluded by line 65 *)
  | PRecv b, RRecv x =>
      let d := get r b in
      if meta_getfree (d_buf d) <? 1 then Fault FAbort else
      match x with
      | RxData bs => let* m := meta_store (d_buf d) bs in Ok (recv_loop r b (d_recvd d m bs))
      | RxAgain => Ok (after_recv r b d)
      | RxErr => Ok (after_recv r b (d_seterr d))
      end
  (* lines 98-110; net_send.c:33 aborts on length 0, excluded by line 97 *)
  | PSend b, RSend x =>
      let d := get r b in
      if meta_getlen (d_buf d) <? 1 then Fault FAbort else
      match x with
      | TxSent n => Ok (send_loop r b (d_sent d (meta_consume (d_buf d) n) (ztake n (mdata (d_buf d)))))
      | TxAgain => Ok (with_pc r PIdle)
      | TxErr => Ok (with_pc r (PDead (DSendErr b)))
      end
  (* event.c:218-230: a callback that is NULL is not called *)
  | PIdle, RReadable b => if d_rcb (get r b) then Ok (recv_loop r b (get r b)) else Ok r
  | PIdle, RWritable b => if d_wcb (get r b) then Ok (send_loop r b (get r b)) else Ok r
  | PIdle, RTimer => Ok (with_pc r (PDead DTimeout))
  | _, _ => Ok r
  end.

Fixpoint relay_run (r : relay) (is : list rin) : res relay :=
  match is with
  | [] => Ok r
  | i :: l => let* r' := relay_step r i in relay_run r' l
  end.

(** lines 193-229 [tls_tunnel_traffic_proc]: [m] is the client's buffer at hand-over
    (on the client side it may hold data already received), the upstream buffer is
    cleared; both callbacks are set and recv of the client is entered. Allocation
    failure tears the session down and is not modelled here. *)
Definition relay_init (m : meta) (cap_up : Z) : relay :=
  let r := mkRelay PIdle (mkDir m true false false [] []) (mkDir (meta_new cap_up) true false false [] []) in
  recv_loop r true (r_dn r).

(** results that recv / send can return, events only while nothing runs *)
Definition r_enabled (r : relay) (i : rin) : Prop :=
  match r_pc r, i with
  | PRecv b, RRecv x => rx_ok (d_buf (get r b)) x
  | PSend b, RSend x => tx_ok (d_buf (get r b)) x
  | PIdle, RReadable _ | PIdle, RWritable _ | PIdle, RTimer => True
  | _, _ => False
  end.

Fixpoint r_valid (r : relay) (is : list rin) : Prop :=
  match is with
  | [] => True
  | i :: l => r_enabled r i /\ forall r', relay_step r i = Ok r' -> r_valid r' l
  end.

(** ** The relay above a TLS connection
    ssl.c:190-200 and 235-245: a successful read or write puts back callbacks that were
    remembered when an earlier call had to wait, whatever has been set since. Here the four
    callbacks can be set or cleared at any time in any way ([ASet]; simplification: also in
    ways that ssl.c does not). *)
Inductive ain := AIn (i : rin) | ASet (b rcb wcb : bool).
Definition any_step (r : relay) (x : ain) : res relay :=
  match x with
  | AIn i => relay_step r i
  | ASet b rcb wcb => Ok (put r b (d_setcb (get r b) rcb wcb) (r_pc r))
  end.
Fixpoint any_run (r : relay) (xs : list ain) : res relay :=
  match xs with
  | [] => Ok r
  | x :: l => let* r' := any_step r x in any_run r' l
  end.
Fixpoint any_valid (r : relay) (xs : list ain) : Prop :=
  match xs with
  | [] => True
  | x :: l => match x with AIn i => r_enabled r i | ASet _ _ _ => True end /\
              forall r', any_step r x = Ok r' -> any_valid r' l
  end.

(** ** The relay together with edge-triggered sockets

    [w_avail b]: bytes queued by the kernel on source [b]; [w_eof b]: the peer has
    closed its sending side (or the connection failed) behind them; [w_room b]: bytes
    the kernel would accept on the sink of direction [b]; [w_er], [w_ew]: an edge
    that epoll has to report (EPOLLET, event.c:48). Registration of the upstream
    socket is changed by line 227 (EV_W to EV_R|EV_W, net.c:109), which makes the
    kernel report its current state; the client is received from at once. *)
Record ksock := mkK { k_avail : list Z; k_eof : bool; k_room : Z; k_er : bool; k_ew : bool }.
Record world := mkW { w_relay : relay; w_dn : ksock; w_up : ksock }.

Definition kget (w : world) (b : bool) : ksock := if b then w_dn w else w_up w.
Definition kput (w : world) (r : relay) (b : bool) (k : ksock) : world :=
  if b then mkW r k (w_up w) else mkW r (w_dn w) k.

Inductive wact :=
| WArrive (b : bool) (bs : list Z)   (* bytes arrive on source [b] *)
| WEof (b : bool)                    (* source [b] closes *)
| WRoom (b : bool) (n : Z)           (* the sink of direction [b] drains *)
| WRead (b : bool)                   (* epoll reports and the loop dispatches *)
| WWrite (b : bool)
| WIo (n : Z)                        (* the kernel executes the pending recv / send;
                                        [n] bounds what it moves (short counts) *)
| WSendFail                          (* the pending send fails *)
| WTimer.

Definition wstep (w : world) (a : wact) : res world :=
  let r := w_relay w in
  match a with
  | WArrive b bs =>
      let k := kget w b in
      if k_eof k then Ok w
      else match bs with
           | [] => Ok w
           | _ => Ok (kput w r b (mkK (k_avail k ++ bs) false (k_room k) true (k_ew k)))
           end
  | WEof b => let k := kget w b in Ok (kput w r b (mkK (k_avail k) true (k_room k) true (k_ew k)))
  | WRoom b n =>
      let k := kget w b in
      if 0 <? n then Ok (kput w r b (mkK (k_avail k) (k_eof k) (k_room k + n) (k_er k) true)) else Ok w
  | WRead b =>
      let k := kget w b in
      match r_pc r with
      | PIdle => if k_er k then
          let* r' := relay_step r (RReadable b) in
          Ok (kput w r' b (mkK (k_avail k) (k_eof k) (k_room k) false (k_ew k)))
          else Ok w
      | _ => Ok w
      end
  | WWrite b =>
      let k := kget w b in
      match r_pc r with
      | PIdle => if k_ew k then
          let* r' := relay_step r (RWritable b) in
          Ok (kput w r' b (mkK (k_avail k) (k_eof k) (k_room k) (k_er k) false))
          else Ok w
      | _ => Ok w
      end
  | WIo n =>
      match r_pc r with
      | PRecv b =>
          let k := kget w b in
          match k_avail k with
          | [] => let* r' := relay_step r (RRecv (if k_eof k then RxErr else RxAgain)) in
                  Ok (kput w r' b k)
          | _ => let m := Z.max 1 (Z.min n (Z.min (zlen (k_avail k)) (meta_getfree (d_buf (get r b))))) in
                 let* r' := relay_step r (RRecv (RxData (ztake m (k_avail k)))) in
                 Ok (kput w r' b (mkK (zdrop m (k_avail k)) (k_eof k) (k_room k) (k_er k) (k_ew k)))
          end
      | PSend b =>
          let k := kget w b in
          if k_room k <? 1 then
            let* r' := relay_step r (RSend TxAgain) in Ok (kput w r' b k)
          else
            let m := Z.max 1 (Z.min n (Z.min (k_room k) (meta_getlen (d_buf (get r b))))) in
            let* r' := relay_step r (RSend (TxSent m)) in
            Ok (kput w r' b (mkK (k_avail k) (k_eof k) (k_room k - m) (k_er k) (k_ew k)))
      | _ => Ok w
      end
  | WSendFail =>
      match r_pc r with
      | PSend b => let* r' := relay_step r (RSend TxErr) in Ok (mkW r' (w_dn w) (w_up w))
      | _ => Ok w
      end
  | WTimer =>
      match r_pc r with
      | PIdle => let* r' := relay_step r RTimer in Ok (mkW r' (w_dn w) (w_up w))
      | _ => Ok w
      end
  end.

Fixpoint wrun (w : world) (l : list wact) : res world :=
  match l with
  | [] => Ok w
  | a :: r => let* w' := wstep w a in wrun w' r
  end.

(** hand-over: whatever the kernel holds; the edge of the upstream socket is
    pending because its registration was just changed (lines 226-227) *)
Definition winit (m : meta) (cap_up : Z) (kd ku : ksock) : world :=
  mkW (relay_init m cap_up) (mkK (k_avail kd) (k_eof kd) (k_room kd) true true)
      (mkK (k_avail ku) (k_eof ku) (k_room ku) true true).
