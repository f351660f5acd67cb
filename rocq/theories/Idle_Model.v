(** * Model of the timers of a relaying session (src/app/tls_tunnel_s.c:57-229)
    Every connection has one timer (EZ_TMADD, src/common/timer.h:28-29). The relay is that of
    Relay_Model.v with the calls of EZ_TMADD written where the program has them. No proofs here.

    The clock is the cached one (src/common/event.c:211), so no time passes inside a callback.
    Simplification: arming does not fail (its result is ignored by the program; C13 is about
    the timers themselves). *)
From Verif Require Import Base Meta_Model S5_Model Relay_Model.
Open Scope Z_scope.

(** src/app/tls_tunnel_s.h:9 TLS_TUNNEL_TMOUT, milliseconds *)
Definition tunnel_tmout : Z := 10 * 1000.

(** [i_at c]: when the timer of a connection is due, [true]: cdown, [false]: cup *)
Record timed := Ti { i_relay : relay; i_now : Z; i_at : bool -> option Z }.

(** EZ_TMADD(c, tls_ses_exp, TLS_TUNNEL_TMOUT), timer.c:13-24: an armed timer is armed anew *)
Definition arm (s : timed) (c : bool) : timed :=
  Ti (i_relay s) (i_now s)
     (fun x => if Bool.eqb x c then Some (i_now s + tunnel_tmout) else i_at s x).
Definition to (s : timed) (r : relay) : timed := Ti r (i_now s) (i_at s).

(** The source of direction [b] is connection [b], its sink is connection [negb b].
    tls_tunnel_s.c:96, 164: entry of the send function for direction [b]; line 97 tests the
    length, which is positive here *)
Definition i_after_recv (s : timed) (b : bool) (d : dir) : timed :=
  if 0 <? meta_getlen (d_buf d) then arm (to s (put (i_relay s) b (d_setcb d false true) (PSend b))) (negb b)
  else if d_err d then to s (put (i_relay s) b d (PDead (DClosed b)))
  else to s (put (i_relay s) b d PIdle).
(** lines 65-87, 133-155 *)
Definition i_recv_loop (s : timed) (b : bool) (d : dir) : timed :=
  if 0 <? meta_getfree (d_buf d) then to s (put (i_relay s) b d (PRecv b)) else i_after_recv s b d.
(** lines 63, 131: entry of the receive function of direction [b] *)
Definition i_recv_enter (s : timed) (b : bool) (d : dir) : timed := i_recv_loop (arm s b) b d.
(** lines 112-122, 180-190 *)
Definition i_after_send (s : timed) (b : bool) (d : dir) : timed :=
  if d_err d then to s (put (i_relay s) b d (PDead (DClosed b)))
  else i_recv_enter s b (d_setcb (d_setbuf d (meta_clr (d_buf d))) true false).
(** lines 98-110, 166-178 *)
Definition i_send_loop (s : timed) (b : bool) (d : dir) : timed :=
  if 0 <? meta_getlen (d_buf d) then to s (put (i_relay s) b d (PSend b)) else i_after_send s b d.

Inductive iin :=
| IIn (i : rin)       (* a call returns or an event is delivered; not RTimer *)
| ITick (t : Z)       (* the event loop updates the clock *)
| IFire (c : bool).   (* timer_expire calls tls_ses_exp for this connection, timer.c:50-53 *)

Definition istep (s : timed) (x : iin) : res timed :=
  let r := i_relay s in
  match x with
  | ITick t => match r_pc r with PIdle => Ok (Ti r t (i_at s)) | _ => Ok s end
  | IFire c => match r_pc r with
               | PIdle => Ok (Ti (with_pc r (PDead DTimeout)) (i_now s) (i_at s))   (* lines 47-54 *)
               | _ => Ok s
               end
  | IIn i =>
      match r_pc r, i with
      | PRecv b, RRecv x =>
          let d := get r b in
          if meta_getfree (d_buf d) <? 1 then Fault FAbort else
          match x with
          | RxData bs => let* m := meta_store (d_buf d) bs in Ok (i_recv_loop s b (d_recvd d m bs))
          | RxAgain => Ok (i_after_recv s b d)
          | RxErr => Ok (i_after_recv s b (d_seterr d))
          end
      | PSend b, RSend x =>
          let d := get r b in
          if meta_getlen (d_buf d) <? 1 then Fault FAbort else
          match x with
          | TxSent n => Ok (i_send_loop s b (d_sent d (meta_consume (d_buf d) n) (ztake n (mdata (d_buf d)))))
          | TxAgain => Ok (to s (with_pc r PIdle))
          | TxErr => Ok (to s (with_pc r (PDead (DSendErr b))))
          end
      | PIdle, RReadable b => if d_rcb (get r b) then Ok (i_recv_enter s b (get r b)) else Ok s
      | PIdle, RWritable b => if d_wcb (get r b) then Ok (i_send_loop (arm s (negb b)) b (get r b)) else Ok s
      | _, _ => Ok s
      end
  end.
Fixpoint irun (s : timed) (l : list iin) : res timed :=
  match l with
  | [] => Ok s
  | x :: l => let* s' := istep s x in irun s' l
  end.

(** lines 193-229: hand-over at time [t0]. Neither timer is set: cdown's is removed in
    socks5.c:37 or was never set (tls_tunnel_c.c:153), cup's in socks5.c:50, tls_tunnel_c.c:60 *)
Definition idle_init (m : meta) (cap_up : Z) (t0 : Z) : timed :=
  let r := mkRelay PIdle (mkDir m true false false [] []) (mkDir (meta_new cap_up) true false false [] []) in
  i_recv_enter (Ti r t0 (fun _ => None)) true (r_dn r).

(** what can happen: the clock does not go back (C109); only a timer that is due fires *)
Definition i_enabled (s : timed) (x : iin) : Prop :=
  match x with
  | IIn i => r_enabled (i_relay s) i /\ i <> RTimer
  | ITick t => r_pc (i_relay s) = PIdle /\ i_now s <= t
  | IFire c => r_pc (i_relay s) = PIdle /\ exists k, i_at s c = Some k /\ k <= i_now s
  end.
Fixpoint i_valid (s : timed) (l : list iin) : Prop :=
  match l with
  | [] => True
  | x :: l => i_enabled s x /\ forall s', istep s x = Ok s' -> i_valid s' l
  end.
