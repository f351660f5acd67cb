(** * Model of one name lookup in time: the query, its timer and the datagrams
    (src/dns/dns.c:25-29, 193-258, 291-326, 328-358, src/common/net_send.c:80-128).
    No proofs here.

    The packet functions are those of Dns_Model.v, the datagrams those of Look_Model.v.
    Simplifications: the memory, the socket and its settings are there (dns.c:341-347), arming
    a timer does not fail (C13-C15 are about the timers), and the cache is left out (C47, C124).
    The clock is the cached one (src/common/event.c:211): no time passes inside a callback. *)
From Verif Require Import Base Meta_Model S5_Model Hash_Model Dns_Model Look_Model.
Open Scope Z_scope.

(** src/dns/dns.h:10 DNS_TMOUT, milliseconds *)
Definition dns_tmout : Z := 5000.

(** results of sendto (net_send.c:115-127; an interrupted call is repeated): would block, an
    error, [n] bytes taken. A call that takes something takes at least one byte and no more
    than it was given; [n] is cut to that. *)
Inductive sres := SAgain | SErr | STook (n : Z).

(** [k_pend]: the bytes of the query that were not given to sendto yet; [k_left]: what each
    successful sendto sent; [k_in]: the datagrams that reached the socket, read or not;
    [k_at]: when the timer of the connection is due; [k_out]: the callback was called, with
    [None] for a failure (dns.c:18-23) *)
Record lk := Lk {
  k_qlen : Z; k_pend : list Z; k_left : list (list Z); k_in : list dgram;
  k_now : Z; k_at : option Z; k_out : option (option answer) }.

(** dns.c:206, 243 EZ_TMADD(c, dns_cexp, DNS_TMOUT): an armed timer is armed anew
    (src/common/timer.c:13-24) *)
Definition k_arm (s : lk) : lk :=
  Lk (k_qlen s) (k_pend s) (k_left s) (k_in s) (k_now s) (Some (k_now s + dns_tmout)) (k_out s).
(** dns.c:18-23 [dns_async_result]; the callbacks of the program release the query and its
    timer (src/app/socks5.c:98-128) *)
Definition k_done (s : lk) (r : option answer) : lk :=
  Lk (k_qlen s) (k_pend s) (k_left s) (k_in s) (k_now s) None (Some r).

(** dns.c:193-232 [dns_response_recv]. The bytes read before are still in the buffer, so the
    call is taken to see all datagrams again. *)
Definition k_recv (s : lk) : res lk :=
  let* d := dns_response (k_qlen s) (received 1500 (k_in s)) in
  match d with
  | DWait => Ok (k_arm s)                    (* lines 204-208 *)
  | DFail => Ok (k_done s None)
  | DAnswer a => Ok (k_done s (Some a))
  end.

(** dns.c:234-258 [dns_request_send] with the results of its calls; no more results: the
    socket would block *)
Fixpoint k_send (s : lk) (rs : list sres) : res lk :=
  match k_pend s with
  | [] => k_recv s                           (* lines 253-257 *)
  | _ :: _ =>
      match rs with
      | [] | SAgain :: _ => Ok (k_arm s)     (* lines 241-245 *)
      | SErr :: _ => Ok (k_done s None)      (* lines 246-248 *)
      | STook n :: r =>
          let n := Z.max 1 (Z.min n (zlen (k_pend s))) in
          k_send (Lk (k_qlen s) (zdrop n (k_pend s)) (k_left s ++ [ztake n (k_pend s)])
                     (k_in s) (k_now s) (k_at s) (k_out s)) r
      end
  end.

(** dns.c:291-326 [dns_request_packet], called by [dns_alloc] (328-358) at time [t] *)
Definition k_start (name : list Z) (t : Z) (rs : list sres) : res lk :=
  let* p := dns_packet name in
  k_send (Lk (snd p) (mdata (fst p)) [] [] t None None) rs.

Inductive kev :=
| KWrite (rs : list sres)      (* the socket is writable; results of the calls of sendto *)
| KRead (ds : list dgram)      (* datagrams arrive; the socket is readable *)
| KTick (t : Z).               (* the loop has the time [t] and runs the timers that are due *)

(** one event. While the query is being sent read_cb is NULL (dns.c:323), afterwards write_cb
    is (255). After the callback the connection is gone. *)
Definition kstep (s : lk) (e : kev) : res lk :=
  match k_out s with
  | Some _ => Ok s
  | None =>
      match e with
      | KWrite rs => match k_pend s with [] => Ok s | _ => k_send s rs end
      | KRead ds =>
          let s := Lk (k_qlen s) (k_pend s) (k_left s) (k_in s ++ ds) (k_now s) (k_at s) (k_out s) in
          match k_pend s with [] => k_recv s | _ => Ok s end
      | KTick t =>
          let s := Lk (k_qlen s) (k_pend s) (k_left s) (k_in s) (Z.max t (k_now s)) (k_at s) (k_out s) in
          match k_at s with
          | Some d => if d <=? t then Ok (k_done s None) else Ok s     (* dns.c:25-29 *)
          | None => Ok s
          end
      end
  end.
Fixpoint krun (s : lk) (es : list kev) : res lk :=
  match es with [] => Ok s | e :: r => let* s := kstep s e in krun s r end.

(** a whole lookup *)
Definition klook (name : list Z) (t : Z) (rs : list sres) (es : list kev) : res lk :=
  let* s := k_start name t rs in krun s es.
