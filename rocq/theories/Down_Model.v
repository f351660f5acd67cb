(** * Model of the end of a worker (src/common/modules.c:64-76, process.c:49-65), after a
    start-up that may have failed anywhere (modules.c:50-62). No proofs here.

    What a worker builds is a set of objects; which pointers to them are set is kept apart
    from which of them are live, so that following a NULL pointer and using or releasing
    something that is gone are different outcomes. Init_Model.v has the same start-up with the
    contents of the key matcher instead. *)
From Verif Require Import Base.
Open Scope Z_scope.

Inductive obj :=
| OPool                                  (* mem.c:86 *)
| OSsl | OCtxC | OCtxS                   (* ssl.c:401; the contexts made on first use *)
| OHeap                                  (* timer.c:59 *)
| OEv | OEpev | OEpfd                    (* event.c:257, 23, 26 *)
| OLfd (i : Z) | OLcon (i : Z) | OLev (i : Z)  (* listener [i]: listen.c:32, net.c:251, 252 *)
| OSes | OAc                             (* tls_tunnel_s.c:385, 370 *)
| OWeb | OMime | OApi                    (* webser.c:613, 559, 619 *)
| ODns | OHash                           (* dns.c:372, 374 *)
| OConn (i : Z).                         (* the descriptor of a client or upstream connection *)
Definition obj_eq_dec (a b : obj) : {a = b} + {a <> b}.
Proof. decide equality; apply Z.eq_dec. Defined.
Definition mem (o : obj) (l : list obj) : bool := existsb (fun x => if obj_eq_dec o x then true else false) l.

(** the blocks taken from the pool *)
Definition pooled (o : obj) : bool :=
  match o with
  | OSsl | OEv | OEpev | OLcon _ | OLev _ | OSes | OWeb | OMime | OApi | ODns | OHash => true
  | _ => false
  end.

(** live objects; pointers that are not NULL; descriptors that were closed when not open *)
Record st := St { live : list obj; ptr : list obj; bad_close : list Z }.

(** a new object, and a pointer to it *)
Definition make (o : obj) (s : st) : st := St (o :: live s) (o :: ptr s) (bad_close s).
(** an object is read or written *)
Definition touch (s : st) (o : obj) : res unit := if mem o (live s) then Ok tt else Fault FUaf.
(** a pointer is followed *)
Definition follow (s : st) (o : obj) : res unit := if mem o (ptr s) then touch s o else Fault FNull.
(** an object is released; blocks of the pool need the pool *)
Definition release (s : st) (o : obj) : res st :=
  if mem o (live s) && (negb (pooled o) || mem OPool (live s))
  then Ok (St (remove obj_eq_dec o (live s)) (ptr s) (bad_close s)) else Fault FUaf.
(** a pointer is set to NULL *)
Definition null (s : st) (o : obj) : st := St (live s) (remove obj_eq_dec o (ptr s)) (bad_close s).
(** [if (p) { release; p = NULL }] *)
Definition drop (s : st) (o : obj) : res st :=
  if mem o (ptr s) then let* s' := release s o in Ok (null s' o) else Ok s.

(** the outcome of every call of the start-up *)
Record env := Env {
  d_blks : bool; d_slabs : bool;      (* mem.c:86, 107 *)
  d_ssl : bool; d_heap : bool;
  d_ev : bool; d_epev : bool; d_epfd : bool;
  d_lcon : Z -> bool;                 (* event.c:283 for listener [i] *)
  d_ses : bool; d_ac : bool; d_keys : bool;
  d_web : bool; d_mime : bool; d_api : bool;
  d_dns : bool; d_hash : bool }.

(** event.c:280-290; [false]: the loop was left *)
Fixpoint listeners (d : env) (fuse : list Z) (s : st) : bool * st :=
  match fuse with
  | [] => (true, s)
  | i :: r => if d_lcon d i then listeners d r (make (OLev i) (make (OLcon i) s)) else (false, s)
  end.
(** event.c:22-29, 273-274: the result is not looked at *)
Definition epoll_init (d : env) (s : st) : st :=
  if negb (d_epev d) then s else
  let s := make OEpev s in
  if negb (d_epfd d) then s else make OEpfd s.
(** webser.c:608-636 *)
Definition web_init (d : env) (s : st) : bool * st :=
  if negb (d_web d) then (false, s) else
  if negb (d_mime d) then (false, s) else
  if negb (d_api d) then (false, St (OMime :: live s) (ptr s) (bad_close s))
  else (true, make OApi (make OMime (make OWeb s))).
(** tls_tunnel_s.c:366-389; client mode: no keys *)
Definition ses_init (server : bool) (d : env) (s : st) : bool * st :=
  if negb (d_ses d) then (false, s) else
  let s := make OSes s in
  if negb server then (true, s) else
  if negb (d_ac d) then (false, s) else (d_keys d, make OAc s).

(** modules.c:50-62; listen.c:60-77 has opened the listeners [fuse] before the worker was
    started *)
Definition start (fuse : list Z) (server : bool) (d : env) : Z * st :=
  let s := St (map OLfd fuse) (map OLfd fuse) [] in
  if negb (d_blks d) then (-1, s) else
  let s := make OPool s in
  if negb (d_slabs d) then (-1, s) else
  if negb (d_ssl d) then (-1, s) else
  let s := make OSsl s in
  let s := if d_heap d then make OHeap s else s in
  if negb (d_ev d) then (-1, s) else
  let q := listeners d fuse (epoll_init d (make OEv s)) in
  if negb (fst q) then (-1, snd q) else
  let p := ses_init server d (snd q) in
  if negb (fst p) then (-1, snd p) else
  let w := web_init d (snd p) in
  if negb (fst w) then (-1, snd w) else
  if negb (d_dns d) then (-1, snd w) else
  let s := make ODns (snd w) in
  if negb (d_hash d) then (-1, s) else (0, make OHash s).

(** what a worker does until it is told to stop: rounds of the loop, TLS contexts made on
    first use (ssl.c:317-370), connections opened and closed *)
Inductive work := Round | TlsC | TlsS | Open (i : Z) | Close (i : Z).
Definition do_work (s : st) (w : work) : res st :=
  match w with
  | Round => let* _ := follow s OHeap in let* _ := follow s OEv in Ok s
  | TlsC => let* _ := follow s OSsl in Ok (if mem OCtxC (ptr s) then s else make OCtxC s)
  | TlsS => let* _ := follow s OSsl in Ok (if mem OCtxS (ptr s) then s else make OCtxS s)
  | Open i => let* _ := follow s OEv in
              if mem (OConn i) (live s) then Ok s else Ok (St (OConn i :: live s) (ptr s) (bad_close s))
  | Close i => if mem (OConn i) (live s) then release s (OConn i) else Ok s
  end.
Fixpoint works (s : st) (ws : list work) : res st :=
  match ws with [] => Ok s | w :: r => let* s' := do_work s w in works s' r end.

(** ssl.c:409-425 *)
Definition ssl_end (s : st) : res st :=
  if mem OSsl (ptr s) then
    let* s := drop s OCtxC in
    let* s := drop s OCtxS in
    drop s OSsl
  else Ok s.
(** timer.c:63-67: the pointer stays *)
Definition timer_end (s : st) : res st := if mem OHeap (ptr s) then release s OHeap else Ok s.
(** net.c:175-242 for a listener: no TLS, no buffer, no timer, [data_cb] NULL; the descriptor
    is closed, the event is taken out of the event table (event.c:242-253) *)
Definition lst_free (s : st) (i : Z) : res st :=
  let* _ := follow s (OLcon i) in
  let* s := release s (OLfd i) in
  let* _ := touch s OEv in
  let* s := release s (OLev i) in
  release s (OLcon i).
Fixpoint lsts_free (s : st) (fuse : list Z) : res st :=
  match fuse with [] => Ok s | i :: r => let* s' := lst_free s i in lsts_free s' r end.
(** event.c:295-310, 31-38 *)
Definition ev_exit (fuse : list Z) (s : st) : res st :=
  let* s := lsts_free s fuse in
  if mem OEv (ptr s) then
    let* _ := touch s OEv in
    let* s := (if mem OEpfd (ptr s) then release s OEpfd else Ok s) in
    let* s := (if mem OEpev (ptr s) then release s OEpev else Ok s) in
    drop s OEv
  else Ok s.
(** tls_tunnel_s.c:391-400 *)
Definition ses_exit (s : st) : res st :=
  if mem OSes (ptr s) then
    let* s := (if mem OAc (ptr s) then release s OAc else Ok s) in
    drop s OSes
  else Ok s.
(** webser.c:638-652: the pointer to the context stays *)
Definition web_end (s : st) : res st :=
  if mem OWeb (ptr s) then
    let* s := drop s OMime in
    let* s := drop s OApi in
    release s OWeb
  else Ok s.
(** dns.c:379-387 *)
Definition dns_end (s : st) : res st :=
  if mem ODns (ptr s) then
    let* s := drop s OHash in
    drop s ODns
  else Ok s.
(** mem.c:69-80: with the pool all of its blocks are gone *)
Definition pool_end (s : st) : res st :=
  if mem OPool (ptr s) then
    let* s := release s OPool in
    Ok (St (filter (fun o => negb (pooled o)) (live s)) (ptr s) (bad_close s))
  else Ok s.
(** modules.c:64-76 *)
Definition modules_exit (fuse : list Z) (s : st) : res st :=
  let* s := ssl_end s in
  let* s := timer_end s in
  let* s := ev_exit fuse s in
  let* s := ses_exit s in
  let* s := web_end s in
  let* s := dns_end s in
  pool_end s.
(** listen.c:79-88, from main.c:125 [modules_core_exit] (log and process table left out):
    every listener is closed; closing what is not open does nothing *)
Fixpoint listen_end (s : st) (fuse : list Z) : st :=
  match fuse with
  | [] => s
  | i :: r =>
      if mem (OLfd i) (live s)
      then listen_end (St (remove obj_eq_dec (OLfd i) (live s)) (ptr s) (bad_close s)) r
      else listen_end (St (live s) (ptr s) (bad_close s ++ [i])) r
  end.

(** process.c:55-64 and main.c:124-125: a worker that is told to stop after [ws] *)
Definition worker_end (fuse : list Z) (server : bool) (d : env) (ws : list work) : res st :=
  let* s := works (snd (start fuse server d)) ws in
  let* s := modules_exit fuse s in
  Ok (listen_end s fuse).
