(** * Model of accepting connections (src/common/net.c:127-173) in the event loop. No proofs
    here.

    The listening socket has a queue of established connections in the kernel and an
    edge-triggered registration (event.c:47: EPOLLET, event.c:281: EV_R): a notification is
    pending when a connection has arrived since the last notification was taken. The machine
    makes one step per accept call, so that connections may arrive at any time. *)
From Verif Require Import Base.

(** net.c:170, timer.c:13: milliseconds *)
Definition ACCEPT_TMOUT : Z := 5.
(** net.h:13, used by net.c:233 *)
Definition NET_TMOUT : Z := 5.

(** a connection record made by the loop: its number (given by the kernel queue), its
    descriptor, whether the read event is asked for and the delay of its timer *)
Record acon := ACon { a_id : Z; a_fd : Z; a_read : bool; a_timer : Z; a_tls : bool }.

(** results of one accept call and of the calls that follow it. [AGot fd alloc nbio nodelay]:
    the first waiting connection is handed out as [fd]; the bools are the results of
    [net_alloc], [net_socket_nbio], [net_socket_nodelay]. [AIntr]: EINTR; [AAborted]:
    ECONNABORTED or EPROTO, the first waiting connection is gone; [AError]: any other error
    (EMFILE, ENFILE, ENOBUFS, ENOMEM), the queue is unchanged. *)
Inductive aret := AGot (fd : Z) (alloc nbio nodelay : bool) | AIntr | AAborted | AError.

(** [q]: kernel queue; [edge]: a notification is pending; [run]: the callback runs; [live]:
    connections made; [opened], [closed]: descriptors handed out and closed so far (newest
    first). [tls] is a property of the listener. *)
Record ast := ASt { q : list Z; edge : bool; run : bool; live : list acon;
                    opened : list Z; closed : list Z; tls : bool }.
Definition acc0 (tls : bool) : ast := ASt [] false false [] [] [] tls.

(** net.c:176-179: a descriptor that is not positive is not closed *)
Definition close_fd (fd : Z) (closed : list Z) : list Z := if 0 <? fd then fd :: closed else closed.

(** one iteration of the loop of net.c:134-171. With an empty queue the result is EAGAIN. *)
Definition acc_iter (s : ast) (r : aret) : ast :=
  match q s with
  | [] => ASt [] (edge s) false (live s) (opened s) (closed s) (tls s)
  | id :: t =>
      match r with
      | AIntr | AError => ASt (id :: t) (edge s) false (live s) (opened s) (closed s) (tls s)
      | AAborted => ASt t (edge s) false (live s) (opened s) (closed s) (tls s)
      | AGot fd alloc nbio nodelay =>
          if negb alloc then
            (* net.c:150: closed by its number *)
            ASt t (edge s) false (live s) (fd :: opened s) (fd :: closed s) (tls s)
          else if negb (nbio && nodelay) then
            (* net.c:154-157: net_free *)
            ASt t (edge s) false (live s) (fd :: opened s) (close_fd fd (closed s)) (tls s)
          else
            (* net.c:159-170 *)
            ASt t (edge s) true (ACon id fd true ACCEPT_TMOUT (tls s) :: live s) (fd :: opened s) (closed s) (tls s)
      end
  end.

(** steps: a connection arrives, the loop takes the notification and calls the callback, one
    iteration of it *)
Inductive aop := Arrive (id : Z) | Notify | Iter (r : aret).
Definition acc_step (s : ast) (o : aop) : option ast :=
  match o with
  | Arrive id => Some (ASt (q s ++ [id]) true (run s) (live s) (opened s) (closed s) (tls s))
  | Notify => if edge s && negb (run s)
              then Some (ASt (q s) false true (live s) (opened s) (closed s) (tls s)) else None
  | Iter r => if run s then Some (acc_iter s r) else None
  end.
(** [None]: the machine cannot make these steps *)
Fixpoint acc_run (s : ast) (os : list aop) : option ast :=
  match os with
  | [] => Some s
  | o :: r => match acc_step s o with Some s' => acc_run s' r | None => None end
  end.
