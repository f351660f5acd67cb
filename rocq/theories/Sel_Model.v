(** * Model of the select() back end (src/common/event.c:89-197), which is used where
    the system is not Linux (macro.h:9-11). No proofs here. *)
From Verif Require Import Base Ev_Model.

(** size of an [fd_set] in bits, <sys/select.h> *)
Definition SETSIZE : Z := 1024.

(** a connection: descriptor (0: none, the memory is zeroed) and cached interest
    (event.h:27) *)
Record scon := SCon { s_fd : Z; s_opt : Z }.

(** [s_queue]: the connections in the event queue, in order of allocation
    (event.c:237); [s_r], [s_w]: the two sets of the context (event.c:13-14);
    [s_open]: the descriptors the kernel has open for this process *)
Record sst := Sst {
  s_queue : list Z; s_con : Z -> scon; s_r : Z -> bool; s_w : Z -> bool; s_open : Z -> bool }.

Definition sst0 : sst := Sst [] (fun _ => SCon 0 0) (fun _ => false) (fun _ => false) (fun _ => false).

(** FD_SET and FD_CLR: outside 0..1023 they write outside the set *)
Definition fd_put (m : Z -> bool) (d : Z) (b : bool) : res (Z -> bool) :=
  if (0 <=? d) && (d <? SETSIZE) then Ok (upd m d b) else Fault FOob.
Definition fd_put_if (t : bool) (m : Z -> bool) (d : Z) (b : bool) : res (Z -> bool) :=
  if t then fd_put m d b else Ok m.

(** [opt & EV_R] and [opt & EV_W], event.h:16-17 *)
Definition has_r (o : Z) : bool := Z.testbit o 0.
Definition has_w (o : Z) : bool := Z.testbit o 2.

(** event.c:104-130 [ev_select_opt] *)
Definition sel_opt (s : sst) (c want : Z) : res sst :=
  let v := s_con s c in
  let o := s_opt v in
  let d := s_fd v in
  if o =? want then Ok s
  else
    let* rw := (
      if want =? EV_R + EV_W then
        let* r := fd_put_if (negb (has_r o)) (s_r s) d true in
        let* w := fd_put_if (negb (has_w o)) (s_w s) d true in
        Ok (r, w)
      else if want =? EV_R then
        let* w := fd_put_if (has_w o) (s_w s) d false in
        let* r := fd_put_if (negb (has_r o)) (s_r s) d true in
        Ok (r, w)
      else if want =? EV_W then
        let* r := fd_put_if (has_r o) (s_r s) d false in
        let* w := fd_put_if (negb (has_w o)) (s_w s) d true in
        Ok (r, w)
      else
        let* w := fd_put_if (has_w o) (s_w s) d false in
        let* r := fd_put_if (has_r o) (s_r s) d false in
        Ok (r, w)) in
    Ok (Sst (s_queue s) (upd (s_con s) c (SCon d want)) (fst rw) (snd rw) (s_open s)).

(** What happens between two rounds. [SNew]: net_alloc; [SFd]: accept or socket gives
    a descriptor to a connection (net.c:103, 153, event.c:284); [SOpt]: ev_opt;
    [SClose]: net_free_direct (net.c:175-186: close, then leave the queue; the sets are
    not touched); [SFile]: another part of the program opens or closes a descriptor
    (log, files). *)
Inductive sop := SNew (c : Z) | SFd (c d : Z) | SOpt (c want : Z) | SClose (c : Z) | SFile (d : Z) (on : bool).

Definition drop (c : Z) (q : list Z) : list Z := filter (fun x => negb (x =? c)) q.

Definition sel_step (s : sst) (o : sop) : res sst :=
  match o with
  | SNew c => Ok (Sst (s_queue s ++ [c]) (upd (s_con s) c (SCon 0 0)) (s_r s) (s_w s) (s_open s))
  | SFd c d => Ok (Sst (s_queue s) (upd (s_con s) c (SCon d (s_opt (s_con s c)))) (s_r s) (s_w s) (upd (s_open s) d true))
  | SOpt c want => sel_opt s c want
  | SClose c =>
      let d := s_fd (s_con s c) in
      Ok (Sst (drop c (s_queue s)) (upd (s_con s) c (SCon 0 0)) (s_r s) (s_w s)
              (if 0 <? d then upd (s_open s) d false else s_open s))
  | SFile d on => Ok (Sst (s_queue s) (s_con s) (s_r s) (s_w s) (upd (s_open s) d on))
  end.
Fixpoint sel_run (s : sst) (l : list sop) : res sst :=
  match l with [] => Ok s | o :: t => let* s1 := sel_step s o in sel_run s1 t end.

(** event.c:147-160 *)
Definition fdmax (s : sst) : Z := fold_left (fun m c => if s_fd (s_con s c) >? m then s_fd (s_con s c) else m) (s_queue s) (-1).

(** descriptors 0..n-1 *)
Definition upto (n : Z) : list Z := map Z.of_nat (seq 0 (Z.to_nat n)).

(** The kernel: [None] is the failure EBADF, some member of a set below the limit is
    not open; otherwise the members that are ready, [rdy] says which are. *)
Definition kselect (s : sst) (n : Z) (rdy : Z -> bool * bool) : option ((Z -> bool) * (Z -> bool)) :=
  if existsb (fun d => (s_r s d || s_w s d) && negb (s_open s d)) (upto n) then None
  else Some (fun d => (d <? n) && s_r s d && fst (rdy d), fun d => (d <? n) && s_w s d && snd (rdy d)).

(** event.c:132-196 [ev_select_loop] up to the entries in the table: [None] for a
    failed select (173-174: nothing is entered), otherwise the batch to enter. The walk
    puts the indices of every queued event back (181), so every queued event is in the
    batch, unless nothing is ready (166-168). [actn] is never counted, the walk goes
    through the whole queue. Sets larger than the object are a fault; the time to wait
    is left out. *)
Definition sel_round (s : sst) (rdy : Z -> bool * bool) : res (option (list report)) :=
  if SETSIZE <=? fdmax s then Fault FOob
  else
    match kselect s (fdmax s + 1) rdy with
    | None => Ok None
    | Some (r, w) =>
        if existsb (fun d => r d || w d) (upto (fdmax s + 1))
        then Ok (Some (map (fun c => (c, (r (s_fd (s_con s c)), w (s_fd (s_con s c))))) (s_queue s)))
        else Ok (Some [])
    end.
