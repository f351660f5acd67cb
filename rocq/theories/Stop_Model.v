(** * Model of the loop of a worker and of the flag that stops it
    (src/common/process.c:49-65, timer.c:35-56, event.c:57-71, 203-213). No proofs here.

    The timers are those of Timer_Model.v. A signal may come between any two actions. *)
From Verif Require Import Base Heap_Model Timer_Model.
Open Scope Z_scope.

(** where the worker is *)
Inductive pc :=
| PTest                        (* process.c:57 *)
| PExp                         (* process.c:61, in [timer_expire] and its callbacks *)
| PWait (w : Z) (intr : bool)  (* event.c:60, in epoll_wait: [w] ms are left (negative: no
                                  limit); a signal has come *)
| PDisp                        (* event.c:213-230 the callbacks of the connections; also
                                  process.c:55 the start-up of the worker *)
| PStop.                       (* process.c:59, 64 *)
Record wk := Wk { w_pc : pc; w_quit : bool; w_t : tst }.

Inductive act :=
| ASig            (* SIGINT, process.c:195 *)
| ATest           (* process.c:57-60 *)
| ATm (i : tin)   (* an iteration of [timer_expire]; arming or cancelling in a callback *)
| APass (dt : Z)  (* [dt] ms pass in epoll_wait *)
| AWake (t : Z)   (* epoll_wait returns: events, time-out or EINTR (event.c:61-71); then
                     event.c:211 the clock is read: [t] *)
| ADone.          (* event.c:231: all callbacks are done *)

(** one action, with the event of the timers, if any; [Ok None]: it cannot happen now *)
Definition wstep (s : wk) (a : act) : res (option (list tev * wk)) :=
  match w_pc s, a with
  | PStop, _ => Ok None
  | PWait w _, ASig => Ok (Some ([], Wk (PWait w true) true (w_t s)))
  | p, ASig => Ok (Some ([], Wk p true (w_t s)))
  | PTest, ATest =>
      if w_quit s then Ok (Some ([], Wk PStop false (w_t s)))
      else let* q := tstep (w_t s) TExpire in Ok (Some ([fst q], Wk PExp false (snd q)))
  | PExp, ATm TIter =>
      let* q := tstep (w_t s) TIter in
      match fst q with
      | EDone w _ => Ok (Some ([fst q], Wk (PWait w false) (w_quit s) (snd q)))
      | _ => Ok (Some ([fst q], Wk PExp (w_quit s) (snd q)))
      end
  | PExp, ATm (TArm x d) => let* q := tstep (w_t s) (TArm x d) in Ok (Some ([fst q], Wk PExp (w_quit s) (snd q)))
  | PExp, ATm (TDel x) => let* q := tstep (w_t s) (TDel x) in Ok (Some ([fst q], Wk PExp (w_quit s) (snd q)))
  | PDisp, ATm (TArm x d) => let* q := tstep (w_t s) (TArm x d) in Ok (Some ([fst q], Wk PDisp (w_quit s) (snd q)))
  | PDisp, ATm (TDel x) => let* q := tstep (w_t s) (TDel x) in Ok (Some ([fst q], Wk PDisp (w_quit s) (snd q)))
  | PWait w false, APass dt =>
      if (0 <? dt) && ((w <? 0) || (dt <=? w))
      then Ok (Some ([], Wk (PWait (if w <? 0 then w else w - dt) false) (w_quit s) (w_t s)))
      else Ok None
  | PWait _ _, AWake t => let* q := tstep (w_t s) (TTick t) in Ok (Some ([fst q], Wk PDisp (w_quit s) (snd q)))
  | PDisp, ADone => Ok (Some ([], Wk PTest (w_quit s) (w_t s)))
  | _, _ => Ok None
  end.
Fixpoint wrun (s : wk) (l : list act) : res (option (list tev * wk)) :=
  match l with
  | [] => Ok (Some ([], s))
  | a :: r =>
      let* x := wstep s a in
      match x with
      | None => Ok None
      | Some q => let* y := wrun (snd q) r in
                  match y with None => Ok None | Some z => Ok (Some (fst q ++ fst z, snd z)) end
      end
  end.

(** process.c:49-55: a worker starts; the clock was read at [now] (main.c) *)
Definition wk0 (now : Z) : wk :=
  Wk PDisp false (mkT (heap_create 1536) (fun _ => false) now false).
