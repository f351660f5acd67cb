(** * Model of one process between start and end, as far as signals are concerned
    (src/common/process.c, main.c:97-128, modules.c:31-45). No proofs here.

    A program is a list of statements; between any two of them a signal may arrive. Kept
    of a process are the context [g_proc_ctx] and what the signal handler does with it. *)
From Verif Require Import Base.
Open Scope Z_scope.

(** the signals with a handler, process.c:202-210 *)
Inductive sg := SInt | SHup | SChld | SPipe | SUsr1 | SUsr2.
Definition sg_eqb (a b : sg) : bool :=
  match a, b with
  | SInt, SInt | SHup, SHup | SChld, SChld | SPipe, SPipe | SUsr1, SUsr1 | SUsr2, SUsr2 => true
  | _, _ => false
  end.
Definition all_sg : list sg := [SInt; SHup; SChld; SPipe; SUsr1; SUsr2].

(** a block of memory behind a pointer: the pointer is still NULL, the block is there, the
    block was given back (the pointer keeps its value) *)
Inductive blk := BNone | BLive | BGone.

Definition MASTER : Z := 255.            (* process.c:4 *)

(** process.c:6-15 [process_ctx_t]: [ctx] is the context itself, [shm] the shared table
    [processes] in it; [inst]: the handler is installed; [blocked]: the set of
    process.c:87-92 is blocked; [pend]: a blocked signal has arrived; [tab]: pid and
    [exited] of every slot; [errno_] is the C variable *)
Record ps := Ps {
  inst : sg -> bool; blocked : bool; pend : sg -> bool;
  ctx : blk; shm : blk; id_ : Z; quit : bool; reap : bool; reload : bool;
  tab : list (Z * bool); errno_ : Z }.

Definition set_inst p f := Ps f (blocked p) (pend p) (ctx p) (shm p) (id_ p) (quit p) (reap p) (reload p) (tab p) (errno_ p).
Definition set_blocked p b := Ps (inst p) b (pend p) (ctx p) (shm p) (id_ p) (quit p) (reap p) (reload p) (tab p) (errno_ p).
Definition set_pend p f := Ps (inst p) (blocked p) f (ctx p) (shm p) (id_ p) (quit p) (reap p) (reload p) (tab p) (errno_ p).
Definition set_ctx p b := Ps (inst p) (blocked p) (pend p) b (shm p) (id_ p) (quit p) (reap p) (reload p) (tab p) (errno_ p).
Definition set_shm p b := Ps (inst p) (blocked p) (pend p) (ctx p) b (id_ p) (quit p) (reap p) (reload p) (tab p) (errno_ p).
Definition set_id p i := Ps (inst p) (blocked p) (pend p) (ctx p) (shm p) i (quit p) (reap p) (reload p) (tab p) (errno_ p).
Definition set_quit p b := Ps (inst p) (blocked p) (pend p) (ctx p) (shm p) (id_ p) b (reap p) (reload p) (tab p) (errno_ p).
Definition set_reap p b := Ps (inst p) (blocked p) (pend p) (ctx p) (shm p) (id_ p) (quit p) b (reload p) (tab p) (errno_ p).
Definition set_reload p b := Ps (inst p) (blocked p) (pend p) (ctx p) (shm p) (id_ p) (quit p) (reap p) b (tab p) (errno_ p).
Definition set_tab p t := Ps (inst p) (blocked p) (pend p) (ctx p) (shm p) (id_ p) (quit p) (reap p) (reload p) t (errno_ p).
Definition set_errno p e := Ps (inst p) (blocked p) (pend p) (ctx p) (shm p) (id_ p) (quit p) (reap p) (reload p) (tab p) e.

(** following a pointer *)
Definition deref (b : blk) : res unit :=
  match b with BLive => Ok tt | BNone => Fault FNull | BGone => Fault FUaf end.

(** process.c:169-174: the first slot with that pid is marked *)
Fixpoint mark (t : list (Z * bool)) (pid : Z) : list (Z * bool) :=
  match t with
  | [] => []
  | (q, e) :: r => if q =? pid then (q, true) :: r else (q, e) :: mark r pid
  end.
(** process.c:157-177 [proc_waitpid]: [dead] are the pids that waitpid hands out, one by
    one; the table is looked at if there is a worker at all. The last call leaves a value
    of its own in errno (the argument [e] of [handler]). *)
Fixpoint waitpids (p : ps) (dead : list Z) : res ps :=
  match dead with
  | [] => Ok p
  | d :: r =>
      match tab p with
      | [] => waitpids p r
      | _ => let* _ := deref (shm p) in waitpids (set_tab p (mark (tab p) d)) r
      end
  end.

(** process.c:179-197 [proc_signal_cb] *)
Definition handler (p : ps) (s : sg) (dead : list Z) (e : Z) : res ps :=
  let err_cc := errno_ p in
  let* _ := deref (ctx p) in
  let* p' :=
    (if id_ p =? MASTER then
       match s with
       | SInt => Ok (set_quit p true)
       | SChld => let* q := waitpids (set_reap p true) dead in Ok (set_errno q e)
       | SHup => Ok (set_reload p true)
       | _ => Ok p
       end
     else match s with SInt => Ok (set_quit p true) | _ => Ok p end) in
  Ok (set_errno p' err_cc).

(** process.c:87-91: SIGHUP and SIGPIPE are not in the set *)
Definition in_set (s : sg) : bool := match s with SHup | SPipe => false | _ => true end.

(** statements *)
Inductive op :=
| OQuiet                       (* a statement that touches nothing of this *)
| OInstall (s : sg)            (* process.c:216 sigaction *)
| OCtx                         (* process.c:225 the context is allocated, zeroed *)
| OMaster                      (* process.c:227 *)
| OShm (n : nat)               (* process.c:228-231 the table for n workers; zeroed *)
| OBlock                       (* process.c:87-92 *)
| OFork (i : nat) (pid : Z)    (* process.c:98, 76, 140: worker i was started; parent *)
| OChild (i : nat)             (* process.c:73: the child of that fork *)
| OUnblock                     (* process.c:52-53 *)
| OFlags                       (* the flags are read or reset through the context:
                                  process.c:57-58, 114-153 *)
| OSuspend                     (* process.c:112 sigsuspend: see [step] *)
| OShmFree                     (* process.c:241 *)
| OCtxFree.                    (* process.c:244; [g_proc_ctx] keeps its value *)

Fixpoint upd_tab (t : list (Z * bool)) (i : nat) (x : Z * bool) : list (Z * bool) :=
  match t, i with
  | [], _ => []
  | _ :: r, O => x :: r
  | y :: r, S j => y :: upd_tab r j x
  end.

Definition do_op (p : ps) (o : op) : res ps :=
  match o with
  | OQuiet => Ok p
  | OInstall s => Ok (set_inst p (fun x => sg_eqb s x || inst p x))
  | OCtx => Ok (Ps (inst p) (blocked p) (pend p) BLive BNone 0 false false false [] (errno_ p))
  | OMaster => let* _ := deref (ctx p) in Ok (set_id p MASTER)
  | OShm n => let* _ := deref (ctx p) in Ok (set_tab (set_shm p BLive) (repeat (0, false) n))
  | OBlock => Ok (set_blocked p true)
  | OFork i pid => let* _ := deref (ctx p) in let* _ := deref (shm p) in
                   Ok (set_tab p (upd_tab (tab p) i (pid, false)))
  | OChild i => let* _ := deref (ctx p) in Ok (set_pend (set_id p (Z.of_nat i)) (fun _ => false))
  | OUnblock => Ok (set_blocked p false)
  | OFlags => let* _ := deref (ctx p) in let* _ := deref (shm p) in Ok p
  | OSuspend => Ok p
  | OShmFree => let* _ := deref (ctx p) in let* _ := deref (shm p) in Ok (set_shm p BGone)
  | OCtxFree => let* _ := deref (ctx p) in Ok (set_ctx p BGone)
  end.

(** what may happen next *)
Inductive act :=
| Do                                   (* the next statement is executed *)
| Sig (s : sg) (dead : list Z) (e : Z) (* a signal arrives; [dead]: see [waitpids] *)
| Dlv (s : sg) (dead : list Z) (e : Z)  (* in sigsuspend: a pending signal is delivered *).

(** a process: its memory and the statements to come; or killed by a signal for which no
    handler was installed *)
Inductive proc := Run (p : ps) (todo : list op) | Killed | Ended.

(** one action; [Ok None]: it cannot happen now.
    A signal without a handler ends the process, except SIGCHLD. A blocked signal stays
    pending. In sigsuspend nothing is blocked; it returns when a handler has run. *)
Definition step (x : proc) (a : act) : res (option proc) :=
  match x with
  | Killed | Ended => Ok None
  | Run p todo =>
      match a, todo with
      | Do, [] => Ok (Some Ended)
      | Do, OSuspend :: _ => Ok None
      | Do, o :: r => let* p' := do_op p o in Ok (Some (Run p' r))
      | Sig s dead e, _ =>
          if negb (inst p s) then
            match s with SChld => Ok (Some x) | _ => Ok (Some Killed) end
          else match todo with
               | OSuspend :: r => let* p' := handler p s dead e in Ok (Some (Run p' r))
               | _ => if blocked p && in_set s
                      then Ok (Some (Run (set_pend p (fun y => sg_eqb s y || pend p y)) todo))
                      else let* p' := handler p s dead e in Ok (Some (Run p' todo))
               end
      | Dlv s dead e, OSuspend :: r =>
          if pend p s
          then let* p' := handler (set_pend p (fun y => negb (sg_eqb s y) && pend p y)) s dead e in
               Ok (Some (Run p' r))
          else Ok None
      | Dlv _ _ _, _ => Ok None
      end
  end.
Fixpoint exec (x : proc) (t : list act) : res (option proc) :=
  match t with
  | [] => Ok (Some x)
  | a :: r => let* y := step x a in
              match y with Some x' => exec x' r | None => Ok None end
  end.

(** main.c:99-122, modules.c:31-37, process.c:199-236: up to the end of the start-up with
    [n] workers configured; the first statement stands for everything before
    [process_init], the last one for [listen_init]. The table is made even for n = 0. *)
Definition boot (n : nat) : list op :=
  [OQuiet] ++ map OInstall all_sg ++ [OCtx; OMaster; OShm n; OQuiet].
(** main.c:125-128, modules.c:39-45: [log_end], [process_end], [listen_end] and the rest *)
Definition finish : list op := [OQuiet; OShmFree; OCtxFree; OQuiet].

(** process.c:81-155: block, start the workers, then any number of rounds *)
Definition forks (pids : list Z) : list op :=
  map (fun x => OFork (fst x) (snd x)) (combine (seq 0 (length pids)) pids).
(** one round of the loop: the flags, and the workers started again in it *)
Definition round (again : list (nat * Z)) : list op :=
  [OSuspend; OFlags] ++ map (fun x => OFork (fst x) (snd x)) again ++ [OFlags].
Definition master_prog (pids : list Z) (rounds : list (list (nat * Z))) : list op :=
  boot (length pids) ++ [OBlock] ++ forks pids ++ concat (map round rounds) ++ finish.
(** process.c:67-79, 49-65: the same process image up to a fork of worker [i] ([pre]: the
    statements of the master before it), then the worker's loop, in which the flag is
    looked at [k] times *)
Definition worker_prog (pre : list op) (i k : nat) : list op :=
  pre ++ [OChild i; OUnblock] ++ repeat OFlags k ++ finish.
(** main.c:124 with no workers configured: the process works itself *)
Definition single_prog (k : nat) : list op :=
  boot 0 ++ [OUnblock] ++ repeat OFlags k ++ finish.

(** a process as exec() leaves it, errno 0 *)
Definition ps0 : ps :=
  Ps (fun _ => false) false (fun _ => false) BNone BNone 0 false false false [] 0.
