(** * Model of the master process (src/common/process.c, main.c). No proofs here.

    The master loop is a machine with a program counter; between any two of its
    statements the environment may act (a worker ends, a signal arrives). *)
From Verif Require Import Base.

(** what the kernel knows about the process whose pid a slot records: never
    started, running, dead but not waited for, dead and waited for *)
Inductive kst := KNone | KRun | KZomb | KGone.

(** process.h:11-16 [process_t] ([sequence_num] is the position, [pid] is replaced
    by the state of that process), plus ghost [sent]: SIGINT was sent to the
    process now in the slot *)
Record wk := Wk { wst : kst; exited : bool; sent : bool }.

(** program counter of [proc_master_run], process.c:81-155 *)
Inductive pc :=
| PFork (i : nat)    (* 97: about to fork worker i at start-up *)
| PSusp              (* 112: inside sigsuspend *)
| PWake              (* 116: sigsuspend returned *)
| PQuit (i : nat)    (* 117, 38-47: about to signal worker i because of the stop *)
| PAlive             (* 118-125: count workers that have not exited *)
| PReapT             (* 128 *)
| PReap (i : nat)    (* 129: about to look at worker i *)
| PHupT              (* 148 *)
| PHup (i : nat)     (* 151, 38-47: about to signal worker i because of a reload *)
| PLoop              (* end of the loop body, before the next sigsuspend *)
| PEnd.              (* proc_master_run has returned *)

(** process.c:6-15 [process_ctx_t]; [pchld], [pint]: the blocked signals SIGCHLD and
    SIGINT are pending; [pidf]: the pid file exists (main.c:32-43);
    ghost [stray]: a process that is not a worker was sent SIGINT *)
Record ms := Ms {
  ws : list wk; quit : bool; reap : bool; reload : bool;
  pchld : bool; pint : bool; at_ : pc; pidf : bool; stray : bool }.

Definition set_ws s w := Ms w (quit s) (reap s) (reload s) (pchld s) (pint s) (at_ s) (pidf s) (stray s).
Definition set_pc s p := Ms (ws s) (quit s) (reap s) (reload s) (pchld s) (pint s) p (pidf s) (stray s).
Definition set_reap s b := Ms (ws s) (quit s) b (reload s) (pchld s) (pint s) (at_ s) (pidf s) (stray s).
Definition set_reload s b := Ms (ws s) (quit s) (reap s) b (pchld s) (pint s) (at_ s) (pidf s) (stray s).
Definition set_pidf s b := Ms (ws s) (quit s) (reap s) (reload s) (pchld s) (pint s) (at_ s) b (stray s).
Definition set_stray s b := Ms (ws s) (quit s) (reap s) (reload s) (pchld s) (pint s) (at_ s) (pidf s) b.
Definition set_pchld s b := Ms (ws s) (quit s) (reap s) (reload s) b (pint s) (at_ s) (pidf s) (stray s).
Definition set_pint s b := Ms (ws s) (quit s) (reap s) (reload s) (pchld s) b (at_ s) (pidf s) (stray s).
Definition set_quit s b := Ms (ws s) b (reap s) (reload s) (pchld s) (pint s) (at_ s) (pidf s) (stray s).

Fixpoint upd_nth {A} (l : list A) (i : nat) (a : A) : list A :=
  match l, i with
  | [], _ => []
  | _ :: t, O => a :: t
  | x :: t, S i' => x :: upd_nth t i' a
  end.

(** what may happen *)
Inductive act :=
| ACrash (i : nat)            (* worker i dies on its own *)
| AStop (i : nat)             (* worker i stops because of a SIGINT sent to it *)
| AInt                        (* somebody sends SIGINT to the master *)
| AHup                        (* somebody sends SIGHUP to the master *)
| AOther                      (* a signal that sets no flag (SIGPIPE, SIGUSR1, SIGUSR2) *)
| ADeliver (chld int : bool)  (* the kernel delivers pending signals in sigsuspend *)
| AGo (fork reused : bool).   (* the master executes its next statement; [fork] is
                                 the outcome of a fork, [reused] says that the pid of
                                 a dead worker already belongs to a stranger *)

(** process.c:157-177 [proc_waitpid]: every zombie is waited for and its slot marked *)
Definition wait_all (w : list wk) : list wk :=
  map (fun x => match wst x with KZomb => Wk KGone true (sent x) | _ => x end) w.

(** process.c:33-36, 41: kill() fails exactly if no process has that pid *)
Definition kill_at (s : ms) (i : nat) (reused : bool) (next : pc) (fail : pc) : option ms :=
  match nth_error (ws s) i with
  | None => None
  | Some x =>
      match wst x with
      | KRun | KZomb => Some (set_pc (set_ws s (upd_nth (ws s) i (Wk (wst x) (exited x) true))) next)
      | KGone | KNone => if reused then Some (set_pc (set_stray s true) next)
                         else Some (set_pc s fail)
      end
  end.

(** one action; [None] if it cannot happen in this state.
    process.c:57-60, 137-138, main.c:124-126: a worker that is told to stop leaves
    [proc_master_run] in the child and runs the end of [main], which unlinks the
    pid file (AStop). process.c:87-92: SIGCHLD and SIGINT are blocked outside
    sigsuspend, SIGHUP is not: its handler runs at once. *)
Definition step (s : ms) (a : act) : option ms :=
  match a with
  | ACrash i =>
      match nth_error (ws s) i with
      | Some (Wk KRun e g) => Some (set_pchld (set_ws s (upd_nth (ws s) i (Wk KZomb e g))) true)
      | _ => None
      end
  | AStop i =>
      match nth_error (ws s) i with
      | Some (Wk KRun e true) =>
          Some (set_pidf (set_pchld (set_ws s (upd_nth (ws s) i (Wk KZomb e true))) true) false)
      | _ => None
      end
  | AInt => Some (set_pint s true)
  | AHup => Some (match at_ s with
                  | PSusp => set_pc (set_reload s true) PWake
                  | _ => set_reload s true
                  end)
  | AOther => match at_ s with PSusp => Some (set_pc s PWake) | _ => Some s end
  | ADeliver c k =>
      match at_ s with
      | PSusp =>
          if (implb c (pchld s)) && (implb k (pint s)) && (c || k) then
            let s1 := if c then set_reap (set_pchld (set_ws s (wait_all (ws s))) false) true else s in
            let s2 := if k then set_quit (set_pint s1 false) true else s1 in
            Some (set_pc s2 PWake)
          else None
      | _ => None
      end
  | AGo ok reused =>
      match at_ s with
      | PFork i =>
          if Nat.ltb i (length (ws s)) then
            if ok then Some (set_pc (set_ws s (upd_nth (ws s) i (Wk KRun false false))) (PFork (S i)))
            else Some (set_pc s PEnd)
          else Some (set_pc s PSusp)
      | PSusp => None
      | PWake => Some (set_pc s (if quit s then PQuit 0 else PReapT))
      | PQuit i =>
          if Nat.ltb i (length (ws s)) then kill_at s i reused (PQuit (S i)) PAlive
          else Some (set_pc s PAlive)
      | PAlive =>
          if forallb exited (ws s) then Some (set_pc s PEnd) else Some (set_pc s PReapT)
      | PReapT => Some (set_pc s (if reap s then PReap 0 else PHupT))
      | PReap i =>
          match nth_error (ws s) i with
          | Some x =>
              if exited x && negb (quit s) then
                if ok then Some (set_pc (set_ws s (upd_nth (ws s) i (Wk KRun false false))) (PReap (S i)))
                else Some (set_pc s (PReap (S i)))
              else Some (set_pc s (PReap (S i)))
          | None => Some (set_pc (set_reap s false) PHupT)
          end
      | PHupT => Some (set_pc s (if reload s then PHup 0 else PLoop))
      | PHup i =>
          if Nat.ltb i (length (ws s)) then
            match kill_at s i reused (PHup (S i)) PLoop with
            | Some s' => Some (match at_ s' with PLoop => set_reload s' false | _ => s' end)
            | None => None
            end
          else Some (set_pc (set_reload s false) PLoop)
      | PLoop => Some (set_pc s PSusp)
      | PEnd => None
      end
  end.

Fixpoint run (s : ms) (t : list act) : option ms :=
  match t with
  | [] => Some s
  | a :: r => match step s a with Some s' => run s' r | None => None end
  end.

(** process.c:221-236, main.c:121-124: [n] workers configured, none started *)
Definition start (n : nat) : ms :=
  Ms (repeat (Wk KNone false false) n) false false false false false (PFork 0) true false.

(** main.c:49-87, process.c:24-31 [option_parse]: the commands -stop and -reload
    read the pid file and send SIGINT or SIGHUP; nothing happens without the file *)
Definition command (s : ms) (stop : bool) : option ms :=
  if pidf s then step s (if stop then AInt else AHup) else Some s.
