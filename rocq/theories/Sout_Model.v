(** Model of what the program prints about its start and how it gets to standard
    output: src/main.c:97-127, 5-28; src/common/config.c:109-143;
    src/common/macro.h:63; src/common/log.c:31-36, 58-84; src/common/process.c:49-155.
    printf keeps bytes in a buffer of the process; a fork copies the buffer; a process
    that returns from main writes it out, one that is killed does not. No proofs here.

    Trusted: this behaviour of the C library. How much it keeps is an oracle. *)
From Coq Require Import String.
From Verif Require Import Base Str_Spec.
Open Scope Z_scope.

(** [Say]: printf; [Rec]: a log record, written at once (log.c:31-36) *)
Inductive op := Say (s : list Z) | Rec (r : list Z).

(** macro.h:63: the text in front of everything that is printed *)
Definition tip (at_ : string) (s : list Z) : op := Say (str "[Ahead tips]-" ++ str at_ ++ str " " ++ s).

(** the text up to the first NUL, which is what %s prints *)
Fixpoint upto0 (s : list Z) : list Z :=
  match s with [] => [] | b :: r => if b =? 0 then [] else b :: upto0 r end.

(** main.c:99-102: [ts] is the time of the build *)
Definition welcome (ts : list Z) : list op :=
  [ tip "main:99" (str "Welcome to <S5>, buildts <" ++ ts ++ str ">" ++ [10]);
    tip "main:100" (str " /\_/\" ++ [10]);
    tip "main:101" (str "( o.o )" ++ [10]);
    tip "main:102" (str " > ^ <" ++ [10]) ].

(** config.c:121-138: [f] is what was read of the configuration file, [None] if there
    is none or it cannot be opened; [rs] are the records that follow (a text that is
    refused, config.c:98, 137; the rest of the start) *)
Definition conf_ops (f : option (list Z)) (rs : list (list Z)) : list op :=
  match f with
  | None => []
  | Some b => [ tip "config_init:135" (str "config string:" ++ [10]);
                tip "config_init:136" (upto0 b) ]
  end ++ map Rec rs.
(** main.c:99-119 *)
Definition start_ops (ts : list Z) (f : option (list Z)) (rs : list (list Z)) : list op :=
  welcome ts ++ conf_ops f rs.

(** what the C library keeps of the bytes in the buffer after a printf *)
Definition put (keep : list Z -> Z) (st : list Z * list Z) (o : op) : list Z * list Z :=
  let '(out, pend) := st in
  match o with
  | Rec r => (out ++ r, pend)
  | Say s =>
      let t := pend ++ s in
      let n := zlen t - Z.max 0 (Z.min (keep t) (zlen t)) in
      (out ++ ztake n t, zdrop n t)
  end.

(** a process: its buffer, whether its standard output is /dev/null (main.c:16-19),
    whether it has ended *)
Record proc := mkProc { p_pend : list Z; p_null : bool; p_gone : bool }.
(** the bytes that reached standard output, and the processes, first the master *)
Record world := mkWorld { w_out : list Z; w_procs : list proc }.

(** the start up to main.c:120: with sys_daemon the first process forks and ends
    (10-25) and the child goes on; the records of [proc_daemon] itself are left out *)
Definition start (keep : list Z -> Z) (daemon : bool) (ops : list op) : world :=
  let '(out, pend) := fold_left (put keep) ops ([], []) in
  if daemon then mkWorld (out ++ pend) [mkProc pend true false]
  else mkWorld out [mkProc pend false false].

(** what happens afterwards: a record, a fork (process.c:68), an end through main's
    return (main.c:127; a worker too, process.c:102-103, 137-138), an end by a signal or
    a crash. The processes are numbered in the order of the forks. *)
Inductive event := ERec (i : nat) (r : list Z) | EFork (i : nat) | EEnd (i : nat) | EKill (i : nat).

Definition written (p : proc) (s : list Z) : list Z := if p_null p then [] else s.
Fixpoint set_proc (l : list proc) (i : nat) (p : proc) : list proc :=
  match l, i with
  | [], _ => []
  | _ :: t, O => p :: t
  | q :: t, S j => q :: set_proc t j p
  end.
Definition end_of (p : proc) : proc := mkProc (p_pend p) (p_null p) true.

Definition wstep (w : world) (e : event) : world :=
  let 'i := match e with ERec i _ | EFork i | EEnd i | EKill i => i end in
  match nth_error (w_procs w) i with
  | None => w
  | Some p =>
      if p_gone p then w
      else match e with
           | ERec _ r => mkWorld (w_out w ++ written p r) (w_procs w)
           | EFork _ => mkWorld (w_out w) (w_procs w ++ [p])
           | EEnd _ => mkWorld (w_out w ++ written p (p_pend p)) (set_proc (w_procs w) i (end_of p))
           | EKill _ => mkWorld (w_out w) (set_proc (w_procs w) i (end_of p))
           end
  end.
Definition wrun (w : world) (es : list event) : world := fold_left wstep es w.
