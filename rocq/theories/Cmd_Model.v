(** * Model of the command line, the pid file and the start of the program
    (src/main.c:5-128, src/common/process.c:24-36). No proofs here. The life of one
    instance after its start is Proc_Model.v and Sig_Model.v. *)
From Verif Require Import Base S5_Model Http_Model Web_Model.
Open Scope Z_scope.

(** main.c:68, 70: the two commands *)
Definition lit_reload : list Z := [45;114;101;108;111;97;100].
Definition lit_stop : list Z := [45;115;116;111;112].

(** whom kill(pid, sig) reaches: one process, the caller's process group, every process
    the caller may signal, another process group (kill(2)) *)
Inductive target := One (p : Z) | OwnGroup | Everyone | Group (g : Z).
Definition kill_target (pid : Z) : target :=
  if 0 <? pid then One pid
  else if pid =? 0 then OwnGroup
  else if pid =? -1 then Everyone
  else Group (- pid).

(** process.c:24-31 [proc_pid_form_file]. [fd] is the descriptor a successful open returns,
    [file] the content of the file, [None] if it cannot be opened. The read of a regular
    file delivers all there is up to 32 bytes; [None] is the return value -1. *)
Definition pid_from_file (fd : Z) (file : option (list Z)) : res (option Z) :=
  match file with
  | None => Ok None
  | Some b =>
      if fd <=? 0 then Ok None
      else let got := ztake 32 b in
           if zlen got <? 1 then Ok None
           else let* buf := of_opt FOob (zput (zrepeat 0 32) 0 got) in
                let* v := strtol buf 0 in Ok (Some (to_int v))
  end.

(** what becomes of a call of the program: it starts up, or it is a command, which has
    sent these signals and ends with this exit status *)
Inductive call := StartUp | Command (sent : list (target * Z)) (status : Z).

(** main.c:68, 70: equal length and equal bytes up to that length *)
Definition is_opt (lit o : list Z) : bool :=
  (zlen lit =? zlen o) && bseq (ztake (zlen lit) lit) (ztake (zlen lit) o).

(** main.c:45-87 [option_parse]; [args] are the arguments behind the name of the program;
    the command's number is used as the signal's number (main.c:69, 71, 80: 1 is SIGHUP,
    2 is SIGINT); main.c:85: whatever happens, the exit status is 0.
    Simplification: a kill that fails (no such process) is sent all the same, it reaches
    nobody; the program only prints a message. *)
Definition option_parse (fd : Z) (file : option (list Z)) (args : list (list Z)) : res call :=
  match args with
  | [] => Ok StartUp
  | [o] =>
      let ty := if is_opt lit_reload o then 1 else if is_opt lit_stop o then 2 else -1 in
      if ty =? -1 then Ok (Command [] 0)
      else let* p := pid_from_file fd file in
           match p with
           | None => Ok (Command [] 0)
           | Some pid => Ok (Command [(kill_target pid, ty)] 0)
           end
  | _ => Ok (Command [] 0)
  end.

(** ** Start: main.c:5-28, 119-127 *)
(** what the start-up of one instance meets: is the program to become a daemon (and does
    fork, setsid, open and the two dup2 work), is the configuration read, can the pid file
    be opened, how many bytes of the pid are written, do the core modules initialise *)
Record env := Env { daemon : bool; fork_ok : bool; detach_ok : bool; conf_ok : bool;
                    open_ok : bool; written : Z; core_ok : bool }.
Definition good_env (d : bool) (p : Z) : env := Env d true true true true (zlen (fmt_d p)) true.

(** main.c:30-43 [proc_pid_create]: the file is emptied, the pid written; success, and the
    new content of the file. *)
Definition pid_create (e : env) (p : Z) (file : option (list Z)) : bool * option (list Z) :=
  if open_ok e then
    let t := fmt_d p in
    (written e =? zlen t, Some (ztake (written e) t))
  else (false, file).

(** main.c:119-124 up to the main loop: does the instance run, the content of the pid file,
    the exit status the caller of the program sees ([None]: it waits, the program runs in the
    foreground). main.c:10-11, 24-26: as a daemon, the process that was called ends with
    status 0 as soon as the fork has worked. Status 255 is [return -1]. *)
Definition start (e : env) (p : Z) (file : option (list Z)) : bool * option (list Z) * option Z :=
  let failed f := (false, f, Some (if daemon e && conf_ok e && fork_ok e then 0 else 255)) in
  if negb (conf_ok e) then failed file
  else if daemon e && negb (fork_ok e) then failed file
  else if daemon e && negb (detach_ok e) then failed file
  else let '(ok, f) := pid_create e p file in
       if negb ok then failed f
       else if negb (core_ok e) then failed None        (* main.c:122: unlink *)
       else (true, f, if daemon e then Some 0 else None).

(** ** Several instances with the same directory *)
(** the masters that run, and the pid file *)
Record st := St { running : list Z; pidfile : option (list Z) }.
Definition st0 : st := St [] None.

Inductive ev :=
| EStart (p : Z) (e : env)   (* a start, as process p; listen.c:36-40 (SO_REUSEPORT): the
                                ports may be in use by an instance of the same user *)
| EEnd (p : Z)               (* instance p leaves its main loop: main.c:124-126 *)
| EWorker (p : Z)            (* a worker of p leaves its loop; it returns through
                                proc_master_run to the end of main as well
                                (process.c:102-103, 137-138, main.c:124-126) *)
| ECrash (p : Z).            (* p is killed *)

(** [None]: cannot happen in this state *)
Definition step (s : st) (a : ev) : option st :=
  let isrun p := existsb (Z.eqb p) (running s) in
  match a with
  | EStart p e =>
      if (p <=? 0) || (2 ^ 31 <=? p) || isrun p then None
      else let '(ok, f, _) := start e p (pidfile s) in
           Some (St (if ok then p :: running s else running s) f)
  | EEnd p => if isrun p then Some (St (remove Z.eq_dec p (running s)) None) else None
  | EWorker p => if isrun p then Some (St (running s) None) else None
  | ECrash p => if isrun p then Some (St (remove Z.eq_dec p (running s)) (pidfile s)) else None
  end.
Fixpoint run (s : st) (l : list ev) : option st :=
  match l with
  | [] => Some s
  | a :: r => match step s a with Some s' => run s' r | None => None end
  end.
