(** * Model of the descriptors that log records are written to: start-up (src/main.c:5-43,
    118-123, src/common/config.c:109-143), the log files (src/common/log.c:31-56, 86-123) and
    what the processes do afterwards. No proofs here.

    What records look like is in Stop_Model.v and Time_Model.v (C75, C76); here a record is a
    sequence of bytes. Records made before the log files are open go to descriptor 1 only and
    are left out, as is what [printf] keeps in its buffer. *)
From Verif Require Import Base.
Open Scope Z_scope.

(** what a descriptor can stand for: what the program was started with, /dev/null, the
    configuration file, the pid file, another file (by its inode), a socket *)
Inductive obj := OOut (k : Z) | ONull | OConf | OPid | OFile (i : Z) | OConn (k : Z).

(** the descriptors of a process, from 0 on *)
Definition tab := list (option obj).
(** open, accept, socket: POSIX gives the lowest number that is free *)
Fixpoint fopen (t : tab) (o : obj) : tab * Z :=
  match t with
  | [] => ([Some o], 0)
  | None :: t => (Some o :: t, 0)
  | Some x :: t => let q := fopen t o in (Some x :: fst q, 1 + snd q)
  end.
Fixpoint slot (t : tab) (n : nat) : option obj :=
  match t, n with
  | [], _ => None
  | x :: _, O => x
  | _ :: t, S n => slot t n
  end.
Definition fget (t : tab) (n : Z) : option obj := if n <? 0 then None else slot t (Z.to_nat n).
Fixpoint put (t : tab) (n : nat) (x : option obj) : tab :=
  match n, t with
  | O, [] => [x]
  | O, _ :: t => x :: t
  | S n, [] => None :: put [] n x
  | S n, y :: t => y :: put t n x
  end.
Definition fput (t : tab) (n : Z) (x : option obj) : tab := if n <? 0 then t else put t (Z.to_nat n) x.
(** close; closing a number that is not open changes nothing *)
Definition fclose (t : tab) (n : Z) : tab := match fget t n with Some _ => fput t n None | None => t end.
(** dup2, the first number being open *)
Definition dup2 (t : tab) (a b : Z) : tab := fput t b (fget t a).

(** ** Start
    config.c:122-141: [stat] fails, [open] fails, or the file is read; [d]: what it says about
    sys_daemon. A descriptor 0 is taken for a failure and stays open. *)
Inductive conf := CStat | COpen | CRead (d : bool).
Definition read_conf (t : tab) (c : conf) : tab * bool :=
  match c with
  | CStat | COpen => (t, false)
  | CRead d => let q := fopen t OConf in if snd q =? 0 then (fst q, false) else (fclose (fst q) (snd q), d)
  end.
(** main.c:5-28, in the child; the calls work *)
Definition daemon (t : tab) (d : bool) : tab :=
  if d then
    let q := fopen t ONull in
    fclose (dup2 (dup2 (fst q) (snd q) 0) (snd q) 1) (snd q)
  else t.
(** main.c:30-43 *)
Definition pid_file (t : tab) : tab := let q := fopen t OPid in fclose (fst q) (snd q).
(** log.c:86-98: the inodes of the two files; [None]: the program ends *)
Definition log_init (t : tab) (im ia : Z) : option (tab * (Z * Z)) :=
  let q := fopen t (OFile im) in
  if 0 <? snd q then
    let r := fopen (fst q) (OFile ia) in
    if 0 <? snd r then Some (fst r, (snd q, snd r)) else None
  else None.
(** main.c:118-121; a call of the system that fails (other than those of [conf]) ends the program *)
Definition start (t : tab) (c : conf) (im ia : Z) : option (tab * (Z * Z)) :=
  let q := read_conf t c in log_init (pid_file (daemon (fst q) (snd q))) im ia.

(** ** Afterwards
    A process: its descriptors, [log_ctx], and the numbers it ever got for sockets and files *)
Record proc := Pr { p_tab : tab; p_log : option (Z * Z); p_own : list Z }.
(** which inodes the names of the log files stand for *)
Record names := Nm { n_main : option Z; n_access : option Z }.
Record sys := Sy { s_procs : list proc; s_names : names }.
Inductive step :=
  | LFork (p : Z)                                    (* process.c:66-79, workers of a reload too *)
  | LOpen (p : Z) (o : obj)                          (* a socket, a file to serve, an epoll descriptor *)
  | LClose (p : Z) (n : Z)                           (* also once too often, C92 *)
  | LRec (p : Z) (access : bool) (text : list Z) (w1 w2 : option Z)  (* log.c:58-84; what the writes return *)
  | LEnd (p : Z)                                     (* log.c:112-123 *)
  | LMove (access : bool) (i : option Z).            (* somebody moves the log file away and may put another one there *)
(** one [write]; at most the text is written *)
Definition wr (t : tab) (n : Z) (text : list Z) (w : option Z) : list (obj * list Z) :=
  match fget t n, w with
  | Some o, Some k => [(o, ztake k text)]
  | _, _ => []
  end.
(** log.c:31-56, 76-81 *)
Definition record (p : proc) (access : bool) (text : list Z) (w1 w2 : option Z) : list (obj * list Z) :=
  wr (p_tab p) 1 text w1 ++
  match p_log p with
  | Some (m, a) => let n := if access then a else m in if 0 <? n then wr (p_tab p) n text w2 else []
  | None => []
  end.
(** log.c:112-123 *)
Definition log_end (p : proc) : proc :=
  match p_log p with
  | Some (m, a) =>
      let t := if m =? 0 then p_tab p else fclose (p_tab p) m in
      Pr (if a =? 0 then t else fclose t a) None (p_own p)
  | None => p
  end.
Definition upd (s : sys) (n : Z) (p : proc) : sys :=
  Sy (firstn (Z.to_nat n) (s_procs s) ++ p :: skipn (S (Z.to_nat n)) (s_procs s)) (s_names s).
Definition lstep (s : sys) (x : step) : option (sys * list (obj * list Z)) :=
  match x with
  | LFork p => match zget (s_procs s) p with
               | Some q => Some (Sy (s_procs s ++ [q]) (s_names s), [])
               | None => None
               end
  | LOpen p o => match zget (s_procs s) p with
               | Some q => let r := fopen (p_tab q) o in Some (upd s p (Pr (fst r) (p_log q) (snd r :: p_own q)), [])
               | None => None
               end
  | LClose p n => match zget (s_procs s) p with
               | Some q => Some (upd s p (Pr (fclose (p_tab q) n) (p_log q) (p_own q)), [])
               | None => None
               end
  | LRec p acc text w1 w2 => match zget (s_procs s) p with
               | Some q => Some (s, record q acc text w1 w2)
               | None => None
               end
  | LEnd p => match zget (s_procs s) p with
               | Some q => Some (upd s p (log_end q), [])
               | None => None
               end
  | LMove acc i => Some (Sy (s_procs s) (if acc then Nm (n_main (s_names s)) i else Nm i (n_access (s_names s))), [])
  end.
Fixpoint lrun (s : sys) (l : list step) : option (sys * list (obj * list Z)) :=
  match l with
  | [] => Some (s, [])
  | x :: l => match lstep s x with
              | Some q => match lrun (fst q) l with Some r => Some (fst r, snd q ++ snd r) | None => None end
              | None => None
              end
  end.
(** the first process, when the log files are open *)
Definition boot (q : tab * (Z * Z)) (im ia : Z) : sys := Sy [Pr (fst q) (Some (snd q)) []] (Nm (Some im) (Some ia)).
(** what a process may do: close numbers it got, and nothing is opened after [log_end]
    (modules.c:39-45) *)
Definition l_ok (s : sys) (x : step) : Prop :=
  match x with
  | LClose p n => exists q, zget (s_procs s) p = Some q /\ In n (p_own q)
  | LOpen p _ => exists q, zget (s_procs s) p = Some q /\ p_log q <> None
  | _ => True
  end.
Fixpoint l_valid (s : sys) (l : list step) : Prop :=
  match l with
  | [] => True
  | x :: l => l_ok s x /\ forall q, lstep s x = Some q -> l_valid (fst q) l
  end.
