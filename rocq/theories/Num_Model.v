(** * Model of starting and ending workers when all processes are looked at
    (src/common/process.c, src/common/shm.c). No proofs here.

    Proc_Model.v has the one loop of the master; here every process runs the code, because
    a child that comes back from [proc_worker_run] is inside the master's loops and leaves them
    only because of the number in [process_id]. *)
From Verif Require Import Base.
Open Scope Z_scope.

(** ** The shared table *)
Definition ROW : Z := 12.               (* process.h:11-16: three 4-byte fields *)
Definition PAGE : Z := 4096.
Definition two31 : Z := 2147483648.
Definition two32 : Z := 4294967296.

(** process.c:228-229: [shm.size] is a uint32 (shm.h:11) *)
Definition table_size (num : Z) : Z := (ROW * num + 4) mod two32.
(** shm.c:4-13 [sys_shm_alloc]: the size is passed as an int, so from 2^31 on mmap is asked for
    nearly 2^64 bytes and fails; [ok]: mmap has the memory. The result is what is really mapped:
    whole pages. *)
Definition shm_alloc (size : Z) (ok : bool) : option Z :=
  if (size <? two31) && ok then Some ((size + (PAGE - 1)) / PAGE * PAGE) else None.
(** process.c:233-234: [sequence_num] of every row is written; [k] rows are left *)
Fixpoint number_rows (mapped i : Z) (k : nat) : res unit :=
  match k with
  | O => Ok tt
  | S k => if ROW * i + 4 <=? mapped then number_rows mapped (i + 1) k else Fault FOob
  end.
(** process.c:221-236 [process_init]: 0 or -1. Its first lines (signals, the context) are Sig_Model.v. *)
Definition process_init (num : Z) (ok : bool) : res Z :=
  match shm_alloc (table_size num) ok with
  | None => Ok (-1)
  | Some mapped => let* _ := number_rows mapped 0 (Z.to_nat num) in Ok 0
  end.

(** ** The processes *)
Definition MASTER : Z := 255.           (* process.c:4 *)

(** a row of the shared table: [sequence_num] is the index *)
Record row := Row { pid_ : Z; exited_ : bool }.

(** where a process is in [proc_master_run] (process.c:81-155) *)
Inductive pos :=
| Fork (j : Z)       (* 97: the loop that starts the workers *)
| Susp               (* 112: sigsuspend *)
| Wake               (* 116 *)
| Reap (j : Z)       (* 129: row j is next *)
| Clear (j : Z)      (* 137-141: back from proc_fork for row j *)
.
(** [Work c]: in [proc_worker_run], called by [proc_fork] at [c]; [End_]: the process has ended *)
Inductive ph := Work (c : pos) | At (c : pos) | End_.

(** [block_]: SIGINT and SIGCHLD are blocked outside sigsuspend (process.c:87-95; a worker
    unblocks them for good, lines 52-53) *)
Record proc := Proc { id_ : Z; par_ : Z; block_ : bool; quit_ : bool; reap_ : bool; ph_ : ph }.
Definition set_ph p h := Proc (id_ p) (par_ p) (block_ p) (quit_ p) (reap_ p) h.
Definition set_flags p q r := Proc (id_ p) (par_ p) (block_ p) q r (ph_ p).

(** the machine: the shared table, and the processes by their pid (those that have ended stay
    until their parent has waited for them) *)
Record st := St { tab : Z -> row; procs : Z -> option proc }.
Definition put {A} (f : Z -> A) (i : Z) (a : A) : Z -> A := fun j => if j =? i then a else f j.

Definition upto (n : Z) : list Z := map Z.of_nat (seq 0 (Z.to_nat n)).

(** process.c:157-177 [proc_waitpid] in process [p]: every child that has ended is waited for and
    the first row with its pid is marked *)
Definition zombie (s : st) (p q : Z) : bool :=
  match procs s q with Some x => (par_ x =? p) && match ph_ x with End_ => true | _ => false end | None => false end.
Definition wait_all (n : Z) (s : st) (p : Z) : st :=
  St (fun i => let r := tab s i in
        if (0 <=? i) && (i <? n) && zombie s p (pid_ r) && negb (existsb (fun j => pid_ (tab s j) =? pid_ r) (upto i))
        then Row (pid_ r) true else r)
     (fun q => if zombie s p q then None else procs s q).

Inductive sig := SInt | SChld | SHup.
Inductive act :=
| ASig (p : Z) (s : sig)              (* process [p] handles a signal *)
| AGo (p : Z) (fork : option Z)       (* process [p] goes on; [fork] is the pid a fork gives *)
| AKill (p : Z).                      (* process [p] ends for some other reason *)

(** process.c:179-200 [proc_signal_cb]. SIGHUP only makes the master signal its workers
    (process.c:148-152), and who sends a signal does not matter here. A handler ends sigsuspend. *)
Definition handle (n : Z) (s : st) (p : Z) (x : proc) (g : sig) : st :=
  let x' := set_ph x (match ph_ x with At Susp => At Wake | h => h end) in
  match g with
  | SInt => St (tab s) (put (procs s) p (Some (set_flags x' true (reap_ x))))
  | SChld =>
      if id_ x =? MASTER
      then wait_all n (St (tab s) (put (procs s) p (Some (set_flags x' (quit_ x) true)))) p
      else St (tab s) (put (procs s) p (Some x'))
  | SHup => St (tab s) (put (procs s) p (Some x'))
  end.

(** process.c:67-79 [proc_fork] for row [j], called at [c]: the child has the number of the row *)
Definition fork (s : st) (p : Z) (x : proc) (j : Z) (c : pos) (new : Z) : st :=
  St (put (tab s) j (Row new (exited_ (tab s j))))
     (put (put (procs s) p (Some (set_ph x (At c)))) new
        (Some (Proc j p false (quit_ x) (reap_ x) (Work c)))).

Definition all_exited (n : Z) (s : st) : bool := forallb (fun i => exited_ (tab s i)) (upto n).

(** process [p] takes its next step. [Work]: process.c:57-60, 65, then 103-104 and 137-138: a process
    whose number is not [MASTER] leaves [proc_master_run] and ends. [Fork]: 97-106; a failed fork
    ends the process. [Wake]: 116-128. *)
Definition go (n : Z) (s : st) (p : Z) (x : proc) (f : option Z) : st :=
  let at_ h := St (tab s) (put (procs s) p (Some (set_ph x h))) in
  match ph_ x with
  | End_ => s
  | Work c =>
      if quit_ x then
        St (tab s) (put (procs s) p (Some (set_ph (set_flags x false (reap_ x)) (if id_ x =? MASTER then At c else End_))))
      else s
  | At (Fork j) =>
      if j <? n then match f with Some q => fork s p x j (Fork (j + 1)) q | None => at_ End_ end else at_ (At Susp)
  | At Susp => s
  | At Wake =>
      if quit_ x && all_exited n s then at_ End_
      else if reap_ x then at_ (At (Reap 0)) else at_ (At Susp)
  | At (Reap j) =>
      if j <? n then
        if exited_ (tab s j) && negb (quit_ x)
        then match f with Some q => fork s p x j (Clear j) q | None => at_ (At (Reap (j + 1))) end
        else at_ (At (Reap (j + 1)))
      else St (tab s) (put (procs s) p (Some (set_ph (set_flags x (quit_ x) false) (At Susp))))
  | At (Clear j) =>
      St (put (tab s) j (Row (pid_ (tab s j)) false)) (put (procs s) p (Some (set_ph x (At (Reap (j + 1))))))
  end.

(** whether [x] can handle a signal now *)
Definition open_to (x : proc) (g : sig) : bool :=
  match ph_ x, g with
  | End_, _ => false
  | At Susp, _ | _, SHup => true
  | _, _ => negb (block_ x)
  end.

(** one action; [None]: impossible. A new pid is nobody's and positive. *)
Definition step (n : Z) (s : st) (a : act) : option st :=
  match a with
  | ASig p g => match procs s p with
                | Some x => if open_to x g then Some (handle n s p x g) else None
                | None => None end
  | AGo p f => match procs s p with
               | Some x =>
                   match f with
                   | Some q => match procs s q with None => if 0 <? q then Some (go n s p x f) else None | Some _ => None end
                   | None => Some (go n s p x f)
                   end
               | None => None end
  | AKill p => match procs s p with
               | Some x => match ph_ x with End_ => None | _ => Some (St (tab s) (put (procs s) p (Some (set_ph x End_)))) end
               | None => None end
  end.
Fixpoint run (n : Z) (s : st) (l : list act) : option st :=
  match l with [] => Some s | a :: r => match step n s a with Some s => run n s r | None => None end end.

(** process.c:230-236, 81-96: the master, whose pid is [m], before the first fork *)
Definition first (m : Z) : st :=
  St (fun _ => Row 0 false) (fun p => if p =? m then Some (Proc MASTER 0 true false false (At (Fork 0))) else None).
