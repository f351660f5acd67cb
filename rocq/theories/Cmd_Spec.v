(** * The pid file and the commands: what they should mean. *)
From Verif Require Import Base Http_Spec Cmd_Model.
Open Scope Z_scope.

(** white space of C's isspace *)
Definition space (b : Z) : Prop := b = 32 \/ 9 <= b <= 13.
Definition dig (b : Z) : Prop := 48 <= b <= 57.
Definition sign (s : list Z) (k : Z) : Prop := s = [] /\ k = 1 \/ s = [43] /\ k = 1 \/ s = [45] /\ k = -1.

(** the file holds the number of a process: a numeral between 1 and 2^31-1, white space
    around it allowed *)
Definition holds (f : list Z) (n : Z) : Prop :=
  exists a ds b, f = a ++ ds ++ b /\ Forall space a /\ numeral ds n /\ 0 < n < 2 ^ 31 /\ Forall space b.

(** a buffer whose number never ends *)
Definition endless (l : list Z) : Prop :=
  exists a s k ds, l = a ++ s ++ ds /\ Forall space a /\ sign s k /\ Forall dig ds.
(** the number a buffer begins with (0 if there is none) *)
Definition begins_with (l : list Z) (v : Z) : Prop :=
  exists a s k ds c t, l = a ++ s ++ ds ++ c :: t /\ Forall space a /\ sign s k /\ Forall dig ds /\ ~ dig c /\
    (s = [] -> ds = [] -> ~ space c /\ c <> 43 /\ c <> 45) /\ v = k * dec_from 0 ds.

(** a start gets as far as the complete pid file; it succeeds *)
Definition files (e : env) (p : Z) : Prop :=
  conf_ok e = true /\ (daemon e = true -> fork_ok e = true /\ detach_ok e = true) /\
  open_ok e = true /\ written e = zlen (Web_Model.fmt_d p).
Definition succeeds (e : env) (p : Z) : Prop := files e p /\ core_ok e = true.

(** ** Histories *)
(** no short write of the pid *)
Definition whole (a : ev) : Prop :=
  match a with EStart p e => open_ok e = true -> written e = zlen (Web_Model.fmt_d p) | _ => True end.
Definition no_crash (a : ev) : Prop := match a with ECrash _ => False | _ => True end.
Definition no_worker (a : ev) : Prop := match a with EWorker _ => False | _ => True end.
(** an event that leaves the file with number p / without any / as it is *)
Definition writes (a : ev) (p : Z) : Prop := exists e, a = EStart p e /\ succeeds e p.
Definition removes (a : ev) : Prop :=
  match a with
  | EStart p e => files e p /\ core_ok e = false
  | EEnd _ | EWorker _ => True
  | ECrash _ => False
  end.

(** at most one instance at a time: nothing is started while another one runs, whether or
    not the start would succeed *)
Definition alone (l : list ev) : Prop := forall l1 p e l2 s, l = l1 ++ EStart p e :: l2 ->
  run st0 l1 = Some s -> running s = [].
(** p wrote the file, and nobody has written or removed it since *)
Definition names (l : list ev) (p : Z) : Prop := exists l1 a l2, l = l1 ++ a :: l2 /\ writes a p /\
  Forall (fun b => ~ removes b /\ forall q, ~ writes b q) l2.

(** the commands and their signals: SIGINT is 2, SIGHUP is 1 *)
Definition command (o : list Z) (sig : Z) : Prop :=
  o = [45; 115; 116; 111; 112] /\ sig = 2 \/ o = [45; 114; 101; 108; 111; 97; 100] /\ sig = 1.

(** a command given in a state does what it is for: it signals one instance that runs, or
    nobody if none runs *)
Definition serves (s : st) : Prop := forall fd o sig, 0 < fd -> command o sig ->
  exists sent status, option_parse fd (pidfile s) [o] = Ok (Command sent status) /\
    (running s = [] -> sent = []) /\
    (running s <> [] -> exists p, In p (running s) /\ sent = [(One p, sig)]).
