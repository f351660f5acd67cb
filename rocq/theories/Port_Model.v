(** * Model of the listening sockets of a machine (src/common/listen.c:25-77). No proofs here.

    The table of listeners is that of Conf_Model.v. Trusted: the rule by which Linux lets two
    sockets listen on one port, and that a new connection goes to one of the sockets that
    listen on its port, chosen by a hash of the addresses. One address (INADDR_ANY, listen.c:29). *)
From Verif Require Import Base Conf_Model.
Open Scope Z_scope.

(** a listening socket: its port, the user whose process opened it, whether SO_REUSEPORT was
    set, the instance of a program it belongs to, and what is done with its connections *)
Record sock := Sock { s_port : Z; s_user : Z; s_reuse : bool; s_owner : Z; s_kind : lkind }.

(** the kernel at bind and listen: a port that somebody listens on can be taken if all its
    sockets have SO_REUSEPORT and belong to the same user. (SO_REUSEADDR, listen.c:35, allows
    nothing more while the other socket listens.) *)
Definition may_bind (ks : list sock) (user port : Z) : bool :=
  forallb (fun s => negb (s_port s =? port) || (s_reuse s && (s_user s =? user))) ks.

(** listen.c:25-48 [listen_set_opt] for one slot: SO_REUSEPORT is set (line 40). [eph]: the
    port the kernel picks when port 0 is asked for; [ok]: the other calls work *)
Definition set_opt (ks : list sock) (inst user : Z) (sl : lslot) (eph : Z) (ok : bool) : option (list sock) :=
  let port := if lport sl =? 0 then eph else lport sl in
  if ok && may_bind ks user port
  then Some (ks ++ [Sock port user true inst (lkind_ sl)])
  else None.

(** listen.c:50-58 [listen_start]: the slots in order, the first failure ends it; [es] are the
    ports picked for port 0 and the results of the other calls; missing results count as success *)
Fixpoint open_all (ks : list sock) (inst user : Z) (t : list lslot) (es : list (Z * bool)) : option (list sock) :=
  match t with
  | [] => Some ks
  | sl :: r =>
      let e := match es with [] => (0, true) | e :: _ => e end in
      match set_opt ks inst user sl (fst e) (snd e) with
      | None => None
      | Some ks => open_all ks inst user r (tl es)
      end
  end.

(** listen.c:60-77 [listen_init] as part of a start (main.c:119-122): the exit status and the
    sockets of the machine. When it fails the process ends and its sockets are gone. *)
Definition start (inst user : Z) (c : conf) (es : list (Z * bool)) (ks : list sock) : res (Z * list sock) :=
  let* t := listen_init c [] in
  Ok (match open_all ks inst user (fst t) es with Some ks => (0, ks) | None => (-1, ks) end).

(** a connection to [port]; [h] is the hash of its addresses. [None]: refused. All workers of
    an instance wait at the same socket (it is opened before they are started, modules.c:35). *)
Definition deliver (ks : list sock) (port h : Z) : option sock :=
  let l := filter (fun s => s_port s =? port) ks in
  zget l (h mod zlen l).

(** the end of an instance *)
Definition ends (inst : Z) (ks : list sock) : list sock := filter (fun s => negb (s_owner s =? inst)) ks.
