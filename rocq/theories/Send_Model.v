(** * Model of the plain send path (src/common/net_send.c:30-78). No proofs here. *)
From Verif Require Import Base Meta_Model.

(** one result of the system call [send(fd, buf, n, 0)]: it took at most [k]
    bytes, or failed with EAGAIN, EINTR or another error *)
Inductive kres := KSent (k : Z) | KAgain | KIntr | KErr.

(** return value of [send_chains]: 1, -11, -1; [ROpen]: the call has not returned
    yet (no further result of the system call is known) *)
Inductive rcode := RAll | RAgain | RFail | ROpen.

(** net_send.c:59-65 and 76: advance [pos] of the first buffer with pending bytes *)
Fixpoint advance (c : list meta) (n : Z) : list meta :=
  match c with
  | [] => []
  | m :: t => if 0 <? meta_getlen m then meta_consume m n :: t else m :: advance t n
  end.
Fixpoint first_pending (c : list meta) : option meta :=
  match c with
  | [] => None
  | m :: t => if 0 <? meta_getlen m then Some m else first_pending t
  end.

(** net_send.c:53-78 with the loop of [sends] (30-51) inlined: EINTR repeats the
    system call with the same buffer. [wire] are the bytes the kernel has taken.
    The kernel never takes more than it is offered nor a negative amount. *)
Fixpoint send_chain (c : list meta) (wire : list Z) (ks : list kres)
  : rcode * list meta * list Z * list kres :=
  match first_pending c with
  | None => (RAll, c, wire, ks)
  | Some m =>
      match ks with
      | [] => (ROpen, c, wire, [])
      | KIntr :: t => send_chain c wire t
      | KAgain :: t => (RAgain, c, wire, t)
      | KErr :: t => (RFail, c, wire, t)
      | KSent k :: t =>
          let n := Z.max 0 (Z.min k (meta_getlen m)) in
          send_chain (advance c n) (wire ++ ztake n (mdata m)) t
      end
  end.

(** how callers use it: on -11 they call again with the same chain when the
    socket becomes writable (e.g. webser.c:142-165, 231-245) *)
Fixpoint send_all (fuel : nat) (c : list meta) (wire : list Z) (ks : list kres)
  : rcode * list meta * list Z * list kres :=
  match fuel with
  | O => (ROpen, c, wire, ks)
  | S f => match send_chain c wire ks with
           | (RAgain, c', w', ks') => send_all f c' w' ks'
           | x => x
           end
  end.
