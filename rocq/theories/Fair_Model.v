(** Model of two tunnel sessions in one worker process: the relay of
    src/app/tls_tunnel_s.c:57-191 ([Relay_Model]) twice, under the event loop of
    src/common/event.c:204-232. No proofs here.

    The process has one thread: while a callback of one session runs, no event is
    delivered to the other one. *)
From Verif Require Import Base Meta_Model S5_Model Relay_Model.

Record pair := mkPair { p_a : relay; p_b : relay }.
Definition pget (p : pair) (who : bool) : relay := if who then p_a p else p_b p.
Definition pput (p : pair) (who : bool) (r : relay) : pair :=
  if who then mkPair r (p_b p) else mkPair (p_a p) r.

(** a callback of the session is running *)
Definition running (r : relay) : bool :=
  match r_pc r with PRecv _ | PSend _ => true | _ => false end.

(** One step of one of the sessions: the result of its pending recv or send, or an
    event; an event waits while the other session runs (event.c:213-230: the events
    are handled one after the other). *)
Definition pstep (p : pair) (x : bool * rin) : res pair :=
  if running (pget p (negb (fst x))) then Ok p
  else let* r := relay_step (pget p (fst x)) (snd x) in Ok (pput p (fst x) r).
Fixpoint prun (p : pair) (xs : list (bool * rin)) : res pair :=
  match xs with
  | [] => Ok p
  | x :: l => let* p' := pstep p x in prun p' l
  end.

(** what can happen: results that recv and send can return for a session that waits
    for them, events for a session that does not run; events come at any time, also
    while the other session runs *)
Definition p_enabled (p : pair) (x : bool * rin) : Prop := r_enabled (pget p (fst x)) (snd x).
Fixpoint p_valid (p : pair) (xs : list (bool * rin)) : Prop :=
  match xs with
  | [] => True
  | x :: l => p_enabled p x /\ forall p', pstep p x = Ok p' -> p_valid p' l
  end.
