(** * Model of the intrusive queue (src/common/util/queue.c). No proofs here.

    Memory holds one pair of links per address; NULL is 0 and dereferencing it is a
    fault. Every C assignment is one read or write. *)
From Verif Require Import Base.

Definition upd {A} (f : Z -> A) (i : Z) (v : A) : Z -> A := fun j => if j =? i then v else f j.

(** queue.h:10-13 *)
Record qmem := mkQ { pv : Z -> Z; nx : Z -> Z }.

Definition rd_pv (m : qmem) (a : Z) : res Z := if a =? 0 then Fault FNull else Ok (pv m a).
Definition rd_nx (m : qmem) (a : Z) : res Z := if a =? 0 then Fault FNull else Ok (nx m a).
Definition wr_pv (m : qmem) (a v : Z) : res qmem := if a =? 0 then Fault FNull else Ok (mkQ (upd (pv m) a v) (nx m)).
Definition wr_nx (m : qmem) (a v : Z) : res qmem := if a =? 0 then Fault FNull else Ok (mkQ (pv m) (upd (nx m) a v)).

(** queue.c:3-6 *)
Definition queue_init (m : qmem) (q : Z) : res qmem :=
  let* m := wr_pv m q q in wr_nx m q q.

(** queue.c:8-14 *)
Definition queue_insert (m : qmem) (h q : Z) : res qmem :=
  let* n := rd_nx m h in
  let* m := wr_nx m q n in
  let* m := wr_pv m q h in
  let* n := rd_nx m h in
  let* m := wr_pv m n q in
  wr_nx m h q.

(** queue.c:16-26 *)
Definition queue_insert_tail (m : qmem) (h q : Z) : res qmem :=
  let* last := rd_pv m h in
  let* n := rd_nx m last in
  let* m := wr_nx m q n in
  let* m := wr_pv m q last in
  let* n := rd_nx m last in
  let* m := wr_pv m n q in
  wr_nx m last q.

(** queue.c:28-37 *)
Definition queue_remove (m : qmem) (q : Z) : res qmem :=
  let* p := rd_pv m q in
  let* m := (if p =? 0 then Ok m else let* n := rd_nx m q in wr_nx m p n) in
  let* n := rd_nx m q in
  let* m := (if n =? 0 then Ok m else let* p := rd_pv m q in wr_pv m n p) in
  let* m := wr_pv m q 0 in
  wr_nx m q 0.

(** queue.c:39-57 *)
Definition queue_empty (m : qmem) (h : Z) : res bool := let* p := rd_pv m h in Ok (h =? p).
Definition queue_head (m : qmem) (h : Z) : res Z := rd_nx m h.
Definition queue_next (m : qmem) (q : Z) : res Z := rd_nx m q.
Definition queue_prev (m : qmem) (q : Z) : res Z := rd_pv m q.
Definition queue_tail (h : Z) : Z := h.

(** the loop every user of a queue is written with (e.g. ezhash.c:46-61):
    p = queue_head(h); while (p != queue_tail(h)) { visit p; p = queue_next(p); } *)
Fixpoint walk (step : qmem -> Z -> res Z) (fuel : nat) (m : qmem) (p stop : Z) : res (list Z) :=
  if p =? stop then Ok []
  else match fuel with
       | O => NoFuel
       | S f => let* n := step m p in let* l := walk step f m n stop in Ok (p :: l)
       end.
Definition walk_fwd (fuel : nat) (m : qmem) (h : Z) : res (list Z) :=
  let* p := queue_head m h in walk queue_next fuel m p (queue_tail h).
(** backwards: p = queue_prev(h); ... p = queue_prev(p) *)
Definition walk_bwd (fuel : nat) (m : qmem) (h : Z) : res (list Z) :=
  let* p := queue_prev m h in walk queue_prev fuel m p (queue_tail h).

(** histories *)
Inductive qop := QInit (h : Z) | QIns (h q : Z) | QInsT (h q : Z) | QRem (q : Z).
Definition qstep (m : qmem) (o : qop) : res qmem :=
  match o with
  | QInit h => queue_init m h
  | QIns h q => queue_insert m h q
  | QInsT h q => queue_insert_tail m h q
  | QRem q => queue_remove m q
  end.
Fixpoint qrun (m : qmem) (os : list qop) : res qmem :=
  match os with [] => Ok m | o :: r => let* m := qstep m o in qrun m r end.
