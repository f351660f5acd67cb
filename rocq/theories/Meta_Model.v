(** * Model of message buffers (src/common/meta.c, meta.h). No proofs here. *)
From Verif Require Import Base.

(** meta.h:9-18. [start] is offset 0, [end] is the length of [mbuf]; [mpos] and
    [mlast] are the offsets of [pos] and [last]. The [next] link is represented
    by lists of buffers where chains are used. *)
Record meta := mkMeta { mbuf : list Z; mpos : Z; mlast : Z }.

(** meta.h:20-23 *)
Definition meta_cap (m : meta) : Z := zlen (mbuf m).
Definition meta_getfree (m : meta) : Z := meta_cap m - mlast m.
Definition meta_getlen (m : meta) : Z := mlast m - mpos m.
Definition meta_clr (m : meta) : meta := mkMeta (mbuf m) 0 0.

(** meta.c:3-13 [meta_alloc]; mem_pool_alloc zero-fills. Allocation failure is a
    separate outcome of the callers. *)
Definition meta_new (datan : Z) : meta := mkMeta (zrepeat 0 datan) 0 0.

(** the bytes between [pos] and [last] *)
Definition mdata (m : meta) : list Z := zslice (mpos m) (mlast m) (mbuf m).

(** memcpy to [last] followed by [last += n]: meta.c:40-41, and every
    [recv(c, meta->last, ..); meta->last += n]. Writing past [end] is a fault. *)
Definition meta_store (m : meta) (bs : list Z) : res meta :=
  let* b := of_opt FOob (zput (mbuf m) (mlast m) bs) in
  Ok (mkMeta b (mpos m) (mlast m + zlen bs)).

(** meta.c:38-43 [meta_pdata]; result [false] is the return value -1. *)
Definition meta_pdata (m : meta) (bs : list Z) : res (bool * meta) :=
  if zlen bs <=? meta_getfree m
  then let* m' := meta_store m bs in Ok (true, m')
  else Ok (false, m).

(** [meta->pos += n] as done after a send or by a parser *)
Definition meta_consume (m : meta) (n : Z) : meta := mkMeta (mbuf m) (mpos m + n) (mlast m).

(** meta.c:27-36 [meta_getlens] of a chain *)
Fixpoint meta_getlens (ms : list meta) : Z :=
  match ms with
  | [] => 0
  | m :: r => meta_getlen m + meta_getlens r
  end.

(** meta.c:53-58: copy loop of [meta_dump] *)
Fixpoint dump_loop (d : meta) (ms : list meta) : res meta :=
  match ms with
  | [] => Ok d
  | m :: r => let* d' := meta_store d (mdata m) in dump_loop d' r
  end.

(** meta.c:45-60 [meta_dump]: one buffer is returned as is; otherwise a new
    buffer is allocated ([alloc_ok] says whether that succeeds; None = NULL). *)
Definition meta_dump (alloc_ok : bool) (ms : list meta) : res (option meta) :=
  match ms with
  | [] => Fault FNull
  | [m] => Ok (Some m)
  | _ => if alloc_ok
         then let* d := dump_loop (meta_new (meta_getlens ms)) ms in Ok (Some d)
         else Ok None
  end.

(** one operation of a client of the buffer *)
Inductive meta_op := MAppend (bs : list Z) | MConsume (n : Z) | MClear.

(** appending through [meta_pdata]; consuming at most what is pending, as all
    callers do *)
Definition meta_do (m : meta) (o : meta_op) : res (bool * meta) :=
  match o with
  | MAppend bs => meta_pdata m bs
  | MConsume n => if (0 <=? n) && (n <=? meta_getlen m) then Ok (true, meta_consume m n) else Ok (false, m)
  | MClear => Ok (true, meta_clr m)
  end.

Fixpoint meta_run (m : meta) (os : list meta_op) : res (list bool * meta) :=
  match os with
  | [] => Ok ([], m)
  | o :: r =>
      let* p := meta_do m o in
      let* q := meta_run (snd p) r in
      Ok (fst p :: fst q, snd q)
  end.
