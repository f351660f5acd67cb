(** * Model of the hash table (src/common/util/ezhash.c). No proofs here.

    Buckets are sequences of entries: the circular queues they are kept in are
    modelled at pointer level in Queue_Model.v and shown to be sequences there.
    A value is an arbitrary type [A] with a size [valn]; keys are byte strings. *)
From Verif Require Import Base.

(** ezhash.c:6-15, 32-bit FNV-1a *)
Definition fnv1a (l : list Z) : Z :=
  fold_left (fun h b => (Z.lxor h b * 16777619) mod 4294967296) l 2166136261.

Section Table.
Context {A : Type}.

(** ezhash.h:19-22: the bucket array, one list per bucket, head first *)
Definition table := list (list (list Z * A)).

(** ezhash.c:17-36. [space] buckets; the two allocations are inputs. Result [None]
    is -1. mem.c:135 aborts when asked for zero bytes. *)
Definition hash_create (alloc1 alloc2 : bool) (space : Z) : res (option table) :=
  if negb alloc1 then Ok None
  else if space * 16 <=? 0 then Fault FAbort
  else if negb alloc2 then Ok None
  else Ok (Some (zrepeat [] space)).

(** ezhash.c:70-71, 99-100, 129-130; arrn = 0 would be a division by zero *)
Definition hash_idx (t : table) (k : list Z) : Z := fnv1a k mod zlen t.

(** ezhash.c:103-117: first entry with the same length and bytes *)
Fixpoint bucket_find (b : list (list Z * A)) (k : list Z) : option A :=
  match b with
  | [] => None
  | (k', v) :: r => if bseq k' k then Some v else bucket_find r k
  end.

(** ezhash.c:97-119 *)
Definition hash_find (t : table) (k : list Z) : res (option A) :=
  let* b := of_opt FOob (zget t (hash_idx t k)) in Ok (bucket_find b k).

(** ezhash.c:74-93: the walk removes every entry with this key *)
Definition bucket_del (b : list (list Z * A)) (k : list Z) : list (list Z * A) :=
  filter (fun e => negb (bseq (fst e) k)) b.

(** ezhash.c:68-95 *)
Definition hash_del (t : table) (k : list Z) : res table :=
  let i := hash_idx t k in
  let* b := of_opt FOob (zget t i) in
  of_opt FOob (zput t i [bucket_del b k]).

(** the outcome of the three allocations of [ezhash_add] *)
Record allocs := mkAllocs { a_obj : bool; a_key : bool; a_val : bool }.

(** ezhash.c:121-159; [true] is return value 0, [false] is -1 *)
Definition hash_add (al : allocs) (t : table) (k : list Z) (v : A) (valn : Z) : res (bool * table) :=
  let* old := hash_find t k in
  match old with
  | Some _ => Ok (true, t)
  | None =>
      if negb (a_obj al) then Ok (false, t)
      else if zlen k <=? 0 then Fault FAbort
      else if negb (a_key al) then Ok (false, t)
      else if valn <=? 0 then Fault FAbort
      else if negb (a_val al) then Ok (false, t)
      else let i := hash_idx t k in
           let* b := of_opt FOob (zget t i) in
           let* t' := of_opt FOob (zput t i [b ++ [(k, v)]]) in
           Ok (true, t')
  end.

(** histories *)
Inductive hop := HAdd (al : allocs) (k : list Z) (v : A) (valn : Z) | HDel (k : list Z) | HFind (k : list Z).
Inductive hout := OAdd (ok : bool) | ODel | OFind (r : option A).

Definition hash_step (t : table) (o : hop) : res (hout * table) :=
  match o with
  | HAdd al k v n => let* p := hash_add al t k v n in Ok (OAdd (fst p), snd p)
  | HDel k => let* t' := hash_del t k in Ok (ODel, t')
  | HFind k => let* r := hash_find t k in Ok (OFind r, t)
  end.
Fixpoint hash_run (t : table) (os : list hop) : res (list hout * table) :=
  match os with
  | [] => Ok ([], t)
  | o :: r =>
      let* p := hash_step t o in
      let* q := hash_run (snd p) r in
      Ok (fst p :: fst q, snd q)
  end.
End Table.
Arguments table : clear implicits.
Arguments hop : clear implicits.
Arguments hout : clear implicits.
