(** * Model of the growable array and the string list (src/common/util/arr.c, list.c).

    Blocks are addresses (0 is NULL); each block has a [next] field and contents. The result
    of mem_pool_alloc is an input: [None], or the address of a zero-filled block (C03). *)
From Verif Require Import Base Queue_Model.

(** arr.h:9-21; the contents of a part are whatever its user stored in it *)
Record arr := mkArr { a_head : Z; a_last : Z; a_num : Z; a_next : Z -> Z }.

(** arr.c:3-13 *)
Definition arr_create (nx0 : Z -> Z) : arr := mkArr 0 0 0 nx0.

(** arr.c:15-29; [r] is what the allocator returned. The count is uint32: it cannot wrap
    because the pool holds fewer blocks. *)
Definition arr_push (a : arr) (r : option Z) : res (option Z * arr) :=
  match r with
  | None => Ok (None, a)
  | Some p =>
      let nx1 := upd (a_next a) p 0 in
      if a_num a =? 0 then Ok (Some p, mkArr p p (a_num a + 1) nx1)
      else if a_last a =? 0 then Fault FNull
      else Ok (Some p, mkArr (a_head a) p (a_num a + 1) (upd nx1 (a_last a) p))
  end.

(** arr.c:53-56 *)
Fixpoint arr_skip (nx1 : Z -> Z) (n : nat) (p : Z) : res Z :=
  match n with
  | O => if p =? 0 then Fault FNull else Ok p
  | S k => if p =? 0 then Fault FNull else arr_skip nx1 k (nx1 p)
  end.
(** arr.c:45-59 *)
Definition arr_get (a : arr) (i : Z) : res (option Z) :=
  if (i <? 1) || (a_num a <? i) then Ok None
  else let* p := arr_skip (a_next a) (Z.to_nat (i - 1)) (a_head a) in Ok (Some p).

(** the release loops (arr.c:34-40, list.c:6-13): addresses in the order they are freed;
    a block is read before it is freed and never after *)
Fixpoint free_chain (fuel : nat) (nx1 : Z -> Z) (p : Z) : res (list Z) :=
  if p =? 0 then Ok []
  else match fuel with
       | O => NoFuel
       | S f => let n := nx1 p in let* l := free_chain f nx1 n in Ok (p :: l)
       end.
(** arr.c:31-43 (without the array header itself, freed last) *)
Definition arr_free (fuel : nat) (a : arr) : res (list Z) := free_chain fuel (a_next a) (a_head a).

(** list.h:10-15 *)
Record slist := mkSl { s_head : Z; s_next : Z -> Z; s_data : Z -> list Z }.

(** list.c:30-33: while (p->next) p = p->next *)
Fixpoint list_end (fuel : nat) (nx1 : Z -> Z) (p : Z) : res Z :=
  match fuel with
  | O => NoFuel
  | S f => if p =? 0 then Fault FNull else if nx1 p =? 0 then Ok p else list_end f nx1 (nx1 p)
  end.
(** list.c:17-36; [d] is the C string without its terminator; the copy omits the
    terminator, which the zero-filled block supplies *)
Definition list_push (fuel : nat) (s : slist) (r : option Z) (d : list Z) : res (Z * slist) :=
  if 16384 <? 16 + zlen d + 1 then Ok (-1, s)     (* the pool refuses *)
  else match r with
  | None => Ok (-1, s)
  | Some p =>
      let nx1 := upd (s_next s) p 0 in
      let dt := upd (s_data s) p (d ++ [0]) in
      if s_head s =? 0 then Ok (0, mkSl p nx1 dt)
      else let* e := list_end fuel nx1 (s_head s) in Ok (0, mkSl (s_head s) (upd nx1 e p) dt)
  end.
Definition list_free (fuel : nat) (s : slist) : res (list Z) := free_chain fuel (s_next s) (s_head s).
