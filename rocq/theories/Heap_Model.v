(** * Model of the binary heap (src/common/util/bheap.c). No proofs here.

    A heap node is identified by a number; its two fields are kept in [hkey] and
    [hidx]. The array has slots 0..space; slot 0 is never used and holds NULL. Slots
    that were never written are NULL as well (they are never read). A failed
    allocation of the heap itself (bheap.c:13) is not modelled. *)
From Verif Require Import Base.

Definition upd {A} (f : Z -> A) (i : Z) (v : A) : Z -> A := fun j => if j =? i then v else f j.

(** bheap.h:9-19 *)
Record heap := mkHeap { hn : Z; hspace : Z; harr : Z -> option Z; hkey : Z -> Z; hidx : Z -> Z }.

(** bheap.c:8-20 *)
Definition heap_create (size : Z) : heap := mkHeap 0 size (fun _ => None) (fun _ => 0) (fun _ => 0).

(** heap->array[i], about to be dereferenced *)
Definition aget (h : heap) (i : Z) : res Z :=
  if (0 <=? i) && (i <=? hspace h) then of_opt FNull (harr h i) else Fault FOob.
(** heap->array[i] = x; heap->array[i]->index = i (bheap.c:40-41, 45-46, 70-71, 77-78) *)
Definition aput (h : heap) (i x : Z) : res heap :=
  if (0 <=? i) && (i <=? hspace h)
  then Ok (mkHeap (hn h) (hspace h) (upd (harr h) i (Some x)) (hkey h) (upd (hidx h) x i))
  else Fault FOob.

(** bheap.c:39-46 *)
Fixpoint sift_up (fuel : nat) (h : heap) (node i : Z) : res heap :=
  match fuel with
  | O => NoFuel
  | S f =>
      if i / 2 =? 0 then aput h i node
      else let* p := aget h (i / 2) in
           if hkey h node <? hkey h p
           then let* h' := aput h i p in sift_up f h' node (i / 2)
           else aput h i node
  end.

Definition set_n (h : heap) (n : Z) : heap := mkHeap n (hspace h) (harr h) (hkey h) (hidx h).

(** bheap.c:30-48; [true] is 0, [false] is -1 *)
Definition heap_add (h : heap) (node : Z) : res (bool * heap) :=
  if hspace h <=? hn h then Ok (false, h)
  else let i := hn h + 1 in
       let* h' := sift_up (S (Z.to_nat i)) (set_n h i) node i in Ok (true, h').

(** bheap.c:62-78, [n] is heap->index *)
Fixpoint sift_down (fuel : nat) (h : heap) (node i : Z) : res heap :=
  match fuel with
  | O => NoFuel
  | S f =>
      if 2 * i <=? hn h then
        let* c := (if 2 * i + 1 <=? hn h then
                     let* l := aget h (2 * i) in let* r := aget h (2 * i + 1) in
                     Ok (if hkey h l <? hkey h r then 2 * i else 2 * i + 1)
                   else Ok (2 * i)) in
        let* y := aget h c in
        if hkey h y <=? hkey h node
        then let* h' := aput h i y in sift_down f h' node c
        else aput h i node
      else aput h i node
  end.

(** bheap.c:50-80 *)
Definition heap_del (h : heap) (d : Z) : res (bool * heap) :=
  if (hspace h <? 1) || (hn h <? 1) then Ok (false, h)
  else if hn h <? d then Ok (false, h)
  else let* t := aget h (hn h) in
       let* h' := sift_down (S (Z.to_nat (hn h))) (set_n h (hn h - 1)) t d in Ok (true, h').

(** bheap.c:90-96 *)
Definition heap_min (h : heap) : res (option Z) :=
  if (hn h <? 1) || (hspace h <? 1) then Ok None else let* x := aget h 1 in Ok (Some x).

(** the key is assigned by the owner of the node before insertion (timer.c:21) *)
Definition set_key (h : heap) (x k : Z) : heap := mkHeap (hn h) (hspace h) (harr h) (upd (hkey h) x k) (hidx h).
