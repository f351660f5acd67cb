(** * Trees of items: what the calls of cJSON are supposed to do to them. *)
From Verif Require Import Base Jlist_Model.
Open Scope Z_scope.

(** [k x]: the children of the item [x] in their order; [None]: there is no such item *)
Definition forest := Z -> option (list Z).
Definition nothing : forest := fun _ => None.
(** [y] is [x] or an item below it *)
Inductive below (k : forest) (x : Z) : Z -> Prop :=
| below_self : below k x x
| below_child a y l : below k x a -> k a = Some l -> In y l -> below k x y.
(** [x] exists and belongs to no other item *)
Definition root (k : forest) (x : Z) : Prop := k x <> None /\ forall a l, k a = Some l -> ~ In x l.
Definition is (k k' : forest) : Prop := forall y, k y = k' y.
Definition set (k : forest) (a : Z) (v : option (list Z)) : forest := fun y => if y =? a then v else k y.
(** [x] may become a child of [a]: it belongs to nobody, and [a] is not below it *)
Definition may_join (k : forest) (a x : Z) : Prop := root k x /\ ~ below k x a.
(** [k'] is [k] without [x] and all below it *)
Definition without (k : forest) (x : Z) (k' : forest) : Prop :=
  (forall y, below k x y -> k' y = None) /\ (forall y, ~ below k x y -> k' y = k y).

(** [call k o r k']: the call [o] is allowed in [k]; it returns [r] and leaves [k'] *)
Inductive call (k : forest) : op -> Z -> forest -> Prop :=
| c_new p k' : p <> 0 -> k p = None -> is k' (set k p (Some [])) -> call k (New p) p k'
| c_add a x l k' : k a = Some l -> may_join k a x -> is k' (set k a (Some (l ++ [x]))) -> call k (Add a x) 1 k'
| c_add_null a k' : is k' k -> call k (Add a 0) 0 k'
| c_add_nowhere x k' : is k' k -> call k (Add 0 x) 0 k'
| c_add_self a k' : is k' k -> call k (Add a a) 0 k'
| c_insert a i x l k' : k a = Some l -> 0 <= i -> may_join k a x ->
    is k' (set k a (Some (ztake i l ++ x :: zdrop i l))) -> call k (Insert a i x) 1 k'
| c_insert_neg a i x k' : i < 0 -> is k' k -> call k (Insert a i x) 0 k'
| c_detach a l1 x l2 k' : k a = Some (l1 ++ x :: l2) -> is k' (set k a (Some (l1 ++ l2))) ->
    call k (Detach a (zlen l1)) x k'
| c_detach_none a i l k' : k a = Some l -> i < 0 \/ zlen l <= i -> is k' k -> call k (Detach a i) 0 k'
| c_detach_via a l1 x l2 k' : k a = Some (l1 ++ x :: l2) -> is k' (set k a (Some (l1 ++ l2))) ->
    call k (DetachVia a x) x k'
| c_replace a l1 o l2 x k1 k' : k a = Some (l1 ++ o :: l2) -> may_join k a x ->
    is k1 (set k a (Some (l1 ++ x :: l2))) -> without k1 o k' -> call k (Replace a (zlen l1) x) 1 k'
| c_replace_self a l1 x l2 k' : k a = Some (l1 ++ x :: l2) -> is k' k -> call k (Replace a (zlen l1) x) 1 k'
| c_replace_none a i l x k' : k a = Some l -> i < 0 \/ zlen l <= i -> is k' k -> call k (Replace a i x) 0 k'
| c_delete x k' : root k x -> without k x k' -> call k (Delete x) 0 k'
| c_delete_null k' : is k' k -> call k (Delete 0) 0 k'
| c_size a l k' : k a = Some l -> is k' k -> call k (Size a) (zlen l) k'
| c_item a l1 x l2 k' : k a = Some (l1 ++ x :: l2) -> is k' k -> call k (Item a (zlen l1)) x k'
| c_item_none a i l k' : k a = Some l -> i < 0 \/ zlen l <= i -> is k' k -> call k (Item a i) 0 k'.
Inductive calls (k : forest) : list op -> list Z -> forest -> Prop :=
| cs_nil : calls k [] [] k
| cs_cons o r k1 l rs k2 : call k o r k1 -> calls k1 l rs k2 -> calls k (o :: l) (r :: rs) k2.
