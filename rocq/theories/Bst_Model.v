(** * Model of the binary search tree (src/common/util/bst.c, bst.h). No proofs here. *)
From Verif Require Import Base.

(** bst.h:14-24; [level] is left out: it is written and never read to decide anything. An
    address is a number, 0 is NULL. *)
Record node := Node { num : Z; par : Z; lft : Z; rgt : Z; tag : Z }.
Definition LEFT : Z := 1.
Definition RIGHT : Z := 2.
(** bst.h:10 *)
Definition STACK : Z := 8192.

(** The memory: the nodes that are allocated. *)
Definition heap := Z -> option node.
Definition get (h : heap) (a : Z) : res node :=
  if a =? 0 then Fault FNull else match h a with Some n => Ok n | None => Fault FUaf end.
Definition upd (h : heap) (a : Z) (o : option node) : heap := fun x => if x =? a then o else h x.
(** assignments [a->left = v] and so on *)
Definition set_lft (h : heap) (a v : Z) : res heap :=
  let* n := get h a in Ok (upd h a (Some (Node (num n) (par n) v (rgt n) (tag n)))).
Definition set_rgt (h : heap) (a v : Z) : res heap :=
  let* n := get h a in Ok (upd h a (Some (Node (num n) (par n) (lft n) v (tag n)))).
Definition set_par (h : heap) (a v : Z) : res heap :=
  let* n := get h a in Ok (upd h a (Some (Node (num n) v (lft n) (rgt n) (tag n)))).

(** bst.h:26-29; the head of the tree is the node at address [HEAD] *)
Definition HEAD : Z := 1.
Record bst := Bst { mem : heap; elems : Z }.
(** bst.c:3-14; sys_alloc returns zeroed memory *)
Definition create : bst := Bst (upd (fun _ => None) HEAD (Some (Node (-1) 0 0 0 0))) 0.

(** bst.c:38-46: the loop; the result is the last [p] *)
Fixpoint walk (fuel : nat) (h : heap) (key n p : Z) : res Z :=
  match fuel with
  | O => NoFuel
  | S fuel =>
      if n =? 0 then Ok p
      else let* c := get h n in
           walk fuel h key (if num c <? key then rgt c else lft c) n
  end.
(** bst.c:35-67; [a] is the address sys_alloc returns, 0 if it fails; the result is the
    return value *)
Definition add (fuel : nat) (s : bst) (key a : Z) : res (bst * Z) :=
  let* p := walk fuel (mem s) key HEAD 0 in
  if a =? 0 then Ok (s, -1)
  else
    let* pn := get (mem s) p in
    let side := if num pn <? key then RIGHT else LEFT in
    let* h := (if num pn <? key then set_rgt (mem s) p a else set_lft (mem s) p a) in
    Ok (Bst (upd h a (Some (Node key p 0 0 side))) (elems s + 1), 0).

(** bst.c:70-74 *)
Fixpoint bst_min (fuel : nat) (h : heap) (n : Z) : res Z :=
  match fuel with
  | O => NoFuel
  | S fuel => let* c := get h n in if lft c =? 0 then Ok n else bst_min fuel h (lft c)
  end.

(** [stack[stackn++] = x] if [x] is not NULL *)
Definition push_node (st : list Z) (x : Z) : res (list Z) :=
  if x =? 0 then Ok st else if zlen st <? STACK then Ok (x :: st) else Fault FOob.
(** bst.c:83-91; top of the stack first; the result is the node or NULL *)
Fixpoint dfs (fuel : nat) (h : heap) (key : Z) (st : list Z) : res Z :=
  match fuel with
  | O => NoFuel
  | S fuel =>
      match st with
      | [] => Ok 0
      | n :: st =>
          let* c := get h n in
          if num c =? key then Ok n
          else let* st := push_node st (lft c) in
               let* st := push_node st (rgt c) in
               dfs fuel h key st
      end
  end.
(** bst.c:76-92 *)
Definition find (fuel : nat) (s : bst) (key : Z) : res Z := dfs fuel (mem s) key [HEAD].

(** bst.c:100-106 and the like: [if(n->type == BST_LEFT) n->parent->left = v; else
    n->parent->right = v;] *)
Definition relink (h : heap) (n v : Z) : res heap :=
  let* c := get h n in if tag c =? LEFT then set_lft h (par c) v else set_rgt h (par c) v.
(** bst.c:94-145; the result is the return value *)
Definition del (fuel : nat) (s : bst) (key : Z) : res (bst * Z) :=
  let* n := find fuel s key in
  if n =? 0 then Ok (s, -1)
  else
    let h := mem s in
    let* c := get h n in
    let* h :=
      (if negb (lft c =? 0) && (rgt c =? 0) then
         let* h := relink h n (lft c) in
         set_par h (lft c) (par c)
       else if (lft c =? 0) && negb (rgt c =? 0) then
         let* h := relink h n (rgt c) in
         set_par h (rgt c) (par c)
       else
         let* m := bst_min fuel h (rgt c) in
         let* mc := get h m in
         let* h :=
           (if negb (rgt mc =? 0) then
              let* h := relink h m (rgt mc) in
              let* mc := get h m in
              set_par h (rgt mc) (par mc)
            else set_lft h (par mc) 0) in
         let* h := relink h n m in
         let* c := get h n in
         let* h := set_par h (lft c) m in
         let* c := get h n in
         let* h := set_par h (rgt c) m in
         let* c := get h n in
         let* h := set_par h m (par c) in
         let* h := set_lft h m (lft c) in
         set_rgt h m (rgt c)) in
    Ok (Bst (upd h n None) (elems s - 1), 0).

(** bst.c:16-33: the loop; the result also lists the nodes freed *)
Fixpoint free_loop (fuel : nat) (h : heap) (st freed : list Z) : res (heap * list Z) :=
  match fuel with
  | O => NoFuel
  | S fuel =>
      match st with
      | [] => Ok (h, freed)
      | n :: st =>
          let* c := get h n in
          let* st := push_node st (lft c) in
          let* st := push_node st (rgt c) in
          free_loop fuel (upd h n None) st (freed ++ [n])
      end
  end.
Definition bst_free (fuel : nat) (s : bst) : res (heap * list Z) :=
  let* c := get (mem s) HEAD in
  if rgt c =? 0 then Ok (mem s, []) else free_loop fuel (mem s) [rgt c] [].
