(** * Model of cJSON_Compare (src/common/cJSON.c:133-154, 537-542, 1880-1914, 2985-3110). No proofs here.

    Items are trees. Simplifications: the two trees share no item (a shared item counts as equal
    to itself, cJSON.c:3009-3013), and no text (cJSON.c:140-143). Strings are the bytes in front
    of their NUL; [None] is a NULL pointer. *)
From Verif Require Import Base Conf_Model Jdbl_Model.
Open Scope Z_scope.

(** a double: finite (a multiple of 2^-1074), infinite (negative?), not a number *)
Inductive dbl := Fin (X : Z) | Inf (neg : bool) | Nan.
Inductive item :=
| INull | IBool (b : bool) | INum (n : dbl) | IStr (s : option (list Z)) | IRaw (s : option (list Z))
| IArr (l : list item) | IObj (l : list (option (list Z) * item)) | IBad.

(** cJSON.c:537-542 in IEEE arithmetic: a comparison with NaN is false; if one operand is
    infinite, so is the right side, and the difference is infinite unless the operands are the
    same infinity (then it is NaN) *)
Definition dbl_eq (a b : dbl) : bool :=
  match a, b with
  | Fin x, Fin y => compare_double x y
  | Inf s, Inf t => negb (Bool.eqb s t)
  | Inf _, Fin _ | Fin _, Inf _ => true
  | _, _ => false
  end.
(** cJSON.c:3030-3040: strcmp *)
Definition str_eq (a b : option (list Z)) : bool :=
  match a, b with Some s, Some t => bseq s t | _, _ => false end.
(** strcmp, or cJSON.c:133-154 *)
Definition name_eq (cs : bool) (a b : list Z) : bool := if cs then bseq a b else bseq (map lower a) (map lower b).
(** cJSON.c:1880-1914: the first member with that name. With case sensitive names the search
    ends at a member without a name. *)
Fixpoint find (cs : bool) (n : list Z) (l : list (option (list Z) * item)) : option item :=
  match l with
  | [] => None
  | (None, _) :: t => if cs then None else find cs n t
  | (Some m, v) :: t => if name_eq cs n m then Some v else find cs n t
  end.

(** The results count the calls of cJSON_Compare. *)
Section Loops.
  Context (cmp : item -> item -> res (bool * Z)).
  (** cJSON.c:3047-3067 *)
  Fixpoint arr (l m : list item) : res (bool * Z) :=
    match l, m with
    | x :: l, y :: m =>
        let* r := cmp x y in
        if fst r then let* q := arr l m in Ok (fst q, snd r + snd q) else Ok (false, snd r)
    | [], [] => Ok (true, 0)
    | _, _ => Ok (false, 0)
    end.
  (** cJSON.c:3073-3086, 3090-3103 *)
  Fixpoint obj (cs : bool) (m l : list (option (list Z) * item)) : res (bool * Z) :=
    match l with
    | [] => Ok (true, 0)
    | (None, _) :: _ => Ok (false, 0)
    | (Some n, x) :: t =>
        match find cs n m with
        | None => Ok (false, 0)
        | Some y =>
            let* r := cmp x y in
            if fst r then let* q := obj cs m t in Ok (fst q, snd r + snd q) else Ok (false, snd r)
        end
    end.
End Loops.
(** cJSON.c:2985-3110; [fuel] bounds the nesting *)
Fixpoint compare (fuel : nat) (cs : bool) (a b : item) : res (bool * Z) :=
  match fuel with
  | O => NoFuel
  | S f =>
      match a, b with
      | INull, INull => Ok (true, 1)
      | IBool x, IBool y => Ok (Bool.eqb x y, 1)
      | INum x, INum y => Ok (dbl_eq x y, 1)
      | IStr x, IStr y | IRaw x, IRaw y => Ok (str_eq x y, 1)
      | IArr l, IArr m => let* r := arr (compare f cs) l m in Ok (fst r, 1 + snd r)
      | IObj l, IObj m =>
          let* r := obj (compare f cs) cs m l in
          if fst r then let* q := obj (compare f cs) cs l m in Ok (fst q, 1 + snd r + snd q)
          else Ok (false, 1 + snd r)
      | _, _ => Ok (false, 1)
      end
  end.
