(** * When two JSON values are the same, given when two numbers are. *)
From Verif Require Import Base Conf_Model Jdbl_Model Jcmp_Model.
Open Scope Z_scope.

(** a member's name; letter case matters or not *)
Definition key (cs : bool) (n : list Z) : list Z := if cs then n else map lower n.
Section Same.
  Context (cs : bool) (R : dbl -> dbl -> Prop).
  (** arrays: item by item; objects: the same members in any order *)
  Inductive same : item -> item -> Prop :=
  | s_null : same INull INull
  | s_bool b : same (IBool b) (IBool b)
  | s_num x y : R x y -> same (INum x) (INum y)
  | s_str s : same (IStr (Some s)) (IStr (Some s))
  | s_raw s : same (IRaw (Some s)) (IRaw (Some s))
  | s_anil : same (IArr []) (IArr [])
  | s_acons x y l m : same x y -> same (IArr l) (IArr m) -> same (IArr (x :: l)) (IArr (y :: m))
  | s_obj l m :
      (forall n x, In (Some n, x) l -> exists n' y, In (Some n', y) m /\ key cs n = key cs n' /\ same x y) ->
      (forall n' y, In (Some n', y) m -> exists n x, In (Some n, x) l /\ key cs n = key cs n' /\ same x y) ->
      same (IObj l) (IObj m).
End Same.
(** every string and every name is there, and no object has two members of the same name *)
Inductive proper (cs : bool) : item -> Prop :=
| p_null : proper cs INull
| p_bool b : proper cs (IBool b)
| p_num n : proper cs (INum n)
| p_str s : proper cs (IStr (Some s))
| p_raw s : proper cs (IRaw (Some s))
| p_arr l : (forall x, In x l -> proper cs x) -> proper cs (IArr l)
| p_obj l names : (forall p, In p l -> proper cs (snd p)) -> map fst l = map (@Some (list Z)) names -> NoDup (map (key cs) names) ->
    proper cs (IObj l).
(** two numbers that are finite and at most 2^-52 of the larger one apart *)
Definition near (a b : dbl) : Prop :=
  exists x y, a = Fin x /\ b = Fin y /\ 2 ^ 52 * Z.abs (x - y) <= Z.max (Z.abs x) (Z.abs y).
(** every number of the tree satisfies [P] *)
Inductive numbers (P : dbl -> Prop) : item -> Prop :=
| n_num x : P x -> numbers P (INum x)
| n_arr l : (forall x, In x l -> numbers P x) -> numbers P (IArr l)
| n_obj l : (forall p, In p l -> numbers P (snd p)) -> numbers P (IObj l)
| n_other x : (forall n, x <> INum n) -> (forall l, x <> IArr l) -> (forall l, x <> IObj l) -> numbers P x.
(** a finite double that is 0 or at least 2^-969 in size; below that, a 2^-52 of it is rounded *)
Definition normal (x : dbl) : Prop := exists X, x = Fin X /\ is_double (Z.abs X) /\ (X = 0 \/ 2 ^ 105 <= Z.abs X).
(** an integer below 2^52 *)
Definition whole (x : dbl) : Prop := exists n, Z.abs n < 2 ^ 52 /\ x = Fin (n * 2 ^ 1074).
