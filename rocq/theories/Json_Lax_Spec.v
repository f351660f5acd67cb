(** * A grammar somewhat wider than JSON, without reference to the parser.

    It differs from the one in Json_Spec.v in these points only:
    - white space is every byte from 1 to 32;
    - a string may contain control characters;
    - the four characters behind [\u] need not be hexadecimal; the string ends in front of
      such an escape;
    - a number may have leading zeros, no digits in front of the point or none behind it. *)
From Coq Require Import String.
From Verif Require Import Base Str_Spec Conf_Model Json_Spec.
Open Scope Z_scope.

Definition lws (l : list Z) : Prop := Forall (fun b => 1 <= b <= 32) l.

(** ** Strings *)
Inductive lchars : list Z -> list Z -> Prop :=
| lc_nil : lchars [] []
| lc_raw b s t : 1 <= b < 256 -> b <> 34 -> b <> 92 -> lchars s t -> lchars (b :: s) (b :: t)
| lc_esc c v s t : In (c, v) escapes -> lchars s t -> lchars (v :: s) (92 :: c :: t)
| lc_u h c s t : hex4 h c -> ~ (55296 <= c <= 57343) -> lchars s t ->
    lchars (utf8_of c ++ s) (92 :: 117 :: h ++ t)
| lc_pair h c h' c' s t : hex4 h c -> 55296 <= c <= 56319 -> hex4 h' c' -> 56320 <= c' <= 57343 -> lchars s t ->
    lchars (utf8_of (65536 + 1024 * (c - 55296) + (c' - 56320)) ++ s) (92 :: 117 :: h ++ 92 :: 117 :: h' ++ t).
(** no quote but behind a backslash *)
Inductive body : list Z -> Prop :=
| bo_nil : body []
| bo_raw b t : b <> 34 -> b <> 92 -> body t -> body (b :: t)
| bo_esc b t : body t -> body (92 :: b :: t).
(** [lstring c t]: [t] between quotes is read as the C string [c] *)
Inductive lstring : list Z -> list Z -> Prop :=
| ls_good s c t : lchars s t -> cstr s c -> lstring c t
| ls_bad s c t u : lchars s t -> cstr s c -> body u -> 4 <= zlen u -> (forall h x v, hex4 h x -> u <> h ++ v) ->
    lstring c (t ++ 92 :: 117 :: u).

(** ** Numbers *)
Inductive lfrac : list Z -> list Z -> Prop :=
| lf_none : lfrac [] []
| lf_some ds : digits ds -> lfrac (46 :: ds) ds.
Inductive lnumber : list Z -> Z -> Prop :=
| ln_pos i f fd e x v : digits i -> lfrac f fd -> i ++ fd <> [] -> expo e x ->
    trunc_of (decval (i ++ fd)) (x - zlen fd) v -> lnumber (i ++ f ++ e) v
| ln_neg i f fd e x v : digits i -> lfrac f fd -> i ++ fd <> [] -> expo e x ->
    trunc_of (decval (i ++ fd)) (x - zlen fd) v -> lnumber (45 :: i ++ f ++ e) (- v).

(** ** Values *)
Inductive ldoc : Z -> json -> list Z -> Prop :=
| l_null n : ldoc n JNull (str "null")
| l_true n : ldoc n (JBool true) (str "true")
| l_false n : ldoc n (JBool false) (str "false")
| l_num n t v : lnumber t v -> zlen t <= 63 -> ldoc n (JNum v) t
| l_str n c t : lstring c t -> ldoc n (JStr c) ([34] ++ t ++ [34])
| l_arr0 n w : 0 < n -> lws w -> ldoc n (JArr []) ([91] ++ w ++ [93])
| l_arr n l t : 0 < n -> ldocs (n - 1) l t -> ldoc n (JArr l) ([91] ++ t ++ [93])
| l_obj0 n w : 0 < n -> lws w -> ldoc n (JObj []) ([123] ++ w ++ [125])
| l_obj n l t : 0 < n -> lmems (n - 1) l t -> ldoc n (JObj l) ([123] ++ t ++ [125])
with ldocs : Z -> list json -> list Z -> Prop :=
| lds_one n j w t w' : lws w -> ldoc n j t -> lws w' -> ldocs n [j] (w ++ t ++ w')
| lds_more n j l w t w' u : lws w -> ldoc n j t -> lws w' -> ldocs n l u ->
    ldocs n (j :: l) (w ++ t ++ w' ++ [44] ++ u)
with lmems : Z -> list (list Z * json) -> list Z -> Prop :=
| lms_one n c kt j w1 w2 w3 t w4 : lws w1 -> lstring c kt -> lws w2 -> lws w3 -> ldoc n j t -> lws w4 ->
    lmems n [(c, j)] (w1 ++ [34] ++ kt ++ [34] ++ w2 ++ [58] ++ w3 ++ t ++ w4)
| lms_more n c kt j w1 w2 w3 t w4 l u : lws w1 -> lstring c kt -> lws w2 -> lws w3 -> ldoc n j t -> lws w4 ->
    lmems n l u ->
    lmems n ((c, j) :: l) (w1 ++ [34] ++ kt ++ [34] ++ w2 ++ [58] ++ w3 ++ t ++ w4 ++ [44] ++ u).
Scheme ldoc_mut := Minimality for ldoc Sort Prop
  with ldocs_mut := Minimality for ldocs Sort Prop
  with lmems_mut := Minimality for lmems Sort Prop.
Combined Scheme ldoc_ind3 from ldoc_mut, ldocs_mut, lmems_mut.

(** a text that begins with such a value; what follows the value is not looked at *)
Inductive begins : json -> list Z -> Prop :=
| begins_intro bom w j t x : bom = [] \/ bom = [239; 187; 191] -> lws w -> ldoc 1000 j t -> begins j (bom ++ w ++ t ++ x).

(** ** Where both grammars agree
    no backslash, no point, control characters only as white space outside of strings, and
    no zero in front of a digit unless behind a digit *)
Definition outside (a : list Z) : Prop := Nat.Even (count_occ Z.eq_dec a 34).
Definition tame (t : list Z) : Prop :=
  bytes t /\ ~ In 92 t /\ ~ In 46 t /\
  (forall a b x, t = a ++ b :: x -> b < 32 -> outside a /\ (b = 9 \/ b = 10 \/ b = 13)) /\
  (forall a d x, t = a ++ 48 :: d :: x -> 48 <= d <= 57 -> exists a' c, a = a' ++ [c] /\ 48 <= c <= 57).
