(** * What a JSON text means (RFC 8259), without reference to the parser.

    Numbers are read as integers, because that is all the program uses: the fraction is cut
    off. Strings are C strings, they end at the first NUL. *)
From Coq Require Import String.
From Verif Require Import Base Str_Spec Conf_Model.
Open Scope Z_scope.

(** insignificant white space: blank, tab, line feed, carriage return *)
Definition ws (l : list Z) : Prop := Forall (fun b => b = 32 \/ b = 9 \/ b = 10 \/ b = 13) l.

(** ** Strings *)
Inductive hexd : Z -> Z -> Prop :=
| hexd_num c : 48 <= c <= 57 -> hexd c (c - 48)
| hexd_upper c : 65 <= c <= 70 -> hexd c (c - 55)
| hexd_lower c : 97 <= c <= 102 -> hexd c (c - 87).
(** four hexadecimal digits and their value *)
Inductive hex4 : list Z -> Z -> Prop :=
| hex4_intro a b c d x y z w : hexd a x -> hexd b y -> hexd c z -> hexd d w ->
    hex4 [a; b; c; d] (4096 * x + 256 * y + 16 * z + w).

(** UTF-8 (RFC 3629) *)
Definition utf8_of (c : Z) : list Z :=
  if c <? 128 then [c]
  else if c <? 2048 then [192 + c / 64; 128 + c mod 64]
  else if c <? 65536 then [224 + c / 4096; 128 + (c / 64) mod 64; 128 + c mod 64]
  else [240 + c / 262144; 128 + (c / 4096) mod 64; 128 + (c / 64) mod 64; 128 + c mod 64].

(** the character after the backslash and what it stands for *)
Definition escapes : list (Z * Z) :=
  [(34, 34); (92, 92); (47, 47); (98, 8); (102, 12); (110, 10); (114, 13); (116, 9)].

(** [chars s t]: [t] between quotes stands for the bytes [s] *)
Inductive chars : list Z -> list Z -> Prop :=
| ch_nil : chars [] []
| ch_raw b s t : 32 <= b < 256 -> b <> 34 -> b <> 92 -> chars s t -> chars (b :: s) (b :: t)
| ch_esc c v s t : In (c, v) escapes -> chars s t -> chars (v :: s) (92 :: c :: t)
| ch_u h c s t : hex4 h c -> ~ (55296 <= c <= 57343) -> chars s t ->
    chars (utf8_of c ++ s) (92 :: 117 :: h ++ t)
| ch_pair h c h' c' s t : hex4 h c -> 55296 <= c <= 56319 -> hex4 h' c' -> 56320 <= c' <= 57343 -> chars s t ->
    chars (utf8_of (65536 + 1024 * (c - 55296) + (c' - 56320)) ++ s) (92 :: 117 :: h ++ 92 :: 117 :: h' ++ t).

(** [cstr s c]: [c] is the C string that starts at the bytes [s] and a terminating NUL *)
Inductive cstr : list Z -> list Z -> Prop :=
| cstr_all s : ~ In 0 s -> cstr s s
| cstr_nul s t : ~ In 0 s -> cstr (s ++ 0 :: t) s.

(** ** Numbers *)
Definition digits (l : list Z) : Prop := Forall (fun b => 48 <= b <= 57) l.
Fixpoint decval (l : list Z) : Z :=
  match l with [] => 0 | b :: t => (b - 48) * 10 ^ zlen t + decval t end.

(** [v] is the integer part of [m * 10^e], computed with double precision: a value of 2^31
    or more need only stay beyond 2^31, and a fraction that is within 2^-23 of the next
    integer may count as that integer *)
Definition trunc_of (m e v : Z) : Prop :=
  let p := m * 10 ^ Z.max 0 e in
  let q := 10 ^ Z.max 0 (- e) in
  (2 ^ 31 * q <= p -> 2 ^ 31 <= v) /\
  (p < 2 ^ 31 * q -> v * q <= p < (v + 1) * q \/ (p < v * q /\ (v * q - p) * 2 ^ 23 <= q)).

Inductive int_part : list Z -> Prop :=
| ip_zero : int_part [48]
| ip_other b t : 49 <= b <= 57 -> digits t -> int_part (b :: t).
(** text and digits of the fraction *)
Inductive frac : list Z -> list Z -> Prop :=
| fr_none : frac [] []
| fr_some ds : digits ds -> ds <> [] -> frac (46 :: ds) ds.
(** text and value of the exponent *)
Inductive expo : list Z -> Z -> Prop :=
| ex_none : expo [] 0
| ex_pos e s ds : e = 101 \/ e = 69 -> s = [] \/ s = [43] -> digits ds -> ds <> [] -> expo (e :: s ++ ds) (decval ds)
| ex_neg e ds : e = 101 \/ e = 69 -> digits ds -> ds <> [] -> expo (e :: 45 :: ds) (- decval ds).
Inductive number : list Z -> Z -> Prop :=
| num_pos i f fd e x v : int_part i -> frac f fd -> expo e x ->
    trunc_of (decval (i ++ fd)) (x - zlen fd) v -> number (i ++ f ++ e) v
| num_neg i f fd e x v : int_part i -> frac f fd -> expo e x ->
    trunc_of (decval (i ++ fd)) (x - zlen fd) v -> number (45 :: i ++ f ++ e) (- v).

(** ** Values
    [docN n j t]: the text [t] is a value [j] with at most [n] levels of nesting; a number has
    at most 63 characters. [N t v]: the text [t] is a number with integer part [v] *)
Section Values.
Context (N : list Z -> Z -> Prop).
Inductive docN : Z -> json -> list Z -> Prop :=
| d_null n : docN n JNull (str "null")
| d_true n : docN n (JBool true) (str "true")
| d_false n : docN n (JBool false) (str "false")
| d_num n t v : N t v -> zlen t <= 63 -> docN n (JNum v) t
| d_str n s c t : chars s t -> cstr s c -> docN n (JStr c) ([34] ++ t ++ [34])
| d_arr0 n w : 0 < n -> ws w -> docN n (JArr []) ([91] ++ w ++ [93])
| d_arr n l t : 0 < n -> docsN (n - 1) l t -> docN n (JArr l) ([91] ++ t ++ [93])
| d_obj0 n w : 0 < n -> ws w -> docN n (JObj []) ([123] ++ w ++ [125])
| d_obj n l t : 0 < n -> memsN (n - 1) l t -> docN n (JObj l) ([123] ++ t ++ [125])
with docsN : Z -> list json -> list Z -> Prop :=
| ds_one n j w t w' : ws w -> docN n j t -> ws w' -> docsN n [j] (w ++ t ++ w')
| ds_more n j l w t w' u : ws w -> docN n j t -> ws w' -> docsN n l u ->
    docsN n (j :: l) (w ++ t ++ w' ++ [44] ++ u)
with memsN : Z -> list (list Z * json) -> list Z -> Prop :=
| ms_one n k c kt j w1 w2 w3 t w4 : ws w1 -> chars k kt -> cstr k c -> ws w2 -> ws w3 -> docN n j t -> ws w4 ->
    memsN n [(c, j)] (w1 ++ [34] ++ kt ++ [34] ++ w2 ++ [58] ++ w3 ++ t ++ w4)
| ms_more n k c kt j w1 w2 w3 t w4 l u : ws w1 -> chars k kt -> cstr k c -> ws w2 -> ws w3 -> docN n j t -> ws w4 ->
    memsN n l u ->
    memsN n ((c, j) :: l) (w1 ++ [34] ++ kt ++ [34] ++ w2 ++ [58] ++ w3 ++ t ++ w4 ++ [44] ++ u).

(** a whole text: optional byte order mark, white space, value, white space *)
Inductive text_ofN : json -> list Z -> Prop :=
| text_intro bom w j t w' : bom = [] \/ bom = [239; 187; 191] -> ws w -> docN 1000 j t -> ws w' ->
    text_ofN j (bom ++ w ++ t ++ w').

(** the same value except that numbers may differ as far as one number text allows *)
Inductive alikeN : json -> json -> Prop :=
| al_null : alikeN JNull JNull
| al_bool b : alikeN (JBool b) (JBool b)
| al_num t v v' : N t v -> number t v' -> alikeN (JNum v) (JNum v')
| al_str s : alikeN (JStr s) (JStr s)
| al_arr l l' : alikesN l l' -> alikeN (JArr l) (JArr l')
| al_obj l l' : alikemN l l' -> alikeN (JObj l) (JObj l')
with alikesN : list json -> list json -> Prop :=
| als_nil : alikesN [] []
| als_cons j j' l l' : alikeN j j' -> alikesN l l' -> alikesN (j :: l) (j' :: l')
with alikemN : list (list Z * json) -> list (list Z * json) -> Prop :=
| alm_nil : alikemN [] []
| alm_cons k j j' l l' : alikeN j j' -> alikemN l l' -> alikemN ((k, j) :: l) ((k, j') :: l').

Scheme docN_mut := Minimality for docN Sort Prop
  with docsN_mut := Minimality for docsN Sort Prop
  with memsN_mut := Minimality for memsN Sort Prop.
Combined Scheme docN_ind3 from docN_mut, docsN_mut, memsN_mut.
Scheme alN_mut := Minimality for alikeN Sort Prop
  with alsN_mut := Minimality for alikesN Sort Prop
  with almN_mut := Minimality for alikemN Sort Prop.
Combined Scheme alikeN_ind3 from alN_mut, alsN_mut, almN_mut.
End Values.
Arguments d_null {N}. Arguments d_true {N}. Arguments d_false {N}. Arguments d_num {N}. Arguments d_str {N}.
Arguments d_arr0 {N}. Arguments d_arr {N}. Arguments d_obj0 {N}. Arguments d_obj {N}.
Arguments ds_one {N}. Arguments ds_more {N}. Arguments ms_one {N}. Arguments ms_more {N}. Arguments text_intro {N}.
Arguments al_null {N}. Arguments al_bool {N}. Arguments al_num {N}. Arguments al_str {N}. Arguments al_arr {N}.
Arguments al_obj {N}. Arguments als_nil {N}. Arguments als_cons {N}. Arguments alm_nil {N}. Arguments alm_cons {N}.

(** every JSON number *)
Notation doc := (docN number).
Notation docs := (docsN number).
Notation mems := (memsN number).
Notation text_of := (text_ofN number).
Notation alike := (alikeN number).
Notation alikes := (alikesN number).
Notation alikem := (alikemN number).
(** numbers without fraction and exponent that fit an [int] *)
Inductive integer : list Z -> Z -> Prop :=
| in_pos i : int_part i -> decval i < 2 ^ 31 -> integer i (decval i)
| in_neg i : int_part i -> decval i < 2 ^ 31 -> integer (45 :: i) (- decval i).
(** texts in which every number is such an integer *)
Notation plain_text := (text_ofN integer).
