(** * What the items of the JSON library stand for, without reference to the printer. *)
From Coq Require Import String.
From Verif Require Import Base Str_Spec Conf_Model Jprint_Model.
Open Scope Z_scope.

(** bytes of a C string *)
Definition c_bytes (s : list Z) : Prop := Forall (fun b => 0 < b < 256) s.
Definition c_opt (o : option (list Z)) (s : list Z) : Prop :=
  match o with None => s = [] | Some t => t = s /\ c_bytes s end.

(** [means n j v]: the item [j] is the value [v] with at most [n] levels of nesting; its
    numbers are ints other than INT_MIN *)
Inductive means : Z -> item -> json -> Prop :=
| m_null n : means n PNull JNull
| m_bool n b : means n (PBool b) (JBool b)
| m_int n v : - 2 ^ 31 < v < 2 ^ 31 -> means n (PNum (NInt v)) (JNum v)
| m_str n o s : c_opt o s -> means n (PStr o) (JStr s)
| m_arr n l vs : 0 < n -> means_all (n - 1) l vs -> means n (PArr l) (JArr vs)
| m_obj n l vs : 0 < n -> means_mem (n - 1) l vs -> means n (PObj l) (JObj vs)
with means_all : Z -> list item -> list json -> Prop :=
| ma_nil n : means_all n [] []
| ma_cons n j v l vs : means n j v -> means_all n l vs -> means_all n (j :: l) (v :: vs)
with means_mem : Z -> list (option (list Z) * item) -> list (list Z * json) -> Prop :=
| mm_nil n : means_mem n [] []
| mm_cons n o k j v l vs : c_opt o k -> means n j v -> means_mem n l vs -> means_mem n ((o, j) :: l) ((k, v) :: vs).
Scheme means_mut := Minimality for means Sort Prop
  with means_all_mut := Minimality for means_all Sort Prop
  with means_mem_mut := Minimality for means_mem Sort Prop.
Combined Scheme means_ind3 from means_mut, means_all_mut, means_mem_mut.

(** a block that begins with the C string [t] *)
Definition holds (b t : list Z) : Prop := ~ In 0 t /\ ~ In UN t /\ exists r, b = t ++ 0 :: r.

(** ** Items of which the printer needs nothing but C strings and short number texts *)
Definition c_text (s : list Z) : Prop := Forall (fun b => 0 < b) s.
Definition c_text_opt (o : option (list Z)) : Prop := match o with None => True | Some s => c_text s end.
(** a double whose text with 15 digits (or 17, if that is needed) has at most 25 bytes, as
    those of IEEE doubles have: at most 24 *)
Definition short_num (n : num) : Prop :=
  match n with
  | NInt v => - 2 ^ 31 <= v < 2 ^ 31
  | NNan => True
  | NDbl a close b => c_text a /\ c_text b /\ zlen a <= 25 /\ (close = false -> zlen b <= 25)
  end.
Inductive proper : item -> Prop :=
| p_null : proper PNull
| p_bool b : proper (PBool b)
| p_num n : short_num n -> proper (PNum n)
| p_raw o : c_text_opt o -> proper (PRaw o)
| p_str o : c_text_opt o -> proper (PStr o)
| p_arr l : proper_all l -> proper (PArr l)
| p_obj l : proper_mem l -> proper (PObj l)
| p_bad : proper PBad
with proper_all : list item -> Prop :=
| pa_nil : proper_all []
| pa_cons j l : proper j -> proper_all l -> proper_all (j :: l)
with proper_mem : list (option (list Z) * item) -> Prop :=
| pm_nil : proper_mem []
| pm_cons o j l : c_text_opt o -> proper j -> proper_mem l -> proper_mem ((o, j) :: l).
Scheme proper_mut := Minimality for proper Sort Prop
  with proper_all_mut := Minimality for proper_all Sort Prop
  with proper_mem_mut := Minimality for proper_mem Sort Prop.
Combined Scheme proper_ind3 from proper_mut, proper_all_mut, proper_mem_mut.

(** the decimal point of a locale *)
Definition point (dp : Z) : Prop := dp = 46 \/ dp = 44.
