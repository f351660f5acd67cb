(** * Model of putting cJSON items into objects (src/common/cJSON.c:241-250, 1879-1910,
    1928-1993, 2011-2185, 2292-2382, 2385-2542), on the memory of Jdup_Model. No proofs here.

    The hooks are malloc and free. Texts are the bytes before the final NUL. *)
From Verif Require Import Base Jdup_Model.
Open Scope Z_scope.

(** writes to the flags cJSON_StringIsConst and cJSON_IsReference *)
Definition w_const (h : mem) (p : Z) (b : bool) : res mem :=
  let* i := rd_item h p in
  Ok (set h p (BI (It (i_val i) (i_ref i) b (i_vs i) (i_name i) (i_nx i) (i_pv i) (i_ch i)))).

(** cJSON.c:1955-1986; suffix_object (1928-1932) is the two writes for a list that is not empty *)
Definition add_to_array (h : mem) (array item : Z) : res (bool * mem) :=
  if (item =? 0) || (array =? 0) || (array =? item) then Ok (false, h)
  else
    let* a := rd_item h array in
    if i_ch a =? 0
    then let* h := w_ch h array item in let* h := w_pv h item item in let* h := w_nx h item 0 in Ok (true, h)
    else
      let* c := rd_item h (i_ch a) in
      if i_pv c =? 0 then Ok (true, h)
      else
        let* h := w_nx h (i_pv c) item in
        let* h := w_pv h item (i_pv c) in
        let* a := rd_item h array in
        let* h := w_pv h (i_ch a) item in Ok (true, h).

(** cJSON.c:2037-2040, and 2358-2362 *)
Definition free_name (h : mem) (item : Z) : res mem :=
  let* i := rd_item h item in
  if negb (i_const i) && negb (i_name i =? 0) then free h (i_name i) else Ok h.

(** cJSON.c:2011-2046; [key] is the parameter string, [cst] constant_key *)
Definition add_to_object (s : st) (object key item : Z) (cst : bool) : res (bool * st) :=
  if (object =? 0) || (key =? 0) || (item =? 0) || (object =? item) then Ok (false, s)
  else
    let* k := (if cst then Ok (key, s) else strdup s key) in
    let s := snd k in
    if fst k =? 0 then Ok (false, s)
    else
      let* h := free_name (ms_h s) item in
      let* h := w_name h item (fst k) in
      let* h := w_const h item cst in
      let* r := add_to_array h object item in
      Ok (fst r, hs s (snd r)).

(** cJSON.c:2385-2542: the cJSON_Create functions without elements; [val] is what becomes of
    type, valueint and valuedouble, [str] the text for cJSON_CreateString and cJSON_CreateRaw
    (0 for the others, [with_str] false) *)
Definition create (fuel : nat) (s : st) (val : Z) (with_str : bool) (str : Z) : res (Z * st) :=
  let a := alloc s (BI (It 0 false false 0 0 0 0 0)) in
  let new := fst a in
  let s := snd a in
  if new =? 0 then Ok (0, s)
  else
    let s := hs s (set (ms_h s) new (BI (It val false false 0 0 0 0 0))) in
    if with_str
    then
      let* v := strdup s str in
      let* h := w_vs (ms_h (snd v)) new (fst v) in
      let s := hs (snd v) h in
      if fst v =? 0 then let* h := delete fuel (ms_h s) new in Ok (0, hs s h) else Ok (new, s)
    else Ok (new, s).

(** cJSON.c:2079-2185: cJSON_AddNullToObject and the others *)
Definition add_new (fuel : nat) (s : st) (object key val : Z) (with_str : bool) (str : Z) : res (Z * st) :=
  let* c := create fuel s val with_str str in
  let* r := add_to_object (snd c) object key (fst c) false in
  if fst r then Ok (fst c, snd r)
  else let* h := delete fuel (ms_h (snd r)) (fst c) in Ok (0, hs (snd r) h).

(** cJSON.c:1935-1953 *)
Definition reference (s : st) (item : Z) : res (Z * st) :=
  if item =? 0 then Ok (0, s)
  else
    let a := alloc s (BI (It 0 false false 0 0 0 0 0)) in
    if fst a =? 0 then Ok (0, snd a)
    else
      let* i := rd_item (ms_h (snd a)) item in
      Ok (fst a, hs (snd a) (set (ms_h (snd a)) (fst a) (BI (It (i_val i) true (i_const i) (i_vs i) 0 0 0 (i_ch i))))).
(** cJSON.c:2069-2077 *)
Definition add_reference (s : st) (object key item : Z) : res (bool * st) :=
  if (object =? 0) || (key =? 0) then Ok (false, s)
  else let* r := reference s item in add_to_object (snd r) object key (fst r) false.

(** strcmp, and cJSON.c:132-151 (tolower of the C locale) *)
Definition low (c : Z) : Z := if (65 <=? c) && (c <=? 90) then c + 32 else c.
Definition same_name (cs : bool) (a b : list Z) : bool :=
  if cs then bseq a b else bseq (map low a) (map low b).

(** the loops of cJSON.c:1890-1903; answers the item where they stop *)
Fixpoint seek (fuel : nat) (h : mem) (t : list Z) (c : Z) (cs : bool) : res Z :=
  match fuel with
  | O => NoFuel
  | S f =>
      if c =? 0 then Ok 0
      else
        let* i := rd_item h c in
        if i_name i =? 0
        then if cs then Ok c else seek f h t (i_nx i) cs
        else
          let* n := rd_str h (i_name i) in
          if same_name cs t n then Ok c else seek f h t (i_nx i) cs
  end.
(** cJSON.c:1879-1910 *)
Definition get_item (fuel : nat) (h : mem) (object key : Z) (cs : bool) : res Z :=
  if (object =? 0) || (key =? 0) then Ok 0
  else
    let* t := rd_str h key in
    let* o := rd_item h object in
    let* c := seek fuel h t (i_ch o) cs in
    if c =? 0 then Ok 0
    else let* i := rd_item h c in Ok (if i_name i =? 0 then 0 else c).

(** cJSON.c:2304-2335: all but the deletion *)
Definition relink (h : mem) (parent item rep : Z) : res mem :=
  let* i := rd_item h item in
  let* h := w_nx h rep (i_nx i) in
  let* i := rd_item h item in
  let* h := w_pv h rep (i_pv i) in
  let* r := rd_item h rep in
  let* h := (if negb (i_nx r =? 0) then w_pv h (i_nx r) rep else Ok h) in
  let* p := rd_item h parent in
  let* h := (if i_ch p =? item
             then
               let* c := rd_item h (i_ch p) in
               let* h := (if i_pv c =? i_ch p then w_pv h rep rep else Ok h) in
               w_ch h parent rep
             else
               let* r := rd_item h rep in
               let* h := (if negb (i_pv r =? 0) then w_nx h (i_pv r) rep else Ok h) in
               let* r := rd_item h rep in
               if i_nx r =? 0
               then let* p := rd_item h parent in w_pv h (i_ch p) rep
               else Ok h) in
  let* h := w_nx h item 0 in
  w_pv h item 0.
(** cJSON.c:2292-2340 *)
Definition replace_at (fuel : nat) (h : mem) (parent item rep : Z) : res (bool * mem) :=
  if (parent =? 0) || (rep =? 0) || (item =? 0) then Ok (false, h)
  else if rep =? item then Ok (true, h)
  else
    let* h := relink h parent item rep in
    let* h := delete fuel h item in
    Ok (true, h).

(** cJSON.c:2351-2372 *)
Definition replace_in_object (fuel : nat) (s : st) (object key rep : Z) (cs : bool) : res (bool * st) :=
  if (rep =? 0) || (key =? 0) then Ok (false, s)
  else
    let* h := free_name (ms_h s) rep in
    let* k := strdup (hs s h) key in
    let s := snd k in
    let* h := w_name (ms_h s) rep (fst k) in
    if fst k =? 0 then Ok (false, hs s h)
    else
      let* h := w_const h rep false in
      let* x := get_item fuel h object key cs in
      let* r := replace_at fuel h object x rep in
      Ok (fst r, hs s (snd r)).
