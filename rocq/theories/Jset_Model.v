(** * Model of changing a string item, making arrays from C arrays and taking members out of
    objects (src/common/cJSON.c:400-425, 2186-2221, 2238-2260, 2545-2703), on the memory of
    Jdup_Model. No proofs here.

    A text may be given by a pointer into a string: the block and the offset. The type is the
    low byte of [i_val]. A string that was overwritten with a shorter one is a block of the
    shorter length: nobody uses the rest. *)
From Verif Require Import Base Jdup_Model Jobj_Model.
Open Scope Z_scope.

(** cJSON.h:94: cJSON_String *)
Definition is_string (val : Z) : bool := Z.testbit val 4.

(** [SRet p s]: the pointer returned; [SOverlap]: strcpy between strings that overlap, which
    the C standard leaves undefined *)
Inductive sout := SRet (p : Z) (s : st) | SOverlap.
(** cJSON.c:400-425; the text is the string at [src] from [off] on *)
Definition set_text (s : st) (object src off : Z) : res sout :=
  let* i := rd_item (ms_h s) object in
  if negb (is_string (i_val i)) || i_ref i then Ok (SRet 0 s)
  else
    let* t0 := rd_str (ms_h s) src in
    let t := zdrop off t0 in
    let* old := rd_str (ms_h s) (i_vs i) in
    if zlen t <=? zlen old
    then if src =? i_vs i then Ok SOverlap
         else Ok (SRet (i_vs i) (hs s (set (ms_h s) (i_vs i) (BS t))))
    else
      let a := alloc s (BS t) in
      let s := snd a in
      if fst a =? 0 then Ok (SRet 0 s)
      else
        let* h := (if i_vs i =? 0 then Ok (ms_h s) else free (ms_h s) (i_vs i)) in
        let* h := w_vs h object (fst a) in
        Ok (SRet (fst a) (hs s h)).

(** an element of a C array: what becomes of type, valueint and valuedouble; whether it is a
    text, and the text *)
Record elem := El { e_val : Z; e_ws : bool; e_str : Z }.
(** the loops of cJSON.c:2559-2576 (cJSON_CreateIntArray), 2599-2616, 2639-2656 and 2679-2696, and the
    last lines; [p] is the last item made, 0 before the first one *)
Fixpoint fill (fuel : nat) (s : st) (a p : Z) (es : list elem) : res (Z * st) :=
  match es with
  | [] =>
      let* i := rd_item (ms_h s) a in
      if i_ch i =? 0 then Ok (a, s)
      else let* h := w_pv (ms_h s) (i_ch i) p in Ok (a, hs s h)
  | e :: es =>
      let* c := create fuel s (e_val e) (e_ws e) (e_str e) in
      let s := snd c in
      if fst c =? 0 then let* h := delete fuel (ms_h s) a in Ok (0, hs s h)
      else
        let* h := (if p =? 0 then w_ch (ms_h s) a (fst c)
                   else let* h := w_nx (ms_h s) p (fst c) in w_pv h (fst c) p) in
        fill fuel (hs s h) a (fst c) es
  end.
(** cJSON.c:2545-2703: cJSON_CreateIntArray and the others; 32 is cJSON_Array. That count is
    not negative and the C array is there is not modelled (NULL otherwise). *)
Definition create_array (fuel : nat) (s : st) (es : list elem) : res (Z * st) :=
  let* c := create fuel s 32 false 0 in
  if fst c =? 0 then Ok (0, snd c) else fill fuel (snd c) (fst c) 0 es.

(** cJSON.c:2186-2221 *)
Definition detach_at (h : mem) (parent item : Z) : res (Z * mem) :=
  if (parent =? 0) || (item =? 0) then Ok (0, h)
  else
    let* p := rd_item h parent in
    let* h := (if item =? i_ch p then Ok h else let* i := rd_item h item in w_nx h (i_pv i) (i_nx i)) in
    let* i := rd_item h item in
    let* h := (if i_nx i =? 0 then Ok h else w_pv h (i_nx i) (i_pv i)) in
    let* p := rd_item h parent in
    let* i := rd_item h item in
    let* h := (if item =? i_ch p then w_ch h parent (i_nx i)
               else if i_nx i =? 0 then w_pv h (i_ch p) (i_pv i) else Ok h) in
    let* h := w_pv h item 0 in
    let* h := w_nx h item 0 in
    Ok (item, h).
(** cJSON.c:2238-2250 *)
Definition detach_member (fuel : nat) (h : mem) (object key : Z) (cs : bool) : res (Z * mem) :=
  let* x := get_item fuel h object key cs in detach_at h object x.
(** cJSON.c:2252-2260 *)
Definition delete_member (fuel : nat) (h : mem) (object key : Z) (cs : bool) : res mem :=
  let* x := detach_member fuel h object key cs in delete fuel (snd x) (fst x).
