(** * Model of the JSON printer (src/common/cJSON.c:427-612, 902-1027, 1187-1309, 1367-1438,
    1539-1598, 1714-1825). No proofs here.

    A buffer is the list of its bytes; a byte nobody has written is [UN]. Writing outside of
    the block is [FOob], a string function that runs into unwritten bytes or over the end is
    [FUninit] or [FOverread]. Sizes are mathematical integers: all of them stay far below
    2^64 because [ensure] refuses more than INT_MAX. *)
From Coq Require Import String.
From Verif Require Import Base Str_Spec Web_Model.
Open Scope Z_scope.

Definition UN : Z := -1.
Definition INT_MAX : Z := 2147483647.

(** what the C library says about a double that is not an int: its text with 15 and with 17
    digits (sprintf), and whether the first one is read back closely enough
    (cJSON.c:577-584) *)
Inductive num := NInt (v : Z) | NNan | NDbl (t15 : list Z) (close : bool) (t17 : list Z).
(** items: strings are the bytes in front of the terminating NUL, [None] is a NULL pointer;
    [PBad] is any other type *)
Inductive item :=
| PNull | PBool (b : bool) | PNum (n : num) | PRaw (s : option (list Z)) | PStr (s : option (list Z))
| PArr (l : list item) | PObj (l : list (option (list Z) * item)) | PBad.

(** cJSON.c:427-436; [re]: is there a realloc hook; [mem]: do the next allocations work (then
    all do); [live]: blocks of the printer that are not released *)
Record pb := PB { buf : option (list Z); len : Z; off : Z; dep : Z; noalloc : bool; fmtd : bool; re : bool;
                  mem : list bool; live : Z }.
Definition set_off (p : pb) (o : Z) : pb := PB (buf p) (len p) o (dep p) (noalloc p) (fmtd p) (re p) (mem p) (live p).
Definition set_dep (p : pb) (d : Z) : pb := PB (buf p) (len p) (off p) d (noalloc p) (fmtd p) (re p) (mem p) (live p).
Definition set_buf (p : pb) (b : option (list Z)) (n : Z) (m : list bool) (v : Z) : pb :=
  PB b n (off p) (dep p) (noalloc p) (fmtd p) (re p) m v.
Definition pop (m : list bool) : bool * list bool := match m with [] => (true, []) | b :: t => (b, t) end.

(** cJSON.c:439-522; the result is whether there is a pointer; it is buffer + offset *)
Definition ensure (p : pb) (needed : Z) : res (bool * pb) :=
  match buf p with
  | None => Ok (false, p)
  | Some b =>
      if (0 <? len p) && (len p <=? off p) then Ok (false, p)
      else if INT_MAX <? needed then Ok (false, p)
      else
        let need := needed + off p + 1 in
        if need <=? len p then Ok (true, p)
        else if noalloc p then Ok (false, p)
        else if INT_MAX <? need then Ok (false, p)
        else
          let sz := if INT_MAX / 2 <? need then INT_MAX else need * 2 in
          let '(ok, m) := pop (mem p) in
          if ok then
            if re p then Ok (true, set_buf p (Some (ztake sz b ++ zrepeat UN (sz - zlen b))) sz m (live p))
            else if zlen b <? off p + 1 then Fault FOverread
            else Ok (true, set_buf p (Some (ztake (off p + 1) b ++ zrepeat UN (sz - (off p + 1)))) sz m (live p))
          else Ok (false, set_buf p None 0 m (live p - 1))
  end.

(** stores at buffer + offset + k *)
Definition put (p : pb) (k : Z) (bs : list Z) : res pb :=
  match buf p with
  | None => Fault FNull
  | Some b => let* b' := of_opt FOob (zput b (off p + k) bs) in Ok (set_buf p (Some b') (len p) (mem p) (live p))
  end.

Fixpoint strlen (l : list Z) : res Z :=
  match l with
  | [] => Fault FOverread
  | b :: t => if b =? UN then Fault FUninit else if b =? 0 then Ok 0 else let* n := strlen t in Ok (n + 1)
  end.
(** cJSON.c:525-535 *)
Definition update_offset (p : pb) : res pb :=
  match buf p with
  | None => Ok p
  | Some b => let* n := strlen (zdrop (off p) b) in Ok (set_off p (off p + n))
  end.

(** reserve, then write a constant with its NUL: cJSON.c:919-927, 1377-1402 *)
Definition constant (p : pb) (needed : Z) (t : list Z) : res (bool * pb) :=
  let* e := ensure p needed in
  if negb (fst e) then Ok (false, snd e)
  else let* p := put (snd e) 0 (t ++ [0]) in Ok (true, p).

(** cJSON.c:545-612. sprintf into number_buffer[26] (its length is looked at afterwards);
    [dp] is the decimal point of the locale. *)
Definition number_text (n : num) : res (list Z) :=
  let sprintf t := if 26 <=? zlen t then Fault FOob else Ok t in
  match n with
  | NNan => sprintf (str "null")
  | NInt v => sprintf (fmt_d v)
  | NDbl a close b => let* t := sprintf a in if close then Ok t else sprintf b
  end.
Definition print_number (dp : Z) (n : num) (p : pb) : res (bool * pb) :=
  let* t := number_text n in
  if 25 <? zlen t then Ok (false, p)
  else let* e := ensure p (zlen t + 1) in
       if negb (fst e) then Ok (false, snd e)
       else let* p := put (snd e) 0 (map (fun c => if c =? dp then 46 else c) t ++ [0]) in
            Ok (true, set_off p (off p + zlen t)).

(** cJSON.c:930-953: number of bytes that escaping adds *)
Definition short_escape (b : Z) : bool :=
  (b =? 34) || (b =? 92) || (b =? 8) || (b =? 12) || (b =? 10) || (b =? 13) || (b =? 9).
Fixpoint extra (s : list Z) : Z :=
  match s with
  | [] => 0
  | b :: t => (if short_escape b then 1 else if b <? 32 then 5 else 0) + extra t
  end.
(** lower case hexadecimal digit (printf %x) *)
Definition hexc (v : Z) : Z := if v <? 10 then 48 + v else 87 + v.
(** cJSON.c:976-1015: [k] is the position behind the opening quote and what is written *)
Fixpoint copy (s : list Z) (k : Z) (p : pb) : res pb :=
  match s with
  | [] => Ok p
  | b :: t =>
      if (31 <? b) && negb (b =? 34) && negb (b =? 92) then let* p := put p k [b] in copy t (k + 1) p
      else
        let* p := put p k [92] in
        let one c := let* p := put p (k + 1) [c] in copy t (k + 2) p in
        if b =? 92 then one 92
        else if b =? 34 then one 34
        else if b =? 8 then one 98
        else if b =? 12 then one 102
        else if b =? 10 then one 110
        else if b =? 13 then one 114
        else if b =? 9 then one 116
        else
          (* sprintf "u%04x" and its NUL *)
          let* p := put p (k + 1) [117; hexc (b / 4096 mod 16); hexc (b / 256 mod 16); hexc (b / 16 mod 16); hexc (b mod 16); 0] in
          copy t (k + 6) p
  end.
(** cJSON.c:902-1021 *)
Definition print_string (s : option (list Z)) (p : pb) : res (bool * pb) :=
  match s with
  | None => constant p 3 (str """""")
  | Some s =>
      let n := zlen s + extra s in
      let* e := ensure p (n + 3) in
      if negb (fst e) then Ok (false, snd e)
      else
        let p := snd e in
        if extra s =? 0 then
          let* p := put p 0 [34] in
          let* p := put p 1 s in
          let* p := put p (n + 1) [34; 0] in Ok (true, p)
        else
          let* p := put p 0 [34] in
          let* p := copy s 1 p in
          let* p := put p (n + 1) [34; 0] in Ok (true, p)
  end.

(** the text between two elements of an array: cJSON.c:1569-1584 *)
Definition comma (p : pb) : res (bool * pb) :=
  let n := if fmtd p then 2 else 1 in
  let* e := ensure p (n + 1) in
  if negb (fst e) then Ok (false, snd e)
  else let* p := put (snd e) 0 ([44] ++ (if fmtd p then [32] else []) ++ [0]) in Ok (true, set_off p (off p + n)).
(** around a member of an object: tabs (cJSON.c:1746-1759), colon (1768-1779), end of the
    member (1788-1807) *)
Definition tabs (p : pb) : res (bool * pb) :=
  if fmtd p then
    let* e := ensure p (dep p) in
    if negb (fst e) then Ok (false, snd e)
    else let* p := put (snd e) 0 (zrepeat 9 (dep p)) in Ok (true, set_off p (off p + dep p))
  else Ok (true, p).
Definition colon (p : pb) : res (bool * pb) :=
  let n := if fmtd p then 2 else 1 in
  let* e := ensure p n in
  if negb (fst e) then Ok (false, snd e)
  else let* p := put (snd e) 0 ([58] ++ (if fmtd p then [9] else [])) in Ok (true, set_off p (off p + n)).
Definition member_end (last : bool) (p : pb) : res (bool * pb) :=
  let n := (if fmtd p then 1 else 0) + (if last then 0 else 1) in
  let* e := ensure p (n + 1) in
  if negb (fst e) then Ok (false, snd e)
  else let* p := put (snd e) 0 ((if last then [] else [44]) ++ (if fmtd p then [10] else []) ++ [0]) in
       Ok (true, set_off p (off p + n)).

(** run the next part only if the one before said true *)
Definition andthen (r : res (bool * pb)) (k : pb -> res (bool * pb)) : res (bool * pb) :=
  let* x := r in if fst x then k (snd x) else Ok x.

(** cJSON.c:1367-1438, 1539-1598 [print_array], 1714-1825 [print_object] *)
Fixpoint print_value (dp : Z) (j : item) (p : pb) : res (bool * pb) :=
  match j with
  | PNull => constant p 5 (str "null")
  | PBool false => constant p 6 (str "false")
  | PBool true => constant p 5 (str "true")
  | PNum n => print_number dp n p
  | PRaw None => Ok (false, p)
  | PRaw (Some s) => constant p (zlen s + 1) s
  | PStr s => print_string s p
  | PArr l =>
      andthen (let* e := ensure p 1 in
               if negb (fst e) then Ok (false, snd e)
               else let* p := put (snd e) 0 [91] in Ok (true, set_dep (set_off p (off p + 1)) (dep p + 1))) (fun p =>
      andthen ((fix elems (l : list item) (p : pb) {struct l} : res (bool * pb) :=
                 match l with
                 | [] => Ok (true, p)
                 | x :: t =>
                     andthen (print_value dp x p) (fun p =>
                     let* p := update_offset p in
                     match t with
                     | [] => Ok (true, p)
                     | _ => andthen (comma p) (elems t)
                     end)
                 end) l p) (fun p =>
      andthen (constant p 2 [93]) (fun p => Ok (true, set_dep p (dep p - 1)))))
  | PObj l =>
      andthen (let n := if fmtd p then 2 else 1 in
               let* e := ensure p (n + 1) in
               if negb (fst e) then Ok (false, snd e)
               else let* p := put (snd e) 0 ([123] ++ (if fmtd p then [10] else [])) in
                    Ok (true, set_dep (set_off p (off p + n)) (dep p + 1))) (fun p =>
      andthen ((fix mems (l : list (option (list Z) * item)) (p : pb) {struct l} : res (bool * pb) :=
                 match l with
                 | [] => Ok (true, p)
                 | (k, x) :: t =>
                     andthen (tabs p) (fun p =>
                     andthen (print_string k p) (fun p =>
                     let* p := update_offset p in
                     andthen (colon p) (fun p =>
                     andthen (print_value dp x p) (fun p =>
                     let* p := update_offset p in
                     andthen (member_end (match t with [] => true | _ => false end) p) (mems t)))))
                 end) l p) (fun p =>
      andthen (let* e := ensure p (if fmtd p then dep p + 1 else 2) in
               if negb (fst e) then Ok (false, snd e)
               else let* p := put (snd e) 0 ((if fmtd p then zrepeat 9 (dep p - 1) else []) ++ [125; 0]) in
                    Ok (true, p)) (fun p => Ok (true, set_dep p (dep p - 1)))))
  | PBad => Ok (false, p)
  end.

(** the C string at the start of a block *)
Definition cstring (b : list Z) : res (list Z) := let* n := strlen b in Ok (ztake n b).

(** cJSON.c:1187-1249 [print]: the returned block ([None]: NULL) and the number of blocks that
    are not released. [re]: is there a realloc hook. *)
Definition print (dp : Z) (re fmt : bool) (mem : list bool) (j : item) : res (option (list Z) * Z) :=
  let '(ok, m) := pop mem in
  if negb ok then Ok (None, 0)
  else
    let fail (p : pb) := Ok (None, match buf p with None => live p | Some _ => live p - 1 end) in
    let* r := print_value dp j (PB (Some (zrepeat UN 256)) 256 0 0 false fmt re m 1) in
    if negb (fst r) then fail (snd r)
    else
      let* p := update_offset (snd r) in
      let '(ok, m') := pop (Jprint_Model.mem p) in
      if negb ok then fail p
      else match buf p with
           | None => Fault FNull
           | Some b =>
               if re then Ok (Some (ztake (off p + 1) b ++ zrepeat UN (off p + 1 - zlen b)), live p)
               else
                 let n := Z.min (len p) (off p + 1) in
                 if zlen b <? n then Fault FOverread
                 else let* c := of_opt FOob (zput (zrepeat UN (off p + 1)) 0 (ztake n b)) in
                      let* c := of_opt FOob (zput c (off p) [0]) in
                      Ok (Some c, live p + 1 - 1)
           end.
(** cJSON.c:1262-1290 [cJSON_PrintBuffered] *)
Definition print_buffered (dp : Z) (re fmt : bool) (mem : list bool) (prebuffer : Z) (j : item) : res (option (list Z) * Z) :=
  if prebuffer <? 0 then Ok (None, 0)
  else let '(ok, m) := pop mem in
       if negb ok then Ok (None, 0)
       else let* r := print_value dp j (PB (Some (zrepeat UN prebuffer)) prebuffer 0 0 false fmt re m 1) in
            let p := snd r in
            if fst r then Ok (buf p, live p)
            else Ok (None, match buf p with None => live p | Some _ => live p - 1 end).
(** cJSON.c:1292-1309 [cJSON_PrintPreallocated]: the result and the caller's buffer [b], whose
    size the caller passes *)
Definition print_prealloc (dp : Z) (fmt : bool) (b : list Z) (j : item) : res (bool * option (list Z)) :=
  let* r := print_value dp j (PB (Some b) (zlen b) 0 0 true fmt true [] 0) in
  Ok (fst r, buf (snd r)).
