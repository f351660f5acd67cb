(** * Model of the JSON parser (src/common/cJSON.c:262-374, 613-900, 1037-1178, 1310-1364,
    1440-1537, 1600-1712). No proofs here.

    The parse buffer is the text and its terminating NUL. Instead of an offset the model
    carries the bytes from the offset to the end of the buffer. Memory comes from malloc,
    which is assumed to succeed; releasing it after an error and the error position are
    left out. *)
From Coq Require Import String.
From Verif Require Import Base Str_Spec Conf_Model.
Open Scope Z_scope.

Definition QUOTE : Z := 34.    Definition BSLASH : Z := 92.
Definition COMMA : Z := 44.    Definition COLON : Z := 58.
Definition LBRACK : Z := 91.   Definition RBRACK : Z := 93.
Definition LBRACE : Z := 123.  Definition RBRACE : Z := 125.
(** cJSON.h:137 *)
Definition NESTING : Z := 1000.

(** cJSON.c:1038-1061 [buffer_skip_whitespace]: every byte up to 32 counts, the terminating
    NUL included; at the end of the buffer the offset goes back by one. [last] is the byte
    before [r]. *)
Fixpoint skip_loop (last : Z) (r : list Z) : list Z :=
  match r with
  | [] => [last]
  | b :: t => if b <=? 32 then skip_loop b t else r
  end.
Definition skip (r : list Z) : list Z := match r with [] => [] | b :: _ => skip_loop b r end.

(** ** Strings *)
(** cJSON.c:785-806: from behind the opening quote to the closing one; the number of bytes
    and the number of backslashes skipped. [None]: the buffer ends first. *)
Fixpoint str_scan (r : list Z) (n skipped : Z) : option (Z * Z) :=
  match r with
  | [] => None
  | b :: t =>
      if b =? QUOTE then Some (n, skipped)
      else if b =? BSLASH then
        match t with [] => None | _ :: t' => str_scan t' (n + 2) (skipped + 1) end
      else str_scan t (n + 1) skipped
  end.

(** one hexadecimal digit *)
Definition hex (c : Z) : option Z :=
  if (48 <=? c) && (c <=? 57) then Some (c - 48)
  else if (65 <=? c) && (c <=? 70) then Some (10 + c - 65)
  else if (97 <=? c) && (c <=? 102) then Some (10 + c - 97)
  else None.
(** cJSON.c:615-648: [k] digits still to be read at [r]; an invalid digit gives 0 *)
Fixpoint hex_loop (k : nat) (r : list Z) (h : Z) : res Z :=
  match k with
  | O => Ok h
  | S k' =>
      match r with
      | [] => Fault FOob
      | c :: t => match hex c with
                  | None => Ok 0
                  | Some d => hex_loop k' t (match k' with O => h + d | _ => Z.shiftl (h + d) 4 end)
                  end
      end
  end.
Definition parse_hex4 (r : list Z) : res Z := hex_loop 4 r 0.

(** cJSON.c:704-757: the UTF-8 bytes written for a code point, [None] if it is too large *)
Definition cont (c : Z) : Z := Z.land (Z.lor c 128) 191.
Definition utf8 (c : Z) : option (list Z) :=
  if c <? 128 then Some [Z.land c 127]
  else if c <? 2048 then Some [Z.land (Z.lor (Z.shiftr c 6) 192) 255; cont c]
  else if c <? 65536 then
    Some [Z.land (Z.lor (Z.shiftr c 12) 224) 255; cont (Z.shiftr c 6); cont c]
  else if c <=? 1114111 then
    Some [Z.land (Z.lor (Z.shiftr c 18) 240) 255; cont (Z.shiftr c 12); cont (Z.shiftr c 6); cont c]
  else None.

(** cJSON.c:652-770 [utf16_literal_to_utf8] at [r] with [k] bytes before the closing quote:
    the bytes and the length of the sequence, [None] is the result 0 *)
Definition utf16 (r : list Z) (k : Z) : res (option (list Z * Z)) :=
  if k <? 6 then Ok None
  else
    let* c1 := parse_hex4 (zdrop 2 r) in
    if (56320 <=? c1) && (c1 <=? 57343) then Ok None
    else if (55296 <=? c1) && (c1 <=? 56319) then
      let r2 := zdrop 6 r in
      if k - 6 <? 6 then Ok None
      else
        let* a := of_opt FOob (zget r2 0) in
        if negb (a =? BSLASH) then Ok None
        else
          let* b := of_opt FOob (zget r2 1) in
          if negb (b =? 117) then Ok None
          else
            let* c2 := parse_hex4 (zdrop 2 r2) in
            if (c2 <? 56320) || (57343 <? c2) then Ok None
            else
              let c := 65536 + Z.lor (Z.shiftl (Z.land c1 1023) 10) (Z.land c2 1023) in
              Ok (match utf8 c with Some bs => Some (bs, 12) | None => None end)
    else Ok (match utf8 c1 with Some bs => Some (bs, 6) | None => None end).

(** writing to the output block of [cap] bytes *)
Definition emit (cap : Z) (out bs : list Z) : res (list Z) :=
  if zlen out + zlen bs <=? cap then Ok (out ++ bs) else Fault FOob.

(** cJSON.c:838-858: the single-character escapes *)
Definition simple_escape (c : Z) : option Z :=
  if c =? 98 then Some 8
  else if c =? 102 then Some 12
  else if c =? 110 then Some 10
  else if c =? 114 then Some 13
  else if c =? 116 then Some 9
  else if (c =? QUOTE) || (c =? BSLASH) || (c =? 47) then Some c
  else None.

(** cJSON.c:818-876: [r] from the input pointer on, [k] = input_end - input_pointer (it may
    become negative). [None]: goto fail. *)
Fixpoint str_loop (fuel : nat) (cap : Z) (r : list Z) (k : Z) (out : list Z) : res (option (list Z)) :=
  if k <=? 0 then Ok (Some out)
  else
    match fuel with
    | O => NoFuel
    | S f =>
        let* b := of_opt FOob (zget r 0) in
        if negb (b =? BSLASH) then
          let* out := emit cap out [b] in str_loop f cap (zdrop 1 r) (k - 1) out
        else
          let* c := of_opt FOob (zget r 1) in
          match simple_escape c with
          | Some e => let* out := emit cap out [e] in str_loop f cap (zdrop 2 r) (k - 2) out
          | None =>
              if c =? 117 then
                let* u := utf16 r k in
                match u with
                | None => Ok None
                | Some (bs, n) => let* out := emit cap out bs in str_loop f cap (zdrop n r) (k - n) out
                end
              else Ok None
          end
    end.

(** the C string that begins at an array of bytes which ends with a NUL *)
Fixpoint cut (l : list Z) : list Z :=
  match l with [] => [] | b :: t => if b =? 0 then [] else b :: cut t end.

(** cJSON.c:773-899 [parse_string]; the first byte is read without a test of the length.
    The result is the string and the bytes behind the closing quote. *)
Definition parse_string (r : list Z) : res (option (list Z * list Z)) :=
  let* q := of_opt FOob (zget r 0) in
  if negb (q =? QUOTE) then Ok None
  else
    let r1 := zdrop 1 r in
    match str_scan r1 0 0 with
    | None => Ok None
    | Some (n, skipped) =>
        let cap := n + 1 - skipped + 1 in
        let* o := str_loop (length r) cap r1 n [] in
        match o with
        | None => Ok None
        | Some out => let* out := emit cap out [0] in Ok (Some (cut out, zdrop (n + 1) r1))
        end
    end.

(** ** Numbers *)
Definition digit (b : Z) : bool := (48 <=? b) && (b <=? 57).
Definition num_char (b : Z) : bool :=
  digit b || (b =? 43) || (b =? 45) || (b =? 101) || (b =? 69) || (b =? 46).
(** cJSON.c:321-347: at most 63 bytes are copied *)
Fixpoint num_copy (k : nat) (r : list Z) : list Z :=
  match k, r with
  | S k', b :: t => if num_char b then b :: num_copy k' t else []
  | _, _ => []
  end.

Fixpoint span_digits (l : list Z) : list Z * list Z :=
  match l with
  | b :: t => if digit b then (b :: fst (span_digits t), snd (span_digits t)) else ([], l)
  | [] => ([], [])
  end.
Definition dec (l : list Z) : Z := fold_left (fun v b => 10 * v + (b - 48)) l 0.
(** a sign; the result is whether it is a minus *)
Definition span_sign (l : list Z) : bool * list Z :=
  match l with
  | b :: t => if b =? 45 then (true, t) else if b =? 43 then (false, t) else (false, l)
  | [] => (false, [])
  end.

Fixpoint drop_zeros (l : list Z) : list Z :=
  match l with b :: t => if b =? 48 then drop_zeros t else l | [] => [] end.

(** [m * 10^e] for [m >= 0] with [k] digits (no leading zeros), converted to the nearest IEEE double (ties to
    even) and truncated. Numbers of 2^53 and more are larger than every int, so that their
    rounding does not matter; beyond 10^20 the result is just 10^20. *)
Definition trunc_double (m e k : Z) : Z :=
  if m =? 0 then 0
  else if 20 <? k + e then 10 ^ 20
  else if k + e <? 0 then 0
  else if 0 <=? e then m * 10 ^ e
  else
    let q := 10 ^ (- e) in
    let n := m / q in
    if 2 ^ 53 <=? n then n
    else
      let b := if n =? 0 then -1 else Z.log2 n in
      if (((n + 1) * q - m) * 2 ^ (53 - b) <=? q) then n + 1 else n.

(** C library [strtod] on a string of the characters above, in the "C" locale, followed by
    the truncation of cJSON.c:357-369 (without the saturation, see [valueint]): the value
    and the number of characters used; [None] if there is no number. *)
Definition strtod (s : list Z) : option (Z * Z) :=
  let '(neg, s1) := span_sign s in
  let '(ip, s2) := span_digits s1 in
  let '(fp, s3) :=
    match s2 with
    | b :: t => if b =? 46 then
                  (if (zlen ip =? 0) && (zlen (fst (span_digits t)) =? 0) then ([], s2) else span_digits t)
                else ([], s2)
    | [] => ([], s2)
    end in
  if zlen ip + zlen fp =? 0 then None
  else
    let '(ex, s4) :=
      match s3 with
      | b :: t =>
          if (b =? 101) || (b =? 69) then
            let '(eneg, t1) := span_sign t in
            let '(ds, t2) := span_digits t1 in
            if zlen ds =? 0 then (0, s3) else ((if eneg then - dec ds else dec ds), t2)
          else (0, s3)
      | [] => (0, s3)
      end in
    let v := trunc_double (dec (ip ++ fp)) (ex - zlen fp) (zlen (drop_zeros (ip ++ fp))) in
    Some ((if neg then - v else v), zlen s - zlen s4).

(** cJSON.c:305-379 *)
Definition parse_number (r : list Z) : option (Z * list Z) :=
  match strtod (num_copy 63 r) with
  | None => None
  | Some (v, n) => Some (v, zdrop n r)
  end.

(** ** Values *)
(** cJSON.c:1312-1364 [parse_value], 1441-1537 [parse_array], 1601-1712 [parse_object]. The
    step back in front of the first element (1468, 1628) and the step forward at the start
    of the loop (1494, 1655) cancel out. [elems] and [members] are the loops, from the byte
    behind the bracket or comma. [None] is the result false. *)
Fixpoint parse_value (fuel : nat) (depth : Z) (r : list Z) : res (option (json * list Z)) :=
  match fuel with
  | O => NoFuel
  | S f =>
      if starts (str "null") r then Ok (Some (JNull, zdrop 4 r))
      else if starts (str "false") r then Ok (Some (JBool false, zdrop 5 r))
      else if starts (str "true") r then Ok (Some (JBool true, zdrop 4 r))
      else
        match r with
        | [] => Ok None
        | b :: t =>
            if b =? QUOTE then
              let* o := parse_string r in
              Ok (match o with None => None | Some (s, r') => Some (JStr s, r') end)
            else if (b =? 45) || digit b then
              Ok (match parse_number r with None => None | Some (v, r') => Some (JNum v, r') end)
            else if b =? LBRACK then
              if NESTING <=? depth then Ok None
              else match skip t with
                   | [] => Ok None
                   | c :: t' =>
                       if c =? RBRACK then Ok (Some (JArr [], t'))
                       else let* o := elems f (depth + 1) (c :: t') in
                            Ok (match o with None => None | Some (l, r') => Some (JArr l, r') end)
                   end
            else if b =? LBRACE then
              if NESTING <=? depth then Ok None
              else match skip t with
                   | [] => Ok None
                   | c :: t' =>
                       if c =? RBRACE then Ok (Some (JObj [], t'))
                       else let* o := members f (depth + 1) (c :: t') in
                            Ok (match o with None => None | Some (l, r') => Some (JObj l, r') end)
                   end
            else Ok None
        end
  end
with elems (fuel : nat) (depth : Z) (r : list Z) : res (option (list json * list Z)) :=
  match fuel with
  | O => NoFuel
  | S f =>
      let* o := parse_value f depth (skip r) in
      match o with
      | None => Ok None
      | Some (j, r1) =>
          match skip r1 with
          | [] => Ok None
          | b :: t =>
              if b =? COMMA then
                let* o := elems f depth t in
                Ok (match o with None => None | Some (l, r') => Some (j :: l, r') end)
              else if b =? RBRACK then Ok (Some ([j], t))
              else Ok None
          end
      end
  end
with members (fuel : nat) (depth : Z) (r : list Z) : res (option (list (list Z * json) * list Z)) :=
  match fuel with
  | O => NoFuel
  | S f =>
      let* k := parse_string (skip r) in
      match k with
      | None => Ok None
      | Some (name, r1) =>
          match skip r1 with
          | [] => Ok None
          | b :: t =>
              if negb (b =? COLON) then Ok None
              else
                let* o := parse_value f depth (skip t) in
                match o with
                | None => Ok None
                | Some (j, r2) =>
                    match skip r2 with
                    | [] => Ok None
                    | c :: t' =>
                        if c =? COMMA then
                          let* o := members f depth t' in
                          Ok (match o with None => None | Some (l, r') => Some ((name, j) :: l, r') end)
                        else if c =? RBRACE then Ok (Some ([(name, j)], t'))
                        else Ok None
                    end
                end
          end
      end
  end.

(** cJSON.c:1064-1077 *)
Definition skip_bom (r : list Z) : list Z :=
  if (4 <? zlen r) && starts [239; 187; 191] r then zdrop 3 r else r.

(** cJSON.c:1175-1178, 1079-1172 [cJSON_Parse] of the bytes [text], which end at the first
    NUL. What follows the value is not looked at. *)
Definition json_parse (text : list Z) : res (option json) :=
  let r := cut text ++ [0] in
  let* o := parse_value (2 * length r + 2) 0 (skip (skip_bom r)) in
  Ok (option_map fst o).
