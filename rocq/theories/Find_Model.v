(** * Model of the substring search (src/common/sys_string.c). No proofs here. *)
From Verif Require Import Base.

(** sys_string.c:15-19, the inner loop, entered with [j = 0] at [str + i]: [m] is the memory
    from [str + i] on. Reading past the last byte of [m] is outside the object. [Ok true]:
    [j == findn] *)
Fixpoint compare (m p : list Z) : res bool :=
  match p with
  | [] => Ok true
  | b :: p' =>
      match m with
      | [] => Fault FOob
      | a :: m' => if a =? b then compare m' p' else Ok false
      end
  end.
(** sys_string.c:12-24, the outer loop: [n] positions left, the current one is [i] *)
Fixpoint scan (n : nat) (m p : list Z) (i : Z) : res (option Z) :=
  match n with
  | O => Ok None
  | S n' =>
      match m, p with
      | a :: m', b :: _ =>
          if a =? b then
            let* found := compare m p in
            if found then Ok (Some i) else scan n' m' p (i + 1)
          else scan n' m' p (i + 1)
      | _, _ => Fault FOob
      end
  end.
(** sys_string.c:4-26 [l_find_str]: [s] the string, [after] the bytes behind it in the same
    object, [p] the pattern. The result is the offset of the pointer returned, [None] for
    NULL. *)
Definition find_str (s after p : list Z) : res (option Z) :=
  if zlen s <=? 0 then Fault FAbort
  else if zlen p <=? 0 then Fault FAbort
  else if zlen s <? zlen p then Fault FAbort
  else scan (length s) (s ++ after) p 0.
