(** * A JSON text without its insignificant white space (RFC 8259 section 2). *)
From Verif Require Import Base.
Open Scope Z_scope.

(** where in a text: between tokens, in a string, behind a backslash in a string *)
Inductive place := Between | InString | Escaped.
Definition blank (c : Z) : bool := (c =? 32) || (c =? 9) || (c =? 10) || (c =? 13).
Fixpoint squeeze (p : place) (t : list Z) : list Z :=
  match t with
  | [] => []
  | c :: t =>
      match p with
      | Between => if blank c then squeeze Between t else c :: squeeze (if c =? 34 then InString else Between) t
      | InString => c :: squeeze (if c =? 34 then Between else if c =? 92 then Escaped else InString) t
      | Escaped => c :: squeeze InString t
      end
  end.
