(** * What every client of a worker may expect from the others. *)
From Verif Require Import Base Mix_Model.
Open Scope Z_scope.

(** The lookup a client waits for, and the port it asked for, read off the events: it starts
    with the client's question and ends with the answer or failure of that query. *)
Definition asks (w : Z) (cur : option (Z * Z)) (e : ev) : option (Z * Z) :=
  match e with
  | New v _ => if v =? w then None else cur
  | Ask v q port => if v =? w then Some (q, port) else cur
  | Answer q _ | Fail q => match cur with Some (x, _) => if q =? x then None else cur | None => cur end
  | _ => cur
  end.
Definition waits_for (w : Z) (h : list ev) : option (Z * Z) := fold_left (asks w) h None.

(** what should come of an event after the events [h] *)
Inductive fair (h : list ev) : ev -> list out -> Prop :=
| f_new w b : fair h (New w b) []
| f_ip w port addr : fair h (Ip w port addr) [Dial w addr port]
| f_ask w q port : fair h (Ask w q port) []
| f_answer w q addr port : waits_for w h = Some (q, port) -> fair h (Answer q addr) [Dial w addr port]
| f_fail w q port : waits_for w h = Some (q, port) -> fair h (Fail q) [End w]
| f_gone w : fair h (Gone w) [End w].
Fixpoint all_fair (before h : list ev) (o : list out) : Prop :=
  match h with
  | [] => o = []
  | e :: r => exists o1 o2, o = o1 ++ o2 /\ fair before e o1 /\ all_fair (before ++ [e]) r o2
  end.
(** no client leaves while its lookup is running *)
Definition patient (h : list ev) : Prop := forall h1 w h2, h = h1 ++ Gone w :: h2 -> waits_for w h1 = None.
