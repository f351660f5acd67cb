(** * Lookups at the same time: the same lookups one after the other. *)
From Verif Require Import Base Hash_Model Dns_Model Look_Model Looks_Model.
Open Scope Z_scope.

(** the sessions that ask, in order *)
Fixpoint ids (h : list cop) : list Z :=
  match h with [] => [] | Start i _ :: r => i :: ids r | _ :: r => ids r end.
(** the name a session asked for *)
Fixpoint asked (i : Z) (h : list cop) : option (list Z) :=
  match h with
  | [] => None
  | Start j n :: r => if j =? i then Some n else asked i r
  | _ :: r => asked i r
  end.
(** the datagrams that came for a session since it asked *)
Fixpoint datagrams (i : Z) (h : list cop) : list dgram :=
  match h with
  | [] => []
  | Data j d _ _ :: r => if j =? i then d :: datagrams i r else datagrams i r
  | _ :: r => datagrams i r
  end.
Fixpoint own (i : Z) (h : list cop) : list dgram :=
  match h with
  | [] => []
  | Start j _ :: r => if j =? i then datagrams i r else own i r
  | _ :: r => own i r
  end.

(** The lookups one after the other: each takes place when its session got its result, for the
    name it asked for, with the datagrams that had come for it by then. Allocations and time are
    those of the event that ended it. *)
Definition no_memory : allocs := mkAllocs false false false.
Definition at_once (before : list cop) (o : cop) (t : option outcome) : list lop :=
  match o, t with
  | Chk now, _ => [LChk now]
  | _, None => []
  | Data _ _ al now, Some (i, _) => match asked i before with Some n => [LLook al now n (own i before)] | None => [] end
  | _, Some (i, _) => match asked i before with Some n => [LLook no_memory 0 n (own i before)] | None => [] end
  end.
Fixpoint one_by_one (before h : list cop) (tr : list (option outcome)) : list lop :=
  match h, tr with
  | o :: h', t :: tr' => at_once (before ++ [o]) o t ++ one_by_one (before ++ [o]) h' tr'
  | _, _ => []
  end.
(** what the lookups found *)
Fixpoint found (l : list lop) (r : list (option (list Z))) : list (option (list Z)) :=
  match l, r with
  | LLook _ _ _ _ :: l', a :: r' => a :: found l' r'
  | LChk _ :: l', _ :: r' => found l' r'
  | _, _ => []
  end.
Fixpoint results (tr : list (option outcome)) : list (option (list Z)) :=
  match tr with [] => [] | Some (_, a) :: t => a :: results t | None :: t => results t end.

(** nobody asks for a name that another session is waiting for *)
Fixpoint apart (wait : list (Z * list Z)) (h : list cop) (tr : list (option outcome)) : Prop :=
  match h, tr with
  | o :: h', t :: tr' =>
      match o, t with
      | Start i n, None => (forall j, ~ In (j, n) wait) /\ apart ((i, n) :: wait) h' tr'
      | _, None => apart wait h' tr'
      | _, Some (i, _) => apart (filter (fun x => negb (fst x =? i)) wait) h' tr'
      end
  | _, _ => True
  end.
