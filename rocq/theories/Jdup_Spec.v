(** * Values in memory, and the blocks they own *)
From Verif Require Import Base Jdup_Model.
Open Scope Z_scope.

(** the name of an item: a constant that belongs to somebody else, or a text of its own *)
Inductive label := NConst (a : Z) | NText (t : option (list Z)).
Inductive jv := JV (val : Z) (vs : option (list Z)) (nm : label) (kids : list jv).

(** the string at [a], and the blocks it takes *)
Inductive text (h : mem) : Z -> option (list Z) -> list Z -> Prop :=
| t_none : text h 0 None []
| t_some a t : a <> 0 -> h a = BS t -> text h a (Some t) [a].
Inductive named (h : mem) : bool -> Z -> label -> list Z -> Prop :=
| n_const a : named h true a (NConst a) []
| n_text a t F : text h a t F -> named h false a (NText t) F.

(** ** Reading: the item at [x] has the value [v]. References and shared parts are allowed. *)
Inductive reads (h : mem) : Z -> jv -> Prop :=
| r_item x it vs nm kids F1 F2 : x <> 0 -> h x = BI it -> text h (i_vs it) vs F1 ->
    named h (i_const it) (i_name it) nm F2 -> readl h (i_ch it) kids -> reads h x (JV (i_val it) vs nm kids)
with readl (h : mem) : Z -> list jv -> Prop :=
| r_nil : readl h 0 []
| r_cons c it v l : h c = BI it -> reads h c v -> readl h (i_nx it) l -> readl h c (v :: l).

(** ** Owning: the item at [p] has the value [v], and the blocks [F] are its own
    [chain h q c l F z]: the children [l] from [c] on, linked both ways; the first one has the
    back link [q], the last one is at [z]. The back link of the first child of an item is the
    last one. *)
Inductive owns (h : mem) : Z -> jv -> list Z -> Prop :=
| o_item p it vs nm kids F1 F2 F3 q z : p <> 0 -> h p = BI it -> i_ref it = false -> text h (i_vs it) vs F1 ->
    named h (i_const it) (i_name it) nm F2 -> chain h q (i_ch it) kids F3 z -> (kids = [] \/ q = z) ->
    owns h p (JV (i_val it) vs nm kids) (p :: F1 ++ F2 ++ F3)
with chain (h : mem) : Z -> Z -> list jv -> list Z -> Z -> Prop :=
| c_nil q : chain h q 0 [] [] q
| c_cons q c it v l F F' z : h c = BI it -> i_pv it = q -> owns h c v F -> chain h c (i_nx it) l F' z ->
    chain h q c (v :: l) (F ++ F') z.

(** an item with all it owns, in no list, each block once *)
Definition tree (h : mem) (p : Z) (v : jv) (F : list Z) : Prop :=
  owns h p v F /\ NoDup F /\ exists it, h p = BI it /\ i_nx it = 0 /\ i_pv it = 0.

(** what a copy of [v] is: all of it, or the item alone *)
Definition copy (recurse : bool) (v : jv) : jv :=
  if recurse then v else match v with JV n vs nm _ => JV n vs nm [] end.
Definition same (h h' : mem) : Prop := forall a, h' a = h a.
(** [h'] is [h] with the blocks [F] more *)
Definition more (h : mem) (F : list Z) (h' : mem) : Prop :=
  (forall a, In a F -> h a = Free) /\ (forall a, ~ In a F -> h' a = h a).
(** [h'] is [h] without the blocks [F] *)
Definition gone (F : list Z) (h h' : mem) : Prop := (forall a, In a F -> h' a = Free) /\ (forall a, ~ In a F -> h' a = h a).
