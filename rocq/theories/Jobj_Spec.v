(** * What putting an item into an object means *)
From Verif Require Import Base Jdup_Model Jdup_Spec.
Open Scope Z_scope.

(** the same value under another name *)
Definition relabel (v : jv) (lb : label) : jv := match v with JV n vs _ kids => JV n vs lb kids end.
(** [given h o v F h']: in [h'] the item at [o] has the value [v]. Its blocks are blocks of [F]
    and new ones; the blocks of [F] that it does not own are released, all else is as in [h],
    and the item is where it was in its list. *)
Definition given (h : mem) (o : Z) (v : jv) (F : list Z) (h' : mem) : Prop :=
  exists F', owns h' o v F' /\ NoDup F' /\
    (forall a, In a F' -> In a F \/ h a = Free) /\
    (forall a, ~ In a F' -> In a F -> h' a = Free) /\
    (forall a, ~ In a F' -> ~ In a F -> h' a = h a) /\
    (forall it it', h o = BI it -> h' o = BI it' -> i_nx it' = i_nx it /\ i_pv it' = i_pv it).

(** ** Names *)
Definition name_of (v : jv) : label := match v with JV _ _ nm _ => nm end.
(** every member has a name of its own *)
Definition object_like (kids : list jv) : Prop := Forall (fun v => exists t, name_of v = NText (Some t)) kids.
(** the same letter, but for upper and lower case *)
Definition letter (a b : Z) : Prop := a = b \/ (65 <= a <= 90 /\ b = a + 32) \/ (65 <= b <= 90 /\ a = b + 32).
Definition called (cs : bool) (t : list Z) (v : jv) : Prop :=
  exists t', name_of v = NText (Some t') /\ (if cs then t' = t else Forall2 letter t' t).
