(** * DNS wire format (RFC 1035) used in the statements; independent of the model *)
From Verif Require Import Base.

(** host name: labels joined with dots (section 2.3.1) *)
Fixpoint join (ls : list (list Z)) : list Z :=
  match ls with
  | [] => []
  | [l] => l
  | l :: r => l ++ 46 :: join r
  end.
Definition label_ok (l : list Z) : Prop :=
  1 <= zlen l <= 63 /\ Forall (fun b => b <> 46 /\ b <> 0) l.

(** section 3.1: a domain name on the wire, as a decoding relation *)
Inductive name_wire : list Z -> list (list Z) -> Prop :=
| nw_end : name_wire [0] []
| nw_label l w ls : 1 <= zlen l <= 63 -> name_wire w ls -> name_wire (zlen l :: l ++ w) (l :: ls).

Definition be16 (x : Z) : list Z := [x / 256; x mod 256].
Definition be32 (x : Z) : list Z := be16 (x / 65536) ++ be16 (x mod 65536).
Definition u16 (x : Z) : Prop := 0 <= x < 65536.
Definition u32 (x : Z) : Prop := 0 <= x < 4294967296.

(** section 4.1.1: header; 256 is the flag word with RD set *)
Definition header (id flags qd an ns ar : Z) : list Z :=
  be16 id ++ be16 flags ++ be16 qd ++ be16 an ++ be16 ns ++ be16 ar.
(** section 4.1.2: question *)
Definition question (qname : list Z) (qtype qclass : Z) : list Z := qname ++ be16 qtype ++ be16 qclass.

(** section 4.1.3: resource record; the owner is given in wire form *)
Record rr := mkRR { rr_owner : list Z; rr_type : Z; rr_class : Z; rr_ttl : Z; rr_data : list Z }.
Definition enc_rr (r : rr) : list Z :=
  rr_owner r ++ be16 (rr_type r) ++ be16 (rr_class r) ++ be32 (rr_ttl r) ++ be16 (zlen (rr_data r)) ++ rr_data r.
Definition rr_ok (r : rr) : Prop :=
  u16 (rr_type r) /\ u16 (rr_class r) /\ u32 (rr_ttl r) /\ u16 (zlen (rr_data r)).

(** section 4.1.4: compressed owner: a pointer *)
Definition pointer_owner (o : list Z) : Prop := exists x y, 0 <= x < 64 /\ is_byte y /\ o = [192 + x; y].

Lemma name_wire_det w ls1 : name_wire w ls1 -> forall ls2, name_wire w ls2 -> ls1 = ls2.
Proof.
  induction 1 as [|l w ls1 L W IH]; intros ls2 H2; inversion H2; subst.
  - reflexivity.
  - exfalso. lia.
  - exfalso. lia.
  - match goal with E : ?l0 ++ ?w0 = l ++ w |- _ => rename E into EQ end.
    assert (l0 = l /\ w0 = w) as (-> & ->).
    { assert (LL : length l0 = length l) by (unfold zlen in *; lia).
      clear - EQ LL. revert l EQ LL. induction l0; destruct l; simpl; intros; try discriminate; auto.
      injection EQ as -> EQ. injection LL as LL. destruct (IHl0 _ EQ LL) as (-> & ->). auto. }
    f_equal. apply IH. assumption.
Qed.
