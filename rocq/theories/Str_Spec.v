(** * Specification vocabulary for byte strings (independent of the models). *)
From Verif Require Import Base.
From Coq Require Import String Ascii.

(** bytes of a Coq string literal, used to write readable examples *)
Definition str (s : string) : list Z :=
  map (fun c => Z.of_N (N_of_ascii c)) (list_ascii_of_string s).

(** [p] occurs somewhere in [t] *)
Definition occurs (p t : list Z) : Prop := exists a b, t = a ++ p ++ b.

Fixpoint starts (p t : list Z) : bool :=
  match p, t with
  | [], _ => true
  | x :: p', y :: t' => (x =? y) && starts p' t'
  | _ :: _, [] => false
  end.

Fixpoint occursb (p t : list Z) : bool :=
  starts p t || match t with [] => false | _ :: t' => occursb p t' end.

Lemma starts_spec p t : starts p t = true <-> exists b, t = p ++ b.
Proof.
  revert t. induction p as [|x p IH]; intros t; simpl.
  - split; eauto.
  - destruct t as [|y t]; [split; [discriminate|intros (b & H); discriminate]|].
    rewrite andb_true_iff, Z.eqb_eq, IH. split.
    + intros (-> & b & ->). exists b. reflexivity.
    + intros (b & H). injection H as -> ->. split; [reflexivity|]. exists b. reflexivity.
Qed.

Lemma occursb_spec p t : occursb p t = true <-> occurs p t.
Proof.
  induction t as [|y t IH].
  - simpl. rewrite orb_false_r, starts_spec. split.
    + intros (b & H). exists [], b. exact H.
    + intros (a & b & H). symmetry in H. apply app_eq_nil in H as [-> H]. exists b. auto.
  - change (occursb p (y :: t)) with (starts p (y :: t) || occursb p t).
    rewrite orb_true_iff, starts_spec, IH. split.
    + intros [(b & H)|(a & b & ->)]; [exists [], b; exact H|]. exists (y :: a), b. reflexivity.
    + intros ([|z a] & b & H); [left; exists b; exact H|].
      right. injection H as -> ->. exists a, b. reflexivity.
Qed.

Lemma not_occurs p t : occursb p t = false -> ~ occurs p t.
Proof. intros H O. apply occursb_spec in O. congruence. Qed.

(** all bytes are representable: boolean check used in examples *)
Definition bytesb (l : list Z) : bool := forallb (fun b => (0 <=? b) && (b <? 256)) l.
Lemma bytesb_spec l : bytesb l = true <-> bytes l.
Proof.
  unfold bytesb, bytes. rewrite forallb_forall, Forall_forall. unfold is_byte.
  split; intros H x Hx; specialize (H x Hx); lia.
Qed.

Ltac all_bytes :=
  repeat (apply Forall_cons; [apply bytesb_spec; vm_compute; reflexivity|]); apply Forall_nil.
