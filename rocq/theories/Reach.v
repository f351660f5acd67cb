(** * Reachable sets of finite machines, computed and checked inside the kernel *)
From Verif Require Import Base.

Section Reach.
Context {S L : Type}.
Context (eqb : S -> S -> bool) (eqb_ok : forall a b, eqb a b = true -> a = b).
Context (key : S -> list bool).
Context (labels : S -> list L).
Context (guard : S -> L -> bool) (step : S -> L -> res S).
(** what is checked of every state and of every transition *)
Context (ok : S -> bool) (edge : S -> L -> S -> bool).

(** sets of states: a binary trie over the keys; only needed to search quickly, so
    nothing is required of [key] *)
Inductive trie := Leaf (xs : list (list bool * S)) | Node (l r : trie).
Fixpoint mem (t : trie) (k : list bool) (s : S) : bool :=
  match t with
  | Leaf xs => existsb (fun x => eqb s (snd x)) xs
  | Node l r =>
      match k with
      | [] => mem l [] s
      | true :: k' => mem l k' s
      | false :: k' => mem r k' s
      end
  end.
Fixpoint split (xs l r : list (list bool * S)) : list (list bool * S) * list (list bool * S) :=
  match xs with
  | [] => (l, r)
  | ([], s) :: xs => split xs (([], s) :: l) r
  | (true :: k, s) :: xs => split xs ((k, s) :: l) r
  | (false :: k, s) :: xs => split xs l ((k, s) :: r)
  end.
Fixpoint add (t : trie) (k : list bool) (s : S) : trie :=
  match t with
  | Leaf (a :: b :: c :: xs) =>
      match k with
      | [] => Leaf ((k, s) :: a :: b :: c :: xs)
      | _ => let (l, r) := split ((k, s) :: a :: b :: c :: xs) [] [] in Node (Leaf l) (Leaf r)
      end
  | Leaf xs => Leaf ((k, s) :: xs)
  | Node l r =>
      match k with
      | [] => Node (add l [] s) r
      | true :: k' => Node (add l k' s) r
      | false :: k' => Node l (add r k' s)
      end
  end.
Fixpoint elements (t : trie) : list S :=
  match t with Leaf xs => map snd xs | Node l r => elements l ++ elements r end.

Lemma mem_in t : forall k s, mem t k s = true -> In s (elements t).
Proof.
  induction t as [xs|l IHl r IHr]; simpl; intros k s H.
  - apply existsb_exists in H as (x & H1 & H2). apply eqb_ok in H2. subst. apply in_map. auto.
  - apply in_or_app. destruct k as [|[|] k]; eauto.
Qed.
Lemma split_in xs : forall l r l' r', split xs l r = (l', r') -> forall s,
  In s (map snd l') \/ In s (map snd r') <-> In s (map snd xs) \/ In s (map snd l) \/ In s (map snd r).
Proof.
  induction xs as [|[[|[|] k] x] xs IH]; simpl; intros l r l' r' E s.
  - inversion E; subst. tauto.
  - rewrite (IH _ _ _ _ E s). simpl. tauto.
  - rewrite (IH _ _ _ _ E s). simpl. tauto.
  - rewrite (IH _ _ _ _ E s). simpl. tauto.
Qed.
Lemma add_in t : forall k s x, In x (elements (add t k s)) <-> x = s \/ In x (elements t).
Proof.
  induction t as [xs|l IHl r IHr]; intros k s x.
  - assert (G : In x (elements (Leaf ((k, s) :: xs))) <-> x = s \/ In x (elements (Leaf xs))).
    { simpl. intuition. }
    destruct xs as [|a [|b [|c xs]]]; try exact G.
    destruct k as [|h k]; [exact G|]. cbn [add].
    destruct (split ((h :: k, s) :: a :: b :: c :: xs) [] []) as [l r] eqn:E.
    pose proof (split_in _ _ _ _ _ E x) as Hs. rewrite <- G. cbn [elements]. rewrite in_app_iff, Hs. simpl. tauto.
  - cbn [add]. destruct k as [|[|] k]; cbn [elements]; rewrite !in_app_iff; rewrite ?IHl, ?IHr; tauto.
Qed.

(** depth-first search that checks what it sees *)
Fixpoint visit (ls : list L) (s : S) (t : trie) (todo : list S) : option (trie * list S) :=
  match ls with
  | [] => Some (t, todo)
  | l :: ls =>
      if guard s l then
        match step s l with
        | Ok s' =>
            if edge s l s' then
              let k := key s' in
              if mem t k s' then visit ls s t todo else visit ls s (add t k s') (s' :: todo)
            else None
        | _ => None
        end
      else visit ls s t todo
  end.
Fixpoint search (fuel : nat) (t : trie) (todo : list S) : bool :=
  match fuel with
  | O => false
  | Datatypes.S f =>
      match todo with
      | [] => true
      | s :: rest =>
          if ok s then
            match visit (labels s) s t rest with
            | Some (t', todo') => search f t' todo'
            | None => false
            end
          else false
      end
  end.
Definition checked (fuel : nat) (s0 : S) : bool := search fuel (add (Leaf []) (key s0) s0) [s0].

(** [X] contains every successor of [s], and [s] has been checked *)
Definition good (X : S -> Prop) (s : S) : Prop :=
  ok s = true /\
  forall l, In l (labels s) -> guard s l = true ->
    exists s', step s l = Ok s' /\ edge s l s' = true /\ X s'.
Lemma good_mono (X Y : S -> Prop) s : (forall x, X x -> Y x) -> good X s -> good Y s.
Proof.
  intros H [G1 G2]. split; auto. intros l Hl Hg. destruct (G2 l Hl Hg) as (s' & E1 & E2 & E3). eauto.
Qed.
Definition inn (t : trie) (s : S) : Prop := In s (elements t).

Lemma visit_ok ls s : forall t todo t' todo', visit ls s t todo = Some (t', todo') ->
  (forall x, inn t x -> inn t' x) /\ (forall x, In x todo -> In x todo') /\
  (forall x, inn t' x -> inn t x \/ In x todo') /\
  (forall l, In l ls -> guard s l = true -> exists s', step s l = Ok s' /\ edge s l s' = true /\ inn t' s').
Proof.
  induction ls as [|l ls IH]; simpl; intros t todo t' todo' H.
  - inversion H; subst. repeat split; auto. contradiction.
  - destruct (guard s l) eqn:G.
    + destruct (step s l) as [s'| |] eqn:E; try discriminate.
      destruct (edge s l s') eqn:Ed; [|discriminate].
      destruct (mem t (key s') s') eqn:M.
      * destruct (IH _ _ _ _ H) as (A & B & C & D). repeat split; auto.
        intros l' [->|Hl] Hg; auto. rewrite E in *. exists s'. repeat split; auto. apply A. eapply mem_in. exact M.
      * destruct (IH _ _ _ _ H) as (A & B & C & D). repeat split.
        -- intros x Hx. apply A. apply add_in. auto.
        -- intros x Hx. apply B. right. exact Hx.
        -- intros x Hx. apply C in Hx as [Hx|Hx]; auto. apply add_in in Hx as [->|Hx]; auto.
           right. apply B. left. reflexivity.
        -- intros l' [->|Hl] Hg; auto. exists s'. repeat split; auto. apply A. apply add_in. auto.
    + destruct (IH _ _ _ _ H) as (A & B & C & D). repeat split; auto.
      intros l' [->|Hl] Hg; auto. congruence.
Qed.

Lemma search_ok fuel : forall t todo, search fuel t todo = true ->
  (forall x, inn t x -> In x todo \/ good (inn t) x) ->
  exists X : S -> Prop, (forall x, inn t x -> X x) /\ forall x, X x -> good X x.
Proof.
  induction fuel as [|f IH]; intros t todo H Inv; [discriminate|].
  destruct todo as [|s rest]; cbn [search] in H.
  - exists (inn t). split; auto. intros x Hx. destruct (Inv x Hx) as [[]|G]. exact G.
  - destruct (ok s) eqn:O; [|discriminate].
    destruct (visit (labels s) s t rest) as [[t' todo']|] eqn:V; [|discriminate].
    destruct (visit_ok _ _ _ _ _ _ V) as (A & B & C & D).
    destruct (IH t' todo' H) as (X & X1 & X2).
    + intros x Hx. destruct (C x Hx) as [Hx'|Hx']; auto.
      destruct (Inv x Hx') as [[->|Hr]|G]; auto.
      * right. split; auto.
      * right. eapply good_mono; [exact A|exact G].
    + exists X. split; auto.
Qed.

Lemma checked_ok fuel s0 : checked fuel s0 = true ->
  exists X : S -> Prop, X s0 /\ forall x, X x -> good X x.
Proof.
  intros H. destruct (search_ok _ _ _ H) as (X & X1 & X2).
  - intros x Hx. apply add_in in Hx as [->|[]]. left. left. reflexivity.
  - exists X. split; auto. apply X1. apply add_in. auto.
Qed.
End Reach.
