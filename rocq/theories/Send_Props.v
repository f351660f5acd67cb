(** * C61: sending a chain of buffers. *)
From Verif Require Import Base Str_Spec Meta_Model Meta_Proofs Send_Model.
From Coq Require Import String.
Open Scope Z_scope.
Local Arguments Z.add : simpl never.
Local Arguments Z.sub : simpl never.
Local Arguments zlen : simpl never.

(** the pending bytes of a chain, in order *)
Definition pending (c : list meta) : list Z := List.concat (map mdata c).

Lemma first_pending_none c : Forall meta_wf c -> (first_pending c = None <-> pending c = []).
Proof.
  induction c as [|m c IH]; intros W; [split; reflexivity|].
  pose proof (Forall_inv W) as Wm. pose proof (mdata_len m Wm) as L. specialize (IH (Forall_inv_tail W)).
  cbn [first_pending]. unfold pending in *. cbn [map List.concat].
  destruct (Z.ltb_spec 0 (meta_getlen m)).
  - split; [discriminate|]. intros E. apply app_eq_nil in E as (E & _). rewrite E in L. change (zlen (@nil Z)) with 0 in L. lia.
  - assert (mdata m = []) as -> by (apply zlen_0_nil; destruct Wm; unfold meta_getlen in *; lia).
    exact IH.
Qed.

Lemma advance_spec c m n : Forall meta_wf c -> first_pending c = Some m -> 0 <= n <= meta_getlen m ->
  Forall meta_wf (advance c n) /\ ztake n (mdata m) ++ pending (advance c n) = pending c.
Proof.
  induction c as [|x c IH]; intros W F B; [discriminate|].
  pose proof (Forall_inv W) as Wx. pose proof (Forall_inv_tail W) as Wc. cbn [first_pending advance] in *.
  destruct (Z.ltb_spec 0 (meta_getlen x)).
  - injection F as ->. destruct (meta_consume_ok m n Wx B) as (W' & D').
    split; [constructor; assumption|]. unfold pending. cbn [map List.concat].
    rewrite D', app_assoc, ztake_zdrop. reflexivity.
  - destruct (IH Wc F B) as (W' & P'). split; [constructor; assumption|].
    unfold pending in *. cbn [map List.concat].
    assert (mdata x = []) as -> by (apply zlen_0_nil; rewrite mdata_len by assumption; destruct Wx; unfold meta_getlen in *; lia).
    exact P'.
Qed.

Lemma first_pending_wf c m : Forall meta_wf c -> first_pending c = Some m -> meta_wf m.
Proof.
  induction c as [|x c IH]; intros W F; [discriminate|]. cbn [first_pending] in F.
  destruct (0 <? meta_getlen x); [injection F as <-; exact (Forall_inv W)|]. apply IH; [exact (Forall_inv_tail W)|assumption].
Qed.

Lemma send_chain_spec : forall ks c wire rc c' wire' ks', Forall meta_wf c ->
  send_chain c wire ks = (rc, c', wire', ks') ->
  Forall meta_wf c' /\ (exists s, wire' = wire ++ s /\ pending c = s ++ pending c') /\
  (rc = RAll <-> pending c' = []).
Proof.
  induction ks as [|k ks IH]; intros c wire rc c' wire' ks' W E.
  - cbn in E. destruct (first_pending c) as [m|] eqn:F; injection E as <- <- <- <-;
      (split; [assumption|split; [exists []; rewrite app_nil_r; auto|]]).
    + split; [discriminate|]. intros P. apply first_pending_none in P; [congruence|assumption].
    + split; [|reflexivity]. intros _. apply first_pending_none; assumption.
  - cbn in E. destruct (first_pending c) as [m|] eqn:F.
    2:{ injection E as <- <- <- <-. split; [assumption|]. split; [exists []; rewrite app_nil_r; auto|].
        split; [|reflexivity]. intros _. apply first_pending_none; assumption. }
    assert (NP : pending c <> []) by (intros P; apply first_pending_none in P; [congruence|assumption]).
    destruct k as [k| | |].
    + pose proof (first_pending_wf c m W F) as Wm.
      set (n := Z.max 0 (Z.min k (meta_getlen m))) in *.
      assert (B : 0 <= n <= meta_getlen m) by (subst n; destruct Wm; unfold meta_getlen in *; lia).
      destruct (advance_spec c m n W F B) as (W' & P').
      destruct (IH _ _ _ _ _ _ W' E) as (Wf & (s & E1 & E2) & R). split; [assumption|]. split; [|exact R].
      exists (ztake n (mdata m) ++ s). split; [rewrite E1, app_assoc; reflexivity|].
      rewrite <- P', E2, app_assoc. reflexivity.
    + injection E as <- <- <- <-. split; [assumption|]. split; [exists []; rewrite app_nil_r; auto|].
      split; [discriminate|contradiction].
    + exact (IH _ _ _ _ _ _ W E).
    + injection E as <- <- <- <-. split; [assumption|]. split; [exists []; rewrite app_nil_r; auto|].
      split; [discriminate|contradiction].
Qed.

(** One call, and any number of calls repeated after would-block: what the kernel
    took is a prefix of the chain contents, what is left pending is exactly the
    rest, and success is reported exactly when nothing is left. *)
Theorem C61_send_chain : forall c ks rc c' wire ks', Forall meta_wf c ->
  send_chain c [] ks = (rc, c', wire, ks') ->
  pending c = wire ++ pending c' /\ (rc = RAll <-> pending c' = []).
Proof.
  intros c ks rc c' wire ks' W E. destruct (send_chain_spec ks c [] rc c' wire ks' W E) as (_ & (s & -> & P) & R).
  cbn [app]. auto.
Qed.
Print Assumptions C61_send_chain.

Theorem C61_repeated_calls : forall fuel c ks rc c' wire ks', Forall meta_wf c ->
  send_all fuel c [] ks = (rc, c', wire, ks') ->
  pending c = wire ++ pending c' /\ (rc = RAll -> wire = pending c) /\ (pending c' = [] -> fuel <> O -> rc = RAll).
Proof.
  assert (G : forall fuel c w ks rc c' wire ks', Forall meta_wf c -> send_all fuel c w ks = (rc, c', wire, ks') ->
    (exists s, wire = w ++ s /\ pending c = s ++ pending c') /\ (rc = RAll -> pending c' = []) /\
    (pending c' = [] -> fuel <> O -> rc = RAll)).
  { induction fuel as [|f IH]; intros c w ks rc c' wire ks' W E.
    - injection E as <- <- <- <-. split; [exists []; rewrite app_nil_r; auto|]. split; [discriminate|]. intros _ N. contradiction.
    - cbn [send_all] in E. destruct (send_chain c w ks) as (((rc1, c1), w1), ks1) eqn:S.
      destruct (send_chain_spec _ _ _ _ _ _ _ W S) as (W1 & (s & E1 & P1) & R1).
      destruct rc1; try (injection E as <- <- <- <-; split; [exists s; auto|split; [intros X; apply R1; exact X|intros X _; apply R1; exact X]]).
      destruct (IH _ _ _ _ _ _ _ W1 E) as ((s2 & E2 & P2) & R2 & R3).
      split; [exists (s ++ s2); rewrite E2, E1, P1, P2, <- !app_assoc; auto|]. split; [exact R2|].
      intros X _. destruct f as [|f]; [|apply R3; [assumption|discriminate]].
      cbn in E. injection E as <- <- <- <-. apply R1 in X. discriminate X. }
  intros fuel c ks rc c' wire ks' W E. destruct (G fuel c [] ks rc c' wire ks' W E) as ((s & -> & P) & R & R').
  cbn [app]. split; [exact P|]. split; [|exact R'].
  intros X. rewrite P, (R X), app_nil_r. reflexivity.
Qed.
Print Assumptions C61_repeated_calls.

Definition ex_meta (s : list Z) : meta := mkMeta (s ++ [0; 0]) 0 (zlen s).
Definition ex_chain : list meta := [ex_meta (str "ab"); ex_meta []; ex_meta (str "cdef")].
Example C61_ex : Forall meta_wf ex_chain /\ pending ex_chain = str "abcdef" /\
  exists c', send_all 3 ex_chain [] [KSent 1; KIntr; KSent 5; KAgain; KSent 2; KAgain; KSent 9]
    = (RAll, c', str "abcdef", []) /\ pending c' = [].
Proof.
  split; [repeat (apply Forall_cons; [vm_compute; repeat split; discriminate|]); apply Forall_nil|].
  split; [reflexivity|]. eexists. split; vm_compute; reflexivity.
Qed.
