(** * cJSON_Minify: what it writes. *)
From Verif Require Import Base Jmin_Model.
Open Scope Z_scope.
Local Arguments Z.add : simpl never.
Local Arguments Z.sub : simpl never.
Local Arguments zlen : simpl never.

(** ** The same on lists: what is left of a text behind a comment, and what a string gives *)
Fixpoint p_line (s : list Z) : list Z := match s with [] => [] | c :: t => if c =? 10 then t else p_line t end.
Fixpoint p_block (s : list Z) : list Z :=
  match s with
  | [] => []
  | c :: t => if (c =? 42) && (match t with d :: _ => d =? 47 | [] => false end) then tl t else p_block t
  end.
Fixpoint p_str (fuel : nat) (s : list Z) : list Z * list Z :=
  match fuel with
  | O => ([], s)
  | S f =>
      match s with
      | [] => ([], [])
      | c :: t => if c =? 34 then ([34], t)
                  else if (c =? 92) && (match t with d :: _ => d =? 34 | [] => false end)
                       then (92 :: 34 :: fst (p_str f (tl t)), snd (p_str f (tl t)))
                       else (c :: fst (p_str f t), snd (p_str f t))
      end
  end.
(** one round of the main loop: output and rest *)
Definition p_step (s : list Z) : list Z * list Z :=
  match s with
  | [] => ([], [])
  | c :: t =>
      if (c =? 32) || (c =? 9) || (c =? 13) || (c =? 10) then ([], t)
      else if c =? 47 then
        match t with
        | [] => ([], [])
        | d :: t' => if d =? 47 then ([], p_line t') else if d =? 42 then ([], p_block t') else ([], t)
        end
      else if c =? 34 then (34 :: fst (p_str (length s) t), snd (p_str (length s) t))
      else ([c], t)
  end.
Inductive steps : list Z -> list Z -> list Z -> Prop :=
| st_nil s : steps s [] s
| st_step s o r : s <> [] -> steps (snd (p_step s)) o r -> steps s (fst (p_step s) ++ o) r.

Definition suff (r s : list Z) : Prop := exists a, s = a ++ r.
Lemma suff_refl s : suff s s. Proof. exists []. reflexivity. Qed.
Lemma suff_cons c r s : suff r s -> suff r (c :: s). Proof. intros (a & ->). exists (c :: a). reflexivity. Qed.
Lemma suff_trans a b c : suff a b -> suff b c -> suff a c.
Proof. intros (x & ->) (y & ->). exists (y ++ x). rewrite app_assoc. reflexivity. Qed.
Lemma suff_len r s : suff r s -> zlen r <= zlen s.
Proof. intros (a & ->). rewrite zlen_app. pose proof (zlen_nonneg a). lia. Qed.

Definition nz (s : list Z) : Prop := ~ In 0 s.
Lemma nz_suff r s : suff r s -> nz s -> nz r.
Proof. intros (a & ->) N H. apply N. apply in_or_app. right. exact H. Qed.
Lemma nz_cons c s : nz (c :: s) -> c <> 0 /\ nz s.
Proof. intros N. split; [intros ->; apply N; left; reflexivity|intros H; apply N; right; exact H]. Qed.

Lemma rd_at a c t : rd (a ++ c :: t) (zlen a) = Ok c.
Proof. unfold rd. rewrite zget_app_r by lia. rewrite Z.sub_diag. reflexivity. Qed.
Lemma rd_at1 a c d t : rd (a ++ c :: d :: t) (zlen a + 1) = Ok d.
Proof.
  replace (a ++ c :: d :: t) with ((a ++ [c]) ++ d :: t) by (rewrite <- app_assoc; reflexivity).
  replace (zlen a + 1) with (zlen (a ++ [c])) by (rewrite zlen_app; reflexivity). apply rd_at.
Qed.

(** ** Comments *)
Lemma oneline_ok : forall s fuel a x, (length s < fuel)%nat -> nz s ->
  exists i, skip_oneline fuel (a ++ s ++ 0 :: x) (zlen a) = Ok i /\ suff (p_line s) s /\ i = zlen a + zlen s - zlen (p_line s).
Proof.
  induction s as [|c s IH]; intros fuel a x F N; (destruct fuel as [|f]; [cbn in F; lia|]); cbn [skip_oneline app].
  - rewrite rd_at. cbn [bind]. exists (zlen a). split; [reflexivity|]. split; [apply suff_refl|cbn [p_line]; lia].
  - rewrite rd_at. cbn [bind p_line]. destruct (nz_cons c s N) as (C & N'). destruct (Z.eqb_spec c 0); [lia|].
    destruct (c =? 10).
    + exists (zlen a + 1). split; [reflexivity|]. split; [apply suff_cons, suff_refl|rewrite zlen_cons; lia].
    + destruct (IH f (a ++ [c]) x) as (i & E & SU & L); [cbn in F; lia|exact N'|].
      rewrite <- app_assoc in E. cbn [app] in E. rewrite zlen_app in E, L. change (zlen [c]) with 1 in E, L.
      exists i. split; [exact E|]. split; [apply suff_cons, SU|rewrite zlen_cons; lia].
Qed.
Lemma multiline_ok : forall s fuel a x, (length s < fuel)%nat -> nz s ->
  exists i, skip_multiline fuel (a ++ s ++ 0 :: x) (zlen a) = Ok i /\ suff (p_block s) s /\ i = zlen a + zlen s - zlen (p_block s).
Proof.
  induction s as [|c s IH]; intros fuel a x F N; (destruct fuel as [|f]; [cbn in F; lia|]); cbn [skip_multiline app].
  - rewrite rd_at. cbn [bind]. exists (zlen a). split; [reflexivity|]. split; [apply suff_refl|cbn [p_block]; lia].
  - rewrite rd_at. cbn [bind p_block]. destruct (nz_cons c s N) as (C & N'). destruct (Z.eqb_spec c 0); [lia|].
    assert (NEXT : exists i, skip_multiline f (a ++ c :: s ++ 0 :: x) (zlen a + 1) = Ok i /\ suff (p_block s) (c :: s) /\
      i = zlen a + zlen (c :: s) - zlen (p_block s)).
    { destruct (IH f (a ++ [c]) x) as (i & E & SU & L); [cbn in F; lia|exact N'|].
      rewrite <- app_assoc in E. cbn [app] in E. rewrite zlen_app in E, L. change (zlen [c]) with 1 in E, L.
      exists i. split; [exact E|]. split; [apply suff_cons, SU|rewrite zlen_cons; lia]. }
    destruct (c =? 42); [|exact NEXT]. cbn [andb]. destruct s as [|d s]; cbn [app].
    + rewrite rd_at1. cbn [bind]. exact NEXT.
    + rewrite rd_at1. cbn [bind tl]. destruct (d =? 47); [|exact NEXT].
      exists (zlen a + 2). split; [reflexivity|]. split; [apply suff_cons, suff_cons, suff_refl|rewrite !zlen_cons; lia].
Qed.

(** ** In place: [out] is written, [gap] is free, then comes what is still to be read *)
Lemma wr_over out h t c : wr (out ++ h :: t) (zlen out) c = Ok (out ++ c :: t).
Proof.
  unfold wr. pose proof (zlen_nonneg out). pose proof (zlen_nonneg t).
  rewrite zput_ok by (rewrite ?zlen_app, ?zlen_cons; change (zlen (@nil Z)) with 0; lia).
  rewrite ztake_app_l, ztake_all by lia. change (zlen [c]) with 1. rewrite zdrop_app_r by lia.
  replace (zlen out + 1 - zlen out) with 1 by lia. reflexivity.
Qed.
(** write the byte that is being read: everything from there on stays as it is *)
Lemma move out gap c t : exists q gap', wr (out ++ gap ++ c :: t) (zlen out) c = Ok (q ++ c :: t) /\
  zlen q = zlen out + zlen gap /\ q ++ [c] = (out ++ [c]) ++ gap' /\ zlen gap' = zlen gap.
Proof.
  destruct gap as [|g gap]; cbn [app].
  - exists out, []. rewrite wr_over. change (zlen (@nil Z)) with 0. rewrite app_nil_r. repeat split; lia.
  - exists (out ++ c :: gap), (gap ++ [c]). rewrite wr_over, <- !app_assoc. cbn [app].
    split; [reflexivity|]. rewrite !zlen_app, !zlen_cons. change (zlen (@nil Z)) with 0. split; [lia|]. split; [reflexivity|lia].
Qed.

Lemma rd_gap out gap c t : rd (out ++ gap ++ c :: t) (zlen out + zlen gap) = Ok c.
Proof. rewrite app_assoc, <- zlen_app. apply rd_at. Qed.
Lemma rd_gap1 out gap c d t : rd (out ++ gap ++ c :: d :: t) (zlen out + zlen gap + 1) = Ok d.
Proof. rewrite app_assoc, <- zlen_app. apply rd_at1. Qed.

Lemma str_ok : forall n s fuel out gap x, (length s <= n)%nat -> (length s < fuel)%nat -> nz s ->
  let r := p_str fuel s in suff (snd r) s /\
  exists gap', zlen gap' = zlen gap /\ minify_str fuel (out ++ gap ++ s ++ 0 :: x) (zlen out + zlen gap) (zlen out) =
    Ok ((out ++ fst r) ++ gap' ++ snd r ++ 0 :: x, (zlen (out ++ fst r) + zlen gap', zlen (out ++ fst r))).
Proof.
  induction n as [|n IH]; intros s fuel out gap x LN LF N r; subst r; (destruct fuel as [|f]; [lia|]); destruct s as [|c s]; try (cbn in LN; lia).
  1, 2: split; [apply suff_refl|]; exists gap; (split; [reflexivity|]); cbn [minify_str p_str fst snd app]; rewrite (app_assoc out), <- (zlen_app out gap), rd_at; cbn [bind];
    rewrite app_nil_r, zlen_app, <- app_assoc; reflexivity.
  destruct (nz_cons c s N) as (C & N'). cbn [minify_str p_str app].
  rewrite (app_assoc out gap), <- (zlen_app out gap), rd_at. cbn [bind]. destruct (Z.eqb_spec c 0); [lia|].
  rewrite <- app_assoc. destruct (move out gap c (s ++ 0 :: x)) as (q & gap' & -> & LQ & EQ & LG). cbn [bind].
  rewrite zlen_app, <- LQ, rd_at. cbn [bind]. destruct (Z.eqb_spec c 34) as [->|C34].
  { cbn [fst snd]. split; [apply suff_cons, suff_refl|]. exists gap'. split; [exact LG|].
    replace (q ++ 34 :: s ++ 0 :: x) with (out ++ [34] ++ gap' ++ s ++ 0 :: x).
    - cbn [app]. rewrite wr_over. cbn [bind]. rewrite zlen_app, <- app_assoc. change (zlen [34]) with 1. rewrite LQ, LG.
      f_equal. f_equal. f_equal; lia.
    - rewrite (app_assoc out), (app_assoc _ gap'), <- EQ, <- app_assoc. reflexivity. }
  assert (NEXT : let r := p_str f s in suff (snd r) (c :: s) /\
    exists gap2, zlen gap2 = zlen gap /\ minify_str f (q ++ c :: s ++ 0 :: x) (zlen q + 1) (zlen out + 1) =
    Ok ((out ++ c :: fst r) ++ gap2 ++ snd r ++ 0 :: x, (zlen (out ++ c :: fst r) + zlen gap2, zlen (out ++ c :: fst r)))).
  { destruct (IH s f (out ++ [c]) gap' x) as (SU & g2 & LG2 & E); [cbn in LN; lia|cbn in LF; lia|exact N'|].
    split; [apply suff_cons, SU|]. exists g2. split; [lia|].
    replace (q ++ c :: s ++ 0 :: x) with ((out ++ [c]) ++ gap' ++ s ++ 0 :: x) by (rewrite (app_assoc (out ++ [c])), <- EQ, <- app_assoc; reflexivity).
    rewrite zlen_app in E at 1 2. change (zlen [c]) with 1 in E. replace (zlen q + 1) with (zlen out + 1 + zlen gap') by lia.
    rewrite E. rewrite <- (app_assoc out [c]). reflexivity. }
  destruct (Z.eqb_spec c 92) as [->|C92]; cbn [andb bind]; [|exact NEXT].
  destruct s as [|d s]; cbn [app].
  { rewrite rd_at1. cbn [bind]. exact NEXT. }
  rewrite rd_at1. cbn [bind]. destruct (Z.eqb_spec d 34) as [->|D34]; [|exact NEXT]. cbn [tl].
  replace (q ++ 92 :: 34 :: s ++ 0 :: x) with ((out ++ [92]) ++ gap' ++ 34 :: s ++ 0 :: x) by (rewrite (app_assoc (out ++ [92])), <- EQ, <- app_assoc; reflexivity).
  replace (zlen out + 1) with (zlen (out ++ [92])) by (rewrite zlen_app; reflexivity).
  destruct (move (out ++ [92]) gap' 34 (s ++ 0 :: x)) as (q2 & gap2 & -> & LQ2 & EQ2 & LG2). cbn [bind].
  destruct (nz_cons 34 s N') as (_ & N2).
  destruct (IH s f ((out ++ [92]) ++ [34]) gap2 x) as (SU & g3 & LG3 & E); [cbn in LN; lia|cbn in LF; lia|exact N2|].
  cbn [fst snd]. split; [apply suff_cons, suff_cons, SU|]. exists g3. split; [lia|].
  replace (q2 ++ 34 :: s ++ 0 :: x) with (((out ++ [92]) ++ [34]) ++ gap2 ++ s ++ 0 :: x) by (rewrite (app_assoc ((out ++ [92]) ++ [34])), <- EQ2, <- app_assoc; reflexivity).
  replace (zlen out + 2) with (zlen ((out ++ [92]) ++ [34])) by (rewrite !zlen_app; change (zlen [92]) with 1; change (zlen [34]) with 1; lia).
  replace (zlen q + 2) with (zlen ((out ++ [92]) ++ [34]) + zlen gap2)
    by (rewrite !zlen_app; change (zlen [92]) with 1; change (zlen [34]) with 1; lia).
  rewrite E. rewrite <- !(app_assoc out). reflexivity.
Qed.

Lemma p_str_split : forall f s, s = fst (p_str f s) ++ snd (p_str f s).
Proof.
  induction f as [|f IH]; intros s; [reflexivity|]. destruct s as [|c s]; [reflexivity|]. cbn [p_str].
  destruct (Z.eqb_spec c 34) as [->|]; [reflexivity|]. destruct ((c =? 92) && _) eqn:E.
  - destruct s as [|d s]; [rewrite andb_false_r in E; discriminate|]. apply andb_prop in E. destruct E as (E1 & E2).
    apply Z.eqb_eq in E1, E2. subst. cbn [tl fst snd app]. rewrite <- IH. reflexivity.
  - cbn [fst snd app]. rewrite <- IH. reflexivity.
Qed.
(** more fuel changes nothing *)
Lemma p_str_fuel : forall f g s, (length s < f)%nat -> (length s < g)%nat -> p_str f s = p_str g s.
Proof.
  induction f as [|f IH]; intros g s F G; [lia|]. destruct g as [|g]; [lia|]. destruct s as [|c s]; [reflexivity|].
  cbn [p_str]. cbn in F, G. destruct (c =? 34); [reflexivity|].
  destruct ((c =? 92) && _) eqn:E.
  - destruct s as [|d s]; [rewrite andb_false_r in E; discriminate|]. cbn [tl]. cbn in F, G. rewrite (IH g s) by lia. reflexivity.
  - rewrite (IH g s) by lia. reflexivity.
Qed.

Lemma step_suff s : nz s -> s <> [] -> suff (snd (p_step s)) s /\ (length (snd (p_step s)) < length s)%nat.
Proof.
  intros N NE. destruct s as [|c s]; [congruence|]. destruct (nz_cons c s N) as (_ & N').
  assert (H : suff (snd (p_step (c :: s))) s).
  { unfold p_step. destruct ((c =? 32) || (c =? 9) || (c =? 13) || (c =? 10)); [apply suff_refl|].
    destruct (c =? 47).
    - destruct s as [|d s]; [apply suff_refl|]. destruct (nz_cons d s N') as (_ & N2). destruct (d =? 47).
      + destruct (oneline_ok s (S (length s)) [] [] ltac:(lia) N2) as (i & _ & SU & _). apply suff_cons, SU.
      + destruct (d =? 42); [|apply suff_refl].
        destruct (multiline_ok s (S (length s)) [] [] ltac:(lia) N2) as (i & _ & SU & _). apply suff_cons, SU.
    - destruct (c =? 34); [|apply suff_refl].
      apply (str_ok (length s) s (length (c :: s)) [] [] []); [lia|cbn; lia|exact N']. }
  split; [apply suff_cons, H|]. destruct H as (a & E). rewrite E at 2. cbn [length]. rewrite app_length. lia.
Qed.

(** the main loop *)
Lemma loop_ok : forall n s fuel out gap x, (length s <= n)%nat -> (length s < fuel)%nat -> nz s ->
  exists o gap', steps s o [] /\ minify_loop fuel (out ++ gap ++ s ++ 0 :: x) (zlen out + zlen gap) (zlen out) =
    Ok ((out ++ o) ++ 0 :: gap') /\ zlen (out ++ o) + zlen gap' = zlen out + zlen gap + zlen s + zlen x /\
    suff x gap'.
Proof.
  induction n as [|n IH]; intros s fuel out gap x LN LF N; (destruct fuel as [|f]; [lia|]); destruct s as [|c s]; try (cbn in LN; lia).
  1, 2: cbn [minify_loop app]; rewrite (app_assoc out), <- (zlen_app out gap), rd_at; cbn [bind]; rewrite <- app_assoc;
    destruct gap as [|g gap]; cbn [app]; rewrite wr_over;
    [exists [], x|exists [], (gap ++ 0 :: x)]; (split; [constructor|]); rewrite app_nil_r; (split; [reflexivity|]);
    rewrite ?zlen_app, ?zlen_cons; change (zlen (@nil Z)) with 0; (split; [lia|]); [apply suff_refl|exists (gap ++ [0]); rewrite <- app_assoc; reflexivity].
  destruct (nz_cons c s N) as (C & N'). destruct (step_suff (c :: s) N) as (SU & SH); [discriminate|].
  (* what the rest of the loop does after a step with output [w] *)
  assert (GO : forall w gap1 i, fst (p_step (c :: s)) = w -> i = zlen (out ++ w) + zlen gap1 ->
    zlen (out ++ w) + zlen gap1 + zlen (snd (p_step (c :: s))) = zlen out + zlen gap + zlen (c :: s) ->
    exists o gap', steps (c :: s) o [] /\ minify_loop f ((out ++ w) ++ gap1 ++ snd (p_step (c :: s)) ++ 0 :: x) i (zlen (out ++ w)) =
    Ok ((out ++ o) ++ 0 :: gap') /\ zlen (out ++ o) + zlen gap' = zlen out + zlen gap + zlen (c :: s) + zlen x /\ suff x gap').
  { intros w gap1 i W -> LW. destruct (IH (snd (p_step (c :: s))) f (out ++ w) gap1 x) as (o & g & ST & E & L & SX);
      [cbn [length] in *; lia|cbn [length] in *; lia|eapply nz_suff; eassumption|].
    exists (w ++ o), g. split; [rewrite <- W; apply st_step; [discriminate|exact ST]|].
    rewrite E, !app_assoc. split; [reflexivity|]. split; [lia|exact SX]. }
  assert (SKIP : forall k, suff (snd (p_step (c :: s))) (c :: s) -> fst (p_step (c :: s)) = [] ->
    k = zlen out + zlen gap + zlen (c :: s) - zlen (snd (p_step (c :: s))) ->
    exists o gap', steps (c :: s) o [] /\ minify_loop f (out ++ gap ++ (c :: s) ++ 0 :: x) k (zlen out) =
    Ok ((out ++ o) ++ 0 :: gap') /\ zlen (out ++ o) + zlen gap' = zlen out + zlen gap + zlen (c :: s) + zlen x /\ suff x gap').
  { intros k (a & EA) W ->. pose proof (f_equal zlen EA) as LA. rewrite zlen_app in LA. destruct (GO [] (gap ++ a) (zlen out + zlen gap + zlen (c :: s) - zlen (snd (p_step (c :: s)))) W) as (o & g & H);
      [rewrite app_nil_r, !zlen_app; lia|rewrite app_nil_r, !zlen_app; lia|].
    exists o, g. rewrite app_nil_r in H. rewrite <- (app_assoc gap), (app_assoc a), <- EA in H. exact H. }
  cbn [minify_loop app] in *. rewrite rd_gap. cbn [bind]. destruct (Z.eqb_spec c 0); [lia|].
  unfold p_step in *. destruct ((c =? 32) || (c =? 9) || (c =? 13) || (c =? 10)).
  { apply SKIP; [apply suff_cons, suff_refl|reflexivity|cbn [snd]; rewrite zlen_cons; lia]. }
  destruct (Z.eqb_spec c 47) as [->|C47].
  { destruct s as [|d s]; cbn [app].
    - rewrite rd_gap1. cbn [bind]. change (0 =? 47) with false. change (0 =? 42) with false.
      apply SKIP; [apply suff_cons, suff_refl|reflexivity|cbn [snd]; rewrite zlen_cons; lia].
    - rewrite rd_gap1. cbn [bind]. destruct (nz_cons d s N') as (_ & N2).
      destruct (d =? 47).
      + destruct (oneline_ok s f ((out ++ gap) ++ [47; d]) x) as (i & E & SU2 & LI); [cbn in LF; lia|exact N2|].
        rewrite <- !app_assoc in E. cbn [app] in E. rewrite !zlen_app in E, LI. change (zlen [47; d]) with 2 in E, LI. replace (zlen out + (zlen gap + 2)) with (zlen out + zlen gap + 2) in E by lia.
        rewrite E. cbn [bind]. apply SKIP; [apply suff_cons, suff_cons, SU2|reflexivity|].
        cbn [snd]. rewrite LI, !zlen_cons. lia.
      + destruct (d =? 42).
        * destruct (multiline_ok s f ((out ++ gap) ++ [47; d]) x) as (i & E & SU2 & LI); [cbn in LF; lia|exact N2|].
          rewrite <- !app_assoc in E. cbn [app] in E. rewrite !zlen_app in E, LI. change (zlen [47; d]) with 2 in E, LI. replace (zlen out + (zlen gap + 2)) with (zlen out + zlen gap + 2) in E by lia.
          rewrite E. cbn [bind]. apply SKIP; [apply suff_cons, suff_cons, SU2|reflexivity|].
          cbn [snd]. rewrite LI, !zlen_cons. lia.
        * apply SKIP; [apply suff_cons, suff_refl|reflexivity|cbn [snd]; rewrite !zlen_cons; lia]. }
  destruct (move out gap c (s ++ 0 :: x)) as (q & gap' & WR & LQ & EQ & LG).
  assert (EB : q ++ c :: s ++ 0 :: x = (out ++ [c]) ++ gap' ++ s ++ 0 :: x)
    by (rewrite (app_assoc (out ++ [c])), <- EQ, <- app_assoc; reflexivity).
  destruct (Z.eqb_spec c 34) as [->|C34].
  - rewrite WR. cbn [bind]. rewrite EB.
    destruct (str_ok (length s) s f (out ++ [34]) gap' x) as (SU2 & g2 & LG2 & E); [lia|cbn in LF; lia|exact N'|].
    replace (zlen out + zlen gap + 1) with (zlen (out ++ [34]) + zlen gap') by (rewrite zlen_app; change (zlen [34]) with 1; lia).
    replace (zlen out + 1) with (zlen (out ++ [34])) by (rewrite zlen_app; reflexivity).
    rewrite E. cbn [bind fst snd].
    rewrite (p_str_fuel (length (34 :: s)) f s) in * by (cbn in *; lia).
    rewrite <- (app_assoc out) in *. apply GO; [reflexivity|reflexivity|].
    cbn [snd]. pose proof (f_equal zlen (p_str_split f s)) as L. rewrite zlen_app in L.
    rewrite !zlen_app, !zlen_cons. change (zlen (@nil Z)) with 0. lia.
  - rewrite WR. cbn [bind]. rewrite EB. replace (zlen out + 1) with (zlen (out ++ [c])) by (rewrite zlen_app; reflexivity).
    apply GO; [reflexivity|rewrite !zlen_app; change (zlen [c]) with 1; lia|cbn [snd]; rewrite zlen_app, !zlen_cons; change (zlen (@nil Z)) with 0; lia].
Qed.

Theorem minify_ok s x : nz s ->
  exists o g, steps s o [] /\ minify (s ++ 0 :: x) = Ok (o ++ 0 :: g) /\ zlen o + zlen g = zlen s + zlen x /\ suff x g.
Proof.
  intros N. destruct (loop_ok (length s) s (S (length (s ++ 0 :: x))) [] [] x) as (o & g & H1 & H2 & H3 & H4);
    [lia|rewrite app_length; cbn; lia|exact N|].
  exists o, g. cbn [app] in *. change (zlen (@nil Z)) with 0 in *. unfold minify. repeat split; [exact H1|exact H2|lia|exact H4].
Qed.

Lemma p_step_in s c : In c (fst (p_step s)) -> In c s.
Proof.
  unfold p_step. destruct s as [|a s]; [auto|]. destruct ((a =? 32) || (a =? 9) || (a =? 13) || (a =? 10)); [intros []|].
  destruct (a =? 47).
  - destruct s as [|d s]; [intros []|]. destruct (d =? 47); [intros []|]. destruct (d =? 42); intros [].
  - destruct (Z.eqb_spec a 34) as [->|].
    + cbn [fst]. intros [H|H]; [left; exact H|right]. rewrite (p_str_split (length (34 :: s)) s). apply in_or_app. left. exact H.
    + intros [H|[]]. left. exact H.
Qed.
Lemma steps_in s o r : nz s -> steps s o r -> forall c, In c o -> In c s.
Proof.
  intros N ST. induction ST as [|s o r NE ST IH]; intros c H; [destruct H|]. apply in_app_or in H. destruct H as [H|H]; [apply p_step_in, H|].
  destruct (step_suff s N NE) as (SU & _). specialize (IH (nz_suff _ _ SU N) c H). destruct SU as (a & ->). apply in_or_app. right. exact IH.
Qed.
Lemma steps_app a o b o' c : steps a o b -> steps b o' c -> steps a (o ++ o') c.
Proof. intros H K. induction H as [|s o r NE ST IH]; [exact K|]. rewrite <- app_assoc. apply st_step; [exact NE|apply IH, K]. Qed.
Lemma steps_det s o o' : steps s o [] -> steps s o' [] -> o = o'.
Proof.
  intros H. remember [] as e. revert o'. induction H as [|s o r NE ST IH]; intros o' K; subst.
  - inversion K; [reflexivity|congruence].
  - inversion K as [|? o2 ? NE2 ST2]; subst; [congruence|]. f_equal. apply IH; [reflexivity|exact ST2].
Qed.
