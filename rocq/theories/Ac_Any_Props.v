(** * Theorems about the key matcher for arbitrary key sets: C22, C24, C77 *)
From Verif Require Import Base Str_Spec Ac_Model Ac_Proofs Ac_Any_Proofs Ac_Props.
From Coq Require Import String.

(** [a] is obtained from [l] by leaving out elements *)
Inductive subseq : list Z -> list Z -> Prop :=
| sub_nil : forall l, subseq [] l
| sub_skip : forall x a l, subseq a l -> subseq a (x :: l)
| sub_take : forall x a l, subseq a l -> subseq (x :: a) (x :: l).

Lemma subseq_refl l : subseq l l.
Proof. induction l; constructor; assumption. Qed.

Lemma subseq_app_r a l m : subseq a l -> subseq a (l ++ m).
Proof. induction 1; simpl; constructor; assumption. Qed.

Lemma subseq_snoc a l x : subseq a l -> subseq (a ++ [x]) (l ++ [x]).
Proof.
  induction 1; simpl.
  - induction l; simpl; [apply sub_take; constructor|apply sub_skip; assumption].
  - apply sub_skip; assumption.
  - apply sub_take; assumption.
Qed.

Lemma subseq_suffix u v l : subseq (u ++ v) l -> subseq v l.
Proof.
  intros H. remember (u ++ v) as w eqn:E. revert u E.
  induction H; intros u E.
  - destruct u; [|discriminate]. destruct v; [constructor|discriminate].
  - apply sub_skip. eapply IHsubseq. exact E.
  - destruct u as [|y u].
    + simpl in E. subst v. apply sub_take. assumption.
    + simpl in E. injection E as <- E. apply sub_skip. eapply IHsubseq. exact E.
Qed.

Lemma subseq_length a l : subseq a l -> zlen a <= zlen l.
Proof. unfold zlen. induction 1; simpl; lia. Qed.

(** [x] occurs in no key *)
Definition foreign (keys : list (list Z)) (x : Z) : Prop :=
  forall k, In k keys -> ~ In (collapse x) (map collapse k).

(** [x] is the first symbol of no key *)
Definition no_first (keys : list (list Z)) (x : Z) : Prop :=
  forall k a u, In k keys -> map collapse k = a :: u -> a <> collapse x.

Lemma attempts_any h K (L : linked h K) : forall ts cur w pre,
  walk h 0 w = Some cur -> subseq w pre ->
  exists oks cur', ac_attempts (mkAc h cur) ts = Ok (oks, mkAc h cur') /\
    exists w', walk h 0 w' = Some cur' /\
      (Forall (eq false) oks -> subseq w' (pre ++ map idx_of (List.concat ts))).
Proof.
  induction ts as [|t r IH]; intros cur w pre W S.
  - exists [], cur. split; [reflexivity|]. exists w. simpl. rewrite app_nil_r. auto.
  - destruct (find_keeps h K L subseq subseq_suffix (fun w p i => subseq_snoc w p i)
               (fun w p i => subseq_app_r w p [i]) t cur w pre W S) as (ok & cur1 & F1 & F2 & F3).
    assert (Go : forall w1 pre1, walk h 0 w1 = Some cur1 -> subseq w1 pre1 ->
              (ok = false -> pre1 = pre ++ map idx_of t) ->
              exists oks cur', ac_attempts (mkAc h cur) (t :: r) = Ok (oks, mkAc h cur') /\
                exists w', walk h 0 w' = Some cur' /\
                  (Forall (eq false) oks -> subseq w' (pre ++ map idx_of (List.concat (t :: r))))).
    { intros w1 pre1 W1 S1 E1. destruct (IH cur1 w1 pre1 W1 S1) as (oks & cur2 & A & w' & W' & S').
      exists (ok :: oks), cur2. split.
      - cbn [ac_attempts]. unfold ezac_find. cbn [ac_nodes ac_cur]. rewrite F1. cbn [bind fst snd].
        rewrite A. reflexivity.
      - exists w'. split; [exact W'|]. intros H. inversion H; subst. rewrite E1 in S' by auto.
        simpl. rewrite map_app, app_assoc. apply S'. assumption. }
    destruct ok.
    + destruct (F3 eq_refl) as [-> _]. apply (Go [] [] eq_refl); [constructor|discriminate].
    + destruct (F2 eq_refl) as (w1 & W1 & S1). apply (Go w1 _ W1 S1). auto.
Qed.

(** ** C22, any key set: an accepted text has the symbols of a key, in order *)
Theorem C22_any_keys_partial :
  forall keys c, Forall bytes keys -> ac_build keys = Ok c ->
  forall ts t, Forall bytes ts -> bytes t ->
    exists oks c1 ok c2, ac_attempts c ts = Ok (oks, c1) /\ ezac_find c1 t = Ok (ok, c2) /\
      (ok = true -> c2 = c /\
         (Forall (eq false) oks ->
          exists k, In k keys /\ k <> [] /\
            subseq (map collapse k) (map collapse (List.concat ts ++ t)))).
Proof.
  intros keys c Hb B ts t Hts Ht. destruct (build_linked keys c Hb B) as [L Cu].
  destruct c as [h cur]. cbn [ac_nodes ac_cur] in *. subst cur.
  destruct (attempts_any h keys L ts 0%nat [] [] eq_refl (sub_nil [])) as (oks & cur1 & A & w & W & S).
  set (pre := if forallb negb oks then map idx_of (List.concat ts) else w).
  assert (S1 : subseq w pre).
  { subst pre. destruct (forallb negb oks) eqn:N; [|apply subseq_refl]. apply S.
    rewrite forallb_forall in N. apply Forall_forall. intros x Hx. apply N in Hx. destruct x; [discriminate|reflexivity]. }
  destruct (find_keeps h keys L subseq subseq_suffix (fun w p i => subseq_snoc w p i)
               (fun w p i => subseq_app_r w p [i]) t cur1 w pre W S1) as (ok & cur2 & F1 & _ & F3).
  exists oks, (mkAc h cur1), ok, (mkAc h cur2). split; [exact A|]. split.
  - unfold ezac_find. cbn [ac_nodes ac_cur]. rewrite F1. reflexivity.
  - intros O. destruct (F3 O) as (-> & k & p & q & Hk & NE & Ed & Sk). split; [reflexivity|].
    intros Hf. exists k. split; [exact Hk|]. split; [exact NE|].
    assert (N : forallb negb oks = true).
    { apply forallb_forall. intros x Hx. rewrite Forall_forall in Hf. rewrite <- (Hf x Hx). reflexivity. }
    subst pre. rewrite N in Sk.
    assert (Bc : bytes (List.concat ts)).
    { clear - Hts. induction Hts; simpl; [constructor|]. apply Forall_app. auto. }
    rewrite map_app. rewrite <- (map_idx_collapse _ Bc), <- (map_idx_collapse t Ht).
    rewrite <- (map_idx_collapse k) by (rewrite Forall_forall in Hb; auto).
    rewrite Ed, app_assoc. apply subseq_app_r. exact Sk.
Qed.
Print Assumptions C22_any_keys_partial.

(** in particular a fresh matcher accepts no text shorter than every key *)
Corollary C22_short_text_rejected :
  forall keys c t, Forall bytes keys -> ac_build keys = Ok c -> bytes t ->
    (forall k, In k keys -> k <> [] -> zlen t < zlen k) ->
    exists c', ezac_find c t = Ok (false, c').
Proof.
  intros keys c t Hb B Ht Sh.
  destruct (C22_any_keys_partial keys c Hb B [] t (Forall_nil _) Ht) as (oks & c1 & ok & c2 & A & F & H).
  simpl in A. injection A as <- <-. destruct ok; [|eauto]. exfalso.
  destruct (H eq_refl) as (_ & H2). destruct (H2 (Forall_nil _)) as (k & Hk & NE & S).
  apply subseq_length in S. unfold zlen in *. rewrite !map_length in S. simpl in S. specialize (Sh k Hk NE). lia.
Qed.
Print Assumptions C22_short_text_rejected.

(** an instance where the symbols are really spread out *)
Example C22_any_ex : exists c c', ac_build [str "abcab"; str "cdaxa"] = Ok c /\
  ezac_find c (str "cda-bcab") = Ok (true, c') /\
  ~ contains_key (str "cda-bcab") (str "abcab") /\ ~ contains_key (str "cda-bcab") (str "cdaxa").
Proof.
  eexists. eexists. split; [vm_compute; reflexivity|]. split; [vm_compute; reflexivity|].
  split; apply not_occurs; vm_compute; reflexivity.
Qed.

(** ** C77, any key set: a key at a clean place is found *)
Theorem C77_any_keys_partial :
  forall keys c p k s, Forall bytes keys -> ac_build keys = Ok c -> In k keys -> k <> [] ->
    bytes p -> (forall x, In x p -> no_first keys x) ->
    exists c', ezac_find c (p ++ k ++ s) = Ok (true, c').
Proof.
  intros keys c p k s Hb B Hk NE Hp Hf. destruct (build_linked keys c Hb B) as [L Cu].
  destruct (find_key_root _ _ L k (k ++ s) (map idx_of s) Hk NE) as (cur' & F); [apply map_app|].
  exists (mkAc (ac_nodes c) cur'). unfold ezac_find. rewrite Cu.
  rewrite (find_skip _ _ L p); [rewrite F; reflexivity|].
  intros i Hi. apply in_map_iff in Hi. destruct Hi as (x & <- & Hx).
  destruct (estep (ac_nodes c) 0 (idx_of x)) eqn:S; [|reflexivity]. exfalso.
  destruct (linked_edge _ _ L [] 0%nat (idx_of x) eq_refl) as (k1 & v & Hk1 & M); [congruence|].
  simpl in M. rewrite map_idx_collapse in M by (rewrite Forall_forall in Hb; auto).
  apply (Hf x Hx k1 _ _ Hk1 M). rewrite idx_collapse; [reflexivity|].
  exact (proj1 (Forall_forall _ _) Hp x Hx).
Qed.
Print Assumptions C77_any_keys_partial.

Example C77_any_ex : (exists c, ac_build [str "ababc"; str "xyx"] = Ok c) /\
  forall x, In x (str "Token:") -> no_first [str "ababc"; str "xyx"] x.
Proof.
  split; [eexists; vm_compute; reflexivity|].
  intros x Hx k a u [<-|[<-|[]]] E; vm_compute in E; injection E as <- _; intros Ex;
    vm_compute in Hx; repeat (destruct Hx as [<-|Hx]; [discriminate Ex|]); exact Hx.
Qed.

(** ** C24, any key set: enough foreign symbols in front make up for any history *)
Theorem C24_any_keys_partial :
  forall keys c ts p k s, Forall bytes keys -> ac_build keys = Ok c -> In k keys -> k <> [] ->
    bytes p -> (forall x, In x p -> foreign keys x) -> (forall k', In k' keys -> zlen k' <= zlen p) ->
    exists oks c1 c2, ac_attempts c ts = Ok (oks, c1) /\ ezac_find c1 (p ++ k ++ s) = Ok (true, c2).
Proof.
  intros keys c ts p k s Hb B Hk NE Hp Hf Hl. destruct (build_linked keys c Hb B) as [L Cu].
  destruct c as [h cur]. cbn [ac_nodes ac_cur] in *. subst cur.
  destruct (attempts_any h keys L ts 0%nat [] [] eq_refl (sub_nil [])) as (oks & cur1 & A & w & W & _).
  destruct (find_key_root _ _ L k (k ++ s) (map idx_of s) Hk NE) as (cur' & F); [apply map_app|].
  exists oks, (mkAc h cur1), (mkAc h cur'). split; [exact A|].
  unfold ezac_find. cbn [ac_nodes ac_cur].
  rewrite (find_pad h keys L p cur1 w (k ++ s) W); [rewrite F; reflexivity| |].
  - destruct w as [|i w] using rev_ind; [simpl; lia|]. clear IHw.
    assert (W' := W). rewrite walk_app in W'. destruct (walk h 0 w) as [n|] eqn:Wn; [|discriminate].
    simpl in W'. destruct (estep h n i) eqn:S; [|discriminate].
    destruct (linked_edge _ _ L w n i Wn ltac:(congruence)) as (k1 & v & Hk1 & M).
    specialize (Hl k1 Hk1). apply (f_equal (@Datatypes.length Z)) in M. rewrite map_length, app_length in M.
    simpl in M. rewrite app_length. simpl. unfold zlen in Hl. lia.
  - intros n i Hi. apply in_map_iff in Hi. destruct Hi as (x & <- & Hx).
    destruct (estep h n (idx_of x)) as [q|] eqn:S; [|reflexivity]. exfalso.
    destruct (tracked_walk _ _ _ (lk_trie _ _ L) _ _ _ S) as (v & Wv & _).
    destruct (linked_edge _ _ L v n (idx_of x) Wv ltac:(congruence)) as (k1 & v1 & Hk1 & M).
    rewrite map_idx_collapse in M by (rewrite Forall_forall in Hb; auto).
    apply (Hf x Hx k1 Hk1). rewrite M, idx_collapse by exact (proj1 (Forall_forall _ _) Hp x Hx).
    apply in_or_app. right. left. reflexivity.
Qed.
Print Assumptions C24_any_keys_partial.

Example C24_any_ex : (exists c, ac_build [str "abab"; str "xyx"] = Ok c) /\
  (forall x, In x (str "????") -> foreign [str "abab"; str "xyx"] x) /\
  (forall k, In k [str "abab"; str "xyx"] -> zlen k <= zlen (str "????")).
Proof.
  split; [eexists; vm_compute; reflexivity|]. split.
  - intros x Hx k [<-|[<-|[]]] E; vm_compute in Hx;
      repeat (destruct Hx as [<-|Hx]; [vm_compute in E; repeat (destruct E as [E|E]; [discriminate E|]); exact E|]);
      exact Hx.
  - intros k [<-|[<-|[]]]; vm_compute; discriminate.
Qed.

(** ** C22, exactly: when does acceptance imply that a key occurs? *)

(** no key occurs in another one *)
Definition unrelated (keys : list (list Z)) : Prop :=
  forall k k', In k keys -> In k' keys ->
    occurs (map collapse k) (map collapse k') -> map collapse k = map collapse k'.

(** an occurrence that does not use a symbol lies on one side of it *)
Lemma occurs_split (k p q : list Z) z : k <> [] -> ~ In z k -> occurs k (p ++ z :: q) -> occurs k p \/ occurs k q.
Proof.
  intros NE Nz (a & b & E). revert p E. induction a as [|x a IH]; intros p E.
  - simpl in E. left.
    assert (exists r, p = k ++ r) as (r & ->).
    { clear NE. revert p E. induction k as [|y k IHk]; intros p E; [exists p; reflexivity|].
      destruct p as [|y' p]; simpl in E.
      - injection E as -> _. exfalso. apply Nz. left. reflexivity.
      - injection E as <- E. destruct (IHk ltac:(intros H; apply Nz; right; exact H) p E) as (r & ->).
        exists r. reflexivity. }
    exists [], r. reflexivity.
  - destruct p as [|y p]; simpl in E.
    + injection E as _ E. right. exists a, b. exact E.
    + injection E as <- E. destruct (IH p E) as [(a1 & b1 & ->)|H]; [|right; exact H].
      left. exists (y :: a1), b1. reflexivity.
Qed.

Lemma first_edge h (v : list Z) a : In a v -> estep h 0 a <> None ->
  exists v1 a1 v2, v = v1 ++ a1 :: v2 /\ (forall i, In i v1 -> estep h 0 i = None) /\ estep h 0 a1 <> None.
Proof.
  intros Hin Ha. induction v as [|x v IH]; [destruct Hin|].
  destruct (estep h 0 x) as [q|] eqn:S.
  - exists [], x, v. split; [reflexivity|]. split; [intros i []|congruence].
  - destruct Hin as [->|Hin]; [congruence|].
    destruct (IH Hin) as (v1 & a1 & v2 & -> & H1 & H2). exists (x :: v1), a1, v2.
    split; [reflexivity|]. split; [|exact H2]. intros i [<-|Hi]; auto.
Qed.

Lemma map_app_inv {A B} (f : A -> B) l a b : map f l = a ++ b ->
  exists l1 l2, l = l1 ++ l2 /\ map f l1 = a /\ map f l2 = b.
Proof.
  revert l. induction a as [|x a IH]; intros l E; [exists [], l; auto|].
  destruct l as [|y l]; [discriminate|]. simpl in E. injection E as <- E.
  destruct (IH l E) as (l1 & l2 & -> & <- & <-). exists (y :: l1), l2. auto.
Qed.

Theorem C22_exact :
  forall keys c z, Forall bytes keys -> ac_build keys = Ok c ->
    unrelated keys -> (forall k, In k keys -> 2 <= zlen k) -> is_byte z -> foreign keys z ->
    ((forall t c', bytes t -> ezac_find c t = Ok (true, c') -> exists k, In k keys /\ contains_key t k)
     <-> first_unique keys).
Proof.
  intros keys c z Hb B U L2 Bz Fz. destruct (build_linked keys c Hb B) as [L Cu].
  assert (Hbk : forall k, In k keys -> bytes k) by (apply Forall_forall; exact Hb).
  pose proof (lk_trie _ _ L) as T. split.
  - intros Sound k k' a u x v y Hk Hk' Ek Ek' Hin.
    rewrite <- (map_idx_collapse k (Hbk k Hk)) in Ek.
    rewrite <- (map_idx_collapse k' (Hbk k' Hk')) in Ek'.
    assert (Sa : estep (ac_nodes c) 0 a <> None).
    { destruct (linked_path _ _ L k [a] u Hk Ek) as (m & W). simpl in W.
      destruct (estep (ac_nodes c) 0 a); [discriminate|discriminate W]. }
    destruct (first_edge _ v a Hin Sa) as (v1 & a1 & v2 & -> & Nv & Sa1).
    destruct (linked_edge _ _ L [] 0%nat a1 eq_refl Sa1) as (k1 & u1 & Hk1 & Ek1). simpl in Ek1.
    rewrite <- app_assoc in Ek'. simpl in Ek'.
    destruct (first_inner_link _ _ L k' k1 x v1 a1 (v2 ++ [y]) u1 Hk' Hk1 Ek' Ek1 Nv)
      as (n & m & Wn & Sm & Fn).
    assert (Ek'2 : map idx_of k' = (x :: v1 ++ [a1]) ++ (v2 ++ [y])).
    { rewrite Ek'. simpl. rewrite <- app_assoc. reflexivity. }
    destruct (map_app_inv idx_of k' _ _ Ek'2) as (pf & sf & Epf & Mpf & Msf).
    destruct k1 as [|b1 tl1]; [discriminate|]. simpl in Ek1. injection Ek1 as Eb1 Etl.
    assert (NEu : u1 <> []).
    { intros ->. destruct tl1; [|discriminate]. specialize (L2 [b1] Hk1). unfold zlen in L2. simpl in L2. lia. }
    assert (Zs : forall q, estep (ac_nodes c) q (idx_of z) = None).
    { intros q. destruct (estep (ac_nodes c) q (idx_of z)) eqn:S; [|reflexivity]. exfalso.
      destruct (tracked_walk _ _ _ T _ _ _ S) as (w & Ww & _).
      destruct (linked_edge _ _ L w q (idx_of z) Ww ltac:(congruence)) as (k2 & v3 & Hk2 & M).
      rewrite map_idx_collapse in M by auto. apply (Fz k2 Hk2). rewrite M, idx_collapse by exact Bz.
      apply in_or_app. right. left. reflexivity. }
    (* the text: up to the inner first symbol, a foreign byte, the rest of the other key *)
    assert (F1 : exists cur', find_walk (ac_nodes c) 0 (pf ++ z :: tl1) = Ok (true, cur')).
    { rewrite (find_along _ _ L pf (z :: tl1) 0%nat n []).
      - rewrite (find_link _ _ _ T n z tl1 m (Zs n) Fn);
          [|apply (t_range _ _ _ T _ _ _ Sm)].
        rewrite Zs. destruct (linked_path _ _ L (b1 :: tl1) (a1 :: u1) [] Hk1) as (t & Wt).
        { simpl. rewrite Eb1, Etl, app_nil_r. reflexivity. }
        destruct (t_path _ _ _ T (b1 :: tl1)) as (t' & Wt' & Et'); [apply in_rev in Hk1; exact Hk1|].
        simpl in Wt'. rewrite Eb1, Sm, Etl in Wt'.
        apply (find_from _ _ L tl1 m u1 [] t' Wt' Et' NEu). rewrite app_nil_r. exact Etl.
      - rewrite Mpf. exact Wn.
      - reflexivity.
      - intros p1 p2 q E1 N1 Wq. simpl in Wq. destruct (is_end (ac_nodes c) q) eqn:Eq; [|reflexivity]. exfalso.
        destruct (t_end _ _ _ T q Eq) as (k2 & Hk2 & Wk2). apply in_rev in Hk2.
        assert (E2 : map idx_of k2 = p1) by (eapply walk_inj; eassumption).
        assert (O : occurs (map collapse k2) (map collapse k')).
        { exists [], (p2 ++ map idx_of sf). simpl. rewrite <- (map_idx_collapse k2), <- (map_idx_collapse k') by auto.
          rewrite E2, Epf, map_app, E1, <- app_assoc. reflexivity. }
        apply U in O; auto. rewrite <- (map_idx_collapse k2), <- (map_idx_collapse k') in O by auto.
        apply (f_equal (@Datatypes.length Z)) in O. rewrite E2, Epf, map_app, app_length, E1, app_length, Msf in O.
        rewrite app_length in O. simpl in O. lia. }
    destruct F1 as (cur' & F1).
    assert (Bt : bytes (pf ++ z :: tl1)).
    { pose proof (Hbk k' Hk') as Bk'. rewrite Epf in Bk'. apply Forall_app in Bk'.
      pose proof (Hbk (b1 :: tl1) Hk1) as Bk1. inversion Bk1; subst.
      apply Forall_app. split; [apply Bk'|]. constructor; assumption. }
    destruct (Sound (pf ++ z :: tl1) (mkAc (ac_nodes c) cur') Bt) as (k2 & Hk2 & O).
    { unfold ezac_find. rewrite Cu, F1. reflexivity. }
    unfold contains_key in O. rewrite map_app in O. simpl in O.
    apply occurs_split in O.
    2:{ specialize (L2 k2 Hk2). destruct k2; [unfold zlen in L2; simpl in L2; lia|discriminate]. }
    2:{ apply Fz. exact Hk2. }
    destruct O as [(o1 & o2 & O)|(o1 & o2 & O)].
    + assert (O' : occurs (map collapse k2) (map collapse k')).
      { exists o1, (o2 ++ map collapse sf). rewrite Epf, map_app, O, <- !app_assoc. reflexivity. }
      apply U in O'; auto. apply (f_equal (@Datatypes.length Z)) in O'. apply (f_equal (@Datatypes.length Z)) in O.
      apply (f_equal (@Datatypes.length Z)) in Msf.
      rewrite Epf in O'. repeat rewrite app_length in *. repeat rewrite map_length in *. rewrite app_length in O'.
      simpl in Msf. lia.
    + assert (O' : occurs (map collapse k2) (map collapse (b1 :: tl1))).
      { exists (collapse b1 :: o1), o2. simpl. rewrite O. reflexivity. }
      apply U in O'; auto. apply (f_equal (@Datatypes.length Z)) in O'. apply (f_equal (@Datatypes.length Z)) in O.
      simpl in O'. repeat rewrite app_length in *. repeat rewrite map_length in *. lia.
  - intros FU t c' Ht F. destruct (build_inner keys c Hb (no_inner_of_first_unique _ Hb FU) B) as [IL RL].
    destruct (find_inner_sound _ _ L RL t 0%nat [] [] (stands_root _)) as (ok & cur' & F1 & _ & F3);
      [exists []; reflexivity|].
    unfold ezac_find in F. rewrite Cu, F1 in F. simpl in F. injection F as -> <-.
    destruct (F3 eq_refl) as (_ & k & a & b & Hk & _ & E). exists k. split; [exact Hk|]. exists a, b.
    rewrite <- (map_idx_collapse t Ht). rewrite <- (map_idx_collapse k) by auto. exact E.
Qed.
Print Assumptions C22_exact.

(** for one key: exactly the keys whose first symbol does not come back before
    the last one are safe *)
Corollary C22_single_key_exact :
  forall k z x v y, bytes k -> is_byte z -> foreign [k] z -> map collapse k = x :: v ++ [y] ->
    exists c, ac_build [k] = Ok c /\
      ((forall t c', bytes t -> ezac_find c t = Ok (true, c') -> contains_key t k) <-> ~ In x v).
Proof.
  intros k z x v y Hb Bz Fz Ek. destruct (build_single k Hb) as (c & B). exists c. split; [exact B|].
  destruct (C22_exact [k] c z) as [E1 E2]; auto.
  - intros k1 k2 [<-|[]] [<-|[]] _. reflexivity.
  - intros k1 [<-|[]]. apply (f_equal (@Datatypes.length Z)) in Ek. rewrite map_length in Ek. simpl in Ek.
    rewrite app_length in Ek. simpl in Ek. unfold zlen. lia.
  - split.
    + intros S. assert (FU : first_unique [k]).
      { apply E1. intros t c' Ht F. exists k. split; [left; reflexivity|]. eapply S; eassumption. }
      eapply (FU k k x (v ++ [y]) x v y); simpl; auto.
    + intros Nx t c' Ht F. destruct E2 with (t := t) (c' := c') as (k1 & [<-|[]] & C); auto.
      intros k1 k2 a u x2 v2 y2 [<-|[]] [<-|[]] A1 A2. rewrite Ek in A1, A2.
      injection A1 as <- _. injection A2 as <- A2. apply app_inj_tail in A2. destruct A2 as [<- _]. exact Nx.
Qed.
Print Assumptions C22_single_key_exact.

(** the key in the file env/config/auth.json of the project is not safe *)
Example C22_single_ex :
  (exists v, map collapse (str "auth_for_tanx") = 97 :: v ++ [120] /\ In 97 v) /\
  (exists v, map collapse (str "Alice_2024") = 65 :: v ++ [52] /\ ~ In 65 v) /\
  foreign [str "auth_for_tanx"] 33 /\ foreign [str "Alice_2024"] 33.
Proof.
  split; [exists (str "uth_for_tan"); split; [reflexivity|simpl; auto 20]|].
  split; [exists (str "lice_202"); split; [reflexivity|]|].
  - intros H; vm_compute in H; repeat (destruct H as [H|H]; [discriminate H|]); exact H.
  - split; intros k [<-|[]] H; vm_compute in H; repeat (destruct H as [H|H]; [discriminate H|]); exact H.
Qed.

(** a set of several keys to which the exact condition applies *)
Example C22_exact_ex : (exists c, ac_build [str "auth_for_tanx"; str "guest"] = Ok c) /\
  unrelated [str "auth_for_tanx"; str "guest"] /\ foreign [str "auth_for_tanx"; str "guest"] 33.
Proof.
  split; [eexists; vm_compute; reflexivity|]. split.
  - intros k k' [<-|[<-|[]]] [<-|[<-|[]]] O; try reflexivity; exfalso; revert O; apply not_occurs; reflexivity.
  - intros k [<-|[<-|[]]] H; vm_compute in H; repeat (destruct H as [H|H]; [discriminate H|]); exact H.
Qed.
