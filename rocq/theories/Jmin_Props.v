(** * cJSON_Minify: memory, and what becomes of a JSON text. *)
From Coq Require Import String.
From Verif Require Import Base Str_Spec Conf_Model Json_Spec Json_Model Json_Props Jmin_Model Jmin_Spec Jmin_Proofs.
Open Scope Z_scope.
Local Arguments Z.add : simpl never.
Local Arguments Z.sub : simpl never.
Local Arguments zlen : simpl never.

(** ** C139: memory *)

(** Every NUL-terminated text is minified within its own bytes: no read behind the NUL, no
    write outside, an end; what is left is not longer, and the bytes behind the text stay. *)
Theorem C139_memory : forall s x, ~ In 0 s ->
  exists o g, minify (s ++ 0 :: x) = Ok (o ++ 0 :: g ++ x) /\ zlen o + zlen g = zlen s /\ ~ In 0 o.
Proof.
  intros s x N. destruct (minify_ok s x N) as (o & g & ST & E & L & (a & ->)). exists o, a. rewrite zlen_app in L.
  repeat split; [exact E|lia|]. intros Z. apply N. exact (steps_in s o [] N ST 0 Z).
Qed.
Print Assumptions C139_memory.
Example C139_memory_ex : minify (str " [ 1, /* one */ ""a \"" b"" // end" ++ 0 :: [7; 8]) =
  Ok (str "[1,""a \"" b""" ++ 0 :: str " */ ""a \"" b"" // end" ++ 0 :: [7; 8]).
Proof. vm_compute. reflexivity. Qed.

(** ** What a text becomes *)
Definition eats (t o : list Z) : Prop :=
  (forall k, steps (t ++ k) o k) /\ (forall k, squeeze Between (t ++ k) = o ++ squeeze Between k).
Lemma eats_app a o b o' : eats a o -> eats b o' -> eats (a ++ b) (o ++ o').
Proof.
  intros (A & A') (B & B'). split; intros k.
  - rewrite <- app_assoc. eapply steps_app; [apply A|apply B].
  - rewrite <- !app_assoc, A', B'. reflexivity.
Qed.
Lemma eats_nil : eats [] []. Proof. split; intros k; [constructor|reflexivity]. Qed.
Lemma step1 s o r : s <> [] -> p_step s = (o, r) -> steps s o r.
Proof. intros NE E. pose proof (st_step s [] (snd (p_step s)) NE (st_nil _)) as H. rewrite E, app_nil_r in H. exact H. Qed.
Lemma eats_ws w : ws w -> eats w [].
Proof.
  induction 1 as [|c w C W IH]; [apply eats_nil|]. apply (eats_app [c] [] w []); [|exact IH].
  assert (B : ((c =? 32) || (c =? 9) || (c =? 13) || (c =? 10)) = true /\ blank c = true)
    by (destruct C as [-> | [-> | [-> | ->]]]; split; reflexivity).
  destruct B as (B & B'). split; intros k.
  - assert (E : p_step ([c] ++ k) = ([], k)) by (unfold p_step; cbn [app]; rewrite B; reflexivity).
    apply step1; [discriminate|exact E].
  - cbn [app squeeze]. rewrite B'. reflexivity.
Qed.
(** a byte between tokens that is neither blank nor quote nor slash *)
Definition dull (c : Z) : Prop := c <> 32 /\ c <> 9 /\ c <> 10 /\ c <> 13 /\ c <> 34 /\ c <> 47.
Lemma eats_dull u : Forall dull u -> eats u u.
Proof.
  induction 1 as [|c u C U IH]; [apply eats_nil|]. apply (eats_app [c] [c] u u); [|exact IH].
  destruct C as (C1 & C2 & C3 & C4 & C5 & C6). split; intros k.
  - assert (E : p_step ([c] ++ k) = ([c], k)).
    { unfold p_step. cbn [app]. repeat match goal with |- context [c =? ?v] => destruct (Z.eqb_spec c v); [lia|] end. reflexivity. }
    apply step1; [discriminate|exact E].
  - cbn [app squeeze]. unfold blank. repeat match goal with |- context [c =? ?v] => destruct (Z.eqb_spec c v); [lia|] end. reflexivity.
Qed.

(** *** Strings *)
Definition pstr (s o r : list Z) : Prop := forall f, (length s < f)%nat -> p_str f s = (o, r).
Lemma pstr_end k : pstr (34 :: k) [34] k.
Proof. intros [|f] F; [lia|]. reflexivity. Qed.
Lemma pstr_raw c s o r : c <> 34 -> c <> 92 \/ (forall k, s <> 34 :: k) -> pstr s o r -> pstr (c :: s) (c :: o) r.
Proof.
  intros C D P [|f] F; [lia|]. cbn [p_str]. destruct (Z.eqb_spec c 34); [lia|]. cbn in F. rewrite (P f) by lia.
  destruct ((c =? 92) && _) eqn:E; [|reflexivity]. apply andb_prop in E. destruct E as (E1 & E2). apply Z.eqb_eq in E1.
  destruct D as [D|D]; [lia|]. destruct s as [|d s]; [discriminate|]. apply Z.eqb_eq in E2. subst d. destruct (D s). reflexivity.
Qed.
Lemma pstr_quote s o r : pstr s o r -> pstr (92 :: 34 :: s) (92 :: 34 :: o) r.
Proof. intros P [|f] F; [lia|]. cbn [p_str tl]. cbn in F. rewrite (P f) by lia. reflexivity. Qed.

Lemma hexd_dull c v : hexd c v -> c <> 34 /\ c <> 92.
Proof. intros H. inversion H; lia. Qed.
Lemma pstr_hex h v s o r : hex4 h v -> pstr s o r -> pstr (92 :: 117 :: h ++ s) (92 :: 117 :: h ++ o) r.
Proof.
  intros H P. destruct H as [a b c d x y z w A B C D]. apply hexd_dull in A, B, C, D. cbn [app].
  apply pstr_raw; [lia|right; discriminate|]. apply pstr_raw; [lia|left; lia|]. repeat (apply pstr_raw; [lia|left; lia|]). exact P.
Qed.
Lemma chars_head s t : chars s t -> forall u, t <> 34 :: u.
Proof. intros H. inversion H; try discriminate. intros u E. injection E as E _. lia. Qed.

(** no quote behind two backslashes *)
Definition no_bsq (t : list Z) : Prop := forall a b, t <> a ++ [92; 92; 34] ++ b.
Lemma no_bsq_sub a t b : no_bsq (a ++ t ++ b) -> no_bsq t.
Proof. intros H x y ->. apply (H (a ++ x) (y ++ b)). rewrite <- !app_assoc. reflexivity. Qed.
Lemma no_bsq_tl c t : no_bsq (c :: t) -> no_bsq t.
Proof. intros H. apply (no_bsq_sub [c] t []). rewrite app_nil_r. exact H. Qed.
Lemma no_bsq_app a t : no_bsq (a ++ t) -> no_bsq t.
Proof. intros H. apply (no_bsq_sub a t []). rewrite app_nil_r. exact H. Qed.

Lemma chars_pstr s t : chars s t -> no_bsq (t ++ [34]) -> forall k, pstr (t ++ 34 :: k) (t ++ [34]) k.
Proof.
  induction 1 as [|b s t B1 B2 B3 CH IH|c v s t I0 CH IH|h c s t H C CH IH|h c h' c' s t H C H' C' CH IH]; intros N k.
  - apply pstr_end.
  - cbn [app]. apply pstr_raw; [exact B2|left; exact B3|]. apply IH, (no_bsq_tl _ _ N).
  - cbn [app] in *. specialize (IH (no_bsq_tl _ _ (no_bsq_tl _ _ N)) k).
    destruct (Z.eq_dec c 34) as [->|C34]; [apply pstr_quote, IH|].
    apply pstr_raw; [lia|right; intros u E; injection E as E _; lia|]. apply pstr_raw; [exact C34| |exact IH].
    destruct (Z.eq_dec c 92) as [->|C92]; [right|left; exact C92]. intros u E.
    destruct t as [|a t]; [apply (N [] []); reflexivity|]. injection E as -> E. exact (chars_head _ _ CH t eq_refl).
  - cbn [app] in *. rewrite <- !app_assoc in *. eapply pstr_hex; [exact H|]. apply IH.
    apply (no_bsq_app (92 :: 117 :: h)). exact N.
  - cbn [app] in *. rewrite <- !app_assoc in *. cbn [app] in *. eapply pstr_hex; [exact H|]. rewrite <- !app_assoc in *.
    eapply pstr_hex; [exact H'|]. apply IH. apply (no_bsq_app (92 :: 117 :: h ++ 92 :: 117 :: h')). cbn [app]. rewrite <- app_assoc. exact N.
Qed.
Lemma squeeze_plain u k : Forall (fun c => c <> 34 /\ c <> 92) u -> squeeze InString (u ++ k) = u ++ squeeze InString k.
Proof.
  induction 1 as [|c u C U IH]; [reflexivity|]. cbn [app squeeze]. destruct (Z.eqb_spec c 34); [lia|]. destruct (Z.eqb_spec c 92); [lia|].
  rewrite IH. reflexivity.
Qed.
Lemma squeeze_hex h v k : hex4 h v -> squeeze InString (92 :: 117 :: h ++ k) = 92 :: 117 :: h ++ squeeze InString k.
Proof.
  intros H. cbn [squeeze]. change (92 =? 34) with false. change (92 =? 92) with true. cbv iota. cbn [squeeze]. do 2 f_equal.
  apply squeeze_plain. destruct H as [a b c d x y z w A B C D]. apply hexd_dull in A, B, C, D. repeat (constructor; [assumption|]). constructor.
Qed.
Lemma chars_squeeze s t : chars s t -> forall k, squeeze InString (t ++ 34 :: k) = t ++ 34 :: squeeze Between k.
Proof.
  induction 1 as [|b s t B1 B2 B3 CH IH|c v s t I0 CH IH|h c s t H C CH IH|h c h' c' s t H C H' C' CH IH]; intros k.
  - reflexivity.
  - cbn [app squeeze]. destruct (Z.eqb_spec b 34); [lia|]. destruct (Z.eqb_spec b 92); [lia|]. rewrite IH. reflexivity.
  - cbn [app squeeze]. change (92 =? 34) with false. change (92 =? 92) with true. cbv iota. cbn [squeeze]. rewrite IH. reflexivity.
  - cbn [app]. rewrite <- !app_assoc. rewrite (squeeze_hex h c) by exact H. rewrite IH. reflexivity.
  - cbn [app]. rewrite <- !app_assoc. rewrite (squeeze_hex h c) by exact H. cbn [app]. rewrite <- !app_assoc.
    rewrite (squeeze_hex h' c') by exact H'. rewrite IH. reflexivity.
Qed.
Lemma eats_string s t : chars s t -> no_bsq (t ++ [34]) -> eats ([34] ++ t ++ [34]) ([34] ++ t ++ [34]).
Proof.
  intros CH N. split; intros k.
  - rewrite <- !app_assoc. cbn [app]. assert (E : p_step (34 :: t ++ 34 :: k) = (34 :: t ++ [34], k)).
    { unfold p_step. change (34 =? 34) with true. cbn [Z.eqb Pos.eqb orb]. rewrite (chars_pstr s t CH N k) by (cbn [length]; lia). reflexivity. }
    apply step1; [discriminate|exact E].
  - rewrite <- !app_assoc. cbn [app squeeze]. cbn [Z.eqb Pos.eqb orb blank]. unfold blank. cbn [Z.eqb Pos.eqb orb].
    rewrite (chars_squeeze s t CH). reflexivity. 
Qed.

Lemma eats_key s t r o : chars s t -> no_bsq (t ++ [34]) -> eats r o -> eats ([34] ++ t ++ [34] ++ r) ([34] ++ t ++ [34] ++ o).
Proof. intros CH N E. pose proof (eats_app _ _ _ _ (eats_string s t CH N) E) as H. rewrite <- !app_assoc in H. exact H. Qed.

(** *** Values *)
Section Values.
Context (N : list Z -> Z -> Prop) (HN : forall t v, N t v -> Forall dull t).
Lemma dulls u : (forallb (fun c => negb (blank c || (c =? 34) || (c =? 47))) u) = true -> Forall dull u.
Proof.
  intros H. apply Forall_forall. intros c C. rewrite forallb_forall in H. specialize (H c C). unfold blank in H. unfold dull.
  rewrite negb_true_iff, !orb_false_iff in H. destruct H as (((((A & B) & C0) & D) & F) & G). rewrite Z.eqb_neq in *. lia.
Qed.
Lemma ws_nil : ws []. Proof. constructor. Qed.
Local Ltac sub := match goal with H : no_bsq _ |- no_bsq ?t => revert H end.
Lemma docs_eats :
  (forall n j t, docN N n j t -> no_bsq t -> exists o, docN N n j o /\ eats t o) /\
  (forall n l t, docsN N n l t -> no_bsq t -> exists o, docsN N n l o /\ eats t o) /\
  (forall n l t, memsN N n l t -> no_bsq t -> exists o, memsN N n l o /\ eats t o).
Proof.
  apply docN_ind3.
  - intros n NB. exists (str "null"). split; [constructor|apply eats_dull, dulls; reflexivity].
  - intros n NB. exists (str "true"). split; [constructor|apply eats_dull, dulls; reflexivity].
  - intros n NB. exists (str "false"). split; [constructor|apply eats_dull, dulls; reflexivity].
  - intros n t v H L NB. exists t. split; [apply d_num; assumption|apply eats_dull, (HN _ _ H)].
  - intros n s c t CH CS NB. exists ([34] ++ t ++ [34]). split; [apply d_str with s; assumption|]. apply (eats_string s t CH).
    apply (no_bsq_app [34]). exact NB.
  - intros n w L W NB. exists ([91] ++ [] ++ [93]). split; [apply d_arr0; [exact L|apply ws_nil]|].
    apply eats_app; [apply eats_dull, dulls; reflexivity|]. apply eats_app; [apply eats_ws, W|apply eats_dull, dulls; reflexivity].
  - intros n l t L D IH NB. destruct IH as (o & D' & E); [apply (no_bsq_sub [91] t [93]), NB|].
    exists ([91] ++ o ++ [93]). split; [apply d_arr; assumption|].
    apply eats_app; [apply eats_dull, dulls; reflexivity|]. apply eats_app; [exact E|apply eats_dull, dulls; reflexivity].
  - intros n w L W NB. exists ([123] ++ [] ++ [125]). split; [apply d_obj0; [exact L|apply ws_nil]|].
    apply eats_app; [apply eats_dull, dulls; reflexivity|]. apply eats_app; [apply eats_ws, W|apply eats_dull, dulls; reflexivity].
  - intros n l t L D IH NB. destruct IH as (o & D' & E); [apply (no_bsq_sub [123] t [125]), NB|].
    exists ([123] ++ o ++ [125]). split; [apply d_obj; assumption|].
    apply eats_app; [apply eats_dull, dulls; reflexivity|]. apply eats_app; [exact E|apply eats_dull, dulls; reflexivity].
  - intros n j w t w' W D IH W' NB. destruct IH as (o & D' & E); [apply (no_bsq_sub w t w'), NB|].
    exists ([] ++ o ++ []). split; [apply ds_one; [apply ws_nil|exact D'|apply ws_nil]|].
    apply eats_app; [apply eats_ws, W|]. apply eats_app; [exact E|apply eats_ws, W'].
  - intros n j l w t w' u W D IH W' DS IHS NB. destruct IH as (o & D' & E); [apply (no_bsq_sub w t (w' ++ [44] ++ u)), NB|].
    destruct IHS as (p & DS' & E'); [apply (no_bsq_app (w ++ t ++ w' ++ [44])); rewrite <- !app_assoc; exact NB|].
    exists ([] ++ o ++ [] ++ [44] ++ p). split; [apply ds_more; try assumption; apply ws_nil|].
    apply eats_app; [apply eats_ws, W|]. apply eats_app; [exact E|]. apply eats_app; [apply eats_ws, W'|].
    apply eats_app; [apply eats_dull, dulls; reflexivity|exact E'].
  - intros n k c kt j w1 w2 w3 t w4 W1 CH CS W2 W3 D IH W4 NB.
    destruct IH as (o & D' & E); [apply (no_bsq_sub (w1 ++ [34] ++ kt ++ [34] ++ w2 ++ [58] ++ w3) t w4); rewrite <- !app_assoc; exact NB|].
    assert (NK : no_bsq (kt ++ [34])).
    { apply (no_bsq_sub (w1 ++ [34]) (kt ++ [34]) (w2 ++ [58] ++ w3 ++ t ++ w4)). rewrite <- !app_assoc. exact NB. }
    exists ([] ++ [34] ++ kt ++ [34] ++ [] ++ [58] ++ [] ++ o ++ []).
    split; [apply ms_one with k; try assumption; apply ws_nil|].
    apply eats_app; [apply eats_ws, W1|].
    apply (eats_key k); [exact CH|exact NK|]. apply eats_app; [apply eats_ws, W2|].
    apply eats_app; [apply eats_dull, dulls; reflexivity|]. apply eats_app; [apply eats_ws, W3|]. apply eats_app; [exact E|apply eats_ws, W4].
  - intros n k c kt j w1 w2 w3 t w4 l u W1 CH CS W2 W3 D IH W4 MS IHS NB.
    destruct IH as (o & D' & E); [apply (no_bsq_sub (w1 ++ [34] ++ kt ++ [34] ++ w2 ++ [58] ++ w3) t (w4 ++ [44] ++ u)); rewrite <- !app_assoc; exact NB|].
    destruct IHS as (p & DS' & E'); [apply (no_bsq_app (w1 ++ [34] ++ kt ++ [34] ++ w2 ++ [58] ++ w3 ++ t ++ w4 ++ [44])); rewrite <- !app_assoc; exact NB|].
    assert (NK : no_bsq (kt ++ [34])).
    { apply (no_bsq_sub (w1 ++ [34]) (kt ++ [34]) (w2 ++ [58] ++ w3 ++ t ++ w4 ++ [44] ++ u)). rewrite <- !app_assoc. exact NB. }
    exists ([] ++ [34] ++ kt ++ [34] ++ [] ++ [58] ++ [] ++ o ++ [] ++ [44] ++ p).
    split; [apply ms_more with k; try assumption; apply ws_nil|].
    apply eats_app; [apply eats_ws, W1|].
    apply (eats_key k); [exact CH|exact NK|]. apply eats_app; [apply eats_ws, W2|].
    apply eats_app; [apply eats_dull, dulls; reflexivity|]. apply eats_app; [apply eats_ws, W3|]. apply eats_app; [exact E|].
    apply eats_app; [apply eats_ws, W4|]. apply eats_app; [apply eats_dull, dulls; reflexivity|exact E'].
Qed.
Lemma text_min j t x : text_ofN N j t -> ~ In 0 t -> no_bsq t ->
  exists g, minify (t ++ 0 :: x) = Ok (squeeze Between t ++ 0 :: g ++ x) /\ text_ofN N j (squeeze Between t).
Proof.
  intros T Z NB. destruct (minify_ok t x Z) as (o & g & ST & E & L & (a & ->)). destruct T as [bom w j t w' B W D W'].
  destruct (proj1 docs_eats _ _ _ D) as (p & D' & (E1 & E2)).
  { apply (no_bsq_sub (bom ++ w) t w'). rewrite <- !app_assoc. exact NB. }
  assert (EA : eats (bom ++ w ++ t ++ w') (bom ++ [] ++ p ++ [])).
  { apply eats_app; [apply eats_dull, dulls; destruct B as [-> | ->]; reflexivity|]. apply eats_app; [apply eats_ws, W|].
    apply eats_app; [split; assumption|apply eats_ws, W']. }
  destruct EA as (EA1 & EA2). specialize (EA1 []). specialize (EA2 []). cbn [squeeze] in EA2. rewrite !app_nil_r in EA1. rewrite !app_nil_r in EA2.
  assert (OE := steps_det _ _ _ ST EA1). subst o. rewrite EA2. exists a. split; [exact E|]. rewrite <- (app_nil_r p).
  apply (text_intro bom [] j p []); [exact B|apply ws_nil|exact D'|apply ws_nil].
Qed.
End Values.

Lemma number_dull t v : number t v -> Forall dull t.
Proof.
  assert (DI : forall l, digits l -> Forall dull l) by (intros l H; eapply Forall_impl; [|exact H]; unfold dull; intros; cbv beta in *; lia).
  assert (IP : forall l, int_part l -> Forall dull l).
  { intros l H. destruct H as [|b u B U]; constructor; [unfold dull; lia|constructor|unfold dull; lia|apply DI, U]. }
  assert (FR : forall l d, frac l d -> Forall dull l).
  { intros l d H. destruct H as [|u U _]; constructor; [unfold dull; lia|apply DI, U]. }
  assert (EX : forall l d, expo l d -> Forall dull l).
  { intros l d H. destruct H as [|e s ds E S0 D _|e ds E D _]; constructor; try (unfold dull; lia).
    - apply Forall_app. split; [destruct S0 as [-> | ->]; repeat constructor; unfold dull; lia|apply DI, D].
    - constructor; [unfold dull; lia|apply DI, D]. }
  intros H. destruct H as [i f fd e x v I1 F E _|i f fd e x v I1 F E _]; [|constructor; [unfold dull; lia|]];
    apply Forall_app; (split; [apply IP, I1|]); apply Forall_app; split; eauto.
Qed.

(** A JSON text in which no quote follows two backslashes becomes the same text without its
    white space. That text has the same value, and the program reads it as that value when
    its numbers are integers. *)
Theorem C140_partial : forall j t x, text_of j t -> ~ In 0 t -> (forall a b, t <> a ++ [92; 92; 34] ++ b) ->
  exists g, minify (t ++ 0 :: x) = Ok (squeeze Between t ++ 0 :: g ++ x) /\ text_of j (squeeze Between t) /\
  (plain_text j t -> plain_text j (squeeze Between t) /\ json_parse t = Ok (Some j) /\ json_parse (squeeze Between t) = Ok (Some j)).
Proof.
  intros j t x T Z NB. destruct (text_min number number_dull j t x T Z NB) as (g & E & T'). exists g. split; [exact E|]. split; [exact T'|].
  intros P. destruct (text_min integer (fun t v H => number_dull t v (integer_number t v H)) j t x P Z NB) as (_ & _ & P').
  split; [exact P'|]. split; [apply (C96_integers_exact_partial j t P)|apply (C96_integers_exact_partial j _ P')].
Qed.
Print Assumptions C140_partial.
Fixpoint has_bsq (t : list Z) : bool :=
  match t with [] => false | c :: u => bseq (ztake 3 t) [92; 92; 34] || has_bsq u end.
Lemma has_bsq_no t : has_bsq t = false -> no_bsq t.
Proof.
  intros H a b ->. induction a as [|c a IH]; [discriminate|]. cbn [app has_bsq] in H. apply orb_false_iff in H. destruct H as (_ & H). exact (IH H).
Qed.
Definition spaced : list Z := str " { ""a b"" : [ 1 , ""\\ x\"" y"" ] } ".
Example C140_ex : exists j, plain_text j spaced /\ ~ In 0 spaced /\ no_bsq spaced /\
  squeeze Between spaced = str "{""a b"":[1,""\\ x\"" y""]}" /\
  minify (spaced ++ [0]) = Ok (str "{""a b"":[1,""\\ x\"" y""]}" ++ 0 :: str """ y"" ] } " ++ [0]).
Proof.
  eexists. split; [|split; [|split; [|split]]].
  - change spaced with ([] ++ [32] ++ ([123] ++ ([32] ++ [34] ++ str "a b" ++ [34] ++ [32] ++ [58] ++ [32] ++
      ([91] ++ ([32] ++ str "1" ++ [32] ++ [44] ++ ([32] ++ ([34] ++ str "\\ x\"" y" ++ [34]) ++ [32])) ++ [93]) ++ [32]) ++ [125]) ++ [32]).
    assert (W : ws [32]) by (repeat constructor).
    apply text_intro; [auto|exact W| |exact W]. apply d_obj; [lia|]. eapply ms_one; [exact W| | |exact W|exact W| |exact W].
    + cbn. repeat (apply ch_raw; [lia|lia|lia|]). constructor.
    + apply cstr_all. cbn. lia.
    + apply d_arr; [lia|]. apply ds_more; [exact W| |exact W|].
      * apply d_num; [|vm_compute; discriminate]. apply (in_pos [49]); [apply ip_other; [lia|constructor]|reflexivity].
      * apply ds_one; [exact W| |exact W]. eapply d_str.
        -- cbn. apply (ch_esc 92 92); [cbn; auto|]. do 2 (apply ch_raw; [lia|lia|lia|]). apply (ch_esc 34 34); [cbn; auto|].
           do 2 (apply ch_raw; [lia|lia|lia|]). constructor.
        -- apply cstr_all. cbn. lia.
  - cbn. lia.
  - apply has_bsq_no. reflexivity.
  - reflexivity.
  - vm_compute. reflexivity.
Qed.

(** A string that ends in a backslash: the escaped backslash and the closing quote are taken
    for an escaped quote, so the next string is read inside out and loses its blanks. *)
Theorem C140_refuted : exists j j' t o g,
  plain_text j t /\ ~ In 0 t /\ json_parse t = Ok (Some j) /\
  minify (t ++ [0]) = Ok (o ++ 0 :: g) /\ ~ In 0 o /\ json_parse o = Ok (Some j') /\ j <> j'.
Proof.
  exists (JArr [JStr (str "\"); JStr (str "a b")]), (JArr [JStr (str "\"); JStr (str "ab")]), (str "[""\\"",""a b""]"), (str "[""\\"",""ab""]").
  eexists. split; [|split; [|split; [|split; [|split; [|split]]]]].
  - change (str "[""\\"",""a b""]") with ([] ++ [] ++ ([91] ++ ([] ++ ([34] ++ str "\\" ++ [34]) ++ [] ++ [44] ++ ([] ++ ([34] ++ str "a b" ++ [34]) ++ [])) ++ [93]) ++ []).
    apply text_intro; [auto|constructor| |constructor]. apply d_arr; [lia|]. apply ds_more; [constructor| |constructor|].
    + apply d_str with (str "\"); [|apply cstr_all; cbn; lia]. cbn. apply ch_esc; [cbn; auto|constructor].
    + apply ds_one; [constructor| |constructor]. apply d_str with (str "a b"); [|apply cstr_all; cbn; lia].
      cbn. repeat (apply ch_raw; [lia|lia|lia|]). constructor.
  - cbn. lia.
  - vm_compute. reflexivity.
  - vm_compute. reflexivity.
  - cbn. lia.
  - vm_compute. reflexivity.
  - discriminate.
Qed.
Print Assumptions C140_refuted.

(** Minifying does not keep a wrong text wrong: blanks and single slashes inside a number go. *)
Theorem C140_refuted_wrong_text : exists t t' o g g',
  json_parse t = Ok None /\ json_parse t' = Ok None /\
  minify (t ++ [0]) = Ok (o ++ 0 :: g) /\ minify (t' ++ [0]) = Ok (o ++ 0 :: g') /\
  json_parse o = Ok (Some (JArr [JNum 12])).
Proof.
  exists (str "[1 2]"), (str "[1/2]"), (str "[12]"). do 2 eexists. repeat split; vm_compute; reflexivity.
Qed.
Print Assumptions C140_refuted_wrong_text.
