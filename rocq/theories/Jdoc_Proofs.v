(** * Documents are read with exactly the values that the reading of their numbers gives. *)
From Verif Require Import Base Str_Spec Conf_Model Json_Model Json_Spec Json_Proofs Json_Doc_Proofs Json_Cut_Proofs.
Open Scope Z_scope.
Local Arguments zlen : simpl never.

(** a number text and what the reader makes of it *)
Definition read_as (t : list Z) (v : Z) : Prop := number t v /\ strtod t = Some (v, zlen t).

Definition value_exact (n : Z) (j : json) (t : list Z) : Prop :=
  exists j', doc n j' t /\ j' = j /\
    forall f d x, d + n <= 1000 -> delim x -> (2 * length (t ++ x) + 1 <= f)%nat ->
      parse_value f d (t ++ x) = Ok (Some (j', x)).
Definition elems_exact (n : Z) (l : list json) (t : list Z) : Prop :=
  exists l', docs n l' t /\ l' = l /\ (exists b u, skip (t ++ [93]) = b :: u /\ b <> 93) /\
    forall f d x, d + n <= 1000 -> (2 * length (t ++ 93%Z :: x) + 2 <= f)%nat ->
      elems f d (t ++ 93 :: x) = Ok (Some (l', x)).
Definition members_exact (n : Z) (l : list (list Z * json)) (t : list Z) : Prop :=
  exists l', mems n l' t /\ l' = l /\ (exists b u, skip (t ++ [125]) = b :: u /\ b <> 125) /\
    forall f d x, d + n <= 1000 -> (2 * length (t ++ 125%Z :: x) + 2 <= f)%nat ->
      members f d (t ++ 125 :: x) = Ok (Some (l', x)).

Lemma exact_all :
  (forall n j t, docN read_as n j t -> value_exact n j t) /\
  (forall n l t, docsN read_as n l t -> elems_exact n l t) /\
  (forall n l t, memsN read_as n l t -> members_exact n l t).
Proof.
  apply docN_ind3.
  - intros n. exists JNull. split; [constructor|]. split; [congruence|]. intros f d x _ _ F.
    destruct f as [|f]; [lia|]. cbn [parse_value]. rewrite starts_app. reflexivity.
  - intros n. exists (JBool true). split; [constructor|]. split; [congruence|]. intros f d x _ _ F.
    destruct f as [|f]; [lia|]. reflexivity.
  - intros n. exists (JBool false). split; [constructor|]. split; [congruence|]. intros f d x _ _ F.
    destruct f as [|f]; [lia|]. reflexivity.
  - intros n t v H0 L. destruct H0 as (H & ST).
    destruct (parse_number_doc t v [0] H L eq_refl) as (v' & _ & _).
    (* the value does not depend on what follows *)
    destruct (number_strtod _ _ H) as (w & E & NW). rewrite E in ST. injection ST as ->.
    exists (JNum v). split; [constructor; assumption|]. split; [congruence|].
    intros f d x _ D F. destruct f as [|f]; [lia|]. cbn [parse_value].
    assert (parse_number (t ++ x) = Some (v, x)) as PN.
    { unfold parse_number.
      rewrite num_copy_all; [|exact (proj1 (number_chars _ _ H))|unfold zlen in L; lia|exact D].
      rewrite E. rewrite zdrop_app_eq. reflexivity. }
    destruct (number_chars _ _ H) as (_ & b & u & -> & B). cbn [app] in *.
    assert (48 <= b <= 57 \/ b = 45) as B' by (destruct B as [-> | B]; [lia|apply digit_spec in B; lia]).
    destruct (not_lit b (u ++ x)) as (S1 & S2 & S3); [lia|lia|lia|]. rewrite S1, S2, S3.
    replace (b =? QUOTE) with false by (unfold QUOTE; lia).
    replace ((b =? 45) || digit b) with true by (unfold digit; lia).
    rewrite PN. reflexivity.
  - intros n s c t H C. exists (JStr c). split; [apply (d_str n s c t); assumption|]. split; [congruence|].
    intros f d x _ D F. destruct f as [|f]; [lia|]. cbn [app parse_value].
    destruct (not_lit 34 ((t ++ [34]) ++ x)) as (S1 & S2 & S3); [lia|lia|lia|]. rewrite S1, S2, S3.
    change (34 =? QUOTE) with true. cbv iota.
    rewrite <- app_assoc. cbn [app]. rewrite (parse_string_doc _ _ _ x H C). reflexivity.
  - intros n w NP W. exists (JArr []). split; [apply d_arr0; assumption|]. split; [congruence|].
    intros f d x DN D F. destruct f as [|f]; [lia|]. cbn [app parse_value].
    destruct (not_lit 91 ((w ++ [93]) ++ x)) as (S1 & S2 & S3); [lia|lia|lia|]. rewrite S1, S2, S3.
    change (91 =? QUOTE) with false. change ((91 =? 45) || digit 91) with false. change (91 =? LBRACK) with true. cbv iota.
    replace (NESTING <=? d) with false by (unfold NESTING; lia).
    rewrite <- app_assoc. cbn [app]. rewrite (skip_ws w 93 x W) by lia.
    change (93 =? RBRACK) with true. reflexivity.
  - intros n l t NP _ (l' & D' & AL & (b & u & SK & NB) & P).
    exists (JArr l'). split; [apply d_arr; assumption|]. split; [congruence|].
    intros f d x DN D F. destruct f as [|f]; [lia|]. cbn [app parse_value].
    destruct (not_lit 91 ((t ++ [93]) ++ x)) as (S1 & S2 & S3); [lia|lia|lia|]. rewrite S1, S2, S3.
    change (91 =? QUOTE) with false. change ((91 =? 45) || digit 91) with false. change (91 =? LBRACK) with true. cbv iota.
    replace (NESTING <=? d) with false by (unfold NESTING; lia).
    rewrite <- app_assoc. cbn [app].
    destruct (skip_head _ _ _ _ x SK NB) as (u' & SK'). rewrite SK'.
    replace (b =? RBRACK) with false by (unfold RBRACK; lia).
    rewrite <- SK', elems_skip. rewrite P; [reflexivity|lia|].
    cbn [app] in F. rewrite <- app_assoc in F. cbn [app] in F. cbn [length] in F. lia.
  - intros n w NP W. exists (JObj []). split; [apply d_obj0; assumption|]. split; [congruence|].
    intros f d x DN D F. destruct f as [|f]; [lia|]. cbn [app parse_value].
    destruct (not_lit 123 ((w ++ [125]) ++ x)) as (S1 & S2 & S3); [lia|lia|lia|]. rewrite S1, S2, S3.
    change (123 =? QUOTE) with false. change ((123 =? 45) || digit 123) with false.
    change (123 =? LBRACK) with false. change (123 =? LBRACE) with true. cbv iota.
    replace (NESTING <=? d) with false by (unfold NESTING; lia).
    rewrite <- app_assoc. cbn [app]. rewrite (skip_ws w 125 x W) by lia.
    change (125 =? RBRACE) with true. reflexivity.
  - intros n l t NP _ (l' & D' & AL & (b & u & SK & NB) & P).
    exists (JObj l'). split; [apply d_obj; assumption|]. split; [congruence|].
    intros f d x DN D F. destruct f as [|f]; [lia|]. cbn [app parse_value].
    destruct (not_lit 123 ((t ++ [125]) ++ x)) as (S1 & S2 & S3); [lia|lia|lia|]. rewrite S1, S2, S3.
    change (123 =? QUOTE) with false. change ((123 =? 45) || digit 123) with false.
    change (123 =? LBRACK) with false. change (123 =? LBRACE) with true. cbv iota.
    replace (NESTING <=? d) with false by (unfold NESTING; lia).
    rewrite <- app_assoc. cbn [app].
    destruct (skip_head _ _ _ _ x SK NB) as (u' & SK'). rewrite SK'.
    replace (b =? RBRACE) with false by (unfold RBRACE; lia).
    rewrite <- SK', members_skip. rewrite P; [reflexivity|lia|].
    cbn [app] in F. rewrite <- app_assoc in F. cbn [app] in F. cbn [length] in F. lia.
  - intros n j w t w' W _ (j' & D' & AL & P) W'.
    exists [j']. split; [apply ds_one; assumption|]. split; [congruence|]. split.
    { destruct (doc_first _ _ _ D') as (c & v & -> & C & NC). exists c, ((v ++ w') ++ [93]).
      split; [|exact NC]. rewrite <- app_assoc. cbn [app]. apply (skip_ws w c _ W C). }
    intros f d x DN F. try rewrite <- !app_assoc in *. destruct f as [|f]; [lia|]. cbn [elems].
    destruct (one_elem f d w t w' 93 x j' n W W' D') as (E1 & E2); [lia|reflexivity|exact P|exact DN|lia|].
    rewrite E1. cbn [bind]. rewrite E2. reflexivity.
  - intros n j l w t w' u W _ (j' & D' & AL & P) W' _ (l' & D2 & AL2 & _ & P2).
    exists (j' :: l'). split; [apply ds_more; assumption|]. split; [congruence|]. split.
    { destruct (doc_first _ _ _ D') as (c & v & -> & C & NC).
      exists c, ((v ++ w' ++ [44] ++ u) ++ [93]).
      split; [|exact NC]. rewrite <- app_assoc. cbn [app]. apply (skip_ws w c _ W C). }
    intros f d x DN F. try rewrite <- !app_assoc in *. cbn [app] in *. destruct f as [|f]; [lia|]. cbn [elems].
    destruct (one_elem f d w t w' 44 (u ++ 93 :: x) j' n W W' D') as (E1 & E2); [lia|reflexivity|exact P|exact DN|lia|].
    rewrite E1. cbn [bind]. rewrite E2. change (44 =? COMMA) with true. cbv iota.
    rewrite P2; [reflexivity|exact DN|]. rewrite !app_length in F. simpl in F. rewrite !app_length in F. simpl in F.
    rewrite app_length. simpl. lia.
  - intros n k c kt j w1 w2 w3 t w4 W1 K C W2 W3 _ (j' & D' & AL & P) W4.
    exists [(c, j')]. split; [apply ms_one with k; assumption|]. split; [congruence|]. split.
    { exists 34, ((kt ++ [34] ++ w2 ++ [58] ++ w3 ++ t ++ w4) ++ [125]). split; [|lia].
      rewrite <- app_assoc. cbn [app]. apply (skip_ws w1 34 _ W1). lia. }
    intros f d x DN F. try rewrite <- !app_assoc in *. cbn [app] in *. try rewrite <- !app_assoc in *. cbn [app] in *.
    destruct f as [|f]; [lia|]. cbn [members].
    rewrite (skip_ws w1 34 _ W1) by lia. rewrite (parse_string_doc _ _ _ _ K C). cbn [bind].
    try rewrite <- !app_assoc in *. cbn [app] in *.
    rewrite (skip_ws w2 58 _ W2) by lia. change (negb (58 =? COLON)) with false. cbv iota.
    repeat (rewrite app_length in F; cbn [length] in F).
    try rewrite <- !app_assoc in *.
    destruct (one_elem f d w3 t w4 125 x j' n W3 W4 D') as (E1 & E2); [lia|reflexivity|exact P|exact DN| |].
    { repeat (rewrite app_length; cbn [length]). lia. }
    rewrite E1. cbn [bind]. rewrite E2. reflexivity.
  - intros n k c kt j w1 w2 w3 t w4 l u W1 K C W2 W3 _ (j' & D' & AL & P) W4 _ (l' & D2 & AL2 & _ & P2).
    exists ((c, j') :: l'). split; [apply ms_more with k; assumption|]. split; [congruence|]. split.
    { exists 34, ((kt ++ [34] ++ w2 ++ [58] ++ w3 ++ t ++ w4 ++ [44] ++ u) ++ [125]). split; [|lia].
      rewrite <- app_assoc. cbn [app]. apply (skip_ws w1 34 _ W1). lia. }
    intros f d x DN F. try rewrite <- !app_assoc in *. cbn [app] in *. try rewrite <- !app_assoc in *. cbn [app] in *.
    destruct f as [|f]; [lia|]. cbn [members].
    rewrite (skip_ws w1 34 _ W1) by lia. rewrite (parse_string_doc _ _ _ _ K C). cbn [bind].
    try rewrite <- !app_assoc in *. cbn [app] in *.
    rewrite (skip_ws w2 58 _ W2) by lia. change (negb (58 =? COLON)) with false. cbv iota.
    repeat (rewrite app_length in F; cbn [length] in F).
    try rewrite <- !app_assoc in *. cbn [app].
    destruct (one_elem f d w3 t w4 44 (u ++ 125 :: x) j' n W3 W4 D') as (E1 & E2); [lia|reflexivity|exact P|exact DN| |].
    { repeat (rewrite app_length; cbn [length]). lia. }
    rewrite E1. cbn [bind]. rewrite E2. change (44 =? COMMA) with true. cbv iota.
    rewrite P2; [reflexivity|exact DN|]. rewrite app_length. cbn [length]. lia.
Qed.
Lemma text_exact bom w j t w' :
  bom = [] \/ bom = [239; 187; 191] -> ws w -> docN read_as 1000 j t -> ws w' ->
  json_parse (bom ++ w ++ t ++ w') = Ok (Some j).
Proof.
  intros B W D W'.
  destruct (proj1 exact_all _ _ _ D) as (j' & D0 & -> & P).
  assert (nz (bom ++ w ++ t ++ w')) as NZ.
  { apply nz_app. split; [destruct B as [-> | ->]; repeat constructor; discriminate|].
    apply nz_app. split; [apply okb_nz, ws_okb, W|].
    apply nz_app. split; [apply okb_nz, (proj1 okb_all _ _ _ D0)|apply okb_nz, ws_okb, W']. }
  unfold json_parse. rewrite (cut_id _ NZ).
  destruct (doc_first_ascii _ _ _ D0) as (b & u & Et & Hb).
  assert (skip (skip_bom ((bom ++ w ++ t ++ w') ++ [0])) = t ++ w' ++ [0]) as ->.
  { rewrite <- !app_assoc. rewrite Et. cbn [app]. apply skip_text; try assumption.
    intros E. apply (f_equal (@length Z)) in E. rewrite !app_length in E. simpl in E. lia. }
  rewrite P; [reflexivity|lia| |].
  - apply ws_delim; [exact W'|reflexivity].
  - rewrite !app_length. simpl. lia.
Qed.
