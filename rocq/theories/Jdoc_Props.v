(** * C136: documents with numbers of any kind, printed and read back. *)
From Coq Require Import String.
From Verif Require Import Base Str_Spec Conf_Model Web_Model Json_Model Json_Spec Json_Proofs Json_Doc_Proofs Json_Props
  Jprint_Model Jprint_Spec Jprint_Proofs Jprint_Props Jdbl_Model Jsign_Model Jdoc_Proofs.
From Verif Require Gtext_Model Gtext_Props Gtext_Read_Props.
Open Scope Z_scope.
Local Arguments Z.add : simpl never.
Local Arguments Z.sub : simpl never.
Local Arguments Z.mul : simpl never.
Local Arguments Z.div : simpl never.
Local Arguments Z.modulo : simpl never.
Local Arguments Z.pow : simpl never.
Local Arguments zlen : simpl never.

(** ** Specification
    [shows rd X D q n]: the number item [n] holds the double [X] (in units of 2^-1074), and the
    decimal that stands for it in a text is D * 10^q: [X] itself if it is an int, otherwise [X]
    rounded to 15 digits, or to 17 if those with 15 are read ([rd]) as a number that is too far
    away. *)
Inductive shows (rd : Z -> Z -> Z) (X : Z) : Z -> Z -> num -> Prop :=
| sh_int v : - 2 ^ 31 <= v < 2 ^ 31 -> X = v * 2 ^ 1074 -> shows rd X v 0 (NInt v)
| sh_15 D q D' q' : is_signed X -> shown_s 15 X D q -> taken_s D q (rd D q) -> compare_double (rd D q) X = true ->
    shown_s 17 X D' q' -> shows rd X D q (NDbl (Gtext_Model.gtext 15 D q) true (Gtext_Model.gtext 17 D' q'))
| sh_17 D q D' q' : is_signed X -> shown_s 15 X D q -> taken_s D q (rd D q) -> compare_double (rd D q) X = false ->
    shown_s 17 X D' q' -> shows rd X D' q' (NDbl (Gtext_Model.gtext 15 D q) false (Gtext_Model.gtext 17 D' q')).
(** [stands n j v]: the item [j] is the value [v] with at most [n] levels of nesting; of a number
    the value has the integer part of its decimal, with its sign *)
Inductive stands (rd : Z -> Z -> Z) : Z -> item -> json -> Prop :=
| st_null n : stands rd n PNull JNull
| st_bool n b : stands rd n (PBool b) (JBool b)
| st_num n X D q a v : shows rd X D q a -> trunc_of (Z.abs D) q (Z.abs v) -> 0 <= D * v -> stands rd n (PNum a) (JNum v)
| st_str n o s : c_opt o s -> stands rd n (PStr o) (JStr s)
| st_arr n l vs : 0 < n -> stands_all rd (n - 1) l vs -> stands rd n (PArr l) (JArr vs)
| st_obj n l vs : 0 < n -> stands_mem rd (n - 1) l vs -> stands rd n (PObj l) (JObj vs)
with stands_all (rd : Z -> Z -> Z) : Z -> list item -> list json -> Prop :=
| sa_nil n : stands_all rd n [] []
| sa_cons n j v l vs : stands rd n j v -> stands_all rd n l vs -> stands_all rd n (j :: l) (v :: vs)
with stands_mem (rd : Z -> Z -> Z) : Z -> list (option (list Z) * item) -> list (list Z * json) -> Prop :=
| sm_nil n : stands_mem rd n [] []
| sm_cons n o k j v l vs : c_opt o k -> stands rd n j v -> stands_mem rd n l vs ->
    stands_mem rd n ((o, j) :: l) ((k, v) :: vs).
Scheme stands_mut := Minimality for stands Sort Prop
  with stands_all_mut := Minimality for stands_all Sort Prop
  with stands_mem_mut := Minimality for stands_mem Sort Prop.
Combined Scheme stands_ind3 from stands_mut, stands_all_mut, stands_mem_mut.

(** ** Numbers *)
Lemma trunc_scale m e q w : q <= e -> trunc_of m e w -> trunc_of (m * 10 ^ (e - q)) q w.
Proof.
  intros LE. unfold trunc_of. set (a := 10 ^ Z.max 0 e). set (b := 10 ^ Z.max 0 (- e)).
  set (c := 10 ^ Z.max 0 q). set (d := 10 ^ Z.max 0 (- q)). set (k := 10 ^ (e - q)).
  assert (I : k * c * b = a * d).
  { subst a b c d k. rewrite <- !Z.pow_add_r by lia. f_equal. lia. }
  assert (PB : 0 < b) by (apply Z.pow_pos_nonneg; lia). assert (PD : 0 < d) by (apply Z.pow_pos_nonneg; lia).
  assert (S : m * k * c * b = m * a * d) by (replace (m * k * c * b) with (m * (k * c * b)) by ring; rewrite I; ring).
  clearbody a b c d k. clear I. set (p := m * a) in *. set (p' := m * k * c) in *. clearbody p p'. cbv zeta.
  change (2 ^ 31) with 2147483648. change (2 ^ 23) with 8388608.
  assert (T : forall x y, x * b <= y * p <-> x * d <= y * p').
  { intros x y. rewrite (Z.mul_le_mono_pos_r (x * b) (y * p) d PD), (Z.mul_le_mono_pos_r (x * d) (y * p') b PB).
    replace (y * p * d) with (y * (p * d)) by ring. replace (y * p' * b) with (y * (p' * b)) by ring. rewrite S.
    replace (x * d * b) with (x * b * d) by ring. tauto. }
  intros (A & B). split.
  - intros H. apply A. pose proof (T 2147483648 1). lia.
  - intros H. pose proof (T 2147483648 1) as T1. pose proof (T w 1) as T2. pose proof (T (w + 1) 1) as T3.
    pose proof (T (w * 8388608 - 1) 8388608) as T4.
    destruct B as [B|(B1 & B2)]; [lia|left|right]; lia.
Qed.
Lemma digit_ints v : - 2 ^ 31 <= v < 2 ^ 31 -> Gtext_Props.json_number (fmt_d v) v 0 /\ zlen (fmt_d v) <= 25.
Proof.
  intros B. change (2 ^ 31) with 2147483648 in B.
  assert (D : forall n, 0 <= n <= 2147483648 -> int_part (digits_of 20 n) /\ decval (digits_of 20 n) = n).
  { intros n N. destruct (digits_of_decval 19 n) as (V & D & H).
    { split; [lia|]. assert (2147483648 < 10 ^ Z.of_nat 20) by reflexivity. lia. }
    split; [|exact V]. destruct (Z.eq_dec n 0) as [->|NZ]; [constructor|].
    destruct H as (b & t & E & Bb); [lia|]. rewrite E in *. constructor; [exact Bb|exact (Forall_inv_tail D)]. }
  assert (J : forall l, int_part l -> Gtext_Props.json_int l).
  { intros l [|b t Bb T]; [left; reflexivity|]. right. exists b, t. auto. }
  split; [|pose proof (fmt_short v); lia]. unfold fmt_d.
  exists (v <? 0), (digits_of 20 (Z.abs v)), [], [], [], 0. destruct (D (Z.abs v)) as (P & V); [lia|]. rewrite !app_nil_r.
  split; [|split; [exact (J _ P)|split; [left; auto|split; [left; auto|split; [|reflexivity]]]]].
  - destruct (Z.ltb_spec v 0); [rewrite Z.abs_neq by lia|rewrite Z.abs_eq by lia]; reflexivity.
  - rewrite Gtext_Read_Props.value_decval, V. destruct (Z.ltb_spec v 0); lia.
Qed.

Definition num_text (n : num) : list Z :=
  match n with NNan => str "null" | NInt v => fmt_d v | NDbl a true _ => a | NDbl _ false b => b end.
Lemma number_clean t m e : Gtext_Props.json_number t m e -> clean t.
Proof.
  intros J. destruct (Gtext_Read_Props.json_number_number t m e J) as (i & f & fd & ex & x & I & F & X & FD & TM & _).
  pose proof (body_chars i f fd ex x I F X) as BC.
  assert (P : forall b, num_char b = true -> 0 < b) by (intros b; unfold num_char, digit; lia).
  assert (C : clean (i ++ f ++ ex)) by (eapply Forall_impl; [exact P|exact BC]).
  destruct TM as [(-> & _)|(-> & _)]; [exact C|]. constructor; [lia|exact C].
Qed.
Lemma shows_text rd X D q n : shows rd X D q n -> wf_num n /\ n <> NNan /\ zlen (num_text n) <= 25 /\
  exists m e, Gtext_Props.json_number (num_text n) m e /\ q <= e /\ D = m * 10 ^ (e - q).
Proof.
  assert (G : forall s D q, s = 15 \/ s = 17 -> is_signed X -> shown_s s X D q ->
    clean (Gtext_Model.gtext s D q) /\ zlen (Gtext_Model.gtext s D q) <= 25 /\
    exists m e, Gtext_Props.json_number (Gtext_Model.gtext s D q) m e /\ q <= e /\ D = m * 10 ^ (e - q)).
  { intros s D0 q0 SS SX SH. destruct (Gtext_Props.C167_double s X D0 q0 SS SX SH) as (F & m & e & J & R).
    split; [exact (number_clean _ _ _ J)|]. split; [exact F|]. exists m, e. auto. }
  intros [v B E|D0 q0 D' q' SX A T C S|D0 q0 D' q' SX A T C S].
  - destruct (digit_ints v B) as (J & L). split; [exact B|]. split; [discriminate|]. split; [exact L|].
    exists v, 0. split; [exact J|]. split; [lia|]. change (10 ^ (0 - 0)) with 1. ring.
  - destruct (G 15 D0 q0) as (C1 & L1 & R1); auto. destruct (G 17 D' q') as (C2 & L2 & R2); auto.
    split; [cbn; auto|]. split; [discriminate|]. split; [exact L1|exact R1].
  - destruct (G 15 D0 q0) as (C1 & L1 & R1); auto. destruct (G 17 D' q') as (C2 & L2 & R2); auto.
    split; [cbn; auto|]. split; [discriminate|]. split; [exact L2|exact R2].
Qed.
(** the reading of such a text *)
Lemma number_taken t m e : Gtext_Props.json_number t m e -> exists v, read_as t v /\ trunc_of (Z.abs m) e (Z.abs v) /\ 0 <= m * v.
Proof.
  intros J. destruct (Gtext_Read_Props.json_number_number t m e J) as (i & f & fd & ex & y & I & F & X & FD & TM & ->).
  pose proof (int_part_digits _ I) as (DI & NI).
  assert (P : 0 <= decval (i ++ fd)) by (apply decval_range, Forall_app; split; assumption).
  destruct TM as [(-> & ->)|(-> & ->)].
  - destruct (strtod_body false (i ++ f ++ ex) i f fd ex y) as (w & E & W); try assumption.
    { destruct i as [|b i]; [exfalso; apply NI; reflexivity|]. cbn [app span_sign]. apply Forall_cons_iff in DI as (B & _).
      replace (b =? 45) with false by lia. replace (b =? 43) with false by lia. reflexivity. }
    pose proof (Gtext_Read_Props.trunc_nonneg _ _ _ P W). exists w. split; [split; [|exact E]|].
    + exact (num_pos i f fd ex y w I F X W).
    + rewrite !Z.abs_eq by assumption. split; [exact W|nia].
  - destruct (strtod_body true (45 :: i ++ f ++ ex) i f fd ex y) as (w & E & W); try assumption; [reflexivity|].
    pose proof (Gtext_Read_Props.trunc_nonneg _ _ _ P W). exists (- w). split; [split; [|exact E]|].
    + exact (num_neg i f fd ex y w I F X W).
    + rewrite !Z.abs_opp, !Z.abs_eq by assumption. split; [exact W|nia].
Qed.
Lemma shows_taken rd X D q n : shows rd X D q n -> exists v, read_as (num_text n) v /\ trunc_of (Z.abs D) q (Z.abs v) /\ 0 <= D * v.
Proof.
  intros S. destruct (shows_text _ _ _ _ _ S) as (_ & _ & _ & m & e & J & LE & ->).
  destruct (number_taken _ _ _ J) as (v & T & R & SG). exists v. split; [exact T|].
  assert (0 < 10 ^ (e - q)) by (apply Z.pow_pos_nonneg; lia). split; [|nia].
  rewrite Z.abs_mul, (Z.abs_eq (10 ^ (e - q))) by lia. apply trunc_scale; assumption.
Qed.
Lemma rnum_point n : rnum 46 n = num_text n.
Proof.
  unfold rnum. fold (num_text n). rewrite map_ext with (g := fun c => c), map_id; [reflexivity|].
  intros c. destruct (Z.eqb_spec c 46); congruence.
Qed.

(** ** Documents *)
Lemma stands_wf rd : (forall n j v, stands rd n j v -> wf j /\ full j) /\ (forall n l vs, stands_all rd n l vs -> wfs l /\ fulls l) /\
  (forall n l vs, stands_mem rd n l vs -> wfm l /\ fullm l).
Proof.
  apply stands_ind3; try (intros; cbn; auto; fail).
  - intros n X D q a v S _ _. split; [exact (proj1 (shows_text _ _ _ _ _ S))|exact I].
  - intros n o s C. split; [exact (c_opt_wf _ _ C)|exact I].
  - intros n j v l vs _ (A & B) _ (C & D). cbn. auto.
  - intros n o k j v l vs C _ (A & B) _ (D & F). cbn. split; [|auto]. split; [exact (c_opt_wf _ _ C)|auto].
Qed.
Lemma stands_le rd : (forall n j v, stands rd n j v -> forall m, n <= m -> stands rd m j v) /\
  (forall n l v, stands_all rd n l v -> forall m, n <= m -> stands_all rd m l v) /\
  (forall n l v, stands_mem rd n l v -> forall m, n <= m -> stands_mem rd m l v).
Proof.
  apply stands_ind3; intros; try (econstructor; eauto; fail).
  - constructor; [lia|]. apply H1. lia.
  - constructor; [lia|]. apply H1. lia.
Qed.

(** the value of the item as the reader sees its numbers *)
Lemma stands_taken rd fmt :
  (forall n j v, stands rd n j v -> exists v', stands rd n j v' /\ forall d, docN read_as n v' (render 46 fmt d j)) /\
  (forall n l vs, stands_all rd n l vs -> exists vs', stands_all rd n l vs' /\
     forall d w, ws w -> l <> [] -> docsN read_as n vs' (w ++ relems 46 fmt d l)) /\
  (forall n l vs, stands_mem rd n l vs -> exists vs', stands_mem rd n l vs' /\
     forall d w w', ws w -> ws w' -> l <> [] -> memsN read_as n vs' (w ++ rmems 46 fmt d l ++ w')).
Proof.
  apply stands_ind3.
  - intros n. exists JNull. split; constructor.
  - intros n b. exists (JBool b). split; [constructor|]. destruct b; constructor.
  - intros n X D q a v S _ _. destruct (shows_taken _ _ _ _ _ S) as (v' & T & R & SG). exists (JNum v'). split; [econstructor; eassumption|].
    intros d. cbn [render]. rewrite rnum_point. constructor; [exact T|]. destruct (shows_text _ _ _ _ _ S) as (_ & _ & L & _). lia.
  - intros n o s C. exists (JStr s). split; [constructor; exact C|]. intros d. cbn [render]. destruct (rstr_of o s C) as (-> & CB).
    eapply d_str; [apply escs_chars; exact CB|apply c_str; exact CB].
  - intros n l vs N M (vs' & M' & IH). exists (JArr vs'). split; [constructor; assumption|]. intros d. rewrite render_arr. destruct l as [|x l].
    + inversion M'; subst. apply (d_arr0 n []); [exact N|constructor].
    + apply d_arr; [exact N|]. apply (IH (d + 1) []); [constructor|discriminate].
  - intros n l vs N M (vs' & M' & IH). exists (JObj vs'). split; [constructor; assumption|]. intros d. rewrite render_obj. destruct l as [|x l].
    + inversion M'; subst. pose proof (@d_obj0 read_as n ((if fmt then [10] else []) ++ (if fmt then zrepeat 9 d else [])) N) as H.
      rewrite <- app_assoc in H. cbn [rmems app]. apply H. apply Forall_app. split; apply ws_if; [constructor; auto|apply ws_tabs].
    + rewrite !(app_assoc _ _ [125]). apply d_obj; [exact N|].
      apply IH; [apply ws_if; constructor; auto|apply ws_if; apply ws_tabs|discriminate].
  - intros n. exists []. split; [constructor|]. intros d w _ H. destruct H; reflexivity.
  - intros n j v l vs M (v' & M' & IHj) MA (vs' & MA' & IHl). exists (v' :: vs'). split; [constructor; assumption|].
    intros d w W _. cbn [relems]. destruct l as [|y l].
    + inversion MA'; subst. rewrite app_nil_r. rewrite <- (app_nil_r (render 46 fmt d j)). apply ds_one; [exact W|apply IHj|constructor].
    + apply (ds_more n v' vs' w (render 46 fmt d j) []); [exact W|apply IHj|constructor|].
      apply IHl; [apply ws_if; constructor; auto|discriminate].
  - intros n. exists []. split; [constructor|]. intros d w w' _ _ H. destruct H; reflexivity.
  - intros n o k j v l vs C M (v' & M' & IHj) MM (vs' & MM' & IHl). exists ((k, v') :: vs'). split; [constructor; assumption|].
    intros d w w' W W' _. cbn [rmems]. destruct (rstr_of o k C) as (-> & CB).
    pose proof (escs_chars k CB) as CH. pose proof (c_str k CB) as CS.
    destruct l as [|y l].
    + inversion MM'; subst. cbn [rmems].
      pose proof (@ms_one read_as n k k (flat_map esc k) v' (w ++ (if fmt then zrepeat 9 d else [])) [] (if fmt then [9] else [])
        (render 46 fmt d j) ((if fmt then [10] else []) ++ w')) as P.
      rewrite <- !app_assoc in *. cbn [app] in *. apply P; auto.
      * apply Forall_app. split; [exact W|apply ws_if; apply ws_tabs].
      * constructor.
      * apply ws_if. constructor; auto.
      * apply Forall_app. split; [apply ws_if; constructor; auto|exact W'].
    + pose proof (@ms_more read_as n k k (flat_map esc k) v' (w ++ (if fmt then zrepeat 9 d else [])) [] (if fmt then [9] else [])
        (render 46 fmt d j) [] vs' ((if fmt then [10] else []) ++ rmems 46 fmt d (y :: l) ++ w')) as P.
      cbn [rmems] in P. rewrite <- !app_assoc in *. cbn [app] in *. apply P; auto.
      * apply Forall_app. split; [exact W|apply ws_if; apply ws_tabs].
      * constructor.
      * apply ws_if. constructor; auto.
      * constructor.
      * apply (IHl d); [apply ws_if; constructor; auto|exact W'|discriminate].
Qed.

Lemma doc_le : (forall n j t, docN read_as n j t -> forall m, n <= m -> docN read_as m j t) /\
  (forall n l t, docsN read_as n l t -> forall m, n <= m -> docsN read_as m l t) /\
  (forall n l t, memsN read_as n l t -> forall m, n <= m -> memsN read_as m l t).
Proof.
  apply docN_ind3; intros; try (econstructor; eauto; try lia; fail).
  - apply d_arr; [lia|]. apply H1. lia.
  - apply d_obj; [lia|]. apply H1. lia.
Qed.

(** ** C136 with numbers of any kind
    The text is a JSON text; what is read back from it is a value the item stands for. Ints, also
    INT_MIN; finite doubles; of a double that comes back the model of the reader has the integer
    part only (the double itself is in C138). The locale is "C". *)
Theorem C136_numbers_partial : forall rd fmt j v n, stands rd n j v -> exists t w,
  doc n w t /\ stands rd n j w /\ (n <= 1000 -> json_parse t = Ok (Some w)) /\
  (forall re m, exists r l, print 46 re fmt m j = Ok (r, l) /\ (r = None \/ r = Some (t ++ [0])) /\
     (m = [] -> zlen t + 2 <= INT_MAX -> r = Some (t ++ [0]))) /\
  (forall re m pre, 0 < pre -> exists r l, print_buffered 46 re fmt m pre j = Ok (r, l) /\ (forall b, r = Some b -> holds b t) /\
     (m = [] -> zlen t + 2 <= INT_MAX -> r <> None)) /\
  (forall b ok b', print_prealloc 46 fmt b j = Ok (ok, b') -> ok = true -> exists c, b' = Some c /\ holds c t).
Proof.
  intros rd fmt j v n M. assert (DP : point 46) by (left; reflexivity).
  destruct (proj1 (stands_wf rd) _ _ _ M) as (W & F).
  destruct (proj1 (stands_taken rd fmt) _ _ _ M) as (w & S & D). exists (render 46 fmt 0 j), w.
  split; [exact (proj1 (docN_mono read_as number (fun t v H => proj1 H)) _ _ _ (D 0))|]. split; [exact S|]. split; [|split; [|split]].
  - intros N. rewrite <- (app_nil_r (render 46 fmt 0 j)).
    apply (text_exact [] []); [auto|constructor| |constructor].
    exact (proj1 doc_le _ _ _ (D 0) _ N).
  - intros re m. destruct (print_ok 46 DP fmt j W re m) as (r & l & E & H & H'). exists r, l. split; [exact E|].
    destruct r as [b|]; [destruct H as (_ & ->); auto|]. split; [auto|]. intros A B. destruct (H' A F B). reflexivity.
  - intros re m pre PRE. destruct (buffered_ok 46 DP fmt j W re m pre) as (r & l & E & H & H'); [auto|]. exists r, l. split; [exact E|].
    split; [intros b ->; apply H|]. intros A B. apply H'; auto. lia.
  - intros b ok b' E O. destruct (prealloc_ok 46 DP fmt j W b) as (ok2 & c & E2 & _ & H & _). rewrite E2 in E. injection E as <- <-.
    exists c. split; [reflexivity|]. apply H. exact O.
Qed.
Print Assumptions C136_numbers_partial.

(** {"a": [-2147483648, -(0.1 + 0.2)]} *)
Definition doc1 : item := PObj [(Some (str "a"), PArr [PNum (NInt (-2147483648));
  PNum (NDbl (Gtext_Model.gtext 15 (- (3 * 10 ^ 14)) (-15)) true (Gtext_Model.gtext 17 (-30000000000000004) (-17)))])].
Example ex_C136_numbers :
  stands (fun _ _ => - Jdbl_Props.y03) 2 doc1 (JObj [(str "a", JArr [JNum (-2147483648); JNum 0])]) /\
  print 46 true false [] doc1 = Ok (Some (str "{""a"":[-2147483648,-0.3]}" ++ [0]), 1) /\
  json_parse (str "{""a"":[-2147483648,-0.3]}") = Ok (Some (JObj [(str "a", JArr [JNum (-2147483648); JNum 0])])).
Proof.
  split; [|split; vm_compute; reflexivity].
  apply st_obj; [lia|]. constructor; [split; [reflexivity|repeat constructor]| |constructor].
  apply st_arr; [lia|]. constructor; [|constructor; [|constructor]].
  - apply (st_num _ _ (-2147483648 * 2 ^ 1074) (-2147483648) 0); [apply sh_int; [vm_compute; split; [discriminate|reflexivity]|reflexivity]| |lia].
    split; [intros _; vm_compute; discriminate|intros H; exfalso; revert H; vm_compute; discriminate].
  - destruct Jsign_Props.C138_signed_ex as (A & _ & C & _).
    apply (st_num _ _ (- Jdbl_Props.x03) (- (3 * 10 ^ 14)) (-15)); [|split|lia].
    + apply sh_15; [exact A| |exact C|vm_compute; reflexivity|].
      * right. split; [reflexivity|]. rewrite !Z.opp_involutive. split; [vm_compute; split; discriminate|]. split; vm_compute; discriminate.
      * right. split; [reflexivity|]. rewrite !Z.opp_involutive. split; [vm_compute; split; discriminate|]. split; vm_compute; discriminate.
    + intros H. exfalso. revert H. vm_compute. intros H. apply H. reflexivity.
    + intros _. left. vm_compute. split; [discriminate|reflexivity].
Qed.

(** ** C137 with numbers of any kind *)
Theorem C137_numbers_partial : forall rd fmt j v n, stands rd n j v -> exists t w, doc n w t /\ stands rd n j w /\
  forall b, zlen b <= INT_MAX -> exists b',
    print_prealloc 46 fmt b j = Ok (zlen t + 2 <=? zlen b, Some b') /\ zlen b' = zlen b /\ (zlen t + 2 <= zlen b -> holds b' t).
Proof.
  intros rd fmt j v n M. assert (DP : point 46) by (left; reflexivity). destruct (proj1 (stands_wf rd) _ _ _ M) as (W & F).
  destruct (proj1 (stands_taken rd fmt) _ _ _ M) as (w & S & D). exists (render 46 fmt 0 j), w.
  split; [exact (proj1 (docN_mono read_as number (fun t v H => proj1 H)) _ _ _ (D 0))|]. split; [exact S|]. intros b L.
  destruct (prealloc_ok 46 DP fmt j W b) as (ok & b' & E & Z1 & H & H'). exists b'. rewrite E.
  destruct (Z.leb_spec (zlen (render 46 fmt 0 j) + 2) (zlen b)) as [LE|GT].
  - rewrite H' by (auto; lia). split; [reflexivity|]. split; [exact Z1|]. intros _. apply H. apply H'; [exact F|lia].
  - destruct ok; [destruct (H eq_refl); lia|]. split; [reflexivity|]. split; [exact Z1|lia].
Qed.
Print Assumptions C137_numbers_partial.
Example ex_C137_numbers : (exists v, stands (fun _ _ => - Jdbl_Props.y03) 2 doc1 v) /\
  (exists b, print_prealloc 46 false (zrepeat UN 25) doc1 = Ok (false, Some b)) /\
  (exists b, print_prealloc 46 false (zrepeat UN 26) doc1 = Ok (true, Some b)).
Proof.
  split; [eexists; exact (proj1 ex_C136_numbers)|]. split; eexists; vm_compute; reflexivity.
Qed.
