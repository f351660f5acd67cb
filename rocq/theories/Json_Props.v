(** * Theorems about the JSON parser: C95, C96, C97, C98, C99. *)
From Coq Require Import String.
From Verif Require Import Base Str_Spec Conf_Model Conf_Props Json_Model Json_Spec Json_Proofs Json_Doc_Proofs Json_Cut_Proofs.
Open Scope Z_scope.
Local Arguments Z.add : simpl never.
Local Arguments Z.sub : simpl never.
Local Arguments Z.mul : simpl never.
Local Arguments Z.pow : simpl never.
Local Arguments str : simpl never.

(** ** C95: whatever the bytes of the text, parsing ends and touches no byte outside the text
    and the blocks it allocated *)
Theorem C95_parse_safe : forall text, exists o, json_parse text = Ok o.
Proof. exact json_parse_total. Qed.
Print Assumptions C95_parse_safe.
(** escapes that the two passes over a string count differently *)
Example C95_example :
  json_parse ([34] ++ str "ab\u\\\\\\cd\u12\" ++ [34] ++ str "4x" ++ [34]) = Ok (Some (JStr (str "ab"))) /\
  json_parse ([34] ++ str "\uD83D\uDE0" ++ [34]) = Ok None /\
  json_parse (zrepeat 91 40) = Ok None.
Proof. split; [|split]; vm_compute; reflexivity. Qed.

(** nesting beyond 1000 levels is refused, whatever is inside *)
Lemma nesting f : forall k d x, 1000 < d + Z.of_nat k -> d <= 1000 -> forall o,
  parse_value f d (repeat 91 k ++ x) = Ok o -> o = None.
Proof.
  induction f as [|f IH]; intros k d x H D o; [discriminate|].
  destruct k as [|k]; [lia|]. cbn [repeat app parse_value].
  destruct (not_lit 91 (repeat 91 k ++ x)) as (-> & -> & ->); [lia|lia|lia|].
  change (91 =? QUOTE) with false. change ((91 =? 45) || digit 91) with false. change (91 =? LBRACK) with true. cbv iota.
  destruct (NESTING <=? d) eqn:N; [congruence|]. unfold NESTING in N.
  destruct k as [|k]; [lia|]. cbn [repeat app].
  rewrite skip_none by lia. change (91 =? RBRACK) with false. cbv iota.
  destruct (elems f (d + 1) (91 :: repeat 91 k ++ x)) as [o'| |] eqn:E; try discriminate. cbn [bind].
  destruct f as [|f]; [discriminate E|]. cbn [elems] in E. rewrite skip_none in E by lia.
  destruct (parse_value f (d + 1) (91 :: repeat 91 k ++ x)) as [o2| |] eqn:E2; try discriminate E.
  apply (proj1 (parse_fuel f) (S f)) in E2; [|lia].
  apply (IH (S k) (d + 1) x) in E2; [|lia|lia]. subst o2. cbn [bind] in E. injection E as <-. congruence.
Qed.
Theorem C95_nesting_refused : forall n x, 1000 < n -> ~ In 0 x -> json_parse (zrepeat 91 n ++ x) = Ok None.
Proof.
  intros n x N X. destruct (json_parse_total (zrepeat 91 n ++ x)) as (o & E). rewrite E. f_equal.
  unfold json_parse in E.
  assert (nz (zrepeat 91 n ++ x)) as NZ.
  { apply nz_app. split; apply Forall_forall; intros b Hb; [apply repeat_spec in Hb; lia|].
    intros ->. exact (X Hb). }
  rewrite (cut_id _ NZ) in E. unfold zrepeat in *.
  assert (exists m, Z.to_nat n = S m) as (m & Em) by (exists (Z.to_nat n - 1)%nat; lia).
  assert (skip (skip_bom ((repeat 91 (Z.to_nat n) ++ x) ++ [0])) = repeat 91 (Z.to_nat n) ++ x ++ [0]) as SK.
  { rewrite <- app_assoc, Em. cbn [repeat app]. rewrite skip_bom_none by lia. apply skip_none. lia. }
  rewrite SK in E. apply bind_ok in E as (o1 & E1 & E2). injection E2 as <-.
  apply nesting in E1; [|lia|lia]. subst o1. reflexivity.
Qed.
Print Assumptions C95_nesting_refused.
Example C95_nesting_example : ~ In 0 (str "1]") /\
  json_parse (str "[[[1]]]") = Ok (Some (JArr [JArr [JArr [JNum 1]]])).
Proof. split; [|vm_compute; reflexivity]. intros H; vm_compute in H; intuition discriminate. Qed.

(** ** C96: every JSON text is read with its meaning *)
Theorem C96_documents_read_partial : forall j t, text_of j t ->
  exists j', json_parse t = Ok (Some j') /\ text_of j' t /\ alike j j'.
Proof.
  intros j t H. destruct H as [bom w j t w' B W D W'].
  destruct (text_read number (fun t v H => H) bom w j t w' B W D W') as (j' & D' & AL & E).
  exists j'. split; [exact E|]. split; [|exact AL]. apply text_intro; assumption.
Qed.
Print Assumptions C96_documents_read_partial.

(** integers that an [int] holds have one reading *)
Lemma integer_reading i v : int_part i -> number i v -> decval i < 2 ^ 31 -> v = decval i.
Proof.
  intros I H L. apply int_part_digits in I as (D & _).
  assert (forall i' f fd e x w, i = i' ++ f ++ e -> frac f fd -> expo e x ->
    trunc_of (decval (i' ++ fd)) (x - zlen fd) w -> w = decval i) as A.
  { intros i' f fd e x w -> F X T.
    apply Forall_app in D as (_ & D). apply Forall_app in D as (Df & De).
    assert (f = [] /\ fd = []) as (-> & ->).
    { inversion F; subst; [auto|]. inversion Df; subst. lia. }
    assert (e = [] /\ x = 0) as (-> & ->).
    { inversion X; subst; [auto| |]; inversion De; subst; lia. }
    cbn [app] in *. rewrite !app_nil_r in *. change (zlen (@nil Z)) with 0 in T.
    destruct T as (_ & T). change (Z.max 0 (0 - 0)) with 0 in T. change (Z.max 0 (- (0 - 0))) with 0 in T.
    change (10 ^ 0) with 1 in T.
    destruct T as [T|(T1 & T2)]; [lia|lia|]. change (2 ^ 23) with 8388608 in T2. lia. }
  inversion H as [i' f fd e x w I F X T|i' f fd e x w I F X T]; subst.
  - apply (A i' f fd e x v eq_refl F X T).
  - exfalso. inversion D; subst. lia.
Qed.

Lemma integer_number t v : integer t v -> number t v.
Proof.
  assert (forall i, int_part i -> decval i < 2 ^ 31 -> trunc_of (decval (i ++ [])) (0 - zlen (@nil Z)) (decval i)) as T.
  { intros i I L. rewrite app_nil_r. change (zlen (@nil Z)) with 0. unfold trunc_of. cbv zeta.
    change (Z.max 0 (0 - 0)) with 0. change (Z.max 0 (- (0 - 0))) with 0. change (10 ^ 0) with 1. split; lia. }
  intros [i I L|i I L].
  - pose proof (num_pos i [] [] [] 0 _ I fr_none ex_none (T i I L)) as H. rewrite !app_nil_r in H. exact H.
  - pose proof (num_neg i [] [] [] 0 _ I fr_none ex_none (T i I L)) as H. rewrite !app_nil_r in H. exact H.
Qed.
Lemma integer_one t v v' : integer t v -> number t v' -> v' = v.
Proof.
  intros [i I L|i I L] H; [apply integer_reading; assumption|].
  inversion H as [i' f fd e x w I' F X T E|i' f fd e x w I' F X T E]; subst.
  - exfalso. apply int_part_digits in I' as (D & NE). destruct i' as [|b i']; [exfalso; apply NE; reflexivity|].
    injection E as -> E. inversion D; subst. lia.
  - f_equal. apply integer_reading; [exact I| |exact L]. apply num_pos with fd x; assumption.
Qed.
Lemma plain_same :
  (forall j j', alikeN integer j j' -> j' = j) /\
  (forall l l', alikesN integer l l' -> l' = l) /\
  (forall l l', alikemN integer l l' -> l' = l).
Proof.
  apply alikeN_ind3; intros; subst; try reflexivity. f_equal. eapply integer_one; eassumption.
Qed.

(** texts whose numbers are integers of an [int] are read exactly *)
Theorem C96_integers_exact_partial : forall j t, plain_text j t -> text_of j t /\ json_parse t = Ok (Some j).
Proof.
  intros j t H. destruct H as [bom w j t w' B W D W'].
  split; [apply text_intro; try assumption; exact (proj1 (docN_mono _ _ integer_number) _ _ _ D)|].
  destruct (text_read integer integer_number bom w j t w' B W D W') as (j' & _ & AL & E).
  rewrite (proj1 plain_same _ _ AL) in E. exact E.
Qed.
Print Assumptions C96_integers_exact_partial.

Local Ltac lits := repeat match goal with |- context [str ?s] =>
  let v := eval vm_compute in (str s) in change (str s) with v end.
Definition doc_text : list Z :=
  str " { ""port"" : [ 443 , -7.5e1 ], ""caf\u00e9\ud83d\ude00"":""a\tb\\"" }
".
Lemma doc_text_ok : exists j, text_of j doc_text.
Proof.
  eexists.
  change doc_text with ([] ++ [32] ++ ([123] ++ ([32] ++ [34] ++ str "port" ++ [34] ++ [32] ++ [58] ++ [32]
    ++ ([91] ++ ([32] ++ str "443" ++ [32] ++ [44] ++ ([32] ++ str "-7.5e1" ++ [32])) ++ [93]) ++ [] ++ [44]
    ++ ([32] ++ [34] ++ str "caf\u00e9\ud83d\ude00" ++ [34] ++ [] ++ [58] ++ []
        ++ ([34] ++ str "a\tb\\" ++ [34]) ++ [32])) ++ [125]) ++ [10]).
  assert (ws [32]) as W1 by (repeat constructor; lia).
  assert (ws []) as W0 by constructor.
  assert (forall b, 32 <= b < 256 /\ b <> 34 /\ b <> 92 -> forall s t, chars s t -> chars (b :: s) (b :: t)) as RAW.
  { intros b (A & B & C) s t H. apply ch_raw; assumption. }
  apply text_intro; [left; reflexivity|exact W1| |repeat constructor; lia].
  apply d_obj; [lia|]. apply ms_more with (k := str "port"); try assumption.
  - lits; cbn [app]; repeat (apply RAW; [lia|]). apply ch_nil.
  - apply cstr_all. intros H; vm_compute in H; intuition discriminate.
  - apply d_arr; [lia|]. apply ds_more; try assumption.
    + apply d_num; [|vm_compute; discriminate].
      apply (num_pos (str "443") [] [] [] 0 443);
        [lits; apply ip_other; [lia|lits; repeat (apply Forall_cons; [lia|]); apply Forall_nil]|constructor|constructor|].
      split; [intros C; vm_compute in C; congruence|]. intros _. left. vm_compute. split; [discriminate|reflexivity].
    + apply ds_one; try assumption. apply d_num; [|vm_compute; discriminate].
      apply (num_neg (str "7") (str ".5") (str "5") (str "e1") 1 75).
      * lits; apply ip_other; [lia|constructor].
      * apply (fr_some (str "5")); [lits; repeat (apply Forall_cons; [lia|]); apply Forall_nil|discriminate].
      * apply (ex_pos 101 [] (str "1")); [left; reflexivity|left; reflexivity|lits; repeat (apply Forall_cons; [lia|]); apply Forall_nil|discriminate].
      * split; [intros C; vm_compute in C; congruence|]. intros _. left. vm_compute. split; [discriminate|reflexivity].
  - apply ms_one with (k := str "caf" ++ [195; 169; 240; 159; 152; 128]); try assumption.
    + lits; cbn [app]; repeat (apply RAW; [lia|]).
      apply (ch_u (str "00e9") 233 [240; 159; 152; 128] (str "\ud83d\ude00")).
      * apply (hex4_intro 48 48 101 57 0 0 14 9);
          [apply hexd_num|apply hexd_num|apply (hexd_lower 101)|apply (hexd_num 57)]; lia.
      * lia.
      * apply (ch_pair (str "d83d") 55357 (str "de00") 56832 [] []).
        -- apply (hex4_intro 100 56 51 100 13 8 3 13);
             [apply (hexd_lower 100)|apply (hexd_num 56)|apply (hexd_num 51)|apply (hexd_lower 100)]; lia.
        -- lia.
        -- apply (hex4_intro 100 101 48 48 13 14 0 0);
             [apply (hexd_lower 100)|apply (hexd_lower 101)|apply (hexd_num 48)|apply (hexd_num 48)]; lia.
        -- lia.
        -- apply ch_nil.
    + apply cstr_all. intros H; vm_compute in H; intuition discriminate.
    + apply d_str with (s := [97; 9; 98; 92]).
      * lits. apply RAW; [lia|]. apply (ch_esc 116 9); [cbn; tauto|]. apply RAW; [lia|].
        apply (ch_esc 92 92); [cbn; tauto|]. apply ch_nil.
      * apply cstr_all. intros H; vm_compute in H; intuition discriminate.
Qed.
Example C96_example : (exists j, text_of j doc_text) /\
  json_parse doc_text = Ok (Some (JObj
    [(str "port", JArr [JNum 443; JNum (-75)]); (str "caf" ++ [195; 169; 240; 159; 152; 128], JStr [97; 9; 98; 92])])).
Proof. split; [exact doc_text_ok|vm_compute; reflexivity]. Qed.

(** ** C97: a file that was cut off is noticed *)
Theorem C97_truncation_detected : forall j t a b, text_of j t ->
  (exists l, j = JArr l) \/ (exists l, j = JObj l) ->
  t = a ++ b -> (exists c, In c b /\ ~ ws [c]) -> json_parse a = Ok None.
Proof.
  intros j t a b H K E (c & Hc & NW). destruct H as [bom w j t w' B W D W'].
  assert (bracket t) as BR.
  { destruct K as [(l & ->)|(l & ->)]; inversion D; subst; [left|left|right|right]; reflexivity. }
  (* what is missing reaches into the value *)
  assert (exists b', b = b' ++ w' /\ b' <> []) as (b' & -> & NB).
  { replace (bom ++ w ++ t ++ w') with ((bom ++ w ++ t) ++ w') in E by (rewrite <- !app_assoc; reflexivity).
    symmetry in E. destruct (app_split _ _ _ _ E) as [(m & Ea & Eb)|(m & _ & ->)].
    - exfalso. apply NW. constructor; [|constructor]. rewrite Eb in W'. apply Forall_app in W' as (_ & W').
      exact (proj1 (Forall_forall _ _) W' c Hc).
    - exists m. split; [reflexivity|]. intros ->. apply NW. constructor; [|constructor].
      exact (proj1 (Forall_forall _ _) W' c Hc). }
  apply (cut_rejected bom w j t a b'); try assumption.
  apply (app_inv_tail w'). rewrite <- !app_assoc. symmetry. exact E.
Qed.
Print Assumptions C97_truncation_detected.
Example C97_example : exists a b, doc_text = a ++ b /\ (exists c, In c b /\ ~ ws [c]) /\
  zlen b = 3 /\ json_parse a = Ok None.
Proof.
  exists (ztake (zlen doc_text - 3) doc_text), (zdrop (zlen doc_text - 3) doc_text).
  split; [vm_compute; reflexivity|]. split; [|split; vm_compute; reflexivity].
  exists 125. split; [vm_compute; tauto|]. intros H. inversion H; subst. lia.
Qed.

(** ** C98: texts that are not JSON are not always refused *)
Definition malformed (t : list Z) : Prop := forall j, ~ text_of j t.

(** the first byte decides about byte order mark and leading white space *)
Lemma text_of_plain b t j : text_of j (b :: t) -> 32 < b < 128 -> 
  exists t0 w', b :: t = t0 ++ w' /\ doc 1000 j t0 /\ ws w'.
Proof.
  intros H HB. inversion H as [bom w j' t0 w' B W D W' Ej Et]; subst.
  destruct B as [-> | ->]; [|injection Et as Et _; lia].
  destruct W as [|c w C F]; [|injection Et as Et _; lia].
  cbn [app] in Et. exists t0, w'. rewrite Et. repeat split; assumption.
Qed.
Lemma app_last_ws (t0 w' u : list Z) c : t0 ++ w' = u ++ [c] -> ws w' -> ~ ws [c] -> w' = [].
Proof.
  intros E W NW. destruct w' as [|x w'] using rev_ind; [reflexivity|]. exfalso. apply NW.
  rewrite app_assoc in E. apply app_inj_tail in E as (_ & ->).
  apply Forall_app in W as (_ & W). exact W.
Qed.

(** trailing rubbish *)
Theorem C98_refuted_trailing : exists t, malformed t /\ json_parse t = Ok (Some (JObj [])).
Proof.
  exists (str "{}x"). split; [|vm_compute; reflexivity]. intros j H. change (str "{}x") with [123; 125; 120] in H.
  apply text_of_plain in H as (t0 & w' & E & D & W'); [|lia].
  assert (w' = []) as ->.
  { apply (app_last_ws t0 w' (str "{}") 120); [symmetry; exact E|exact W'|].
    intros Q. inversion Q; subst. lia. }
  rewrite app_nil_r in E. subst t0. destruct (proj1 (read_all number (fun t v H => H)) _ _ _ D) as (j' & _ & _ & P).
  specialize (P 20%nat 0 [0] ltac:(lia) eq_refl). assert (2 * length ([123; 125; 120] ++ [0])%Z + 1 <= 20)%nat as L by (vm_compute; lia).
  specialize (P L). vm_compute in P. discriminate P.
Qed.
Print Assumptions C98_refuted_trailing.

(** a control character inside a string *)
Theorem C98_refuted_control : exists t, malformed t /\ json_parse t = Ok (Some (JStr [1])).
Proof.
  exists [34; 1; 34]. split; [|vm_compute; reflexivity]. intros j H.
  apply text_of_plain in H as (t0 & w' & E & D & W'); [|lia].
  pose proof (proj1 okb_all _ _ _ D) as OK. pose proof (ws_okb _ W') as OW.
  assert (Forall okb [34; 1; 34]) as F by (rewrite E; apply Forall_app; split; assumption).
  inversion F as [|? ? _ F1]; subst. inversion F1 as [|? ? F2 _]; subst. unfold okb in F2. lia.
Qed.
Print Assumptions C98_refuted_control.

(** leading zeros *)
Theorem C98_refuted_number : exists t, malformed t /\ json_parse t = Ok (Some (JNum 10)).
Proof.
  exists (str "010"). split; [|vm_compute; reflexivity]. intros j H. change (str "010") with [48; 49; 48] in H.
  apply text_of_plain in H as (t0 & w' & E & D & W'); [|lia].
  assert (w' = []) as ->.
  { apply (app_last_ws t0 w' (str "01") 48); [symmetry; exact E|exact W'|].
    intros Q. inversion Q; subst. lia. }
  rewrite app_nil_r in E. subst t0.
  inversion D as [ | | |n t v N L| | | | | ]; subst; try discriminate.
  inversion N as [i f fd e x v' I F X T E0|i f fd e x v' I F X T E0]; subst.
  destruct I as [|b t Hb Hd]; [|injection E0 as E0 _; lia].
  injection E0 as E0. destruct F as [|ds Hd Nd]; [|discriminate E0]. cbn [app] in E0.
  destruct X; try discriminate E0; injection E0 as E0 _; lia.
Qed.
Print Assumptions C98_refuted_number.

(** an escape that is not hexadecimal silently ends the string *)
Theorem C98_refuted_escape : exists t, malformed t /\ json_parse t = Ok (Some (JStr (str "key"))).
Proof.
  exists ([34] ++ str "key\uZZZZ-2024" ++ [34]). split; [|vm_compute; reflexivity]. intros j H.
  change ([34] ++ str "key\uZZZZ-2024" ++ [34]) with (34 :: str "key\uZZZZ-2024" ++ [34]) in H.
  apply text_of_plain in H as (t0 & w' & E & D & W'); [|lia].
  assert (w' = []) as ->.
  { apply (app_last_ws t0 w' (34 :: str "key\uZZZZ-2024") 34); [symmetry; exact E|exact W'|].
    intros Q. inversion Q; subst. lia. }
  rewrite app_nil_r in E. subst t0.
  inversion D as [n E0 E1|n E0 E1|n E0 E1|n t v N L E0 E1|n s c t C S E0 E1| | | | ]; subst; try discriminate.
  - apply number_chars in N as (N & _). inversion N; subst. discriminate.
  - assert (t = [107; 101; 121; 92; 117; 90; 90; 90; 90; 45; 50; 48; 50; 52]) as -> by (apply (app_inv_tail [34]); assumption).
    inversion C as [|? ? ? _ _ _ C1| | | ]; subst. inversion C1 as [|? ? ? _ _ _ C2| | | ]; subst.
    inversion C2 as [|? ? ? _ _ _ C3| | | ]; subst.
    inversion C3 as [|? ? ? _ _ B _|? ? ? ? I _|h ? ? ? HX _ _ E2|h ? ? ? ? ? HX _ _ _ _ E2]; subst; [lia| | |].
    + cbn in I. intuition discriminate.
    + destruct HX as [a ? ? ? ? ? ? ? HA]. cbn [app] in *.
      match goal with E2 : a :: _ = _ |- _ => injection E2 as E2 _ end. inversion HA; lia.
    + destruct HX as [a ? ? ? ? ? ? ? HA]. cbn [app] in *.
      match goal with E2 : a :: _ = _ |- _ => injection E2 as E2 _ end. inversion HA; lia.
Qed.
Print Assumptions C98_refuted_escape.

(** ** C99: the configuration in effect is what the text of the file says *)
Definition cjson (t : list Z) : option json := match json_parse t with Ok o => o | _ => None end.

Theorem C99_config_text_partial : forall j t, text_of j t -> (forall j', text_of j' t -> within j') ->
  exists j' c, text_of j' t /\ alike j j' /\ config_init cjson (Bytes t) = Ok (0, c) /\ says j' c.
Proof.
  intros j t H W. destruct (C96_documents_read_partial j t H) as (j' & E & T & A).
  destruct (C72_partial j' (W j' T)) as (c & Ec & S).
  exists j', c. split; [exact T|]. split; [exact A|]. split; [|exact S].
  unfold config_init, cjson. rewrite E, Ec. reflexivity.
Qed.
Print Assumptions C99_config_text_partial.

(** with integers only, the configuration is the one written in the file *)
Theorem C99_plain_text_partial : forall j t, plain_text j t -> within j ->
  exists c, config_init cjson (Bytes t) = Ok (0, c) /\ says j c.
Proof.
  intros j t H W. destruct (C96_integers_exact_partial j t H) as (_ & E). destruct (C72_partial j W) as (c & Ec & S).
  exists c. split; [|exact S]. unfold config_init, cjson. rewrite E, Ec. reflexivity.
Qed.
Print Assumptions C99_plain_text_partial.

(** a configuration that was cut off: start-up succeeds without any listener *)
Theorem C99_config_text_refuted : forall j t a b oks, text_of j t -> (exists l, j = JObj l) ->
  t = a ++ b -> (exists c, In c b /\ ~ ws [c]) -> startup cjson (Bytes a) oks = Ok (0, []).
Proof.
  intros j t a b oks H K E C. apply C73_refuted. right. right. exists a. split; [reflexivity|].
  unfold cjson. rewrite (C97_truncation_detected j t a b H (or_intror K) E C). reflexivity.
Qed.
Print Assumptions C99_config_text_refuted.
Definition conf_text : list Z := str "{""http_home"":""/var/www""}".
Lemma conf_text_ok : text_of (JObj [(str "http_home", JStr (str "/var/www"))]) conf_text.
Proof.
  change conf_text with ([] ++ [] ++ ([123] ++ ([] ++ [34] ++ str "http_home" ++ [34] ++ [] ++ [58] ++ []
    ++ ([34] ++ str "/var/www" ++ [34]) ++ []) ++ [125]) ++ []).
  assert (ws []) as W0 by constructor.
  assert (forall b, 32 <= b < 256 /\ b <> 34 /\ b <> 92 -> forall s t, chars s t -> chars (b :: s) (b :: t)) as RAW.
  { intros b (A & B & C) s t H. apply ch_raw; assumption. }
  apply text_intro; [left; reflexivity|exact W0| |exact W0].
  apply d_obj; [lia|]. apply ms_one with (k := str "http_home"); try assumption.
  - lits; repeat (apply RAW; [lia|]). apply ch_nil.
  - apply cstr_all. intros H; vm_compute in H; intuition discriminate.
  - apply d_str with (s := str "/var/www").
    + lits; repeat (apply RAW; [lia|]). apply ch_nil.
    + apply cstr_all. intros H; vm_compute in H; intuition discriminate.
Qed.
Example C99_example : forall j', text_of j' conf_text -> within j'.
Proof.
  intros j' H. destruct (C96_documents_read_partial _ _ H) as (j & E & _ & A).
  assert (j = JObj [(str "http_home", JStr (str "/var/www"))]) as ->.
  { vm_compute in E. injection E as <-. reflexivity. }
  inversion A as [ | | | | |l l' AM]; subst. inversion AM as [|k j0 j1 l0 l1 AJ AL]; subst.
  inversion AL; subst. inversion AJ; subst.
  split; vm_compute; try exact I; discriminate.
Qed.
