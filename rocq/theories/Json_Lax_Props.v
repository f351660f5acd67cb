(** * Theorems about the JSON parser: the texts that it accepts (C98). *)
From Coq Require Import String.
From Verif Require Import Base Str_Spec Conf_Model Json_Model Json_Spec Json_Lax_Spec Json_Proofs Json_Doc_Proofs Json_Cut_Proofs
  Json_Lax_Proofs.
Open Scope Z_scope.
Local Arguments Z.add : simpl never.
Local Arguments Z.sub : simpl never.
Local Arguments Z.mul : simpl never.
Local Arguments Z.pow : simpl never.
Local Arguments str : simpl never.

Lemma cstr_cut t c : cstr t c -> cut t = c /\ ~ In 0 c.
Proof.
  intros H. assert (~ In 0 c) as N by (destruct H; assumption). split; [|exact N].
  destruct H as [s _|s x _]; [|rewrite cut_stop]; apply cut_id;
    apply Forall_forall; intros b B ->; exact (N B).
Qed.
Lemma cut_raw t : bytes t -> raw (cut t).
Proof.
  induction 1 as [|b t H F IH]; [constructor|]. cbn [cut]. destruct (b =? 0) eqn:E; [constructor|].
  constructor; [unfold is_byte in H; lia|exact IH].
Qed.

(** ** C98: whatever is accepted begins with a value of the wider grammar, and the value
    read is the one it says. *)
Theorem C98_accepted_partial : forall t c j, bytes t -> cstr t c -> json_parse t = Ok (Some j) -> begins j c.
Proof.
  intros t c j B C H. apply cstr_cut in C as (<- & _). pose proof (cut_raw t B) as R.
  unfold json_parse in H. apply bind_ok in H as (o & E & H). destruct o as [(j', r)|]; [|discriminate H].
  cbn [option_map fst] in H. injection H as <-.
  assert (exists bom a, cut t = bom ++ a /\ (bom = [] \/ bom = [239; 187; 191]) /\ skip_bom (cut t ++ [0]) = a ++ [0])
    as (bom & a & Ea & Hb & E2).
  { unfold skip_bom. destruct ((4 <? zlen (cut t ++ [0])) && starts [239; 187; 191] (cut t ++ [0])) eqn:Q.
    - apply andb_true_iff in Q as (_ & Q).
      apply (lit_sound [239; 187; 191] (cut t) 3 ltac:(repeat constructor; discriminate)) in Q as (q & E1 & E2); [|reflexivity].
      exists [239; 187; 191], q. split; [exact E1|]. split; [right; reflexivity|exact E2].
    - exists [], (cut t). split; [reflexivity|]. split; [left; reflexivity|reflexivity]. }
  rewrite E2 in E. rewrite Ea in R. apply raw_app in R as (_ & R).
  destruct (skip_sound a R) as [E3|(w & b & q & -> & W & HB & E3)]; rewrite E3 in E.
  { match type of E with parse_value ?n _ _ = _ => destruct n eqn:F end; [lia|]. rewrite pv_zero in E. discriminate E. }
  apply raw_app in R as (_ & R).
  apply (proj1 (accepted _) 0 (b :: q) j' r R) in E as (d & x & E & _ & LD).
  rewrite Ea, E. change (1000 - 0) with 1000 in LD. apply begins_intro; assumption.
Qed.
Print Assumptions C98_accepted_partial.

(** ** and for tame texts the value is a JSON value *)
Definition qn (l : list Z) : nat := count_occ Z.eq_dec l 34.
Lemma qn_app a b : qn (a ++ b) = (qn a + qn b)%nat.
Proof. apply count_occ_app. Qed.
Lemma qn_none l : ~ In 34 l -> qn l = 0%nat.
Proof. intros H. apply count_occ_not_In. exact H. Qed.
Lemma out_app a b : outside a -> Nat.Even (qn b) -> outside (a ++ b).
Proof. unfold outside. fold (qn a) (qn (a ++ b)). rewrite qn_app. apply Nat.Even_Even_add. Qed.
Lemma lws_qn w : lws w -> qn w = 0%nat.
Proof. intros W. apply qn_none. intros H. apply (proj1 (Forall_forall _ _) W) in H. lia. Qed.
Lemma digits_qn w : digits w -> qn w = 0%nat.
Proof. intros W. apply qn_none. intros H. apply (proj1 (Forall_forall _ _) W) in H. lia. Qed.
Lemma ev0 : Nat.Even 0.
Proof. exists 0%nat. reflexivity. Qed.
Lemma out_ws a w : outside a -> lws w -> outside (a ++ w).
Proof. intros A W. apply out_app; [exact A|]. rewrite lws_qn by exact W. exact ev0. Qed.

(** [x] does not end with a digit *)
Definition open (x : list Z) : Prop := forall x' c, x = x' ++ [c] -> ~ (48 <= c <= 57).
Lemma open_end x c : ~ (48 <= c <= 57) -> open (x ++ [c]).
Proof. intros H x' c' E. apply app_inj_tail in E as (_ & <-). exact H. Qed.
Lemma open_ws x w : open x -> lws w -> open (x ++ w).
Proof.
  intros O W. induction w as [|c w _] using rev_ind; [rewrite app_nil_r; exact O|].
  rewrite app_assoc. apply open_end. apply Forall_app in W as (_ & W). inversion W; subst. lia.
Qed.

Lemma tame_ws x w y : tame (x ++ w ++ y) -> outside x -> lws w -> ws w.
Proof.
  intros (_ & _ & _ & T & _) O W.
  assert (forall u v, w = u ++ v -> ws v) as A; [|exact (A [] w eq_refl)].
  intros u v. revert u. induction v as [|b v IH]; intros u E; [constructor|].
  constructor.
  - destruct (Z.eq_dec b 32) as [->|N]; [left; reflexivity|right].
    apply (T (x ++ u) b (v ++ y)).
    + rewrite E, <- !app_assoc. reflexivity.
    + rewrite E in W. apply Forall_app in W as (_ & W). inversion W; subst. lia.
  - apply (IH (u ++ [b])). rewrite E, <- app_assoc. reflexivity.
Qed.

Lemma tame_chars s kt : lchars s kt -> forall x y, tame (x ++ [34] ++ kt ++ y) -> outside x ->
  chars s kt /\ qn kt = 0%nat.
Proof.
  intros H x y T O.
  assert (forall u, Nat.Even (qn u) -> tame (x ++ [34] ++ u ++ kt ++ y) -> chars s kt /\ qn kt = 0%nat) as A.
  2:{ apply (A []); [exact ev0|exact T]. }
  clear T. induction H as [|b s t R N34 N92 H IH|c v s t I H IH|h c s t HX NS H IH|h c h' c' s t HX S1 HX' S2 H IH]; intros u U T.
  - split; [constructor|reflexivity].
  - assert (qn (u ++ [b]) = qn u) as Q.
    { rewrite qn_app. unfold qn at 2. cbn [count_occ]. destruct (Z.eq_dec b 34); [congruence|lia]. }
    destruct (IH (u ++ [b])) as (C & K).
    + rewrite Q. exact U.
    + revert T. repeat (rewrite <- ?app_assoc; cbn [app]). exact (fun z => z).
    + split; [|unfold qn; cbn [count_occ]; destruct (Z.eq_dec b 34); [congruence|exact K]].
      apply ch_raw; try assumption.
      destruct (Z_lt_le_dec b 32) as [LT|GE]; [exfalso|lia].
      destruct T as (_ & _ & _ & T & _).
      destruct (T (x ++ [34] ++ u) b (t ++ y)) as (OO & _); [repeat (rewrite <- ?app_assoc; cbn [app]); reflexivity|exact LT|].
      unfold outside in OO, O. fold (qn (x ++ [34] ++ u)) in OO. fold (qn x) in O.
      rewrite !qn_app in OO. change (qn [34]) with 1%nat in OO.
      destruct OO as (p & P). destruct O as (q & P'). destruct U as (z & P''). lia.
  - exfalso. destruct T as (_ & T & _). apply T. rewrite !in_app_iff. cbn [In]. tauto.
  - exfalso. destruct T as (_ & T & _). apply T. rewrite !in_app_iff. cbn [app In]. tauto.
  - exfalso. destruct T as (_ & T & _). apply T. rewrite !in_app_iff. cbn [app In]. tauto.
Qed.
Lemma tame_string c kt x y : lstring c kt -> tame (x ++ [34] ++ kt ++ y) -> outside x ->
  (exists s, chars s kt /\ cstr s c) /\ qn kt = 0%nat.
Proof.
  intros H T O. destruct H as [s c t LC CS|s c t u LC CS B L NH].
  - destruct (tame_chars s t LC x y T O) as (C & K). split; [|exact K]. exists s. split; assumption.
  - exfalso. destruct T as (_ & T & _). apply T. rewrite !in_app_iff. cbn [app In]. tauto.
Qed.

Lemma expo_qn e x : expo e x -> qn e = 0%nat.
Proof.
  intros H. destruct H as [|e s ds He Hs D _|e ds He D _]; [reflexivity| |].
  - destruct He as [-> | ->], Hs as [-> | ->]; cbn [app]; unfold qn; cbn; apply digits_qn; exact D.
  - destruct He as [-> | ->]; unfold qn; cbn; apply digits_qn; exact D.
Qed.
Lemma tame_int i x y : digits i -> i <> [] -> tame (x ++ i ++ y) -> open x -> int_part i.
Proof.
  intros D N (_ & _ & _ & _ & T) O. destruct i as [|b i]; [congruence|]. inversion D as [|? ? Hb Di]; subst.
  destruct (Z.eq_dec b 48) as [->|NE]; [|constructor; [lia|exact Di]].
  destruct i as [|d i]; [constructor|]. exfalso. inversion Di; subst.
  destruct (T x d (i ++ y)) as (a & c & -> & HC); [reflexivity|assumption|]. exact (O a c eq_refl HC).
Qed.
Lemma tame_number t v x y : lnumber t v -> tame (x ++ t ++ y) -> open x -> number t v /\ qn t = 0%nat.
Proof.
  intros H T O.
  assert (forall f fd, lfrac f fd -> ~ In 46 f -> f = [] /\ fd = []) as LF.
  { intros f fd Q NI. destruct Q; [split; reflexivity|]. exfalso. apply NI. left. reflexivity. }
  destruct H as [i f fd e ex v D F NE X TR|i f fd e ex v D F NE X TR].
  - destruct (LF f fd F) as (-> & ->).
    { intros I. destruct T as (_ & _ & T & _). apply T. rewrite !in_app_iff. tauto. }
    rewrite app_nil_r in NE. cbn [app] in *.
    split; [|rewrite qn_app, digits_qn by exact D; exact (expo_qn e ex X)].
    apply (num_pos i [] [] e ex); [|constructor|exact X|exact TR].
    apply (tame_int i x (e ++ y)); [exact D|exact NE|rewrite app_assoc; rewrite app_assoc in T; rewrite app_assoc; rewrite app_assoc in T; exact T|exact O].
  - destruct (LF f fd F) as (-> & ->).
    { intros I. destruct T as (_ & _ & T & _). apply T. rewrite !in_app_iff. cbn [In]. rewrite !in_app_iff. tauto. }
    rewrite app_nil_r in NE. cbn [app] in *.
    split; [|change (45 :: i ++ e) with ([45] ++ i ++ e); rewrite !qn_app, (digits_qn i D); exact (expo_qn e ex X)].
    apply (num_neg i [] [] e ex); [|constructor|exact X|exact TR].
    apply (tame_int i (x ++ [45]) (e ++ y)); [exact D|exact NE| |apply open_end; lia].
    revert T. repeat (rewrite <- ?app_assoc; cbn [app]). exact (fun z => z).
Qed.

Ltac reassoc T := revert T; repeat (rewrite <- ?app_assoc; cbn [app]); exact (fun z => z).

Lemma tame_all :
  (forall n j t, ldoc n j t -> forall x y, tame (x ++ t ++ y) -> open x -> outside x -> doc n j t /\ Nat.Even (qn t)) /\
  (forall n l t, ldocs n l t -> forall x y, tame (x ++ t ++ y) -> open x -> outside x -> docs n l t /\ Nat.Even (qn t)) /\
  (forall n l t, lmems n l t -> forall x y, tame (x ++ t ++ y) -> open x -> outside x -> mems n l t /\ Nat.Even (qn t)).
Proof.
  apply ldoc_ind3.
  - intros n x y T O Q. split; [constructor|exact ev0].
  - intros n x y T O Q. split; [constructor|exact ev0].
  - intros n x y T O Q. split; [constructor|exact ev0].
  - intros n t v N L x y T O Q. destruct (tame_number t v x y N T O) as (A & B).
    split; [constructor; assumption|rewrite B; exact ev0].
  - intros n c t LS x y T O Q.
    destruct (tame_string c t x ([34] ++ y)) as ((s & A & B) & K); [exact LS| |exact Q|].
    { reassoc T. }
    split; [apply d_str with s; assumption|]. rewrite !qn_app, K. exists 1%nat. reflexivity.
  - intros n w P W x y T O Q. split.
    + constructor; [exact P|]. apply (tame_ws (x ++ [91]) w ([93] ++ y)); [reassoc T| |exact W].
      apply out_app; [exact Q|exact ev0].
    + rewrite !qn_app, (lws_qn w W). exact ev0.
  - intros n l t P LD IH x y T O Q.
    destruct (IH (x ++ [91]) ([93] ++ y)) as (A & B); [reassoc T|apply open_end; lia|apply out_app; [exact Q|exact ev0]|].
    split; [constructor; assumption|]. rewrite !qn_app. rewrite Nat.add_0_r. exact B.
  - intros n w P W x y T O Q. split.
    + constructor; [exact P|]. apply (tame_ws (x ++ [123]) w ([125] ++ y)); [reassoc T| |exact W].
      apply out_app; [exact Q|exact ev0].
    + rewrite !qn_app, (lws_qn w W). exact ev0.
  - intros n l t P LD IH x y T O Q.
    destruct (IH (x ++ [123]) ([125] ++ y)) as (A & B); [reassoc T|apply open_end; lia|apply out_app; [exact Q|exact ev0]|].
    split; [constructor; assumption|]. rewrite !qn_app. rewrite Nat.add_0_r. exact B.
  - intros n j w t w' W LD IH W' x y T O Q.
    destruct (IH (x ++ w) (w' ++ y)) as (A & B); [reassoc T|apply open_ws; assumption|apply out_ws; assumption|].
    split.
    + constructor; [|exact A|].
      * apply (tame_ws x w (t ++ w' ++ y)); [reassoc T|exact Q|exact W].
      * apply (tame_ws (x ++ w ++ t) w' y); [reassoc T| |exact W'].
        rewrite app_assoc. apply out_app; [apply out_ws; assumption|exact B].
    + rewrite !qn_app, (lws_qn w W), (lws_qn w' W'). rewrite Nat.add_0_r. exact B.
  - intros n j l w t w' u W LD IH W' LDS IHS x y T O Q.
    destruct (IH (x ++ w) (w' ++ [44] ++ u ++ y)) as (A & B); [reassoc T|apply open_ws; assumption|apply out_ws; assumption|].
    assert (outside (x ++ w ++ t)) as O2.
    { rewrite app_assoc. apply out_app; [apply out_ws; assumption|exact B]. }
    destruct (IHS ((x ++ w ++ t ++ w') ++ [44]) y) as (A2 & B2).
    { reassoc T. }
    { apply open_end. lia. }
    { apply out_app; [|exact ev0]. replace (x ++ w ++ t ++ w') with ((x ++ w ++ t) ++ w') by (rewrite <- !app_assoc; reflexivity).
      apply out_ws; assumption. }
    split.
    + constructor; [|exact A| |exact A2].
      * apply (tame_ws x w (t ++ w' ++ [44] ++ u ++ y)); [reassoc T|exact Q|exact W].
      * apply (tame_ws (x ++ w ++ t) w' ([44] ++ u ++ y)); [reassoc T|exact O2|exact W'].
    + rewrite !qn_app, (lws_qn w W), (lws_qn w' W'). change (qn [44]) with 0%nat. cbn [Nat.add]. apply Nat.Even_Even_add; assumption.
  - intros n c kt j w1 w2 w3 t w4 W1 LS W2 W3 LD IH W4 x y T O Q.
    destruct (tame_string c kt (x ++ w1) ([34] ++ w2 ++ [58] ++ w3 ++ t ++ w4 ++ y)) as ((s & A & B) & K);
      [exact LS|reassoc T|apply out_ws; assumption|].
    assert (outside (x ++ w1 ++ [34] ++ kt ++ [34])) as O1.
    { rewrite app_assoc. apply out_app; [apply out_ws; assumption|]. rewrite !qn_app, K. exists 1%nat. reflexivity. }
    assert (outside ((x ++ w1 ++ [34] ++ kt ++ [34] ++ w2) ++ [58])) as O2.
    { apply out_app; [|exact ev0].
      replace (x ++ w1 ++ [34] ++ kt ++ [34] ++ w2) with ((x ++ w1 ++ [34] ++ kt ++ [34]) ++ w2) by (repeat (rewrite <- ?app_assoc; cbn [app]); reflexivity).
      apply out_ws; assumption. }
    destruct (IH (((x ++ w1 ++ [34] ++ kt ++ [34] ++ w2) ++ [58]) ++ w3) (w4 ++ y)) as (C & D).
    { reassoc T. }
    { apply open_ws; [apply open_end; lia|exact W3]. }
    { apply out_ws; [exact O2|exact W3]. }
    split.
    + apply ms_one with s; try assumption.
      * apply (tame_ws x w1 ([34] ++ kt ++ [34] ++ w2 ++ [58] ++ w3 ++ t ++ w4 ++ y)); [reassoc T|exact Q|exact W1].
      * apply (tame_ws (x ++ w1 ++ [34] ++ kt ++ [34]) w2 ([58] ++ w3 ++ t ++ w4 ++ y)); [reassoc T|exact O1|exact W2].
      * apply (tame_ws ((x ++ w1 ++ [34] ++ kt ++ [34] ++ w2) ++ [58]) w3 (t ++ w4 ++ y)); [reassoc T|exact O2|exact W3].
      * apply (tame_ws ((((x ++ w1 ++ [34] ++ kt ++ [34] ++ w2) ++ [58]) ++ w3) ++ t) w4 y); [reassoc T| |exact W4].
        apply out_app; [apply out_ws; [exact O2|exact W3]|exact D].
    + rewrite !qn_app, (lws_qn w1 W1), (lws_qn w2 W2), (lws_qn w3 W3), (lws_qn w4 W4). rewrite K. change (qn [34]) with 1%nat. change (qn [58]) with 0%nat.
      cbn [Nat.add]. rewrite Nat.add_0_r. destruct D as (z & ->). exists (S z). lia.
  - intros n c kt j w1 w2 w3 t w4 l u W1 LS W2 W3 LD IH W4 LM IHM x y T O Q.
    destruct (tame_string c kt (x ++ w1) ([34] ++ w2 ++ [58] ++ w3 ++ t ++ w4 ++ [44] ++ u ++ y)) as ((s & A & B) & K);
      [exact LS|reassoc T|apply out_ws; assumption|].
    assert (outside (x ++ w1 ++ [34] ++ kt ++ [34])) as O1.
    { rewrite app_assoc. apply out_app; [apply out_ws; assumption|]. rewrite !qn_app, K. exists 1%nat. reflexivity. }
    assert (outside ((x ++ w1 ++ [34] ++ kt ++ [34] ++ w2) ++ [58])) as O2.
    { apply out_app; [|exact ev0].
      replace (x ++ w1 ++ [34] ++ kt ++ [34] ++ w2) with ((x ++ w1 ++ [34] ++ kt ++ [34]) ++ w2) by (repeat (rewrite <- ?app_assoc; cbn [app]); reflexivity).
      apply out_ws; assumption. }
    destruct (IH (((x ++ w1 ++ [34] ++ kt ++ [34] ++ w2) ++ [58]) ++ w3) (w4 ++ [44] ++ u ++ y)) as (C & D).
    { reassoc T. }
    { apply open_ws; [apply open_end; lia|exact W3]. }
    { apply out_ws; [exact O2|exact W3]. }
    assert (outside ((((x ++ w1 ++ [34] ++ kt ++ [34] ++ w2) ++ [58]) ++ w3) ++ t)) as O3.
    { apply out_app; [apply out_ws; [exact O2|exact W3]|exact D]. }
    destruct (IHM ((((((x ++ w1 ++ [34] ++ kt ++ [34] ++ w2) ++ [58]) ++ w3) ++ t) ++ w4) ++ [44]) y) as (C2 & D2).
    { reassoc T. }
    { apply open_end. lia. }
    { apply out_app; [apply out_ws; [exact O3|exact W4]|exact ev0]. }
    split.
    + apply ms_more with s; try assumption.
      * apply (tame_ws x w1 ([34] ++ kt ++ [34] ++ w2 ++ [58] ++ w3 ++ t ++ w4 ++ [44] ++ u ++ y)); [reassoc T|exact Q|exact W1].
      * apply (tame_ws (x ++ w1 ++ [34] ++ kt ++ [34]) w2 ([58] ++ w3 ++ t ++ w4 ++ [44] ++ u ++ y)); [reassoc T|exact O1|exact W2].
      * apply (tame_ws ((x ++ w1 ++ [34] ++ kt ++ [34] ++ w2) ++ [58]) w3 (t ++ w4 ++ [44] ++ u ++ y)); [reassoc T|exact O2|exact W3].
      * apply (tame_ws ((((x ++ w1 ++ [34] ++ kt ++ [34] ++ w2) ++ [58]) ++ w3) ++ t) w4 ([44] ++ u ++ y)); [reassoc T|exact O3|exact W4].
    + rewrite !qn_app, (lws_qn w1 W1), (lws_qn w2 W2), (lws_qn w3 W3), (lws_qn w4 W4). rewrite K. change (qn [34]) with 1%nat. change (qn [58]) with 0%nat. change (qn [44]) with 0%nat.
      cbn [Nat.add]. destruct D as (z & ->). destruct D2 as (z' & ->). exists (S (z + z')). lia.
Qed.

(** a byte order mark, white space and a JSON value, with anything behind it *)
Inductive begins_json : json -> list Z -> Prop :=
| bj_intro bom w j t x : bom = [] \/ bom = [239; 187; 191] -> ws w -> doc 1000 j t -> begins_json j (bom ++ w ++ t ++ x).

Lemma tame_nz t : tame t -> ~ In 0 t.
Proof.
  intros (_ & _ & _ & T & _) I. apply in_split in I as (a & b & ->).
  destruct (T a 0 b eq_refl ltac:(lia)) as (_ & [Q|[Q|Q]]); discriminate Q.
Qed.
Theorem C98_tame_partial : forall t j, tame t -> json_parse t = Ok (Some j) -> begins_json j t.
Proof.
  intros t j T H.
  assert (begins j t) as B.
  { apply (C98_accepted_partial t t j); [exact (proj1 T)|apply cstr_all; exact (tame_nz t T)|exact H]. }
  destruct B as [bom w j d x HB W LD].
  assert (open bom /\ outside bom) as (OB & QB).
  { destruct HB as [-> | ->]; (split; [|exact ev0]).
    - intros x' c E. destruct x'; discriminate E.
    - apply (open_end [239; 187] 191). lia. }
  apply bj_intro; [exact HB| |].
  - apply (tame_ws bom w (d ++ x)); assumption.
  - apply (proj1 tame_all 1000 j d LD (bom ++ w) x); [|apply open_ws; assumption|apply out_ws; assumption].
    rewrite <- app_assoc. exact T.
Qed.
Print Assumptions C98_tame_partial.

(** ** Examples *)
Definition conf_like : list Z := str "{ ""s5_port"" : [10, 0, -7e2], ""home"":{""a b"":null,""on"":true}}".
(** a test for [tame] *)
Definition dg (b : Z) : bool := (48 <=? b) && (b <=? 57).
Fixpoint chk (q p : bool) (t : list Z) : bool :=
  match t with
  | [] => true
  | b :: t' =>
      ((0 <=? b) && (b <? 256) && negb (b =? 92) && negb (b =? 46)) &&
      (if b <? 32 then q && ((b =? 9) || (b =? 10) || (b =? 13)) else true) &&
      (if (b =? 48) && match t' with d :: _ => dg d | [] => false end then p else true) &&
      chk (if b =? 34 then negb q else q) (dg b) t'
  end.
Lemma chk_split a : forall q p b x, chk q p (a ++ b :: x) = true ->
  (0 <= b < 256 /\ b <> 92 /\ b <> 46) /\
  (b < 32 -> Nat.even (qn a) = q /\ (b = 9 \/ b = 10 \/ b = 13)) /\
  (forall d x', b = 48 -> x = d :: x' -> 48 <= d <= 57 -> match rev a with [] => p = true | c :: _ => dg c = true end).
Proof.
  induction a as [|c a IH]; intros q p b x H; cbn [app chk] in H.
  - apply andb_true_iff in H as (H & _). apply andb_true_iff in H as (H & H3). apply andb_true_iff in H as (H1 & H2).
    split; [lia|]. split.
    + intros L. replace (b <? 32) with true in H2 by lia. split; [cbn; destruct q; [reflexivity|discriminate H2]|]. lia.
    + intros d x' -> -> D. cbn [rev]. replace (dg d) with true in H3 by (unfold dg; lia). exact H3.
  - apply andb_true_iff in H as (_ & H). destruct (IH _ _ b x H) as (A & B & C). split; [exact A|]. split.
    + intros L. destruct (B L) as (B1 & B2). split; [|exact B2]. unfold qn in *. cbn [count_occ].
      destruct (Z.eq_dec c 34) as [->|N].
      * change (34 =? 34) with true in B1. cbv iota in B1.
        rewrite Nat.even_succ, <- Nat.negb_even, B1. apply negb_involutive.
      * replace (c =? 34) with false in B1 by lia. exact B1.
    + intros d x' E1 E2 D. specialize (C d x' E1 E2 D). cbn [rev]. destruct (rev a) as [|z r]; exact C.
Qed.
Lemma chk_tame t : chk true false t = true -> tame t.
Proof.
  intros H.
  assert (forall b, In b t -> 0 <= b < 256 /\ b <> 92 /\ b <> 46) as A.
  { intros b I. apply in_split in I as (a & x & ->). exact (proj1 (chk_split a _ _ b x H)). }
  split; [apply Forall_forall; intros b I; exact (proj1 (A b I))|].
  split; [intros I; destruct (A 92 I) as (_ & Q & _); exact (Q eq_refl)|].
  split; [intros I; destruct (A 46 I) as (_ & _ & Q); exact (Q eq_refl)|].
  split.
  - intros a b x -> L. destruct (proj1 (proj2 (chk_split a _ _ b x H)) L) as (B & C).
    split; [|exact C]. apply Nat.even_spec. exact B.
  - intros a d x -> D. pose proof (proj2 (proj2 (chk_split a _ _ 48 (d :: x) H)) d x eq_refl eq_refl D) as B.
    destruct (rev a) as [|c r] eqn:E; [discriminate B|].
    exists (rev r), c. split; [rewrite <- (rev_involutive a), E; reflexivity|unfold dg in B; lia].
Qed.
Example ex_C98_tame : exists j, tame conf_like /\ json_parse conf_like = Ok (Some j) /\ begins_json j conf_like.
Proof.
  assert (tame conf_like) as T by (apply chk_tame; vm_compute; reflexivity).
  eexists. split; [exact T|]. assert (json_parse conf_like = Ok (Some
    (JObj [(str "s5_port", JArr [JNum 10; JNum 0; JNum (-700)]);
           (str "home", JObj [(str "a b", JNull); (str "on", JBool true)])]))) as E by (vm_compute; reflexivity).
  split; [exact E|exact (C98_tame_partial _ _ T E)].
Qed.
Example ex_C98_accepted : exists j, bytes conf_like /\ cstr conf_like conf_like /\ json_parse conf_like = Ok (Some j).
Proof.
  eexists. split; [|split; [|vm_compute; reflexivity]].
  - exact (proj1 (chk_tame conf_like eq_refl)).
  - apply cstr_all. exact (tame_nz _ (chk_tame conf_like eq_refl)).
Qed.
(** texts that are refused although they are close to JSON: trailing commas, missing
    commas, names without quotes, single quotes, comments, missing brackets *)
Example ex_C98_refused :
  map json_parse [str "[1,]"; str "{""a"":1,}"; str "[1 2]"; str "{a:1}"; str "{'a':1}"; str "[1 /* */]"; str "[[1]"; str "{""a"",1}";
    str "nul"; str "{""a"":}"; str "+1"; str ".5"; str ""; str "[,1]"] = repeat (Ok None) 14.
Proof. vm_compute. reflexivity. Qed.
