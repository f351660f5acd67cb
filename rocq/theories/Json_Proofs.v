(** * Proofs about the JSON parser: safety and termination. *)
From Coq Require Import String.
From Verif Require Import Base Str_Spec Conf_Model Json_Model.
Open Scope Z_scope.
Local Arguments Z.add : simpl never.
Local Arguments Z.sub : simpl never.
Local Arguments Z.mul : simpl never.
Local Arguments Z.pow : simpl never.
Local Arguments str : simpl never.

(** ** White space *)
Lemma skip_loop_len l r : (length (skip_loop l r) <= S (length r))%nat.
Proof.
  revert l. induction r as [|b r IH]; intros l; cbn [skip_loop]; [simpl; lia|].
  destruct (b <=? 32); [specialize (IH b); simpl; lia|simpl; lia].
Qed.
Lemma skip_len r : (length (skip r) <= length r)%nat.
Proof.
  destruct r as [|b r]; [simpl; lia|]. cbn [skip skip_loop].
  destruct (b <=? 32); [apply skip_loop_len|simpl; lia].
Qed.

(** ** Strings *)
(** backslashes that open an escape, reading from the left *)
Fixpoint cnt (l : list Z) : Z :=
  match l with
  | [] => 0
  | b :: t => if b =? BSLASH then 1 + match t with [] => 0 | _ :: t' => cnt t' end else cnt t
  end.
Lemma cnt_bs t : cnt (BSLASH :: t) = 1 + cnt (tl t).
Proof. destruct t; reflexivity. Qed.
Lemma cnt_other b t : b <> BSLASH -> cnt (b :: t) = cnt t.
Proof. intros H. cbn [cnt]. apply Z.eqb_neq in H. rewrite H. reflexivity. Qed.

Lemma cnt_tl_n n l : (length l <= n)%nat -> cnt (tl l) <= cnt l <= 1 + cnt (tl l).
Proof.
  revert l. induction n as [|n IH]; intros l H.
  - destruct l; [simpl; lia|simpl in H; lia].
  - destruct l as [|b t]; [simpl; lia|]. cbn [tl]. simpl in H.
    pose proof (IH t ltac:(lia)) as A.
    destruct (Z.eq_dec b BSLASH) as [->|E].
    + rewrite cnt_bs. lia.
    + rewrite cnt_other by exact E. lia.
Qed.
Lemma cnt_tl l : cnt (tl l) <= cnt l <= 1 + cnt (tl l).
Proof. apply (cnt_tl_n (length l)). lia. Qed.
Lemma cnt_nonneg l : 0 <= cnt l.
Proof.
  assert (forall n l, (length l <= n)%nat -> 0 <= cnt l) as A.
  { clear l. induction n as [|n IH]; intros l H; destruct l as [|b t]; simpl in H; try lia; [simpl; lia|simpl; lia|].
    destruct (Z.eq_dec b BSLASH) as [->|E].
    - rewrite cnt_bs. specialize (IH (tl t)). destruct t; simpl in *; lia.
    - rewrite cnt_other by exact E. apply IH. lia. }
  apply (A (length l)). lia.
Qed.

Lemma zget_0 (b : Z) t : zget (b :: t) 0 = Some b.
Proof. reflexivity. Qed.
Lemma zdrop_cons (b : Z) t n : 0 < n -> zdrop n (b :: t) = zdrop (n - 1) t.
Proof.
  intros H. unfold zdrop. replace (Z.to_nat n) with (S (Z.to_nat (n - 1))) by lia. reflexivity.
Qed.
Lemma ztake_cons (b : Z) t n : 0 < n -> ztake n (b :: t) = b :: ztake (n - 1) t.
Proof.
  intros H. unfold ztake. replace (Z.to_nat n) with (S (Z.to_nat (n - 1))) by lia. reflexivity.
Qed.
Lemma ztake_neg (l : list Z) n : n <= 0 -> ztake n l = [].
Proof. intros H. unfold ztake. replace (Z.to_nat n) with 0%nat by lia. reflexivity. Qed.
Lemma zdrop_1 (b : Z) t : zdrop 1 (b :: t) = t.
Proof. reflexivity. Qed.
Lemma zdrop_0 (l : list Z) : zdrop 0 l = l.
Proof. reflexivity. Qed.
Lemma zget_cons (b : Z) t n : 0 < n -> zget (b :: t) n = zget t (n - 1).
Proof.
  intros H. unfold zget. replace (n <? 0) with false by lia. replace (n - 1 <? 0) with false by lia.
  replace (Z.to_nat n) with (S (Z.to_nat (n - 1))) by lia. reflexivity.
Qed.

(** the first loop: where the closing quote is, and what was skipped *)
Lemma str_scan_spec f r : (length r <= f)%nat -> forall n s n' s', str_scan r n s = Some (n', s') ->
  exists u t, r = u ++ QUOTE :: t /\ n' = n + zlen u /\ s' = s + cnt u.
Proof.
  revert r. induction f as [|f IH]; intros r L n s n' s' H.
  { destruct r; [discriminate|simpl in L; lia]. }
  destruct r as [|b r]; [discriminate|]. cbn [str_scan] in H. simpl in L.
  destruct (b =? QUOTE) eqn:E.
  { apply Z.eqb_eq in E. subst b. injection H as <- <-. exists [], r. split; [reflexivity|].
    rewrite zlen_nil. simpl cnt. lia. }
  destruct (b =? BSLASH) eqn:E2.
  - destruct r as [|c r]; [discriminate|]. simpl in L.
    destruct (IH r ltac:(lia) _ _ _ _ H) as (u & t & -> & -> & ->).
    apply Z.eqb_eq in E2. subst b. exists (BSLASH :: c :: u), t. split; [reflexivity|].
    rewrite !zlen_cons. rewrite cnt_bs. cbn [tl]. lia.
  - destruct (IH r ltac:(lia) _ _ _ _ H) as (u & t & -> & -> & ->).
    apply Z.eqb_neq in E2. exists (b :: u), t. split; [reflexivity|].
    rewrite zlen_cons, cnt_other by exact E2. lia.
Qed.

(** four hexadecimal digits *)
Lemma hex_range c d : hex c = Some d -> 0 <= d <= 15 /\ c <> BSLASH.
Proof.
  unfold hex, BSLASH.
  destruct ((48 <=? c) && (c <=? 57)) eqn:A; [intros [= <-]; lia|].
  destruct ((65 <=? c) && (c <=? 70)) eqn:B; [intros [= <-]; lia|].
  destruct ((97 <=? c) && (c <=? 102)) eqn:C; [intros [= <-]; lia|discriminate].
Qed.
(** value of hexadecimal digits *)
Fixpoint hexval (ds : list Z) (h : Z) : Z :=
  match ds with [] => h | d :: t => hexval t (16 * h + d) end.
Lemma hex4_cases r : 4 <= zlen r ->
  exists h, parse_hex4 r = Ok h /\ 0 <= h <= 65535 /\
    (h = 0 \/ exists a b c d t, r = a :: b :: c :: d :: t /\ a <> BSLASH /\ b <> BSLASH /\ c <> BSLASH /\ d <> BSLASH).
Proof.
  intros L. destruct r as [|a [|b [|c [|d t]]]]; try (exfalso; revert L; rewrite ?zlen_cons, zlen_nil; lia).
  unfold parse_hex4. cbn [hex_loop].
  destruct (hex a) as [x|] eqn:A; [|exists 0; split; [reflexivity|split; [lia|left; reflexivity]]].
  destruct (hex b) as [y|] eqn:B; [|exists 0; split; [reflexivity|split; [lia|left; reflexivity]]].
  destruct (hex c) as [z|] eqn:C; [|exists 0; split; [reflexivity|split; [lia|left; reflexivity]]].
  destruct (hex d) as [w|] eqn:D; [|exists 0; split; [reflexivity|split; [lia|left; reflexivity]]].
  apply hex_range in A. apply hex_range in B. apply hex_range in C. apply hex_range in D.
  rewrite !Z.shiftl_mul_pow2 by lia.
  eexists. split; [reflexivity|]. split; [change (2 ^ 4) with 16; lia|].
  right. exists a, b, c, d, t. intuition.
Qed.

Lemma utf8_len c bs : 0 <= c -> utf8 c = Some bs ->
  zlen bs <= 4 /\ (c <= 65535 -> zlen bs <= 3) /\ (c = 0 -> zlen bs = 1).
Proof.
  intros Hc. unfold utf8. generalize (cont c) (cont (Z.shiftr c 6)) (cont (Z.shiftr c 12)).
  generalize (Z.land c 127) (Z.land (Z.lor (Z.shiftr c 6) 192) 255) (Z.land (Z.lor (Z.shiftr c 12) 224) 255)
    (Z.land (Z.lor (Z.shiftr c 18) 240) 255).
  intros x1 x2 x3 x4 y1 y2 y3.
  destruct (c <? 128) eqn:A; [intros [= <-]; rewrite ?zlen_cons, zlen_nil; lia|].
  destruct (c <? 2048) eqn:B; [intros [= <-]; rewrite ?zlen_cons, zlen_nil; lia|].
  destruct (c <? 65536) eqn:C; [intros [= <-]; rewrite ?zlen_cons, zlen_nil; lia|].
  destruct (c <=? 1114111) eqn:D; [intros [= <-]; rewrite ?zlen_cons, zlen_nil; lia|discriminate].
Qed.

(** [u] are the bytes before the closing quote *)
Lemma cnt_drop_le n u : 0 <= n -> cnt u <= n + cnt (zdrop n u).
Proof.
  intros Hn. unfold zdrop. rewrite <- (Z2Nat.id n Hn) at 1. generalize (Z.to_nat n). clear n Hn.
  intros n. revert u. induction n as [|n IH]; intros u; [simpl; lia|].
  destruct u as [|b u]; [simpl; lia|]. cbn [skipn].
  pose proof (cnt_tl (b :: u)) as A. cbn [tl] in A. specialize (IH u). lia.
Qed.

Lemma zlen_S (l : list Z) n : 0 <= n -> 1 + n <= zlen l -> exists b t, l = b :: t /\ n <= zlen t.
Proof.
  intros Hn H. destruct l as [|b t]; [rewrite zlen_nil in H; lia|]. rewrite zlen_cons in H.
  exists b, t. split; [reflexivity|lia].
Qed.

Lemma utf16_safe u t : (exists v, u = BSLASH :: 117 :: v) ->
  exists o, utf16 (u ++ QUOTE :: t) (zlen u) = Ok o /\
    forall bs n, o = Some (bs, n) ->
      0 < n <= zlen u /\ zlen bs + cnt u <= n + cnt (zdrop n u).
Proof.
  intros (v & ->). unfold utf16.
  destruct (zlen (BSLASH :: 117 :: v) <? 6) eqn:K; [exists None; split; [reflexivity|discriminate]|].
  rewrite !zlen_cons in K.
  assert (4 <= zlen v) as L by lia.
  replace (zdrop 2 ((BSLASH :: 117 :: v) ++ QUOTE :: t)) with (v ++ QUOTE :: t) by reflexivity.
  destruct (hex4_cases (v ++ QUOTE :: t)) as (c1 & E1 & R1 & N1).
  { rewrite zlen_app. pose proof (zlen_nonneg (QUOTE :: t)). lia. }
  rewrite E1. cbn [bind].
  assert (c1 = 0 \/ exists a b c d v', v = a :: b :: c :: d :: v' /\ a <> BSLASH /\ b <> BSLASH /\ c <> BSLASH /\ d <> BSLASH) as N1'.
  { destruct N1 as [->|(a & b & c & d & x & E & Q)]; [left; reflexivity|right].
    destruct v as [|a' [|b' [|c' [|d' v']]]]; try (exfalso; revert L; rewrite ?zlen_cons, zlen_nil; lia).
    simpl in E. injection E as -> -> -> -> _. exists a, b, c, d, v'. intuition. }
  clear N1.
  destruct ((56320 <=? c1) && (c1 <=? 57343)) eqn:S1; [exists None; split; [reflexivity|discriminate]|].
  destruct ((55296 <=? c1) && (c1 <=? 56319)) eqn:S2.
  - destruct N1' as [->|(a & b & c & d & v' & -> & Ha & Hb & Hc & Hd)]; [lia|].
    destruct (zlen (BSLASH :: 117 :: a :: b :: c :: d :: v') - 6 <? 6) eqn:K2; [exists None; split; [reflexivity|discriminate]|].
    rewrite !zlen_cons in K2.
    destruct (zlen_S v' 5) as (x & v1 & -> & L1); [lia|lia|].
    replace (zdrop 6 ((BSLASH :: 117 :: a :: b :: c :: d :: x :: v1) ++ QUOTE :: t)) with (x :: v1 ++ QUOTE :: t) by reflexivity.
    rewrite zget_0. cbn [of_opt bind].
    destruct (negb (x =? BSLASH)) eqn:X; [exists None; split; [reflexivity|discriminate]|].
    destruct (zlen_S v1 4) as (y & v2 & -> & L2); [lia|lia|].
    replace (zget (x :: (y :: v2) ++ QUOTE :: t) 1) with (Some y) by reflexivity. cbn [of_opt bind].
    destruct (negb (y =? 117)) eqn:Y; [exists None; split; [reflexivity|discriminate]|].
    replace (zdrop 2 (x :: (y :: v2) ++ QUOTE :: t)) with (v2 ++ QUOTE :: t) by reflexivity.
    destruct (hex4_cases (v2 ++ QUOTE :: t)) as (c2 & E2 & R2 & N2).
    { rewrite zlen_app. pose proof (zlen_nonneg (QUOTE :: t)). lia. }
    rewrite E2. cbn [bind].
    destruct ((c2 <? 56320) || (57343 <? c2)) eqn:S3; [exists None; split; [reflexivity|discriminate]|].
    eexists. split; [reflexivity|]. intros bs n.
    destruct (utf8 _) as [bs'|] eqn:U; [|discriminate]. intros [= <- <-].
    apply utf8_len in U.
    2:{ assert (0 <= Z.lor (Z.shiftl (Z.land c1 1023) 10) (Z.land c2 1023)); [|lia].
        apply Z.lor_nonneg. split.
        - apply Z.shiftl_nonneg. apply Z.land_nonneg. left. lia.
        - apply Z.land_nonneg. left. lia. }
    destruct U as (U & _).
    rewrite !zlen_cons. split; [lia|].
    rewrite cnt_bs. cbn [tl]. rewrite !cnt_other by assumption.
    assert (x = BSLASH) as -> by lia.
    rewrite cnt_bs. cbn [tl].
    replace (zdrop 12 (BSLASH :: 117 :: a :: b :: c :: d :: BSLASH :: y :: v2)) with (zdrop 4 v2) by reflexivity.
    pose proof (cnt_drop_le 4 v2). lia.
  - eexists. split; [reflexivity|]. intros bs n.
    destruct (utf8 c1) as [bs'|] eqn:U; [|discriminate]. intros [= <- <-].
    apply utf8_len in U; [|lia]. destruct U as (U & U3 & U0).
    rewrite !zlen_cons. split; [lia|].
    rewrite cnt_bs. cbn [tl].
    replace (zdrop 6 (BSLASH :: 117 :: v)) with (zdrop 4 v) by reflexivity.
    destruct N1' as [->|(a & b & c & d & v' & -> & Ha & Hb & Hc & Hd)].
    + pose proof (cnt_drop_le 4 v). lia.
    + rewrite !cnt_other by assumption.
      replace (zdrop 4 (a :: b :: c :: d :: v')) with v' by reflexivity. lia.
Qed.

Lemma str_loop_safe f : forall cap u t out,
  zlen u <= Z.of_nat f -> zlen out + zlen u - cnt u <= cap - 2 ->
  exists o, str_loop f cap (u ++ QUOTE :: t) (zlen u) out = Ok o /\
    forall out', o = Some out' -> zlen out' <= cap - 1.
Proof.
  induction f as [|f IH]; intros cap u t out F B.
  { assert (zlen u = 0) as Z0 by (pose proof (zlen_nonneg u); lia).
    apply zlen_0_nil in Z0. subst u. cbn [str_loop]. rewrite zlen_nil in *. simpl cnt in B.
    exists (Some out). split; [reflexivity|]. intros out' [= <-]. lia. }
  destruct u as [|b u].
  { cbn [str_loop]. rewrite zlen_nil in *. simpl cnt in B.
    exists (Some out). split; [reflexivity|]. intros out' [= <-]. lia. }
  cbn [str_loop]. rewrite zlen_cons in F.
  assert (zlen (b :: u) <=? 0 = false) as ->.
  { rewrite zlen_cons. pose proof (zlen_nonneg u). lia. }
  replace (zget ((b :: u) ++ QUOTE :: t) 0) with (Some b) by reflexivity. cbn [of_opt bind].
  destruct (negb (b =? BSLASH)) eqn:E.
  - assert (b <> BSLASH) as NB by lia. rewrite cnt_other in B by exact NB. rewrite zlen_cons in B.
    unfold emit. replace (zlen out + zlen [b] <=? cap) with true.
    2:{ rewrite zlen_cons, zlen_nil. pose proof (cnt_nonneg u).
        assert (cnt u <= zlen u); [|lia].
        pose proof (cnt_drop_le (zlen u) u (zlen_nonneg u)) as Q. unfold zdrop, zlen in Q. rewrite Nat2Z.id, skipn_all in Q. simpl cnt in Q. unfold zlen. lia. }
    cbn [bind]. replace (zdrop 1 ((b :: u) ++ QUOTE :: t)) with (u ++ QUOTE :: t) by reflexivity.
    replace (zlen (b :: u) - 1) with (zlen u) by (rewrite zlen_cons; lia).
    apply IH; [lia|]. rewrite zlen_app, zlen_cons, zlen_nil. lia.
  - assert (b = BSLASH) as -> by lia. rewrite cnt_bs in B. rewrite zlen_cons in B.
    assert (forall w, cnt w <= zlen w) as CL.
    { clear. intros u. pose proof (cnt_drop_le (zlen u) u (zlen_nonneg u)) as Q. unfold zdrop, zlen in Q. rewrite Nat2Z.id, skipn_all in Q. simpl cnt in Q. unfold zlen. lia. }
    destruct u as [|c u].
    + (* the backslash is the last byte before the closing quote *)
      replace (zget ([BSLASH] ++ QUOTE :: t) 1) with (Some QUOTE) by reflexivity. cbn [of_opt bind].
      change (simple_escape QUOTE) with (Some QUOTE). cbv iota.
      cbn [tl] in B. simpl cnt in B. rewrite zlen_nil in B.
      unfold emit. replace (zlen out + zlen [QUOTE] <=? cap) with true by (rewrite zlen_cons, zlen_nil; lia).
      cbn [bind]. replace (zlen [BSLASH] - 2) with (-1) by (rewrite zlen_cons, zlen_nil; lia).
      exists (Some (out ++ [QUOTE])). split; [destruct f; reflexivity|].
      intros out' [= <-]. rewrite zlen_app, zlen_cons, zlen_nil. lia.
    + replace (zget ((BSLASH :: c :: u) ++ QUOTE :: t) 1) with (Some c) by reflexivity. cbn [of_opt bind].
      cbn [tl] in B.
      destruct (simple_escape c) as [e|] eqn:S.
      * unfold emit. rewrite zlen_cons in B, F.
        replace (zlen out + zlen [e] <=? cap) with true by (rewrite zlen_cons, zlen_nil; specialize (CL u); lia).
        cbn [bind]. replace (zdrop 2 ((BSLASH :: c :: u) ++ QUOTE :: t)) with (u ++ QUOTE :: t) by reflexivity.
        replace (zlen (BSLASH :: c :: u) - 2) with (zlen u) by (rewrite !zlen_cons; lia).
        apply IH; [lia|]. rewrite zlen_app, zlen_cons, zlen_nil. lia.
      * destruct (c =? 117) eqn:C; [|exists None; split; [reflexivity|discriminate]].
        assert (c = 117) as -> by lia.
        destruct (utf16_safe (BSLASH :: 117 :: u) t) as (o & E1 & P); [eexists; reflexivity|].
        rewrite E1. cbn [bind]. destruct o as [(bs, n)|]; [|exists None; split; [reflexivity|discriminate]].
        destruct (P bs n eq_refl) as (Pn & Pc). rewrite !zlen_cons in Pn. rewrite !zlen_cons in B. rewrite !zlen_cons in F.
        rewrite cnt_bs in Pc. cbn [tl] in Pc.
        pose proof (CL (zdrop n (BSLASH :: 117 :: u))) as CD.
        rewrite zlen_zdrop in CD by lia. rewrite !zlen_cons in CD.
        pose proof (zlen_nonneg u) as UN.
        unfold emit. replace (zlen out + zlen bs <=? cap) with true.
        2:{ symmetry. apply Z.leb_le. clear - B Pc CD Pn UN. lia. }
        cbn [bind].
        rewrite zdrop_app_l by (rewrite !zlen_cons; clear - Pn; lia).
        replace (zlen (BSLASH :: 117 :: u) - n) with (zlen (zdrop n (BSLASH :: 117 :: u))).
        2:{ rewrite zlen_zdrop by lia. rewrite !zlen_cons. lia. }
        apply IH.
        -- rewrite zlen_zdrop by lia. rewrite !zlen_cons. lia.
        -- rewrite zlen_app, zlen_zdrop by lia. rewrite !zlen_cons. lia.
Qed.

(** the buffer ends with the terminating NUL *)
Definition zend (r : list Z) : Prop := exists a, r = a ++ [0].
Lemma zend_tl b t : zend (b :: t) -> b <> 0 -> zend t.
Proof.
  intros (a & E) H. destruct a as [|x a]; [injection E as -> _; congruence|].
  injection E as _ ->. exists a. reflexivity.
Qed.
Lemma zend_app u t : zend (u ++ t) -> Forall (fun b => b <> 0) u -> zend t.
Proof.
  induction u as [|b u IH]; intros H F; [exact H|]. inversion F; subst.
  apply IH; [|assumption]. exact (zend_tl b _ H H2).
Qed.
Lemma zend_suffix u b t : zend (u ++ b :: t) -> b <> 0 -> zend t.
Proof.
  intros (a & E) H. revert a E. induction u as [|x u IH]; intros a E.
  - apply (zend_tl b t); [exists a; exact E|exact H].
  - destruct a as [|y a].
    + exfalso. apply (f_equal (@length Z)) in E. simpl in E. rewrite app_length in E. simpl in E. lia.
    + injection E as _ E. exact (IH a E).
Qed.
Lemma zend_ne r : zend r -> r <> [].
Proof. intros (a & ->). destruct a; discriminate. Qed.
Lemma skip_loop_zend l a : zend (skip_loop l (a ++ [0])).
Proof.
  revert l. induction a as [|b a IH]; intros l.
  - exists []. reflexivity.
  - cbn [app skip_loop]. destruct (b <=? 32); [apply IH|]. exists (b :: a). reflexivity.
Qed.
Lemma skip_zend r : zend r -> zend (skip r).
Proof.
  intros (a & ->). destruct a as [|b a]; [exists []; reflexivity|].
  cbn [app skip]. apply (skip_loop_zend b (b :: a)).
Qed.

(** a result leaves a shorter rest of the buffer, still with the NUL *)
Definition rest_ok {A} (r : list Z) (o : option (A * list Z)) : Prop :=
  forall a r', o = Some (a, r') -> (length r' < length r)%nat /\ zend r'.
Lemma rest_none {A} r : rest_ok r (@None (A * list Z)).
Proof. intros a r' E. discriminate E. Qed.

Lemma parse_string_safe r : zend r -> exists o, parse_string r = Ok o /\ rest_ok r o.
Proof.
  intros H. destruct r as [|q r]; [apply zend_ne in H; congruence|].
  unfold parse_string. rewrite zget_0. cbn [of_opt bind].
  destruct (negb (q =? QUOTE)); [exists None; split; [reflexivity|apply rest_none]|].
  rewrite zdrop_1.
  destruct (str_scan r 0 0) as [(n, s)|] eqn:E; [|exists None; split; [reflexivity|apply rest_none]].
  apply (str_scan_spec (length r) r (le_n _)) in E as (u & t & -> & -> & ->).
  rewrite !Z.add_0_l.
  destruct (str_loop_safe (length (q :: u ++ QUOTE :: t)) (zlen u + 1 - cnt u + 1) u t []) as (o & -> & P).
  { unfold zlen. simpl. rewrite app_length. lia. }
  { rewrite zlen_nil. lia. }
  cbn [bind]. destruct o as [out|]; [|exists None; split; [reflexivity|apply rest_none]].
  unfold emit. specialize (P out eq_refl).
  replace (zlen out + zlen [0] <=? zlen u + 1 - cnt u + 1) with true by (rewrite zlen_cons, zlen_nil; lia).
  cbn [bind]. eexists. split; [reflexivity|]. intros s r' [= _ <-].
  replace (zdrop (zlen u + 1) (u ++ QUOTE :: t)) with t.
  - split; [simpl; rewrite app_length; simpl; lia|].
    apply (zend_suffix (q :: u) QUOTE t); [exact H|unfold QUOTE; lia].
  - unfold zdrop, zlen. replace (Z.to_nat (Z.of_nat (length u) + 1)) with (length u + 1)%nat by lia.
    rewrite skipn_app. rewrite skipn_all2 by lia. replace (length u + 1 - length u)%nat with 1%nat by lia. reflexivity.
Qed.

(** ** Numbers *)
Lemma span_digits_app l : fst (span_digits l) ++ snd (span_digits l) = l.
Proof.
  induction l as [|b l IH]; [reflexivity|]. cbn [span_digits].
  destruct (digit b); [cbn [fst snd app]; f_equal; exact IH|reflexivity].
Qed.
Lemma span_digits_len l : zlen (fst (span_digits l)) + zlen (snd (span_digits l)) = zlen l.
Proof. rewrite <- (span_digits_app l) at 3. rewrite zlen_app. reflexivity. Qed.
Lemma span_sign_len l : zlen (snd (span_sign l)) <= zlen l.
Proof.
  destruct l as [|b l]; [simpl; lia|]. cbn [span_sign].
  destruct (b =? 45); [cbn [snd]; rewrite zlen_cons; lia|].
  destruct (b =? 43); [cbn [snd]; rewrite zlen_cons; lia|cbn [snd]; lia].
Qed.

Lemma strtod_used s v n : strtod s = Some (v, n) -> 0 < n <= zlen s.
Proof.
  unfold strtod.
  pose proof (span_sign_len s) as A. destruct (span_sign s) as [neg s1]. cbn [snd] in A.
  pose proof (span_digits_len s1) as B. destruct (span_digits s1) as [ip s2]. cbn [fst snd] in B.
  destruct (match s2 with [] => ([], s2) | b :: t => _ end) as [fp s3] eqn:E.
  assert (zlen fp + zlen s3 <= zlen s2) as C.
  { destruct s2 as [|b t]; [injection E as <- <-; change (zlen (@nil Z)) with 0; lia|].
    rewrite zlen_cons.
    pose proof (span_digits_len t) as D.
    destruct (b =? 46); [|injection E as <- <-; rewrite zlen_cons; change (zlen (@nil Z)) with 0; lia].
    destruct ((zlen ip =? 0) && (zlen (fst (span_digits t)) =? 0)).
    - injection E as <- <-. rewrite zlen_cons. change (zlen (@nil Z)) with 0. lia.
    - rewrite E in D. cbn [fst snd] in D. lia. }
  destruct (zlen ip + zlen fp =? 0) eqn:Z0; [discriminate|].
  pose proof (zlen_nonneg ip). pose proof (zlen_nonneg fp).
  destruct (match s3 with [] => (0, s3) | b :: t => _ end) as [ex s4] eqn:E2.
  assert (zlen s4 <= zlen s3) as F.
  { destruct s3 as [|b t]; [injection E2 as _ <-; lia|].
    destruct ((b =? 101) || (b =? 69)); [|injection E2 as _ <-; lia].
    pose proof (span_sign_len t) as G. destruct (span_sign t) as [eneg t1]. cbn [snd] in G.
    pose proof (span_digits_len t1) as K. destruct (span_digits t1) as [ds t2]. cbn [fst snd] in K.
    pose proof (zlen_nonneg ds).
    destruct (zlen ds =? 0); injection E2 as _ <-; rewrite ?zlen_cons; lia. }
  pose proof (zlen_nonneg s4).
  intros [= _ <-]. lia.
Qed.

Lemma num_copy_app k r : exists t, r = num_copy k r ++ t /\ Forall (fun b => num_char b = true) (num_copy k r).
Proof.
  revert r. induction k as [|k IH]; intros r; [exists r; split; [reflexivity|constructor]|].
  destruct r as [|b r]; [exists []; split; [reflexivity|constructor]|]. cbn [num_copy].
  destruct (num_char b) eqn:E; [|exists (b :: r); split; [reflexivity|constructor]].
  destruct (IH r) as (t & Et & F). exists t. split; [cbn [app]; f_equal; exact Et|].
  constructor; assumption.
Qed.
Lemma num_char_nz b : num_char b = true -> b <> 0.
Proof. unfold num_char, digit. lia. Qed.
Lemma Forall_drop {A} (P : A -> Prop) n l : Forall P l -> Forall P (skipn n l).
Proof.
  revert l. induction n as [|n IH]; intros l F; [exact F|]. destruct l as [|b l]; [constructor|].
  inversion F; subst. apply IH. assumption.
Qed.

Lemma parse_number_rest r v r' : zend r -> parse_number r = Some (v, r') ->
  (length r' < length r)%nat /\ zend r'.
Proof.
  unfold parse_number. intros Z0. destruct (strtod _) as [(w, n)|] eqn:E; [|discriminate].
  intros [= _ <-]. apply strtod_used in E. destruct (num_copy_app 63 r) as (t & Er & F).
  set (c := num_copy 63 r) in *. clearbody c. subst r. split.
  - unfold zdrop. rewrite skipn_length, app_length. unfold zlen in E. lia.
  - rewrite zdrop_app_l by lia. 
    assert (zend t) as (a & ->).
    { apply (zend_app c); [exact Z0|]. eapply Forall_impl; [|exact F]. apply num_char_nz. }
    exists (zdrop n c ++ a). rewrite app_assoc. reflexivity.
Qed.

(** ** Values *)
Lemma starts_rest p r : starts p r = true -> zend r -> Forall (fun b => b <> 0) p -> p <> [] ->
  (length (zdrop (zlen p) r) < length r)%nat /\ zend (zdrop (zlen p) r).
Proof.
  intros H Z0 F N. apply starts_spec in H as (b & ->).
  rewrite zdrop_app_l by lia. replace (zdrop (zlen p) p) with (@nil Z).
  - cbn [app]. split; [rewrite app_length; destruct p; [congruence|simpl; lia]|]. exact (zend_app p b Z0 F).
  - unfold zdrop, zlen. rewrite Nat2Z.id, skipn_all. reflexivity.
Qed.

Lemma parse_total f :
  (forall d r, zend r -> (2 * length r + 1 <= f)%nat -> exists o, parse_value f d r = Ok o /\ rest_ok r o) /\
  (forall d r, zend r -> (2 * length r + 2 <= f)%nat -> exists o, elems f d r = Ok o /\ rest_ok r o) /\
  (forall d r, zend r -> (2 * length r + 2 <= f)%nat -> exists o, members f d r = Ok o /\ rest_ok r o).
Proof.
  induction f as [|f (IV & IE & IM)]; [split; [|split]; intros; lia|].
  split; [|split].
  - intros d r Z0 F. cbn [parse_value].
    destruct (starts (str "null") r) eqn:S1.
    { eexists. split; [reflexivity|]. intros a r' [= _ <-].
      apply (starts_rest _ _ S1 Z0); [repeat constructor; discriminate|discriminate]. }
    destruct (starts (str "false") r) eqn:S2.
    { eexists. split; [reflexivity|]. intros a r' [= _ <-].
      apply (starts_rest _ _ S2 Z0); [repeat constructor; discriminate|discriminate]. }
    destruct (starts (str "true") r) eqn:S3.
    { eexists. split; [reflexivity|]. intros a r' [= _ <-].
      apply (starts_rest _ _ S3 Z0); [repeat constructor; discriminate|discriminate]. }
    clear S1 S2 S3.
    destruct r as [|b t]; [apply zend_ne in Z0; congruence|].
    destruct (b =? QUOTE).
    { destruct (parse_string_safe (b :: t) Z0) as (o & -> & P). cbn [bind].
      eexists. split; [reflexivity|]. intros a r'. destruct o as [(s, r1)|]; [|discriminate].
      intros [= _ <-]. exact (P s r1 eq_refl). }
    destruct ((b =? 45) || digit b).
    { eexists. split; [reflexivity|]. intros a r'. destruct (parse_number (b :: t)) as [(v, r1)|] eqn:E; [|discriminate].
      intros [= _ <-]. exact (parse_number_rest _ _ _ Z0 E). }
    pose proof (skip_len t) as SL. simpl in F.
    destruct (b =? LBRACK) eqn:B1.
    { assert (zend t) as Zt by (apply (zend_tl b _ Z0); unfold LBRACK in B1; lia).
      apply skip_zend in Zt.
      destruct (NESTING <=? d); [exists None; split; [reflexivity|apply rest_none]|].
      destruct (skip t) as [|c t'] eqn:E; [exists None; split; [reflexivity|apply rest_none]|]. simpl in SL.
      destruct (c =? RBRACK) eqn:C.
      - eexists. split; [reflexivity|]. intros a r' [= _ <-]. split; [simpl; lia|].
        apply (zend_tl c _ Zt). unfold RBRACK in C. lia.
      - destruct (IE (d + 1) (c :: t') Zt) as (o & -> & P); [simpl; lia|]. cbn [bind].
        eexists. split; [reflexivity|]. intros a r'. destruct o as [(l, r1)|]; [|discriminate].
        intros [= _ <-]. destruct (P l r1 eq_refl) as (P1 & P2). split; [simpl in *; lia|exact P2]. }
    destruct (b =? LBRACE) eqn:B2; [|exists None; split; [reflexivity|apply rest_none]].
    assert (zend t) as Zt by (apply (zend_tl b _ Z0); unfold LBRACE in B2; lia).
    apply skip_zend in Zt.
    destruct (NESTING <=? d); [exists None; split; [reflexivity|apply rest_none]|].
    destruct (skip t) as [|c t'] eqn:E; [exists None; split; [reflexivity|apply rest_none]|]. simpl in SL.
    destruct (c =? RBRACE) eqn:C.
    + eexists. split; [reflexivity|]. intros a r' [= _ <-]. split; [simpl; lia|].
      apply (zend_tl c _ Zt). unfold RBRACE in C. lia.
    + destruct (IM (d + 1) (c :: t') Zt) as (o & -> & P); [simpl; lia|]. cbn [bind].
      eexists. split; [reflexivity|]. intros a r'. destruct o as [(l, r1)|]; [|discriminate].
      intros [= _ <-]. destruct (P l r1 eq_refl) as (P1 & P2). split; [simpl in *; lia|exact P2].
  - intros d r Z0 F. cbn [elems]. pose proof (skip_len r) as SL.
    destruct (IV d (skip r) (skip_zend _ Z0)) as (o & -> & P); [lia|]. cbn [bind].
    destruct o as [(j, r1)|]; [|exists None; split; [reflexivity|apply rest_none]].
    destruct (P j r1 eq_refl) as (P1 & Z1). pose proof (skip_len r1) as SL1.
    apply skip_zend in Z1.
    destruct (skip r1) as [|b t] eqn:E; [exists None; split; [reflexivity|apply rest_none]|].
    simpl in SL1. destruct (b =? COMMA) eqn:B.
    + destruct (IE d t) as (o & -> & P2); [apply (zend_tl b _ Z1); unfold COMMA in B; lia|lia|]. cbn [bind].
      eexists. split; [reflexivity|]. intros a r'. destruct o as [(l, r2)|]; [|discriminate].
      intros [= _ <-]. destruct (P2 l r2 eq_refl) as (P3 & P4). split; [simpl in *; lia|exact P4].
    + destruct (b =? RBRACK) eqn:B1; eexists; (split; [reflexivity|]); [|apply rest_none].
      intros a r' [= _ <-]. split; [lia|]. apply (zend_tl b _ Z1). unfold RBRACK in B1. lia.
  - intros d r Z0 F. cbn [members]. pose proof (skip_len r) as SL.
    destruct (parse_string_safe (skip r) (skip_zend _ Z0)) as (k & -> & P). cbn [bind].
    destruct k as [(name, r1)|]; [|exists None; split; [reflexivity|apply rest_none]].
    destruct (P name r1 eq_refl) as (P1 & Z1). pose proof (skip_len r1) as SL1.
    apply skip_zend in Z1.
    destruct (skip r1) as [|b t] eqn:E; [exists None; split; [reflexivity|apply rest_none]|].
    simpl in SL1. destruct (negb (b =? COLON)) eqn:B; [exists None; split; [reflexivity|apply rest_none]|].
    pose proof (skip_len t) as SL2.
    assert (zend t) as Zt by (apply (zend_tl b _ Z1); unfold COLON in B; lia).
    destruct (IV d (skip t) (skip_zend _ Zt)) as (o & -> & P2); [lia|]. cbn [bind].
    destruct o as [(j, r2)|]; [|exists None; split; [reflexivity|apply rest_none]].
    destruct (P2 j r2 eq_refl) as (P3 & Z2). pose proof (skip_len r2) as SL3.
    apply skip_zend in Z2.
    destruct (skip r2) as [|c t'] eqn:E2; [exists None; split; [reflexivity|apply rest_none]|].
    simpl in SL3. destruct (c =? COMMA) eqn:C.
    + destruct (IM d t') as (o & -> & P4); [apply (zend_tl c _ Z2); unfold COMMA in C; lia|lia|]. cbn [bind].
      eexists. split; [reflexivity|]. intros a r'. destruct o as [(l, r3)|]; [|discriminate].
      intros [= _ <-]. destruct (P4 l r3 eq_refl) as (P5 & P6). split; [simpl in *; lia|exact P6].
    + destruct (c =? RBRACE) eqn:C1; eexists; (split; [reflexivity|]); [|apply rest_none].
      intros a r' [= _ <-]. split; [lia|]. apply (zend_tl c _ Z2). unfold RBRACE in C1. lia.
Qed.

Lemma skip_bom_zend r : zend r -> zend (skip_bom r).
Proof.
  intros Z0. unfold skip_bom. destruct ((4 <? zlen r) && starts [239; 187; 191] r) eqn:E; [|exact Z0].
  apply andb_prop in E as (_ & E).
  apply (starts_rest _ _ E Z0); [repeat constructor; discriminate|discriminate].
Qed.
Lemma skip_bom_len r : (length (skip_bom r) <= length r)%nat.
Proof. unfold skip_bom. destruct (_ && _); [|lia]. unfold zdrop. rewrite skipn_length. lia. Qed.

Lemma json_parse_total text : exists o, json_parse text = Ok o.
Proof.
  unfold json_parse. set (r := cut text ++ [0]).
  assert (zend r) as Z0 by (exists (cut text); reflexivity).
  pose proof (skip_len (skip_bom r)). pose proof (skip_bom_len r).
  destruct (parse_total (2 * length r + 2)) as (A & _).
  destruct (A 0 (skip (skip_bom r))) as (o & -> & _).
  - apply skip_zend, skip_bom_zend, Z0.
  - lia.
  - eexists. reflexivity.
Qed.
