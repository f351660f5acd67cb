(** * Proofs about the JSON parser: everything it accepts is a text of the wider grammar. *)
From Coq Require Import String.
From Verif Require Import Base Str_Spec Conf_Model Json_Model Json_Spec Json_Lax_Spec Json_Proofs Json_Doc_Proofs Json_Cut_Proofs.
Open Scope Z_scope.
Local Arguments Z.add : simpl never.
Local Arguments Z.sub : simpl never.
Local Arguments Z.mul : simpl never.
Local Arguments Z.pow : simpl never.
Local Arguments str : simpl never.

(** bytes of a C string *)
Definition raw (l : list Z) : Prop := Forall (fun b => 1 <= b < 256) l.
Lemma raw_app a b : raw (a ++ b) <-> raw a /\ raw b.
Proof. apply Forall_app. Qed.

(** ** White space *)
Lemma skip_loop_sound a : forall l, raw a ->
  skip_loop l (a ++ [0]) = [0] \/
  exists w b q, a = w ++ b :: q /\ lws w /\ 32 < b /\ skip_loop l (a ++ [0]) = b :: q ++ [0].
Proof.
  induction a as [|b a IH]; intros l R; [left; reflexivity|]. inversion R; subst. cbn [app skip_loop].
  destruct (b <=? 32) eqn:B.
  - destruct (IH b H2) as [E|(w & c & q & -> & W & C & E)]; [left; exact E|].
    right. exists (b :: w), c, q. split; [reflexivity|]. split; [constructor; [lia|exact W]|]. split; assumption.
  - right. exists [], b, a. split; [reflexivity|]. split; [constructor|]. split; [lia|reflexivity].
Qed.
Lemma skip_sound a : raw a ->
  skip (a ++ [0]) = [0] \/
  exists w b q, a = w ++ b :: q /\ lws w /\ 32 < b /\ skip (a ++ [0]) = b :: q ++ [0].
Proof. intros R. destruct a as [|b a]; [left; reflexivity|]. exact (skip_loop_sound (b :: a) b R). Qed.

(** ** Strings *)
Lemma simple_escape_in c v : simple_escape c = Some v -> In (c, v) escapes.
Proof.
  unfold simple_escape, QUOTE, BSLASH.
  destruct (c =? 98) eqn:A1; [intros [= <-]; replace c with 98 by lia; cbn; tauto|].
  destruct (c =? 102) eqn:A2; [intros [= <-]; replace c with 102 by lia; cbn; tauto|].
  destruct (c =? 110) eqn:A3; [intros [= <-]; replace c with 110 by lia; cbn; tauto|].
  destruct (c =? 114) eqn:A4; [intros [= <-]; replace c with 114 by lia; cbn; tauto|].
  destruct (c =? 116) eqn:A5; [intros [= <-]; replace c with 116 by lia; cbn; tauto|].
  destruct ((c =? 34) || (c =? 92) || (c =? 47)) eqn:A6; [|discriminate]. intros [= <-].
  assert (c = 34 \/ c = 92 \/ c = 47) as [-> | [-> | ->]] by lia; cbn; tauto.
Qed.

Lemma hex_hexd c d : hex c = Some d -> hexd c d.
Proof.
  unfold hex.
  destruct ((48 <=? c) && (c <=? 57)) eqn:A; [intros [= <-]; constructor; lia|].
  destruct ((65 <=? c) && (c <=? 70)) eqn:B.
  { intros [= <-]. replace (10 + c - 65) with (c - 55) by lia. constructor; lia. }
  destruct ((97 <=? c) && (c <=? 102)) eqn:C; [|discriminate].
  intros [= <-]. replace (10 + c - 97) with (c - 87) by lia. constructor; lia.
Qed.
Lemma hexd_hex c d : hexd c d -> hex c = Some d.
Proof. intros H. exact (proj1 (hexd_spec c d H)). Qed.

Definition nohex (u : list Z) : Prop := forall h x v, hex4 h x -> u <> h ++ v.
Lemma hex4_sound v x : 4 <= zlen v ->
  (exists h c v', v = h ++ v' /\ hex4 h c /\ parse_hex4 (v ++ x) = Ok c) \/
  (nohex v /\ parse_hex4 (v ++ x) = Ok 0).
Proof.
  intros L. destruct v as [|a [|b [|c [|d v]]]]; try (exfalso; revert L; rewrite ?zlen_cons, zlen_nil; lia).
  unfold parse_hex4. cbn [app hex_loop].
  assert (hex a = None \/ hex b = None \/ hex c = None \/ hex d = None -> nohex (a :: b :: c :: d :: v)) as NH'.
  { intros H h x0 v0 HX E. destruct HX as [a' b' c' d' ? ? ? ? A B C D].
    cbn [app] in E. injection E as <- <- <- <- _.
    apply hexd_hex in A, B, C, D. destruct H as [H|[H|[H|H]]]; congruence. }
  destruct (hex a) as [xa|] eqn:A; [|right; split; [apply NH'; tauto|reflexivity]].
  destruct (hex b) as [xb|] eqn:B; [|right; split; [apply NH'; tauto|reflexivity]].
  destruct (hex c) as [xc|] eqn:C; [|right; split; [apply NH'; tauto|reflexivity]].
  destruct (hex d) as [xd|] eqn:D; [|right; split; [apply NH'; tauto|reflexivity]].
  left. exists [a; b; c; d], (4096 * xa + 256 * xb + 16 * xc + xd), v. split; [reflexivity|].
  split; [constructor; apply hex_hexd; assumption|].
  rewrite !Z.shiftl_mul_pow2 by lia. change (2 ^ 4) with 16. f_equal. lia.
Qed.

Lemma utf16_sound v x bs n : utf16 (92 :: 117 :: v ++ x) (2 + zlen v) = Ok (Some (bs, n)) ->
  (exists h c v', v = h ++ v' /\ hex4 h c /\ ~ (55296 <= c <= 57343) /\ bs = utf8_of c /\ n = 6) \/
  (exists h c h' c' v', v = h ++ 92 :: 117 :: h' ++ v' /\ hex4 h c /\ 55296 <= c <= 56319 /\ hex4 h' c' /\ 56320 <= c' <= 57343 /\
     bs = utf8_of (65536 + 1024 * (c - 55296) + (c' - 56320)) /\ n = 12) \/
  (4 <= zlen v /\ nohex v /\ bs = [0]).
Proof.
  unfold utf16. destruct (2 + zlen v <? 6) eqn:K; [discriminate|].
  change (zdrop 2 (92 :: 117 :: v ++ x)) with (v ++ x).
  assert (4 <= zlen v) as L by lia.
  destruct (hex4_sound v x L) as [(h & c & v' & -> & HX & ->)|(NH & ->)]; cbn [bind].
  2:{ change ((56320 <=? 0) && (0 <=? 57343)) with false. change ((55296 <=? 0) && (0 <=? 56319)) with false. cbv iota.
      change (utf8 0) with (Some [0]). cbv iota. intros [= <- <-]. right. right. split; [exact L|]. split; [exact NH|reflexivity]. }
  destruct (hex4_spec _ _ HX) as (RC & LH & _ & _).
  destruct ((56320 <=? c) && (c <=? 57343)) eqn:S1; [discriminate|].
  destruct ((55296 <=? c) && (c <=? 56319)) eqn:S2.
  - destruct (2 + zlen (h ++ v') - 6 <? 6) eqn:K2; [discriminate|].
    rewrite <- app_assoc.
    assert (zdrop 6 (92 :: 117 :: h ++ v' ++ x) = v' ++ x) as ->.
    { rewrite !zdrop_cons by lia. replace (6 - 1 - 1) with (zlen h) by lia. apply zdrop_app_eq. }
    rewrite zlen_app in K2.
    destruct (zlen_S v' 5) as (y & v1 & -> & L1); [lia|lia|].
    cbn [app]. rewrite zget_0. cbn [of_opt bind].
    destruct (negb (y =? BSLASH)) eqn:Y; [discriminate|]. assert (y = 92) as -> by (unfold BSLASH in Y; lia).
    destruct (zlen_S v1 4) as (z & v2 & -> & L2); [lia|lia|].
    change (zget (92 :: (z :: v2) ++ x) 1) with (Some z). cbn [of_opt bind].
    destruct (negb (z =? 117)) eqn:Z1; [discriminate|]. assert (z = 117) as -> by lia.
    change (zdrop 2 (92 :: (117 :: v2) ++ x)) with (v2 ++ x).
    destruct (hex4_sound v2 x L2) as [(h' & c' & v'' & -> & HX' & ->)|(NH & ->)]; cbn [bind].
    2:{ change ((0 <? 56320) || (57343 <? 0)) with true. discriminate. }
    destruct (hex4_spec _ _ HX') as (RC' & LH' & _ & _).
    destruct ((c' <? 56320) || (57343 <? c')) eqn:S3; [discriminate|].
    replace (65536 + Z.lor (Z.shiftl (Z.land c 1023) 10) (Z.land c' 1023))
      with (65536 + 1024 * (c - 55296) + (c' - 56320)).
    2:{ change 1023 with (Z.ones 10). rewrite !Z.land_ones by lia. rewrite Z.shiftl_mul_pow2 by lia.
        change (2 ^ 10) with 1024.
        replace (c mod 1024) with (c - 55296).
        2:{ apply Z.mod_unique with (q := 54); lia. }
        replace (c' mod 1024) with (c' - 56320).
        2:{ apply Z.mod_unique with (q := 55); lia. }
        change 1024 with (2 ^ 10) at 2. rewrite lor_add; [|lia|change (2 ^ 10) with 1024; lia].
        change (2 ^ 10) with 1024. lia. }
    rewrite utf8_spec by lia. intros [= <- <-]. right. left.
    exists h, c, h', c', v''. split; [reflexivity|]. split; [exact HX|]. split; [lia|]. split; [exact HX'|]. split; [lia|]. split; reflexivity.
  - rewrite utf8_spec by lia. intros [= <- <-]. left. exists h, c, v'.
    split; [reflexivity|]. split; [exact HX|]. split; [lia|]. split; reflexivity.
Qed.

Lemma loop_grows f : forall cap r k out o, str_loop f cap r k out = Ok (Some o) -> exists x, o = out ++ x.
Proof.
  induction f as [|f IH]; intros cap r k out o; cbn [str_loop].
  { destruct (k <=? 0); [|discriminate]. intros [= <-]. exists []. rewrite app_nil_r. reflexivity. }
  destruct (k <=? 0); [intros [= <-]; exists []; rewrite app_nil_r; reflexivity|].
  intros E. apply bind_ok in E as (b & _ & E).
  assert (forall bs r' k', (let* out' := emit cap out bs in str_loop f cap r' k' out') = Ok (Some o) -> exists x, o = out ++ x) as A.
  { intros bs r' k' Q. apply bind_ok in Q as (out' & E1 & E2). apply emit_ok in E1. subst out'.
    apply IH in E2 as (x & ->). exists (bs ++ x). rewrite app_assoc. reflexivity. }
  destruct (negb (b =? BSLASH)); [exact (A _ _ _ E)|].
  apply bind_ok in E as (c & _ & E).
  destruct (simple_escape c); [exact (A _ _ _ E)|].
  destruct (c =? 117); [|discriminate].
  apply bind_ok in E as (u & _ & E). destruct u as [(bs, n)|]; [exact (A _ _ _ E)|discriminate].
Qed.

Lemma body_hex h c v : hex4 h c -> body (h ++ v) -> body v.
Proof.
  intros H. destruct H as [a b c d x y z w A B C D]. cbn [app].
  apply hexd_spec in A as (_ & _ & A & A'). apply hexd_spec in B as (_ & _ & B & B').
  apply hexd_spec in C as (_ & _ & C & C'). apply hexd_spec in D as (_ & _ & D & D').
  intros P. inversion P as [|? ? _ _ P1|]; subst; [|lia].
  inversion P1 as [|? ? _ _ P2|]; subst; [|lia]. inversion P2 as [|? ? _ _ P3|]; subst; [|lia].
  inversion P3 as [|? ? _ _ P4|]; subst; [|lia]. exact P4.
Qed.

Definition read_as (out u o : list Z) : Prop :=
  exists s, (lchars s u /\ o = out ++ s) \/
    (exists u1 u2 x, u = u1 ++ 92 :: 117 :: u2 /\ lchars s u1 /\ body u2 /\ 4 <= zlen u2 /\ nohex u2 /\ o = out ++ s ++ 0 :: x).
Lemma read_more out bs u t o : read_as (out ++ bs) u o ->
  (forall s u1, lchars s u1 -> lchars (bs ++ s) (t ++ u1)) -> read_as out (t ++ u) o.
Proof.
  intros (s & [(C & ->)|(u1 & u2 & x & -> & C & B & L & NH & ->)]) H; exists (bs ++ s).
  - left. split; [apply H; exact C|rewrite app_assoc; reflexivity].
  - right. exists (t ++ u1), u2, x. split; [rewrite <- app_assoc; reflexivity|]. split; [apply H; exact C|].
    split; [exact B|]. split; [exact L|]. split; [exact NH|]. rewrite <- !app_assoc. reflexivity.
Qed.

Lemma loop_sound f : forall cap u t out o, raw u -> body u ->
  str_loop f cap (u ++ QUOTE :: t) (zlen u) out = Ok (Some o) -> read_as out u o.
Proof.
  induction f as [|f IH]; intros cap u t out o R B; cbn [str_loop].
  { destruct (zlen u <=? 0) eqn:Z0; [|discriminate]. intros [= <-].
    assert (u = []) as -> by (apply zlen_0_nil; pose proof (zlen_nonneg u); lia).
    exists []. left. split; [constructor|rewrite app_nil_r; reflexivity]. }
  destruct (zlen u <=? 0) eqn:Z0.
  { intros [= <-]. assert (u = []) as -> by (apply zlen_0_nil; pose proof (zlen_nonneg u); lia).
    exists []. left. split; [constructor|rewrite app_nil_r; reflexivity]. }
  inversion B as [|b v NQ NB B' Eu|c v B' Eu]; subst u.
  - discriminate Z0.
  - cbn [app]. rewrite zget_0. cbn [of_opt bind].
    replace (negb (b =? BSLASH)) with true by (unfold BSLASH; lia).
    intros E. apply bind_ok in E as (out' & E1 & E2). apply emit_ok in E1. subst out'.
    rewrite zdrop_1 in E2. replace (zlen (b :: v) - 1) with (zlen v) in E2 by (rewrite zlen_cons; lia).
    inversion R as [|? ? Rb Rv]; subst.
    apply IH in E2; [|exact Rv|exact B'].
    apply (read_more out [b] v [b] o E2). intros s u1 C. cbn [app]. apply lc_raw; assumption.
  - cbn [app]. rewrite zget_0. cbn [of_opt bind]. change (negb (92 =? BSLASH)) with false. cbv iota.
    change (zget (92 :: c :: v ++ QUOTE :: t) 1) with (Some c). cbn [of_opt bind].
    inversion R as [|? ? _ R1]; subst. inversion R1 as [|? ? _ Rv]; subst.
    destruct (simple_escape c) as [e|] eqn:SE.
    + intros E. apply bind_ok in E as (out' & E1 & E2). apply emit_ok in E1. subst out'.
      change (zdrop 2 (92 :: c :: v ++ QUOTE :: t)) with (v ++ QUOTE :: t) in E2.
      replace (zlen (92 :: c :: v) - 2) with (zlen v) in E2 by (rewrite !zlen_cons; lia).
      apply IH in E2; [|exact Rv|exact B'].
      apply (read_more out [e] v [92; c] o E2). intros s u1 C. cbn [app].
      apply lc_esc; [apply simple_escape_in; exact SE|exact C].
    + destruct (c =? 117) eqn:C; [|discriminate]. assert (c = 117) as -> by lia.
      intros E. apply bind_ok in E as (w & E1 & E2). destruct w as [(bs, n)|]; [|discriminate].
      replace (zlen (92 :: 117 :: v)) with (2 + zlen v) in * by (rewrite !zlen_cons; lia).
      apply bind_ok in E2 as (out' & E3 & E2). apply emit_ok in E3. subst out'.
      apply utf16_sound in E1 as [(h & c & v' & -> & HX & NS & -> & ->)|[(h & c & h' & c' & v' & -> & HX & S1 & HX' & S2 & -> & ->)|(L & NH & ->)]].
      * destruct (hex4_spec _ _ HX) as (_ & LH & _ & _).
        rewrite <- app_assoc in E2.
        assert (zdrop 6 (92 :: 117 :: h ++ v' ++ QUOTE :: t) = v' ++ QUOTE :: t) as Z6.
        { rewrite !zdrop_cons by lia. replace (6 - 1 - 1) with (zlen h) by lia. apply zdrop_app_eq. }
        rewrite Z6 in E2. replace (2 + zlen (h ++ v') - 6) with (zlen v') in E2 by (rewrite zlen_app; lia).
        apply raw_app in Rv as (_ & Rv). apply (body_hex h c v' HX) in B'.
        apply IH in E2; [|exact Rv|exact B'].
        replace (92 :: 117 :: h ++ v') with ((92 :: 117 :: h) ++ v') by reflexivity.
        apply (read_more out _ v' _ o E2). intros s u1 Q. cbn [app]. apply lc_u; assumption.
      * destruct (hex4_spec _ _ HX) as (_ & LH & _ & _). destruct (hex4_spec _ _ HX') as (_ & LH' & _ & _).
        replace (92 :: 117 :: h ++ 92 :: 117 :: h' ++ v') with ((92 :: 117 :: h ++ 92 :: 117 :: h') ++ v') in *.
        2:{ cbn [app]. rewrite <- app_assoc. reflexivity. }
        assert (zdrop 12 (92 :: 117 :: (h ++ 92 :: 117 :: h' ++ v') ++ QUOTE :: t) = v' ++ QUOTE :: t) as Z6.
        { replace (92 :: 117 :: (h ++ 92 :: 117 :: h' ++ v') ++ QUOTE :: t)
            with ((92 :: 117 :: h ++ 92 :: 117 :: h') ++ v' ++ QUOTE :: t).
          - replace 12 with (zlen (92 :: 117 :: h ++ 92 :: 117 :: h')).
            + apply zdrop_app_eq.
            + rewrite !zlen_cons, zlen_app, !zlen_cons. lia.
          - cbn [app]. rewrite <- !app_assoc. cbn [app]. rewrite <- app_assoc. reflexivity. }
        rewrite Z6 in E2.
        replace (2 + zlen (h ++ 92 :: 117 :: h' ++ v') - 12) with (zlen v') in E2.
        2:{ rewrite zlen_app, !zlen_cons, zlen_app. lia. }
        apply raw_app in Rv as (_ & Rv). inversion Rv as [|? ? _ Rv1]; subst. inversion Rv1 as [|? ? _ Rv2]; subst.
        apply raw_app in Rv2 as (_ & Rv2).
        apply (body_hex h c _ HX) in B'. inversion B' as [|? ? _ N92 _|? ? B2]; subst; [congruence|].
        apply (body_hex h' c' v' HX') in B2.
        apply IH in E2; [|exact Rv2|exact B2].
        apply (read_more out _ v' _ o E2). intros s u1 Q. cbn [app]. rewrite <- app_assoc. cbn [app]. apply lc_pair; assumption.
      * apply loop_grows in E2 as (x & ->). exists []. right. exists [], v, x.
        split; [reflexivity|]. split; [constructor|]. split; [exact B'|]. split; [exact L|]. split; [exact NH|].
        rewrite <- app_assoc. reflexivity.
Qed.

Lemma scan_body f r : (length r <= f)%nat -> forall n s n' s', str_scan r n s = Some (n', s') ->
  exists u t, r = u ++ QUOTE :: t /\ n' = n + zlen u /\ body u.
Proof.
  revert r. induction f as [|f IH]; intros r L n s n' s' H.
  { destruct r; [discriminate|simpl in L; lia]. }
  destruct r as [|b r]; [discriminate|]. cbn [str_scan] in H. simpl in L.
  destruct (b =? QUOTE) eqn:E.
  { apply Z.eqb_eq in E. subst b. injection H as <- <-. exists [], r. split; [reflexivity|].
    rewrite zlen_nil. split; [lia|constructor]. }
  destruct (b =? BSLASH) eqn:E2.
  - destruct r as [|c r]; [discriminate|]. simpl in L.
    destruct (IH r ltac:(lia) _ _ _ _ H) as (u & t & -> & -> & B).
    apply Z.eqb_eq in E2. subst b. exists (BSLASH :: c :: u), t. split; [reflexivity|].
    rewrite !zlen_cons. split; [lia|]. apply bo_esc. exact B.
  - destruct (IH r ltac:(lia) _ _ _ _ H) as (u & t & -> & -> & B).
    exists (b :: u), t. split; [reflexivity|].
    rewrite zlen_cons. split; [lia|]. apply bo_raw; [unfold QUOTE in E; lia|unfold BSLASH in E2; lia|exact B].
Qed.

Lemma cut_has_cstr s : cstr s (cut s).
Proof.
  induction s as [|b s IH]; [apply cstr_all; intros []|]. cbn [cut].
  destruct (b =? 0) eqn:E.
  - assert (b = 0) as -> by lia. apply (cstr_nul [] s). intros [].
  - assert (b <> 0) as N by lia.
    destruct IH as [s NI|s t NI].
    + apply cstr_all. intros [Q|Q]; [congruence|exact (NI Q)].
    + apply (cstr_nul (b :: s) t). intros [Q|Q]; [congruence|exact (NI Q)].
Qed.
Lemma cut_stop s x : cut (s ++ 0 :: x) = cut s.
Proof. induction s as [|b s IH]; [reflexivity|]. cbn [app cut]. destruct (b =? 0); [reflexivity|]. f_equal. exact IH. Qed.

Lemma parse_string_sound a s r : raw a -> parse_string (a ++ [0]) = Ok (Some (s, r)) ->
  exists t q, a = [34] ++ t ++ [34] ++ q /\ r = q ++ [0] /\ lstring s t.
Proof.
  intros R. destruct a as [|c a]; [discriminate|]. inversion R as [|? ? _ Ra]; subst.
  unfold parse_string. cbn [app]. rewrite zget_0. cbn [of_opt bind].
  destruct (negb (c =? QUOTE)) eqn:C; [discriminate|]. assert (c = 34) as -> by (unfold QUOTE in C; lia).
  rewrite zdrop_1.
  destruct (str_scan (a ++ [0]) 0 0) as [(n, k)|] eqn:SC; [|discriminate].
  pose proof SC as SC'.
  apply (scan_body (length (a ++ [0])) _ (le_n _)) in SC' as (u & t & E & En & B).
  apply app_quote_split in E as (q & -> & ->).
  rewrite Z.add_0_l in En. subst n.
  apply raw_app in Ra as (Ru & Rq).
  rewrite <- app_assoc. cbn [app].
  intros E. apply bind_ok in E as (o & E1 & E2). destruct o as [out|]; [|discriminate].
  apply bind_ok in E2 as (out' & E3 & E2). apply emit_ok in E3. subst out'.
  apply loop_sound in E1; [|exact Ru|exact B].
  injection E2 as <- <-.
  exists u, q. split; [reflexivity|]. split.
  { replace (u ++ QUOTE :: q ++ [0]) with ((u ++ [QUOTE]) ++ q ++ [0]) by (rewrite <- app_assoc; reflexivity).
    replace (zlen u + 1) with (zlen (u ++ [QUOTE])) by (rewrite zlen_app, zlen_cons, zlen_nil; lia).
    apply zdrop_app_eq. }
  rewrite cut_stop. destruct E1 as (s & [(LC & ->)|(u1 & u2 & x & -> & LC & B2 & L & NH & ->)]); cbn [app].
  - apply ls_good with s; [exact LC|apply cut_has_cstr].
  - rewrite cut_stop. apply ls_bad with s; try assumption. apply cut_has_cstr.
Qed.

(** ** Numbers *)
Lemma span_digits_digits l : digits (fst (span_digits l)).
Proof.
  induction l as [|b l IH]; [constructor|]. cbn [span_digits]. destruct (digit b) eqn:D; [|constructor].
  cbn [fst]. constructor; [apply digit_spec; exact D|exact IH].
Qed.
Lemma strtod_sound c0 s v n : strtod (c0 :: s) = Some (v, n) -> c0 <> 43 ->
  exists t x, c0 :: s = t ++ x /\ n = zlen t /\ lnumber t v.
Proof.
  unfold strtod. intros H NP.
  destruct (span_sign (c0 :: s)) as [neg s1] eqn:ES.
  assert (exists sg, c0 :: s = sg ++ s1 /\ ((neg = true /\ sg = [45]) \/ (neg = false /\ sg = []))) as (sg & E0 & SG).
  { cbn [span_sign] in ES. destruct (c0 =? 45) eqn:A; [|destruct (c0 =? 43) eqn:B; [lia|]]; injection ES as <- <-.
    - exists [45]. split; [cbn [app]; f_equal; lia|left; split; reflexivity].
    - exists []. split; [reflexivity|right; split; reflexivity]. }
  rewrite E0 in *. clear ES E0 c0 s NP.
  pose proof (span_digits_app s1) as A1. pose proof (span_digits_digits s1) as D1.
  destruct (span_digits s1) as [ip s2]. cbn [fst snd] in A1, D1. subst s1.
  destruct (match s2 with [] => ([], s2) | b :: t => _ end) as [fp s3] eqn:EF.
  destruct (zlen ip + zlen fp =? 0) eqn:Z0; [discriminate|].
  assert (exists f, s2 = f ++ s3 /\ lfrac f fp) as (f & -> & LF).
  { destruct s2 as [|b t]; [injection EF as <- <-; exists []; split; [reflexivity|constructor]|].
    pose proof (span_digits_app t) as A2. pose proof (span_digits_digits t) as D2.
    destruct (b =? 46) eqn:B; [|injection EF as <- <-; exists []; split; [reflexivity|constructor]].
    assert (b = 46) as -> by lia.
    destruct ((zlen ip =? 0) && (zlen (fst (span_digits t)) =? 0)).
    - injection EF as <- <-. exists []. split; [reflexivity|constructor].
    - rewrite EF in A2, D2. cbn [fst snd] in A2, D2. subst t. exists (46 :: fp). split; [reflexivity|constructor; exact D2]. }
  clear EF.
  destruct (match s3 with [] => (0, s3) | b :: t => _ end) as [ex s4] eqn:EX.
  assert (exists e, s3 = e ++ s4 /\ expo e ex) as (e & -> & XE).
  { destruct s3 as [|b t]; [injection EX as <- <-; exists []; split; [reflexivity|constructor]|].
    destruct ((b =? 101) || (b =? 69)) eqn:B; [|injection EX as <- <-; exists []; split; [reflexivity|constructor]].
    destruct (span_sign t) as [eneg t1] eqn:ES.
    pose proof (span_digits_app t1) as A2. pose proof (span_digits_digits t1) as D2.
    destruct (span_digits t1) as [ds t2]. cbn [fst snd] in A2, D2. subst t1.
    destruct (zlen ds =? 0) eqn:Z1; [injection EX as <- <-; exists []; split; [reflexivity|constructor]|].
    injection EX as <- <-. rewrite dec_spec.
    assert (ds <> []) as NE by (intros ->; discriminate Z1).
    assert (b = 101 \/ b = 69) as Hb by lia.
    destruct t as [|c t]; cbn [span_sign] in ES.
    { injection ES as <- E. destruct ds; [congruence|discriminate E]. }
    destruct (c =? 45) eqn:C1; [|destruct (c =? 43) eqn:C2]; injection ES as <- E.
    - assert (c = 45) as -> by lia. subst t. exists (b :: 45 :: ds). split; [reflexivity|]. apply ex_neg; assumption.
    - assert (c = 43) as -> by lia. subst t. exists (b :: [43] ++ ds). split; [reflexivity|]. apply ex_pos; try assumption. right. reflexivity.
    - exists (b :: [] ++ ds). split; [cbn [app]; f_equal; exact E|]. apply ex_pos; try assumption. left. reflexivity. }
  clear EX. cbv zeta in H. injection H as <- <-.
  assert (trunc_of (decval (ip ++ fp)) (ex - zlen fp)
    (trunc_double (dec (ip ++ fp)) (ex - zlen fp) (zlen (drop_zeros (ip ++ fp))))) as T.
  { rewrite dec_spec. apply trunc_double_spec. apply drop_zeros_spec.
    apply Forall_app. split; [exact D1|]. destruct LF; [constructor|assumption]. }
  assert (ip ++ fp <> []) as NE.
  { intros Q. apply app_eq_nil in Q as (-> & ->). discriminate Z0. }
  exists (sg ++ ip ++ f ++ e), s4.
  split; [rewrite <- !app_assoc; reflexivity|].
  split; [rewrite !zlen_app; lia|].
  destruct SG as [(-> & ->)|(-> & ->)].
  - apply (ln_neg ip f fp e ex); assumption.
  - apply (ln_pos ip f fp e ex); assumption.
Qed.

Lemma num_copy_short k : forall r, zlen (num_copy k r) <= Z.of_nat k.
Proof.
  induction k as [|k IH]; intros r; [destruct r; cbn [num_copy]; change (zlen (@nil Z)) with 0; lia|].
  destruct r as [|b r]; cbn [num_copy]; [rewrite zlen_nil; lia|].
  destruct (num_char b); [rewrite zlen_cons; specialize (IH r); lia|rewrite zlen_nil; lia].
Qed.
Lemma parse_number_sound b a v r : b <> 43 -> parse_number ((b :: a) ++ [0]) = Some (v, r) ->
  exists t q, b :: a = t ++ q /\ r = q ++ [0] /\ lnumber t v /\ zlen t <= 63.
Proof.
  intros NB. unfold parse_number. destruct (num_copy_ext (b :: a) [] 63) as (E1 & _). rewrite E1.
  destruct (strtod (num_copy 63 (b :: a))) as [(w, n)|] eqn:ST; [|discriminate].
  intros [= -> <-].
  destruct (num_copy_app 63 (b :: a)) as (z & Ea & _).
  pose proof (num_copy_short 63 (b :: a)) as SH.
  destruct (num_copy 63 (b :: a)) as [|c0 s] eqn:EN; [discriminate ST|].
  assert (c0 = b) as -> by (injection Ea as Ea _; congruence).
  destruct (strtod_sound b s v n ST NB) as (t & x & E & -> & LN).
  exists t, (x ++ z).
  assert (b :: a = t ++ x ++ z) as Et by (rewrite Ea, E, <- app_assoc; reflexivity).
  split; [exact Et|].
  split; [change (b :: a ++ [0]) with ((b :: a) ++ [0]); rewrite Et, <- app_assoc; apply zdrop_app_eq|]. split; [exact LN|].
  rewrite E, zlen_app in SH. pose proof (zlen_nonneg x). change (Z.of_nat 63) with 63 in SH. lia.
Qed.

(** ** Values *)
Lemma lws_app a b : lws a -> lws b -> lws (a ++ b).
Proof. intros A B. apply Forall_app. split; assumption. Qed.
Lemma ldocs_ws n l u w : lws w -> ldocs n l u -> ldocs n l (w ++ u).
Proof.
  intros W H. inversion H; subst; rewrite app_assoc; constructor; try assumption; apply lws_app; assumption.
Qed.
Lemma lmems_ws n l u w : lws w -> lmems n l u -> lmems n l (w ++ u).
Proof.
  intros W H. inversion H; subst; rewrite app_assoc; constructor; try assumption; apply lws_app; assumption.
Qed.
Lemma lit_sound p a k : nz p -> starts p (a ++ [0]) = true -> zlen p = k -> exists q, a = p ++ q /\ zdrop k (a ++ [0]) = q ++ [0].
Proof.
  intros N E <-. destruct (lit_ext p a N E) as (q & ->). exists q. split; [reflexivity|].
  rewrite <- app_assoc. apply zdrop_app_eq.
Qed.

Lemma accepted f :
  (forall d a j r, raw a -> parse_value f d (a ++ [0]) = Ok (Some (j, r)) ->
     exists t q, a = t ++ q /\ r = q ++ [0] /\ ldoc (1000 - d) j t) /\
  (forall d a l r, raw a -> elems f d (a ++ [0]) = Ok (Some (l, r)) ->
     exists t q, a = t ++ [93] ++ q /\ r = q ++ [0] /\ ldocs (1000 - d) l t) /\
  (forall d a l r, raw a -> members f d (a ++ [0]) = Ok (Some (l, r)) ->
     exists t q, a = t ++ [125] ++ q /\ r = q ++ [0] /\ lmems (1000 - d) l t).
Proof.
  induction f as [|f (IV & IE & IM)]; [split; [|split]; intros; discriminate|].
  split; [|split].
  - intros d a j r R. cbn [parse_value].
    destruct (starts (str "null") (a ++ [0])) eqn:E1.
    { destruct (lit_sound (str "null") a 4 ltac:(repeat constructor; discriminate) E1 eq_refl) as (q & -> & ->). intros [= <- <-].
      exists (str "null"), q. split; [reflexivity|]. split; [reflexivity|constructor]. }
    destruct (starts (str "false") (a ++ [0])) eqn:E2.
    { destruct (lit_sound (str "false") a 5 ltac:(repeat constructor; discriminate) E2 eq_refl) as (q & -> & ->). intros [= <- <-].
      exists (str "false"), q. split; [reflexivity|]. split; [reflexivity|constructor]. }
    destruct (starts (str "true") (a ++ [0])) eqn:E3.
    { destruct (lit_sound (str "true") a 4 ltac:(repeat constructor; discriminate) E3 eq_refl) as (q & -> & ->). intros [= <- <-].
      exists (str "true"), q. split; [reflexivity|]. split; [reflexivity|constructor]. }
    clear E1 E2 E3.
    destruct a as [|b a]; [discriminate|]. cbn [app].
    destruct (b =? QUOTE) eqn:Q.
    { intros H. apply bind_ok in H as (o & E & H). destruct o as [(s, r')|]; [|discriminate]. injection H as <- <-.
      apply (parse_string_sound (b :: a) s r' R) in E as (t & q & E & -> & LS).
      exists ([34] ++ t ++ [34]), q. split; [rewrite E; cbn [app]; rewrite <- app_assoc; reflexivity|].
      split; [reflexivity|constructor; exact LS]. }
    destruct ((b =? 45) || digit b) eqn:NU.
    { destruct (parse_number (b :: a ++ [0])) as [(v, r')|] eqn:PN; [|discriminate]. intros [= <- <-].
      apply (parse_number_sound b a v r') in PN as (t & q & E & -> & LN & L63); [|unfold digit in NU; lia].
      exists t, q. split; [exact E|]. split; [reflexivity|constructor; assumption]. }
    inversion R as [|? ? _ Ra]; subst.
    destruct (b =? LBRACK) eqn:BA.
    { assert (b = 91) as -> by (unfold LBRACK in BA; lia).
      destruct (NESTING <=? d) eqn:ND; [discriminate|].
      assert (0 < 1000 - d) as DP by (unfold NESTING in ND; lia).
      destruct (skip_sound a Ra) as [E|(w & c & q & -> & W & C & E)]; rewrite E.
      - change (0 =? RBRACK) with false. cbv iota.
        intros H. exfalso. apply bind_ok in H as (o & E1 & H). destruct o as [(l, r')|]; [|discriminate].
        destruct f as [|f']; [discriminate E1|]. cbn [elems] in E1. change (skip [0]) with [0] in E1.
        destruct f' as [|f'']; [discriminate E1|]. rewrite pv_zero in E1. discriminate E1.
      - destruct (c =? RBRACK) eqn:CB.
        + assert (c = 93) as -> by (unfold RBRACK in CB; lia). intros [= <- <-].
          exists ([91] ++ w ++ [93]), q. split; [cbn [app]; rewrite <- app_assoc; reflexivity|].
          split; [reflexivity|constructor; assumption].
        + intros H. apply bind_ok in H as (o & E1 & H). destruct o as [(l, r')|]; [|discriminate]. injection H as <- <-.
          apply raw_app in Ra as (_ & Ra).
          apply (IE (d + 1) (c :: q) l r' Ra) in E1 as (t & q' & E1 & -> & LD).
          exists ([91] ++ (w ++ t) ++ [93]), q'. split; [rewrite E1; cbn [app]; rewrite <- !app_assoc; reflexivity|].
          split; [reflexivity|]. constructor; [exact DP|]. apply ldocs_ws; [exact W|].
          replace (1000 - d - 1) with (1000 - (d + 1)) by lia. exact LD. }
    destruct (b =? LBRACE) eqn:BO; [|discriminate].
    assert (b = 123) as -> by (unfold LBRACE in BO; lia).
    destruct (NESTING <=? d) eqn:ND; [discriminate|].
    assert (0 < 1000 - d) as DP by (unfold NESTING in ND; lia).
    destruct (skip_sound a Ra) as [E|(w & c & q & -> & W & C & E)]; rewrite E.
    + change (0 =? RBRACE) with false. cbv iota.
      intros H. exfalso. apply bind_ok in H as (o & E1 & H). destruct o as [(l, r')|]; [|discriminate].
      destruct f as [|f']; [discriminate E1|]. cbn [members] in E1. change (skip [0]) with [0] in E1.
      discriminate E1.
    + destruct (c =? RBRACE) eqn:CB.
      * assert (c = 125) as -> by (unfold RBRACE in CB; lia). intros [= <- <-].
        exists ([123] ++ w ++ [125]), q. split; [cbn [app]; rewrite <- app_assoc; reflexivity|].
        split; [reflexivity|constructor; assumption].
      * intros H. apply bind_ok in H as (o & E1 & H). destruct o as [(l, r')|]; [|discriminate]. injection H as <- <-.
        apply raw_app in Ra as (_ & Ra).
        apply (IM (d + 1) (c :: q) l r' Ra) in E1 as (t & q' & E1 & -> & LD).
        exists ([123] ++ (w ++ t) ++ [125]), q'. split; [rewrite E1; cbn [app]; rewrite <- !app_assoc; reflexivity|].
        split; [reflexivity|]. constructor; [exact DP|]. apply lmems_ws; [exact W|].
        replace (1000 - d - 1) with (1000 - (d + 1)) by lia. exact LD.
  - intros d a l r R. cbn [elems]. intros H. apply bind_ok in H as (o & E1 & H).
    destruct o as [(j, r1)|]; [|discriminate].
    destruct (skip_sound a R) as [E|(w & c & q & -> & W & C & E)]; rewrite E in E1.
    { destruct f as [|f']; [discriminate E1|]. rewrite pv_zero in E1. discriminate E1. }
    apply raw_app in R as (_ & R).
    apply (IV d (c :: q) j r1 R) in E1 as (t & q1 & E1 & -> & LD).
    assert (raw q1) as R1 by (rewrite E1 in R; apply raw_app in R as (_ & R); exact R).
    destruct (skip_sound q1 R1) as [E2|(w' & c' & q' & -> & W' & C' & E2)]; rewrite E2 in H; [discriminate H|].
    apply raw_app in R1 as (_ & R1). inversion R1 as [|? ? _ R2]; subst.
    destruct (c' =? COMMA) eqn:CC.
    + assert (c' = 44) as -> by (unfold COMMA in CC; lia).
      apply bind_ok in H as (o & E3 & H). destruct o as [(l1, r2)|]; [|discriminate]. injection H as <- <-.
      apply (IE d q' l1 r2 R2) in E3 as (t2 & q2 & -> & -> & LD2).
      exists (w ++ t ++ w' ++ [44] ++ t2), q2.
      split; [rewrite E1; repeat (rewrite <- ?app_assoc; cbn [app]); reflexivity|].
      split; [reflexivity|constructor; assumption].
    + destruct (c' =? RBRACK) eqn:CB; [|discriminate]. assert (c' = 93) as -> by (unfold RBRACK in CB; lia).
      injection H as <- <-. exists (w ++ t ++ w'), q'.
      split; [rewrite E1; cbn [app]; rewrite <- !app_assoc; reflexivity|].
      split; [reflexivity|constructor; assumption].
  - intros d a l r R. cbn [members]. intros H. apply bind_ok in H as (o & E1 & H).
    destruct o as [(k, r1)|]; [|discriminate].
    destruct (skip_sound a R) as [E|(w & c & q & -> & W & C & E)]; rewrite E in E1; [discriminate E1|].
    apply raw_app in R as (_ & R).
    apply (parse_string_sound (c :: q) k r1 R) in E1 as (kt & q1 & E1 & -> & LS).
    assert (raw q1) as R1.
    { rewrite E1 in R. apply raw_app in R as (_ & R). apply raw_app in R as (_ & R). apply raw_app in R as (_ & R). exact R. }
    destruct (skip_sound q1 R1) as [E2|(w2 & c2 & q2 & -> & W2 & C2 & E2)]; rewrite E2 in H; [discriminate H|].
    apply raw_app in R1 as (_ & R1). inversion R1 as [|? ? _ R2]; subst.
    destruct (negb (c2 =? COLON)) eqn:CC; [discriminate|]. assert (c2 = 58) as -> by (unfold COLON in CC; lia).
    apply bind_ok in H as (o & E3 & H). destruct o as [(j, r2)|]; [|discriminate].
    destruct (skip_sound q2 R2) as [E4|(w3 & c3 & q3 & -> & W3 & C3 & E4)]; rewrite E4 in E3.
    { destruct f as [|f']; [discriminate E3|]. rewrite pv_zero in E3. discriminate E3. }
    apply raw_app in R2 as (_ & R2).
    apply (IV d (c3 :: q3) j r2 R2) in E3 as (t & q4 & E3 & -> & LD).
    assert (raw q4) as R4 by (rewrite E3 in R2; apply raw_app in R2 as (_ & R2); exact R2).
    destruct (skip_sound q4 R4) as [E5|(w4 & c4 & q5 & -> & W4 & C4 & E5)]; rewrite E5 in H; [discriminate H|].
    apply raw_app in R4 as (_ & R4). inversion R4 as [|? ? _ R5]; subst.
    destruct (c4 =? COMMA) eqn:C44.
    + assert (c4 = 44) as -> by (unfold COMMA in C44; lia).
      apply bind_ok in H as (o & E6 & H). destruct o as [(l1, r3)|]; [|discriminate]. injection H as <- <-.
      apply (IM d q5 l1 r3 R5) in E6 as (t2 & q6 & -> & -> & LD2).
      exists (w ++ [34] ++ kt ++ [34] ++ w2 ++ [58] ++ w3 ++ t ++ w4 ++ [44] ++ t2), q6.
      split; [rewrite E1, E3; repeat (rewrite <- ?app_assoc; cbn [app]); reflexivity|].
      split; [reflexivity|constructor; assumption].
    + destruct (c4 =? RBRACE) eqn:CB; [|discriminate]. assert (c4 = 125) as -> by (unfold RBRACE in CB; lia).
      injection H as <- <-. exists (w ++ [34] ++ kt ++ [34] ++ w2 ++ [58] ++ w3 ++ t ++ w4), q5.
      split; [rewrite E1, E3; repeat (rewrite <- ?app_assoc; cbn [app]); reflexivity|].
      split; [reflexivity|constructor; assumption].
Qed.
