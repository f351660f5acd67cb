(** * Proofs about the JSON parser: what it reads does not depend on what follows, and texts
    that were cut off. *)
From Coq Require Import String.
From Verif Require Import Base Str_Spec Conf_Model Json_Model Json_Spec Json_Proofs Json_Doc_Proofs.
Open Scope Z_scope.
Local Arguments Z.add : simpl never.
Local Arguments Z.sub : simpl never.
Local Arguments Z.mul : simpl never.
Local Arguments Z.pow : simpl never.
Local Arguments str : simpl never.

(** ** Strings *)
Lemma hex4_ext h x y : 4 <= zlen h -> parse_hex4 (h ++ x) = parse_hex4 (h ++ y).
Proof.
  intros L. destruct h as [|a [|b [|c [|d t]]]]; try (exfalso; revert L; rewrite ?zlen_cons, zlen_nil; lia).
  unfold parse_hex4. cbn [app hex_loop].
  destruct (hex a); [|reflexivity]. destruct (hex b); [|reflexivity]. destruct (hex c); [|reflexivity].
  destruct (hex d); reflexivity.
Qed.
Lemma zget_app (u x y : list Z) n : 0 <= n < zlen u -> zget (u ++ x) n = zget (u ++ y) n.
Proof.
  intros H. unfold zget. destruct (n <? 0); [reflexivity|]. unfold zlen in H.
  rewrite !nth_error_app1 by lia. reflexivity.
Qed.
Lemma utf16_ext u x y : utf16 (u ++ x) (zlen u) = utf16 (u ++ y) (zlen u).
Proof.
  unfold utf16. destruct (zlen u <? 6) eqn:K; [reflexivity|].
  rewrite !(zdrop_app_l 2) by lia.
  rewrite (hex4_ext (zdrop 2 u) x y) by (rewrite zlen_zdrop; lia).
  destruct (parse_hex4 (zdrop 2 u ++ y)) as [c1| |]; [|reflexivity|reflexivity]. cbn [bind].
  destruct ((56320 <=? c1) && (c1 <=? 57343)); [reflexivity|].
  destruct ((55296 <=? c1) && (c1 <=? 56319)); [|reflexivity].
  destruct (zlen u - 6 <? 6) eqn:K2; [reflexivity|].
  rewrite !(zdrop_app_l 6) by lia.
  assert (zlen (zdrop 6 u) = zlen u - 6) as L by (rewrite zlen_zdrop; lia).
  rewrite (zget_app (zdrop 6 u) x y 0) by lia. rewrite (zget_app (zdrop 6 u) x y 1) by lia.
  destruct (zget (zdrop 6 u ++ y) 0) as [a|]; [|reflexivity]. cbn [of_opt bind].
  destruct (negb (a =? BSLASH)); [reflexivity|].
  destruct (zget (zdrop 6 u ++ y) 1) as [b|]; [|reflexivity]. cbn [of_opt bind].
  destruct (negb (b =? 117)); [reflexivity|].
  rewrite !(zdrop_app_l 2) by lia.
  rewrite (hex4_ext (zdrop 2 (zdrop 6 u)) x y) by (rewrite zlen_zdrop; lia). reflexivity.
Qed.

Lemma str_loop_end f cap r k out : k <= 0 -> str_loop f cap r k out = Ok (Some out).
Proof. intros H. destruct f; cbn [str_loop]; replace (k <=? 0) with true by lia; reflexivity. Qed.
Lemma str_loop_ext f1 : forall f2 cap u x y out, zlen u <= Z.of_nat f1 -> zlen u <= Z.of_nat f2 ->
  str_loop f1 cap (u ++ QUOTE :: x) (zlen u) out = str_loop f2 cap (u ++ QUOTE :: y) (zlen u) out.
Proof.
  induction f1 as [|f1 IH]; intros f2 cap u x y out L1 L2.
  { rewrite !str_loop_end by lia. reflexivity. }
  destruct u as [|b u]; [rewrite !str_loop_end by (rewrite zlen_nil; lia); reflexivity|].
  rewrite zlen_cons in L1, L2. pose proof (zlen_nonneg u) as U.
  destruct f2 as [|f2]; [lia|]. cbn [str_loop].
  replace (zlen (b :: u) <=? 0) with false by (rewrite zlen_cons; lia).
  cbn [app]. rewrite !zget_0. cbn [of_opt bind]. destruct (negb (b =? BSLASH)) eqn:B.
  - rewrite !zdrop_1. destruct (emit cap out [b]) as [out'| |]; [|reflexivity|reflexivity]. cbn [bind].
    replace (zlen (b :: u) - 1) with (zlen u) by (rewrite zlen_cons; lia). apply IH; lia.
  - destruct u as [|c u].
    + change (zget (b :: [] ++ QUOTE :: x) 1) with (Some QUOTE). change (zget (b :: [] ++ QUOTE :: y) 1) with (Some QUOTE).
      cbn [of_opt bind]. change (simple_escape QUOTE) with (Some QUOTE). cbv iota.
      destruct (emit cap out [QUOTE]) as [out'| |]; [|reflexivity|reflexivity]. cbn [bind].
      rewrite !str_loop_end by (rewrite zlen_cons, zlen_nil; lia). reflexivity.
    + rewrite zlen_cons in L1, L2, U. pose proof (zlen_nonneg u) as U'.
      change (zget (b :: (c :: u) ++ QUOTE :: x) 1) with (Some c). change (zget (b :: (c :: u) ++ QUOTE :: y) 1) with (Some c).
      cbn [of_opt bind]. destruct (simple_escape c) as [e|].
      * destruct (emit cap out [e]) as [out'| |]; [|reflexivity|reflexivity]. cbn [bind].
        change (zdrop 2 (b :: (c :: u) ++ QUOTE :: x)) with (u ++ QUOTE :: x).
        change (zdrop 2 (b :: (c :: u) ++ QUOTE :: y)) with (u ++ QUOTE :: y).
        replace (zlen (b :: c :: u) - 2) with (zlen u) by (rewrite !zlen_cons; lia). apply IH; lia.
      * destruct (c =? 117) eqn:C; [|reflexivity].
        assert (b = BSLASH) as -> by lia. assert (c = 117) as -> by lia.
        destruct (utf16_safe (BSLASH :: 117 :: u) y) as (o & E & P); [eexists; reflexivity|].
        pose proof (utf16_ext (BSLASH :: 117 :: u) (QUOTE :: x) (QUOTE :: y)) as EX.
        rewrite E in EX.
        change (BSLASH :: (117 :: u) ++ QUOTE :: x) with ((BSLASH :: 117 :: u) ++ QUOTE :: x).
        change (BSLASH :: (117 :: u) ++ QUOTE :: y) with ((BSLASH :: 117 :: u) ++ QUOTE :: y).
        rewrite EX, E. cbn [bind]. destruct o as [(bs, n)|]; [|reflexivity].
        destruct (P bs n eq_refl) as (N & _).
        destruct (emit cap out bs) as [out'| |]; [|reflexivity|reflexivity]. cbn [bind].
        rewrite !zdrop_app_l by lia. 
        assert (zlen (BSLASH :: 117 :: u) = 2 + zlen u) as LL by (rewrite !zlen_cons; lia).
        replace (zlen (BSLASH :: 117 :: u) - n) with (zlen (zdrop n (BSLASH :: 117 :: u))) by (rewrite zlen_zdrop; lia).
        apply IH; rewrite zlen_zdrop; lia.
Qed.

Lemma scan_app u : forall n k t x n' k', str_scan (u ++ QUOTE :: t) n k = Some (n', k') -> n' = n + zlen u ->
  str_scan (u ++ QUOTE :: x) n k = Some (n', k').
Proof.
  assert (forall m u, (length u <= m)%nat -> forall n k t x n' k',
    str_scan (u ++ QUOTE :: t) n k = Some (n', k') -> n' = n + zlen u ->
    str_scan (u ++ QUOTE :: x) n k = Some (n', k')) as A.
  { clear u. induction m as [|m IH]; intros u L n k t x n' k' H E.
    - destruct u; [|simpl in L; lia]. cbn [app str_scan] in *. exact H.
    - destruct u as [|b u]; [cbn [app str_scan] in *; exact H|]. cbn [app str_scan] in *. simpl in L.
      rewrite zlen_cons in E. pose proof (zlen_nonneg u).
      destruct (b =? QUOTE); [injection H as <- _; lia|].
      destruct (b =? BSLASH).
      + destruct u as [|c u].
        * exfalso. cbn [app] in H. apply (str_scan_spec (length t) t (le_n _)) in H as (v & t' & _ & -> & _).
          rewrite zlen_nil in E. pose proof (zlen_nonneg v). lia.
        * cbn [app] in *. rewrite zlen_cons in E. simpl in L. apply IH with t; [lia|exact H|lia].
      + apply IH with t; [lia|exact H|lia]. }
  intros n k t x n' k' H E. apply (A (length u) u (le_n _) n k t x n' k' H E).
Qed.

(** [a] without its part [s] was read; the same is read whatever comes behind [a] *)
Lemma app_quote_split a u t : a ++ [0] = u ++ QUOTE :: t -> exists s, a = u ++ QUOTE :: s /\ t = s ++ [0].
Proof.
  revert u. induction a as [|b a IH]; intros u E.
  - destruct u as [|c u]; [discriminate E|]. injection E as _ E. destruct u; discriminate E.
  - destruct u as [|c u].
    + injection E as -> E. exists a. split; [reflexivity|congruence].
    + injection E as -> E. destruct (IH u E) as (s & -> & ->). exists s. split; reflexivity.
Qed.
Lemma parse_string_ext a s r' y : parse_string (a ++ [0]) = Ok (Some (s, r')) ->
  exists p q, a = p ++ q /\ r' = q ++ [0] /\ parse_string (a ++ y) = Ok (Some (s, q ++ y)).
Proof.
  destruct a as [|c a]; [discriminate|]. unfold parse_string. cbn [app]. rewrite !zget_0. cbn [of_opt bind].
  destruct (negb (c =? QUOTE)) eqn:C; [discriminate|]. rewrite !zdrop_1.
  destruct (str_scan (a ++ [0]) 0 0) as [(n, k)|] eqn:S; [|discriminate].
  pose proof S as S'. apply (str_scan_spec (length (a ++ [0])) _ (le_n _)) in S' as (u & t & E & En & Ek).
  apply app_quote_split in E as (q & -> & ->).
  rewrite <- app_assoc in S. cbn [app] in S.
  apply (scan_app u 0 0 _ (q ++ y)) in S; [|exact En].
  rewrite <- !app_assoc. cbn [app]. rewrite S.
  rewrite Z.add_0_l in En. subst n.
  rewrite (str_loop_ext _ (length (c :: u ++ QUOTE :: q ++ y)) _ u _ (q ++ y)).
  2:{ unfold zlen. simpl. rewrite app_length. lia. }
  2:{ unfold zlen. simpl. rewrite app_length. lia. }
  destruct (str_loop _ _ (u ++ QUOTE :: q ++ y) _ _) as [o| |]; [|discriminate|discriminate]. cbn [bind].
  destruct o as [out|]; [|discriminate].
  destruct (emit _ out [0]) as [out'| |]; [|discriminate|discriminate]. cbn [bind].
  assert (forall z, zdrop (zlen u + 1) (u ++ QUOTE :: z) = z) as Z1.
  { intros z. replace (u ++ QUOTE :: z) with ((u ++ [QUOTE]) ++ z) by (rewrite <- app_assoc; reflexivity).
    replace (zlen u + 1) with (zlen (u ++ [QUOTE])) by (rewrite zlen_app, zlen_cons, zlen_nil; lia).
    apply zdrop_app_eq. }
  rewrite !Z1. intros [= <- <-]. exists (c :: u ++ [QUOTE]), q. split; [|split; reflexivity].
  cbn [app]. rewrite <- app_assoc. reflexivity.
Qed.

(** ** Numbers *)
Lemma num_copy_ext a y : forall k, num_copy k (a ++ [0]) = num_copy k a /\
  (num_copy k (a ++ y) = num_copy k a \/ Forall (fun b => num_char b = true) a).
Proof.
  induction a as [|b a IH]; intros k.
  - split; [destruct k; reflexivity|]. right. constructor.
  - destruct k as [|k]; [split; [reflexivity|left; reflexivity]|]. cbn [app num_copy].
    destruct (num_char b) eqn:B; [|split; [reflexivity|left; reflexivity]].
    destruct (IH k) as (-> & [-> | F]); (split; [reflexivity|]); [left; reflexivity|right; constructor; assumption].
Qed.
Lemma parse_number_ext a v r' y : parse_number (a ++ [0]) = Some (v, r') ->
  exists p q, a = p ++ q /\ r' = q ++ [0] /\
    (Forall (fun b => num_char b = true) a \/ parse_number (a ++ y) = Some (v, q ++ y)).
Proof.
  unfold parse_number. destruct (num_copy_ext a y 63) as (E1 & E2). rewrite E1.
  destruct (strtod (num_copy 63 a)) as [(w, n)|] eqn:S; [|discriminate].
  intros [= -> <-]. pose proof (strtod_used _ _ _ S) as U.
  destruct (num_copy_app 63 a) as (t & Ea & _).
  assert (n <= zlen a) as N.
  { rewrite Ea, zlen_app. pose proof (zlen_nonneg t). lia. }
  exists (ztake n a), (zdrop n a). split; [unfold ztake, zdrop; rewrite firstn_skipn; reflexivity|].
  split; [apply zdrop_app_l; exact N|].
  destruct E2 as [E2|F]; [right|left; exact F].
  rewrite E2, S. rewrite zdrop_app_l by exact N. reflexivity.
Qed.

(** ** Values *)
Definition nz (l : list Z) : Prop := Forall (fun b => b <> 0) l.
Lemma nz_app a b : nz (a ++ b) <-> nz a /\ nz b.
Proof. apply Forall_app. Qed.

Lemma skip_loop_ext a y : forall l, nz a -> 
  skip_loop l (a ++ [0]) = [0] \/
  exists b p q, a = p ++ b :: q /\ 32 < b /\ skip_loop l (a ++ [0]) = b :: q ++ [0] /\ skip_loop l (a ++ y) = b :: q ++ y.
Proof.
  induction a as [|b a IH]; intros l N; [left; reflexivity|]. inversion N; subst. cbn [app skip_loop].
  destruct (b <=? 32) eqn:B.
  - destruct (IH b H2) as [E|(c & p & q & -> & C & E1 & E2)]; [left; exact E|].
    right. exists c, (b :: p), q. repeat split; assumption.
  - right. exists b, [], a. repeat split. lia.
Qed.
Lemma skip_ext a y : nz a ->
  skip (a ++ [0]) = [0] \/
  exists b p q, a = p ++ b :: q /\ 32 < b /\ skip (a ++ [0]) = b :: q ++ [0] /\ skip (a ++ y) = b :: q ++ y.
Proof.
  intros N. destruct a as [|b a]; [left; reflexivity|]. cbn [app skip]. apply (skip_loop_ext (b :: a) y b N).
Qed.
Lemma lit_ext p a : nz p -> starts p (a ++ [0]) = true -> exists s, a = p ++ s.
Proof.
  intros N. revert a. induction N as [|b p H F IH]; intros a; [intros _; exists a; reflexivity|].
  destruct a as [|c a]; cbn [app starts].
  - destruct (b =? 0) eqn:E; [lia|discriminate].
  - destruct (b =? c) eqn:E; [|discriminate]. cbn [andb]. intros S. destruct (IH a S) as (s & ->).
    assert (b = c) as -> by lia. exists s. reflexivity.
Qed.

Lemma pv_zero f d : parse_value (S f) d [0] = Ok None.
Proof. reflexivity. Qed.

Definition bracket (a : list Z) : Prop := match a with [] => False | b :: _ => b = LBRACK \/ b = LBRACE end.

Lemma parse_ext f :
  (forall d a y j r', nz a -> parse_value f d (a ++ [0]) = Ok (Some (j, r')) ->
     exists p q, a = p ++ q /\ r' = q ++ [0] /\
       ((Forall (fun b => num_char b = true) a /\ ~ bracket a) \/ parse_value f d (a ++ y) = Ok (Some (j, q ++ y)))) /\
  (forall d a y l r', nz a -> elems f d (a ++ [0]) = Ok (Some (l, r')) ->
     exists p q, a = p ++ q /\ r' = q ++ [0] /\ elems f d (a ++ y) = Ok (Some (l, q ++ y))) /\
  (forall d a y l r', nz a -> members f d (a ++ [0]) = Ok (Some (l, r')) ->
     exists p q, a = p ++ q /\ r' = q ++ [0] /\ members f d (a ++ y) = Ok (Some (l, q ++ y))).
Proof.
  induction f as [|f (IV & IE & IM)]; [split; [|split]; intros; discriminate|].
  split; [|split].
  - intros d a y j r' N H.
    assert (forall p k w, nz p -> starts p (a ++ [0]) = true -> zlen p = k -> Ok (Some (w, zdrop k (a ++ [0]))) = Ok (Some (j, r')) ->
      exists q, a = p ++ q /\ r' = q ++ [0] /\ starts p (a ++ y) = true /\ Ok (Some (w, zdrop k (a ++ y))) = Ok (Some (j, q ++ y))) as LIT.
    { intros p k w NP S K E. destruct (lit_ext p a NP S) as (s & ->). injection E as -> <-.
      exists s. rewrite <- K. rewrite <- !app_assoc, !zdrop_app_eq. rewrite starts_app. auto. }
    destruct a as [|b a]; [discriminate H|].
    cbn [app parse_value] in *.
    destruct (starts (str "null") (b :: a ++ [0])) eqn:S1.
    { destruct (LIT (str "null") 4 JNull) as (q & E & -> & S & Q); [repeat constructor; discriminate|exact S1|reflexivity|exact H|].
      exists (str "null"), q. split; [exact E|]. split; [reflexivity|]. right. rewrite S. exact Q. }
    destruct (starts (str "false") (b :: a ++ [0])) eqn:S2.
    { destruct (LIT (str "false") 5 (JBool false)) as (q & E & -> & S & Q); [repeat constructor; discriminate|exact S2|reflexivity|exact H|].
      exists (str "false"), q. split; [exact E|]. split; [reflexivity|]. right.
      assert (b = 102) as -> by (injection E as -> _; reflexivity).
      rewrite S. change (str "null") with [110; 117; 108; 108]. rewrite starts_first by discriminate. exact Q. }
    destruct (starts (str "true") (b :: a ++ [0])) eqn:S3.
    { destruct (LIT (str "true") 4 (JBool true)) as (q & E & -> & S & Q); [repeat constructor; discriminate|exact S3|reflexivity|exact H|].
      exists (str "true"), q. split; [exact E|]. split; [reflexivity|]. right.
      assert (b = 116) as -> by (injection E as -> _; reflexivity).
      rewrite S. change (str "null") with [110; 117; 108; 108]. change (str "false") with [102; 97; 108; 115; 101].
      rewrite !starts_first by discriminate. exact Q. }
    clear LIT S1 S2 S3. inversion N as [|? ? NB NA]; subst.
    destruct (b =? QUOTE) eqn:B1.
    { destruct (not_lit b (a ++ y)) as (-> & -> & ->); [unfold QUOTE in B1; lia|unfold QUOTE in B1; lia|unfold QUOTE in B1; lia|].
      destruct (parse_string (b :: a ++ [0])) as [o| |] eqn:E; [|discriminate|discriminate]. cbn [bind] in H.
      destruct o as [(s, r1)|]; [|discriminate]. injection H as <- <-.
      destruct (parse_string_ext (b :: a) s r1 y E) as (p & q & E1 & -> & E2).
      exists p, q. split; [exact E1|]. split; [reflexivity|]. right. cbn [app] in E2. rewrite E2. reflexivity. }
    destruct ((b =? 45) || digit b) eqn:B2.
    { destruct (not_lit b (a ++ y)) as (-> & -> & ->); [unfold digit in B2; lia|unfold digit in B2; lia|unfold digit in B2; lia|].
      destruct (parse_number (b :: a ++ [0])) as [(v, r1)|] eqn:E; [|discriminate]. injection H as <- <-.
      destruct (parse_number_ext (b :: a) v r1 y E) as (p & q & E1 & -> & E2).
      exists p, q. split; [exact E1|]. split; [reflexivity|].
      destruct E2 as [F|E2].
      - left. split; [exact F|]. cbn. unfold LBRACK, LBRACE, digit in *. lia.
      - right. cbn [app] in E2. rewrite E2. reflexivity. }
    destruct (b =? LBRACK) eqn:B3.
    { destruct (not_lit b (a ++ y)) as (-> & -> & ->); [unfold LBRACK in B3; lia|unfold LBRACK in B3; lia|unfold LBRACK in B3; lia|].
      destruct (NESTING <=? d); [discriminate|].
      destruct (skip_ext a y NA) as [E|(c & p & q & -> & C & E1 & E2)].
      { exfalso. rewrite E in H. change (0 =? RBRACK) with false in H. cbv iota in H.
        destruct (elems f (d + 1) [0]) as [o| |] eqn:EE; try discriminate H. destruct o as [(l, r1)|]; [|discriminate H].
        destruct f as [|f]; [discriminate EE|]. cbn [elems] in EE. change (skip [0]) with [0] in EE.
        destruct f as [|f]; [discriminate EE|]. rewrite pv_zero in EE. discriminate EE. }
      rewrite E1 in H. rewrite E2. destruct (c =? RBRACK).
      - injection H as <- <-. exists (b :: p ++ [c]), q. split; [cbn [app]; rewrite <- app_assoc; reflexivity|].
        split; [reflexivity|]. right. reflexivity.
      - destruct (elems f (d + 1) (c :: q ++ [0])) as [o| |] eqn:EE; try discriminate H. cbn [bind] in H.
        destruct o as [(l, r1)|]; [|discriminate H]. injection H as <- <-.
        destruct (IE (d + 1) (c :: q) y l r1) as (p' & q' & E3 & -> & E4); [|exact EE|].
        { unfold nz in *. apply Forall_app in NA as (_ & NA). exact NA. }
        exists (b :: p ++ p'), q'. split; [rewrite E3; cbn [app]; rewrite <- app_assoc; reflexivity|].
        split; [reflexivity|]. right. cbn [app] in E4. rewrite E4. reflexivity. }
    destruct (b =? LBRACE) eqn:B4; [|discriminate].
    destruct (not_lit b (a ++ y)) as (-> & -> & ->); [unfold LBRACE in B4; lia|unfold LBRACE in B4; lia|unfold LBRACE in B4; lia|].
    destruct (NESTING <=? d); [discriminate|].
    destruct (skip_ext a y NA) as [E|(c & p & q & -> & C & E1 & E2)].
    { exfalso. rewrite E in H. change (0 =? RBRACE) with false in H. cbv iota in H.
      destruct (members f (d + 1) [0]) as [o| |] eqn:EE; try discriminate H. destruct o as [(l, r1)|]; [|discriminate H].
      destruct f as [|f]; [discriminate EE|]. discriminate EE. }
    rewrite E1 in H. rewrite E2. destruct (c =? RBRACE).
    + injection H as <- <-. exists (b :: p ++ [c]), q. split; [cbn [app]; rewrite <- app_assoc; reflexivity|].
      split; [reflexivity|]. right. reflexivity.
    + destruct (members f (d + 1) (c :: q ++ [0])) as [o| |] eqn:EE; try discriminate H. cbn [bind] in H.
      destruct o as [(l, r1)|]; [|discriminate H]. injection H as <- <-.
      destruct (IM (d + 1) (c :: q) y l r1) as (p' & q' & E3 & -> & E4); [|exact EE|].
      { unfold nz in *. apply Forall_app in NA as (_ & NA). exact NA. }
      exists (b :: p ++ p'), q'. split; [rewrite E3; cbn [app]; rewrite <- app_assoc; reflexivity|].
      split; [reflexivity|]. right. cbn [app] in E4. rewrite E4. reflexivity.
  - intros d a y l r' N H. cbn [elems] in *.
    destruct (skip_ext a y N) as [E|(c & p & q & -> & C & E1 & E2)].
    { exfalso. rewrite E in H. destruct f; [discriminate H|]. rewrite pv_zero in H. discriminate H. }
    rewrite E1 in H. rewrite E2.
    assert (nz (c :: q)) as NC by (apply nz_app in N as (_ & N); exact N).
    destruct (parse_value f d (c :: q ++ [0])) as [o| |] eqn:PV; try discriminate H. cbn [bind] in H.
    destruct o as [(j, r1)|]; [|discriminate H].
    destruct (IV d (c :: q) y j r1 NC PV) as (p1 & q1 & Eq & -> & ALT).
    assert (nz q1) as NQ by (rewrite Eq in NC; apply nz_app in NC as (_ & NC); exact NC).
    destruct ALT as [(F & _)|PV2].
    { exfalso. rewrite Eq in F. apply Forall_app in F as (_ & F).
      destruct (skip_ext q1 y NQ) as [E|(c' & p' & q' & -> & C' & E3 & _)].
      - rewrite E in H. discriminate H.
      - rewrite E3 in H. apply Forall_app in F as (_ & F). inversion F as [|? ? FC _]; subst.
        unfold num_char, digit in FC.
        replace (c' =? COMMA) with false in H by (unfold COMMA; lia).
        replace (c' =? RBRACK) with false in H by (unfold RBRACK; lia). discriminate H. }
    cbn [app] in PV2. rewrite PV2. cbn [bind].
    destruct (skip_ext q1 y NQ) as [E|(c' & p' & q' & -> & C' & E3 & E4)].
    { exfalso. rewrite E in H. discriminate H. }
    rewrite E3 in H. rewrite E4.
    assert (nz q') as NQ' by (apply nz_app in NQ as (_ & NQ); inversion NQ; assumption).
    destruct (c' =? COMMA).
    + destruct (elems f d (q' ++ [0])) as [o| |] eqn:EE; try discriminate H. cbn [bind] in H.
      destruct o as [(l1, r2)|]; [|discriminate H]. injection H as <- <-.
      destruct (IE d q' y l1 r2 NQ' EE) as (p2 & q2 & -> & -> & E5).
      exists (p ++ p1 ++ p' ++ c' :: p2), q2. split; [rewrite Eq, <- !app_assoc; reflexivity|].
      split; [reflexivity|]. rewrite E5. reflexivity.
    + destruct (c' =? RBRACK); [|discriminate H]. injection H as <- <-.
      exists (p ++ p1 ++ p' ++ [c']), q'. split; [rewrite Eq, <- !app_assoc; reflexivity|].
      split; reflexivity.
  - intros d a y l r' N H. cbn [members] in *.
    destruct (skip_ext a y N) as [E|(c & p & q & -> & C & E1 & E2)].
    { exfalso. rewrite E in H. discriminate H. }
    rewrite E1 in H. rewrite E2.
    assert (nz (c :: q)) as NC by (apply nz_app in N as (_ & N); exact N).
    destruct (parse_string (c :: q ++ [0])) as [o| |] eqn:PS; try discriminate H. cbn [bind] in H.
    destruct o as [(name, r1)|]; [|discriminate H].
    destruct (parse_string_ext (c :: q) name r1 y PS) as (p0 & q0 & Eq0 & -> & PS2).
    cbn [app] in PS2. rewrite PS2. cbn [bind].
    assert (nz q0) as NQ0 by (rewrite Eq0 in NC; apply nz_app in NC as (_ & NC); exact NC).
    destruct (skip_ext q0 y NQ0) as [E|(c0 & p0' & q0' & -> & C0 & E01 & E02)].
    { exfalso. rewrite E in H. discriminate H. }
    rewrite E01 in H. rewrite E02. destruct (negb (c0 =? COLON)); [discriminate H|].
    assert (nz q0') as NQ0' by (apply nz_app in NQ0 as (_ & NQ0); inversion NQ0; assumption).
    destruct (skip_ext q0' y NQ0') as [E|(c3 & p3 & q3 & -> & C3 & E31 & E32)].
    { exfalso. rewrite E in H. destruct f; [discriminate H|]. rewrite pv_zero in H. discriminate H. }
    rewrite E31 in H. rewrite E32.
    assert (nz (c3 :: q3)) as NC3 by (apply nz_app in NQ0' as (_ & NX); exact NX).
    destruct (parse_value f d (c3 :: q3 ++ [0])) as [o| |] eqn:PV; try discriminate H. cbn [bind] in H.
    destruct o as [(j, r1)|]; [|discriminate H].
    destruct (IV d (c3 :: q3) y j r1 NC3 PV) as (p1 & q1 & Eq & -> & ALT).
    assert (nz q1) as NQ by (rewrite Eq in NC3; apply nz_app in NC3 as (_ & NX); exact NX).
    destruct ALT as [(F & _)|PV2].
    { exfalso. rewrite Eq in F. apply Forall_app in F as (_ & F).
      destruct (skip_ext q1 y NQ) as [E|(c' & p' & q' & -> & C' & E3 & _)].
      - rewrite E in H. discriminate H.
      - rewrite E3 in H. apply Forall_app in F as (_ & F). inversion F as [|? ? FC _]; subst.
        unfold num_char, digit in FC.
        replace (c' =? COMMA) with false in H by (unfold COMMA; lia).
        replace (c' =? RBRACE) with false in H by (unfold RBRACE; lia). discriminate H. }
    cbn [app] in PV2. rewrite PV2. cbn [bind].
    destruct (skip_ext q1 y NQ) as [E|(c' & p' & q' & -> & C' & E3 & E4)].
    { exfalso. rewrite E in H. discriminate H. }
    rewrite E3 in H. rewrite E4.
    assert (nz q') as NQ' by (apply nz_app in NQ as (_ & NX); inversion NX; assumption).
    destruct (c' =? COMMA).
    + destruct (members f d (q' ++ [0])) as [o| |] eqn:EE; try discriminate H. cbn [bind] in H.
      destruct o as [(l1, r2)|]; [|discriminate H]. injection H as <- <-.
      destruct (IM d q' y l1 r2 NQ' EE) as (p2 & q2 & -> & -> & E5).
      exists (p ++ p0 ++ p0' ++ c0 :: p3 ++ p1 ++ p' ++ c' :: p2), q2.
      split; [rewrite Eq0, Eq; repeat (rewrite <- ?app_assoc; cbn [app]); reflexivity|].
      split; [reflexivity|]. rewrite E5. reflexivity.
    + destruct (c' =? RBRACE); [|discriminate H]. injection H as <- <-.
      exists (p ++ p0 ++ p0' ++ c0 :: p3 ++ p1 ++ p' ++ [c']), q'.
      split; [rewrite Eq0, Eq; repeat (rewrite <- ?app_assoc; cbn [app]); reflexivity|].
      split; reflexivity.
Qed.

(** ** More fuel *)
Lemma parse_fuel f :
  (forall f' d r o, (f <= f')%nat -> parse_value f d r = Ok o -> parse_value f' d r = Ok o) /\
  (forall f' d r o, (f <= f')%nat -> elems f d r = Ok o -> elems f' d r = Ok o) /\
  (forall f' d r o, (f <= f')%nat -> members f d r = Ok o -> members f' d r = Ok o).
Proof.
  induction f as [|f (IV & IE & IM)]; [split; [|split]; intros; discriminate|].
  split; [|split]; intros f' d r o L H; (destruct f' as [|f']; [lia|]); assert (f <= f')%nat as L' by lia; clear L.
  - cbn [parse_value] in *.
    destruct (starts (str "null") r); [exact H|]. destruct (starts (str "false") r); [exact H|].
    destruct (starts (str "true") r); [exact H|]. destruct r as [|b t]; [exact H|].
    destruct (b =? QUOTE); [exact H|]. destruct ((b =? 45) || digit b); [exact H|].
    destruct (b =? LBRACK).
    + destruct (NESTING <=? d); [exact H|]. destruct (skip t) as [|c t']; [exact H|].
      destruct (c =? RBRACK); [exact H|]. apply bind_ok in H as (x & H1 & H2).
      rewrite (IE f' _ _ _ L' H1). exact H2.
    + destruct (b =? LBRACE); [|exact H].
      destruct (NESTING <=? d); [exact H|]. destruct (skip t) as [|c t']; [exact H|].
      destruct (c =? RBRACE); [exact H|]. apply bind_ok in H as (x & H1 & H2).
      rewrite (IM f' _ _ _ L' H1). exact H2.
  - cbn [elems] in *. apply bind_ok in H as (x & H1 & H2). rewrite (IV f' _ _ _ L' H1). cbn [bind].
    destruct x as [(j, r1)|]; [|exact H2]. destruct (skip r1) as [|b t]; [exact H2|].
    destruct (b =? COMMA); [|exact H2]. apply bind_ok in H2 as (x & H2 & H3).
    rewrite (IE f' _ _ _ L' H2). exact H3.
  - cbn [members] in *. apply bind_ok in H as (x & H1 & H2). rewrite H1. cbn [bind].
    destruct x as [(k, r1)|]; [|exact H2]. destruct (skip r1) as [|b t]; [exact H2|].
    destruct (negb (b =? COLON)); [exact H2|]. apply bind_ok in H2 as (x & H2 & H3).
    rewrite (IV f' _ _ _ L' H2). cbn [bind].
    destruct x as [(j, r2)|]; [|exact H3]. destruct (skip r2) as [|c t']; [exact H3|].
    destruct (c =? COMMA); [|exact H3]. apply bind_ok in H3 as (x & H3 & H4).
    rewrite (IM f' _ _ _ L' H3). exact H4.
Qed.

(** ** Whole texts *)
(** the bytes of a document *)
Definition okb (b : Z) : Prop := 32 <= b \/ b = 9 \/ b = 10 \/ b = 13.
Lemma ws_okb w : ws w -> Forall okb w.
Proof. intros H. eapply Forall_impl; [|exact H]. intros b. cbn beta. unfold okb. lia. Qed.
Lemma num_okb t : Forall (fun b => num_char b = true) t -> Forall okb t.
Proof. intros H. eapply Forall_impl; [|exact H]. intros b. cbn beta. unfold okb, num_char, digit. lia. Qed.
Lemma hex_okb h c : hex4 h c -> Forall okb h.
Proof.
  intros H. apply hex4_spec in H as (_ & _ & F & _). eapply Forall_impl; [|exact F]. intros b. cbn beta. unfold okb. lia.
Qed.
Lemma chars_okb s t : chars s t -> Forall okb t.
Proof.
  induction 1.
  - constructor.
  - constructor; [left; lia|assumption].
  - constructor; [left; lia|]. constructor; [|assumption]. left. cbn in H.
    intuition; match goal with E : (_, _) = (_, _) |- _ => injection E as <- _; lia end.
  - constructor; [left; lia|]. constructor; [left; lia|]. apply Forall_app. split; [exact (hex_okb _ _ H)|assumption].
  - constructor; [left; lia|]. constructor; [left; lia|]. apply Forall_app. split; [exact (hex_okb _ _ H)|].
    constructor; [left; lia|]. constructor; [left; lia|]. apply Forall_app. split; [exact (hex_okb _ _ H1)|assumption].
Qed.
Lemma okb_all :
  (forall n j t, doc n j t -> Forall okb t) /\
  (forall n l t, docs n l t -> Forall okb t) /\
  (forall n l t, mems n l t -> Forall okb t).
Proof.
  assert (forall b, 32 <= b -> Forall okb [b]) as ONE by (intros b B; repeat constructor; exact B).
  assert (forall w, ws w -> Forall okb w) as W by exact ws_okb.
  assert (forall s t, chars s t -> Forall okb t) as C by exact chars_okb.
  apply docN_ind3; intros;
    repeat match goal with H : chars _ _ |- _ => apply C in H | H : ws _ |- _ => apply W in H end;
    repeat (apply Forall_app; split); try assumption; try (apply ONE; lia).
  - change (str "null") with [110; 117; 108; 108]. repeat (apply Forall_cons; [left; lia|]). apply Forall_nil.
  - change (str "true") with [116; 114; 117; 101]. repeat (apply Forall_cons; [left; lia|]). apply Forall_nil.
  - change (str "false") with [102; 97; 108; 115; 101]. repeat (apply Forall_cons; [left; lia|]). apply Forall_nil.
  - apply num_okb. match goal with H : number _ _ |- _ => exact (proj1 (number_chars _ _ H)) end.
Qed.
Lemma okb_nz t : Forall okb t -> nz t.
Proof. intros H. eapply Forall_impl; [|exact H]. intros b. unfold okb. lia. Qed.
Lemma cut_id t : nz t -> cut t = t.
Proof.
  induction 1 as [|b t H F IH]; [reflexivity|]. cbn [cut]. apply Z.eqb_neq in H. rewrite H, IH. reflexivity.
Qed.

Lemma doc_first_ascii n j t : doc n j t -> exists b u, t = b :: u /\ 32 < b < 128.
Proof.
  intros H. inversion H; subst; try (do 2 eexists; split; [reflexivity|split; reflexivity]).
  match goal with H : number _ _ |- _ => apply number_chars in H as (_ & b & u & -> & B) end.
  exists b, u. split; [reflexivity|]. destruct B as [-> | B]; [lia|]. apply digit_spec in B. lia.
Qed.

(** [json_parse] with the rest it leaves unread *)
Lemma skip_bom_none b x : b < 128 -> skip_bom (b :: x) = b :: x.
Proof.
  intros B. unfold skip_bom. rewrite starts_first by lia. rewrite andb_false_r. reflexivity.
Qed.
Lemma skip_text bom w b x : bom = [] \/ bom = [239; 187; 191] -> ws w -> 32 < b < 128 -> x <> [] ->
  skip (skip_bom (bom ++ w ++ b :: x)) = b :: x.
Proof.
  intros B W H X.
  assert (skip_bom (bom ++ w ++ b :: x) = w ++ b :: x) as ->; [|apply skip_ws; [exact W|lia]].
  destruct B as [-> | ->].
  - cbn [app]. destruct W as [|c w C F]; cbn [app]; apply skip_bom_none; lia.
  - unfold skip_bom.
    replace (4 <? zlen ([239; 187; 191] ++ w ++ b :: x)) with true.
    + reflexivity.
    + symmetry. apply Z.ltb_lt. destruct x as [|x0 x]; [congruence|].
      rewrite zlen_app, zlen_app, !zlen_cons. pose proof (zlen_nonneg w). pose proof (zlen_nonneg x).
      rewrite zlen_nil. lia.
Qed.

Lemma text_read (N : list Z -> Z -> Prop) (SUB : forall t v, N t v -> number t v) bom w j t w' :
  bom = [] \/ bom = [239; 187; 191] -> ws w -> docN N 1000 j t -> ws w' ->
  exists j', doc 1000 j' t /\ alikeN N j j' /\ json_parse (bom ++ w ++ t ++ w') = Ok (Some j').
Proof.
  intros B W D W'.
  destruct (proj1 (read_all N SUB) _ _ _ D) as (j' & D' & AL & P). exists j'. split; [exact D'|]. split; [exact AL|].
  pose proof (proj1 (docN_mono N number SUB) _ _ _ D) as D0.
  assert (nz (bom ++ w ++ t ++ w')) as NZ.
  { apply nz_app. split; [destruct B as [-> | ->]; repeat constructor; discriminate|].
    apply nz_app. split; [apply okb_nz, ws_okb, W|].
    apply nz_app. split; [apply okb_nz, (proj1 okb_all _ _ _ D0)|apply okb_nz, ws_okb, W']. }
  unfold json_parse. rewrite (cut_id _ NZ).
  destruct (doc_first_ascii _ _ _ D0) as (b & u & Et & Hb).
  assert (skip (skip_bom ((bom ++ w ++ t ++ w') ++ [0])) = t ++ w' ++ [0]) as ->.
  { rewrite <- !app_assoc. rewrite Et. cbn [app]. apply skip_text; try assumption.
    intros E. apply (f_equal (@length Z)) in E. rewrite !app_length in E. simpl in E. lia. }
  rewrite P; [reflexivity|lia| |].
  - apply ws_delim; [exact W'|reflexivity].
  - rewrite !app_length. simpl. lia.
Qed.

Lemma skip_loop_blank w l : ws w -> skip_loop l (w ++ [0]) = [0].
Proof.
  intros W. revert l. induction W as [|b w H F IH]; intros l; [reflexivity|]. cbn [app skip_loop].
  replace (b <=? 32) with true by lia. apply IH.
Qed.
Lemma skip_blank w : ws w -> skip (w ++ [0]) = [0].
Proof.
  intros W. unfold skip. destruct (w ++ [0]) as [|b x] eqn:E; [destruct w; discriminate|].
  rewrite <- E. apply skip_loop_blank. exact W.
Qed.

(** a text that ends before its value begins *)
Lemma blank_rejected bom w : bom = [] \/ bom = [239; 187; 191] -> ws w -> json_parse (bom ++ w) = Ok None.
Proof.
  intros B W. unfold json_parse. rewrite cut_id.
  2:{ apply nz_app. split; [destruct B as [-> | ->]; repeat constructor; discriminate|apply okb_nz, ws_okb, W]. }
  set (f := (2 * _ + 2)%nat). assert (exists g, f = S g) as (g & ->) by (exists (f - 1)%nat; lia).
  destruct B as [-> | ->].
  - cbn [app]. assert (skip_bom (w ++ [0]) = w ++ [0]) as ->.
    { destruct W as [|c w C F]; cbn [app]; apply skip_bom_none; lia. }
    rewrite (skip_blank w W). reflexivity.
  - destruct W as [|c w C F]; [reflexivity|].
    assert (skip_bom (([239; 187; 191] ++ c :: w) ++ [0]) = (c :: w) ++ [0]) as ->.
    { unfold skip_bom. replace (4 <? zlen (([239; 187; 191] ++ c :: w) ++ [0])) with true; [reflexivity|].
      symmetry. apply Z.ltb_lt. rewrite !zlen_app, !zlen_cons, zlen_nil. pose proof (zlen_nonneg w). lia. }
    rewrite (skip_blank (c :: w)) by (constructor; assumption). reflexivity.
Qed.

Lemma app_split {A} (a b c d : list A) : a ++ b = c ++ d ->
  (exists m, a = c ++ m /\ d = m ++ b) \/ (exists m, c = a ++ m /\ b = m ++ d).
Proof.
  revert c. induction a as [|x a IH]; intros c E.
  - right. exists c. split; [reflexivity|exact E].
  - destruct c as [|y c]; [left; exists (x :: a); split; [reflexivity|symmetry; exact E]|].
    injection E as -> E. destruct (IH c E) as [(m & -> & ->)|(m & -> & ->)]; [left|right]; exists m; split; reflexivity.
Qed.

Lemma cut_rejected bom w j t a b : bom = [] \/ bom = [239; 187; 191] -> ws w -> doc 1000 j t -> bracket t ->
  a ++ b = bom ++ w ++ t -> b <> [] -> json_parse a = Ok None.
Proof.
  intros B W D BR E NB.
  destruct (app_split _ _ _ _ E) as [(m & -> & E2)|(m & Eb & ->)].
  2:{ (* within the byte order mark *)
      destruct B as [-> | ->].
      - symmetry in Eb. apply app_eq_nil in Eb as (-> & ->). reflexivity.
      - destruct a as [|x [|y [|z a]]]; try reflexivity.
        + injection Eb as <- _. reflexivity.
        + injection Eb as <- <- _. reflexivity.
        + injection Eb as <- <- <- Eb. symmetry in Eb. apply app_eq_nil in Eb as (-> & ->). reflexivity. }
  symmetry in E2. destruct (app_split _ _ _ _ E2) as [(k & -> & ET)|(k & -> & _)].
  2:{ apply blank_rejected; [exact B|]. apply Forall_app in W. exact (proj1 W). }
  (* [k] is the part of the value that is there *)
  destruct (proj1 (read_all number (fun t v H => H)) _ _ _ D) as (j' & D' & _ & P).
  pose proof (proj1 okb_all _ _ _ D) as OK. rewrite ET in OK. apply Forall_app in OK as (OKk & _).
  destruct k as [|c k].
  { rewrite app_nil_r. apply blank_rejected; assumption. }
  assert (32 < c < 128) as HC.
  { destruct (doc_first_ascii _ _ _ D) as (c' & u & E' & C'). rewrite ET in E'. injection E' as -> _. exact C'. }
  unfold json_parse. rewrite cut_id.
  2:{ apply nz_app. split; [destruct B as [-> | ->]; repeat constructor; discriminate|].
      apply nz_app. split; [apply okb_nz, ws_okb, W|apply okb_nz, OKk]. }
  set (F := (2 * _ + 2)%nat).
  assert (skip (skip_bom ((bom ++ w ++ c :: k) ++ [0])) = (c :: k) ++ [0]) as ->.
  { rewrite <- !app_assoc. cbn [app]. apply skip_text; try assumption. destruct k; discriminate. }
  destruct (proj1 (parse_total F) 0 ((c :: k) ++ [0])) as (o & PV & _).
  { exists (c :: k). reflexivity. }
  { unfold F. rewrite !app_length. simpl. lia. }
  rewrite PV. destruct o as [(j1, r1)|]; [exfalso|reflexivity].
  destruct (proj1 (parse_ext F) 0 (c :: k) (b ++ [0]) j1 r1) as (p & q & _ & _ & [(_ & Q)|PX]).
  - apply okb_nz, OKk.
  - exact PV.
  - apply Q. rewrite ET in BR. exact BR.
  - rewrite app_assoc, <- ET in PX.
    set (G := (2 * length (t ++ [0%Z]) + 1 + F)%nat).
    apply (proj1 (parse_fuel F) G) in PX; [|unfold G; lia].
    rewrite P in PX; [|lia|reflexivity|unfold G; lia].
    injection PX as _ PX. apply (f_equal (@length Z)) in PX. rewrite !app_length in PX. simpl in PX.
    destruct b as [|x b]; [congruence|]. simpl in PX. lia.
Qed.
