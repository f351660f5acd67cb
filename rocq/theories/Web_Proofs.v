(** * Lemmas about the web server model. *)
From Verif Require Import Base Str_Spec Meta_Model Meta_Proofs S5_Model Hash_Model Hash_Props.
From Verif Require Import Http_Model Http_Spec Send_Model Web_Spec Web_Model.
From Coq Require Import String.
Open Scope Z_scope.
Local Arguments Z.add : simpl never.
Local Arguments Z.sub : simpl never.
Local Arguments Z.mul : simpl never.
Local Arguments Z.div : simpl never.
Local Arguments zlen : simpl never.

(** ** C strings *)
Lemma cstr_app a b : no_nul a -> cstr (a ++ b) = match cstr b with Some s => Some (a ++ s) | None => None end.
Proof.
  intros N. induction a as [|x a IH]; [cbn; destruct (cstr b); reflexivity|].
  cbn [app cstr]. destruct (Z.eqb_spec x 0) as [->|_]; [exfalso; apply N; left; reflexivity|].
  rewrite IH by (intros I; apply N; right; exact I). destruct (cstr b); reflexivity.
Qed.
Lemma cstr_zero b : cstr (0 :: b) = Some [].
Proof. reflexivity. Qed.
Lemma cstr_zrep n b : 0 < n -> cstr (zrepeat 0 n ++ b) = Some [].
Proof.
  intros H. unfold zrepeat. destruct (Z.to_nat n) as [|k] eqn:E; [lia|]. reflexivity.
Qed.
Lemma cstr_none a : no_nul a -> cstr a = None.
Proof.
  intros N. rewrite <- (app_nil_r a), cstr_app by assumption. reflexivity.
Qed.
Lemma prec_id u : no_nul u -> prec_str u = u.
Proof. intros N. unfold prec_str. rewrite cstr_none by assumption. reflexivity. Qed.

(** ** snprintf into the path buffer *)
(** [holds p t]: the buffer holds the string [t] from its start *)
Definition holds (p t : list Z) : Prop := zlen p = 2048 /\ exists b, p = t ++ 0 :: b.

Lemma snput_ok p s t txt : holds p t -> s = zlen t -> s + zlen txt < 2048 ->
  exists p', snput p s txt = Ok (p', s + zlen txt) /\ holds p' (t ++ txt).
Proof.
  intros (L & b & E) -> B. unfold snput. pose proof (zlen_nonneg t). pose proof (zlen_nonneg txt).
  rewrite Z.mod_small by lia. destruct (Z.eqb_spec (2048 - zlen t) 0); [lia|].
  rewrite ztake_all by lia.
  assert (ZL : zlen (txt ++ [0]) = zlen txt + 1) by (rewrite zlen_app; reflexivity).
  rewrite zput_ok by (rewrite ?L, ?ZL; lia). cbn [of_opt bind]. eexists. split; [reflexivity|]. split.
  - rewrite zlen_app, zlen_app, ZL, zlen_ztake, zlen_zdrop by lia. lia.
  - eexists. subst p. rewrite ztake_app_l by lia. rewrite ztake_all by lia. rewrite <- !app_assoc. reflexivity.
Qed.

(** more than fits: the string is cut at 2047 bytes, unless the offset is already
    beyond the buffer *)
Lemma snput_cut p s t txt : holds p t -> s = zlen t -> zlen t < 2048 -> 2048 <= s + zlen txt ->
  exists p', snput p s txt = Ok (p', s + zlen txt) /\ holds p' (ztake 2047 (t ++ txt)).
Proof.
  intros (L & b & E) -> T B. unfold snput. pose proof (zlen_nonneg t). pose proof (zlen_nonneg txt).
  rewrite Z.mod_small by lia. destruct (Z.eqb_spec (2048 - zlen t) 0); [lia|].
  replace (Z.min (2048 - zlen t - 1) (zlen txt)) with (2048 - zlen t - 1) by lia.
  set (cut := ztake (2048 - zlen t - 1) txt).
  assert (CL : zlen cut = 2047 - zlen t) by (unfold cut; rewrite zlen_ztake; lia).
  assert (ZL : zlen (cut ++ [0]) = 2048 - zlen t) by (rewrite zlen_app, CL; change (zlen [0]) with 1; lia).
  rewrite zput_ok by (rewrite ?L, ?ZL; lia). cbn [of_opt bind]. eexists. split; [reflexivity|]. split.
  - rewrite zlen_app, zlen_app, ZL, zlen_ztake, zlen_zdrop by lia. lia.
  - exists []. rewrite ZL, (zdrop_all (zlen t + (2048 - zlen t))) by lia. rewrite app_nil_r.
    rewrite ztake_app_r by lia. fold cut. replace (2047 - zlen t) with (2048 - zlen t - 1) by lia. fold cut.
    subst p. rewrite ztake_app_l by lia. rewrite ztake_all by lia. rewrite <- app_assoc. reflexivity.
Qed.

Lemma snput_end p s txt : s = 2048 -> snput p s txt = Ok (p, s + zlen txt).
Proof. intros ->. unfold snput. reflexivity. Qed.

Lemma snput_beyond p s txt : zlen p = 2048 -> 2048 < s < 2 ^ 63 -> snput p s txt = Fault FOob.
Proof.
  intros L B. unfold snput.
  assert (M : (2048 - s) mod 2 ^ 64 = 2 ^ 64 + 2048 - s).
  { symmetry. apply Z.mod_unique with (q := -1); lia. }
  rewrite M. destruct (Z.eqb_spec (2 ^ 64 + 2048 - s) 0); [lia|].
  assert (zput p s (ztake (Z.min (2 ^ 64 + 2048 - s - 1) (zlen txt)) txt ++ [0]) = None) as ->; [|reflexivity].
  destruct (zput p s _) eqn:E; [|reflexivity]. apply zput_some in E as (_ & E & _).
  rewrite zlen_app in E. change (zlen [0]) with 1 in E. pose proof (zlen_nonneg (ztake (Z.min (2 ^ 64 + 2048 - s - 1) (zlen txt)) txt)). lia.
Qed.

Lemma holds_cstr p t : holds p t -> no_nul t -> cstr p = Some t.
Proof. intros (_ & b & ->) N. rewrite cstr_app by assumption. cbn. rewrite app_nil_r. reflexivity. Qed.

Lemma no_nul_app a b : no_nul (a ++ b) <-> no_nul a /\ no_nul b.
Proof. unfold no_nul. rewrite in_app_iff. tauto. Qed.
Lemma no_nul_take n a : no_nul a -> no_nul (ztake n a).
Proof. intros N I. apply N. rewrite <- (ztake_zdrop n a). apply in_or_app. left. exact I. Qed.

(** the request path lies in the receive buffer *)
Definition slot_at (buf : list Z) (s : slot) (u : list Z) : Prop :=
  s_len s = zlen u /\ exists pre post, buf = pre ++ u ++ post /\ s_off s = zlen pre.

Lemma rdbuf_at buf s u n : slot_at buf s u -> 0 <= n <= zlen u -> rdbuf buf (s_off s) n = Ok (ztake n u).
Proof.
  intros (_ & pre & post & -> & ->) B. unfold rdbuf.
  destruct (Z.eqb_spec n 0) as [->|N]; [rewrite ztake_le0 by lia; reflexivity|].
  pose proof (zlen_nonneg pre). pose proof (zlen_nonneg post).
  replace ((0 <=? zlen pre) && (0 <? n) && (zlen pre + n <=? zlen (pre ++ u ++ post))) with true.
  2:{ symmetry. rewrite !zlen_app, !andb_true_iff. rewrite Z.leb_le, Z.ltb_lt, Z.leb_le. lia. }
  unfold zslice. rewrite zdrop_app_r by lia. rewrite Z.sub_diag, zdrop_le0 by lia.
  replace (zlen pre + n - zlen pre) with n by lia. rewrite ztake_app_l by lia. reflexivity.
Qed.

Lemma slot_last buf s u x : slot_at buf s (u ++ [x]) -> zget buf (s_off s + s_len s - 1) = Some x.
Proof.
  intros (L & pre & post & -> & ->). rewrite L, zlen_app. change (zlen [x]) with 1.
  rewrite <- app_assoc. rewrite zget_app_r by (pose proof (zlen_nonneg u); lia).
  replace (zlen pre + (zlen u + 1) - 1 - zlen pre) with (zlen u) by lia.
  rewrite zget_app_r by lia. rewrite Z.sub_diag. reflexivity.
Qed.

(** the complete path before it is cut to the buffer *)
Definition full_path (home index uri : list Z) : list Z :=
  home ++ uri ++ match uri with
                 | [] => 47 :: index
                 | _ => if last uri 0 =? 47 then index else []
                 end.

Lemma last_snoc {A} (d : A) (u : list A) : u <> [] -> exists v, u = v ++ [last u d].
Proof. intros N. exists (removelast u). apply app_removelast_last. exact N. Qed.

Lemma holds0 : holds (zrepeat 0 2048) [].
Proof. split; [reflexivity|]. exists (zrepeat 0 2047). reflexivity. Qed.

(** the outcome of building the path, for every root of at most 2047 bytes *)
Lemma req_path_spec home index buf s uri :
  slot_at buf s uri -> no_nul home -> no_nul index -> no_nul uri -> zlen home < 2048 -> zlen uri < 2 ^ 31 ->
  req_path home index buf s =
    if (last uri 0 =? 47) && (2048 <? zlen home + zlen uri) then Fault FOob
    else Ok (ztake 2047 (full_path home index uri)).
Proof.
  intros SA Nh Ni Nu Lh Lu. unfold req_path.
  pose proof (zlen_nonneg home) as Zh. pose proof (zlen_nonneg uri) as Zu. pose proof (zlen_nonneg index) as Zi.
  destruct (snput_ok (zrepeat 0 2048) 0 [] home holds0 eq_refl) as (p1 & E1 & H1); [lia|]. cbn [app] in H1.
  replace (0 + zlen home) with (zlen home) in E1 by lia.
  rewrite E1. cbn [bind fst snd]. assert (SL : s_len s = zlen uri) by (destruct SA; assumption). rewrite SL.
  destruct (Z.ltb_spec 0 (zlen uri)) as [P|P].
  2:{ assert (uri = []) as -> by (apply zlen_0_nil; lia). cbn [last andb].
      assert (NF : no_nul (full_path home index [])).
      { unfold full_path. cbn [app]. rewrite no_nul_app. split; [assumption|]. intros [D|I]; [discriminate|]. apply Ni. exact I. }
      assert (ZF : zlen (full_path home index []) = zlen home + (1 + zlen index))
        by (unfold full_path; cbn [app]; rewrite zlen_app, zlen_cons; reflexivity).
      change (SLASH :: index) with (47 :: index).
      destruct (Z_lt_ge_dec (zlen home + (1 + zlen index)) 2048).
      - destruct (snput_ok p1 (zlen home) home (47 :: index) H1 eq_refl) as (p2 & E2 & H2); [rewrite zlen_cons; lia|].
        rewrite E2. cbn [bind fst]. change (0 =? 47) with false. cbn [andb].
        change (home ++ 47 :: index) with (full_path home index []) in H2.
        rewrite (holds_cstr _ _ H2 NF). cbn [of_opt]. rewrite ztake_all by lia. reflexivity.
      - destruct (snput_cut p1 (zlen home) home (47 :: index) H1 eq_refl Lh) as (p2 & E2 & H2); [rewrite zlen_cons; lia|].
        rewrite E2. cbn [bind fst]. change (0 =? 47) with false. cbn [andb].
        change (home ++ 47 :: index) with (full_path home index []) in H2.
        rewrite (holds_cstr _ _ H2) by (apply no_nul_take; assumption). reflexivity. }
  rewrite (rdbuf_at buf s uri) by (auto; lia). rewrite ztake_all by lia. cbn [bind]. rewrite prec_id by assumption.
  assert (NE : uri <> []) by (intros ->; change (zlen (@nil Z)) with 0 in P; lia).
  destruct (last_snoc 0 uri NE) as (v & EV).
  assert (GL : zget buf (s_off s + zlen uri - 1) = Some (last uri 0)).
  { rewrite <- SL. apply (slot_last buf s v). rewrite <- EV. exact SA. }
  assert (FP : full_path home index uri = (home ++ uri) ++ (if last uri 0 =? 47 then index else [])).
  { unfold full_path. destruct uri; [contradiction|]. rewrite <- app_assoc. reflexivity. }
  assert (NFP : no_nul (full_path home index uri)).
  { rewrite FP, !no_nul_app. split; [split; assumption|]. destruct (last uri 0 =? 47); [assumption|intros []]. }
  destruct (Z_lt_ge_dec (zlen home + zlen uri) 2048) as [Fit|Fit].
  - destruct (snput_ok p1 (zlen home) home uri H1 eq_refl Fit) as (p2 & E2 & H2).
    rewrite E2. cbn [bind fst snd]. rewrite GL. cbn [of_opt bind]. change SLASH with 47.
    destruct (Z.ltb_spec 2048 (zlen home + zlen uri)); [lia|]. rewrite andb_false_r.
    destruct (last uri 0 =? 47) eqn:SLA.
    + destruct (Z_lt_ge_dec (zlen home + zlen uri + zlen index) 2048).
      * destruct (snput_ok p2 (zlen home + zlen uri) (home ++ uri) index H2) as (p3 & E3 & H3); [rewrite zlen_app; lia|lia|].
        rewrite E3. cbn [bind fst]. rewrite <- FP in H3. rewrite (holds_cstr _ _ H3) by assumption. cbn [of_opt].
        rewrite ztake_all; [reflexivity|]. rewrite FP, !zlen_app. lia.
      * destruct (snput_cut p2 (zlen home + zlen uri) (home ++ uri) index H2) as (p3 & E3 & H3); [rewrite zlen_app; lia|rewrite zlen_app; lia|lia|].
        rewrite E3. cbn [bind fst]. rewrite <- FP in H3. rewrite (holds_cstr _ _ H3) by (apply no_nul_take; assumption).
        reflexivity.
    + cbn [bind fst]. rewrite app_nil_r in FP. rewrite <- FP in H2. rewrite (holds_cstr _ _ H2) by assumption. cbn [of_opt].
      rewrite ztake_all; [reflexivity|]. rewrite FP, !zlen_app. lia.
  - destruct (snput_cut p1 (zlen home) home uri H1 eq_refl Lh) as (p2 & E2 & H2); [lia|].
    rewrite E2. cbn [bind fst snd]. rewrite GL. cbn [of_opt bind]. change SLASH with 47.
    assert (CUT : ztake 2047 (full_path home index uri) = ztake 2047 (home ++ uri)).
    { rewrite FP. apply ztake_app_l. rewrite zlen_app. lia. }
    destruct (last uri 0 =? 47) eqn:SLA; cbn [andb].
    + destruct (Z.ltb_spec 2048 (zlen home + zlen uri)).
      * rewrite snput_beyond; [reflexivity| |lia]. destruct H2. assumption.
      * rewrite snput_end by lia. cbn [bind fst]. rewrite CUT. rewrite (holds_cstr _ _ H2); [reflexivity|].
        rewrite <- CUT. apply no_nul_take. assumption.
    + cbn [bind fst]. rewrite CUT. rewrite (holds_cstr _ _ H2); [reflexivity|].
      rewrite <- CUT. apply no_nul_take. assumption.
Qed.

(** ** Paths *)
Lemma segs_ne p : segs p <> [].
Proof. destruct p as [|b t]; [discriminate|]. cbn. destruct (b =? 47); [discriminate|]. destruct (segs t); discriminate. Qed.

Lemma segs_app a t : segs (a ++ 47 :: t) = segs a ++ segs t.
Proof.
  induction a as [|b a IH]; [reflexivity|]. cbn [app segs]. rewrite IH. destruct (b =? 47); [reflexivity|].
  pose proof (segs_ne a). destruct (segs a) as [|s r]; [contradiction|]. reflexivity.
Qed.
Lemma walk_app d a b : walk d (a ++ b) = walk (walk d a) b.
Proof. revert d. induction a as [|s a IH]; intros d; [reflexivity|]. cbn [app walk]. apply IH. Qed.
Lemma walk_down l : Forall (fun s => s <> str "..") l -> forall d, exists x, walk d l = x ++ d.
Proof.
  induction l as [|s l IH]; intros F d; [exists []; reflexivity|]. cbn [walk].
  specialize (IH (Forall_inv_tail F)).
  destruct (bseq s [] || bseq s (str ".")); [apply IH|].
  replace (bseq s (str "..")) with false by (symmetry; apply bseq_neq; exact (Forall_inv F)).
  destruct (IH (s :: d)) as (x & ->). exists (x ++ [s]). rewrite <- app_assoc. reflexivity.
Qed.

(** a path below [home]: [home] extended by segments none of which is ".." *)
Lemma below_ext cwd home t : home <> [] -> Forall (fun s => s <> str "..") (segs t) -> below cwd home (home ++ 47 :: t).
Proof.
  intros N F. destruct home as [|b h]; [contradiction|]. unfold below, place. cbn [app].
  change (b :: h ++ 47 :: t) with ((b :: h) ++ 47 :: t). rewrite segs_app, walk_app. apply walk_down. exact F.
Qed.

(** every segment but the last is followed by a slash *)
Lemma segs_occurs p s : In s (removelast (segs p)) -> occurs (s ++ [47]) p.
Proof.
  revert s. induction p as [|b t IH]; intros s I; [contradiction|]. cbn [segs] in I.
  pose proof (segs_ne t) as NE. destruct (Z.eqb_spec b 47) as [->|_].
  - destruct (segs t) as [|x r] eqn:E; [contradiction|].
    change (removelast ([] :: x :: r)) with ([] :: removelast (x :: r)) in I. destruct I as [<-|I].
    + exists [], t. reflexivity.
    + destruct (IH s I) as (a & c & ->). exists (47 :: a), c. reflexivity.
  - destruct (segs t) as [|x r] eqn:E; [contradiction|]. destruct r as [|y r]; [contradiction|].
    change (removelast ((b :: x) :: y :: r)) with ((b :: x) :: removelast (y :: r)) in I.
    change (removelast (x :: y :: r)) with (x :: removelast (y :: r)) in IH.
    destruct I as [<-|I].
    + assert (P : exists c, t = x ++ 47 :: c).
      { clear - E. revert x y r E. induction t as [|z t IH]; intros x y r E; [discriminate|]. cbn [segs] in E.
        destruct (Z.eqb_spec z 47) as [->|_]; [injection E as <- _; exists t; reflexivity|].
        destruct (segs t) as [|x0 [|y0 r0]] eqn:Et; try discriminate.
        injection E as <- _ _. destruct (IH x0 y0 r0 eq_refl) as (c & ->). exists c. reflexivity. }
      destruct P as (c & ->). exists [], c. cbn. rewrite <- app_assoc. reflexivity.
    + destruct (IH s (or_intror I)) as (a & c & ->). exists (b :: a), c. reflexivity.
Qed.

Lemma in_segs_split p s : In s (segs p) -> In s (removelast (segs p)) \/ s = last (segs p) [].
Proof.
  intros I. rewrite (app_removelast_last [] (segs_ne p)) in I. apply in_app_or in I as [I|[<-|[]]]; auto.
Qed.

(** ** Content type *)
Lemma mime_fill_sees : forall l t f, sees t f -> Forall (fun e => fst e <> [] /\ 0 < zlen (snd e)) l ->
  exists t', mime_fill t l = Ok t' /\
    sees t' (fun k => match f k with Some v => Some v | None => assoc l k end).
Proof.
  induction l as [|e l IH]; intros t f S F.
  - exists t. split; [reflexivity|]. eapply sees_ext; [exact S|]. intros k. cbn. destruct (f k); reflexivity.
  - destruct (Forall_inv F) as (N & P). cbn [mime_fill].
    destruct (hash_add_sees (mkAllocs true true true) t f (fst e) (snd e) (zlen (snd e)) S N P) as (ok & t1 & E & Eok & S1).
    rewrite E. cbn [bind snd]. destruct (IH t1 _ S1 (Forall_inv_tail F)) as (t2 & E2 & S2). exists t2. split; [exact E2|].
    eapply sees_ext; [exact S2|]. intros k. cbn. destruct e as (k', v). cbn [fst snd].
    cbn [assoc]. destruct (f k); [reflexivity|]. cbn.
    rewrite ?andb_true_r. destruct (bseq k' k); reflexivity.
Qed.

Lemma empty_sees : @sees (list Z) (zrepeat [] 97) (fun _ => None).
Proof.
  split; [reflexivity|]. intros k. pose proof (Z.mod_pos_bound (fnv1a k) 97 ltac:(lia)) as B.
  unfold hash_find, hash_idx. change (zlen (@zrepeat (list (list Z * list Z)) [] 97)) with 97.
  rewrite zget_zrepeat by lia. reflexivity.
Qed.

Lemma mime_assoc k : exists t, mime_table = Ok t /\ hash_find t k = Ok (assoc mime_list k).
Proof.
  destruct (mime_fill_sees mime_list _ _ empty_sees) as (t & E & S).
  { repeat (apply Forall_cons; [split; [discriminate|reflexivity]|]). apply Forall_nil. }
  exists t. split; [exact E|]. destruct S as (_ & S). rewrite (S k). reflexivity.
Qed.

Lemma assoc_none l k : assoc l k = None <-> ~ In k (map fst l).
Proof.
  induction l as [|(k', v) l IH]; [split; [intros _ []|reflexivity]|]. cbn. destruct (bseq k' k) eqn:E.
  - apply bseq_spec in E as ->. split; [discriminate|]. intros N. exfalso. apply N. left. reflexivity.
  - apply bseq_neq in E. rewrite IH. split; [intros N [|]; tauto|tauto].
Qed.

Ltac find_in := first [left; reflexivity | right; find_in].
(** the two lists of types agree as maps *)
Lemma types_same k : assoc mime_list k = assoc types k.
Proof.
  assert (D : forall l1 l2, NoDup (map fst l1) -> NoDup (map fst l2) -> (forall e, In e l1 <-> In e l2) ->
    assoc l1 k = assoc l2 k).
  { assert (IN : forall l v, NoDup (map fst l) -> (assoc l k = Some v <-> In (k, v) l)).
    { induction l as [|(k', x) l IH]; intros v ND; [split; [discriminate|intros []]|].
      cbn in *. apply NoDup_cons_iff in ND as (NI & ND). destruct (bseq k' k) eqn:E.
      - apply bseq_spec in E as ->. split; [intros [= ->]; left; reflexivity|].
        intros [[= ->]|I]; [reflexivity|]. exfalso. apply NI. apply (in_map fst) in I. exact I.
      - rewrite IH by assumption. apply bseq_neq in E. split; [tauto|]. intros [[= -> ->]|I]; [contradiction|exact I]. }
    intros l1 l2 N1 N2 EQ. destruct (assoc l1 k) as [v|] eqn:E1.
    - apply IN in E1; [|assumption]. symmetry. apply IN; [assumption|]. apply EQ. exact E1.
    - destruct (assoc l2 k) as [v|] eqn:E2; [|reflexivity]. apply IN in E2; [|assumption].
      apply EQ in E2. apply IN in E2; [congruence|assumption]. }
  apply D.
  - apply NoDup_count_occ' with (decA := list_eq_dec Z.eq_dec). intros x I. revert x I. apply Forall_forall.
    repeat (apply Forall_cons; [reflexivity|]). apply Forall_nil.
  - apply NoDup_count_occ' with (decA := list_eq_dec Z.eq_dec). intros x I. revert x I. apply Forall_forall.
    repeat (apply Forall_cons; [reflexivity|]). apply Forall_nil.
  - intros e. split; intros I; revert e I; apply Forall_forall;
      repeat (apply Forall_cons; [find_in|]); apply Forall_nil.
Qed.

Lemma strrchr_none p : strrchr_dot p = None <-> ~ In 46 p.
Proof.
  induction p as [|b t IH]; [split; [intros _ []|reflexivity]|]. cbn [strrchr_dot].
  destruct (strrchr_dot t) eqn:E.
  - split; [discriminate|]. intros N. exfalso. assert (X : Some l = None); [|discriminate]. apply IH. intros I. apply N. right. exact I.
  - destruct (Z.eqb_spec b 46) as [->|N].
    + split; [discriminate|]. intros X. exfalso. apply X. left. reflexivity.
    + split; [|reflexivity]. intros _ [->|I]; [contradiction|]. revert I. apply IH. reflexivity.
Qed.
Lemma strrchr_some p k : strrchr_dot p = Some k -> exists a b, p = a ++ k /\ k = 46 :: b /\ ~ In 46 b.
Proof.
  revert k. induction p as [|c t IH]; intros k E; [discriminate|]. cbn [strrchr_dot] in E.
  destruct (strrchr_dot t) eqn:Et.
  - injection E as <-. destruct (IH l eq_refl) as (a & b & -> & X). exists (c :: a), b. auto.
  - destruct (Z.eqb_spec c 46) as [->|N]; [|discriminate]. injection E as <-. exists [], t.
    split; [reflexivity|]. split; [reflexivity|]. apply strrchr_none. exact Et.
Qed.

Lemma last_segs_cut p : exists a, p = a ++ last (segs p) [] /\ ~ In 47 (last (segs p) []) /\
  (a = [] \/ exists a', a = a' ++ [47]).
Proof.
  induction p as [|b t IH]; [exists []; split; [reflexivity|]; split; [intros []|left; reflexivity]|].
  destruct IH as (a & E & N & A). cbn [segs]. pose proof (segs_ne t).
  destruct (Z.eqb_spec b 47) as [->|Nb].
  - destruct (segs t) as [|s r] eqn:Es; [contradiction|].
    change (last ([] :: s :: r) []) with (last (s :: r) []).
    exists (47 :: a). split; [rewrite E at 1; reflexivity|]. split; [exact N|]. right.
    destruct A as [->|(a' & ->)]; [exists []; reflexivity|exists (47 :: a'); reflexivity].
  - destruct (segs t) as [|s [|s2 r]] eqn:Es; [contradiction| |].
    + cbn [last] in *. exists []. split; [|split; [|left; reflexivity]].
      * cbn. f_equal. destruct A as [->|(a' & ->)]; [exact E|]. exfalso.
        rewrite E in Es. rewrite <- app_assoc in Es. cbn [app] in Es. rewrite segs_app in Es.
        pose proof (segs_ne a'). pose proof (segs_ne s). destruct (segs a') as [|x y]; [contradiction|]. destruct (segs s); [contradiction|].
        injection Es as _ Ey. destruct y; discriminate.
      * intros [->|I]; [contradiction|tauto].
    + change (last ((b :: s) :: s2 :: r) []) with (last (s2 :: r) []).
      change (last (s :: s2 :: r) []) with (last (s2 :: r) []) in *.
      exists (b :: a). split; [rewrite E at 1; reflexivity|]. split; [exact N|]. right.
      destruct A as [->|(a' & ->)]; [|exists (b :: a'); reflexivity]. exfalso.
      cbn [app] in E.
      assert (X : forall z, ~ In 47 z -> segs z = [z]).
      { clear. induction z as [|c z IH]; intros N; [reflexivity|]. cbn [segs].
        destruct (Z.eqb_spec c 47) as [->|_]; [exfalso; apply N; left; reflexivity|].
        rewrite IH by (intros I; apply N; right; exact I). reflexivity. }
      rewrite (X t) in Es by (rewrite E; exact N). discriminate.
Qed.

Lemma types_noslash e : In 47 e -> assoc types e = None.
Proof.
  intros I. apply assoc_none. intros M. revert e M I.
  apply (proj1 (Forall_forall (fun e => In 47 e -> False) (map fst types))).
  repeat (apply Forall_cons; [cbn; intros H; repeat (destruct H as [H|H]; [discriminate|]); contradiction|]). apply Forall_nil.
Qed.

(** the type the server announces for a path that contains a dot *)
Lemma rsp_mime_type p : In 46 p -> exists t, rsp_mime (strrchr_dot p) = Ok t /\ has_type p t.
Proof.
  intros I. destruct (strrchr_dot p) as [k|] eqn:E; [|exfalso; apply strrchr_none in E; contradiction].
  unfold rsp_mime. destruct (mime_assoc k) as (t & Et & Ef). rewrite Et. cbn [bind]. rewrite Ef. cbn [bind].
  eexists. split; [reflexivity|]. rewrite types_same.
  destruct (strrchr_some p k E) as (a & b & Ep & Ek & Nb).
  destruct (last_segs_cut p) as (c & Ec & Nc & Ac). unfold has_type. set (n := last (segs p) []) in *.
  destruct (in_dec Z.eq_dec 46 n) as [In46|No46].
  - left. exists k. split; [|reflexivity].
    (* k is a suffix of n *)
    assert (S : exists a', n = a' ++ k).
    { rewrite Ec in Ep. symmetry in Ep. apply app_eq_app in Ep as (l & [(E1 & E2)|(E1 & E2)]).
      - exists l. exact E2.
      - destruct l as [|z l].
        + exists []. cbn in E2. symmetry. exact E2.
        + exfalso. rewrite Ek in E2. injection E2 as <- E2. apply Nb. rewrite E2. apply in_or_app. right. exact In46. }
    destruct S as (a' & S). exists a', b. auto.
  - right. split; [exact No46|]. rewrite types_noslash; [reflexivity|].
    rewrite Ec in Ep. symmetry in Ep. apply app_eq_app in Ep as (l & [(E1 & E2)|(E1 & E2)]).
    + exfalso. apply No46. rewrite E2. apply in_or_app. right. rewrite Ek. left. reflexivity.
    + destruct Ac as [->|(c' & ->)].
      * exfalso. destruct a; [|discriminate]. destruct l; [|discriminate]. cbn in E2. apply No46. rewrite <- E2, Ek. left. reflexivity.
      * destruct l as [|z l] using rev_ind.
        -- exfalso. cbn in E2. apply No46. rewrite <- E2, Ek. left. reflexivity.
        -- rewrite app_assoc in E1. apply app_inj_tail in E1 as (_ & <-). rewrite E2.
           apply in_or_app. left. apply in_or_app. right. left. reflexivity.
Qed.

(** ** Routing *)
Lemma api_find_spec buf s u mt l : slot_at buf s u ->
  api_find buf s mt l = Ok (find (fun a => bseq (a_key a) u && (mt =? a_mtyp a)) l).
Proof.
  intros SA. assert (SL : s_len s = zlen u) by (destruct SA; assumption).
  induction l as [|a l IH]; [reflexivity|]. cbn [api_find find]. rewrite SL.
  destruct (Z.eqb_spec (zlen (a_key a)) (zlen u)) as [E|N]; cbn [negb].
  - rewrite (rdbuf_at buf s u) by (auto; pose proof (zlen_nonneg u); lia). cbn [bind]. rewrite ztake_all by lia.
    destruct (bseq (a_key a) u); cbn [negb andb]; [|exact IH]. destruct (mt =? a_mtyp a); [reflexivity|exact IH].
  - replace (bseq (a_key a) u) with false; [exact IH|]. symmetry. apply bseq_neq. intros X. apply N. rewrite X. reflexivity.
Qed.

(** paths of less than 1024 bytes *)
Lemma router_short apis buf s u mt stack : slot_at buf s u -> no_nul u -> zlen u < 1024 ->
  router apis buf s mt stack =
    match find (fun a => bseq (a_key a) u && (mt =? a_mtyp a)) apis with
    | Some a => Ok (RApi a, false)
    | None => if mt =? 1 then Ok (if occursb (str "../") u then RClose else RFile, false) else Ok (RClose, false)
    end.
Proof.
  intros SA N L. unfold router. rewrite (api_find_spec buf s u) by assumption. cbn [bind].
  destruct (find _ apis); [reflexivity|]. destruct (mt =? 1); [|reflexivity]. cbn [negb].
  assert (SL : s_len s = zlen u) by (destruct SA; assumption). rewrite SL. pose proof (zlen_nonneg u).
  destruct (Z.ltb_spec (zlen u) 0); [lia|]. destruct (Z.ltb_spec 1024 (zlen u)); [lia|].
  cbv zeta. destruct (Z.ltb_spec 1024 (zlen u)); [lia|].
  rewrite (rdbuf_at buf s u) by (auto; lia). cbn [bind]. rewrite ztake_all by lia.
  rewrite <- app_assoc. rewrite !cstr_app by assumption. rewrite cstr_zrep by lia.
  cbn zeta. cbn [of_opt bind].
  rewrite !cstr_app by assumption.
  replace (cstr (zrepeat 0 (1024 - zlen u))) with (Some (@nil Z))
    by (rewrite <- (app_nil_r (zrepeat 0 (1024 - zlen u))), cstr_zrep by lia; reflexivity).
  rewrite app_nil_r. reflexivity.
Qed.

(** ** Sending a file *)
(** a send that may leave bytes of a buffer behind *)
Definition partial_send (k : kres) : Prop := exists n, k = KSent n /\ n < 16344.

(** what is known of the outcome: a prefix of the file was sent; [FFDone] only
    after the announced size; [FFClosed] only after an error of the kernel, at the
    end of a file that is too short, or after a send that left bytes behind *)
Definition ff_ok (F : list Z) (fsize : Z) (wire : list Z) (ks : list kres) (rs : list rres) (f : nat) (o : res (ffst * list Z)) : Prop :=
  match o with
  | Ok (st, w) =>
      (exists x, F = w ++ x) /\ zlen wire <= zlen w /\
      (st = FFDone -> fsize <= zlen w) /\
      (st = FFClosed -> Exists (fun k => k = KErr) ks \/ Exists (fun r => r = GetErr) rs \/ zlen F < fsize \/
                        Exists partial_send ks)
  | Fault _ => False
  | NoFuel => (f <= Datatypes.length ks + Datatypes.length rs)%nat
  end.

Lemma ff_ok_weaken F fsize wire wire' ks ks' rs rs' f f' o :
  ff_ok F fsize wire ks rs f o -> zlen wire' <= zlen wire ->
  (forall P, Exists P ks -> Exists P ks') -> (forall P, Exists P rs -> Exists P rs') ->
  (f' + (Datatypes.length ks + Datatypes.length rs) <= f + (Datatypes.length ks' + Datatypes.length rs'))%nat ->
  ff_ok F fsize wire' ks' rs' f' o.
Proof.
  intros O L K R N. destruct o as [(st, w)| |]; [|exact O|cbn in *; lia].
  destruct O as (A & B & D & C). split; [exact A|]. split; [lia|]. split; [exact D|].
  intros E. destruct (C E) as [X|[X|[X|X]]]; auto.
Qed.

(** behind the send; lines 183-199 *)
Definition ff_after f (rs : list rres) rest fsize m fsend ks wire :=
        if fsize <=? fsend then Ok (FFDone, wire)
        else
          let m := if meta_getlen m =? 0 then meta_clr m else m in
          if 0 <? meta_getfree m then
            match rs with
            | [] => Ok (FFWait, wire)
            | GetErr :: _ => Ok (FFClosed, wire)
            | GetUp k :: rs' =>
                let got := ztake (Z.min (Z.max 1 k) (meta_getfree m)) rest in
                match got with
                | [] => Ok (FFClosed, wire)
                | _ => let* m' := meta_store m got in
                       ff_loop f m' fsize fsend (zdrop (zlen got) rest) ks rs' wire
                end
            end
          else ff_loop f m fsize fsend rest ks rs wire.

Lemma ff_spec : forall fuel m fsize rest ks rs wire F, meta_wf m -> meta_cap m = 16344 ->
  F = wire ++ mdata m ++ rest ->
  ff_ok F fsize wire ks rs fuel (ff_loop fuel m fsize (zlen wire) rest ks rs wire).
Proof.
  induction fuel as [|f IH]; intros m fsize rest ks rs wire F W C E; [cbn; lia|].
  assert (AFTER : forall m1 ks1 wire1, meta_wf m1 -> meta_cap m1 = 16344 ->
    F = wire1 ++ mdata m1 ++ rest -> zlen wire <= zlen wire1 ->
    (forall P, Exists P ks1 -> Exists P ks) ->
    (Datatypes.length ks1 < Datatypes.length ks)%nat \/ (meta_getlen m1 = 0 /\ ks1 = ks) ->
    meta_getlen m1 = 0 \/ Exists partial_send ks ->
    ff_ok F fsize wire ks rs (Datatypes.S f) (ff_after f rs rest fsize m1 (zlen wire1) ks1 wire1)).
  { intros m1 ks1 wire1 W1 C1 E1 LW XK LK PS. unfold ff_after.
    destruct (Z.leb_spec fsize (zlen wire1)).
    { split; [eauto|]. split; [assumption|]. split; [auto|discriminate]. }
    cbn zeta. set (m2 := if meta_getlen m1 =? 0 then meta_clr m1 else m1).
    assert (W2 : meta_wf m2 /\ meta_cap m2 = 16344 /\ mdata m2 = mdata m1 /\ (meta_getlen m1 = 0 -> meta_getfree m2 = 16344)).
    { subst m2. destruct (Z.eqb_spec (meta_getlen m1) 0) as [Z0|Z0].
      - split; [apply meta_clr_wf; assumption|]. split; [exact C1|]. split.
        + assert (mdata m1 = []) as -> by (apply zlen_0_nil; rewrite mdata_len; assumption).
          apply zlen_0_nil. rewrite mdata_len by (apply meta_clr_wf; assumption). reflexivity.
        + intros _. unfold meta_getfree, meta_clr. cbn [mlast]. unfold meta_cap in *. cbn [mbuf]. rewrite C1. lia.
      - split; [assumption|]. split; [assumption|]. split; [reflexivity|lia]. }
    clearbody m2. destruct W2 as (W2 & C2 & D2 & FR).
    destruct (Z.ltb_spec 0 (meta_getfree m2)) as [P|P].
    - destruct rs as [|[k|] rs].
      + split; [eauto|]. split; [assumption|]. split; discriminate.
      + set (got := ztake (Z.min (Z.max 1 k) (meta_getfree m2)) rest).
        assert (GB : zlen got <= meta_getfree m2) by (unfold got; rewrite zlen_ztake by lia; lia).
        assert (GR : got ++ zdrop (zlen got) rest = rest).
        { unfold got. set (q := Z.min (Z.max 1 k) (meta_getfree m2)).
          destruct (Z_le_gt_dec q (zlen rest)).
          - rewrite zlen_ztake by lia. replace (Z.min q (zlen rest)) with q by lia. apply ztake_zdrop.
          - rewrite ztake_all by lia. rewrite zdrop_all by lia. apply app_nil_r. }
        assert (GE : got = [] -> rest = []).
        { intros X. apply zlen_0_nil. assert (Y : zlen got = 0) by (rewrite X; reflexivity).
          unfold got in Y. rewrite zlen_ztake in Y by lia. pose proof (zlen_nonneg rest). lia. }
        clearbody got. destruct got as [|g got].
        * split; [eauto|]. split; [assumption|]. split; [discriminate|]. intros _.
          destruct PS as [L0|PS]; [|auto]. right. right. left.
          assert (M0 : mdata m1 = []) by (apply zlen_0_nil; rewrite mdata_len; assumption).
          rewrite E1, M0, (GE eq_refl), !app_nil_r. assumption.
        * destruct (meta_store_ok m2 (g :: got) W2 GB) as (m3 & E3 & W3 & D3 & C3 & _).
          rewrite E3. cbn [bind].
          eapply ff_ok_weaken; [apply (IH m3 fsize _ ks1 rs wire1 F W3)| | | |].
          -- rewrite C3. assumption.
          -- rewrite D3, D2, E1, <- app_assoc, GR. reflexivity.
          -- assumption.
          -- assumption.
          -- intros Q X. right. exact X.
          -- cbn [Datatypes.length]. destruct LK as [LK|(_ & ->)]; lia.
      + split; [eauto|]. split; [assumption|]. split; [discriminate|]. intros _. right. left. left. reflexivity.
    - eapply ff_ok_weaken; [apply (IH m2 fsize rest ks1 rs wire1 F W2)| | | |]; auto.
      + rewrite D2. assumption.
      + destruct LK as [LK|(L0 & _)]; [lia|]. specialize (FR L0). lia. }
  change (ff_ok F fsize wire ks rs (Datatypes.S f)
    (if 0 <? meta_getlen m then
        match ks with
        | [] => Ok (FFWait, wire)
        | KAgain :: t => ff_loop f m fsize (zlen wire) rest t rs wire
        | KIntr :: t => ff_loop f m fsize (zlen wire) rest t rs wire
        | KErr :: _ => Ok (FFClosed, wire)
        | KSent k :: t =>
            let n := Z.max 0 (Z.min k (meta_getlen m)) in
            ff_after f rs rest fsize (meta_consume m n) (zlen wire + n) t (wire ++ ztake n (mdata m))
        end
      else ff_after f rs rest fsize m (zlen wire) ks wire)).
  destruct (Z.ltb_spec 0 (meta_getlen m)) as [P|P].
  - destruct ks as [|[k| | |] ks].
    + split; [eauto|]. split; [lia|]. split; discriminate.
    + cbn zeta. set (n := Z.max 0 (Z.min k (meta_getlen m))).
      assert (B : 0 <= n <= meta_getlen m) by lia.
      destruct (meta_consume_ok m n W B) as (W' & D').
      assert (ZW : zlen wire + n = zlen (wire ++ ztake n (mdata m))).
      { rewrite zlen_app, zlen_ztake, mdata_len by (assumption || lia). lia. }
      rewrite ZW. apply AFTER.
      * exact W'.
      * exact C.
      * rewrite D', E, <- !app_assoc. f_equal. rewrite app_assoc, ztake_zdrop. reflexivity.
      * lia.
      * intros Q X. right. exact X.
      * left. cbn [Datatypes.length]. lia.
      * destruct (Z.eqb_spec n (meta_getlen m)) as [En|Nn].
        -- left. unfold meta_consume, meta_getlen in *. cbn. lia.
        -- right. left. exists k. split; [reflexivity|]. subst n.
           assert (meta_getlen m <= 16344) by (destruct W; unfold meta_getlen in *; lia). lia.
    + eapply ff_ok_weaken; [apply (IH m fsize rest ks rs wire F W C E)| | | |]; auto; [lia|cbn; lia].
    + eapply ff_ok_weaken; [apply (IH m fsize rest ks rs wire F W C E)| | | |]; auto; [lia|cbn; lia].
    + split; [eauto|]. split; [lia|]. split; [discriminate|]. intros _. left. left. reflexivity.
  - assert (L0 : meta_getlen m = 0) by (destruct W; unfold meta_getlen in *; lia).
    apply AFTER; auto. lia.
Qed.

(** ** Response heads *)
Lemma hdrps_ok : forall ts m acc, meta_wf m -> meta_cap m = 4096 -> mdata m = acc -> mpos m = 0 ->
  Forall (fun t => zlen t <= 1022) ts -> mlast m + zlen (List.concat ts) < 4096 ->
  exists m', hdrps [m] ts = Ok [m'] /\ meta_wf m' /\ mdata m' = acc ++ List.concat ts.
Proof.
  induction ts as [|t ts IH]; intros m acc W C D P F L.
  - exists m. split; [reflexivity|]. split; [assumption|]. cbn. rewrite app_nil_r. assumption.
  - cbn [List.concat] in *. rewrite zlen_app in L. pose proof (zlen_nonneg (List.concat ts)).
    cbn [hdrps]. unfold hdrp. rewrite ztake_all by exact (Forall_inv F). cbn [chain_put].
    assert (FR : meta_getfree m = 4096 - mlast m) by (unfold meta_getfree; lia).
    destruct (Z.ltb_spec (zlen t) (meta_getfree m)) as [_|X]; [|lia].
    unfold meta_pdata. destruct (Z.leb_spec (zlen t) (meta_getfree m)) as [LE|X]; [|lia].
    destruct (meta_store_ok m t W LE) as (m1 & E1 & W1 & D1 & C1 & P1 & L1).
    rewrite E1. cbn [bind fst snd].
    destruct (IH m1 (acc ++ t) W1) as (m' & E' & W' & D').
    + congruence.
    + rewrite D1, D. reflexivity.
    + congruence.
    + exact (Forall_inv_tail F).
    + lia.
    + exists m'. split; [exact E'|]. split; [exact W'|]. rewrite D', <- app_assoc. reflexivity.
Qed.

Lemma hdrps_new t ts : Forall (fun t => zlen t <= 1022) (t :: ts) -> zlen (List.concat (t :: ts)) < 4096 ->
  exists m', hdrps [] (t :: ts) = Ok [m'] /\ meta_wf m' /\ mdata m' = List.concat (t :: ts).
Proof.
  intros F L. cbn [List.concat] in *. rewrite zlen_app in L. pose proof (zlen_nonneg (List.concat ts)).
  cbn [hdrps]. unfold hdrp. rewrite ztake_all by exact (Forall_inv F). cbn [chain_put].
  destruct (meta_new_wf 4096) as (W & C & D); [lia|]. pose proof (Forall_inv F) as FT. cbn in FT.
  assert (FR : meta_getfree (meta_new 4096) = 4096) by (unfold meta_getfree; rewrite C; reflexivity).
  unfold meta_pdata. destruct (Z.leb_spec (zlen t) (meta_getfree (meta_new 4096))) as [LE|X]; [|lia].
  destruct (meta_store_ok _ t W LE) as (m1 & E1 & W1 & D1 & C1 & P1 & L1). rewrite E1. cbn [bind fst snd].
  destruct (hdrps_ok ts m1 t W1) as (m' & E' & W' & D').
  - congruence.
  - rewrite D1, D. reflexivity.
  - rewrite P1. reflexivity.
  - exact (Forall_inv_tail F).
  - rewrite L1. change (mlast (meta_new 4096)) with 0. lia.
  - exists m'. auto.
Qed.

(** decimal digits *)
Ltac Zify.zify_post_hook ::= Z.div_mod_to_equations.
Lemma dec_from_app a b acc : dec_from acc (a ++ b) = dec_from (dec_from acc a) b.
Proof. revert acc. induction a as [|x a IH]; intros acc; [reflexivity|]. cbn. apply IH. Qed.
Lemma digits_of_ok : forall f n, 0 <= n < 10 ^ Z.of_nat (Datatypes.S f) -> numeral (digits_of (Datatypes.S f) n) n.
Proof.
  induction f as [|f IH]; intros n B; cbn [digits_of]; destruct (Z.ltb_spec n 10).
  - split; [discriminate|]. split; [constructor; [lia|constructor]|]. cbn. lia.
  - cbn in B. lia.
  - split; [discriminate|]. split; [constructor; [lia|constructor]|]. cbn. lia.
  - replace (Z.of_nat (Datatypes.S (Datatypes.S f))) with (Z.of_nat (Datatypes.S f) + 1) in B by lia.
    rewrite Z.pow_add_r in B by lia.
    destruct (IH (n / 10)) as (A & D & V); [lia|].
    fold (digits_of (Datatypes.S f) (n / 10)) in *. cbn [digits_of] in *.
    split; [intros X; apply app_eq_nil in X as (_ & X); discriminate|].
    split; [apply Forall_app; split; [exact D|constructor; [lia|constructor]]|].
    rewrite dec_from_app, V. cbn [dec_from]. lia.
Qed.
Lemma digits_of_len fuel n : zlen (digits_of fuel n) <= Z.of_nat fuel.
Proof.
  revert n. induction fuel as [|f IH]; intros n; [vm_compute; discriminate|]. cbn [digits_of]. destruct (n <? 10).
  - change (zlen [48 + n]) with 1. lia.
  - rewrite zlen_app. change (zlen [48 + n mod 10]) with 1. specialize (IH (n / 10)). lia.
Qed.
Lemma fmt_d_ok n : 0 <= n < 2 ^ 31 -> numeral (fmt_d n) n.
Proof.
  intros B. unfold fmt_d. destruct (Z.ltb_spec n 0); [lia|]. apply digits_of_ok.
  assert (10 ^ Z.of_nat 20 > 2 ^ 31) by reflexivity. lia.
Qed.
Lemma fmt_d_len n : zlen (fmt_d n) <= 21.
Proof.
  unfold fmt_d. destruct (n <? 0); [rewrite zlen_cons|];
  [pose proof (digits_of_len 20 (- n))|pose proof (digits_of_len 20 n)]; lia.
Qed.
