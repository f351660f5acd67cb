(** * C163: an answer is as long as it says, even if the file changes meanwhile *)
From Coq Require Import String.
From Verif Require Import Base Str_Spec Meta_Model Meta_Proofs S5_Model Hash_Model Hash_Props.
From Verif Require Import Http_Model Http_Spec Http_Proofs Http_Props Send_Model Send_Props.
From Verif Require Import Web_Spec Web_Model Web_Proofs Web_Props Web_Session_Props Web_Answer_Props Web_Equiv_Props.
Open Scope Z_scope.
Local Arguments Z.add : simpl never.
Local Arguments Z.sub : simpl never.
Local Arguments Z.mul : simpl never.
Local Arguments zlen : simpl never.

(** ** Specification
    [n]: the size of the file when it was looked up, which is announced; [F]: all that
    reading it delivers until its end, however the file is changed after that moment. The
    reader of the answer takes [n] bytes for the body. What comes behind them on a connection
    that is kept, they take for the next answer. *)
Definition read_as_body (n : Z) (w : list Z) : list Z := ztake n w.
Definition read_as_next (n : Z) (w : list Z) : list Z := zdrop n w.
(** however calls turn out: an answer that counts as finished has [n] bytes of body *)
Definition C163_property : Prop := forall n F ks rs fuel w, 0 < n < 2 ^ 31 ->
  ff_start fuel n F ks rs = Ok (FFDone, w) -> zlen w = n.

(** ** A file that was cut *)
(** It never counts as finished, so the connection ends before the announced length (or
    waits): the reader can tell. What they got is the beginning of the file. *)
Theorem C163_shrunk : forall n F ks rs fuel, zlen F < n -> (Datatypes.length ks + Datatypes.length rs < fuel)%nat ->
  exists st w, ff_start fuel n F ks rs = Ok (st, w) /\ st <> FFDone /\ (exists x, F = w ++ x).
Proof.
  intros n F ks rs fuel LN LF. destruct (meta_new_wf 16344) as (W & C & D); [lia|].
  pose proof (ff_spec fuel (meta_new 16344) n F ks rs [] F W C) as S.
  change (zlen (@nil Z)) with 0 in S. unfold ff_start. rewrite D in S. specialize (S eq_refl).
  destruct (ff_loop fuel _ _ _ _ _ _ _) as [(st, w)| |]; [|contradiction|cbn in S; lia].
  destruct S as ((x & E) & _ & DN & _). exists st, w. split; [reflexivity|]. split; [|eauto].
  intros ST. specialize (DN ST). rewrite E, zlen_app in LN. pose proof (zlen_nonneg x). lia.
Qed.
Print Assumptions C163_shrunk.

(** ** A file that grew *)
Lemma loop_eq f m fsize fsend rest ks rs wire : ff_loop (S f) m fsize fsend rest ks rs wire =
  (if 0 <? meta_getlen m then
        match ks with
        | [] => Ok (FFWait, wire)
        | KAgain :: t => ff_loop f m fsize fsend rest t rs wire
        | KIntr :: t => ff_loop f m fsize fsend rest t rs wire
        | KErr :: _ => Ok (FFClosed, wire)
        | KSent k :: t =>
            let n := Z.max 0 (Z.min k (meta_getlen m)) in
            ff_after f rs rest fsize (meta_consume m n) (fsend + n) t (wire ++ ztake n (mdata m))
        end
      else ff_after f rs rest fsize m fsend ks wire).
Proof. reflexivity. Qed.

Lemma cleared m : meta_wf m -> meta_cap m = 16344 -> meta_getlen m = 0 ->
  meta_wf (meta_clr m) /\ meta_cap (meta_clr m) = 16344 /\ mdata (meta_clr m) = [] /\ meta_getfree (meta_clr m) = 16344.
Proof.
  intros W C L. split; [apply meta_clr_wf; assumption|]. split; [exact C|]. split.
  - apply zlen_0_nil. rewrite mdata_len by (apply meta_clr_wf; assumption). reflexivity.
  - unfold meta_getfree, meta_clr. cbn [mlast]. unfold meta_cap in *. cbn [mbuf]. rewrite C. lia.
Qed.

(** at most one buffer too much *)
Lemma bound : forall fuel m n rest ks rs wire st w, meta_wf m -> meta_cap m = 16344 -> zlen wire < n ->
  ff_loop fuel m n (zlen wire) rest ks rs wire = Ok (st, w) -> zlen w < n + 16344.
Proof.
  induction fuel as [|f IH]; intros m n rest ks rs wire st w W C L E; [discriminate E|].
  assert (AFTER : forall m1 ks1 wire1, meta_wf m1 -> meta_cap m1 = 16344 -> zlen wire1 < n + 16344 ->
    ff_after f rs rest n m1 (zlen wire1) ks1 wire1 = Ok (st, w) -> zlen w < n + 16344).
  { intros m1 ks1 wire1 W1 C1 L1 E1. unfold ff_after in E1. destruct (Z.leb_spec n (zlen wire1)) as [X|X].
    { injection E1 as _ <-. exact L1. }
    cbv zeta in E1. set (m2 := if meta_getlen m1 =? 0 then meta_clr m1 else m1) in E1.
    assert (W2 : meta_wf m2 /\ meta_cap m2 = 16344).
    { unfold m2. destruct (Z.eqb_spec (meta_getlen m1) 0) as [Z0|Z0]; [|auto]. destruct (cleared m1 W1 C1 Z0) as (A & B & _). auto. }
    clearbody m2. destruct W2 as (W2 & C2). destruct (0 <? meta_getfree m2) eqn:P; [|exact (IH _ _ _ _ _ _ _ _ W2 C2 X E1)].
    destruct rs as [|[k|] rs]; [injection E1 as _ <-; lia| |injection E1 as _ <-; lia].
    apply Z.ltb_lt in P. set (got := ztake (Z.min (Z.max 1 k) (meta_getfree m2)) rest) in E1.
    assert (GB : zlen got <= meta_getfree m2) by (unfold got; rewrite zlen_ztake by lia; lia).
    clearbody got. destruct got as [|g got]; [injection E1 as _ <-; lia|].
    destruct (meta_store_ok m2 (g :: got) W2 GB) as (m3 & E3 & W3 & _ & C3 & _). rewrite E3 in E1. cbn [bind] in E1.
    apply (IH _ _ _ _ _ _ _ _ W3 ltac:(rewrite C3; exact C2) X E1). }
  rewrite loop_eq in E. destruct (Z.ltb_spec 0 (meta_getlen m)) as [P|P].
  - destruct ks as [|[k| | |] ks]; [injection E as _ <-; lia| |exact (IH _ _ _ _ _ _ _ _ W C L E)|exact (IH _ _ _ _ _ _ _ _ W C L E)|injection E as _ <-; lia].
    cbv zeta in E. set (q := Z.max 0 (Z.min k (meta_getlen m))) in E.
    assert (B : 0 <= q <= meta_getlen m) by lia. clearbody q.
    destruct (meta_consume_ok m q W B) as (W' & D').
    assert (ZW : zlen wire + q = zlen (wire ++ ztake q (mdata m))).
    { rewrite zlen_app, zlen_ztake, mdata_len by (assumption || lia). lia. }
    rewrite ZW in E. apply (AFTER _ _ _ W' C) in E; [exact E|]. rewrite <- ZW.
    assert (meta_getlen m <= 16344); [|lia]. destruct W as (A1 & A2). unfold meta_getlen, meta_cap in *. lia.
  - apply (AFTER m ks wire W C) in E; [exact E|lia].
Qed.

(** A finished answer has at least the announced bytes, all from the file, and less than
    one buffer (16344 bytes) more. *)
Theorem C163_partial : forall n F ks rs fuel w, 0 < n -> ff_start fuel n F ks rs = Ok (FFDone, w) ->
  n <= zlen w < n + 16344 /\ (exists x, F = w ++ x) /\ (zlen F = n -> w = F).
Proof.
  intros n F ks rs fuel w N E. destruct (meta_new_wf 16344) as (W & C & D); [lia|].
  pose proof (ff_spec fuel (meta_new 16344) n F ks rs [] F W C) as S.
  change (zlen (@nil Z)) with 0 in S. unfold ff_start in E. rewrite D in S. specialize (S eq_refl). rewrite E in S.
  destruct S as ((x & EX) & _ & DN & _). specialize (DN eq_refl).
  pose proof (bound fuel (meta_new 16344) n F ks rs [] FFDone w W C N E). split; [lia|]. split; [eauto|].
  intros L. rewrite EX, zlen_app in L. assert (x = []) as -> by (apply zlen_0_nil; pose proof (zlen_nonneg x); lia).
  rewrite EX, app_nil_r. reflexivity.
Qed.
Print Assumptions C163_partial.

(** every send takes all, every read fills the buffer *)
Lemma full_run n c : 0 < n -> 16344 * (c - 1) < n <= 16344 * c ->
  forall j i m d rest wire f, meta_wf m -> meta_cap m = 16344 -> mdata m = d -> d <> [] ->
    zlen wire = 16344 * i -> zlen wire < n -> zlen d = Z.min 16344 (zlen d + zlen rest) -> n <= zlen wire + zlen d + zlen rest ->
    c - i <= Z.of_nat j + 1 -> (j < f)%nat ->
    exists w x, ff_loop f m n (zlen wire) rest (repeat (KSent 16344) (S j)) (repeat (GetUp 16344) j) wire = Ok (FFDone, w) /\
      wire ++ d ++ rest = w ++ x /\ zlen w = Z.min (zlen wire + zlen d + zlen rest) (16344 * c).
Proof.
  intros N B. induction j as [|j IH]; intros i m d rest wire f W C D ND WI LW LD LN J FU; (destruct f as [|f]; [lia|]).
  all: assert (GL : meta_getlen m = zlen d) by (rewrite <- mdata_len, D by assumption; reflexivity);
    assert (0 < zlen d) by (destruct d; [contradiction|rewrite zlen_cons; pose proof (zlen_nonneg d); lia]);
    pose proof (zlen_nonneg rest);
    rewrite loop_eq, GL; (destruct (Z.ltb_spec 0 (zlen d)); [|lia]); cbn [repeat]; cbv zeta;
    replace (Z.max 0 (Z.min 16344 (zlen d))) with (zlen d) by lia;
    rewrite D, (ztake_all (zlen d) d) by lia; unfold ff_after.
  - destruct (Z.leb_spec n (zlen wire + zlen d)) as [X|X]; [|exfalso; lia].
    exists (wire ++ d), rest. split; [reflexivity|]. split; [now rewrite <- app_assoc|]. rewrite zlen_app. lia.
  - destruct (Z.leb_spec n (zlen wire + zlen d)) as [X|X].
    + exists (wire ++ d), rest. split; [reflexivity|]. split; [now rewrite <- app_assoc|]. rewrite zlen_app. lia.
    + destruct (meta_consume_ok m (zlen d) W ltac:(lia)) as (W' & D').
      assert (GC : meta_getlen (meta_consume m (zlen d)) = 0).
      { rewrite <- mdata_len, D', D by assumption. rewrite zdrop_all by lia. reflexivity. }
      rewrite GC. change (0 =? 0) with true. cbv zeta iota.
      destruct (cleared _ W' C GC) as (W2 & C2 & D2 & G2). rewrite G2. change (0 <? 16344) with true. cbv iota.
      replace (Z.min (Z.max 1 16344) 16344) with 16344 by lia.
      set (got := ztake 16344 rest).
      assert (LG : zlen got = Z.min 16344 (zlen rest)) by (unfold got; rewrite zlen_ztake by lia; lia).
      assert (SP : got ++ zdrop (zlen got) rest = rest).
      { unfold got. destruct (Z_le_gt_dec 16344 (zlen rest)) as [Y|Y].
        - rewrite zlen_ztake by lia. replace (Z.min 16344 (zlen rest)) with 16344 by lia. apply ztake_zdrop.
        - rewrite ztake_all by lia. rewrite zdrop_all by lia. apply app_nil_r. }
      assert (LR : zlen rest = zlen got + zlen (zdrop (zlen got) rest)) by (rewrite <- SP at 1; rewrite zlen_app; reflexivity).
      set (rest' := zdrop (zlen got) rest) in *. clearbody got rest'.
      destruct got as [|g got]; [exfalso; change (zlen (@nil Z)) with 0 in *; lia|].
      destruct (meta_store_ok _ (g :: got) W2 ltac:(rewrite G2, LG; lia)) as (m3 & E3 & W3 & D3 & C3 & _).
      rewrite E3. cbn [bind]. rewrite D2 in D3. cbn [app] in D3.
      replace (zlen wire + zlen d) with (zlen (wire ++ d)) by (rewrite zlen_app; reflexivity).
      destruct (IH (i + 1) m3 (g :: got) rest' (wire ++ d) f W3 ltac:(rewrite C3; exact C2) D3 ltac:(discriminate)) as (w & x & E & EX & LX);
        try (rewrite zlen_app; lia); try lia.
      exists w, x. split; [exact E|]. split; [rewrite <- EX, <- SP, <- !app_assoc; reflexivity|].
      rewrite LX, zlen_app. lia.
Qed.

(** False: buffers are filled from the file without regard to the announced length. If
    the file has grown, the rest of the last buffer is sent as well: up to the next
    multiple of 16344 bytes, or the new end of the file. *)
Theorem C163_refuted_any : forall n F, 0 < n -> n < zlen F ->
  exists ks rs fuel w, ff_start fuel n F ks rs = Ok (FFDone, w) /\ (exists x, F = w ++ x) /\
    zlen w = Z.min (zlen F) (16344 * ((n + 16343) / 16344)) /\ (n mod 16344 <> 0 -> n < zlen w).
Proof.
  intros n F N L. set (c := (n + 16343) / 16344).
  assert (B : 16344 * (c - 1) < n <= 16344 * c).
  { unfold c. pose proof (Z.div_mod (n + 16343) 16344 ltac:(lia)). pose proof (Z.mod_pos_bound (n + 16343) 16344 ltac:(lia)). lia. }
  set (j := Z.to_nat c).
  exists (repeat (KSent 16344) (S j)), (repeat (GetUp 16344) (S j)), (S (S j)).
  destruct (meta_new_wf 16344) as (W & C & D); [lia|].
  assert (G : meta_getfree (meta_new 16344) = 16344) by (unfold meta_getfree; rewrite C; reflexivity).
  set (d := ztake 16344 F). set (rest := zdrop (zlen d) F).
  assert (LD : zlen d = Z.min 16344 (zlen F)) by (unfold d; rewrite zlen_ztake by lia; lia).
  assert (SP : d ++ rest = F).
  { unfold rest, d. destruct (Z_le_gt_dec 16344 (zlen F)) as [Y|Y].
    - rewrite zlen_ztake by lia. replace (Z.min 16344 (zlen F)) with 16344 by lia. apply ztake_zdrop.
    - rewrite ztake_all by lia. rewrite zdrop_all by lia. apply app_nil_r. }
  assert (LR : zlen F = zlen d + zlen rest) by (rewrite <- SP at 1; apply zlen_app).
  unfold ff_start. rewrite loop_eq. change (meta_getlen (meta_new 16344)) with 0. change (0 <? 0) with false. cbv iota.
  unfold ff_after. destruct (Z.leb_spec n 0); [lia|]. cbv zeta.
  change (meta_getlen (meta_new 16344)) with 0. change (0 =? 0) with true. cbv iota.
  destruct (cleared (meta_new 16344) W C eq_refl) as (W2 & C2 & D2 & G2). rewrite G2. change (0 <? 16344) with true. cbv iota.
  cbn [repeat]. replace (Z.min (Z.max 1 16344) 16344) with 16344 by lia. fold d. fold rest. clearbody d rest.
  destruct d as [|g d]; [exfalso; change (zlen (@nil Z)) with 0 in *; lia|].
  destruct (meta_store_ok _ (g :: d) W2 ltac:(rewrite G2, LD; lia)) as (m3 & E3 & W3 & D3 & C3 & _).
  rewrite E3. cbn [bind]. rewrite D2 in D3. cbn [app] in D3.
  destruct (full_run n c N B j 0 m3 (g :: d) rest [] (S j) W3 ltac:(rewrite C3; exact C2) D3 ltac:(discriminate)) as (w & x & E & EX & LX);
    try (change (zlen (@nil Z)) with 0; lia).
  - change (zlen (@nil Z)) with 0 in E, LX. cbn [repeat] in E.
    exists w. split; [exact E|]. cbn [app] in EX. split; [exists x; rewrite <- EX; symmetry; exact SP|].
    split; [rewrite LX, LR; f_equal; lia|]. intros NM. rewrite LX.
    assert (n <> 16344 * c); [|lia]. intros X. apply NM. rewrite X, Z.mul_comm. apply Z_mod_mult.
Qed.
Print Assumptions C163_refuted_any.

(** False, from the request on: a file of [n] bytes that grows by [more] before it is
    read, to at most 16344 bytes. The head announces [n] bytes, all of the file is sent, and
    the connection is used for further answers if the request asks for it. So the reader takes
    what was added to the file for the next answer of the server. *)
Theorem C163_refuted_grown : forall e q old more, fair_env e -> plain_get q ->
  let p := place_of e (target_uri (rq_target q)) in
  In 46 p -> e_fs e p = Node true (zlen old) true -> old <> [] -> more <> [] -> zlen old + zlen more <= 16344 ->
  exists r m h t v ks rs,
    http_start 3 [RxData (print_req q)] = Ok (HComplete r m []) /\ q_keep r = existsb keep_hdr (rq_headers q) /\
    handle web_apis e r m = Ok (ARespond [h] (BFile (zlen old) p true)) /\
    response_head 200 (mdata h) (head_hdrs (e_date e) (existsb keep_hdr (rq_headers q)) v (Some (str "Content-type", t))) /\
    numeral v (zlen old) /\
    exists fuel w, ff_start fuel (zlen old) (old ++ more) ks rs = Ok (FFDone, w) /\
      read_as_body (zlen old) w = old /\ read_as_next (zlen old) w = more.
Proof.
  intros e q old more FE Q p IP FS NO NM L. destruct Q as (S & N & MG & WP & LU & NA & NU). pose proof WP as (_ & (t0 & ET)).
  assert (FP : p = full_path (e_home e) (e_index e) (target_uri (rq_target q))).
  { unfold p, place_of, full_path. rewrite ET. reflexivity. }
  assert (P1 : 0 < zlen old) by (destruct old; [contradiction|rewrite zlen_cons; pose proof (zlen_nonneg old); lia]).
  assert (P2 : 0 < zlen more) by (destruct more; [contradiction|rewrite zlen_cons; pose proof (zlen_nonneg more); lia]).
  destruct (one_request web_apis e q [] [] 3 S N ltac:(lia)) as (r & m & R & H & K). rewrite app_nil_r in R.
  assert (U : unread (print_req q) 4096 [] = []).
  { unfold unread. destruct S as (_ & _ & FIT). destruct (Z.leb_spec (zlen (print_req q)) 4096); [reflexivity|lia]. }
  rewrite U in R.
  destruct (answer_file e q p FE WP LU ltac:(rewrite MG; reflexivity) NA NU FP IP 200 (zlen old) true ltac:(lia)) as (h & t & v & A & RS & NV & _).
  { left. split; [reflexivity|exact FS]. }
  destruct (Z.ltb_spec 0 (zlen old)); [|lia]. rewrite A in H.
  destruct (C163_refuted_any (zlen old) (old ++ more) P1 ltac:(rewrite zlen_app; lia)) as (ks & rs & fuel & w & E & (x & EX) & LX & _).
  exists r, m, h, t, v, ks, rs. do 5 (split; [assumption|]). exists fuel, w. split; [exact E|].
  assert (EW : w = old ++ more).
  { assert (x = []) as ->; [|now rewrite app_nil_r in EX].
    apply zlen_0_nil. assert (LL : zlen (old ++ more) = zlen w + zlen x) by (rewrite EX at 1; apply zlen_app).
    assert ((zlen old + 16343) / 16344 = 1) as D1 by (symmetry; apply (Z.div_unique _ _ 1 (zlen old - 1)); lia).
    rewrite D1, zlen_app in LX. rewrite zlen_app in LL. pose proof (zlen_nonneg x). lia. }
  subst w. unfold read_as_body, read_as_next. split.
  - rewrite ztake_app_l by lia. apply ztake_all. lia.
  - rewrite zdrop_app_r by lia. rewrite Z.sub_diag. apply zdrop_le0. lia.
Qed.
Print Assumptions C163_refuted_grown.

(** ** Examples *)
Example C163_shrunk_example : ff_start 5 9 (str "hello") [KSent 20000; KSent 20000] [GetUp 20000; GetUp 20000] = Ok (FFClosed, str "hello").
Proof. vm_compute. reflexivity. Qed.
(** what is added to a file is read as an answer *)
Definition added : list Z := str "HTTP/1.1 200 OK" ++ [13; 10] ++ str "Content-Length: 0" ++ [13; 10; 13; 10].
Example C163_example : ff_start 5 5 (str "hello" ++ added) [KSent 16344] [GetUp 16344] = Ok (FFDone, str "hello" ++ added) /\
  read_as_next 5 (str "hello" ++ added) = added.
Proof. split; vm_compute; reflexivity. Qed.
Definition five : env := mkEnv (str "/srv/www") (str "index.html") (fun _ => Node true 5 true) (str "Sun, 06 Nov 1994 08:49:37 GMT") [0].
Example C163_grown_example : fair_env five /\ plain_get (Web_Props.get (str "/a.html")) /\
  e_fs five (place_of five (str "/a.html")) = Node true (zlen (str "hello")) true /\ zlen (str "hello") + zlen added <= 16344.
Proof.
  split; [|split; [exact get_a|split; [reflexivity|vm_compute; discriminate]]].
  split; [notin|]. split; [notin|]. split; [vm_compute; discriminate|]. split; [vm_compute; discriminate|].
  split; [apply no_crlf_b; reflexivity|vm_compute; discriminate].
Qed.
Theorem C163_property_refuted : ~ C163_property.
Proof.
  intros P. destruct C163_example as (E & _). pose proof (P 5 _ _ _ _ _ ltac:(lia) E) as L. vm_compute in L. discriminate L.
Qed.
Print Assumptions C163_property_refuted.
