(** * C54-C60 and C84-C86: the web server. *)
From Verif Require Import Base Str_Spec Meta_Model Meta_Proofs S5_Model Hash_Model Hash_Props.
From Verif Require Import Http_Model Http_Spec Http_Proofs Http_Props Send_Model Send_Props.
From Verif Require Import Web_Spec Web_Model Web_Proofs.
From Coq Require Import String.
Open Scope Z_scope.
Local Arguments Z.add : simpl never.
Local Arguments Z.sub : simpl never.
Local Arguments Z.mul : simpl never.
Local Arguments Z.div : simpl never.
Local Arguments zlen : simpl never.

(** ** C54: dispatch to registered handlers *)
(** a successful registration: path, method, handler *)
Definition reg := (list Z * Z * Z)%type.
Definition apis_of (rs : list reg) : list api :=
  fold_left (fun l r => let '(k, m, h) := r in api_reg true l k h m) rs [].

Lemma apis_short rs : Forall (fun r : reg => zlen (fst (fst r)) <= 31) rs ->
  apis_of rs = map (fun r : reg => let '(k, m, h) := r in mkApi k m h) rs.
Proof.
  intros F. unfold apis_of.
  assert (G : forall l0, fold_left (fun l (r : reg) => let '(k, m, h) := r in api_reg true l k h m) rs l0
    = l0 ++ map (fun r : reg => let '(k, m, h) := r in mkApi k m h) rs); [|apply G].
  induction rs as [|((k, m), h) rs IH]; intros l0; [rewrite app_nil_r; reflexivity|].
  cbn [fold_left map]. pose proof (Forall_inv F) as L. cbn [fst] in L. unfold api_reg at 2.
  destruct (Z.ltb_spec 31 (zlen k)); [lia|]. rewrite (IH (Forall_inv_tail F)), <- app_assoc. reflexivity.
Qed.

(** Registered paths of at most 31 bytes: a request goes to a handler only if one
    is registered for exactly its path and method, and then to the first one. *)
Theorem C54_partial : forall rs buf s u mt stack,
  Forall (fun r : reg => zlen (fst (fst r)) <= 31) rs -> slot_at buf s u ->
  (forall a o, router (apis_of rs) buf s mt stack = Ok (RApi a, o) -> In (u, mt, a_handler a) rs) /\
  (forall h, In (u, mt, h) rs -> exists a rs1 rs2,
     router (apis_of rs) buf s mt stack = Ok (RApi a, false) /\
     rs = rs1 ++ (u, mt, a_handler a) :: rs2 /\ (forall h', ~ In (u, mt, h') rs1)).
Proof.
  intros rs buf s u mt stack F SA. unfold router. rewrite (api_find_spec buf s u) by assumption. cbn [bind].
  rewrite apis_short by assumption. split.
  - intros a o R. destruct (find _ _) as [a'|] eqn:E.
    + injection R as <- <-. apply find_some in E as (I & E). apply andb_true_iff in E as (E1 & E2).
      apply bseq_spec in E1. apply Z.eqb_eq in E2. apply in_map_iff in I as (((k, m), h) & <- & I).
      cbn in *. subst. exact I.
    + exfalso. destruct (negb (mt =? 1)); [discriminate|]. destruct (s_len s <? 0); [discriminate|].
      cbv zeta in R. destruct (1024 <? (if _ : bool then _ else _)); [discriminate|].
      destruct (rdbuf buf (s_off s) _); try discriminate. cbn [bind] in R.
      destruct (cstr (_ ++ stack)) as [x|]; [|discriminate]. cbn [of_opt bind] in R.
      destruct (occursb (str "../") x); discriminate.
  - intros h I. clear F. induction rs as [|((k, m), h0) rs IH]; [contradiction|].
    cbn [map find a_key a_mtyp]. destruct (bseq k u && (mt =? m)) eqn:E.
    + apply andb_true_iff in E as (E1 & E2). apply bseq_spec in E1 as ->. apply Z.eqb_eq in E2 as <-.
      exists (mkApi u mt h0), [], rs. split; [reflexivity|]. split; [reflexivity|]. intros h' [].
    + destruct I as [[= -> -> ->]|I].
      { rewrite bseq_refl, Z.eqb_refl in E. discriminate. }
      destruct (IH I) as (a & rs1 & rs2 & R & -> & N). exists a, ((k, m, h0) :: rs1), rs2.
      split; [exact R|]. split; [reflexivity|]. intros h' [[= -> -> ->]|X]; [|apply (N h'); exact X].
      rewrite bseq_refl, Z.eqb_refl in E. discriminate.
Qed.
Print Assumptions C54_partial.

Definition whole (u : list Z) : slot := mkSlot 0 (zlen u).
Lemma slot_whole u : slot_at u (whole u) u.
Proof. split; [reflexivity|]. exists [], []. rewrite app_nil_r. auto. Qed.

Example C54_ex : let rs := [(str "/echo", 1, 1); (str "/echo", 3, 2)] in
  Forall (fun r : reg => zlen (fst (fst r)) <= 31) rs /\ apis_of rs = web_apis /\
  router (apis_of rs) (str "/echo") (whole (str "/echo")) 3 [] = Ok (RApi (mkApi (str "/echo") 3 2), false) /\
  router (apis_of rs) (str "/echo2") (whole (str "/echo2")) 1 [] = Ok (RFile, false).
Proof.
  split; [repeat (apply Forall_cons; [vm_compute; discriminate|]); apply Forall_nil|].
  split; [reflexivity|]. split; vm_compute; reflexivity.
Qed.

(** A longer path is cut to 7 bytes when it is registered: requests to it are
    served as files, and requests to the 7-byte path, which nobody registered,
    reach the handler. *)
Definition long_key := str "/api/v1/statistics/of/all/sessions".
Theorem C54_refuted : exists rs u u' a,
  In (u, 1, 7) rs /\ router (apis_of rs) u (whole u) 1 [] = Ok (RFile, false) /\
  (forall m h, ~ In (u', m, h) rs) /\
  router (apis_of rs) u' (whole u') 1 [] = Ok (RApi a, false) /\ a_handler a = 7.
Proof.
  exists [(long_key, 1, 7)], long_key, (str "/api/v1"). eexists.
  split; [left; reflexivity|]. split; [vm_compute; reflexivity|].
  split; [intros m h [X|[]]; discriminate|]. split; vm_compute; reflexivity.
Qed.
Print Assumptions C54_refuted.

(** ** C55: files below the document root *)
Theorem C55_partial : forall apis buf s u stack home index cwd over,
  slot_at buf s u -> (exists t, u = 47 :: t) -> no_nul u -> no_nul home -> no_nul index ->
  zlen u < 1024 -> home <> [] -> zlen home <= 255 -> zlen index <= 255 ->
  Forall (fun x => x <> str "..") (segs index) ->
  last (segs u) [] <> str ".." ->
  router apis buf s 1 stack = Ok (RFile, over) ->
  exists p, req_path home index buf s = Ok p /\ below cwd home p.
Proof.
  intros apis buf s u stack home index cwd over SA (t & Eu) Nu Nh Ni Lu NE Lh Li SI LS R.
  rewrite (router_short apis buf s u) in R by assumption.
  destruct (find _ apis); [discriminate|]. change (1 =? 1) with true in R.
  destruct (occursb (str "../") u) eqn:OC; [discriminate|]. apply not_occurs in OC.
  assert (NS : forall x, In x (segs u) -> x <> str "..").
  { intros x I ->. apply in_segs_split in I as [I|I]; [|apply LS; symmetry; exact I].
    apply segs_occurs in I. apply OC. exact I. }
  pose proof (zlen_nonneg home). pose proof (zlen_nonneg u). pose proof (zlen_nonneg index).
  rewrite (req_path_spec home index buf s u) by (assumption || lia).
  destruct (Z.ltb_spec 2048 (zlen home + zlen u)); [lia|]. rewrite andb_false_r.
  assert (NEU : u <> []) by (rewrite Eu; discriminate).
  rewrite ztake_all.
  2:{ unfold full_path. rewrite !zlen_app. destruct u as [|b u']; [contradiction|].
      destruct (last (b :: u') 0 =? 47); [|change (zlen (@nil Z)) with 0]; lia. }
  eexists. split; [reflexivity|]. unfold full_path. subst u.
  destruct (Z.eqb_spec (last (47 :: t) 0) 47) as [EL|_].
  - destruct (last_snoc 0 (47 :: t) NEU) as (v & EV). rewrite EL in EV. destruct v as [|b v].
    + injection EV as ->. cbn [app]. apply below_ext; [assumption|]. exact SI.
    + injection EV as <- ->. cbn [app]. rewrite <- app_assoc. apply below_ext; [assumption|].
      cbn [app]. rewrite segs_app. apply Forall_app. split; [|exact SI].
      apply Forall_forall. intros x I. apply NS. cbn [segs].
      replace (47 =? 47) with true by reflexivity. right. rewrite segs_app. apply in_or_app. left. exact I.
  - rewrite app_nil_r. apply below_ext; [assumption|]. apply Forall_forall. intros x I. apply NS.
    cbn [segs]. replace (47 =? 47) with true by reflexivity. right. exact I.
Qed.
Print Assumptions C55_partial.

Definition ex_home := str "/srv/www".
Example C55_ex : let u := str "/a/./b..c/x.html" in
  slot_at u (whole u) u /\ router web_apis u (whole u) 1 [] = Ok (RFile, false) /\
  last (segs u) [] <> str ".." /\
  req_path ex_home (str "index.html") u (whole u) = Ok (str "/srv/www/a/./b..c/x.html") /\
  place [] (str "/srv/www/a/./b..c/x.html") = [str "x.html"; str "b..c"; str "a"; str "www"; str "srv"] /\
  router web_apis (str "/a/../b") (whole (str "/a/../b")) 1 [] = Ok (RClose, false).
Proof.
  split; [apply slot_whole|]. split; [vm_compute; reflexivity|]. split; [vm_compute; discriminate|].
  split; [vm_compute; reflexivity|]. split; vm_compute; reflexivity.
Qed.

(** a request as parsed: [reply] is what the server does with the target and the
    method of a request *)
Definition parsed (u : list Z) (mt : Z) (keep : bool) (pay : option meta) : hreq :=
  mkReq PBody slot0 slot0 slot0 (whole u) slot0 slot0 0 (repeat (slot0, slot0) 16) mt keep 0 pay.
Definition reply apis e (u : list Z) (mt : Z) (keep : bool) (pay : option meta) : res action :=
  handle apis e (parsed u mt keep pay) (mkMeta u 0 0).

Definition get (u : list Z) : request := mkRequest (str "GET") (TPath u) (str "HTTP/1.1") [].
(** what happens to a request that arrives in one piece on a new connection *)
Definition serve e (bs : list Z) : res action :=
  let* o := http_start 10 [RxData bs] in
  match o with HComplete r m _ => handle web_apis e r m | _ => Ok AClose end.

Definition ex_fs (p : list Z) : node := Node true 1000 true.
Definition ex_env : env := mkEnv ex_home (str "index.html") ex_fs (str "Sun, 06 Nov 1994 08:49:37 GMT") [0].

(** Only the first 1024 bytes of the path are searched for "../" (and the search
    runs on into the stack): a request served with a file outside the root. *)
Definition deep := zrepeat 47 1024 ++ str "../../etc/passwd".
Theorem C55_refuted : exists u p h,
  serve ex_env (print_req (get u)) = Ok (ARespond h (BFile 1000 p true)) /\
  place [] p = [str "passwd"; str "etc"] /\ ~ below [] ex_home p.
Proof.
  exists deep, (ex_home ++ deep). eexists. split; [vm_compute; reflexivity|]. split; [vm_compute; reflexivity|].
  intros (l & E). vm_compute in E.
  destruct l as [|a [|b [|c l]]]; try discriminate.
Qed.
Print Assumptions C55_refuted.

(** A final ".." is not refused either: the directory above the root is opened. *)
Theorem C55_refuted_dotdot : exists p h,
  serve ex_env (print_req (get (str "/.."))) = Ok (ARespond h (BFile 1000 p true)) /\
  ~ below [] ex_home p.
Proof.
  eexists _, _. split; [vm_compute; reflexivity|]. intros (l & E). vm_compute in E.
  destruct l as [|a [|b l]]; discriminate.
Qed.
Print Assumptions C55_refuted_dotdot.

(** ** C56: the path buffer *)
(** Exactly which request paths make the server write outside the buffer, for
    every root and index name a configuration can hold. *)
Theorem C56_exact : forall home index buf s u,
  slot_at buf s u -> no_nul home -> no_nul index -> no_nul u -> zlen home <= 255 -> zlen u < 2 ^ 31 ->
  (req_path home index buf s = Fault FOob <-> last u 0 = 47 /\ 2048 < zlen home + zlen u).
Proof.
  intros home index buf s u SA Nh Ni Nu Lh Lu. rewrite (req_path_spec home index buf s u) by (assumption || lia).
  destruct (Z.eqb_spec (last u 0) 47); destruct (Z.ltb_spec 2048 (zlen home + zlen u)); cbn [andb];
    split; try discriminate; try tauto; lia.
Qed.
Print Assumptions C56_exact.

(** Otherwise the path is home, request path and index name, cut to 2047 bytes. *)
Theorem C56_partial : forall home index buf s u,
  slot_at buf s u -> no_nul home -> no_nul index -> no_nul u -> zlen home <= 255 -> zlen u < 2 ^ 31 ->
  last u 0 <> 47 \/ zlen home + zlen u <= 2048 ->
  exists p, req_path home index buf s = Ok p /\ zlen p <= 2047 /\
    (zlen (full_path home index u) <= 2047 -> p = full_path home index u) /\
    (exists r, full_path home index u = p ++ r).
Proof.
  intros home index buf s u SA Nh Ni Nu Lh Lu C. rewrite (req_path_spec home index buf s u) by (assumption || lia).
  replace ((last u 0 =? 47) && (2048 <? zlen home + zlen u)) with false.
  2:{ symmetry. apply andb_false_iff. destruct C; [left; apply Z.eqb_neq; assumption|right; apply Z.ltb_ge; assumption]. }
  eexists. split; [reflexivity|]. split; [rewrite zlen_ztake by lia; lia|].
  split; [intros L; apply ztake_all; lia|]. eexists. rewrite ztake_zdrop. reflexivity.
Qed.
Print Assumptions C56_partial.

Example C56_ex : let u := str "/docs/" in
  last u 0 = 47 /\ req_path ex_home (str "index.html") u (whole u) = Ok (str "/srv/www/docs/index.html").
Proof. split; vm_compute; reflexivity. Qed.

(** the check of the path (webser.c:399-405) writes within its 1024 bytes for paths of every
    length; it reads behind them only if there are 1024 or more bytes without a NUL *)
Theorem C56_check_partial : forall apis buf s u mt stack, slot_at buf s u ->
  router apis buf s mt stack <> Fault FOob /\
  (zlen u < 1024 -> no_nul u -> exists r, router apis buf s mt stack = Ok (r, false)).
Proof.
  intros apis buf s u mt stack SA. split.
  - unfold router. rewrite (api_find_spec buf s u) by assumption. cbn [bind].
    destruct (find _ apis); [discriminate|]. destruct (negb (mt =? 1)); [discriminate|].
    assert (SL : s_len s = zlen u) by (destruct SA; assumption). rewrite SL. pose proof (zlen_nonneg u).
    destruct (Z.ltb_spec (zlen u) 0); [lia|]. cbv zeta.
    assert (B : 0 <= (if 1024 <? zlen u then 1024 else zlen u) <= zlen u) by (destruct (Z.ltb_spec 1024 (zlen u)); lia).
    replace (1024 <? (if 1024 <? zlen u then 1024 else zlen u)) with false by (destruct (Z.ltb_spec 1024 (zlen u)); lia).
    rewrite (rdbuf_at buf s u) by assumption. cbn [bind].
    destruct (cstr (_ ++ stack)); discriminate.
  - intros L N. rewrite (router_short apis buf s u) by assumption.
    destruct (find _ apis); [eauto|]. destruct (mt =? 1); eauto.
Qed.
Print Assumptions C56_check_partial.
Example C56_check_ex : let u := 47 :: zrepeat 97 1100 in
  slot_at u (whole u) u /\ 1024 < zlen u /\ router web_apis u (whole u) 1 [0] = Ok (RFile, true) /\
  router web_apis u (whole u) 1 [] = Fault FOverread.
Proof. split; [apply slot_whole|]. split; [vm_compute; reflexivity|]. split; vm_compute; reflexivity. Qed.

(** A single request does it. *)
Theorem C56_refuted : exists q, small q /\ serve ex_env (print_req q) = Fault FOob.
Proof.
  exists (get (zrepeat 47 2041)). split.
  - split; [|split; vm_compute; discriminate].
    split; [isword|]. split; [vm_compute; discriminate|]. split.
    + split; [|eexists; reflexivity]. apply visb_ok. vm_compute. reflexivity.
    + split; [isword|]. apply Forall_nil.
  - vm_compute. reflexivity.
Qed.
Print Assumptions C56_refuted.

(** ** C57: content types *)
Theorem C57_partial : forall fs p, In 46 p ->
  exists f t, file_rsp fs p = Ok f /\ has_type p t /\
    f_ext f = str "Content-type: " ++ t ++ [13; 10] /\
    f_code f = match fs p with NoNode => 400 | Node true _ _ => 200 | Node false _ _ => 403 end.
Proof.
  intros fs p I. unfold file_rsp. destruct (rsp_mime_type p I) as (t & E & T). rewrite E. cbn [bind].
  assert (L : zlen t <= 24).
  { destruct T as [(e & _ & ->)|(_ & ->)]; [|vm_compute; discriminate].
    destruct (assoc types e) as [v|] eqn:A; [|vm_compute; discriminate].
    assert (IN : In v (map snd types)).
    { clear - A. revert A. generalize types. induction l as [|(k, x) l IH]; [discriminate|]. cbn.
      destruct (bseq k e); [intros [= ->]; left; reflexivity|]. intros A. right. apply IH. exact A. }
    clear E. revert v IN A. apply (proj1 (Forall_forall (fun v => assoc types e = Some v -> zlen v <= 24) (map snd types))).
    repeat (apply Forall_cons; [intros _; vm_compute; discriminate|]). apply Forall_nil. }
  rewrite !zlen_app. change (zlen (str "Content-type: ")) with 14. change (zlen [13; 10]) with 2.
  destruct (Z.ltb_spec 127 (14 + (zlen t + 2))); [lia|].
  eexists _, t. split; [reflexivity|]. split; [exact T|]. destruct (fs p) as [|[] size op]; split; reflexivity.
Qed.
Print Assumptions C57_partial.

Example C57_ex : In 46 (str "/srv/www/a.b/x.json") /\ has_type (str "/srv/www/a.b/x.json") (str "application/json") /\
  has_type (str "/srv/www/a.b/README") (str "text/plain").
Proof.
  split; [repeat (first [left; reflexivity|right])|]. split.
  - left. exists (str ".json"). split; [|reflexivity]. exists (str "x"), (str "json"). split; [reflexivity|].
    split; [reflexivity|]. notin.
  - right. split; [notin|reflexivity].
Qed.

(** When no dot occurs in the whole path the lookup dereferences NULL, although
    the file exists and is readable. *)
Theorem C57_refuted : (forall fs p, ~ In 46 p -> file_rsp fs p = Fault FNull) /\
  exists q, small q /\ serve ex_env (print_req q) = Fault FNull.
Proof.
  split.
  - intros fs p N. unfold file_rsp. apply strrchr_none in N. rewrite N. reflexivity.
  - exists (get (str "/README")). split; [|vm_compute; reflexivity].
    split; [|split; vm_compute; discriminate].
    split; [isword|]. split; [vm_compute; discriminate|]. split; [ispath|]. split; [isword|]. apply Forall_nil.
Qed.
Print Assumptions C57_refuted.

(** ** C58: the announced length is what is sent *)
(** A regular file of the announced size: what the kernel has taken is always a
    prefix of the content; the response counts as finished exactly after the whole
    content; and if sends take whole buffers and nothing fails it is not aborted. *)
Theorem C58_partial : forall F ks rs fuel, F <> [] -> (Datatypes.length ks + Datatypes.length rs < fuel)%nat ->
  exists st w, ff_start fuel (zlen F) F ks rs = Ok (st, w) /\
    (exists x, F = w ++ x) /\ (st = FFDone -> w = F) /\
    (~ Exists (fun k => k = KErr) ks -> ~ Exists (fun r => r = GetErr) rs -> ~ Exists partial_send ks -> st <> FFClosed).
Proof.
  intros F ks rs fuel NE LF. destruct (meta_new_wf 16344) as (W & C & D); [lia|].
  pose proof (ff_spec fuel (meta_new 16344) (zlen F) F ks rs [] F W C) as S.
  change (zlen (@nil Z)) with 0 in S. unfold ff_start. rewrite D in S. specialize (S eq_refl).
  destruct (ff_loop fuel _ _ _ _ _ _ _) as [(st, w)| |]; [|contradiction|cbn in S; lia].
  destruct S as ((x & E) & _ & DN & CL). exists st, w. split; [reflexivity|]. split; [eauto|]. split.
  - intros ST. specialize (DN ST). rewrite E, zlen_app in DN.
    assert (x = []) as -> by (apply zlen_0_nil; pose proof (zlen_nonneg x); lia). rewrite E, app_nil_r. reflexivity.
  - intros A B P ST. destruct (CL ST) as [X|[X|[X|X]]]; try contradiction. lia.
Qed.
Print Assumptions C58_partial.

Example C58_ex : ff_start 9 5 (str "hello") [KAgain; KSent 20000] [GetUp 3; GetUp 9] = Ok (FFClosed, str "hel") -> False.
Proof. vm_compute. discriminate. Qed.
Example C58_ex2 : ff_start 9 5 (str "hello") [KAgain; KSent 20000; KSent 20000] [GetUp 3; GetUp 9] = Ok (FFDone, str "hello").
Proof. vm_compute. reflexivity. Qed.

(** A partial send of the last buffer aborts the response: the loop reads on while
    bytes are still pending, gets 0 at the end of the file and drops the
    connection. Whatever the file and however little is missing. *)
Theorem C58_refuted_partial_send : forall F k fuel ks rs, zlen F < 16344 -> 0 < k < zlen F -> (3 <= fuel)%nat ->
  ff_start fuel (zlen F) F (KSent k :: ks) (GetUp 16344 :: GetUp 1 :: rs) = Ok (FFClosed, ztake k F).
Proof.
  intros F k fuel ks rs LF B FU. destruct fuel as [|[|[|fuel]]]; try lia.
  destruct (meta_new_wf 16344) as (W & C & D); [lia|].
  assert (G : meta_getfree (meta_new 16344) = 16344) by (unfold meta_getfree; rewrite C; reflexivity).
  unfold ff_start. cbn [ff_loop]. cbv zeta.
  change (meta_getlen (meta_new 16344)) with 0. change (0 <? 0) with false. cbn [negb].
  destruct (Z.leb_spec (zlen F) 0); [lia|]. change (0 =? 0) with true.
  change (meta_clr (meta_new 16344)) with (meta_new 16344).
  cbn iota. change (meta_clr (meta_new 16344)) with (meta_new 16344).
  rewrite !G. change (0 <? 16344) with true. cbn iota.
  replace (Z.min (Z.max 1 16344) 16344) with 16344 by lia. rewrite (ztake_all 16344 F) by lia.
  destruct F as [|b F]; [change (zlen (@nil Z)) with 0 in B; lia|]. cbn iota.
  destruct (meta_store_ok (meta_new 16344) (b :: F) W) as (m & E & Wm & Dm & Cm & Pm & Lm); [lia|].
  rewrite E. cbn [bind]. cbn [ff_loop]. cbv zeta.
  assert (GL : meta_getlen m = zlen (b :: F)) by (rewrite <- mdata_len, Dm, D by assumption; reflexivity).
  rewrite GL. destruct (Z.ltb_spec 0 (zlen (b :: F))); [|lia].
  replace (Z.max 0 (Z.min k (zlen (b :: F)))) with k by lia. change (0 + k) with (Z.add 0 k).
  destruct (Z.leb_spec (zlen (b :: F)) (0 + k)); [lia|].
  assert (GC : meta_getlen (meta_consume m k) = zlen (b :: F) - k) by (rewrite <- GL; unfold meta_getlen, meta_consume; cbn; lia).
  rewrite GC. destruct (Z.eqb_spec (zlen (b :: F) - k) 0); [lia|].
  assert (GF : 0 <? meta_getfree (meta_consume m k) = true).
  { apply Z.ltb_lt. unfold meta_getfree, meta_consume. cbn [mlast]. unfold meta_cap in *. cbn [mbuf].
    rewrite Cm, C, Lm. change (mlast (meta_new 16344)) with 0. lia. }
  rewrite GF. rewrite zdrop_all by lia.
  assert (TN : ztake (Z.min (Z.max 1 1) (meta_getfree (meta_consume m k))) (@nil Z) = []).
  { unfold ztake. apply firstn_nil. }
  rewrite TN. rewrite Dm, D. reflexivity.
Qed.
Print Assumptions C58_refuted_partial_send.
Example C58_refuted_ex : exists F k, zlen F < 16344 /\ 0 < k < zlen F /\
  ff_start 3 (zlen F) F [KSent k] [GetUp 16344; GetUp 1] = Ok (FFClosed, str "hell").
Proof. exists (str "hello"), 4. split; [reflexivity|]. split; [split; reflexivity|]. vm_compute. reflexivity. Qed.

(** The size of a file of 2 GB or more is not announced. *)
Theorem C58_refuted_large : forall fs p size, In 46 p -> fs p = Node true size true -> 2 ^ 31 <= size ->
  exists f, file_rsp fs p = Ok f /\ f_code f = 200 /\ f_size f <> size.
Proof.
  intros fs p size I E L. destruct (C57_partial fs p I) as (f & t & Ef & _ & _ & Ec). exists f.
  split; [exact Ef|]. rewrite E in Ec. split; [exact Ec|]. unfold file_rsp in Ef.
  destruct (rsp_mime (strrchr_dot p)) as [mt| |]; try discriminate. cbn [bind] in Ef.
  destruct (127 <? _); [discriminate|]. rewrite E in Ef. injection Ef as <-. cbn [f_size]. unfold to_int.
  pose proof (Z.mod_pos_bound (size + 2 ^ 31) (2 ^ 32)). lia.
Qed.
Print Assumptions C58_refuted_large.
Example C58_large_ex : file_rsp (fun _ => Node true (2 ^ 32 + 5) true) (str "/big.iso")
  = Ok (mkFileRsp 200 5 true (str "Content-type: text/plain" ++ [13; 10])).
Proof. vm_compute. reflexivity. Qed.

(** A directory is announced with its size and then nothing is sent. *)
Theorem C58_refuted_directory : forall size fuel ks rs, 0 < size -> (1 <= fuel)%nat ->
  ff_start fuel size [] ks (GetErr :: rs) = Ok (FFClosed, []).
Proof.
  intros size fuel ks rs P F. destruct fuel; [lia|]. unfold ff_start. cbn [ff_loop].
  change (meta_getlen (meta_new 16344)) with 0. change (0 <? 0) with false.
  destruct (Z.leb_spec size 0); [lia|]. reflexivity.
Qed.
Print Assumptions C58_refuted_directory.

(** ** C59: response heads *)
Lemma no_crlf_b l : existsb (Z.eqb 13) l = false -> existsb (Z.eqb 10) l = false -> no_crlf l.
Proof. intros A B. split; apply notin_ok; assumption. Qed.

Definition head_hdrs (date : list Z) (keep : bool) (v : list Z) (ext : option (list Z * list Z)) : list (list Z * list Z) :=
  [(str "Server", str "s5"); (str "Date", date);
   (str "Connection", if keep then str "keep-alive" else str "close");
   (str "Content-Length", v)] ++ match ext with Some h => [h] | None => [] end.

Lemma numeral_no_crlf v n : numeral v n -> no_crlf v.
Proof. intros (_ & F & _). rewrite Forall_forall in F. split; intros I; specialize (F _ I); lia. Qed.

Theorem C59_partial : forall code date keep len ext,
  In code [200; 403; 404; 500] -> no_crlf date -> zlen date <= 127 -> 0 <= len < 2 ^ 31 ->
  match ext with Some h => wf_hline h /\ zlen (hline h) <= 1022 | None => True end ->
  exists m v, rsp_head code date keep len (option_map hline ext) = Ok [m] /\
    response_head code (mdata m) (head_hdrs date keep v ext) /\ numeral v len.
Proof.
  intros code date keep len ext IC ND LD BL WE.
  pose proof (fmt_d_ok len BL) as NV. pose proof (fmt_d_len len) as LV.
  unfold rsp_head.
  set (ts := [str "Server: s5" ++ crlf2; str "Date: " ++ date ++ crlf2;
             str "Connection: " ++ (if keep then str "keep-alive" else str "close") ++ crlf2;
             str "Content-Length: " ++ fmt_d len ++ crlf2]
            ++ match option_map hline ext with Some e => [e] | None => [] end ++ [crlf2]).
  assert (LT : Forall (fun t => zlen t <= 1022) ts /\ zlen (List.concat ts) <= 3000).
  { split.
    - subst ts. repeat (apply Forall_cons).
      + vm_compute. discriminate.
      + rewrite !zlen_app. change (zlen (str "Date: ")) with 6. change (zlen crlf2) with 2. lia.
      + destruct keep; vm_compute; discriminate.
      + rewrite !zlen_app. change (zlen (str "Content-Length: ")) with 16. change (zlen crlf2) with 2. lia.
      + apply Forall_app. split; [|apply Forall_cons; [vm_compute; discriminate|apply Forall_nil]].
        destruct ext; [|apply Forall_nil]. apply Forall_cons; [tauto|apply Forall_nil].
    - subst ts. cbn [app List.concat]. rewrite !zlen_app.
      change (zlen (str "Date: ")) with 6. change (zlen (str "Content-Length: ")) with 16. change (zlen crlf2) with 2.
      change (zlen (str "Server: s5")) with 10. change (zlen (str "Connection: ")) with 12.
      assert (zlen (if keep then str "keep-alive" else str "close") <= 10) by (destruct keep; vm_compute; discriminate).
      destruct ext as [h|]; cbn [option_map app List.concat]; rewrite ?zlen_app; change (zlen crlf2) with 2;
        change (zlen (@nil Z)) with 0; lia. }
  destruct LT as (LT1 & LT2).
  assert (ST : zlen (status_text code) <= 100).
  { unfold In in IC. repeat (destruct IC as [<-|IC]; [vm_compute; discriminate|]). contradiction. }
  destruct (hdrps_new (status_text code) ts) as (m & E & Wm & Dm).
  - constructor; [lia|exact LT1].
  - cbn [List.concat]. rewrite zlen_app. lia.
  - exists m, (fmt_d len). split; [exact E|]. split; [|exact NV]. rewrite Dm. cbn [List.concat].
    assert (WH : Forall wf_hline (head_hdrs date keep (fmt_d len) ext)).
    { unfold head_hdrs. apply Forall_app. split.
      - repeat (apply Forall_cons); try apply Forall_nil; (split; [discriminate|]; split; [apply no_crlf_b; reflexivity|]; split; [notin|]).
        + apply no_crlf_b; reflexivity.
        + exact ND.
        + destruct keep; apply no_crlf_b; reflexivity.
        + eapply numeral_no_crlf. exact NV.
      - destruct ext; [|apply Forall_nil]. apply Forall_cons; [tauto|apply Forall_nil]. }
    assert (CT : List.concat ts = List.concat (map hline (head_hdrs date keep (fmt_d len) ext)) ++ crlf).
    { subst ts. unfold head_hdrs. destruct ext as [h|]; cbn [option_map map app List.concat]; unfold hline; cbn [fst snd];
        rewrite ?app_nil_r, <- ?app_assoc; cbn [app]; reflexivity. }
    rewrite CT. unfold In in IC.
    repeat (destruct IC as [<-|IC]; [|]); try contradiction.
    + exists (str "200"). split; [split; [discriminate|]; split; [repeat (apply Forall_cons; [vm_compute; split; discriminate|]); apply Forall_nil|reflexivity]|].
      split; [reflexivity|]. split; [exact WH|]. reflexivity.
    + exists (str "403"). split; [split; [discriminate|]; split; [repeat (apply Forall_cons; [vm_compute; split; discriminate|]); apply Forall_nil|reflexivity]|].
      split; [reflexivity|]. split; [exact WH|]. reflexivity.
    + exists (str "404"). split; [split; [discriminate|]; split; [repeat (apply Forall_cons; [vm_compute; split; discriminate|]); apply Forall_nil|reflexivity]|].
      split; [reflexivity|]. split; [exact WH|]. reflexivity.
    + exists (str "500"). split; [split; [discriminate|]; split; [repeat (apply Forall_cons; [vm_compute; split; discriminate|]); apply Forall_nil|reflexivity]|].
      split; [reflexivity|]. split; [exact WH|]. reflexivity.
Qed.
Print Assumptions C59_partial.

Example C59_ex : exists m, rsp_head 200 (str "Sun, 06 Nov 1994 08:49:37 GMT") true 1234 (Some (hline (str "Content-type", str "text/html"))) = Ok [m] /\
  mdata m = str "HTTP/1.1 200 OK" ++ crlf ++ str "Server: s5" ++ crlf ++ str "Date: Sun, 06 Nov 1994 08:49:37 GMT" ++ crlf ++
    str "Connection: keep-alive" ++ crlf ++ str "Content-Length: 1234" ++ crlf ++ str "Content-type: text/html" ++ crlf ++ crlf.
Proof. eexists. split; vm_compute; reflexivity. Qed.

(** The status line of 400 lacks its CRLF: it swallows the first header. This is
    the answer to every request for a file that does not exist. *)
Theorem C59_refuted : exists q h m, small q /\
  serve (mkEnv ex_home (str "index.html") (fun _ => NoNode) (e_date ex_env) [0]) (print_req q) = Ok (ARespond h BNone) /\
  h = [m] /\ starts (str "HTTP/1.1 400 Bad RequestServer: s5") (mdata m) = true /\
  forall hs, ~ response_head 400 (mdata m) hs.
Proof.
  exists (get (str "/missing.html")). eexists _, _. split.
  { split; [|split; vm_compute; discriminate].
    split; [isword|]. split; [vm_compute; discriminate|]. split; [ispath|]. split; [isword|]. apply Forall_nil. }
  split; [vm_compute; reflexivity|]. split; [reflexivity|]. split; [vm_compute; reflexivity|].
  intros hs (c3 & _ & L3 & _ & E).
  destruct c3 as [|x1 [|x2 [|x3 [|x4 c3]]]]; try (vm_compute in L3; discriminate L3).
  - apply (f_equal (fun l => nth 24 l 0)) in E. vm_compute in E. discriminate E.
  - exfalso. rewrite !zlen_cons in L3. pose proof (zlen_nonneg c3). lia.
Qed.
Print Assumptions C59_refuted.
