(** * C58, C107: the whole answer to a request, from the bytes received to the bytes sent *)
From Verif Require Import Base Str_Spec Meta_Model Meta_Proofs S5_Model Hash_Model Hash_Props.
From Verif Require Import Http_Model Http_Spec Http_Proofs Http_Props Send_Model Send_Props.
From Verif Require Import Web_Spec Web_Model Web_Proofs Web_Props Web_Session_Props.
From Coq Require Import String.
Open Scope Z_scope.
Local Arguments Z.add : simpl never.
Local Arguments Z.sub : simpl never.
Local Arguments zlen : simpl never.

(** a configuration of ordinary size and the date line of the moment *)
Definition fair_env (e : env) : Prop :=
  no_nul (e_home e) /\ no_nul (e_index e) /\ zlen (e_home e) <= 255 /\ zlen (e_index e) <= 255 /\
  no_crlf (e_date e) /\ zlen (e_date e) <= 127.

Lemma type_small p t : has_type p t -> zlen t <= 24 /\ no_crlf t.
Proof.
  assert (DT : zlen default_type <= 24 /\ no_crlf default_type) by (split; [vm_compute; discriminate|apply no_crlf_b; reflexivity]).
  intros [(e & _ & ->)|(_ & ->)]; [|exact DT].
  destruct (assoc types e) as [v|] eqn:A; [|exact DT].
  assert (IN : In v (map snd types)).
  { clear - A. revert A. generalize types. induction l as [|(k, x) l IH]; [discriminate|]. cbn.
    destruct (bseq k e); [intros [= ->]; left; reflexivity|]. intros A. right. apply IH. exact A. }
  clear A. revert v IN. apply (proj1 (Forall_forall (fun v => zlen v <= 24 /\ no_crlf v) (map snd types))).
  repeat (apply Forall_cons; [split; [vm_compute; discriminate|apply no_crlf_b; reflexivity]|]). apply Forall_nil.
Qed.

Lemma to_int_small n : 0 <= n < 2 ^ 31 -> to_int n = n.
Proof. intros B. unfold to_int. rewrite Z.mod_small by lia. lia. Qed.

(** the answer for a path that is no API, by what is at the path *)
Lemma answer_file e q p : fair_env e -> wf_path (target_uri (rq_target q)) -> zlen (target_uri (rq_target q)) < 1024 ->
  method_code (rq_method q) = 1 -> target_uri (rq_target q) <> str "/echo" -> ~ occurs (str "../") (target_uri (rq_target q)) ->
  p = full_path (e_home e) (e_index e) (target_uri (rq_target q)) -> In 46 p ->
  forall code size op, 0 <= size < 2 ^ 31 ->
  (code = 200 /\ e_fs e p = Node true size op) \/ (code = 403 /\ size = 0 /\ op = false /\ exists s o, e_fs e p = Node false s o) ->
  exists h t v, answer web_apis e q = Ok (ARespond [h] (if 0 <? size then BFile size p op else BNone)) /\
    response_head code (mdata h) (head_hdrs (e_date e) (existsb keep_hdr (rq_headers q)) v (Some (str "Content-type", t))) /\
    numeral v size /\ has_type p t.
Proof.
  intros (Nh & Ni & Lh & Li & ND & LD) (V & _) LU MG NA ND2 EP IP code size op BS CASE. unfold answer.
  set (u := target_uri (rq_target q)) in *. rewrite MG. set (kp := existsb keep_hdr (rq_headers q)).
  assert (NU : no_nul u) by (intros I; rewrite Forall_forall in V; specialize (V 0 I); unfold visible in V; lia).
  unfold reply, handle. cbn [mbuf q_uri q_mtyp q_keep q_pay parsed].
  rewrite (router_short web_apis u (whole u) u) by (apply slot_whole || assumption).
  assert (FA : find (fun a => bseq (a_key a) u && (1 =? a_mtyp a)) web_apis = None).
  { unfold web_apis, api_reg. change (31 <? zlen (str "/echo")) with false. cbn iota. cbn [app find a_key a_mtyp].
    replace (bseq (str "/echo") u) with false; [reflexivity|]. symmetry. apply bseq_neq. intros X. apply NA. symmetry. exact X. }
  rewrite FA. change (1 =? 1) with true. cbn iota. cbn [bind fst].
  destruct (occursb (str "../") u) eqn:OC; [exfalso; apply ND2, occursb_spec; exact OC|].
  pose proof (zlen_nonneg (e_home e)). pose proof (zlen_nonneg u). pose proof (zlen_nonneg (e_index e)).
  rewrite (req_path_spec (e_home e) (e_index e) u (whole u) u) by (apply slot_whole || assumption || lia).
  destruct (Z.ltb_spec 2048 (zlen (e_home e) + zlen u)); [lia|]. rewrite andb_false_r. cbn [bind].
  assert (FL : zlen (full_path (e_home e) (e_index e) u) <= 2047).
  { unfold full_path. rewrite !zlen_app. destruct u as [|b u']; [rewrite zlen_cons; lia|].
    destruct (last (b :: u') 0 =? 47); [|change (zlen (@nil Z)) with 0]; lia. }
  rewrite ztake_all by lia. rewrite <- EP.
  unfold file_rsp. destruct (rsp_mime_type p IP) as (t & E & T). rewrite E. cbn [bind].
  destruct (type_small p t T) as (LT & NT). pose proof (zlen_nonneg t).
  rewrite !zlen_app. change (zlen (str "Content-type: ")) with 14. change (zlen [13; 10]) with 2.
  destruct (Z.ltb_spec 127 (14 + (zlen t + 2))); [lia|]. cbn [bind].
  assert (CD : In code [200; 403; 404; 500]) by (destruct CASE as [(-> & _)|(-> & _)]; cbn; auto).
  destruct (C59_partial code (e_date e) kp size (Some (str "Content-type", t)) CD ND LD BS) as (h & v & RH & RS & NV).
  { split; [split; [discriminate|]; split; [apply no_crlf_b; reflexivity|]; split; [notin|exact NT]|].
    unfold hline. cbn [fst snd]. rewrite !zlen_app. change (zlen (str "Content-type")) with 12. change (zlen (str ": ")) with 2.
    change (zlen crlf) with 2. lia. }
  exists h, t, v. split; [|split; [exact RS|split; [exact NV|exact T]]].
  change (option_map hline (Some (str "Content-type", t))) with (Some (str "Content-type: " ++ t ++ [13; 10])) in RH.
  destruct CASE as [(-> & ->)|(-> & -> & -> & s & o & ->)]; cbn [f_code f_size f_ext f_open].
  - rewrite to_int_small by assumption. rewrite RH. reflexivity.
  - rewrite RH. reflexivity.
Qed.

(** what goes out for the body of an answer, given the content of the file *)
Definition send_body (fuel : nat) (b : body) (F : list Z) (ks : list kres) (rs : list rres) : res (ffst * list Z) :=
  match b with
  | BNone => Ok (FFDone, [])
  | BFile n _ _ => ff_start fuel n F ks rs
  | BApi bs => Ok (FFDone, bs)
  end.

(** ** C107: a request for a readable file is answered with that file
    The request arrives in one piece; root and path as in the model; the file has less than
    2 GB and the path at least one dot. What is sent as head is a well-formed response head
    whose Content-Length is the size of the file; of the content exactly a prefix is sent,
    all of it if the response counts as finished. *)
Theorem C107_partial : forall e q F ks rs fuel, small q -> Forall not_clen (rq_headers q) -> fair_env e ->
  rq_method q = str "GET" -> wf_path (target_uri (rq_target q)) -> zlen (target_uri (rq_target q)) < 1024 ->
  target_uri (rq_target q) <> str "/echo" -> ~ occurs (str "../") (target_uri (rq_target q)) ->
  let p := full_path (e_home e) (e_index e) (target_uri (rq_target q)) in
  In 46 p -> e_fs e p = Node true (zlen F) true -> zlen F < 2 ^ 31 ->
  (Datatypes.length ks + Datatypes.length rs < fuel)%nat ->
  exists r m h b t v st w,
    http_start 3 [RxData (print_req q)] = Ok (HComplete r m []) /\ handle web_apis e r m = Ok (ARespond [h] b) /\
    response_head 200 (mdata h) (head_hdrs (e_date e) (existsb keep_hdr (rq_headers q)) v (Some (str "Content-type", t))) /\
    numeral v (zlen F) /\ has_type p t /\
    send_body fuel b F ks rs = Ok (st, w) /\ (exists x, F = w ++ x) /\ (st = FFDone -> w = F).
Proof.
  intros e q F ks rs fuel S N FE MG WP LU NA NO p IP FS LF FU.
  destruct (one_request web_apis e q [] [] 3 S N ltac:(lia)) as (r & m & R & H & K). rewrite app_nil_r in R.
  assert (U : unread (print_req q) 4096 [] = []).
  { unfold unread. destruct S as (_ & _ & FIT). destruct (Z.leb_spec (zlen (print_req q)) 4096); [reflexivity|lia]. }
  rewrite U in R. pose proof (zlen_nonneg F).
  destruct (answer_file e q p FE WP LU ltac:(rewrite MG; reflexivity) NA NO eq_refl IP 200 (zlen F) true ltac:(lia)) as (h & t & v & A & RS & NV & T).
  { left. split; [reflexivity|exact FS]. }
  rewrite A in H. destruct F as [|f0 F].
  - change (0 <? zlen (@nil Z)) with false in H. exists r, m, h, BNone, t, v, FFDone, [].
    do 6 (split; [first [exact R|exact H|exact RS|exact NV|exact T|reflexivity]|]). split; [exists []; reflexivity|reflexivity].
  - destruct (Z.ltb_spec 0 (zlen (f0 :: F))) as [_|X]; [|rewrite zlen_cons in X; pose proof (zlen_nonneg F); lia].
    destruct (C58_partial (f0 :: F) ks rs fuel ltac:(discriminate) FU) as (st & w & SB & PX & DN & _).
    exists r, m, h, (BFile (zlen (f0 :: F)) p true), t, v, st, w.
    do 6 (split; [first [exact R|exact H|exact RS|exact NV|exact T|exact SB]|]). split; [exact PX|exact DN].
Qed.
Print Assumptions C107_partial.

(** an unreadable file: 403, length 0, no body *)
Theorem C107_unreadable_partial : forall e q, small q -> Forall not_clen (rq_headers q) -> fair_env e ->
  rq_method q = str "GET" -> wf_path (target_uri (rq_target q)) -> zlen (target_uri (rq_target q)) < 1024 ->
  target_uri (rq_target q) <> str "/echo" -> ~ occurs (str "../") (target_uri (rq_target q)) ->
  let p := full_path (e_home e) (e_index e) (target_uri (rq_target q)) in
  In 46 p -> (exists n o, e_fs e p = Node false n o) ->
  exists r m h t v,
    http_start 3 [RxData (print_req q)] = Ok (HComplete r m []) /\ handle web_apis e r m = Ok (ARespond [h] BNone) /\
    response_head 403 (mdata h) (head_hdrs (e_date e) (existsb keep_hdr (rq_headers q)) v (Some (str "Content-type", t))) /\
    numeral v 0.
Proof.
  intros e q S N FE MG WP LU NA NO p IP FS.
  destruct (one_request web_apis e q [] [] 3 S N ltac:(lia)) as (r & m & R & H & K). rewrite app_nil_r in R.
  assert (U : unread (print_req q) 4096 [] = []).
  { unfold unread. destruct S as (_ & _ & FIT). destruct (Z.leb_spec (zlen (print_req q)) 4096); [reflexivity|lia]. }
  rewrite U in R.
  destruct (answer_file e q p FE WP LU ltac:(rewrite MG; reflexivity) NA NO eq_refl IP 403 0 false ltac:(lia)) as (h & t & v & A & RS & NV & T).
  { right. auto. }
  rewrite A in H. exists r, m, h, t, v. auto.
Qed.
Print Assumptions C107_unreadable_partial.

(** ** C58 for the two APIs: the announced length is that of what is sent *)
Lemma echo_head e keep len : fair_env e -> 0 <= len < 2 ^ 31 -> exists h v, rsp_head 200 (e_date e) keep len None = Ok [h] /\
  response_head 200 (mdata h) (head_hdrs (e_date e) keep v None) /\ numeral v len.
Proof.
  intros (_ & _ & _ & _ & ND & LD) B.
  destruct (C59_partial 200 (e_date e) keep len None (or_introl eq_refl) ND LD B I) as (h & v & A & C & D). eauto 10.
Qed.
Lemma handle_echo e r m mt : slot_at (mbuf m) (q_uri r) (str "/echo") -> q_mtyp r = mt -> mt = 1 \/ mt = 3 ->
  handle web_apis e r m = api_call e r (if mt =? 1 then 1 else 2).
Proof.
  intros SA EM CS. unfold handle. rewrite (router_short web_apis _ _ (str "/echo") _ _ SA) by (try notin; reflexivity).
  rewrite EM. destruct CS as [-> | ->]; reflexivity.
Qed.

Theorem C58_get_echo_partial : forall e q, small q -> Forall not_clen (rq_headers q) -> fair_env e ->
  rq_method q = str "GET" -> target_uri (rq_target q) = str "/echo" -> e_date e <> [] ->
  exists r m h v,
    http_start 3 [RxData (print_req q)] = Ok (HComplete r m []) /\ handle web_apis e r m = Ok (ARespond [h] (BApi (e_date e))) /\
    response_head 200 (mdata h) (head_hdrs (e_date e) (existsb keep_hdr (rq_headers q)) v None) /\ numeral v (zlen (e_date e)).
Proof.
  intros e q S N FE MG TU DN.
  destruct (one_request web_apis e q [] [] 3 S N ltac:(lia)) as (r & m & R & H & K). rewrite app_nil_r in R.
  assert (U : unread (print_req q) 4096 [] = []).
  { unfold unread. destruct S as (_ & _ & FIT). destruct (Z.leb_spec (zlen (print_req q)) 4096); [reflexivity|lia]. }
  rewrite U in R. pose proof (zlen_nonneg (e_date e)). pose proof FE as (_ & _ & _ & _ & _ & LD).
  destruct (echo_head e (existsb keep_hdr (rq_headers q)) (zlen (e_date e)) FE ltac:(lia)) as (h & v & A & B & C).
  exists r, m, h, v. split; [exact R|]. split; [|split; [exact B|exact C]]. rewrite H. unfold answer, reply. rewrite TU, MG.
  change (method_code (str "GET")) with 1.
  rewrite (handle_echo e _ _ 1) by (try apply slot_whole; auto). change (1 =? 1) with true. cbn iota.
  unfold api_call. change (1 =? 1) with true. cbn iota. unfold api_respond. cbn [q_keep parsed].
  destruct (Z.ltb_spec 16344 (zlen (e_date e))); [lia|]. rewrite A. cbn [bind]. destruct (e_date e); [contradiction|reflexivity].
Qed.
Print Assumptions C58_get_echo_partial.

(** the body phase keeps what the head gave *)
Lemma body_keeps : forall k r m ins r' m' ins', q_ph r = PBody -> http_run k r m ins = Ok (HComplete r' m' ins') ->
  q_uri r' = q_uri r /\ q_mtyp r' = q_mtyp r /\ q_keep r' = q_keep r.
Proof.
  induction k as [|k IH]; [discriminate|]. intros r m ins r' m' ins' P R. cbn [http_run] in R. rewrite P in R.
  assert (IS : forall n py m1 i, http_run k (set_pay r n py) m1 i = Ok (HComplete r' m' ins') ->
    q_uri r' = q_uri r /\ q_mtyp r' = q_mtyp r /\ q_keep r' = q_keep r).
  { intros n py m1 i X. apply IH in X; [exact X|exact P]. }
  destruct (q_pay r) as [py|].
  - destruct (meta_getlen py <? q_payn r).
    + destruct (do_recv py ins) as [[m1 ins1|ins1| |]|f|]; cbn [bind] in R; try discriminate R; eauto.
    + injection R as <- _ _. auto.
  - destruct (clen_loop _ _ _) as [[n|]|f|]; cbn [bind] in R; try discriminate R.
    destruct (0 <? n).
    + destruct (meta_fits n); [|discriminate R]. destruct (meta_getlen m =? 0); [eauto|].
      destruct (meta_pdata (meta_new n) (mdata m)) as [[o x]|f|]; cbn [bind fst snd] in R; try discriminate R.
      destruct o; [|discriminate R]. eauto.
    + injection R as <- _ _. auto.
Qed.

(** a posted body, in any pieces, comes back as it was sent, with its length announced *)
Theorem C58_post_echo_partial : forall e q n b0 ins fuel, small q -> announces q n -> 1 <= n <= 16344 -> fair_env e ->
  rq_method q = str "POST" -> target_uri (rq_target q) = str "/echo" ->
  Z.min (zlen b0) (4096 - zlen (print_req q)) <= n -> clean ins -> n <= zlen (b0 ++ flat ins) ->
  (Datatypes.length ins + 6 <= fuel)%nat ->
  exists r m h v ins', http_start fuel (RxData (print_req q ++ b0) :: ins) = Ok (HComplete r m ins') /\
    handle web_apis e r m = Ok (ARespond [h] (BApi (ztake n (b0 ++ flat ins)))) /\
    response_head 200 (mdata h) (head_hdrs (e_date e) (existsb keep_hdr (rq_headers q)) v None) /\ numeral v n.
Proof.
  intros e q n b0 ins fuel S A B FE MP TU L C N K. pose proof S as (_ & _ & FIT).
  destruct fuel as [|[|k]]; [lia|lia|].
  destruct (run_head q b0 ins k S) as (r & m & R & H). rewrite R.
  pose proof (zlen_nonneg b0).
  assert (FL : ztake (4096 - zlen (print_req q)) b0 ++ flat (unread (print_req q ++ b0) 4096 ins) = b0 ++ flat ins).
  { rewrite flat_unread by lia. rewrite zdrop_app_r by lia. rewrite app_assoc, ztake_zdrop. reflexivity. }
  destruct (body_run q r m _ n (unread (print_req q ++ b0) 4096 ins) k S H A B) as (r' & py & ins' & R' & P & _ & V & D & F & _).
  { rewrite zlen_ztake by lia. lia. } { apply clean_unread; [lia|assumption]. } { rewrite FL. exact N. }
  { unfold unread. destruct (zlen (print_req q ++ b0) <=? 4096); cbn [Datatypes.length]; lia. }
  rewrite FL in D.
  destruct (body_keeps _ _ _ _ _ _ _ (ho_ph _ _ _ _ H) R') as (KU & KM & KK).
  destruct (echo_head e (existsb keep_hdr (rq_headers q)) n FE ltac:(lia)) as (h & v & RH & RS & NV).
  exists r', m, h, v, ins'. split; [exact R'|]. split; [|split; [exact RS|exact NV]].
  rewrite (handle_echo e r' m 3).
  - change (3 =? 1) with false. cbn iota. unfold api_call. change (2 =? 1) with false. cbn iota. rewrite P.
    unfold api_respond. rewrite D, zlen_ztake by lia. rewrite Z.min_l by lia.
    destruct (Z.ltb_spec 16344 n); [lia|]. rewrite KK, (ho_keep _ _ _ _ H), RH. cbn [bind].
    destruct (b0 ++ flat ins) as [|x l]; [rewrite zlen_nil in N; lia|]. rewrite ztake_cons by lia. reflexivity.
  - rewrite KU, <- TU. exact (head_uri _ _ _ _ H).
  - rewrite KM, (ho_mtyp _ _ _ _ H), MP. reflexivity.
  - auto.
Qed.
Print Assumptions C58_post_echo_partial.

(** The full claim: every file that can be read is served. *)
Definition C107_property : Prop := forall e q (F : list Z), small q -> Forall not_clen (rq_headers q) -> fair_env e ->
  rq_method q = str "GET" -> target_uri (rq_target q) <> str "/echo" -> ~ occurs (str "../") (target_uri (rq_target q)) ->
  e_fs e (full_path (e_home e) (e_index e) (target_uri (rq_target q))) = Node true (zlen F) true ->
  exists h b, serve e (print_req q) = Ok (ARespond h b).
(** False of every file without a dot in its path. *)
Theorem C107_refuted : exists e q (F : list Z), small q /\ fair_env e /\ rq_method q = str "GET" /\ target_uri (rq_target q) = str "/README" /\
  e_fs e (full_path (e_home e) (e_index e) (str "/README")) = Node true (zlen F) true /\
  serve e (print_req q) = Fault FNull.
Proof.
  exists ex_env, (Web_Props.get (str "/README")), (zrepeat 65 1000). split.
  { split; [|split; vm_compute; discriminate]. split; [isword|]. split; [vm_compute; discriminate|]. split; [ispath|]. split; [isword|]. apply Forall_nil. }
  split.
  { split; [notin|]. split; [notin|]. split; [vm_compute; discriminate|]. split; [vm_compute; discriminate|].
    split; [apply no_crlf_b; reflexivity|vm_compute; discriminate]. }
  split; [reflexivity|]. split; [reflexivity|]. split; [reflexivity|]. vm_compute. reflexivity.
Qed.
Print Assumptions C107_refuted.
Theorem C107_property_refuted : ~ C107_property.
Proof.
  intros P. destruct (P ex_env (Web_Props.get (str "/README")) (zrepeat 65 1000)) as (h & b & E).
  - split; [|split; vm_compute; discriminate]. split; [isword|]. split; [vm_compute; discriminate|]. split; [ispath|]. split; [isword|]. apply Forall_nil.
  - constructor.
  - split; [notin|]. split; [notin|]. split; [vm_compute; discriminate|]. split; [vm_compute; discriminate|].
    split; [apply no_crlf_b; reflexivity|vm_compute; discriminate].
  - reflexivity.
  - discriminate.
  - intros O. apply occursb_spec in O. vm_compute in O. discriminate O.
  - reflexivity.
  - vm_compute in E. discriminate E.
Qed.
Print Assumptions C107_property_refuted.

Lemma ex_env_fair : fair_env ex_env.
Proof.
  split; [notin|]. split; [notin|]. split; [vm_compute; discriminate|]. split; [vm_compute; discriminate|].
  split; [apply no_crlf_b; reflexivity|vm_compute; discriminate].
Qed.
Example C107_example : let q := getk (str "/docs/") in
  small q /\ Forall not_clen (rq_headers q) /\ wf_path (target_uri (rq_target q)) /\ ~ occurs (str "../") (target_uri (rq_target q)) /\
  full_path (e_home ex_env) (e_index ex_env) (target_uri (rq_target q)) = str "/srv/www/docs/index.html" /\
  In 46 (str "/srv/www/docs/index.html") /\ e_fs ex_env (str "/srv/www/docs/index.html") = Node true (zlen (zrepeat 65 1000)) true /\
  send_body 9 (BFile 5 (str "/srv/www/docs/index.html") true) (str "hello") [KAgain; KSent 20000] [GetUp 9] = Ok (FFDone, str "hello").
Proof.
  split; [split; [|split; vm_compute; discriminate]; split; [isword|]; split; [vm_compute; discriminate|]; split; [ispath|]; split; [isword|];
    repeat (apply Forall_cons; [wfh|]); apply Forall_nil|].
  split; [repeat (apply Forall_cons; [apply not_clen_b; reflexivity|]); apply Forall_nil|]. split; [ispath|].
  split; [intros O; apply occursb_spec in O; vm_compute in O; discriminate O|].
  split; [reflexivity|]. split; [repeat (first [left; reflexivity|right])|]. split; [reflexivity|]. vm_compute. reflexivity.
Qed.
(** what such an answer looks like on the wire *)
Example C107_bytes_example : exists h, answer web_apis ex_env (getk (str "/docs/")) = Ok (ARespond [h] (BFile 1000 (str "/srv/www/docs/index.html") true)) /\
  mdata h = str "HTTP/1.1 200 OK" ++ crlf ++ str "Server: s5" ++ crlf ++ str "Date: Sun, 06 Nov 1994 08:49:37 GMT" ++ crlf ++
    str "Connection: keep-alive" ++ crlf ++ str "Content-Length: 1000" ++ crlf ++ str "Content-type: text/html" ++ crlf ++ crlf.
Proof. eexists. split; vm_compute; reflexivity. Qed.

Definition q_echo : request :=
  mkRequest (str "POST") (TPath (str "/echo")) (str "HTTP/1.1") [hdr "Host" "a"; hdr "Content-Length" "10"].
Example C58_post_echo_example : small q_echo /\ announces q_echo 10 /\ small (getk (str "/echo")) /\
  clean [RxAgain; RxData (str "defg"); RxData (str "hijXYZ")] /\
  exists r m h ins', http_start 10 [RxData (print_req q_echo ++ str "abc"); RxAgain; RxData (str "defg"); RxData (str "hijXYZ")]
      = Ok (HComplete r m ins') /\ handle web_apis ex_env r m = Ok (ARespond [h] (BApi (str "abcdefghij"))).
Proof.
  assert (S : small q_echo).
  { split; [|split; vm_compute; discriminate]. split; [isword|]. split; [vm_compute; discriminate|]. split; [ispath|]. split; [isword|].
    repeat (apply Forall_cons; [wfh|]). apply Forall_nil. }
  assert (A : announces q_echo 10).
  { exists [hdr "Host" "a"], (hdr "Content-Length" "10"), []. split; [reflexivity|]. split; [reflexivity|].
    split; [split; [discriminate|]; split; [repeat (apply Forall_cons; [vm_compute; split; discriminate|]); apply Forall_nil|reflexivity]|].
    split; [apply Forall_cons; [apply not_clen_b; reflexivity|apply Forall_nil]|apply Forall_nil]. }
  assert (C : clean [RxAgain; RxData (str "defg"); RxData (str "hijXYZ")]).
  { repeat (apply Forall_cons; [first [exact I|discriminate]|]). apply Forall_nil. }
  split; [exact S|]. split; [exact A|]. split; [exact getk_small2|]. split; [exact C|].
  destruct (C58_post_echo_partial ex_env q_echo 10 (str "abc") [RxAgain; RxData (str "defg"); RxData (str "hijXYZ")] 10 S A ltac:(lia) ex_env_fair eq_refl eq_refl)
    as (r & m & h & v & ins' & R & H & _).
  - vm_compute. discriminate.
  - exact C.
  - vm_compute. discriminate.
  - cbn. lia.
  - exists r, m, h, ins'. split; [exact R|exact H].
Qed.
