(** * C60 and C84-C86: connections of the web server. *)
From Verif Require Import Base Str_Spec Meta_Model Meta_Proofs S5_Model Hash_Model Hash_Props.
From Verif Require Import Http_Model Http_Spec Http_Proofs Http_Props Send_Model Send_Props.
From Verif Require Import Web_Spec Web_Model Web_Proofs Web_Props.
From Coq Require Import String.
Open Scope Z_scope.
Local Arguments Z.add : simpl never.
Local Arguments Z.sub : simpl never.
Local Arguments Z.mul : simpl never.
Local Arguments Z.div : simpl never.
Local Arguments zlen : simpl never.

(** ** The answer depends on path, method, keep-alive flag and body only *)
Lemma router_at apis buf s u mt stack : slot_at buf s u ->
  router apis buf s mt stack = router apis u (whole u) mt stack.
Proof.
  intros SA. unfold router. rewrite (api_find_spec buf s u) by assumption.
  rewrite (api_find_spec u (whole u) u) by apply slot_whole. cbn [bind].
  destruct (find _ apis); [reflexivity|]. destruct (negb (mt =? 1)); [reflexivity|].
  assert (SL : s_len s = zlen u) by (destruct SA; assumption). rewrite SL. change (s_len (whole u)) with (zlen u).
  pose proof (zlen_nonneg u). destruct (Z.ltb_spec (zlen u) 0); [lia|].
  assert (B : 0 <= (if 1024 <? zlen u then 1024 else zlen u) <= zlen u) by (destruct (Z.ltb_spec 1024 (zlen u)); lia).
  cbv zeta.
  rewrite (rdbuf_at buf s u) by assumption. rewrite (rdbuf_at u (whole u) u) by (apply slot_whole || assumption).
  reflexivity.
Qed.
Lemma req_path_at home index buf s u : slot_at buf s u ->
  req_path home index buf s = req_path home index u (whole u).
Proof.
  intros SA. unfold req_path. destruct (snput (zrepeat 0 2048) 0 home) as [a| |]; try reflexivity. cbn [bind].
  assert (SL : s_len s = zlen u) by (destruct SA; assumption). rewrite SL. change (s_len (whole u)) with (zlen u).
  destruct (Z.ltb_spec 0 (zlen u)); [|reflexivity].
  rewrite (rdbuf_at buf s u) by (assumption || lia). rewrite (rdbuf_at u (whole u) u) by (apply slot_whole || lia).
  cbn [bind]. destruct (snput (fst a) (snd a) _) as [b| |]; try reflexivity. cbn [bind].
  assert (NE : u <> []) by (intros ->; change (zlen (@nil Z)) with 0 in *; lia).
  destruct (last_snoc 0 u NE) as (v & EV).
  assert (G : zget buf (s_off s + zlen u - 1) = Some (last u 0)).
  { rewrite <- SL. apply (slot_last buf s v). rewrite <- EV. exact SA. }
  assert (G' : zget u (s_off (whole u) + zlen u - 1) = Some (last u 0)).
  { change (zlen u) with (s_len (whole u)). apply (slot_last u (whole u) v). rewrite <- EV. apply slot_whole. }
  rewrite G, G'. reflexivity.
Qed.
Lemma handle_reply apis e r m u : slot_at (mbuf m) (q_uri r) u ->
  handle apis e r m = reply apis e u (q_mtyp r) (q_keep r) (q_pay r).
Proof.
  intros SA. unfold reply, handle. cbn [mbuf q_uri q_mtyp q_keep q_pay parsed].
  rewrite (router_at apis (mbuf m) (q_uri r) u) by assumption.
  rewrite (req_path_at (e_home e) (e_index e) (mbuf m) (q_uri r) u) by assumption. reflexivity.
Qed.

Lemma head_uri q r m rest : head_ok q r m rest -> slot_at (mbuf m) (q_uri r) (target_uri (rq_target q)).
Proof.
  intros H. destruct (ho_line _ _ _ _ H) as (_ & U & _). rewrite U. split; [reflexivity|]. cbn [s_off].
  assert (TP : exists tp, print_target (rq_target q) = tp ++ target_uri (rq_target q)).
  { destruct (rq_target q) as [u|s h [p|] u]; cbn [print_target target_uri].
    - exists []. reflexivity.
    - exists (s ++ [58; 47; 47] ++ h ++ [58] ++ p). rewrite <- !app_assoc. reflexivity.
    - exists (s ++ [58; 47; 47] ++ h). rewrite <- !app_assoc. reflexivity. }
  destruct TP as (tp & TP).
  pose proof (ho_at _ _ _ _ H) as A. unfold print_line in A. rewrite TP in A.
  assert (A' : at_off (mbuf m) (0 + zlen (rq_method q ++ [32] ++ tp)) (target_uri (rq_target q))).
  { apply (at_off_sub (mbuf m) 0 _ _ ([32] ++ rq_version q ++ crlf)). rewrite <- !app_assoc in *. exact A. }
  destruct A' as (pre & post & E & L). exists pre, post. split; [exact E|]. rewrite <- L, TP, !zlen_app.
  change (zlen [32]) with 1. lia.
Qed.

(** what the server answers to a request without body *)
Definition answer apis e (q : request) : res action :=
  reply apis e (target_uri (rq_target q)) (method_code (rq_method q)) (existsb keep_hdr (rq_headers q)) None.

(** one request in one piece *)
Lemma one_request apis e q rest ins fuel : small q -> Forall not_clen (rq_headers q) -> (3 <= fuel)%nat ->
  exists r m, http_start fuel (RxData (print_req q ++ rest) :: ins) = Ok (HComplete r m (unread (print_req q ++ rest) 4096 ins)) /\
    handle apis e r m = answer apis e q /\ q_keep r = existsb keep_hdr (rq_headers q).
Proof.
  intros S N F. destruct fuel as [|[|[|k]]]; try lia.
  destruct (run_head q rest ins (Datatypes.S k) S) as (r & m & R & H).
  rewrite R, (body_none k q r m _ _ S H N). eexists _, m. split; [reflexivity|]. split; [|exact (ho_keep _ _ _ _ H)].
  rewrite (handle_reply apis e _ m (target_uri (rq_target q))) by exact (head_uri _ _ _ _ H).
  unfold answer. cbn [q_mtyp q_keep q_pay set_pay]. rewrite (ho_keep _ _ _ _ H), (ho_mtyp _ _ _ _ H). reflexivity.
Qed.

(** ** C60 *)
Definition kept q := existsb keep_hdr (rq_headers q) = true.
Definition responds apis e q := exists h b, answer apis e q = Ok (ARespond h b).

(** Any number of requests on one connection, each arriving in a piece of its own:
    each gets the answer it would get on a connection of its own, in order. *)
Theorem C60_partial : forall apis e qs n fuel,
  Forall (fun q => small q /\ Forall not_clen (rq_headers q) /\ kept q /\ responds apis e q) qs ->
  (Datatypes.length qs < n)%nat -> (3 <= fuel)%nat ->
  exists acts, session n fuel apis e (map (fun q => RxData (print_req q)) qs) = Ok (acts, CWaiting) /\
    Forall2 (fun q a => answer apis e q = Ok a) qs acts.
Proof.
  intros apis e qs. induction qs as [|q qs IH]; intros n fuel F Ln Lf; (destruct n as [|n]; [cbn in Ln; lia|]).
  - exists []. split; [|constructor]. cbn [session map].
    destruct fuel as [|fuel]; [lia|]. reflexivity.
  - destruct (Forall_inv F) as (S & N & K & (h & b & A)).
    destruct (one_request apis e q [] (map (fun q => RxData (print_req q)) qs) fuel S N Lf) as (r & m & R & H & HK).
    rewrite !app_nil_r in R. cbn [session map]. rewrite R. cbn [bind]. rewrite H, A. cbn [bind]. rewrite HK.
    unfold kept in K. rewrite K.
    assert (U : unread (print_req q) 4096 (map (fun q => RxData (print_req q)) qs) = map (fun q => RxData (print_req q)) qs).
    { unfold unread. destruct S as (_ & _ & FIT). destruct (Z.leb_spec (zlen (print_req q)) 4096); [reflexivity|lia]. }
    rewrite U. destruct (IH n fuel (Forall_inv_tail F)) as (acts & E & FA); [cbn in Ln; lia|assumption|].
    rewrite E. cbn [bind fst snd]. eexists. split; [reflexivity|]. constructor; assumption.
Qed.
Print Assumptions C60_partial.

(** After a request that does not ask for it the connection is closed, whatever follows. *)
Theorem C60_closes_partial : forall apis e qs q more n fuel,
  Forall (fun q => small q /\ Forall not_clen (rq_headers q) /\ kept q /\ responds apis e q) qs ->
  small q -> Forall not_clen (rq_headers q) -> ~ kept q -> responds apis e q ->
  (Datatypes.length qs < n)%nat -> (3 <= fuel)%nat ->
  exists acts, session n fuel apis e (map (fun q => RxData (print_req q)) (qs ++ [q]) ++ more) = Ok (acts, CClosed) /\
    Forall2 (fun q a => answer apis e q = Ok a) (qs ++ [q]) acts.
Proof.
  intros apis e qs q more n fuel F S1 N1 K1 (h1 & b1 & A1). revert n F.
  induction qs as [|q0 qs IH]; intros n F Ln Lf; (destruct n as [|n]; [cbn in Ln; lia|]); cbn [app map].
  - destruct (one_request apis e q [] more fuel S1 N1 Lf) as (r & m & R & H & HK).
    rewrite !app_nil_r in R. cbn [session]. rewrite R. cbn [bind]. rewrite H, A1. cbn [bind]. rewrite HK.
    unfold kept in K1. destruct (existsb keep_hdr (rq_headers q)); [destruct K1; reflexivity|].
    eexists. split; [reflexivity|]. constructor; [exact A1|constructor].
  - destruct (Forall_inv F) as (S & N & K & (h & b & A)).
    set (rest := map (fun q => RxData (print_req q)) (qs ++ [q]) ++ more) in *.
    destruct (one_request apis e q0 [] rest fuel S N Lf) as (r & m & R & H & HK).
    rewrite !app_nil_r in R. cbn [session]. rewrite R. cbn [bind]. rewrite H, A. cbn [bind]. rewrite HK.
    unfold kept in K. rewrite K.
    assert (U : unread (print_req q0) 4096 rest = rest).
    { unfold unread. destruct S as (_ & _ & FIT). destruct (Z.leb_spec (zlen (print_req q0)) 4096); [reflexivity|lia]. }
    rewrite U. destruct (IH n (Forall_inv_tail F)) as (acts & E & FA); [cbn in Ln; lia|assumption|].
    rewrite E. cbn [bind fst snd]. eexists. split; [reflexivity|]. constructor; assumption.
Qed.
Print Assumptions C60_closes_partial.

Definition getk (u : list Z) : request := mkRequest (str "GET") (TPath u) (str "HTTP/1.1") [hdr "Connection" "keep-alive"].
Lemma getk_small1 : small (getk (str "/a.html")).
Proof.
  split; [|split; vm_compute; discriminate].
  split; [isword|]. split; [vm_compute; discriminate|]. split; [ispath|]. split; [isword|].
  repeat (apply Forall_cons; [wfh|]). apply Forall_nil.
Qed.
Lemma getk_small2 : small (getk (str "/echo")).
Proof.
  split; [|split; vm_compute; discriminate].
  split; [isword|]. split; [vm_compute; discriminate|]. split; [ispath|]. split; [isword|].
  repeat (apply Forall_cons; [wfh|]). apply Forall_nil.
Qed.
Example C60_ex : Forall (fun q => small q /\ Forall not_clen (rq_headers q) /\ kept q /\ responds web_apis ex_env q)
  [getk (str "/a.html"); getk (str "/echo")].
Proof.
  apply Forall_cons; [split; [exact getk_small1|]|apply Forall_cons; [split; [exact getk_small2|]|apply Forall_nil]];
    (split; [repeat (apply Forall_cons; [apply not_clen_b; reflexivity|]); apply Forall_nil|];
     split; [reflexivity|]; eexists _, _; vm_compute; reflexivity).
Qed.

Definition getc (u : list Z) : request := mkRequest (str "GET") (TPath u) (str "HTTP/1.1") [hdr "Connection" "close"].
Lemma getc_small : small (getc (str "/a.html")).
Proof.
  split; [|split; vm_compute; discriminate].
  split; [isword|]. split; [vm_compute; discriminate|]. split; [ispath|]. split; [isword|].
  repeat (apply Forall_cons; [wfh|]). apply Forall_nil.
Qed.
Example C60_closes_ex : small (getc (str "/a.html")) /\ Forall not_clen (rq_headers (getc (str "/a.html"))) /\
  ~ kept (getc (str "/a.html")) /\ responds web_apis ex_env (getc (str "/a.html")).
Proof.
  split; [exact getc_small|]. split; [repeat (apply Forall_cons; [apply not_clen_b; reflexivity|]); apply Forall_nil|].
  split; [discriminate|]. eexists _, _. vm_compute. reflexivity.
Qed.

(** The same two requests in one piece: the second one is lost, the server waits. *)
Theorem C60_refuted : exists q1 q2 a1 a2, small q1 /\ small q2 /\ kept q1 /\ kept q2 /\
  session 5 9 web_apis ex_env [RxData (print_req q1); RxData (print_req q2)] = Ok ([a1; a2], CWaiting) /\
  session 5 9 web_apis ex_env [RxData (print_req q1 ++ print_req q2)] = Ok ([a1], CWaiting).
Proof.
  exists (getk (str "/a.html")), (getk (str "/echo")). eexists _, _.
  split; [exact getk_small1|]. split; [exact getk_small2|]. split; [reflexivity|]. split; [reflexivity|].
  split; vm_compute; reflexivity.
Qed.
Print Assumptions C60_refuted.

(** In general everything received behind a request is lost: what the connection
    answers does not depend on it. *)
Theorem C60_lost : forall apis e q rest n fuel, small q -> Forall not_clen (rq_headers q) ->
  zlen (print_req q ++ rest) <= 4096 -> (3 <= fuel)%nat ->
  session n fuel apis e [RxData (print_req q ++ rest)] = session n fuel apis e [RxData (print_req q)].
Proof.
  intros apis e q rest n fuel S N L F. destruct n as [|n]; [reflexivity|]. cbn [session].
  destruct (one_request apis e q rest [] fuel S N F) as (r & m & R & H & K).
  destruct (one_request apis e q [] [] fuel S N F) as (r' & m' & R' & H' & K').
  rewrite app_nil_r in R'. rewrite R, R'. cbn [bind]. rewrite H, H', K, K'.
  assert (U : unread (print_req q ++ rest) 4096 [] = unread (print_req q) 4096 []).
  { unfold unread. destruct S as (_ & _ & FIT).
    destruct (Z.leb_spec (zlen (print_req q ++ rest)) 4096); [|lia].
    destruct (Z.leb_spec (zlen (print_req q)) 4096); [reflexivity|lia]. }
  rewrite U. reflexivity.
Qed.
Print Assumptions C60_lost.

(** ** C85: secret mode *)
(** Whatever a client sends in its first piece, unless it is the tunnel's magic
    number, it never gets an answer: the server waits for other bytes. *)
Theorem C85_refuted_any : forall d fuel, d <> [] -> zlen d <= 8192 -> ztake 4 d <> MAGIC -> (3 <= fuel)%nat ->
  transfer fuel [RxData d] = Ok TWait \/
  transfer fuel [RxData d] = Ok (THttp (HWait req_new (meta_new 4096))).
Proof.
  intros d fuel NE L M F. destruct fuel as [|[|[|k]]]; try lia. unfold transfer. cbn [transfer_loop].
  change (meta_getlen (meta_new 8192)) with 0. change (0 <? 36) with true. cbn iota.
  destruct (meta_new_wf 8192) as (W & C & D); [lia|].
  assert (G : meta_getfree (meta_new 8192) = 8192) by (unfold meta_getfree; rewrite C; reflexivity).
  destruct d as [|b d]; [contradiction|].
  destruct (do_recv_data (meta_new 8192) b d [] W) as (m & R & W' & D' & C' & P' & L' & _); [lia|].
  rewrite R. cbn [bind]. rewrite G in *. rewrite D in D'. cbn [app] in D'. rewrite ztake_all in D' by lia.
  assert (U : unread (b :: d) 8192 [] = []) by (unfold unread; destruct (Z.leb_spec (zlen (b :: d)) 8192); [reflexivity|lia]).
  rewrite U. cbn [transfer_loop].
  assert (GL : meta_getlen m = zlen (b :: d)) by (rewrite <- mdata_len, D' by assumption; reflexivity).
  rewrite GL. destruct (Z.ltb_spec (zlen (b :: d)) 36) as [S|S].
  - left. unfold do_recv. replace (meta_getfree m <? 1) with false; [reflexivity|]. symmetry. apply Z.ltb_ge.
    unfold meta_getfree. change (mpos (meta_new 8192)) with 0 in *. unfold meta_getlen in GL. lia.
  - right. replace (bseq (zslice (mpos m) (mpos m + 4) (mbuf m)) MAGIC) with false; [reflexivity|].
    symmetry. apply bseq_neq. intros X. apply M. rewrite <- X, <- D'. unfold mdata, zslice.
    rewrite ztake_ztake by lia. f_equal. unfold meta_getlen in GL. lia.
Qed.
Print Assumptions C85_refuted_any.

Theorem C85_refuted : exists q, small q /\ responds web_apis ex_env q /\
  transfer 9 [RxData (print_req q)] = Ok (THttp (HWait req_new (meta_new 4096))).
Proof.
  exists (getk (str "/a.html")). split; [exact getk_small1|]. split; [eexists _, _; vm_compute; reflexivity|].
  vm_compute. reflexivity.
Qed.
Print Assumptions C85_refuted.

(** ** C86: serving a well-formed request does not crash *)
Theorem C86_partial : forall e q,
  wf_path (target_uri (rq_target q)) -> zlen (target_uri (rq_target q)) < 1024 ->
  no_nul (e_home e) -> no_nul (e_index e) -> zlen (e_home e) <= 255 -> zlen (e_index e) <= 255 ->
  no_crlf (e_date e) -> zlen (e_date e) <= 127 ->
  In 46 (e_home e ++ target_uri (rq_target q)) ->
  method_code (rq_method q) <> 3 ->
  exists a, answer web_apis e q = Ok a.
Proof.
  intros e q (V & _) LU Nh Ni Lh Li ND LD DOT NP. unfold answer. set (u := target_uri (rq_target q)) in *.
  set (mt := method_code (rq_method q)) in *. set (kp := existsb keep_hdr (rq_headers q)).
  assert (NU : no_nul u) by (intros I; rewrite Forall_forall in V; specialize (V 0 I); unfold visible in V; lia).
  unfold reply, handle. cbn [mbuf q_uri q_mtyp q_keep q_pay parsed].
  rewrite (router_short web_apis u (whole u) u) by (apply slot_whole || assumption).
  destruct (find _ web_apis) as [a|] eqn:FA.
  - cbn [bind fst]. apply find_some in FA as (I & E). apply andb_true_iff in E as (_ & E2). apply Z.eqb_eq in E2.
    assert (H1 : a_handler a = 1).
    { unfold web_apis in I. cbn in I. destruct I as [<-|[<-|[]]]; [reflexivity|]. cbn in E2. congruence. }
    unfold api_call. rewrite H1. change (1 =? 1) with true. cbn iota. unfold api_respond. cbn [q_keep parsed].
    destruct (Z.ltb_spec 16344 (zlen (e_date e))); [lia|].
    destruct (C59_partial 200 (e_date e) kp (zlen (e_date e)) None) as (m & v & E & _); auto.
    + left. reflexivity.
    + pose proof (zlen_nonneg (e_date e)). lia.
    + cbn [option_map] in E. rewrite E. cbn [bind]. eauto.
  - destruct (mt =? 1); [|cbn [bind fst]; eauto]. cbn [bind fst].
    destruct (occursb (str "../") u); [eauto|].
    pose proof (zlen_nonneg (e_home e)). pose proof (zlen_nonneg u). pose proof (zlen_nonneg (e_index e)).
    rewrite (req_path_spec (e_home e) (e_index e) u (whole u) u) by (apply slot_whole || assumption || lia).
    destruct (Z.ltb_spec 2048 (zlen (e_home e) + zlen u)); [lia|]. rewrite andb_false_r. cbn [bind].
    assert (FL : zlen (full_path (e_home e) (e_index e) u) <= 2047).
    { unfold full_path. rewrite !zlen_app. destruct u as [|b u']; [rewrite zlen_cons; lia|].
      destruct (last (b :: u') 0 =? 47); [|change (zlen (@nil Z)) with 0]; lia. }
    rewrite ztake_all by lia. set (p := full_path (e_home e) (e_index e) u) in *.
    assert (IP : In 46 p).
    { unfold p, full_path. rewrite app_assoc. apply in_or_app. left. exact DOT. }
    destruct (C57_partial (e_fs e) p IP) as (f & t & EF & HT & EX & EC). rewrite EF. cbn [bind].
    (* the head, for any status *)
    assert (HD : exists h, rsp_head (f_code f) (e_date e) kp (f_size f) (Some (f_ext f)) = Ok h).
    { unfold rsp_head. cbn [app].
      destruct (hdrps_new (status_text (f_code f)) [str "Server: s5" ++ crlf2; str "Date: " ++ e_date e ++ crlf2;
             str "Connection: " ++ (if kp then str "keep-alive" else str "close") ++ crlf2;
             str "Content-Length: " ++ fmt_d (f_size f) ++ crlf2; f_ext f; crlf2]) as (m & E & _).
      - assert (LX : zlen (f_ext f) <= 127).
        { unfold file_rsp in EF. destruct (rsp_mime _) as [mm| |]; try discriminate. cbn [bind] in EF.
          destruct (Z.ltb_spec 127 (zlen (str "Content-type: " ++ mm ++ [13; 10]))) as [|HB]; [discriminate|].
          injection EF as <-. clear - HB. destruct (e_fs e p) as [|[] ? ?]; exact HB. }
        assert (LS : zlen (status_text (f_code f)) <= 100) by (rewrite EC; destruct (e_fs e p) as [|[] ? ?]; vm_compute; discriminate).
        pose proof (fmt_d_len (f_size f)).
        repeat (apply Forall_cons).
        + lia.
        + vm_compute. discriminate.
        + rewrite !zlen_app. change (zlen (str "Date: ")) with 6. change (zlen crlf2) with 2. lia.
        + destruct kp; vm_compute; discriminate.
        + rewrite !zlen_app. change (zlen (str "Content-Length: ")) with 16. change (zlen crlf2) with 2. lia.
        + lia.
        + vm_compute. discriminate.
        + apply Forall_nil.
      - assert (LX : zlen (f_ext f) <= 127).
        { unfold file_rsp in EF. destruct (rsp_mime _) as [mm| |]; try discriminate. cbn [bind] in EF.
          destruct (Z.ltb_spec 127 (zlen (str "Content-type: " ++ mm ++ [13; 10]))) as [|HB]; [discriminate|].
          injection EF as <-. clear - HB. destruct (e_fs e p) as [|[] ? ?]; exact HB. }
        assert (LS : zlen (status_text (f_code f)) <= 100) by (rewrite EC; destruct (e_fs e p) as [|[] ? ?]; vm_compute; discriminate).
        pose proof (fmt_d_len (f_size f)). cbn [List.concat]. rewrite !zlen_app.
        assert (zlen (if kp then str "keep-alive" else str "close") <= 10) by (destruct kp; vm_compute; discriminate).
        change (zlen (str "Date: ")) with 6. change (zlen (str "Content-Length: ")) with 16. change (zlen crlf2) with 2.
        change (zlen (str "Server: s5")) with 10. change (zlen (str "Connection: ")) with 12. change (zlen (@nil Z)) with 0. lia.
      - exists [m]. exact E. }
    destruct HD as (h & HD). rewrite HD. cbn [bind]. eauto.
Qed.
Print Assumptions C86_partial.

Example C86_ex : let q := getk (str "/docs/a.html") in
  wf_path (target_uri (rq_target q)) /\ In 46 (e_home ex_env ++ target_uri (rq_target q)) /\
  method_code (rq_method q) <> 3 /\ exists h, answer web_apis ex_env q = Ok (ARespond h (BFile 1000 (str "/srv/www/docs/a.html") true)).
Proof.
  split; [ispath|]. split; [repeat (first [left; reflexivity|right])|]. split; [vm_compute; discriminate|].
  eexists. vm_compute. reflexivity.
Qed.

(** Three small requests that crash the worker process: a POST to /echo without
    body, a file name without dot (C57_refuted), and a request line without version (its path
    gets a negative length, which memcpy takes for an enormous one). *)
Theorem C86_refuted_post : exists q, small q /\ serve ex_env (print_req q) = Fault FNull.
Proof.
  exists (mkRequest (str "POST") (TPath (str "/echo")) (str "HTTP/1.1") [hdr "Host" "a"]). split; [|vm_compute; reflexivity].
  split; [|split; vm_compute; discriminate].
  split; [isword|]. split; [vm_compute; discriminate|]. split; [ispath|]. split; [isword|].
  repeat (apply Forall_cons; [wfh|]). apply Forall_nil.
Qed.
Print Assumptions C86_refuted_post.
Theorem C86_refuted_line : serve ex_env (str "GET /x" ++ crlf ++ crlf) = Fault FOob.
Proof. vm_compute. reflexivity. Qed.
Print Assumptions C86_refuted_line.

(** ** C84: what a connection allocates is released *)
Definition count (b : bool) : Z := if b then 1 else 0.
Fixpoint bodies (us : list usage) : Z := match us with [] => 0 | u :: r => count (u_body u) + bodies r end.

Lemma filter_fresh (x : Z) l : Forall (fun y => y < x) l -> filter (fun y => negb (y =? x)) l = l.
Proof.
  induction l as [|y l IH]; intros F; [reflexivity|]. cbn. pose proof (Forall_inv F) as L. cbn in L.
  destruct (Z.eqb_spec y x); [lia|]. cbn [negb]. rewrite IH by exact (Forall_inv_tail F). reflexivity.
Qed.

Ltac fsimp := repeat (cbn [filter app];
  match goal with |- context[if negb (?a =? ?b) then _ else _] =>
    first [replace (a =? b) with true by (symmetry; apply Z.eqb_eq; lia)
          |replace (a =? b) with false by (symmetry; apply Z.eqb_neq; lia)]; cbn [negb]
  end).
Lemma req_next_live k u : Forall (fun y => y < k_next k) (k_live k) ->
  k_live (req_next (req_alloc k u)) = k_live k ++ [k_next k] ++ (if u_body u then [k_next k + 3] else []) /\
  k_meta (req_next (req_alloc k u)) = Some (k_next k) /\ k_next (req_next (req_alloc k u)) = k_next k + 6.
Proof.
  intros F. split; [|split; reflexivity]. unfold req_next, req_alloc. cbn [k_live k_webc k_rsp k_hdr k_req k_next].
  set (n := k_next k) in *.
  assert (FX : forall d, 0 <= d -> filter (fun y => negb (y =? n + d)) (k_live k) = k_live k).
  { intros d D. apply filter_fresh. eapply Forall_impl; [|exact F]. cbn. intros; lia. }
  destruct (u_body u), (u_rsp u); cbn [free_blk]; rewrite !filter_app;
    rewrite ?FX by lia; f_equal; cbn [filter app];
    fsimp; reflexivity.
Qed.

Lemma con_close_live k u : Forall (fun y => y < k_next k) (k_live k) ->
  k_live (con_close (req_alloc k u)) = k_live k ++ (if u_body u then [k_next k + 3] else []).
Proof.
  intros F. unfold con_close, req_alloc. cbn [k_live k_webc k_rsp k_hdr k_req k_next k_meta].
  set (n := k_next k) in *.
  assert (FX : forall d, 0 <= d -> filter (fun y => negb (y =? n + d)) (k_live k) = k_live k).
  { intros d D. apply filter_fresh. eapply Forall_impl; [|exact F]. cbn. intros; lia. }
  assert (FX0 : filter (fun y => negb (y =? n)) (k_live k) = k_live k) by (apply filter_fresh; exact F).
  destruct (u_body u), (u_rsp u); cbn [free_blk]; rewrite !filter_app;
    rewrite ?FX0, ?FX by lia; f_equal; cbn [filter app];
    fsimp; reflexivity.
Qed.

(** After the connection is closed one block is left for every request but the
    last, and one for every request with a body. *)
Theorem C84_exact : forall us, us <> [] ->
  zlen (k_live (con_blocks blocks0 us)) = (zlen us - 1) + bodies us.
Proof.
  assert (G : forall us k, us <> [] -> Forall (fun y => y < k_next k) (k_live k) ->
    zlen (k_live (con_blocks k us)) = zlen (k_live k) + (zlen us - 1) + bodies us).
  { induction us as [|u us IH]; intros k NE F; [contradiction|].
    destruct us as [|u2 us].
    - cbn [con_blocks]. rewrite con_close_live by assumption. rewrite zlen_app. cbn [bodies]. change (zlen [u]) with 1.
      unfold count. destruct (u_body u); [change (zlen [k_next k + 3]) with 1|change (zlen (@nil Z)) with 0]; lia.
    - change (con_blocks k (u :: u2 :: us)) with (con_blocks (req_next (req_alloc k u)) (u2 :: us)).
      destruct (req_next_live k u F) as (L & M & N).
      rewrite IH; [|discriminate|].
      + rewrite L, !zlen_app. change (zlen [k_next k]) with 1.
        rewrite (zlen_cons u). change (bodies (u :: u2 :: us)) with (count (u_body u) + bodies (u2 :: us)).
        unfold count at 1. destruct (u_body u); [change (zlen [k_next k + 3]) with 1|change (zlen (@nil Z)) with 0]; lia.
      + rewrite N, L. apply Forall_app. split; [eapply Forall_impl; [|exact F]; cbn; intros; lia|].
        apply Forall_cons; [lia|]. destruct (u_body u); [apply Forall_cons; [lia|]|]; apply Forall_nil. }
  intros us NE. rewrite (G us blocks0 NE) by apply Forall_nil. change (zlen (k_live blocks0)) with 0. lia.
Qed.
Print Assumptions C84_exact.
Example C84_ex : k_live (con_blocks blocks0 [mkUse true true; mkUse false true; mkUse true false]) = [0; 3; 6; 15].
Proof. vm_compute. reflexivity. Qed.

(** Refuted without bound; holds for a single request without body. *)
Theorem C84_refuted : forall n, 0 <= n -> exists us, zlen (k_live (con_blocks blocks0 us)) = n.
Proof.
  intros n N. exists (repeat (mkUse false true) (Z.to_nat (n + 1))).
  assert (R : repeat (mkUse false true) (Z.to_nat (n + 1)) <> []).
  { replace (Z.to_nat (n + 1)) with (Datatypes.S (Z.to_nat n)) by lia. discriminate. }
  rewrite C84_exact by exact R.
  assert (B : forall k, bodies (repeat (mkUse false true) k) = 0) by (induction k as [|k IH]; [reflexivity|]; cbn; rewrite IH; reflexivity).
  rewrite B. unfold zlen. rewrite repeat_length. lia.
Qed.
Print Assumptions C84_refuted.
Theorem C84_partial : forall u, u_body u = false -> k_live (con_blocks blocks0 [u]) = [].
Proof. intros [[] []] H; try discriminate; reflexivity. Qed.
Print Assumptions C84_partial.
