(** * C166: every request gets an answer with a status. *)
From Coq Require Import String.
From Verif Require Import Base Str_Spec Meta_Model Meta_Proofs S5_Model Hash_Model Hash_Props.
From Verif Require Import Http_Model Http_Spec Http_Proofs Http_Props Send_Model Send_Props.
From Verif Require Import Web_Spec Web_Model Web_Proofs Web_Props Web_Session_Props Web_Answer_Props Web_Post_Props.
Open Scope Z_scope.
Local Arguments Z.add : simpl never.
Local Arguments Z.sub : simpl never.
Local Arguments zlen : simpl never.

(** ** Specification
    An answer is a head that begins with the version and a status; closing the connection is none. *)
Definition answered (a : res action) : Prop :=
  exists h t b, a = Ok (ARespond (h :: t) b) /\ prefix (str "HTTP/1.1 ") (mdata h).
(** Every request gets an answer: the file, or a status that says why not. *)
Definition C166_property : Prop := forall e q, small q -> Forall not_clen (rq_headers q) -> fair_env e ->
  answered (serve e (print_req q)).

(** ** The head begins with the status *)
Lemma chain_first m r t c : meta_wf m -> chain_put (m :: r) t = Ok c ->
  exists h l x, c = h :: l /\ meta_wf h /\ mdata h = mdata m ++ x.
Proof.
  intros W E. cbn [chain_put] in E. destruct (Z.ltb_spec (zlen t) (meta_getfree m)) as [LT|GE].
  - unfold meta_pdata in E. destruct (Z.leb_spec (zlen t) (meta_getfree m)) as [LE|X]; [|lia].
    destruct (meta_store_ok m t W LE) as (m1 & E1 & W1 & D1 & _). rewrite E1 in E. cbn [bind fst snd] in E. injection E as <-. eauto 10.
  - apply bind_ok in E. destruct E as (r' & _ & E). injection E as <-. exists m, r', []. rewrite app_nil_r. auto.
Qed.
Lemma hdrps_first : forall ts m r c, meta_wf m -> hdrps (m :: r) ts = Ok c ->
  exists h l x, c = h :: l /\ mdata h = mdata m ++ x.
Proof.
  induction ts as [|t ts IH]; intros m r c W E.
  - cbn in E. injection E as <-. exists m, r, []. rewrite app_nil_r. auto.
  - cbn [hdrps] in E. apply bind_ok in E. destruct E as (c1 & E1 & E). unfold hdrp in E1.
    destruct (chain_first m r _ c1 W E1) as (h & l & x & -> & W' & D).
    destruct (IH h l c W' E) as (h' & l' & x' & -> & D'). exists h', l', (x ++ x'). rewrite D', D, app_assoc. auto.
Qed.
Lemma status_begins code : exists x, ztake 1022 (status_text code) = str "HTTP/1.1 " ++ x /\ zlen (ztake 1022 (status_text code)) <= 36.
Proof.
  unfold status_text.
  repeat match goal with |- context [if ?b then _ else _] => destruct b end;
    (eexists; split; [vm_compute; reflexivity|vm_compute; discriminate]).
Qed.
Lemma hdrps_cons c t ts : hdrps c (t :: ts) = (let* c' := hdrp c t in hdrps c' ts).
Proof. reflexivity. Qed.
Lemma head_status code date keep len ext c : rsp_head code date keep len ext = Ok c ->
  exists h t, c = h :: t /\ prefix (str "HTTP/1.1 ") (mdata h).
Proof.
  unfold rsp_head. cbn [app]. rewrite hdrps_cons. intros E. apply bind_ok in E. destruct E as (c1 & E1 & E).
  destruct (status_begins code) as (x & X & L). unfold hdrp in E1. rewrite X in *. cbn [chain_put] in E1.
  destruct (meta_new_wf 4096) as (W & C & D); [lia|].
  assert (FR : meta_getfree (meta_new 4096) = 4096) by (unfold meta_getfree; rewrite C; reflexivity).
  unfold meta_pdata in E1. destruct (Z.leb_spec (zlen (str "HTTP/1.1 " ++ x)) (meta_getfree (meta_new 4096))) as [LE|]; [|lia].
  destruct (meta_store_ok _ _ W LE) as (m1 & ES & W1 & D1 & _). rewrite ES in E1. cbn [bind fst snd] in E1. injection E1 as <-.
  destruct (hdrps_first _ _ _ _ W1 E) as (h & l & y & -> & DH). exists h, l. split; [reflexivity|].
  exists (x ++ y). rewrite DH, D1, D. cbn [app]. rewrite <- app_assoc. reflexivity.
Qed.
Lemma responds_status apis e q a : answer apis e q = Ok a -> a <> AClose -> answered (Ok a).
Proof.
  intros E NC. destruct a as [|hd b]; [contradiction|]. clear NC. unfold answer, reply, handle in E.
  apply bind_ok in E. destruct E as ([rt o] & _ & E). cbn [fst] in E. destruct rt as [x| |]; [|discriminate|].
  - unfold api_call in E.
    assert (A : forall p, api_respond e (q_keep (parsed (target_uri (rq_target q)) (method_code (rq_method q)) (existsb keep_hdr (rq_headers q)) None)) 200 p
                  = Ok (ARespond hd b) -> answered (Ok (ARespond hd b))).
    { intros p F. unfold api_respond in F. destruct (16344 <? zlen p); [discriminate|].
      apply bind_ok in F. destruct F as (c & HC & F). injection F as <- _. destruct (head_status _ _ _ _ _ _ HC) as (h & t & -> & P).
      exists h, t, b. auto. }
    destruct (a_handler x =? 1); [exact (A _ E)|]. cbn [q_pay parsed] in E. discriminate.
  - apply bind_ok in E. destruct E as (p & _ & E). apply bind_ok in E. destruct E as (f & _ & E).
    apply bind_ok in E. destruct E as (c & HC & E). injection E as <- _. destruct (head_status _ _ _ _ _ _ HC) as (h & t & -> & P).
    exists h, t, b. auto.
Qed.

(** ** GET requests are answered
    for paths below 1024 bytes that do not contain "../" and contain a dot (or whose root
    does), whatever is there.
    Missing: the other requests, which the theorems below are about; and C57, C56. *)
Theorem C166_partial : forall e q, small q -> Forall not_clen (rq_headers q) -> fair_env e ->
  iprefix (rq_method q) (str "GET") -> zlen (target_uri (rq_target q)) < 1024 ->
  wf_path (target_uri (rq_target q)) -> In 46 (e_home e ++ target_uri (rq_target q)) ->
  ~ occurs (str "../") (target_uri (rq_target q)) -> answered (serve e (print_req q)).
Proof.
  intros e q SM N (Nh & Ni & Lh & Li & ND & LD) G LU WP DOT NO. rewrite serve_answer by assumption.
  assert (MC : method_code (rq_method q) = 1).
  { unfold method_code. replace (ipre (rq_method q) lit_get) with true; [reflexivity|]. symmetry. apply ipre_spec. exact G. }
  destruct (C86_partial e q WP LU Nh Ni Lh Li ND LD DOT) as (a & A); [rewrite MC; discriminate|].
  rewrite A. apply (responds_status web_apis e q a A). intros ->.
  unfold answer, reply, handle in A. cbn [mbuf q_uri q_mtyp q_keep q_pay parsed] in A.
  set (u := target_uri (rq_target q)) in *. destruct WP as (V & _).
  assert (NU : no_nul u) by (intros I; rewrite Forall_forall in V; specialize (V 0 I); unfold visible in V; lia).
  rewrite (router_short web_apis u (whole u) u) in A by (apply slot_whole || assumption). rewrite MC in A.
  destruct (find _ web_apis) as [x|] eqn:FA; cbn [bind fst] in A.
  - apply find_some in FA as (I & E). apply andb_true_iff in E as (_ & E2). apply Z.eqb_eq in E2.
    assert (H1 : a_handler x = 1).
    { unfold web_apis in I. cbn in I. destruct I as [<-|[<-|[]]]; [reflexivity|]. cbn in E2. discriminate. }
    unfold api_call in A. rewrite H1 in A. change (1 =? 1) with true in A. cbn iota in A. unfold api_respond in A.
    destruct (Z.ltb_spec 16344 (zlen (e_date e))); [lia|]. apply bind_ok in A. destruct A as (c & _ & A). discriminate.
  - change (1 =? 1) with true in A. cbn iota in A. cbn [fst] in A.
    destruct (occursb (str "../") u) eqn:OC; [apply NO, occursb_spec; exact OC|]. cbn [bind fst] in A.
    apply bind_ok in A. destruct A as (p & _ & A). apply bind_ok in A. destruct A as (f & _ & A).
    apply bind_ok in A. destruct A as (c & _ & A). discriminate.
Qed.
Print Assumptions C166_partial.

(** ** No other request is answered, apart from POST /echo with a body (C58)
    In particular every HEAD request, which every server must answer, and every
    request with a method the server does not know. *)
Theorem C166_refuted_method : forall e q, small q -> Forall not_clen (rq_headers q) -> ~ iprefix (rq_method q) (str "GET") ->
  ~ answered (serve e (print_req q)).
Proof.
  intros e q SM N NG (h & t & b & A & _). rewrite serve_answer, answer_not_get in A by assumption.
  destruct (_ && _); discriminate.
Qed.
Print Assumptions C166_refuted_method.
(** A path with "../" in it is not answered either, even if it does not lead out of the root. *)
Theorem C166_refuted_dots : forall e q, small q -> Forall not_clen (rq_headers q) -> wf_path (target_uri (rq_target q)) ->
  zlen (target_uri (rq_target q)) < 1024 -> occurs (str "../") (target_uri (rq_target q)) ->
  ~ answered (serve e (print_req q)).
Proof.
  intros e q SM N (V & _) LU OC (h & t & b & A & _). rewrite serve_answer in A by assumption.
  unfold answer, reply, handle in A. cbn [mbuf q_uri q_mtyp q_keep q_pay parsed] in A.
  set (u := target_uri (rq_target q)) in *.
  assert (NU : no_nul u) by (intros I; rewrite Forall_forall in V; specialize (V 0 I); unfold visible in V; lia).
  rewrite (router_short web_apis u (whole u) u) in A by (apply slot_whole || assumption).
  destruct (find _ web_apis) as [x|] eqn:FA; cbn [bind fst] in A.
  - apply find_some in FA as (I & E). apply andb_true_iff in E as (E1 & _). apply bseq_spec in E1.
    assert (U : u = str "/echo") by (unfold web_apis in I; cbn in I; destruct I as [<-|[<-|[]]]; symmetry; exact E1).
    rewrite U in OC. apply occursb_spec in OC. vm_compute in OC. discriminate.
  - apply occursb_spec in OC. rewrite OC in A. destruct (method_code (rq_method q) =? 1); discriminate.
Qed.
Print Assumptions C166_refuted_dots.

Lemma req_m_small1 : small (req_m "HEAD" "/a.html").
Proof.
  split; [|split; vm_compute; discriminate].
  split; [isword|]. split; [vm_compute; discriminate|]. split; [ispath|]. split; [isword|].
  repeat (apply Forall_cons; [wfh|]). apply Forall_nil.
Qed.
Lemma req_m_small2 : small (req_m "GET" "/a/../a.html").
Proof.
  split; [|split; vm_compute; discriminate].
  split; [isword|]. split; [vm_compute; discriminate|]. split; [ispath|]. split; [isword|].
  repeat (apply Forall_cons; [wfh|]). apply Forall_nil.
Qed.
Lemma req_m_small3 : small (req_m "GET" "/a.html").
Proof.
  split; [|split; vm_compute; discriminate].
  split; [isword|]. split; [vm_compute; discriminate|]. split; [ispath|]. split; [isword|].
  repeat (apply Forall_cons; [wfh|]). apply Forall_nil.
Qed.
Lemma req_m_clen m u : Forall not_clen (rq_headers (req_m m u)).
Proof. repeat (apply Forall_cons; [apply not_clen_b; reflexivity|]). apply Forall_nil. Qed.
Example C166_partial_ex : iprefix (rq_method (req_m "GET" "/a.html")) (str "GET") /\ wf_path (target_uri (rq_target (req_m "GET" "/a.html"))) /\
  In 46 (target_uri (rq_target (req_m "GET" "/a.html"))) /\ ~ occurs (str "../") (target_uri (rq_target (req_m "GET" "/a.html"))) /\
  answered (serve ex_env (print_req (req_m "GET" "/a.html"))).
Proof.
  split; [apply ipre_spec; reflexivity|]. split; [ispath|]. split; [repeat (first [left; reflexivity|right])|].
  assert (NO : ~ occurs (str "../") (target_uri (rq_target (req_m "GET" "/a.html")))) by (intros O; apply occursb_spec in O; vm_compute in O; discriminate O).
  split; [exact NO|]. rewrite serve_answer by (exact req_m_small3 || apply req_m_clen).
  assert (A : exists h b, answer web_apis ex_env (req_m "GET" "/a.html") = Ok (ARespond h b)) by (eexists _, _; vm_compute; reflexivity).
  destruct A as (h & b & A). rewrite A. apply (responds_status _ _ _ _ A). discriminate.
Qed.
Example C166_refuted_ex : small (req_m "HEAD" "/a.html") /\ ~ iprefix (rq_method (req_m "HEAD" "/a.html")) (str "GET") /\
  small (req_m "GET" "/a/../a.html") /\ occurs (str "../") (target_uri (rq_target (req_m "GET" "/a/../a.html"))).
Proof.
  split; [exact req_m_small1|]. split; [intros X; apply ipre_spec in X; discriminate X|]. split; [exact req_m_small2|].
  apply occursb_spec. reflexivity.
Qed.

Theorem C166_property_refuted : ~ C166_property.
Proof.
  intros P. apply (C166_refuted_method ex_env (req_m "HEAD" "/a.html") req_m_small1 (req_m_clen _ _)).
  - intros X. apply ipre_spec in X. discriminate X.
  - exact (P ex_env _ req_m_small1 (req_m_clen _ _) ex_env_fair).
Qed.
Print Assumptions C166_property_refuted.
