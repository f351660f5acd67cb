(** * C86: requests other than GET. *)
From Coq Require Import String.
From Verif Require Import Base Str_Spec Meta_Model Meta_Proofs S5_Model Hash_Model Hash_Props.
From Verif Require Import Http_Model Http_Spec Http_Proofs Http_Props Send_Model Send_Props.
From Verif Require Import Web_Spec Web_Model Web_Proofs Web_Props Web_Session_Props.
Open Scope Z_scope.
Local Arguments Z.add : simpl never.
Local Arguments Z.sub : simpl never.
Local Arguments zlen : simpl never.

Lemma serve_answer e q : small q -> Forall not_clen (rq_headers q) -> serve e (print_req q) = answer web_apis e q.
Proof.
  intros SM N. unfold serve. destruct (one_request web_apis e q [] [] 10 SM N) as (r & m & R & H & _); [lia|].
  rewrite app_nil_r in R. rewrite R. cbn [bind]. exact H.
Qed.
Lemma answer_not_get e q : ~ iprefix (rq_method q) (str "GET") ->
  answer web_apis e q =
    if bseq (str "/echo") (target_uri (rq_target q)) && ipre (rq_method q) lit_post then Fault FNull else Ok AClose.
Proof.
  intros NG. unfold answer, reply, handle. cbn [mbuf q_uri q_mtyp q_keep q_pay parsed].
  unfold router. set (u := target_uri (rq_target q)). rewrite (api_find_spec u (whole u) u) by apply slot_whole. cbn [bind].
  assert (G : ipre (rq_method q) lit_get = false).
  { destruct (ipre (rq_method q) lit_get) eqn:E; [|reflexivity]. destruct NG. apply ipre_spec in E. exact E. }
  unfold method_code. rewrite G. change web_apis with [mkApi (str "/echo") 1 1; mkApi (str "/echo") 3 2].
  cbn [find a_key a_mtyp].
  destruct (bseq (str "/echo") u), (ipre (rq_method q) lit_post); reflexivity.
Qed.

(** Every request, in one piece and without a body, that is neither a GET nor a POST to /echo is
    refused by closing the connection; no memory is touched wrongly, for every path, every
    configuration and every file system. *)
Theorem C86_other : forall e q, small q -> Forall not_clen (rq_headers q) -> ~ iprefix (rq_method q) (str "GET") ->
  ~ (iprefix (rq_method q) (str "POST") /\ target_uri (rq_target q) = str "/echo") ->
  serve e (print_req q) = Ok AClose.
Proof.
  intros e q SM N NG NE. rewrite serve_answer by assumption. rewrite answer_not_get by exact NG.
  destruct (bseq (str "/echo") (target_uri (rq_target q))) eqn:B; [|reflexivity].
  destruct (ipre (rq_method q) lit_post) eqn:P; [|reflexivity].
  destruct NE. split; [apply ipre_spec in P; exact P|]. symmetry. apply bseq_spec. exact B.
Qed.
Print Assumptions C86_other.

(** Every POST to /echo without a body follows a NULL pointer, whatever else it says. *)
Theorem C86_refuted_post_any : forall e q, small q -> Forall not_clen (rq_headers q) -> ~ iprefix (rq_method q) (str "GET") ->
  iprefix (rq_method q) (str "POST") -> target_uri (rq_target q) = str "/echo" ->
  serve e (print_req q) = Fault FNull.
Proof.
  intros e q SM N NG P U. rewrite serve_answer by assumption. rewrite answer_not_get by exact NG. rewrite U.
  replace (bseq (str "/echo") (str "/echo")) with true by reflexivity.
  replace (ipre (rq_method q) lit_post) with true; [reflexivity|]. symmetry. apply ipre_spec. exact P.
Qed.
Print Assumptions C86_refuted_post_any.

Definition req_m (m u : string) : request := mkRequest (str m) (TPath (str u)) (str "HTTP/1.1") [hdr "Host" "a"].
Example C86_other_ex : small (req_m "DELETE" "/x/../y") /\ Forall not_clen (rq_headers (req_m "DELETE" "/x/../y")) /\
  ~ iprefix (rq_method (req_m "DELETE" "/x/../y")) (str "GET") /\ ~ iprefix (rq_method (req_m "DELETE" "/x/../y")) (str "POST").
Proof.
  split; [|split; [|split]].
  - split; [|split; vm_compute; discriminate].
    split; [isword|]. split; [vm_compute; discriminate|]. split; [ispath|]. split; [isword|].
    repeat (apply Forall_cons; [wfh|]). apply Forall_nil.
  - repeat (apply Forall_cons; [apply not_clen_b; reflexivity|]). apply Forall_nil.
  - intros X. apply ipre_spec in X. discriminate X.
  - intros X. apply ipre_spec in X. discriminate X.
Qed.
Example C86_refuted_post_any_ex : small (req_m "post" "/echo") /\ Forall not_clen (rq_headers (req_m "post" "/echo")) /\
  ~ iprefix (rq_method (req_m "post" "/echo")) (str "GET") /\ iprefix (rq_method (req_m "post" "/echo")) (str "POST").
Proof.
  split; [|split; [|split]].
  - split; [|split; vm_compute; discriminate].
    split; [isword|]. split; [vm_compute; discriminate|]. split; [ispath|]. split; [isword|].
    repeat (apply Forall_cons; [wfh|]). apply Forall_nil.
  - repeat (apply Forall_cons; [apply not_clen_b; reflexivity|]). apply Forall_nil.
  - intros X. apply ipre_spec in X. discriminate X.
  - apply ipre_spec. reflexivity.
Qed.
