(** * C107: requests for files that arrive in pieces *)
From Verif Require Import Base Str_Spec Meta_Model Meta_Proofs S5_Model Hash_Model Hash_Props.
From Verif Require Import Http_Model Http_Spec Http_Proofs Http_Props Http_Split_Props Send_Model Send_Props.
From Verif Require Import Web_Spec Web_Model Web_Proofs Web_Props Web_Session_Props Web_Answer_Props.
From Coq Require Import String.
Open Scope Z_scope.
Local Arguments Z.add : simpl never.
Local Arguments Z.sub : simpl never.
Local Arguments zlen : simpl never.

(** in whatever pieces a request arrived: once it is complete it is treated as if it had
    come at once *)
Lemma same_answer apis e q ins fuel r m i : small q -> Forall not_clen (rq_headers q) -> clean ins -> flat ins = print_req q ->
  http_start fuel ins = Ok (HComplete r m i) ->
  handle apis e r m = answer apis e q /\ q_keep r = existsb keep_hdr (rq_headers q).
Proof.
  intros SM NC CL FL R. pose proof (C50_exactly q ins SM NC CL FL) as (X & _). specialize (X ltac:(do 4 eexists; exact R)).
  assert (G0 : meta_getlen (meta_new 4096) < 1) by (vm_compute; reflexivity).
  assert (F0 : 1 <= meta_getfree (meta_new 4096)) by (vm_compute; discriminate).
  destruct (clean_first ins CL) as (n & [->|(d & t & -> & ND & CT)]).
  { rewrite <- (app_nil_r (repeat RxAgain n)), datas_again in X. destruct X; discriminate. }
  rewrite datas_again in X. cbn [datas] in X.
  destruct X as [E|E]; injection E as -> E.
  - destruct (one_request apis e q [] t 3%nat SM NC ltac:(lia)) as (r' & m' & R' & H & K). rewrite app_nil_r in R'.
    assert (R2 : http_run (n + 3) req_new (meta_new 4096) (repeat RxAgain n ++ RxData (print_req q) :: t) =
      Ok (HComplete r' m' (unread (print_req q) 4096 t))).
    { rewrite run_again; [exact R'|discriminate|assumption|assumption]. }
    pose proof (run_det _ _ _ _ _ _ _ R R2) as Y. injection Y as -> -> _. auto.
  - destruct (clean_first t CT) as (n2 & [->|(u & t2 & -> & NE & CT2)]).
    { rewrite <- (app_nil_r (repeat RxAgain n2)), datas_again in E. discriminate E. }
    rewrite datas_again in E. cbn [datas] in E. injection E as -> E.
    destruct (run_two q n n2 [] t2 1%nat SM) as (r' & m' & R' & H). unfold two_pieces in R'. rewrite app_nil_r in R'.
    rewrite (body_none 0 q r' m' _ _ SM H NC) in R'.
    pose proof (run_det _ _ _ _ _ _ _ R R') as Y. injection Y as -> -> _. split; [|exact (ho_keep _ _ _ _ H)].
    rewrite (handle_reply apis e _ m' (target_uri (rq_target q))) by exact (head_uri _ _ _ _ H).
    unfold answer. cbn [q_mtyp q_keep q_pay set_pay]. rewrite (ho_keep _ _ _ _ H), (ho_mtyp _ _ _ _ H). reflexivity.
Qed.

(** ** [C107_partial] for every way in which the request may arrive: if it is answered at all
    ([C50_exactly] says when), it is answered as if it had come at once. *)
Theorem C107_pieces_partial : forall e q F ks rs fuel ins f r m i, small q -> Forall not_clen (rq_headers q) -> fair_env e ->
  rq_method q = str "GET" -> wf_path (target_uri (rq_target q)) -> zlen (target_uri (rq_target q)) < 1024 ->
  target_uri (rq_target q) <> str "/echo" -> ~ occurs (str "../") (target_uri (rq_target q)) ->
  let p := full_path (e_home e) (e_index e) (target_uri (rq_target q)) in
  In 46 p -> e_fs e p = Node true (zlen F) true -> zlen F < 2 ^ 31 ->
  (Datatypes.length ks + Datatypes.length rs < fuel)%nat ->
  clean ins -> flat ins = print_req q -> http_start f ins = Ok (HComplete r m i) ->
  exists h b t v st w,
    handle web_apis e r m = Ok (ARespond [h] b) /\
    response_head 200 (mdata h) (head_hdrs (e_date e) (existsb keep_hdr (rq_headers q)) v (Some (str "Content-type", t))) /\
    numeral v (zlen F) /\ has_type p t /\
    send_body fuel b F ks rs = Ok (st, w) /\ (exists x, F = w ++ x) /\ (st = FFDone -> w = F).
Proof.
  intros e q F ks rs fuel ins f r m i SM NC FE MG WP LU NA NO p IP FS LF FU CL FL R.
  destruct (C107_partial e q F ks rs fuel SM NC FE MG WP LU NA NO IP FS LF FU) as (r1 & m1 & h & b & t & v & st & w & R1 & H1 & RS & NV & T & SB & PX & DN).
  destruct (same_answer web_apis e q ins f r m i SM NC CL FL R) as (H & _).
  destruct (same_answer web_apis e q [RxData (print_req q)] 3 r1 m1 [] SM NC) as (H2 & _); [|cbn [flat]; apply app_nil_r|exact R1|].
  { repeat constructor. destruct (print_line_cons q SM) as (c & s & EQ). unfold print_req. rewrite EQ. discriminate. }
  exists h, b, t, v, st, w. rewrite H, <- H2. auto 10.
Qed.
Print Assumptions C107_pieces_partial.
(** a request whose line and headers arrive separately *)
Example ex_C107_pieces : let q := getk (str "/docs/") in
  exists f r m i, http_start f [RxAgain; RxData (print_line q); RxAgain; RxData (print_hdrs (rq_headers q))] = Ok (HComplete r m i) /\
    handle web_apis ex_env r m = answer web_apis ex_env q.
Proof.
  intros q. destruct C107_example as (SM & NC & _). fold q in SM, NC.
  assert (CL : clean [RxAgain; RxData (print_line q); RxAgain; RxData (print_hdrs (rq_headers q))])
    by (repeat (apply Forall_cons; [cbn; first [exact I|vm_compute; discriminate]|]); apply Forall_nil).
  assert (X : completes [RxAgain; RxData (print_line q); RxAgain; RxData (print_hdrs (rq_headers q))]).
  { apply (C50_exactly q _ SM NC CL); [reflexivity|]. right. reflexivity. }
  destruct X as (f & r & m & i & R). exists f, r, m, i. split; [exact R|].
  exact (proj1 (same_answer web_apis ex_env q _ f r m i SM NC CL eq_refl R)).
Qed.
