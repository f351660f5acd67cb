(** * C160, C161: requests that arrive in pieces *)
From Coq Require Import String.
From Verif Require Import Base Str_Spec Meta_Model Meta_Proofs S5_Model Hash_Model Hash_Props.
From Verif Require Import Http_Model Http_Spec Http_Proofs Http_Props Http_Split_Props.
From Verif Require Import Web_Spec Web_Model Web_Proofs Web_Props Web_Session_Props Web_Answer_Props Web_Split_Props.
From Verif Require Import Conf_Model Wlog_Model Wlog_Props Web_Equiv_Props.
Open Scope Z_scope.
Local Arguments Z.add : simpl never.
Local Arguments Z.sub : simpl never.
Local Arguments zlen : simpl never.

(** in whatever pieces a request arrived: its path and method are where the rest of the
    program looks for them *)
Lemma pieces_at q ins fuel r m i : small q -> Forall not_clen (rq_headers q) -> clean ins -> flat ins = print_req q ->
  http_start fuel ins = Ok (HComplete r m i) ->
  slot_at (mbuf m) (q_uri r) (target_uri (rq_target q)) /\ q_mtyp r = method_code (rq_method q).
Proof.
  intros SM NC CL FL R. pose proof (C50_exactly q ins SM NC CL FL) as (X & _). specialize (X ltac:(do 4 eexists; exact R)).
  assert (G0 : meta_getlen (meta_new 4096) < 1) by (vm_compute; reflexivity).
  assert (F0 : 1 <= meta_getfree (meta_new 4096)) by (vm_compute; discriminate).
  destruct (clean_first ins CL) as (n & [->|(d & t & -> & ND & CT)]).
  { rewrite <- (app_nil_r (repeat RxAgain n)), datas_again in X. destruct X; discriminate. }
  rewrite datas_again in X. cbn [datas] in X.
  destruct X as [E|E]; injection E as -> E.
  - destruct (run_head q [] t 1%nat SM) as (r' & m' & R' & H). rewrite app_nil_r in R'. rewrite (body_none 0 q r' m' _ _ SM H NC) in R'.
    assert (R2 : http_run (n + 3) req_new (meta_new 4096) (repeat RxAgain n ++ RxData (print_req q) :: t) = http_start 3 (RxData (print_req q) :: t)).
    { rewrite run_again; [reflexivity|discriminate|assumption|assumption]. }
    rewrite R' in R2.
    pose proof (run_det _ _ _ _ _ _ _ R R2) as Y. injection Y as -> -> _. cbn [q_uri q_mtyp set_pay].
    split; [exact (head_uri _ _ _ _ H)|exact (ho_mtyp _ _ _ _ H)].
  - destruct (clean_first t CT) as (n2 & [->|(u & t2 & -> & NE & CT2)]).
    { rewrite <- (app_nil_r (repeat RxAgain n2)), datas_again in E. discriminate E. }
    rewrite datas_again in E. cbn [datas] in E. injection E as -> E.
    destruct (run_two q n n2 [] t2 1%nat SM) as (r' & m' & R' & H). unfold two_pieces in R'. rewrite app_nil_r in R'.
    rewrite (body_none 0 q r' m' _ _ SM H NC) in R'.
    pose proof (run_det _ _ _ _ _ _ _ R R') as Y. injection Y as -> -> _. cbn [q_uri q_mtyp set_pay].
    split; [exact (head_uri _ _ _ _ H)|exact (ho_mtyp _ _ _ _ H)].
Qed.

(** [C160_partial] and [C160_refuted_memory] for every way in which the request may
    arrive: if it is answered at all ([C50_exactly] says when), it is logged as if it had come
    at once. *)
Theorem C160_pieces_partial : forall thr fls flo en e q ins fuel r m i, file_req q -> fair_env e -> plain e fls ->
  clean ins -> flat ins = print_req q -> http_start fuel ins = Ok (HComplete r m i) -> 0 <= thr ->
  let p := asked (e_home e) (e_index e) (target_uri (rq_target q)) in
  let l := line_about fls "stat" p (fmt_d en) in
  e_fs e p = NoNode ->
  (zlen l <= 510 -> logged thr fls flo en e fuel ins = Ok (Some l) /\ one_line l) /\
  (zlen l > 512 -> logged thr fls flo en e fuel ins = Fault FOverread).
Proof.
  intros thr fls flo en e q ins fuel r m i Q FE P CL FL R T p l NF.
  pose proof Q as (S & N & MG & (V & (t & ET)) & LU & NA & NO).
  destruct (pieces_at q ins fuel r m i S N CL FL R) as (SA & MT).
  assert (E : logged thr fls flo en e fuel ins = log_print thr 0 fls (not_there "stat" p en)).
  { unfold logged. rewrite R. cbn [bind].
    rewrite (log_path thr fls flo en e r m (target_uri (rq_target q))); try assumption.
    - fold p. now rewrite NF.
    - intros X. rewrite Forall_forall in V. specialize (V 0 X). unfold visible in V. lia.
    - rewrite ET. discriminate.
    - rewrite MT, MG. reflexivity. }
  rewrite E. split; intros L.
  - split; [apply log_of; [exact T|apply P|exact L]|].
    apply line_one; [now apply no_crlf_b|apply P| |apply fmt_no_crlf].
    apply (asked_one e fls); [exact P|]. exact V.
  - apply log_of; [exact T|apply P|exact L].
Qed.
Print Assumptions C160_pieces_partial.

(** Two requests for the same path that differ in form and arrive in pieces of any kind get
    the same answer, if both are answered. *)
Theorem C161_pieces : forall e q q' ins ins' f f' r r' m m' i i', small q -> small q' ->
  Forall not_clen (rq_headers q) -> Forall not_clen (rq_headers q') ->
  target_uri (rq_target q) = target_uri (rq_target q') -> rq_method q = rq_method q' ->
  existsb keep_hdr (rq_headers q) = existsb keep_hdr (rq_headers q') ->
  clean ins -> clean ins' -> flat ins = print_req q -> flat ins' = print_req q' ->
  http_start f ins = Ok (HComplete r m i) -> http_start f' ins' = Ok (HComplete r' m' i') ->
  handle web_apis e r m = handle web_apis e r' m'.
Proof.
  intros e q q' ins ins' f f' r r' m m' i i' S S' N N' T M K C C' F F' R R'.
  destruct (same_answer web_apis e q ins f r m i S N C F R) as (A & _).
  destruct (same_answer web_apis e q' ins' f' r' m' i' S' N' C' F' R') as (A' & _).
  rewrite A, A'. unfold answer. now rewrite T, M, K.
Qed.
Print Assumptions C161_pieces.

(** ** A request whose line and headers arrive separately *)
Definition no_html : request := Web_Props.get (str "/no.html").
Definition no_html_pieces : list rx := [RxAgain; RxData (print_line no_html); RxAgain; RxData (print_hdrs (rq_headers no_html))].
Example C160_pieces_example : file_req no_html /\ clean no_html_pieces /\ flat no_html_pieces = print_req no_html /\
  completes no_html_pieces /\
  logged 1 here here 2 bare 6 no_html_pieces =
    Ok (Some (str "[error] 2026.11.15 20:00:00.000 <webser_req_file:361> webser stat reqfile [/srv/www/no.html] err, [2]" ++ [10])).
Proof.
  assert (FR : file_req no_html) by (unfold no_html; is_file).
  assert (CL : clean no_html_pieces)
    by (repeat (apply Forall_cons; [cbn; first [exact Logic.I|vm_compute; discriminate]|]); apply Forall_nil).
  split; [exact FR|]. split; [exact CL|]. split; [reflexivity|]. split; [|vm_compute; reflexivity].
  destruct FR as (S & N & _). apply (C50_exactly no_html _ S N CL); [reflexivity|]. right. reflexivity.
Qed.
(** the same request in one piece and in two *)
Example C161_pieces_example : exists r r' m m' i i',
  http_start 6 no_html_pieces = Ok (HComplete r m i) /\ http_start 6 [RxData (print_req no_html)] = Ok (HComplete r' m' i') /\
  handle web_apis bare r m = handle web_apis bare r' m'.
Proof.
  destruct C160_pieces_example as (FR & CL & FL & _ & _). destruct FR as (S & N & _).
  assert (CL' : clean [RxData (print_req no_html)]) by (apply Forall_cons; [cbn; vm_compute; discriminate|apply Forall_nil]).
  destruct (http_start 6 no_html_pieces) as [[r0 m0| |r m i]| |] eqn:R; try (exfalso; vm_compute in R; discriminate R).
  destruct (http_start 6 [RxData (print_req no_html)]) as [[r0 m0| |r' m' i']| |] eqn:R'; try (exfalso; vm_compute in R'; discriminate R').
  exists r, r', m, m', i, i'. split; [reflexivity|]. split; [reflexivity|].
  apply (C161_pieces bare no_html no_html no_html_pieces [RxData (print_req no_html)] 6 6 r r' m m' i i' S S N N); try assumption; try reflexivity.
Qed.
