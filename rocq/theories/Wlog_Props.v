(** C160: a request for a file that is not there leaves one line in the log, which
    names it and holds nothing else of the program's memory *)
From Coq Require Import String.
From Verif Require Import Base Str_Spec Hash_Model Hash_Props Meta_Model Meta_Proofs S5_Model Http_Model Http_Spec Http_Proofs Http_Props.
From Verif Require Import Web_Spec Web_Model Web_Proofs Web_Props Web_Session_Props Web_Answer_Props.
From Verif Require Conf_Props.
From Verif Require Import Conf_Model Wlog_Model.
Open Scope Z_scope.
Local Arguments Z.add : simpl never.
Local Arguments Z.sub : simpl never.
Local Arguments zlen : simpl never.

(** ** Specification *)
(** the place a request names below the root: with the index behind a final slash *)
Definition asked (home index u : list Z) : list Z := home ++ u ++ (if last u 0 =? 47 then index else []).
(** the line expected in the log: label, [fl] (time and place), the text *)
Definition line_about (fl : list Z) (what : string) (p : list Z) (num : list Z) : list Z :=
  str "[error]" ++ fl ++ str "webser " ++ str what ++ str " reqfile [" ++ p ++ str "] err, [" ++ num ++ str "]" ++ [10].
(** one line, with its end *)
Definition one_line (s : list Z) : Prop := exists t, s = t ++ [10] /\ ~ In 10 t /\ ~ In 13 t.
(** a GET request for a path that is no API and does not go up *)
Definition file_req (q : request) : Prop :=
  small q /\ Forall not_clen (rq_headers q) /\ rq_method q = str "GET" /\
  wf_path (target_uri (rq_target q)) /\ zlen (target_uri (rq_target q)) < 1024 /\
  target_uri (rq_target q) <> str "/echo" /\ ~ occurs (str "../") (target_uri (rq_target q)).
(** the configured root and index, and the place in front of the text, are one line *)
Definition plain (e : env) (fl : list Z) : Prop :=
  no_crlf (e_home e) /\ no_crlf (e_index e) /\ no_crlf fl /\ zlen fl <= 255.

(** ** Proofs *)
Lemma uri_path u home index : u <> [] -> full_path home index u = asked home index u.
Proof. unfold full_path, asked. destruct u; [contradiction|reflexivity]. Qed.

(** the record about a path, for any buffer that holds it *)
Lemma log_of thr fl what p en : 0 <= thr -> zlen fl <= 255 ->
  let l := line_about fl what p (fmt_d en) in
  (zlen l <= 510 -> log_print thr 0 fl (not_there what p en) = Ok (Some l)) /\
  (zlen l > 512 -> log_print thr 0 fl (not_there what p en) = Fault FOverread).
Proof.
  intros T F l.
  assert (H : Conf_Props.head_of 0 fl (str "[error]" ++ fl)) by (exists (str "[error]"); split; reflexivity).
  assert (E : l = (str "[error]" ++ fl) ++ not_there what p en) by (unfold l, line_about, not_there; now rewrite <- !app_assoc).
  rewrite E, zlen_app.
  split; intros L.
  - apply (Conf_Props.C75_partial thr 0 fl _ _ H); [exact T|lia].
  - apply (Conf_Props.C75_exact thr 0 fl _ _ H); [exact T| |lia].
    rewrite zlen_app. change (zlen (str "[error]")) with 7. lia.
Qed.

Lemma log_path thr fls flo en e r m u : fair_env e -> slot_at (mbuf m) (q_uri r) u -> no_nul u -> u <> [] ->
  zlen u < 1024 -> q_mtyp r = 1 -> u <> str "/echo" -> ~ occurs (str "../") u ->
  let p := asked (e_home e) (e_index e) u in
  web_log thr fls flo en web_apis e r m =
    match e_fs e p with
    | NoNode => log_print thr 0 fls (not_there "stat" p en)
    | Node true _ false => log_print thr 0 flo (not_there "open" p en)
    | Node _ _ _ => Ok None
    end.
Proof.
  intros (Nh & Ni & Lh & Li & _) SA NU NE LU MT NA NO p. unfold web_log.
  rewrite (router_short web_apis _ _ u) by assumption. rewrite MT.
  assert (FA : find (fun a => bseq (a_key a) u && (1 =? a_mtyp a)) web_apis = None).
  { unfold web_apis, api_reg. change (31 <? zlen (str "/echo")) with false. cbn iota. cbn [app find a_key a_mtyp].
    replace (bseq (str "/echo") u) with false; [reflexivity|]. symmetry. apply bseq_neq. intros X. apply NA. symmetry. exact X. }
  rewrite FA. change (1 =? 1) with true. cbn iota. cbn [bind fst].
  destruct (occursb (str "../") u) eqn:OC; [exfalso; apply NO, occursb_spec; exact OC|].
  unfold file_log.
  pose proof (zlen_nonneg (e_home e)). pose proof (zlen_nonneg u). pose proof (zlen_nonneg (e_index e)).
  rewrite (req_path_spec (e_home e) (e_index e) _ _ u) by (assumption || lia).
  destruct (Z.ltb_spec 2048 (zlen (e_home e) + zlen u)); [lia|]. rewrite andb_false_r. cbn [bind].
  rewrite (uri_path u _ _ NE). fold p.
  assert (FL : zlen p <= 2047).
  { unfold p, asked. rewrite !zlen_app. destruct (last u 0 =? 47); [|change (zlen (@nil Z)) with 0]; lia. }
  rewrite ztake_all by lia. reflexivity.
Qed.

(** the request [q] in one piece is looked up as [log_path] says *)
Lemma log_req thr fls flo en e q rest ins fuel : file_req q -> fair_env e -> (3 <= fuel)%nat ->
  let p := asked (e_home e) (e_index e) (target_uri (rq_target q)) in
  logged thr fls flo en e fuel (RxData (print_req q ++ rest) :: ins) =
    match e_fs e p with
    | NoNode => log_print thr 0 fls (not_there "stat" p en)
    | Node true _ false => log_print thr 0 flo (not_there "open" p en)
    | Node _ _ _ => Ok None
    end.
Proof.
  intros (S & N & MG & (V & (t & ET)) & LU & NA & NO) FE F p. destruct fuel as [|[|[|k]]]; try lia.
  destruct (run_head q rest ins (Datatypes.S k) S) as (r & m & R & H).
  unfold logged. rewrite R, (body_none k q r m _ _ S H N). cbn [bind].
  apply log_path; try assumption.
  - exact (head_uri _ _ _ _ H).
  - intros X. rewrite Forall_forall in V. specialize (V 0 X). unfold visible in V. lia.
  - rewrite ET. discriminate.
  - cbn [q_mtyp set_pay]. rewrite (ho_mtyp _ _ _ _ H), MG. reflexivity.
Qed.

Lemma fmt_no_crlf n : no_crlf (fmt_d n).
Proof.
  assert (D : forall f k b, 0 <= k -> In b (digits_of f k) -> 48 <= b <= 57).
  { induction f as [|f IH]; intros k b K; cbn [digits_of]; [intros []|].
    destruct (Z.ltb_spec k 10).
    - intros [<-|[]]; lia.
    - rewrite in_app_iff. intros [X|[<-|[]]].
      + apply (IH (k / 10)); [apply Z.div_pos; lia|exact X].
      + pose proof (Z.mod_pos_bound k 10 ltac:(lia)). lia. }
  unfold fmt_d, no_crlf. destruct (Z.ltb_spec n 0); cbn [In]; split; intros X.
  1, 2: destruct X as [X|X]; [lia|apply D in X; lia].
  all: apply D in X; lia.
Qed.
Lemma line_one fl what p num : no_crlf (str what) -> no_crlf fl -> no_crlf p -> no_crlf num -> one_line (line_about fl what p num).
Proof.
  intros (W1 & W2) (F1 & F2) (P1 & P2) (N1 & N2).
  exists (str "[error]" ++ fl ++ str "webser " ++ str what ++ str " reqfile [" ++ p ++ str "] err, [" ++ num ++ str "]").
  unfold line_about. rewrite <- !app_assoc. split; [reflexivity|].
  assert (C : forall s, existsb (Z.eqb 13) s = false -> existsb (Z.eqb 10) s = false -> ~ In 13 s /\ ~ In 10 s) by (intros; now apply no_crlf_b).
  destruct (C (str "[error]") eq_refl eq_refl). destruct (C (str "webser ") eq_refl eq_refl).
  destruct (C (str " reqfile [") eq_refl eq_refl). destruct (C (str "] err, [") eq_refl eq_refl). destruct (C (str "]") eq_refl eq_refl).
  split; rewrite !in_app_iff; tauto.
Qed.
Lemma asked_one e fl u : plain e fl -> Forall visible u -> no_crlf (asked (e_home e) (e_index e) u).
Proof.
  intros ((H1 & H2) & (I1 & I2) & _) V. unfold asked.
  assert (U : forall b, b = 13 \/ b = 10 -> ~ In b u).
  { intros b B X. rewrite Forall_forall in V. specialize (V b X). unfold visible in V. lia. }
  pose proof (U 13 (or_introl eq_refl)). pose proof (U 10 (or_intror eq_refl)).
  split; rewrite !in_app_iff; destruct (last u 0 =? 47); cbn [In]; tauto.
Qed.

(** The record about a missing file is one line and names the place, if all of it has
    at most 510 bytes. *)
Theorem C160_partial : forall thr fls flo en e q rest ins fuel, file_req q -> fair_env e -> plain e fls -> (3 <= fuel)%nat ->
  0 <= thr ->
  let p := asked (e_home e) (e_index e) (target_uri (rq_target q)) in
  let l := line_about fls "stat" p (fmt_d en) in
  e_fs e p = NoNode -> zlen l <= 510 ->
  logged thr fls flo en e fuel (RxData (print_req q ++ rest) :: ins) = Ok (Some l) /\ one_line l.
Proof.
  intros thr fls flo en e q rest ins fuel Q FE P F T p l NF L.
  rewrite log_req by assumption. fold p. rewrite NF. split.
  - apply log_of; [exact T|apply P|exact L].
  - apply line_one; [now apply no_crlf_b|apply P| |apply fmt_no_crlf].
    apply (asked_one e fls); [exact P|]. apply Q.
Qed.
(** So is the one about a file that cannot be opened. *)
Theorem C160_open_partial : forall thr fls flo en e q rest ins fuel n, file_req q -> fair_env e -> plain e flo -> (3 <= fuel)%nat ->
  0 <= thr ->
  let p := asked (e_home e) (e_index e) (target_uri (rq_target q)) in
  let l := line_about flo "open" p (fmt_d en) in
  e_fs e p = Node true n false -> zlen l <= 510 ->
  logged thr fls flo en e fuel (RxData (print_req q ++ rest) :: ins) = Ok (Some l) /\ one_line l.
Proof.
  intros thr fls flo en e q rest ins fuel n Q FE P F T p l NF L.
  rewrite log_req by assumption. fold p. rewrite NF. split.
  - apply log_of; [exact T|apply P|exact L].
  - apply line_one; [now apply no_crlf_b|apply P| |apply fmt_no_crlf].
    apply (asked_one e flo); [exact P|]. apply Q.
Qed.
(** A file that is there and can be opened, or may not be read, leaves nothing. *)
Theorem C160_none : forall thr fls flo en e q rest ins fuel n o, file_req q -> fair_env e -> (3 <= fuel)%nat ->
  let p := asked (e_home e) (e_index e) (target_uri (rq_target q)) in
  e_fs e p = Node true n true \/ e_fs e p = Node false n o ->
  logged thr fls flo en e fuel (RxData (print_req q ++ rest) :: ins) = Ok None.
Proof.
  intros thr fls flo en e q rest ins fuel n o Q FE F p NF. rewrite log_req by assumption. fold p.
  destruct NF as [->| ->]; reflexivity.
Qed.
(** A request that is not for a file (another method, a path that goes up) leaves
    nothing either: nothing is looked up for it. *)
Theorem C160_turned_away : forall thr fls flo en e q rest ins fuel, small q -> Forall not_clen (rq_headers q) -> (3 <= fuel)%nat ->
  let u := target_uri (rq_target q) in
  wf_path u -> zlen u < 1024 -> ~ iprefix (rq_method q) (str "GET") \/ occurs (str "../") u ->
  logged thr fls flo en e fuel (RxData (print_req q ++ rest) :: ins) = Ok None.
Proof.
  intros thr fls flo en e q rest ins fuel S N F u (V & _) LU T. destruct fuel as [|[|[|k]]]; try lia.
  destruct (run_head q rest ins (Datatypes.S k) S) as (r & m & R & H).
  unfold logged. rewrite R, (body_none k q r m _ _ S H N). cbn [bind].
  assert (NU : no_nul u).
  { intros X. rewrite Forall_forall in V. specialize (V 0 X). unfold visible in V. lia. }
  unfold web_log. rewrite (router_short web_apis _ _ u); [|exact (head_uri _ _ _ _ H)|exact NU|exact LU].
  destruct (find _ web_apis); [reflexivity|].
  cbn [q_mtyp set_pay]. rewrite (ho_mtyp _ _ _ _ H). unfold method_code.
  destruct T as [T|T].
  - destruct (ipre (rq_method q) lit_get) eqn:G; [exfalso; apply T, ipre_spec; exact G|].
    destruct (ipre (rq_method q) lit_post); reflexivity.
  - apply occursb_spec in T. rewrite T. destruct (_ =? 1); reflexivity.
Qed.
(** False: any request whose line would have more than 512 bytes makes the server write
    bytes of its stack behind the record. *)
Theorem C160_refuted_memory : forall thr fls flo en e q rest ins fuel, file_req q -> fair_env e -> zlen fls <= 255 -> (3 <= fuel)%nat ->
  0 <= thr ->
  let p := asked (e_home e) (e_index e) (target_uri (rq_target q)) in
  e_fs e p = NoNode -> zlen (line_about fls "stat" p (fmt_d en)) > 512 ->
  logged thr fls flo en e fuel (RxData (print_req q ++ rest) :: ins) = Fault FOverread.
Proof.
  intros thr fls flo en e q rest ins fuel Q FE P F T p NF L.
  rewrite log_req by assumption. fold p. rewrite NF. apply log_of; [exact T|exact P|exact L].
Qed.
Print Assumptions C160_partial.
Print Assumptions C160_open_partial.
Print Assumptions C160_none.
Print Assumptions C160_turned_away.
Print Assumptions C160_refuted_memory.

(** ** Lines of the client's own *)
(** every byte of a request line that does not end the path *)
Definition goes_on (b : Z) : Prop := 32 < b <= 127 \/ b = 10 \/ b = 13.
(** a GET request whose path is a slash and [x] *)
Definition get_for (x : list Z) : list Z := str "GET /" ++ x ++ str " HTTP/1.1" ++ [13; 10] ++ [13; 10].

Definition in_path : hreq := Eval vm_compute in
  match scan req_new 0 (str "GET /") with SEnd r => r | _ => req_new end.
Definition line_read (p : Z) : hreq :=
  match scan in_path p (str " HTTP/1.1" ++ [13; 10]) with SDone r _ => r | _ => in_path end.

Lemma scan_path x : Forall goes_on x -> forall p, scan in_path p x = SEnd in_path.
Proof.
  induction 1 as [|b x B _ IH]; intros p; [reflexivity|]. cbn [scan].
  assert (E : byte_step in_path p b = BNext in_path); [|rewrite E; apply IH].
  unfold byte_step. assert (bad_byte b = false) as ->.
  { unfold bad_byte, CR, LF. destruct B as [B|[->| ->]]; [|reflexivity|reflexivity].
    destruct (Z.ltb_spec b 32), (Z.ltb_spec 127 b); (lia || reflexivity). }
  unfold in_path at 1. cbn [q_ph line_byte]. unfold SP. destruct (Z.eqb_spec b 32); [|reflexivity]. unfold goes_on in B. lia.
Qed.
Lemma scan_version p rest : scan in_path p (str " HTTP/1.1" ++ [13; 10] ++ rest) = SDone (line_read p) (p + 10).
Proof.
  transitivity (SDone (line_read p) (p + 1 + 1 + 1 + 1 + 1 + 1 + 1 + 1 + 1 + 1)); [reflexivity|]. f_equal. lia.
Qed.

Lemma parse_forged x ins fuel : Forall goes_on x -> zlen (get_for x) <= 4096 -> (3 <= fuel)%nat ->
  exists r m ins', http_start fuel (RxData (get_for x) :: ins) = Ok (HComplete r m ins') /\
    slot_at (mbuf m) (q_uri r) (47 :: x) /\ q_mtyp r = 1.
Proof.
  intros G L F. destruct fuel as [|[|[|k]]]; try lia.
  assert (EQ : get_for x = 71 :: (str "ET /" ++ x ++ str " HTTP/1.1" ++ [13; 10] ++ [13; 10])) by reflexivity.
  rewrite EQ. destruct (new_run (S (S k)) 71 (str "ET /" ++ x ++ str " HTTP/1.1" ++ [13; 10] ++ [13; 10]) ins) as (m & R & Wm & Cm & Pm & Dm).
  rewrite R. clear R. rewrite <- EQ in *. rewrite ztake_all in Dm by lia.
  set (ins' := unread (get_for x) 4096 ins).
  pose proof (mdata_len m Wm) as DL. rewrite Dm in DL.
  assert (GL : zlen (get_for x) = 5 + zlen x + 13).
  { unfold get_for. rewrite !zlen_app. change (zlen (str "GET /")) with 5. change (zlen (str " HTTP/1.1")) with 9.
    change (zlen [13; 10]) with 2. lia. }
  pose proof (zlen_nonneg x) as X0.
  (* the line *)
  cbn [http_run req_new q_ph]. destruct (Z.ltb_spec (meta_getlen m) 1); [lia|]. cbn [bind].
  change (mkReq (PLine LMethodInit) slot0 slot0 slot0 slot0 slot0 slot0 0 (repeat (slot0, slot0) 16) 0 false 0 None) with req_new.
  assert (SC : scan req_new (mpos m) (mdata m) = SDone (line_read (5 + zlen x)) (5 + zlen x + 10)).
  { rewrite Pm, Dm. unfold get_for. rewrite scan_app.
    assert (scan req_new 0 (str "GET /") = SEnd in_path) as -> by (vm_compute; reflexivity).
    rewrite scan_app, scan_path by exact G. change (zlen (str "GET /")) with 5.
    change (0 + 5) with 5. apply scan_version. }
  rewrite SC. change (q_ph (line_read (5 + zlen x))) with (PHdrs HKeyInit). cbv iota zeta beta.
  set (m2 := mkMeta (mbuf m) (5 + zlen x + 10 + 1) (mlast m)).
  destruct (meta_consume_ok m (5 + zlen x + 11) Wm) as (W2 & D2); [lia|].
  assert (EM : meta_consume m (5 + zlen x + 11) = m2) by (unfold meta_consume, m2; f_equal; lia).
  rewrite EM in W2, D2. rewrite Dm in D2.
  assert (D2' : mdata m2 = [13; 10]).
  { rewrite D2. unfold get_for. rewrite !app_assoc. rewrite zdrop_app_r.
    - replace (5 + zlen x + 11 - _) with 0; [apply zdrop_le0; lia|].
      rewrite !zlen_app. change (zlen (str "GET /")) with 5. change (zlen (str " HTTP/1.1")) with 9. change (zlen [13; 10]) with 2. lia.
    - rewrite !zlen_app. change (zlen (str "GET /")) with 5. change (zlen (str " HTTP/1.1")) with 9. change (zlen [13; 10]) with 2. lia. }
  pose proof (mdata_len m2 W2) as DL2. rewrite D2' in DL2. change (zlen [13; 10]) with 2 in DL2.
  change (q_ph (line_read (5 + zlen x))) with (PHdrs HKeyInit). cbv iota.
  destruct (Z.ltb_spec (meta_getlen m2) 1); [lia|]. cbn [bind]. rewrite D2'.
  set (r3 := set_ph (line_read (5 + zlen x)) PBody).
  assert (S3 : scan (line_read (5 + zlen x)) (mpos m2) [13; 10] = SDone r3 (mpos m2 + 1)) by reflexivity.
  rewrite S3. change (q_ph r3) with PBody. cbv iota zeta beta.
  assert (A : at_off (mbuf m) 0 (get_for x)).
  { rewrite <- Pm. apply (at_off_mdata m _ [] Wm). now rewrite app_nil_r. }
  assert (HF : hdr_finish (mbuf m2) r3 = Ok (set_mtyp (set_keep r3 false) 1)).
  { unfold hdr_finish. change (ztake (q_kvn r3) (q_kvs r3)) with (@nil (slot * slot)). cbn [keep_loop bind].
    change (slot_is (mbuf m2) (q_method r3) lit_get) with (ncaseeq (mbuf m) 0 lit_get (zlen (str "GET"))).
    rewrite (ncaseeq_at (mbuf m) lit_get (str "GET") 0).
    - reflexivity.
    - apply (at_off_sub0 _ _ _ (str " /" ++ x ++ str " HTTP/1.1" ++ [13; 10] ++ [13; 10])). exact A.
    - repeat (apply Forall_cons; [unfold text; vm_compute; intuition discriminate|]). apply Forall_nil. }
  rewrite HF. cbn [bind]. cbn [http_run]. change (q_ph (set_mtyp (set_keep r3 false) 1)) with PBody.
  change (q_pay (set_mtyp (set_keep r3 false) 1)) with (@None meta). cbv iota.
  change (ztake (q_kvn (set_mtyp (set_keep r3 false) 1)) (q_kvs (set_mtyp (set_keep r3 false) 1))) with (@nil (slot * slot)).
  cbn [clen_loop bind]. change (0 <? q_payn (set_mtyp (set_keep r3 false) 1)) with false. cbv iota.
  eexists _, _, _. split; [reflexivity|]. split; [|reflexivity].
  change (slot_at (mbuf m) (mkSlot 4 (5 + zlen x - 4)) (47 :: x)).
  split; [cbn [s_len]; rewrite zlen_cons; lia|]. cbn [s_off].
  destruct (at_off_sub (mbuf m) 0 (str "GET ") (47 :: x) (str " HTTP/1.1" ++ [13; 10] ++ [13; 10]) A) as (pre & post & E1 & E2).
  exists pre, post. split; [exact E1|]. rewrite <- E2. reflexivity.
Qed.

(** False: the path may hold line breaks, so a client writes lines of its own into the
    log: every text of visible characters, alone on its line. *)
Theorem C160_refuted_forged : forall thr fls flo en e y ins fuel, Forall visible y -> fair_env e -> zlen fls <= 255 -> (3 <= fuel)%nat ->
  0 <= thr -> (forall p, e_fs e p = NoNode) -> ~ occurs (str "../") (47 :: 10 :: y ++ [10]) ->
  zlen fls + zlen (e_home e) + zlen y <= 400 ->
  exists a z, logged thr fls flo en e fuel (RxData (get_for (10 :: y ++ [10])) :: ins)
    = Ok (Some (a ++ [10] ++ y ++ [10] ++ z)).
Proof.
  intros thr fls flo en e y ins fuel V FE LF F T FS NO L.
  pose proof (zlen_nonneg y). pose proof (zlen_nonneg fls). pose proof (zlen_nonneg (e_home e)).
  assert (ZX : zlen (10 :: y ++ [10]) = zlen y + 2) by (rewrite zlen_cons, zlen_app; change (zlen [10]) with 1; lia).
  destruct (parse_forged (10 :: y ++ [10]) ins fuel) as (r & m & ins' & R & SA & MT).
  - apply Forall_cons; [unfold goes_on; lia|]. apply Forall_app. split.
    + eapply Forall_impl; [|exact V]. unfold visible, goes_on. lia.
    + apply Forall_cons; [right; left; reflexivity|apply Forall_nil].
  - unfold get_for. rewrite !zlen_app, ZX. change (zlen (str "GET /")) with 5. change (zlen (str " HTTP/1.1")) with 9. change (zlen [13; 10]) with 2. lia.
  - exact F.
  - unfold logged. rewrite R. cbn [bind].
    rewrite (log_path thr fls flo en e r m (47 :: 10 :: y ++ [10])); try assumption; try discriminate.
    + rewrite FS. set (p := asked _ _ _).
      assert (EP : p = e_home e ++ [47; 10] ++ y ++ [10]).
      { unfold p, asked. assert (last (47 :: 10 :: y ++ [10]) 0 = 10) as ->.
        { change (47 :: 10 :: y ++ [10]) with ((47 :: 10 :: y) ++ [10]). apply last_last. }
        change (10 =? 47) with false. cbv iota. cbn [app]. now rewrite app_nil_r. }
      destruct (log_of thr fls "stat" p en T LF) as (OKL & _). rewrite OKL.
      * exists (str "[error]" ++ fls ++ str "webser " ++ str "stat" ++ str " reqfile [" ++ e_home e ++ [47]), (str "] err, [" ++ fmt_d en ++ str "]" ++ [10]).
        unfold line_about. rewrite EP, <- !app_assoc. reflexivity.
      * unfold line_about. rewrite EP, !zlen_app. pose proof (fmt_d_len en).
        repeat match goal with |- context[zlen (str ?s)] => let n := eval vm_compute in (zlen (str s)) in change (zlen (str s)) with n end.
        change (zlen [47; 10]) with 2. change (zlen [10]) with 1. lia.
    + intros [X|[X|X]]; [discriminate X|discriminate X|]. apply in_app_iff in X. destruct X as [X|[X|[]]]; [|discriminate X].
      rewrite Forall_forall in V. specialize (V 0 X). unfold visible in V. lia.
    + rewrite zlen_cons, ZX. lia.
Qed.
Print Assumptions C160_refuted_forged.

(** ** The property as a whole, and examples *)
Definition C160_property : Prop := forall thr fls flo en e fuel ins, fair_env e -> plain e fls -> plain e flo ->
  (exists l, logged thr fls flo en e fuel ins = Ok (Some l) /\ one_line l) \/
  logged thr fls flo en e fuel ins = Ok None \/ logged thr fls flo en e fuel ins = NoFuel.

Definition bare : env := mkEnv (str "/srv/www") (str "index.html") (fun _ => NoNode) (str "Sun, 06 Nov 1994 08:49:37 GMT") [0].
Definition here : list Z := str " 2026.11.15 20:00:00.000 <webser_req_file:361> ".
Lemma bare_fair : fair_env bare.
Proof.
  split; [notin|]. split; [notin|]. split; [vm_compute; discriminate|]. split; [vm_compute; discriminate|].
  split; [apply no_crlf_b; reflexivity|vm_compute; discriminate].
Qed.
Lemma bare_plain : plain bare here.
Proof. repeat (split; [apply no_crlf_b; reflexivity|]). vm_compute; discriminate. Qed.
Ltac is_file := split; [split; [|split; vm_compute; discriminate]; split; [isword|]; split; [vm_compute; discriminate|]; split; [ispath|]; split; [isword|]; apply Forall_nil
  |split; [apply Forall_nil|split; [reflexivity|split; [ispath|split; [vm_compute; reflexivity|split; [discriminate|
   intros O; apply occursb_spec in O; vm_compute in O; discriminate O]]]]]].

Example C160_example : file_req (Web_Props.get (str "/no.html")) /\ fair_env bare /\ plain bare here /\
  logged 1 here here 2 bare 3 [RxData (print_req (Web_Props.get (str "/no.html")))] =
    Ok (Some (str "[error] 2026.11.15 20:00:00.000 <webser_req_file:361> webser stat reqfile [/srv/www/no.html] err, [2]" ++ [10])).
Proof. split; [is_file|]. split; [apply bare_fair|]. split; [apply bare_plain|]. vm_compute. reflexivity. Qed.

(** a path of 500 letters *)
Definition long_path : list Z := 47 :: zrepeat 97 500.
Example C160_memory_example : file_req (Web_Props.get long_path) /\
  zlen (line_about here "stat" (asked (e_home bare) (e_index bare) long_path) (fmt_d 36)) > 512 /\
  logged 1 here here 36 bare 3 [RxData (print_req (Web_Props.get long_path))] = Fault FOverread.
Proof. split; [is_file|]. split; [vm_compute; reflexivity|]. vm_compute. reflexivity. Qed.

Definition lie : list Z := str "[error]:server-stopped".
Example C160_forged_example : Forall visible lie /\ ~ occurs (str "../") (47 :: 10 :: lie ++ [10]) /\
  zlen here + zlen (e_home bare) + zlen lie <= 400 /\
  logged 1 here here 2 bare 3 [RxData (get_for (10 :: lie ++ [10]))] =
    Ok (Some (str "[error] 2026.11.15 20:00:00.000 <webser_req_file:361> webser stat reqfile [/srv/www/" ++ [10] ++
      str "[error]:server-stopped" ++ [10] ++ str "] err, [2]" ++ [10])).
Proof.
  split; [vis|]. split; [intros O; apply occursb_spec in O; vm_compute in O; discriminate O|].
  split; [vm_compute; discriminate|]. vm_compute. reflexivity.
Qed.
Example C160_away_example : small (Web_Props.get (str "/../no.html")) /\ occurs (str "../") (str "/../no.html") /\
  logged 1 here here 2 bare 3 [RxData (print_req (Web_Props.get (str "/../no.html")))] = Ok None.
Proof. split; [|split; [apply occursb_spec; vm_compute; reflexivity|vm_compute; reflexivity]]. split; [|split; vm_compute; discriminate].
  split; [isword|]. split; [vm_compute; discriminate|]. split; [ispath|]. split; [isword|]. apply Forall_nil.
Qed.
Example C160_open_example : let e := mkEnv (str "/srv/www") (str "index.html") (fun _ => Node true 5 false) [] [0] in
  fair_env e /\ logged 1 here here 13 e 3 [RxData (print_req (Web_Props.get (str "/")))] =
    Ok (Some (str "[error] 2026.11.15 20:00:00.000 <webser_req_file:361> webser open reqfile [/srv/www/index.html] err, [13]" ++ [10])).
Proof.
  split; [|vm_compute; reflexivity].
  split; [notin|]. split; [notin|]. split; [vm_compute; discriminate|]. split; [vm_compute; discriminate|].
  split; [apply no_crlf_b; reflexivity|vm_compute; discriminate].
Qed.

Theorem C160_property_refuted : ~ C160_property.
Proof.
  intros P. destruct C160_forged_example as (_ & _ & _ & E).
  destruct (P 1 here here 2 bare 3%nat [RxData (get_for (10 :: lie ++ [10]))] bare_fair bare_plain bare_plain) as [(l & L & t & T & N & _)|[L|L]];
    rewrite E in L; [|discriminate L|discriminate L].
  injection L as L. apply N. rewrite T in L.
  match type of L with ?k = _ => assert (K : In 10 (removelast k)) by (vm_compute; repeat (first [left; reflexivity|right])) end.
  rewrite L, removelast_last in K. exact K.
Qed.
Print Assumptions C160_property_refuted.
