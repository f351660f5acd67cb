(** C161: requests that name the same file get the same answer *)
From Coq Require Import String.
From Verif Require Import Base Str_Spec Hash_Model Hash_Props Meta_Model Meta_Proofs S5_Model Http_Model Http_Spec Http_Proofs Http_Props.
From Verif Require Import Http_Bad_Props Web_Spec Web_Model Web_Proofs Web_Props Web_Session_Props Web_Answer_Props.
Open Scope Z_scope.
Local Arguments Z.add : simpl never.
Local Arguments Z.sub : simpl never.
Local Arguments zlen : simpl never.

(** ** Specification: RFC 3986, sections 2.1 and 3.3 *)
(** the path is what stands before the query *)
Fixpoint before_query (u : list Z) : list Z :=
  match u with [] => [] | b :: t => if b =? 63 then [] else b :: before_query t end.
Definition hex (b : Z) : option Z :=
  if (48 <=? b) && (b <=? 57) then Some (b - 48)
  else if (65 <=? b) && (b <=? 70) then Some (b - 55)
  else if (97 <=? b) && (b <=? 102) then Some (b - 87) else None.
(** "%41" stands for "A" *)
Fixpoint decoded (u : list Z) : list Z :=
  match u with
  | b :: ((x :: y :: t) as r) =>
      if b =? 37 then match hex x, hex y with Some h, Some l => 16 * h + l :: decoded t | _, _ => b :: decoded r end
      else b :: decoded r
  | b :: r => b :: decoded r
  | [] => []
  end.
Definition named (u : list Z) : list Z := decoded (before_query u).

(** a GET request without body for a path that is no API and does not go up *)
Definition plain_get (q : request) : Prop :=
  small q /\ Forall not_clen (rq_headers q) /\ rq_method q = str "GET" /\
  wf_path (target_uri (rq_target q)) /\ zlen (target_uri (rq_target q)) < 1024 /\
  target_uri (rq_target q) <> str "/echo" /\ ~ occurs (str "../") (target_uri (rq_target q)).
(** what the server does with the request in one piece on a new connection *)
Definition answered (e : env) (q : request) (a : action) : Prop :=
  forall fuel, (3 <= fuel)%nat -> exists r m ins,
    http_start fuel [RxData (print_req q)] = Ok (HComplete r m ins) /\ handle web_apis e r m = Ok a.
(** status and file of an answer *)
Definition says (a : action) (s : list Z) : Prop := exists h t b, a = ARespond [h] b /\ mdata h = s ++ t.
Definition sends (a : action) (p : list Z) : Prop := exists h n o, a = ARespond h (BFile n p o).
Definition sends_none (a : action) : Prop := exists h, a = ARespond h BNone.

Definition C161_property : Prop := forall e q q' a a', fair_env e -> plain_get q -> plain_get q' ->
  named (target_uri (rq_target q)) = named (target_uri (rq_target q')) ->
  existsb keep_hdr (rq_headers q) = existsb keep_hdr (rq_headers q') ->
  answered e q a -> answered e q' a' -> a = a'.

(** ** Proofs *)
Lemma answered_is e q a : small q -> Forall not_clen (rq_headers q) -> answer web_apis e q = Ok a -> answered e q a.
Proof.
  intros S N A fuel F. destruct (one_request web_apis e q [] [] fuel S N F) as (r & m & R & H & _).
  rewrite app_nil_r in R. exists r, m. eexists. split; [exact R|]. rewrite H. exact A.
Qed.
Lemma answered_only e q a : small q -> Forall not_clen (rq_headers q) -> answered e q a -> answer web_apis e q = Ok a.
Proof.
  intros S N A. destruct (A 3%nat) as (r & m & ins & R & H); [lia|].
  destruct (one_request web_apis e q [] [] 3 S N) as (r' & m' & R' & H' & _); [lia|].
  rewrite app_nil_r, R in R'. injection R' as <- <- _. rewrite <- H'. exact H.
Qed.

(** The form of the target (with or without scheme, host and port), the version and the
    other headers make no difference: only the path, the method and whether the connection
    is kept. *)
Theorem C161_forms : forall e q q' a, small q -> small q' -> Forall not_clen (rq_headers q) -> Forall not_clen (rq_headers q') ->
  target_uri (rq_target q) = target_uri (rq_target q') -> rq_method q = rq_method q' ->
  existsb keep_hdr (rq_headers q) = existsb keep_hdr (rq_headers q') ->
  answered e q a -> answered e q' a.
Proof.
  intros e q q' a S S' N N' T M K A. apply answered_is; [exact S'|exact N'|].
  apply (answered_only e q a S N) in A. unfold answer in *. rewrite <- T, <- M, <- K. exact A.
Qed.

Definition place_of (e : env) (u : list Z) : list Z := e_home e ++ u ++ (if last u 0 =? 47 then e_index e else []).

Lemma file_answer e q : fair_env e -> plain_get q ->
  let p := place_of e (target_uri (rq_target q)) in
  answer web_apis e q =
    (let* f := file_rsp (e_fs e) p in
     let* h := rsp_head (f_code f) (e_date e) (existsb keep_hdr (rq_headers q)) (f_size f) (Some (f_ext f)) in
     Ok (ARespond h (if 0 <? f_size f then BFile (f_size f) p (f_open f) else BNone))).
Proof.
  intros (Nh & Ni & Lh & Li & _) (S & N & MG & (V & (t0 & ET)) & LU & NA & NO) p. unfold answer.
  set (u := target_uri (rq_target q)) in *. assert (MC : method_code (rq_method q) = 1) by now rewrite MG. rewrite MC.
  assert (NU : no_nul u) by (intros X; rewrite Forall_forall in V; specialize (V 0 X); unfold visible in V; lia).
  unfold reply, handle. cbn [mbuf q_uri q_mtyp q_keep q_pay parsed].
  rewrite (router_short web_apis u (whole u) u) by (apply slot_whole || assumption).
  assert (FA : find (fun a => bseq (a_key a) u && (1 =? a_mtyp a)) web_apis = None).
  { unfold web_apis, api_reg. change (31 <? zlen (str "/echo")) with false. cbn iota. cbn [app find a_key a_mtyp].
    replace (bseq (str "/echo") u) with false; [reflexivity|]. symmetry. apply bseq_neq. intros X. apply NA. symmetry. exact X. }
  rewrite FA. change (1 =? 1) with true. cbn iota. cbn [bind fst].
  destruct (occursb (str "../") u) eqn:OC; [exfalso; apply NO, occursb_spec; exact OC|].
  pose proof (zlen_nonneg (e_home e)). pose proof (zlen_nonneg u). pose proof (zlen_nonneg (e_index e)).
  rewrite (req_path_spec (e_home e) (e_index e) u (whole u) u) by (apply slot_whole || assumption || lia).
  destruct (Z.ltb_spec 2048 (zlen (e_home e) + zlen u)); [lia|]. rewrite andb_false_r. cbn [bind].
  assert (FP : full_path (e_home e) (e_index e) u = p).
  { unfold full_path, p, place_of. rewrite ET. reflexivity. }
  rewrite FP.
  assert (FL : zlen p <= 2047).
  { unfold p, place_of. rewrite !zlen_app. destruct (last u 0 =? 47); [|change (zlen (@nil Z)) with 0]; lia. }
  rewrite ztake_all by lia. reflexivity.
Qed.

(** The answer depends on the file system only through the one place that has the bytes
    of the path in its name, as they are. *)
Theorem C161_exact : forall e e' q a, fair_env e -> plain_get q ->
  e_home e' = e_home e -> e_index e' = e_index e -> e_date e' = e_date e ->
  let p := place_of e (target_uri (rq_target q)) in
  e_fs e' p = e_fs e p -> answered e q a -> answered e' q a.
Proof.
  intros e e' q a FE Q EH EI ED p FS A. destruct Q as (S & N & Q). apply answered_is; [exact S|exact N|].
  assert (FE' : fair_env e') by (unfold fair_env in *; rewrite EH, EI, ED; exact FE).
  apply (answered_only e q a S N) in A. rewrite (file_answer e q FE (conj S (conj N Q))) in A.
  rewrite (file_answer e' q FE' (conj S (conj N Q))). fold p in A.
  assert (P : place_of e' (target_uri (rq_target q)) = p) by (unfold place_of, p; now rewrite EH, EI).
  rewrite P, ED. unfold file_rsp in *. rewrite FS. exact A.
Qed.

(** nothing at the place: status 400, no file *)
Lemma missing e q : fair_env e -> plain_get q ->
  let p := place_of e (target_uri (rq_target q)) in
  e_fs e p = NoNode -> In 46 p ->
  exists a, answered e q a /\ says a (str "HTTP/1.1 400 Bad Request") /\ sends_none a.
Proof.
  intros FE Q p NF IP. pose proof (file_answer e q FE Q) as A. fold p in A.
  unfold file_rsp in A. destruct (rsp_mime_type p IP) as (t & E & T). rewrite E in A. cbn [bind] in A.
  destruct (type_small p t T) as (LT & NT). pose proof (zlen_nonneg t).
  rewrite !zlen_app in A. change (zlen (str "Content-type: ")) with 14 in A. change (zlen [13; 10]) with 2 in A.
  destruct (Z.ltb_spec 127 (14 + (zlen t + 2))); [lia|]. cbn [bind] in A. rewrite NF in A. cbn [f_code f_size f_ext f_open] in A.
  set (kp := existsb keep_hdr (rq_headers q)) in *. unfold rsp_head in A.
  destruct FE as (_ & _ & _ & _ & ND & LD).
  destruct (hdrps_new (status_text 400) ([str "Server: s5" ++ crlf2; str "Date: " ++ e_date e ++ crlf2;
             str "Connection: " ++ (if kp then str "keep-alive" else str "close") ++ crlf2;
             str "Content-Length: " ++ fmt_d 0 ++ crlf2] ++ [str "Content-type: " ++ t ++ [13; 10]] ++ [crlf2])) as (m & EM & _ & DM).
  - repeat (apply Forall_cons).
    + vm_compute; discriminate.
    + vm_compute; discriminate.
    + rewrite !zlen_app. change (zlen (str "Date: ")) with 6. change (zlen crlf2) with 2. lia.
    + destruct kp; vm_compute; discriminate.
    + vm_compute; discriminate.
    + rewrite !zlen_app. change (zlen (str "Content-type: ")) with 14. change (zlen [13; 10]) with 2. lia.
    + vm_compute; discriminate.
    + apply Forall_nil.
  - cbn [app List.concat]. rewrite !zlen_app. assert (zlen (if kp then str "keep-alive" else str "close") <= 10) by (destruct kp; vm_compute; discriminate).
    repeat match goal with |- context[zlen (str ?s)] => let n := eval vm_compute in (zlen (str s)) in change (zlen (str s)) with n end.
    change (zlen crlf2) with 2. change (zlen [13; 10]) with 2. change (zlen (fmt_d 0)) with 1. change (zlen (@nil Z)) with 0.
    change (zlen (status_text 400)) with 24. lia.
  - cbn [app] in EM. cbn [app] in A. rewrite EM in A. cbn [bind] in A. change (0 <? 0) with false in A. cbv iota in A.
    exists (ARespond [m] BNone). destruct Q as (S & N & _). split; [apply answered_is; assumption|]. split.
    + exists m. eexists. exists BNone. split; [reflexivity|]. rewrite DM. cbn [List.concat]. reflexivity.
    + exists [m]. reflexivity.
Qed.
(** a readable file at the place: it is sent *)
Lemma present e q n : fair_env e -> plain_get q ->
  let p := place_of e (target_uri (rq_target q)) in
  e_fs e p = Node true n true -> 0 < n < 2 ^ 31 -> In 46 p ->
  exists a, answered e q a /\ says a (str "HTTP/1.1 200 OK") /\ sends a p.
Proof.
  intros FE Q p NF B IP.
  destruct Q as (S & N & MG & WP & LU & NA & NO). pose proof WP as (_ & (t0 & ET)).
  assert (FP : p = full_path (e_home e) (e_index e) (target_uri (rq_target q))).
  { unfold p, place_of, full_path. rewrite ET. reflexivity. }
  destruct (answer_file e q p FE WP LU ltac:(rewrite MG; reflexivity) NA NO FP IP 200 n true ltac:(lia)) as (h & t & v & A & RS & _).
  { left. split; [reflexivity|exact NF]. }
  destruct (Z.ltb_spec 0 n); [|lia].
  exists (ARespond [h] (BFile n p true)). split; [apply answered_is; assumption|]. split.
  - destruct RS as (c3 & NM & L3 & _ & RB). unfold head_bytes in RB. change (reason 200) with (str "OK") in RB.
    assert (c3 = str "200") as ->.
    { destruct NM as (_ & FD & VD). destruct c3 as [|x [|y [|z [|w c3]]]]; try (vm_compute in L3; discriminate L3).
      - pose proof (Forall_inv FD) as D1. pose proof (Forall_inv (Forall_inv_tail FD)) as D2. pose proof (Forall_inv (Forall_inv_tail (Forall_inv_tail FD))) as D3.
        cbn in D1, D2, D3, VD. change (str "200") with [50; 48; 48]. f_equal; [lia|]. f_equal; [lia|]. f_equal; lia.
      - exfalso. rewrite !zlen_cons in L3. pose proof (zlen_nonneg c3). lia. }
    exists h. eexists. exists (BFile n p true). split; [reflexivity|]. rewrite RB.
    change (str "HTTP/1.1 200 OK") with (str "HTTP/1.1 " ++ str "200" ++ [32] ++ str "OK"). rewrite <- !app_assoc. reflexivity.
  - exists [h], n, true. reflexivity.
Qed.

Lemma before_query_app u s : ~ In 63 u -> before_query (u ++ 63 :: s) = u.
Proof.
  induction u as [|b u IH]; intros N; [reflexivity|]. cbn [app before_query].
  destruct (Z.eqb_spec b 63) as [->|_]; [exfalso; apply N; left; reflexivity|]. rewrite IH; [reflexivity|]. intros X. apply N. right. exact X.
Qed.
Lemma before_query_id u : ~ In 63 u -> before_query u = u.
Proof.
  induction u as [|b u IH]; intros N; [reflexivity|]. cbn [before_query].
  destruct (Z.eqb_spec b 63) as [->|_]; [exfalso; apply N; left; reflexivity|]. rewrite IH; [reflexivity|]. intros X. apply N. right. exact X.
Qed.
Lemma decoded_cons b r : b <> 37 -> decoded (b :: r) = b :: decoded r.
Proof. intros N. destruct r as [|x [|y t]]; try reflexivity. cbn [decoded]. destruct (Z.eqb_spec b 37); [contradiction|reflexivity]. Qed.
Lemma decoded_app u w : ~ In 37 u -> decoded (u ++ w) = u ++ decoded w.
Proof.
  induction u as [|b u IH]; intros N; [reflexivity|]. cbn [app]. rewrite decoded_cons by (intros ->; apply N; left; reflexivity).
  rewrite IH; [reflexivity|]. intros X. apply N. right. exact X.
Qed.

(** False: a query is taken for a part of the file's name, so a file that is sent for a
    path is not found for the same path with a query. *)
Theorem C161_refuted_query : forall e q q' s n, fair_env e -> plain_get q -> plain_get q' ->
  let u := target_uri (rq_target q) in
  target_uri (rq_target q') = u ++ 63 :: s -> ~ In 63 u ->
  e_fs e (place_of e u) = Node true n true -> 0 < n < 2 ^ 31 -> e_fs e (place_of e (u ++ 63 :: s)) = NoNode -> In 46 (e_home e ++ u) ->
  named (u ++ 63 :: s) = named u /\
  exists a a', answered e q a /\ says a (str "HTTP/1.1 200 OK") /\ sends a (place_of e u) /\
    answered e q' a' /\ says a' (str "HTTP/1.1 400 Bad Request") /\ sends_none a'.
Proof.
  intros e q q' s n FE Q Q' u U' NQ FS B FS' IP. split.
  { unfold named. now rewrite before_query_app, before_query_id by exact NQ. }
  assert (I1 : In 46 (place_of e u)).
  { unfold place_of. rewrite app_assoc, in_app_iff. left. exact IP. }
  assert (I2 : In 46 (place_of e (u ++ 63 :: s))).
  { unfold place_of. rewrite <- app_assoc, (app_assoc (e_home e)), in_app_iff. left. exact IP. }
  destruct (present e q n FE Q FS B I1) as (a & A1 & A2 & A3).
  destruct (missing e q' FE Q') as (a' & B1 & B2 & B3); [rewrite U'; exact FS'|rewrite U'; exact I2|].
  exists a, a'. auto 10.
Qed.
(** False: nothing is decoded either: a byte written as % and two digits is not found. *)
Theorem C161_refuted_percent : forall e q q' u v b x y h l n, fair_env e -> plain_get q -> plain_get q' ->
  target_uri (rq_target q) = u ++ b :: v -> target_uri (rq_target q') = u ++ 37 :: x :: y :: v ->
  hex x = Some h -> hex y = Some l -> b = 16 * h + l -> ~ In 63 (u ++ b :: v) -> ~ In 37 (u ++ [b]) ->
  e_fs e (place_of e (u ++ b :: v)) = Node true n true -> 0 < n < 2 ^ 31 ->
  e_fs e (place_of e (u ++ 37 :: x :: y :: v)) = NoNode -> In 46 (e_home e ++ u) ->
  named (u ++ 37 :: x :: y :: v) = named (u ++ b :: v) /\
  exists a a', answered e q a /\ says a (str "HTTP/1.1 200 OK") /\ sends a (place_of e (u ++ b :: v)) /\
    answered e q' a' /\ says a' (str "HTTP/1.1 400 Bad Request") /\ sends_none a'.
Proof.
  intros e q q' u v b x y h l n FE Q Q' U U' HX HY EB NQ NP FS B FS' IP.
  assert (NX : forall z k, hex z = Some k -> z <> 63).
  { intros z k H E. subst z. discriminate H. }
  assert (NPu : ~ In 37 u) by (intros X; apply NP, in_app_iff; left; exact X).
  assert (NPb : b <> 37) by (intros X; apply NP, in_app_iff; right; left; exact X).
  split.
  { unfold named. rewrite (before_query_id (u ++ b :: v)) by exact NQ.
    rewrite before_query_id.
    - rewrite !decoded_app by exact NPu. f_equal. rewrite (decoded_cons b v NPb).
      cbn [decoded]. rewrite HX, HY. change (37 =? 37) with true. cbv iota. now rewrite EB.
    - rewrite in_app_iff in *. intros [X|[X|[X|[X|X]]]]; [tauto|discriminate X|exact (NX _ _ HX X)|exact (NX _ _ HY X)|].
      apply NQ. right. right. exact X. }
  assert (I0 : forall w, In 46 (place_of e (u ++ w))).
  { intros w. unfold place_of. rewrite <- app_assoc, (app_assoc (e_home e)), in_app_iff. left. exact IP. }
  destruct (present e q n FE Q) as (a & A1 & A2 & A3); [rewrite U; exact FS|exact B|rewrite U; apply I0|].
  destruct (missing e q' FE Q') as (a' & B1 & B2 & B3); [rewrite U'; exact FS'|rewrite U'; apply I0|].
  rewrite U in A3. exists a, a'. auto 10.
Qed.

(** ** Examples *)
Definition one_file : env := mkEnv (str "/srv/www") (str "index.html")
  (fun p => if bseq p (str "/srv/www/a.html") then Node true 1000 true else NoNode) (str "Sun, 06 Nov 1994 08:49:37 GMT") [0].
Lemma one_file_fair : fair_env one_file.
Proof.
  split; [notin|]. split; [notin|]. split; [vm_compute; discriminate|]. split; [vm_compute; discriminate|].
  split; [apply no_crlf_b; reflexivity|vm_compute; discriminate].
Qed.
Ltac is_plain := split; [split; [|split; vm_compute; discriminate]; split; [isword|]; split; [vm_compute; discriminate|]; split; [ispath|]; split; [isword|]; apply Forall_nil
  |split; [apply Forall_nil|split; [reflexivity|split; [ispath|split; [vm_compute; reflexivity|split; [discriminate|
   intros O; apply occursb_spec in O; vm_compute in O; discriminate O]]]]]].
Lemma get_a : plain_get (Web_Props.get (str "/a.html")). Proof. is_plain. Qed.
Lemma get_a_query : plain_get (Web_Props.get (str "/a.html?v=2")). Proof. is_plain. Qed.
Lemma get_a_percent : plain_get (Web_Props.get (str "/a.h%74ml")). Proof. is_plain. Qed.

Example C161_query_example : exists a a',
  answered one_file (Web_Props.get (str "/a.html")) a /\ says a (str "HTTP/1.1 200 OK") /\
  answered one_file (Web_Props.get (str "/a.html?v=2")) a' /\ says a' (str "HTTP/1.1 400 Bad Request").
Proof.
  destruct (C161_refuted_query one_file _ _ (str "v=2") 1000 one_file_fair get_a get_a_query) as (_ & a & a' & A1 & A2 & _ & B1 & B2 & _).
  - reflexivity.
  - notin.
  - vm_compute; reflexivity.
  - lia.
  - vm_compute; reflexivity.
  - vm_compute. repeat (first [left; reflexivity|right]).
  - exists a, a'. auto.
Qed.
Example C161_percent_example : exists a a',
  answered one_file (Web_Props.get (str "/a.html")) a /\ says a (str "HTTP/1.1 200 OK") /\
  answered one_file (Web_Props.get (str "/a.h%74ml")) a' /\ says a' (str "HTTP/1.1 400 Bad Request").
Proof.
  destruct (C161_refuted_percent one_file _ _ (str "/a.h") (str "ml") 116 55 52 7 4 1000 one_file_fair get_a get_a_percent) as (_ & a & a' & A1 & A2 & _ & B1 & B2 & _).
  - vm_compute; reflexivity.
  - vm_compute; reflexivity.
  - vm_compute; reflexivity.
  - vm_compute; reflexivity.
  - lia.
  - notin.
  - notin.
  - vm_compute; reflexivity.
  - lia.
  - vm_compute; reflexivity.
  - vm_compute. repeat (first [left; reflexivity|right]).
  - exists a, a'. auto.
Qed.
Example C161_forms_example : small ex_q /\ Forall not_clen (rq_headers ex_q) /\
  target_uri (rq_target ex_q) = target_uri (TPath (str "/a/b.html")).
Proof.
  split; [|split; [repeat (apply Forall_cons; [apply not_clen_b; reflexivity|]); apply Forall_nil|reflexivity]].
  split; [|split; vm_compute; discriminate].
  apply C106_line_example.
Qed.

Theorem C161_property_refuted : ~ C161_property.
Proof.
  intros P. destruct C161_query_example as (a & a' & A1 & A2 & B1 & B2).
  assert (E : a = a').
  { apply (P one_file _ _ a a' one_file_fair get_a get_a_query); try assumption; vm_compute; reflexivity. }
  subst a'. destruct A2 as (h & t & b & E1 & D1). destruct B2 as (h' & t' & b' & E2 & D2).
  rewrite E1 in E2. injection E2 as <- _. rewrite D1 in D2. vm_compute in D2. discriminate D2.
Qed.
Print Assumptions C161_forms.
Print Assumptions C161_exact.
Print Assumptions C161_refuted_query.
Print Assumptions C161_refuted_percent.
Print Assumptions C161_property_refuted.
