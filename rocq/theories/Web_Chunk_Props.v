(** * C164: what a request carries is not taken for another request. *)
From Coq Require Import String.
From Verif Require Import Base Str_Spec Meta_Model Meta_Proofs S5_Model Hash_Model Hash_Props.
From Verif Require Import Http_Model Http_Spec Http_Proofs Http_Props Send_Model Send_Props.
From Verif Require Import Web_Spec Web_Model Web_Proofs Web_Props Web_Session_Props.
Open Scope Z_scope.
Local Arguments Z.add : simpl never.
Local Arguments Z.sub : simpl never.
Local Arguments Z.mul : simpl never.
Local Arguments Z.div : simpl never.
Local Arguments zlen : simpl never.

(** ** Specification
    A message of HTTP/1.1 is a head and a content. The content is either as long
    as the header Content-Length says ([announces]), or, with the header
    "Transfer-Encoding: chunked", it comes in chunks: the length in hexadecimal,
    CR LF, the bytes, CR LF; a chunk of length 0 and an empty line end it. *)
Definition hexval (b : Z) : option Z :=
  if (48 <=? b) && (b <=? 57) then Some (b - 48)
  else if (65 <=? b) && (b <=? 70) then Some (b - 55)
  else if (97 <=? b) && (b <=? 102) then Some (b - 87) else None.
Inductive hexnum : list Z -> Z -> Prop :=
| hex1 d v : hexval d = Some v -> hexnum [d] v
| hexS ds d a v : hexnum ds a -> hexval d = Some v -> hexnum (ds ++ [d]) (16 * a + v).
(** a content as a body of chunks *)
Inductive chunked : list Z -> list Z -> Prop :=
| chunk_end : chunked [] (str "0" ++ crlf ++ crlf)
| chunk_more size d content more : hexnum size (zlen d) -> 1 <= zlen d -> chunked content more ->
    chunked (d ++ content) (size ++ crlf ++ d ++ crlf ++ more).
Definition says_chunked (q : request) : Prop :=
  exists h, In h (rq_headers q) /\ ieq (h_name h) (str "Transfer-Encoding") /\ ieq (h_value h) (str "chunked").
(** The bytes [body] are the body of the request [q], nothing more and nothing less. *)
Definition body_of (q : request) (body : list Z) : Prop :=
  (exists hs1 h hs2, rq_headers q = hs1 ++ h :: hs2 /\ ieq (h_name h) (str "Content-Length") /\ numeral (h_value h) (zlen body) /\
     Forall (fun h' => ~ ieq (h_name h') (str "Content-Length") /\ ~ ieq (h_name h') (str "Transfer-Encoding")) (hs1 ++ hs2)) \/
  (Forall not_clen (rq_headers q) /\ says_chunked q /\ exists content, chunked content body).

(** ** The property: one request, one answer *)
Definition C164_property : Prop := forall apis e q body b0 ins n fuel acts w,
  small q -> body_of q body -> b0 ++ flat ins = body -> clean ins ->
  session n fuel apis e (RxData (print_req q ++ b0) :: ins) = Ok (acts, w) ->
  (Datatypes.length acts <= 1)%nat.

(** ** With a Content-Length *)
(** what [announces] asks for is more: no other name is a beginning of "Content-Length" *)
Lemma announces_body q body : announces q (zlen body) ->
  Forall (fun h' => ~ ieq (h_name h') (str "Transfer-Encoding")) (rq_headers q) -> body_of q body.
Proof.
  intros (hs1 & h & hs2 & E & N & V & F1 & F2) T. left. exists hs1, h, hs2. split; [exact E|]. split; [exact N|]. split; [exact V|].
  rewrite E in T. apply Forall_app in T. destruct T as (T1 & T2). apply Forall_inv_tail in T2.
  assert (X : forall l, Forall not_clen l -> Forall (fun h' => ~ ieq (h_name h') (str "Transfer-Encoding")) l ->
    Forall (fun h' => ~ ieq (h_name h') (str "Content-Length") /\ ~ ieq (h_name h') (str "Transfer-Encoding")) l).
  { intros l A B. rewrite Forall_forall in *. intros x IN. split; [|exact (B x IN)].
    intros Q. apply (A x IN). exists []. rewrite app_nil_r. exact Q. }
  apply Forall_app. split; apply X; assumption.
Qed.

Lemma nothing_left fuel ins : clean ins -> flat ins = [] -> http_start fuel ins = NoFuel \/ exists r m, http_start fuel ins = Ok (HWait r m).
Proof.
  revert ins. induction fuel as [|k IH]; intros ins C F; [left; reflexivity|]. destruct ins as [|[bs| |] t].
  - right. eexists _, _. reflexivity.
  - exfalso. pose proof (Forall_inv C) as N. cbn in N. cbn [flat] in F. apply app_eq_nil in F. tauto.
  - exact (IH t (Forall_inv_tail C) F).
  - exfalso. exact (Forall_inv C).
Qed.

(** The length the server works with is the announced one as an [int]. *)
Definition as_int (n : Z) : Z := (n + 2 ^ 31) mod 2 ^ 32 - 2 ^ 31.
Lemma clen_any q buf es n : wf_req q -> announces q n -> Forall2 (hdr_at buf) es (rq_headers q) ->
  clen_loop buf es 0 = Ok (let n' := as_int (Z.min n (2 ^ 63 - 1)) in if (n' <? 0) || (MAX_BODY <? n') then None else Some n').
Proof.
  intros (_ & _ & _ & _ & W) (hs1 & h & hs2 & E & NM & NU & N1 & N2) F. rewrite E in *.
  apply Forall2_app_inv_r in F as (e1 & e2 & F1 & F2 & ->).
  apply Forall_app in W as (W1 & W2). inversion F2 as [|e h' e3 hs' Fe F3]; subst.
  assert (N1' : Forall (fun h => ipre (h_name h) lit_clen = false) hs1) by
    (eapply Forall_impl; [|exact N1]; apply not_clen_ipre).
  rewrite clen_app, (clen_none buf e1 hs1) by assumption. cbn [bind].
  cbn [clen_loop]. rewrite (hdr_at_name _ _ h) by (assumption || exact (Forall_inv W2)).
  rewrite str_clen in NM. rewrite (ieq_ipre _ _ NM). cbn [bind].
  assert (P0 : 0 <= n) by (destruct NU as (_ & G & <-); apply dec_from_ge; [lia|assumption]).
  destruct Fe as (ok & ov & -> & _ & A). cbn [snd s_off].
  rewrite (strtol_at buf ov (h_value h) n 13 A eq_refl NU). cbn [bind]. cbv zeta.
  assert (C : clamp64 n = Z.min n (2 ^ 63 - 1)) by (unfold clamp64; lia). rewrite C.
  change (to_int (Z.min n (2 ^ 63 - 1))) with (as_int (Z.min n (2 ^ 63 - 1))).
  destruct (as_int (Z.min n (2 ^ 63 - 1)) <? 0); [reflexivity|].
  destruct (MAX_BODY <? as_int (Z.min n (2 ^ 63 - 1))); [reflexivity|].
  apply (clen_none buf e3 hs2); auto; [exact (Forall_inv_tail W2)|].
  eapply Forall_impl; [|exact N2]. apply not_clen_ipre.
Qed.
Lemma as_int_id n : 0 <= n < 2 ^ 31 -> as_int (Z.min n (2 ^ 63 - 1)) = n.
Proof. intros B. unfold as_int. rewrite Z.min_l by lia. rewrite Z.mod_small; lia. Qed.

(** A body that is too long is not read at all: the connection is closed. *)
Theorem C164_too_long : forall apis e q k b0 ins n fuel,
  small q -> announces q k -> 16344 < k < 2 ^ 31 -> (3 <= fuel)%nat ->
  session (S n) fuel apis e (RxData (print_req q ++ b0) :: ins) = Ok ([], CClosed).
Proof.
  intros apis e q k b0 ins n fuel SM A B K. destruct fuel as [|[|[|f]]]; try lia. pose proof SM as (W & _). cbn [session].
  destruct (run_head q b0 ins (S f) SM) as (r & m & R & HO).
  assert (X : http_run (S f) r m (unread (print_req q ++ b0) 4096 ins) = Ok HFail).
  { cbn [http_run]. rewrite (ho_ph _ _ _ _ HO), (ho_pay _ _ _ _ HO), (ho_payn _ _ _ _ HO).
    rewrite (clen_any q _ _ k W A (ho_hdrs _ _ _ _ HO)). cbv zeta. rewrite as_int_id by lia. cbn [bind].
    destruct ((k <? 0) || (MAX_BODY <? k)); [reflexivity|].
    destruct (Z.ltb_spec 0 k); [|lia]. replace (meta_fits k) with false by (unfold meta_fits; lia). reflexivity. }
  rewrite R, X. reflexivity.
Qed.
Print Assumptions C164_too_long.

(** Whatever the body says, in whatever pieces it arrives: it is no request.
    Missing: bodies in chunks ([C164_refuted_any]); other headers whose names are a
    beginning of "Content-Length" ([C164_refuted_length]); lengths of 2^31 and more
    ([C164_refuted_huge]). *)
Theorem C164_partial : forall apis e q body b0 ins n fuel acts w,
  small q -> announces q (zlen body) -> zlen body < 2 ^ 31 -> b0 ++ flat ins = body -> clean ins ->
  (Datatypes.length ins + 6 <= fuel)%nat ->
  session n fuel apis e (RxData (print_req q ++ b0) :: ins) = Ok (acts, w) ->
  (Datatypes.length acts <= 1)%nat.
Proof.
  intros apis e q body b0 ins n fuel acts w SM A B EB C K E. pose proof SM as (WR & _ & FIT).
  pose proof (zlen_nonneg b0). pose proof (zlen_nonneg (flat ins)).
  assert (LB : zlen body = zlen b0 + zlen (flat ins)) by (rewrite <- EB; apply zlen_app).
  destruct n as [|n]; [cbn in E; injection E as <- _; cbn; lia|].
  destruct (Z.lt_ge_cases 16344 (zlen body)) as [BIG|FITS].
  { rewrite (C164_too_long apis e q (zlen body) b0 ins n fuel SM A) in E by lia. injection E as <- _. cbn. lia. }
  cbn [session] in E.
  destruct fuel as [|[|k]]; [lia|lia|].
  destruct (run_head q b0 ins k SM) as (r & m & R & HO).
  assert (FL : ztake (4096 - zlen (print_req q)) b0 ++ flat (unread (print_req q ++ b0) 4096 ins) = body).
  { rewrite flat_unread by lia. rewrite zdrop_app_r by lia. rewrite app_assoc, ztake_zdrop. exact EB. }
  assert (CU : clean (unread (print_req q ++ b0) 4096 ins)) by (apply clean_unread; [lia|assumption]).
  assert (X : exists r' ins', http_run k r m (unread (print_req q ++ b0) 4096 ins) = Ok (HComplete r' m ins') /\ flat ins' = [] /\ clean ins').
  { destruct (Z.eq_dec (zlen body) 0) as [Z0|NZ].
    - destruct k as [|k]; [lia|]. cbn [http_run]. rewrite (ho_ph _ _ _ _ HO), (ho_pay _ _ _ _ HO), (ho_payn _ _ _ _ HO).
      rewrite (clen_any q _ _ _ WR A (ho_hdrs _ _ _ _ HO)). cbv zeta. rewrite as_int_id by lia. rewrite Z0.
      cbn [bind]. change ((0 <? 0) || (MAX_BODY <? 0)) with false. change (0 <? 0) with false. cbn iota.
      eexists _, _. split; [reflexivity|]. split; [|exact CU].
      apply zlen_0_nil in Z0. rewrite Z0 in FL. apply app_eq_nil in FL. apply FL.
    - destruct (body_run q r m _ (zlen body) (unread (print_req q ++ b0) 4096 ins) k SM HO A) as (r' & py & ins' & R' & _ & _ & _ & _ & F & C').
      + lia.
      + rewrite zlen_ztake by lia. lia.
      + exact CU.
      + rewrite FL. lia.
      + unfold unread. destruct (zlen (print_req q ++ b0) <=? 4096); cbn [Datatypes.length]; lia.
      + rewrite FL in F. rewrite zdrop_all in F by lia. exists r', ins'. auto. }
  destruct X as (r' & ins' & R' & F & C'). rewrite R, R' in E. cbn [bind] in E.
  apply bind_ok in E. destruct E as (a & _ & E). destruct a as [|h b].
  - injection E as <- _. cbn. lia.
  - destruct (q_keep r'); [|injection E as <- _; cbn; lia].
    apply bind_ok in E. destruct E as ([l x] & E1 & E). injection E as <- _. cbn [fst Datatypes.length].
    destruct n as [|n]; [cbn in E1; injection E1 as <- _; cbn; lia|].
    cbn [session] in E1. destruct (nothing_left (S (S k)) ins' C' F) as [N|(r2 & m2 & N)]; rewrite N in E1; cbn [bind] in E1; [discriminate E1|].
    injection E1 as <- _. cbn. lia.
Qed.
Print Assumptions C164_partial.

(** ** A body that is taken for no body *)
Lemma two_answers apis e q q' n fuel a a' :
  small q -> (forall buf es, Forall2 (hdr_at buf) es (rq_headers q) -> clen_loop buf es 0 = Ok (Some 0)) ->
  kept q -> answer apis e q = Ok a -> (exists h b, a = ARespond h b) ->
  small q' -> Forall not_clen (rq_headers q') -> answer apis e q' = Ok a' -> (exists h b, a' = ARespond h b) ->
  (3 <= n)%nat -> (3 <= fuel)%nat ->
  exists w, session n fuel apis e [RxData (print_req q); RxData (print_req q')] = Ok ([a; a'], w).
Proof.
  intros S1 CL K1 A1 (h1 & b1 & ->) S2 N2 A2 (h2 & b2 & ->) Kn Kf.
  pose proof S1 as (W1 & _ & FIT1). pose proof S2 as (_ & _ & FIT2).
  destruct n as [|[|[|n]]]; try lia. destruct fuel as [|[|[|f]]]; try lia.
  destruct (run_head q [] [RxData (print_req q')] (S f) S1) as (r & m & R & HO). rewrite !app_nil_r in R.
  assert (U : unread (print_req q) 4096 [RxData (print_req q')] = [RxData (print_req q')]).
  { unfold unread. destruct (Z.leb_spec (zlen (print_req q)) 4096); [reflexivity|lia]. }
  rewrite U in R.
  assert (X : http_run (S f) r m [RxData (print_req q')] = Ok (HComplete (set_pay r 0 None) m [RxData (print_req q')])).
  { cbn [http_run]. rewrite (ho_ph _ _ _ _ HO), (ho_pay _ _ _ _ HO), (ho_payn _ _ _ _ HO).
    rewrite (CL _ _ (ho_hdrs _ _ _ _ HO)). reflexivity. }
  rewrite X in R.
  assert (H : handle apis e (set_pay r 0 None) m = Ok (ARespond h1 b1)).
  { rewrite (handle_reply apis e _ m (target_uri (rq_target q))) by exact (head_uri _ _ _ _ HO).
    rewrite <- A1. unfold answer. cbn [q_mtyp q_keep q_pay set_pay]. rewrite (ho_keep _ _ _ _ HO), (ho_mtyp _ _ _ _ HO). reflexivity. }
  assert (HK : q_keep (set_pay r 0 None) = true) by (etransitivity; [exact (ho_keep _ _ _ _ HO)|exact K1]).
  destruct (one_request apis e q' [] [] (S (S (S f))) S2 N2 Kf) as (r' & m' & R' & H' & HK').
  rewrite app_nil_r in R'.
  assert (U' : unread (print_req q') 4096 [] = []).
  { unfold unread. destruct (Z.leb_spec (zlen (print_req q')) 4096); [reflexivity|lia]. }
  rewrite U' in R'.
  cbn [session]. rewrite R. cbn [bind]. rewrite H. cbn [bind]. rewrite HK.
  rewrite R'. cbn [bind]. rewrite H', A2. cbn [bind].
  destruct (q_keep r'); eexists; reflexivity.
Qed.

(** A Content-Length of 2^32, or a multiple of it, is taken for 0: the body is taken for
    requests from its first byte on, for every request that announces such a length
    and every request at the beginning of the body. *)
Theorem C164_refuted_huge : forall apis e q q' k n fuel a a',
  small q -> announces q k -> k mod 2 ^ 32 = 0 -> k < 2 ^ 63 -> kept q -> answer apis e q = Ok a -> (exists h b, a = ARespond h b) ->
  small q' -> Forall not_clen (rq_headers q') -> answer apis e q' = Ok a' -> (exists h b, a' = ARespond h b) ->
  (3 <= n)%nat -> (3 <= fuel)%nat ->
  exists w, session n fuel apis e [RxData (print_req q); RxData (print_req q')] = Ok ([a; a'], w).
Proof.
  intros apis e q q' k n fuel a a' S1 N1 M1 B1 K1 A1 R1 S2 N2 A2 R2 Kn Kf. pose proof S1 as (W1 & _).
  apply (two_answers apis e q q' n fuel a a' S1); try assumption.
  intros buf es F. rewrite (clen_any q _ _ k W1 N1 F). cbv zeta.
  assert (Y : as_int (Z.min k (2 ^ 63 - 1)) = 0).
  { unfold as_int. rewrite Z.min_l by lia. rewrite Z.add_mod, M1 by lia. reflexivity. }
  rewrite Y. reflexivity.
Qed.
Print Assumptions C164_refuted_huge.

(** A second header whose name is a beginning of "Content-Length", as "Content" or "C", is
    read as a second length; if its value begins with a letter, the length is 0. *)
Definition letter (c : Z) : Prop := 65 <= c <= 90 \/ 97 <= c <= 122.
Lemma strtol_letter buf o c t : letter c -> at_off buf o (c :: t) -> strtol buf o = Ok 0.
Proof.
  intros LC A. unfold strtol. cbn [skip_space].
  assert (G : zget buf o = Some c).
  { destruct A as (pre & post & -> & ->). rewrite zget_app_r, Z.sub_diag by lia. reflexivity. }
  unfold letter in LC. rewrite G. cbn [of_opt bind].
  replace (is_space c) with false by (unfold is_space; lia). cbn [bind]. rewrite G. cbn [of_opt bind].
  destruct (Z.eqb_spec c 45); [lia|]. destruct (Z.eqb_spec c 43); [lia|]. cbn [digits]. rewrite G. cbn [of_opt bind].
  replace (is_digit c) with false by (unfold is_digit; lia). reflexivity.
Qed.
Theorem C164_refuted_length : forall apis e q q' hs1 hl hs2 h hs3 k c t n fuel a a',
  small q -> rq_headers q = hs1 ++ hl :: hs2 ++ h :: hs3 ->
  ieq (h_name hl) (str "Content-Length") -> numeral (h_value hl) k -> k <= 10485760 ->
  Forall not_clen hs1 -> Forall not_clen hs2 -> Forall not_clen hs3 ->
  iprefix (h_name h) (str "Content-Length") -> h_value h = c :: t -> letter c ->
  kept q -> answer apis e q = Ok a -> (exists h b, a = ARespond h b) ->
  small q' -> Forall not_clen (rq_headers q') -> answer apis e q' = Ok a' -> (exists h b, a' = ARespond h b) ->
  (3 <= n)%nat -> (3 <= fuel)%nat ->
  exists w, session n fuel apis e [RxData (print_req q); RxData (print_req q')] = Ok ([a; a'], w).
Proof.
  intros apis e q q' hs1 hl hs2 h hs3 k c t n fuel a a' S1 E NM NU KB N1 N2 N3 NP EV LC K1 A1 R1 S2 NN A2 R2 Kn Kf.
  pose proof S1 as ((_ & _ & _ & _ & W) & _).
  apply (two_answers apis e q q' n fuel a a' S1); try assumption.
  intros buf es F. rewrite E in F, W.
  apply Forall2_app_inv_r in F as (e1 & e2 & F1 & F2 & ->). apply Forall_app in W as (W1 & W2).
  inversion F2 as [|el hl' e3 hs' Fl F3]; subst.
  apply Forall2_app_inv_r in F3 as (e4 & e5 & F4 & F5 & ->). pose proof (Forall_inv W2) as Wl.
  apply Forall_inv_tail in W2. apply Forall_app in W2 as (W4 & W5).
  inversion F5 as [|eh h' e6 hs' Fh F6]; subst.
  assert (NC : forall l, Forall not_clen l -> Forall (fun h => ipre (h_name h) lit_clen = false) l) by
    (intros l X; eapply Forall_impl; [|exact X]; apply not_clen_ipre).
  rewrite clen_app, (clen_none buf e1 hs1) by auto. cbn [bind].
  change (el :: e4 ++ eh :: e6) with ([el] ++ e4 ++ eh :: e6). rewrite clen_app.
  rewrite (clen_one buf el hl (h_value hl) k 0); auto.
  2:{ apply ieq_ipre. exact NM. }
  cbn [bind]. rewrite clen_app, (clen_none buf e4 hs2) by auto. cbn [bind].
  cbn [clen_loop]. rewrite (hdr_at_name _ _ h) by (assumption || exact (Forall_inv W5)).
  rewrite str_clen in NP. apply ipre_spec in NP. rewrite NP. cbn [bind].
  destruct Fh as (ok & ov & -> & _ & A). cbn [snd s_off]. rewrite EV in A.
  rewrite (strtol_letter buf ov c (t ++ [13]) LC A). cbn [bind]. cbv zeta.
  change (to_int 0 <? 0) with false. change (MAX_BODY <? to_int 0) with false. cbn iota. change (to_int 0) with 0.
  apply (clen_none buf e6 hs3); auto. exact (Forall_inv_tail W5).
Qed.
Print Assumptions C164_refuted_length.

(** ** In chunks *)
(** The length of the first chunk arrives together with the head, its bytes in a
    second piece. If these bytes look like a request, the server answers it: for
    every request in chunks that asks to keep the connection, and every request
    inside. The server gives two answers, where the client has sent one request. *)
Theorem C164_refuted_any : forall apis e q q' size tail n fuel a a',
  small q -> Forall not_clen (rq_headers q) -> kept q -> answer apis e q = Ok a -> (exists h b, a = ARespond h b) ->
  small q' -> Forall not_clen (rq_headers q') -> answer apis e q' = Ok a' -> (exists h b, a' = ARespond h b) ->
  hexnum size (zlen (print_req q')) ->
  zlen (print_req q ++ size ++ crlf) <= 4096 -> zlen (print_req q' ++ crlf ++ tail) <= 4096 ->
  (3 <= n)%nat -> (3 <= fuel)%nat ->
  exists w, session n fuel apis e [RxData (print_req q ++ size ++ crlf); RxData (print_req q' ++ crlf ++ tail)] = Ok ([a; a'], w).
Proof.
  intros apis e q q' size tail n fuel a a' S1 N1 K1 A1 (h1 & b1 & ->) S2 N2 A2 (h2 & b2 & ->) HX L1 L2 Kn Kf.
  destruct n as [|[|[|n]]]; try lia.
  destruct (one_request apis e q (size ++ crlf) [RxData (print_req q' ++ crlf ++ tail)] fuel S1 N1 Kf) as (r & m & R & H & HK).
  assert (U : unread (print_req q ++ size ++ crlf) 4096 [RxData (print_req q' ++ crlf ++ tail)] = [RxData (print_req q' ++ crlf ++ tail)]).
  { unfold unread. destruct (Z.leb_spec (zlen (print_req q ++ size ++ crlf)) 4096); [reflexivity|lia]. }
  rewrite U in R. destruct (one_request apis e q' (crlf ++ tail) [] fuel S2 N2 Kf) as (r' & m' & R' & H' & HK').
  assert (U' : unread (print_req q' ++ crlf ++ tail) 4096 [] = []).
  { unfold unread. destruct (Z.leb_spec (zlen (print_req q' ++ crlf ++ tail)) 4096); [reflexivity|lia]. }
  rewrite U' in R'. unfold kept in K1.
  cbn [session]. rewrite R. cbn [bind]. rewrite H, A1. cbn [bind]. rewrite HK, K1.
  rewrite R'. cbn [bind]. rewrite H', A2. cbn [bind].
  destruct (q_keep r'); [|cbn [bind fst snd]; eexists; reflexivity].
  destruct fuel as [|fuel]; [lia|].
  eexists. reflexivity.
Qed.
Print Assumptions C164_refuted_any.

(** A request in chunks; its content reads "GET /echo HTTP/1.1 ...". *)
Definition q_outer : request :=
  mkRequest (str "GET") (TPath (str "/a.html")) (str "HTTP/1.1") [hdr "Connection" "keep-alive"; hdr "Transfer-Encoding" "chunked"].
Definition q_inner : request := getk (str "/echo").
Lemma q_outer_small : small q_outer.
Proof.
  split; [|split; vm_compute; discriminate].
  split; [isword|]. split; [vm_compute; discriminate|]. split; [ispath|]. split; [isword|].
  repeat (apply Forall_cons; [wfh|]). apply Forall_nil.
Qed.
Lemma q_outer_clen : Forall not_clen (rq_headers q_outer).
Proof. repeat (apply Forall_cons; [apply not_clen_b; reflexivity|]). apply Forall_nil. Qed.
Lemma q_inner_clen : Forall not_clen (rq_headers q_inner).
Proof. repeat (apply Forall_cons; [apply not_clen_b; reflexivity|]). apply Forall_nil. Qed.
(** the length of the inner request in hexadecimal *)
Definition q_size : list Z := str "2e".
Lemma q_size_hex : hexnum q_size (zlen (print_req q_inner)).
Proof. apply (hexS [50] 101 2 14); [apply (hex1 50 2); reflexivity|reflexivity]. Qed.
Definition q_end : list Z := str "0" ++ crlf ++ crlf.
Lemma q_outer_body : body_of q_outer ((q_size ++ crlf) ++ print_req q_inner ++ crlf ++ q_end).
Proof.
  right. split; [exact q_outer_clen|]. split.
  - exists (hdr "Transfer-Encoding" "chunked"). split; [right; left; reflexivity|]. split; reflexivity.
  - exists (print_req q_inner ++ []). rewrite <- app_assoc.
    apply (chunk_more q_size (print_req q_inner) [] q_end q_size_hex); [vm_compute; discriminate|exact chunk_end].
Qed.

Example C164_partial_ex : small q_post /\ announces q_post (zlen (str "GET / HTTP")) /\ zlen (str "GET / HTTP") < 2 ^ 31 /\
  str "GET" ++ flat [RxAgain; RxData (str " / HTTP")] = str "GET / HTTP" /\
  exists acts w, session 3 9 web_apis ex_env [RxData (print_req q_post ++ str "GET"); RxAgain; RxData (str " / HTTP")] = Ok (acts, w).
Proof.
  split; [exact q_post_small|]. split; [exact q_post_announces|]. split; [vm_compute; reflexivity|].
  split; [reflexivity|]. eexists _, _. vm_compute. reflexivity.
Qed.

Example C164_refuted_ex : exists a a', answer web_apis ex_env q_outer = Ok a /\ (exists h b, a = ARespond h b) /\
  answer web_apis ex_env q_inner = Ok a' /\ (exists h b, a' = ARespond h b) /\ kept q_outer /\ says_chunked q_outer /\
  zlen (print_req q_outer ++ q_size ++ crlf) <= 4096 /\ zlen (print_req q_inner ++ crlf ++ q_end) <= 4096.
Proof.
  eexists _, _. split; [vm_compute; reflexivity|]. split; [eexists _, _; reflexivity|].
  split; [vm_compute; reflexivity|]. split; [eexists _, _; reflexivity|]. split; [reflexivity|].
  split; [exists (hdr "Transfer-Encoding" "chunked"); split; [right; left; reflexivity|split; reflexivity]|].
  split; vm_compute; discriminate.
Qed.

Theorem C164_property_refuted : ~ C164_property.
Proof.
  intros P. destruct C164_refuted_ex as (a & a' & A & R & A' & R' & K & _ & L & L').
  destruct (C164_refuted_any web_apis ex_env q_outer q_inner q_size q_end 3 9 a a' q_outer_small q_outer_clen K A R
              getk_small2 q_inner_clen A' R' q_size_hex L L') as (w & E); [lia|lia|].
  specialize (P web_apis ex_env q_outer _ (q_size ++ crlf) [RxData (print_req q_inner ++ crlf ++ q_end)] 3%nat 9%nat [a; a'] w
                q_outer_small q_outer_body).
  assert (F : (q_size ++ crlf) ++ flat [RxData (print_req q_inner ++ crlf ++ q_end)] = (q_size ++ crlf) ++ print_req q_inner ++ crlf ++ q_end).
  { cbn [flat]. rewrite app_nil_r. reflexivity. }
  specialize (P F). assert (C : clean [RxData (print_req q_inner ++ crlf ++ q_end)]) by (apply Forall_cons; [discriminate|apply Forall_nil]).
  specialize (P C E). cbn in P. lia.
Qed.
Print Assumptions C164_property_refuted.

(** ** A request with "Content: text" behind its length *)
Definition q_undone : request :=
  mkRequest (str "GET") (TPath (str "/a.html")) (str "HTTP/1.1")
    [hdr "Connection" "keep-alive"; hdr "Content-Length" "46"; hdr "Content" "text"].
Lemma q_undone_small : small q_undone.
Proof.
  split; [|split; vm_compute; discriminate].
  split; [isword|]. split; [vm_compute; discriminate|]. split; [ispath|]. split; [isword|].
  repeat (apply Forall_cons; [wfh|]). apply Forall_nil.
Qed.
Lemma q_undone_body : body_of q_undone (print_req q_inner).
Proof.
  left. exists [hdr "Connection" "keep-alive"], (hdr "Content-Length" "46"), [hdr "Content" "text"].
  split; [reflexivity|]. split; [reflexivity|]. split.
  - split; [discriminate|]. split; [|reflexivity].
    repeat (apply Forall_cons; [vm_compute; split; discriminate|]). apply Forall_nil.
  - cbn [app]. repeat (apply Forall_cons; [split; discriminate|]). apply Forall_nil.
Qed.
Example C164_refuted_length_ex : small q_undone /\ body_of q_undone (print_req q_inner) /\ kept q_undone /\
  (exists hs1 hl hs2 h hs3 c t, rq_headers q_undone = hs1 ++ hl :: hs2 ++ h :: hs3 /\ ieq (h_name hl) (str "Content-Length") /\
     numeral (h_value hl) (zlen (print_req q_inner)) /\ Forall not_clen hs1 /\ hs2 = [] /\ hs3 = [] /\
     iprefix (h_name h) (str "Content-Length") /\ h_value h = c :: t /\ letter c) /\
  exists a a', session 3 9 web_apis ex_env [RxData (print_req q_undone); RxData (print_req q_inner)] = Ok ([a; a'], CWaiting) /\
    answer web_apis ex_env q_inner = Ok a'.
Proof.
  split; [exact q_undone_small|]. split; [exact q_undone_body|]. split; [reflexivity|]. split.
  - exists [hdr "Connection" "keep-alive"], (hdr "Content-Length" "46"), [], (hdr "Content" "text"), [], 116, (str "ext").
    split; [reflexivity|]. split; [reflexivity|]. split.
    { split; [discriminate|]. split; [|reflexivity].
      repeat (apply Forall_cons; [vm_compute; split; discriminate|]). apply Forall_nil. }
    split; [repeat (apply Forall_cons; [apply not_clen_b; reflexivity|]); apply Forall_nil|]. split; [reflexivity|]. split; [reflexivity|].
    split; [exists (str "-Length"); reflexivity|]. split; [reflexivity|]. right. lia.
  - eexists _, _. split; vm_compute; reflexivity.
Qed.

(** requests that announce 20000 bytes and 2^32 bytes *)
Definition q_len (k : string) : request :=
  mkRequest (str "GET") (TPath (str "/a.html")) (str "HTTP/1.1") [hdr "Connection" "keep-alive"; hdr "Content-Length" k].
Lemma q_len_announces k n : numeral (str k) n -> announces (q_len k) n.
Proof.
  intros N. exists [hdr "Connection" "keep-alive"], (hdr "Content-Length" k), []. split; [reflexivity|]. split; [reflexivity|].
  split; [exact N|]. split; [|apply Forall_nil]. repeat (apply Forall_cons; [apply not_clen_b; reflexivity|]). apply Forall_nil.
Qed.
Example C164_too_long_ex : small (q_len "20000") /\ announces (q_len "20000") 20000.
Proof.
  split.
  - split; [|split; vm_compute; discriminate].
    split; [isword|]. split; [vm_compute; discriminate|]. split; [ispath|]. split; [isword|].
    repeat (apply Forall_cons; [wfh|]). apply Forall_nil.
  - apply q_len_announces. split; [discriminate|]. split; [|reflexivity].
    repeat (apply Forall_cons; [vm_compute; split; discriminate|]). apply Forall_nil.
Qed.
Example C164_refuted_huge_ex : small (q_len "4294967296") /\ announces (q_len "4294967296") 4294967296 /\ 4294967296 mod 2 ^ 32 = 0 /\ kept (q_len "4294967296") /\ exists a, answer web_apis ex_env (q_len "4294967296") = Ok a /\ exists h b, a = ARespond h b.
Proof.
  split; [|split; [|split; [reflexivity|split; [reflexivity|]]]].
  - split; [|split; vm_compute; discriminate].
    split; [isword|]. split; [vm_compute; discriminate|]. split; [ispath|]. split; [isword|].
    repeat (apply Forall_cons; [wfh|]). apply Forall_nil.
  - apply q_len_announces. split; [discriminate|]. split; [|reflexivity].
    repeat (apply Forall_cons; [vm_compute; split; discriminate|]). apply Forall_nil.
  - eexists. split; [vm_compute; reflexivity|]. eexists _, _. reflexivity.
Qed.
