(** * HTTP request parsing: C49 - C53, C83. *)
From Verif Require Import Base Str_Spec Meta_Model Meta_Proofs S5_Model Http_Model Http_Spec Http_Proofs.
From Coq Require Import String.
Open Scope Z_scope.
Local Arguments Z.add : simpl never.
Local Arguments Z.sub : simpl never.
Local Arguments Z.mul : simpl never.
Local Arguments zlen : simpl never.

(** what the server believes the request to be *)
Definition view (buf : list Z) (r : hreq) : meaning :=
  mkMeaning (slot_str buf (q_method r)) (slot_str buf (q_uri r)) (slot_str buf (q_ver r))
    (map (fun e => (slot_str buf (fst e), slot_str buf (snd e))) (ztake (q_kvn r) (q_kvs r))).

Definition small (q : request) : Prop := wf_req q /\ zlen (rq_headers q) <= 15 /\ zlen (print_req q) <= 4096.

Definition not_clen (h : header) : Prop := ~ iprefix (h_name h) (str "Content-Length").

Lemma str_clen : str "Content-Length" = lit_clen. Proof. reflexivity. Qed.
Lemma str_conn : str "Connection" = lit_connection. Proof. reflexivity. Qed.
Lemma str_keep : str "Keep-Alive" = lit_keepalive. Proof. reflexivity. Qed.

Lemma hdrs_view buf es hs : Forall2 (hdr_at buf) es hs ->
  map (fun e => (slot_str buf (fst e), slot_str buf (snd e))) es = map (fun h => (h_name h, h_value h)) hs.
Proof.
  induction 1 as [|e h es hs H F IH]; [reflexivity|]. cbn [map]. rewrite IH. f_equal.
  destruct H as (ok & ov & -> & A & B). cbn [fst snd]. f_equal; [apply at_off_str; assumption|].
  apply at_off_str. eapply at_off_sub0. exact B.
Qed.

Lemma line_view buf p q r : line_slots p q r -> at_off buf p (print_line q) ->
  slot_str buf (q_method r) = rq_method q /\
  slot_str buf (q_uri r) = target_uri (rq_target q) /\
  slot_str buf (q_ver r) = rq_version q /\
  match rq_target q with
  | TPath _ => True
  | TAbs s h po _ => slot_str buf (q_scheme r) = s /\ slot_str buf (q_host r) = h /\
      match po with Some x => slot_str buf (q_port r) = x | None => True end
  end.
Proof.
  intros (M & U & V & T) A. unfold print_line in A.
  assert (AT : at_off buf (p + zlen (rq_method q) + 1) (print_target (rq_target q))).
  { replace (p + zlen (rq_method q) + 1) with (p + zlen (rq_method q ++ [32])) by (rewrite zlen_app; change (zlen [32]) with 1; lia).
    apply (at_off_sub buf p _ _ ([32] ++ rq_version q ++ crlf)). rewrite <- app_assoc. exact A. }
  split; [|split; [|split]].
  - rewrite M. apply at_off_str. eapply at_off_sub0. exact A.
  - rewrite U. apply at_off_str.
    set (t := rq_target q) in *. set (pt := p + zlen (rq_method q) + 1) in *.
    assert (E : exists a, print_target t = a ++ target_uri t).
    { destruct t as [u|s h [po|] u]; [exists []|exists (s ++ [58; 47; 47] ++ h ++ [58] ++ po)|exists (s ++ [58; 47; 47] ++ h)];
        cbn [print_target target_uri]; rewrite <- ?app_assoc; reflexivity. }
    destruct E as (a & E). rewrite E in AT |- *. rewrite zlen_app.
    replace (pt + (zlen a + zlen (target_uri t)) - zlen (target_uri t)) with (pt + zlen a) by lia.
    apply (at_off_sub buf pt a (target_uri t) []). rewrite app_nil_r. exact AT.
  - rewrite V. apply at_off_str.
    replace (p + zlen (rq_method q) + 1 + zlen (print_target (rq_target q)) + 1)
      with (p + zlen (rq_method q ++ [32] ++ print_target (rq_target q) ++ [32])).
    2:{ rewrite !zlen_app. change (zlen [32]) with 1. lia. }
    apply (at_off_sub buf p _ (rq_version q) crlf). rewrite <- !app_assoc. exact A.
  - set (pt := p + zlen (rq_method q) + 1) in *.
    destruct (rq_target q) as [u|s h po u]; [exact I|]. destruct T as (S & H & P).
    assert (AS : at_off buf pt (s ++ [58; 47; 47] ++ h ++ match po with Some x => [58] ++ x ++ u | None => u end))
      by (destruct po; exact AT).
    split; [|split].
    + rewrite S. apply at_off_str. eapply at_off_sub0. exact AS.
    + rewrite H. apply at_off_str.
      replace (pt + zlen s + 3) with (pt + zlen (s ++ [58; 47; 47])) by (rewrite zlen_app; change (zlen [58; 47; 47]) with 3; lia).
      eapply (at_off_sub buf pt _ h). rewrite <- app_assoc. exact AS.
    + destruct po as [x|]; [|exact I]. rewrite P. apply at_off_str.
      replace (pt + zlen s + 3 + zlen h + 1) with (pt + zlen (s ++ [58; 47; 47] ++ h ++ [58]))
        by (rewrite !zlen_app; change (zlen [58; 47; 47]) with 3; change (zlen [58]) with 1; lia).
      apply (at_off_sub buf pt _ x u). rewrite <- !app_assoc. exact AS.
Qed.

(** everything known when the header block has been read *)
Record head_ok (q : request) (r : hreq) (m : meta) (rest : list Z) : Prop := {
  ho_ph : q_ph r = PBody;
  ho_pay : q_pay r = None;
  ho_payn : q_payn r = 0;
  ho_wf : meta_wf m;
  ho_cap : meta_cap m = 4096;
  ho_view : view (mbuf m) r = meaning_of q;
  ho_line : line_slots 0 q r;
  ho_at : at_off (mbuf m) 0 (print_line q);
  ho_hdrs : Forall2 (hdr_at (mbuf m)) (ztake (q_kvn r) (q_kvs r)) (rq_headers q);
  ho_keep : q_keep r = existsb keep_hdr (rq_headers q);
  ho_mtyp : q_mtyp r = method_code (rq_method q);
  ho_data : mdata m = rest }.

(** from a buffer that holds the request line and to which the header block is
    still to come, or that holds everything *)
Lemma finish_head k r m ins q rest : small q -> q_ph r = PHdrs HKeyInit -> meta_wf m -> meta_cap m = 4096 ->
  frame req_new r -> line_slots 0 q r -> at_off (mbuf m) 0 (print_line q) ->
  mdata m = print_hdrs (rq_headers q) ++ rest ->
  exists r' m', http_run (S k) r m ins = http_run k r' m' ins /\ head_ok q r' m' rest.
Proof.
  intros (W & H15 & FIT) E Wm Cm (F1 & F2 & F3 & F4 & F5 & F6) LS AT D.
  destruct (run_hdrs k r m ins q 0 rest E W Wm D) as (r' & R & P & L & N & T & F & K & M & Y & Y'); auto.
  { rewrite F2. reflexivity. }
  { eapply at_off_sub0. exact AT. }
  eexists r', _. split; [exact R|].
  pose proof (mdata_len m Wm) as DL. rewrite D, zlen_app in DL. pose proof (zlen_nonneg rest) as NR.
  pose proof (zlen_nonneg (print_hdrs (rq_headers q))) as NH.
  destruct (meta_consume_ok m (zlen (print_hdrs (rq_headers q))) Wm) as (W2 & D2); [lia|].
  unfold meta_consume in W2, D2. rewrite D, zdrop_app_r, Z.sub_diag, zdrop_le0 in D2 by lia.
  destruct (line_view (mbuf m) 0 q r' L AT) as (V1 & V2 & V3 & _).
  constructor; cbn [mbuf]; auto.
  - rewrite Y'. exact F6.
  - rewrite Y. exact F5.
  - unfold view, meaning_of. rewrite V1, V2, V3, T. f_equal. apply hdrs_view. exact F.
  - rewrite T. exact F.
Qed.

(** ** C49: one piece *)
Lemma new_run fuel b bs ins : exists m,
  http_start (S fuel) (RxData (b :: bs) :: ins) = http_run (S fuel) req_new m (unread (b :: bs) 4096 ins) /\
  meta_wf m /\ meta_cap m = 4096 /\ mpos m = 0 /\ mdata m = ztake 4096 (b :: bs).
Proof.
  destruct (meta_new_wf 4096) as (W & C & D); [lia|].
  assert (G : meta_getfree (meta_new 4096) = 4096) by (unfold meta_getfree; rewrite C; reflexivity).
  destruct (do_recv_data (meta_new 4096) b bs ins W) as (m & R & W' & D' & C' & P' & L' & _); [lia|].
  rewrite G in *. rewrite D in D'. cbn [app] in D'.
  exists m. split; [|split; [assumption|split; [congruence|split; [exact P'|exact D']]]].
  unfold http_start. cbn [http_run req_new q_ph].
  change (meta_getlen (meta_new 4096) <? 1) with true. cbn iota. rewrite R. cbn [bind].
  assert (N1 : meta_getlen m >= 1).
  { rewrite <- mdata_len by assumption. rewrite D', zlen_ztake by lia.
    rewrite zlen_cons. pose proof (zlen_nonneg bs). lia. }
  destruct (Z.ltb_spec (meta_getlen m) 1); [lia|]. reflexivity.
Qed.

Lemma at_off_mdata m w rest : meta_wf m -> mdata m = w ++ rest -> at_off (mbuf m) (mpos m) w.
Proof.
  intros (B1 & B2) D. unfold meta_cap in B2. apply (at_off_sub0 _ _ _ rest). rewrite <- D.
  unfold mdata, zslice. exists (ztake (mpos m) (mbuf m)), (zdrop (mlast m - mpos m) (zdrop (mpos m) (mbuf m))).
  split; [rewrite !ztake_zdrop; reflexivity|]. rewrite zlen_ztake by lia. lia.
Qed.

Lemma print_req_cons q : small q -> exists b t, print_req q = b :: t.
Proof.
  intros (((N & _) & _) & _). unfold print_req, print_line. destruct (rq_method q) as [|b t]; [contradiction|].
  eexists b, _. reflexivity.
Qed.

Lemma run_head q rest ins k : small q ->
  exists r m, http_start (S (S k)) (RxData (print_req q ++ rest) :: ins)
              = http_run k r m (unread (print_req q ++ rest) 4096 ins) /\
    head_ok q r m (ztake (4096 - zlen (print_req q)) rest).
Proof.
  intros S. pose proof S as (W & H15 & FIT).
  destruct (print_req_cons q S) as (b & t & EQ).
  destruct (new_run (Datatypes.S k) b (t ++ rest) ins) as (m & R & Wm & Cm & Pm & Dm).
  change (b :: t ++ rest) with ((b :: t) ++ rest) in *. rewrite <- EQ in *. rewrite R. clear R.
  rewrite ztake_app_r in Dm by lia.
  set (rest' := ztake (4096 - zlen (print_req q)) rest) in *.
  unfold print_req in Dm. rewrite <- app_assoc in Dm.
  set (ins' := unread (print_req q ++ rest) 4096 ins).
  destruct (run_line (Datatypes.S k) req_new m ins' q _ eq_refl W Wm Dm) as (r1 & R1 & P1 & F1 & L1).
  rewrite Pm in L1. rewrite R1.
  pose proof (mdata_len m Wm) as DL. rewrite Dm, !zlen_app in DL.
  pose proof (zlen_nonneg (print_line q)). pose proof (zlen_nonneg rest'). pose proof (zlen_nonneg (print_hdrs (rq_headers q))).
  destruct (meta_consume_ok m (zlen (print_line q)) Wm) as (W2 & D2); [lia|].
  unfold meta_consume in W2, D2. rewrite Dm, zdrop_app_r, Z.sub_diag, zdrop_le0 in D2 by lia.
  apply (finish_head k r1 _ ins' q rest'); auto.
  cbn [mbuf]. rewrite <- Pm. apply (at_off_mdata m _ _ Wm Dm).
Qed.

Lemma not_clen_ipre h : not_clen h -> ipre (h_name h) lit_clen = false.
Proof.
  intros N. destruct (ipre (h_name h) lit_clen) eqn:E; [|reflexivity]. exfalso. apply N.
  rewrite str_clen. apply ipre_spec. exact E.
Qed.

Lemma body_none k q r m ins rest : small q -> head_ok q r m rest -> Forall not_clen (rq_headers q) ->
  http_run (S k) r m ins = Ok (HComplete (set_pay r 0 None) m ins).
Proof.
  intros (W & _) H N. cbn [http_run]. rewrite (ho_ph _ _ _ _ H), (ho_pay _ _ _ _ H).
  rewrite (clen_none _ _ (rq_headers q)).
  - cbn [bind]. rewrite (ho_payn _ _ _ _ H). reflexivity.
  - exact (ho_hdrs _ _ _ _ H).
  - destruct W as (_ & _ & _ & _ & Wh). exact Wh.
  - eapply Forall_impl; [|exact N]. apply not_clen_ipre.
Qed.

(** A well-formed request with at most 15 headers, none of which is taken for a
    Content-Length, received in one piece together with any further bytes [rest]:
    the parser completes, has understood the request exactly, and the bytes behind
    the request are still pending (in the buffer or not yet received).
    Missing for the full claim: empty header values, more than 15 headers
    ([C49_refuted_empty_value], [C49_refuted_many]). *)
Theorem C49_partial : forall q rest ins fuel, small q -> Forall not_clen (rq_headers q) -> (3 <= fuel)%nat ->
  exists r m ins', http_start fuel (RxData (print_req q ++ rest) :: ins) = Ok (HComplete r m ins') /\
    view (mbuf m) r = meaning_of q /\
    mdata m ++ flat ins' = rest ++ flat ins.
Proof.
  intros q rest ins fuel S N F. destruct fuel as [|[|[|k]]]; try lia.
  destruct (run_head q rest ins (Datatypes.S k) S) as (r & m & R & H). pose proof S as (_ & _ & FIT).
  rewrite R, (body_none k q r m _ _ S H N).
  eexists _, _, _. split; [reflexivity|]. split; [exact (ho_view _ _ _ _ H)|].
  rewrite (ho_data _ _ _ _ H), flat_unread by lia.
  rewrite zdrop_app_r by lia. rewrite app_assoc, ztake_zdrop. reflexivity.
Qed.
Print Assumptions C49_partial.

Definition hdr (k v : string) : header := mkHdr (str k) 1 (str v).
Definition ex_q : request :=
  mkRequest (str "GET") (TAbs (str "http") (str "example.org") (Some (str "8080")) (str "/a/b.html")) (str "HTTP/1.1")
    [hdr "Host" "example.org"; mkHdr (str "Accept") 0 (str "text/html, */*"); hdr "Connection" "keep-alive"].

(** boolean versions of the syntax conditions, for the examples *)
Definition visb (l : list Z) : bool := forallb (fun b => (32 <? b) && (b <=? 127)) l.
Definition txtb (l : list Z) : bool := forallb (fun b => (32 <=? b) && (b <=? 127)) l.
Lemma visb_ok l : visb l = true -> Forall visible l.
Proof. unfold visb, visible. rewrite forallb_forall, Forall_forall. intros H x I. specialize (H x I). lia. Qed.
Lemma txtb_ok l : txtb l = true -> Forall text l.
Proof. unfold txtb, text. rewrite forallb_forall, Forall_forall. intros H x I. specialize (H x I). lia. Qed.
Lemma notin_ok x l : existsb (Z.eqb x) l = false -> ~ In x l.
Proof.
  intros E I. assert (T : existsb (Z.eqb x) l = true) by (apply existsb_exists; exists x; split; [assumption|apply Z.eqb_refl]).
  congruence.
Qed.
Ltac vis := apply visb_ok; vm_compute; reflexivity.
Ltac txt := apply txtb_ok; vm_compute; reflexivity.
Ltac notin := apply notin_ok; vm_compute; reflexivity.
Ltac wfh := split; [discriminate|split; [txt|split; [notin|split; [vm_compute; discriminate|split; [txt|eexists _, _; split; [reflexivity|discriminate]]]]]].
Ltac isword := split; [discriminate|vis].
Ltac ispath := split; [vis|eexists; reflexivity].

Example ex_q_small : small ex_q.
Proof.
  split; [|split; [vm_compute; discriminate|vm_compute; discriminate]].
  split; [isword|]. split; [vm_compute; discriminate|]. split.
  - split; [isword|]. split; [intros x H; injection H as <-; discriminate|]. split; [notin|].
    split; [isword|]. split; [notin|]. split; [notin|]. split; [split; [isword|notin]|ispath].
  - split; [isword|]. repeat (apply Forall_cons; [wfh|]). apply Forall_nil.
Qed.
Lemma not_clen_b h : ipre (h_name h) lit_clen = false -> not_clen h.
Proof. intros E P. rewrite str_clen in P. apply ipre_spec in P. congruence. Qed.
Example C49_ex : exists r m, http_start 3 [RxData (print_req ex_q ++ str "next")] = Ok (HComplete r m []) /\
  view (mbuf m) r = meaning_of ex_q /\ mdata m = str "next".
Proof.
  destruct (C49_partial ex_q (str "next") [] 3 ex_q_small) as (r & m & ins' & R & V & D).
  - repeat (apply Forall_cons; [apply not_clen_b; reflexivity|]). apply Forall_nil.
  - lia.
  - exists r, m. assert (C : match http_start 3 [RxData (print_req ex_q ++ str "next")] with Ok (HComplete _ _ i) => i | _ => [RxErr] end = [])
      by (vm_compute; reflexivity). rewrite R in C. subst ins'. split; [exact R|]. split; [exact V|].
    cbn [flat] in D. rewrite !app_nil_r in D. exact D.
Qed.

(** An empty header value, which HTTP allows, swallows the following line. *)
Definition q_empty : request :=
  mkRequest (str "GET") (TPath (str "/")) (str "HTTP/1.1")
    [mkHdr (str "Accept") 0 []; hdr "Connection" "Keep-Alive"].
Theorem C49_refuted_empty_value : exists q r m ins,
  wf_req_rfc q /\ zlen (rq_headers q) = 2 /\ zlen (print_req q) <= 4096 /\
  (forall k, http_start (3 + k) [RxData (print_req q)] = Ok (HComplete r m ins)) /\
  mn_headers (view (mbuf m) r) = [(str "Accept", crlf ++ str "Connection: Keep-Alive")] /\
  q_keep r = false.
Proof.
  exists q_empty. eexists _, _, _. split.
  { split; [isword|]. split; [vm_compute; discriminate|]. split; [ispath|]. split; [isword|].
    repeat (apply Forall_cons; [split; [discriminate|split; [txt|split; [notin|split; [vm_compute; discriminate|split; [txt|]]]]];
      intros b H; vm_compute in H; try discriminate; injection H as <-; discriminate|]). apply Forall_nil. }
  split; [reflexivity|]. split; [vm_compute; discriminate|].
  split; [intros k; vm_compute; reflexivity|]. split; vm_compute; reflexivity.
Qed.
Print Assumptions C49_refuted_empty_value.

(** Headers behind the fifteenth are dropped without notice: with 16 padding
    headers in front, a Content-Length is ignored and the body is not read. *)
Definition pad (n : nat) : list header := repeat (hdr "X-Pad" "1") n.
Definition q_many : request :=
  mkRequest (str "POST") (TPath (str "/echo")) (str "HTTP/1.1") (pad 15 ++ [hdr "Content-Length" "4"]).
Theorem C49_refuted_many : exists q r m ins,
  wf_req q /\ zlen (rq_headers q) = 16 /\ zlen (print_req q) <= 4096 /\
  (forall k, http_start (3 + k) [RxData (print_req q ++ str "body")] = Ok (HComplete r m ins)) /\
  zlen (mn_headers (view (mbuf m) r)) = 15 /\ q_pay r = None /\ mdata m = str "body".
Proof.
  exists q_many. eexists _, _, _. split.
  { split; [isword|]. split; [vm_compute; discriminate|]. split; [ispath|]. split; [isword|].
    unfold q_many, pad. cbn [rq_headers repeat app]. repeat (apply Forall_cons; [wfh|]). apply Forall_nil. }
  split; [reflexivity|]. split; [vm_compute; discriminate|].
  split; [intros k; vm_compute; reflexivity|]. split; [|split]; vm_compute; reflexivity.
Qed.
Print Assumptions C49_refuted_many.

(** ** C50: segmentation *)
(** while no CR has arrived the request line cannot end *)
Definition before_end (r : hreq) : Prop := match q_ph r with PLine LEnd => False | PLine _ => True | _ => False end.

Lemma nocr_step r p b : before_end r -> b <> 13 ->
  match byte_step r p b with BNext r' => before_end r' | BErr => True | _ => False end.
Proof.
  intros E N. unfold byte_step. destruct (bad_byte b); [exact I|].
  unfold before_end in E. destruct (q_ph r) as [s| |] eqn:P; try contradiction.
  destruct s; try contradiction; unfold line_byte; cbn zeta;
    repeat match goal with
    | |- context[b =? CR] => destruct (Z.eqb_spec b CR) as [Ec|_]; [exfalso; apply N; exact Ec|]; cbn [orb]
    | |- context[if ?c then _ else _] => destruct c
    end; try exact I; unfold before_end; cbn [q_ph set_ph]; try rewrite P; exact I.
Qed.
Lemma nocr_scan : forall bs r p, before_end r -> ~ In 13 bs ->
  match scan r p bs with SEnd r' => before_end r' | SErr => True | _ => False end.
Proof.
  induction bs as [|b bs IH]; intros r p E N; [exact E|]. cbn [scan].
  pose proof (nocr_step r p b E) as H. destruct (byte_step r p b) as [r'|r'| |f]; try exact I.
  - apply IH; [apply H; intros ->; apply N; left; reflexivity|]. intros X; apply N; right; exact X.
  - apply H. intros ->. apply N. left. reflexivity.
  - apply H. intros ->. apply N. left. reflexivity.
Qed.

Lemma nocr_run : forall k r m ins, before_end r -> meta_wf m -> 1 <= meta_getlen m -> ~ In 13 (mdata m) ->
  http_run k r m ins = NoFuel \/ http_run k r m ins = Ok HFail.
Proof.
  induction k as [|k IH]; intros r m ins E W G N; [left; reflexivity|]. cbn [http_run].
  pose proof (nocr_scan (mdata m) r (mpos m) E N) as S.
  destruct (q_ph r) eqn:P; try (unfold before_end in E; rewrite P in E; contradiction).
  destruct (Z.ltb_spec (meta_getlen m) 1); [lia|]. cbn [bind].
  destruct (scan r (mpos m) (mdata m)) as [r'|r' p| |f]; try contradiction; [|right; reflexivity].
  destruct (meta_getfree m <? 1); [right; reflexivity|]. apply IH; assumption.
Qed.

(** If the first piece does not contain a CR - that is, whenever the request is
    split inside its request line - the request never completes: the server
    rejects it or loops without ever receiving the rest. This holds for every
    piece and whatever follows. *)
Theorem C50_split_line_never_completes : forall d ins fuel, d <> [] -> zlen d <= 4096 -> ~ In 13 d ->
  http_start fuel (RxData d :: ins) = NoFuel \/ http_start fuel (RxData d :: ins) = Ok HFail.
Proof.
  intros d ins fuel N L C. destruct d as [|b d]; [contradiction|].
  destruct fuel as [|k]; [left; reflexivity|].
  destruct (new_run k b d ins) as (m & R & Wm & Cm & Pm & Dm). rewrite R.
  rewrite ztake_all in Dm by lia.
  apply nocr_run; [exact I|assumption| |rewrite Dm; assumption].
  rewrite <- mdata_len by assumption. rewrite Dm, zlen_cons. pose proof (zlen_nonneg d). lia.
Qed.
Print Assumptions C50_split_line_never_completes.

(** a pass that changes nothing is repeated for ever *)
Lemma stuck r m : meta_wf m -> 1 <= meta_getlen m -> 1 <= meta_getfree m -> q_ph r <> PBody ->
  scan r (mpos m) (mdata m) = SEnd r -> forall k ins, http_run k r m ins = NoFuel.
Proof.
  intros W G F P S. induction k as [|k IH]; intros ins; [reflexivity|]. cbn [http_run].
  destruct (q_ph r) eqn:E; [| |contradiction];
    (destruct (Z.ltb_spec (meta_getlen m) 1); [lia|]; cbn [bind]; rewrite S;
     destruct (Z.ltb_spec (meta_getfree m) 1); [lia|]; apply IH).
Qed.

(** The same request: in one piece it is understood, split after "GET /index"
    the server process loops for ever. *)
Definition q_simple : request := mkRequest (str "GET") (TPath (str "/index.html")) (str "HTTP/1.1") [hdr "Host" "a"].
Lemma q_simple_small : small q_simple.
Proof.
  split; [|split; vm_compute; discriminate].
  split; [isword|]. split; [vm_compute; discriminate|]. split; [ispath|]. split; [isword|].
  repeat (apply Forall_cons; [wfh|]). apply Forall_nil.
Qed.
Theorem C50_refuted : exists q d1 d2, small q /\ print_req q = d1 ++ d2 /\
  (exists r m, http_start 3 [RxData (print_req q)] = Ok (HComplete r m []) /\ view (mbuf m) r = meaning_of q) /\
  (forall fuel ins, http_start fuel (RxData d1 :: RxData d2 :: ins) = NoFuel).
Proof.
  exists q_simple, (str "GET"), (str " /index.html HTTP/1.1" ++ crlf ++ str "Host: a" ++ crlf ++ crlf).
  split; [exact q_simple_small|]. split; [reflexivity|]. split.
  - eexists _, _. split; vm_compute; reflexivity.
  - intros fuel ins. destruct fuel as [|fuel]; [reflexivity|].
    assert (E : exists r m, (forall i, http_start (S fuel) (RxData (str "GET") :: i) = http_run fuel r m i) /\
      meta_wf m /\ 1 <= meta_getlen m /\ 1 <= meta_getfree m /\ q_ph r <> PBody /\ scan r (mpos m) (mdata m) = SEnd r).
    { eexists _, (mkMeta (str "GET" ++ zrepeat 0 4093) 0 3). split.
      - intros i. unfold http_start. cbn [http_run req_new q_ph].
        change (meta_getlen (meta_new 4096) <? 1) with true. cbn iota.
        replace (do_recv (meta_new 4096) (RxData (str "GET") :: i))
          with (Ok (FGot (mkMeta (str "GET" ++ zrepeat 0 4093) 0 3) i)) by (vm_compute; reflexivity).
        cbn [bind]. replace (mdata (mkMeta (str "GET" ++ zrepeat 0 4093) 0 3)) with (str "GET") by (vm_compute; reflexivity).
        cbn [mpos]. match goal with |- context[scan ?r 0 (str "GET")] => let x := eval vm_compute in (scan r 0 (str "GET")) in change (scan r 0 (str "GET")) with x end.
        replace (meta_getfree (mkMeta (str "GET" ++ zrepeat 0 4093) 0 3) <? 1) with false by (vm_compute; reflexivity).
        reflexivity.
      - split; [unfold meta_wf, meta_cap; vm_compute; repeat split; discriminate|]. split; [vm_compute; discriminate|].
        split; [vm_compute; discriminate|]. split; [discriminate|]. vm_compute. reflexivity. }
    destruct E as (r & m & R & A & B & C & D & F). rewrite R. apply stuck; assumption.
Qed.
Print Assumptions C50_refuted.

(** ** Splits the parser does support *)
Lemma run_again k r m n ins : q_ph r <> PBody -> meta_getlen m < 1 -> 1 <= meta_getfree m ->
  http_run (n + k) r m (repeat RxAgain n ++ ins) = http_run k r m ins.
Proof.
  intros P G F. induction n as [|n IH]; [reflexivity|]. cbn [Nat.add repeat app http_run].
  destruct (q_ph r) eqn:E; [| |contradiction];
    (destruct (Z.ltb_spec (meta_getlen m) 1); [|lia]; unfold do_recv;
     destruct (Z.ltb_spec (meta_getfree m) 1); [lia|]; cbn [bind]; exact IH).
Qed.

(** request line and header block in one receive each, with any number of
    would-block results in between *)
Definition two_pieces (q : request) (a1 a2 : nat) (rest : list Z) (ins : list rx) : list rx :=
  repeat RxAgain a1 ++ RxData (print_line q) :: repeat RxAgain a2 ++
  RxData (print_hdrs (rq_headers q) ++ rest) :: ins.

Lemma print_line_cons q : small q -> exists b t, print_line q = b :: t.
Proof.
  intros (((N & _) & _) & _). unfold print_line. destruct (rq_method q) as [|b t]; [contradiction|].
  eexists b, _. reflexivity.
Qed.

Lemma run_two q a1 a2 rest ins k : small q ->
  exists r m, http_start (a1 + (S (a2 + (S k)))) (two_pieces q a1 a2 rest ins)
              = http_run k r m (unread (print_hdrs (rq_headers q) ++ rest) (4096 - zlen (print_line q)) ins) /\
    head_ok q r m (ztake (4096 - zlen (print_req q)) rest).
Proof.
  intros S. pose proof S as (W & H15 & FIT).
  unfold http_start, two_pieces. rewrite run_again; [|discriminate|reflexivity|vm_compute; discriminate].
  destruct (print_line_cons q S) as (b & t & EQ).
  assert (PL : zlen (print_req q) = zlen (print_line q) + zlen (print_hdrs (rq_headers q))) by (unfold print_req; apply zlen_app).
  assert (HL : 2 <= zlen (print_hdrs (rq_headers q))).
  { unfold print_hdrs. rewrite zlen_app. change (zlen crlf) with 2. pose proof (zlen_nonneg (List.concat (map print_hdr (rq_headers q)))). lia. }
  set (I2 := repeat RxAgain a2 ++ RxData (print_hdrs (rq_headers q) ++ rest) :: ins).
  destruct (new_run (a2 + Datatypes.S k) b t I2) as (m & R & Wm & Cm & Pm & Dm).
  unfold http_start in R. rewrite <- EQ in *. rewrite R. clear R.
  unfold unread at 1. destruct (Z.leb_spec (zlen (print_line q)) 4096); [|lia].
  rewrite ztake_all in Dm by lia.
  assert (Dm' : mdata m = print_line q ++ []) by (rewrite app_nil_r; exact Dm).
  destruct (run_line (a2 + Datatypes.S k) req_new m I2 q _ eq_refl W Wm Dm') as (r1 & R1 & P1 & F1 & L1).
  rewrite Pm in L1, R1. rewrite R1. rewrite Z.add_0_l in *.
  pose proof (mdata_len m Wm) as DL. rewrite Dm in DL. unfold meta_getlen in DL. rewrite Pm in DL.
  set (m1 := mkMeta (mbuf m) (zlen (print_line q)) (mlast m)).
  destruct (meta_consume_ok m (zlen (print_line q)) Wm) as (W2 & D2); [unfold meta_getlen; rewrite Pm; pose proof (zlen_nonneg (print_line q)); lia|].
  unfold meta_consume in W2, D2. rewrite Pm, Z.add_0_l in W2, D2. fold m1 in W2, D2.
  rewrite Dm, zdrop_all in D2 by lia.
  assert (C1 : meta_cap m1 = 4096) by exact Cm.
  assert (G1 : meta_getfree m1 = 4096 - zlen (print_line q)) by (unfold meta_getfree; rewrite C1; unfold m1; cbn [mlast]; lia).
  unfold I2. rewrite run_again; [|rewrite P1; discriminate|unfold meta_getlen, m1; cbn [mlast mpos]; lia|lia].
  destruct (print_hdrs (rq_headers q) ++ rest) as [|c ct] eqn:EH.
  { apply (f_equal zlen) in EH. rewrite zlen_app in EH. change (zlen (@nil Z)) with 0 in EH. pose proof (zlen_nonneg rest). lia. }
  destruct (do_recv_data m1 c ct ins W2) as (m2 & R & W3 & D3 & C3 & P3 & L3 & Z3); [lia|].
  rewrite <- EH in *. rewrite G1 in *. set (ins' := unread (print_hdrs (rq_headers q) ++ rest) (4096 - zlen (print_line q)) ins) in *.
  assert (R' : http_run (Datatypes.S k) r1 m1 (RxData (print_hdrs (rq_headers q) ++ rest) :: ins) = http_run (Datatypes.S k) r1 m2 ins').
  { cbn [http_run]. rewrite P1. assert (GL : meta_getlen m1 < 1) by (unfold meta_getlen, m1; cbn [mlast mpos]; lia).
    destruct (Z.ltb_spec (meta_getlen m1) 1); [|lia]. rewrite R. cbn [bind].
    assert (N1 : meta_getlen m2 >= 1).
    { rewrite <- mdata_len by assumption. rewrite D3, D2. cbn [app]. rewrite zlen_ztake, zlen_app by lia.
      pose proof (zlen_nonneg rest). lia. }
    destruct (Z.ltb_spec (meta_getlen m2) 1); [lia|]. reflexivity. }
  rewrite R'. rewrite D2 in D3. cbn [app] in D3. rewrite ztake_app_r in D3 by lia.
  replace (4096 - zlen (print_line q) - zlen (print_hdrs (rq_headers q))) with (4096 - zlen (print_req q)) in D3 by lia.
  apply (finish_head k r1 m2 ins' q); auto; [congruence|].
  (* the request line is still at the start of the buffer *)
  destruct (at_off_mdata m _ _ Wm Dm') as (pre & post & EB & EZ). rewrite Pm in EZ.
  assert (pre = []) by (apply zlen_0_nil; lia). subst pre. cbn [app] in EB.
  apply zput_some in Z3. destruct Z3 as (_ & _ & Z3). unfold m1 in Z3. cbn [mbuf mlast] in Z3.
  exists [], (zdrop (zlen (print_line q)) (mbuf m2)). split; [|reflexivity]. cbn [app].
  rewrite <- (ztake_zdrop (zlen (print_line q)) (mbuf m2)) at 1. f_equal.
  pose proof (zlen_nonneg (print_line q)) as NL.
  rewrite Z3. rewrite ztake_app_l by (rewrite zlen_ztake by lia; rewrite EB, zlen_app; pose proof (zlen_nonneg post); lia).
  rewrite ztake_ztake, Z.min_l by lia. rewrite EB, ztake_app_l by lia. apply ztake_all. lia.
Qed.

(** Splitting between the request line and the header block, with any number of
    would-block results, gives the same as one piece. Missing for the full claim:
    every other split of the head ([C50_refuted],
    [C50_split_line_never_completes]); splits of the body are [C52_partial]. *)
Theorem C50_partial : forall q a1 a2 rest ins fuel, small q -> Forall not_clen (rq_headers q) ->
  exists r m ins', http_start (a1 + S (a2 + S (S fuel))) (two_pieces q a1 a2 rest ins) = Ok (HComplete r m ins') /\
    view (mbuf m) r = meaning_of q /\ mdata m ++ flat ins' = rest ++ flat ins.
Proof.
  intros q a1 a2 rest ins fuel S N. pose proof S as (_ & _ & FIT).
  assert (PL : zlen (print_req q) = zlen (print_line q) + zlen (print_hdrs (rq_headers q))) by (unfold print_req; apply zlen_app).
  destruct (run_two q a1 a2 rest ins (Datatypes.S fuel) S) as (r & m & R & H).
  rewrite R, (body_none fuel q r m _ _ S H N).
  eexists _, _, _. split; [reflexivity|]. split; [exact (ho_view _ _ _ _ H)|].
  pose proof (zlen_nonneg (print_hdrs (rq_headers q))).
  rewrite (ho_data _ _ _ _ H), flat_unread by lia.
  rewrite zdrop_app_r by lia.
  replace (4096 - zlen (print_line q) - zlen (print_hdrs (rq_headers q))) with (4096 - zlen (print_req q)) by lia.
  rewrite app_assoc, ztake_zdrop. reflexivity.
Qed.
Print Assumptions C50_partial.
Example C50_ex : exists r m ins', http_start 8 (two_pieces q_simple 2 1 [] []) = Ok (HComplete r m ins') /\
  view (mbuf m) r = meaning_of q_simple.
Proof.
  destruct (C50_partial q_simple 2 1 [] [] 2 q_simple_small) as (r & m & i & R & V & _).
  - repeat (apply Forall_cons; [apply not_clen_b; reflexivity|]). apply Forall_nil.
  - exists r, m, i. split; assumption.
Qed.

(** ** C51 *)
(** Whatever bytes arrive, in whatever pieces: no write outside the header table
    or a buffer. (The remaining faults are an assertion and an over-read: C83.) *)
Theorem C51_header_table_bounds : forall fuel ins,
  http_start fuel ins <> Fault FOob /\
  (forall r m i, http_start fuel ins = Ok (HComplete r m i) -> 0 <= q_kvn r <= 15 /\ zlen (q_kvs r) = 16).
Proof.
  intros fuel ins.
  assert (I0 : rinv req_new (meta_new 4096)).
  { split; [split; [reflexivity|cbn; lia]|]. split; [|exact I]. apply meta_new_wf. lia. }
  split.
  - intros E. pose proof (run_safe fuel req_new (meta_new 4096) ins I0) as H.
    unfold http_start in E. rewrite E in H. destruct H; discriminate.
  - intros r m i E. pose proof (run_safe fuel req_new (meta_new 4096) ins I0) as H.
    unfold http_start in E. rewrite E in H. destruct H. auto.
Qed.
Print Assumptions C51_header_table_bounds.
(** non-trivial: 40 headers *)
Example C51_ex : exists r m, http_start 3
    [RxData (print_req (mkRequest (str "GET") (TPath (str "/")) (str "HTTP/1.1") (pad 40)))] = Ok (HComplete r m []) /\
  q_kvn r = 15.
Proof. eexists _, _. split; vm_compute; reflexivity. Qed.

(** ** C52: the body *)
(** [h] announces [n] body bytes and no other header is taken for a
    Content-Length *)
Definition announces (q : request) (n : Z) : Prop :=
  exists hs1 h hs2, rq_headers q = hs1 ++ h :: hs2 /\ ieq (h_name h) (str "Content-Length") /\
    numeral (h_value h) n /\ Forall not_clen hs1 /\ Forall not_clen hs2.

Lemma ieq_ipre a b : ieq a b -> ipre a b = true.
Proof. intros E. apply ipre_spec. exists []. rewrite app_nil_r. exact E. Qed.

Lemma clen_announced q buf es n : wf_req q -> announces q n -> n <= MAX_BODY ->
  Forall2 (hdr_at buf) es (rq_headers q) -> clen_loop buf es 0 = Ok (Some n).
Proof.
  intros (_ & _ & _ & _ & W) (hs1 & h & hs2 & E & NM & NU & N1 & N2) B F. rewrite E in *.
  apply Forall2_app_inv_r in F as (e1 & e2 & F1 & F2 & ->).
  apply Forall_app in W as (W1 & W2). inversion F2 as [|e h' e3 hs' Fe F3]; subst.
  assert (N1' : Forall (fun h => ipre (h_name h) lit_clen = false) hs1) by
    (eapply Forall_impl; [|exact N1]; apply not_clen_ipre).
  rewrite clen_app, (clen_none buf e1 hs1) by assumption. cbn [bind].
  change (e :: e3) with ([e] ++ e3). rewrite clen_app.
  rewrite (clen_one buf e h (h_value h) n 0); auto.
  - cbn [bind]. apply (clen_none buf e3 hs2); auto; [exact (Forall_inv_tail W2)|].
    eapply Forall_impl; [|exact N2]. apply not_clen_ipre.
  - exact (Forall_inv W2).
  - apply ieq_ipre. exact NM.
Qed.

Lemma body_run q r m rest n ins k : small q -> head_ok q r m rest -> announces q n ->
  1 <= n <= 16344 -> zlen rest <= n -> clean ins -> n <= zlen (rest ++ flat ins) -> (Datatypes.length ins + 3 <= k)%nat ->
  exists r' py ins', http_run k r m ins = Ok (HComplete r' m ins') /\ q_pay r' = Some py /\ q_payn r' = n /\
    view (mbuf m) r' = meaning_of q /\
    mdata py = ztake n (rest ++ flat ins) /\ flat ins' = zdrop n (rest ++ flat ins) /\ clean ins'.
Proof.
  intros S H A B L C N K. pose proof S as (W & _).
  destruct k as [|k]; [lia|]. cbn [http_run]. rewrite (ho_ph _ _ _ _ H), (ho_pay _ _ _ _ H), (ho_payn _ _ _ _ H).
  rewrite (clen_announced q _ _ n W A) by (unfold MAX_BODY; lia || exact (ho_hdrs _ _ _ _ H)).
  cbn [bind]. destruct (Z.ltb_spec 0 n); [|lia].
  replace (meta_fits n) with true by (unfold meta_fits; lia).
  destruct (meta_new_wf n) as (Wn & Cn & Dn); [lia|].
  pose proof (mdata_len m (ho_wf _ _ _ _ H)) as DL. rewrite (ho_data _ _ _ _ H) in DL.
  assert (BR : forall py, meta_wf py -> mpos py = 0 -> meta_cap py = n -> mdata py = rest ->
    exists r' py' ins', http_run k (set_pay r n (Some py)) m ins = Ok (HComplete r' m ins') /\ q_pay r' = Some py' /\ q_payn r' = n /\
    view (mbuf m) r' = meaning_of q /\
    mdata py' = ztake n (rest ++ flat ins) /\ flat ins' = zdrop n (rest ++ flat ins) /\ clean ins').
  { intros py Wp Pp Cp Dp.
    destruct (run_body ins k (set_pay r n (Some py)) m py n) as (py' & ins' & R & D & F & Cl); auto.
    - cbn. apply (ho_ph _ _ _ _ H).
    - rewrite Dp. exact N.
    - lia.
    - rewrite Dp in D, F. eexists _, py', ins'. split; [exact R|]. cbn. split; [reflexivity|]. split; [reflexivity|].
      split; [exact (ho_view _ _ _ _ H)|]. auto. }
  destruct (Z.eqb_spec (meta_getlen m) 0) as [E0|E0].
  - apply BR; auto. rewrite Dn. symmetry. apply zlen_0_nil. lia.
  - assert (GF : meta_getfree (meta_new n) = n) by (unfold meta_getfree; rewrite Cn; cbn; lia).
    unfold meta_pdata. rewrite (ho_data _ _ _ _ H), GF. destruct (Z.leb_spec (zlen rest) n); [|lia].
    destruct (meta_store_ok (meta_new n) rest Wn) as (py & St & Wp & Dp & Cp & Pp & _); [lia|].
    rewrite St. cbn [bind fst snd]. apply BR; [assumption|exact Pp|congruence|]. rewrite Dp, Dn. reflexivity.
Qed.

(** The head in one receive with the first bytes [b0] of what follows, the rest
    in any pieces with any number of would-block results: the body is the [n]
    bytes after the header block, and what follows it is not lost.
    Missing: bodies above 16344 bytes (the buffer), and the case that the first
    receive brings more than the body ([C52_refuted]). *)
Theorem C52_partial : forall q n b0 ins fuel,
  small q -> announces q n -> 1 <= n <= 16344 ->
  Z.min (zlen b0) (4096 - zlen (print_req q)) <= n ->
  clean ins -> n <= zlen (b0 ++ flat ins) -> (Datatypes.length ins + 6 <= fuel)%nat ->
  exists r m py ins', http_start fuel (RxData (print_req q ++ b0) :: ins) = Ok (HComplete r m ins') /\
    view (mbuf m) r = meaning_of q /\ q_pay r = Some py /\
    mdata py = ztake n (b0 ++ flat ins) /\ flat ins' = zdrop n (b0 ++ flat ins).
Proof.
  intros q n b0 ins fuel S A B L C N K. pose proof S as (_ & _ & FIT).
  destruct fuel as [|[|k]]; [lia|lia|].
  destruct (run_head q b0 ins k S) as (r & m & R & H). rewrite R.
  pose proof (zlen_nonneg b0).
  assert (FL : ztake (4096 - zlen (print_req q)) b0 ++ flat (unread (print_req q ++ b0) 4096 ins) = b0 ++ flat ins).
  { rewrite flat_unread by lia. rewrite zdrop_app_r by lia. rewrite app_assoc, ztake_zdrop. reflexivity. }
  destruct (body_run q r m _ n (unread (print_req q ++ b0) 4096 ins) k S H A B) as (r' & py & ins' & R' & P & _ & V & D & F & _).
  - rewrite zlen_ztake by lia. lia.
  - apply clean_unread; [lia|assumption].
  - rewrite FL. exact N.
  - unfold unread. destruct (zlen (print_req q ++ b0) <=? 4096); cbn [Datatypes.length]; lia.
  - rewrite FL in D, F. exists r', m, py, ins'. auto 10.
Qed.
Print Assumptions C52_partial.

Definition q_post : request :=
  mkRequest (str "POST") (TPath (str "/echo")) (str "HTTP/1.1") [hdr "Host" "a"; hdr "content-length" "10"].
Lemma q_post_small : small q_post.
Proof.
  split; [|split; vm_compute; discriminate].
  split; [isword|]. split; [vm_compute; discriminate|]. split; [ispath|]. split; [isword|].
  repeat (apply Forall_cons; [wfh|]). apply Forall_nil.
Qed.
Lemma q_post_announces : announces q_post 10.
Proof.
  exists [hdr "Host" "a"], (hdr "content-length" "10"), []. split; [reflexivity|]. split; [reflexivity|].
  split; [split; [discriminate|]; split; [|reflexivity]|].
  - repeat (apply Forall_cons; [vm_compute; split; discriminate|]). apply Forall_nil.
  - split; [|apply Forall_nil]. repeat (apply Forall_cons; [apply not_clen_b; reflexivity|]). apply Forall_nil.
Qed.
Example C52_ex : exists r m py ins',
  http_start 10 [RxData (print_req q_post ++ str "abc"); RxAgain; RxData (str "defg"); RxData (str "hijXYZ")]
    = Ok (HComplete r m ins') /\ view (mbuf m) r = meaning_of q_post /\ q_pay r = Some py /\
  mdata py = str "abcdefghij" /\ flat ins' = str "XYZ".
Proof.
  apply (C52_partial q_post 10 (str "abc") [RxAgain; RxData (str "defg"); RxData (str "hijXYZ")] 10 q_post_small q_post_announces).
  - lia.
  - vm_compute. discriminate.
  - repeat (apply Forall_cons; [exact I || discriminate|]). apply Forall_nil.
  - vm_compute. discriminate.
  - vm_compute. lia.
Qed.

(** If bytes of the next request arrive together with the body, the request is
    rejected. *)
Theorem C52_refuted : exists q n b0, small q /\ announces q n /\ 1 <= n <= zlen b0 /\
  zlen (print_req q ++ b0) <= 4096 /\
  forall k ins, http_start (4 + k) (RxData (print_req q ++ b0) :: ins) = Ok HFail.
Proof.
  exists q_post, 10, (str "abcdefghijG"). split; [exact q_post_small|]. split; [exact q_post_announces|].
  split; [vm_compute; split; discriminate|]. split; [vm_compute; discriminate|].
  intros k ins. destruct (run_head q_post (str "abcdefghijG") ins (S (S k)) q_post_small) as (r & m & R & H).
  change (4 + k)%nat with (S (S (S (S k)))). rewrite R. cbn [http_run].
  rewrite (ho_ph _ _ _ _ H), (ho_pay _ _ _ _ H), (ho_payn _ _ _ _ H).
  rewrite (clen_announced q_post _ _ 10); [|apply q_post_small|exact q_post_announces|vm_compute; discriminate|exact (ho_hdrs _ _ _ _ H)].
  cbn [bind]. change (0 <? 10) with true. change (meta_fits 10) with true. cbn iota.
  pose proof (mdata_len m (ho_wf _ _ _ _ H)) as DL. rewrite (ho_data _ _ _ _ H) in DL |- *.
  replace (ztake (4096 - zlen (print_req q_post)) (str "abcdefghijG")) with (str "abcdefghijG") in * by (vm_compute; reflexivity).
  change (zlen (str "abcdefghijG")) with 11 in DL.
  destruct (Z.eqb_spec (meta_getlen m) 0); [lia|]. reflexivity.
Qed.
Print Assumptions C52_refuted.

(** ** C53: recognition of names *)
(** The exact rule the server applies: a method is GET (POST) if it is a prefix,
    up to case, of "GET" ("POST"); a header asks for keep-alive if its name is a
    prefix of "Connection" and its value one of "Keep-Alive". *)
Theorem C53_recognised_by_prefix : forall q rest ins fuel r m ins',
  small q -> Forall not_clen (rq_headers q) ->
  http_start fuel (RxData (print_req q ++ rest) :: ins) = Ok (HComplete r m ins') ->
  (q_mtyp r = 1 <-> iprefix (rq_method q) (str "GET")) /\
  (q_mtyp r = 3 <-> iprefix (rq_method q) (str "POST") /\ ~ iprefix (rq_method q) (str "GET")) /\
  (q_keep r = true <-> exists h, In h (rq_headers q) /\ iprefix (h_name h) (str "Connection") /\
                                 iprefix (h_value h) (str "Keep-Alive")).
Proof.
  intros q rest ins fuel r m ins' S N E.
  destruct fuel as [|[|[|k]]]; [discriminate E| | |].
  - exfalso. revert E. clear - S. intros E.
    (* one unit of fuel only reads the request line *)
    destruct (print_req_cons q S) as (b & t & EQ). rewrite EQ in E. cbn [app] in E.
    destruct (new_run 0 b (t ++ rest) ins) as (mm & R' & Wm & Cm & Pm & Dm). rewrite R' in E.
    change (b :: t ++ rest) with ((b :: t) ++ rest) in *. rewrite <- EQ in *.
    destruct S as (W & _ & FIT). rewrite ztake_app_r in Dm by lia. unfold print_req in Dm at 1. rewrite <- app_assoc in Dm.
    destruct (run_line 0 req_new mm (unread (print_req q ++ rest) 4096 ins) q _ eq_refl W Wm Dm) as (r1 & R1 & _).
    rewrite R1 in E. discriminate E.
  - destruct (run_head q rest ins 0 S) as (r0 & m0 & R & _). rewrite R in E. discriminate E.
  - destruct (run_head q rest ins (Datatypes.S k) S) as (r0 & m0 & R & H).
    rewrite R, (body_none k q r0 m0 _ _ S H N) in E. injection E as <- <- <-.
    change (q_mtyp (set_pay r0 0 None)) with (q_mtyp r0). change (q_keep (set_pay r0 0 None)) with (q_keep r0).
    rewrite (ho_mtyp _ _ _ _ H), (ho_keep _ _ _ _ H). unfold method_code.
    change lit_get with (str "GET"). change lit_post with (str "POST").
    rewrite <- !ipre_spec. split; [|split].
    + destruct (ipre (rq_method q) (str "GET")); [split; reflexivity|].
      destruct (ipre (rq_method q) (str "POST")); split; discriminate.
    + destruct (ipre (rq_method q) (str "GET")); [split; [discriminate|intros (_ & X); exfalso; apply X; reflexivity]|].
      destruct (ipre (rq_method q) (str "POST")).
      * split; [|reflexivity]. intros _. split; [reflexivity|discriminate].
      * split; [discriminate|]. intros (X & _). discriminate X.
    + rewrite existsb_exists. unfold keep_hdr.
      split; intros (h & Hin & X); exists h; (split; [assumption|]).
      * apply andb_true_iff in X as (X1 & X2). apply ipre_spec in X1, X2. split; assumption.
      * destruct X as (X1 & X2). apply andb_true_iff. split; apply ipre_spec; assumption.
Qed.
Print Assumptions C53_recognised_by_prefix.

(** Full names are recognised: GET, POST, Connection, Content-Length in any case.
    Missing for the full claim: nothing else may be recognised ([C53_refuted]). *)
Theorem C53_partial : forall q rest ins fuel r m ins',
  small q -> Forall not_clen (rq_headers q) ->
  http_start fuel (RxData (print_req q ++ rest) :: ins) = Ok (HComplete r m ins') ->
  (ieq (rq_method q) (str "GET") -> q_mtyp r = 1) /\
  (ieq (rq_method q) (str "POST") -> q_mtyp r = 3) /\
  (forall h, In h (rq_headers q) -> ieq (h_name h) (str "Connection") -> ieq (h_value h) (str "Keep-Alive") -> q_keep r = true).
Proof.
  intros q rest ins fuel r m ins' S N E.
  destruct (C53_recognised_by_prefix q rest ins fuel r m ins' S N E) as (G & P & K).
  assert (IP : forall a b, ieq a b -> iprefix a b) by (intros a b X; exists []; rewrite app_nil_r; exact X).
  split; [|split].
  - intros X. apply G. apply IP. exact X.
  - intros X. apply P. split; [apply IP; exact X|]. intros (c & Y). unfold ieq in X, Y.
    rewrite map_app, X in Y. vm_compute in Y. discriminate.
  - intros h I X Y. apply K. exists h. auto.
Qed.
Print Assumptions C53_partial.
Example C53_ex : exists r m ins', http_start 3 [RxData (print_req ex_q)] = Ok (HComplete r m ins') /\
  q_mtyp r = 1 /\ q_keep r = true.
Proof. eexists _, _, _. split; [vm_compute; reflexivity|]. split; reflexivity. Qed.

(** "G" is taken for GET, and a header called "C" for both Connection and
    Content-Length: the body is split off. *)
Definition q_g : request := mkRequest (str "G") (TPath (str "/")) (str "HTTP/1.1") [hdr "C" "4"].
Theorem C53_refuted : exists q r m py ins, wf_req q /\
  (forall s, In s [str "GET"; str "POST"] -> ~ ieq (rq_method q) s) /\
  (forall h, In h (rq_headers q) -> ~ ieq (h_name h) (str "Content-Length")) /\
  (forall k, http_start (5 + k) [RxData (print_req q ++ str "abcd")] = Ok (HComplete r m ins)) /\
  q_mtyp r = 1 /\ q_pay r = Some py /\ mdata py = str "abcd".
Proof.
  exists q_g. eexists _, _, _, _. split.
  { split; [isword|]. split; [vm_compute; discriminate|]. split; [ispath|]. split; [isword|].
    repeat (apply Forall_cons; [wfh|]). apply Forall_nil. }
  split; [intros s [<-|[<-|[]]]; vm_compute; discriminate|].
  split; [intros h [<-|[]]; vm_compute; discriminate|].
  split; [intros k; vm_compute; reflexivity|]. split; [reflexivity|]. split; [reflexivity|]. vm_compute. reflexivity.
Qed.
Print Assumptions C53_refuted.

(** ** C83: the parser reads only received bytes and never stops the process *)
(** A value that is only white space makes strtol run on behind the value,
    through the body and past the end of the buffer. *)
Definition q_over : list Z :=
  let head := str "POST / HTTP/1.1" ++ crlf ++ str "Content-Length:" ++ crlf ++ crlf ++ crlf in
  head ++ zrepeat 32 (4096 - zlen head).
Theorem C83_refuted_overread : exists d, bytes d /\ zlen d = 4096 /\
  forall k, http_start (3 + k) [RxData d] = Fault FOverread.
Proof.
  exists q_over. split; [apply bytesb_spec; vm_compute; reflexivity|]. split; [vm_compute; reflexivity|].
  intros k. vm_compute. reflexivity.
Qed.
Print Assumptions C83_refuted_overread.

(** A request line that fills the receive buffer exactly makes the next receive
    fail an assertion: the worker process is terminated. *)
Definition q_full : list Z := str "GET /" ++ zrepeat 97 4080 ++ str " HTTP/1.1" ++ crlf.
Theorem C83_refuted_abort : exists d, bytes d /\ zlen d = 4096 /\
  forall k ins, http_start (2 + k) (RxData d :: ins) = Fault FAbort.
Proof.
  exists q_full. split; [apply bytesb_spec; vm_compute; reflexivity|]. split; [vm_compute; reflexivity|].
  intros k ins. vm_compute. reflexivity.
Qed.
Print Assumptions C83_refuted_abort.

(** These are the only two ways: every other input is handled without a fault.
    Missing for the full claim: the two cases above. *)
Theorem C83_partial : forall fuel ins f, http_start fuel ins = Fault f -> f = FAbort \/ f = FOverread.
Proof.
  intros fuel ins f E.
  assert (I0 : rinv req_new (meta_new 4096)).
  { split; [split; [reflexivity|cbn; lia]|]. split; [|exact I]. apply meta_new_wf. lia. }
  pose proof (run_safe fuel req_new (meta_new 4096) ins I0) as H.
  unfold http_start in E. rewrite E in H. exact H.
Qed.
Print Assumptions C83_partial.
