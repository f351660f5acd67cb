(** * C165: checks that fail are recorded. *)
From Coq Require Import String.
From Verif Require Import Base Str_Spec Meta_Model Meta_Proofs Web_Model Web_Proofs Check_Model.
Open Scope Z_scope.
Local Arguments Z.add : simpl never.
Local Arguments Z.sub : simpl never.
Local Arguments Z.mul : simpl never.
Local Arguments zlen : simpl never.

(** ** Specification: the record of a check that failed *)
Definition record_of (text : list Z) (errno : Z) : list Z :=
  str "schk assert failed. -> """ ++ text ++ str """. [" ++ fmt_d errno ++ str "]" ++ [10].

Lemma format_plain : forall l f args, ~ In 37 l -> format (l ++ f) args = let* r := format f args in Ok (l ++ r).
Proof.
  induction l as [|b l IH]; intros f args N.
  - cbn [app]. destruct (format f args); reflexivity.
  - cbn [app format]. destruct (Z.eqb_spec b 37) as [->|_]; [destruct N; left; reflexivity|].
    rewrite IH by (intros X; apply N; right; exact X). destruct (format f args); reflexivity.
Qed.

(** A check whose text has no percent sign is recorded, whatever errno is. *)
Theorem C165_plain : forall text errno, ~ In 37 text -> record text errno = Ok (record_of text errno).
Proof.
  intros text errno N. unfold record, record_of.
  rewrite format_plain by (vm_compute; intuition discriminate).
  rewrite format_plain by exact N.
  change (str """. [%d]" ++ [10]) with (str """. [" ++ (37 :: 100 :: (str "]" ++ [10]))).
  rewrite (format_plain (str """. [")) by (vm_compute; intuition discriminate).
  cbn [format]. change (37 =? 37) with true. cbn iota. change (100 =? 37) with false. cbn iota. change (100 =? 100) with true. cbn iota.
  change (str "]" ++ [10]) with ([93; 10] ++ []). rewrite format_plain by (vm_compute; intuition discriminate).
  cbn [format bind app]. reflexivity.
Qed.
Print Assumptions C165_plain.
Example C165_plain_ex : ~ In 37 (status_src 404) /\ record (status_src 404) 12 = Ok (record_of (status_src 404) 12).
Proof. split; [vm_compute; intuition discriminate|]. apply C165_plain. vm_compute. intuition discriminate. Qed.

Lemma status_plain code : ~ In 37 (status_src code).
Proof.
  unfold status_src.
  repeat match goal with |- context [if ?b then _ else _] => destruct b end; vm_compute; intuition discriminate.
Qed.

(** ** Room for the whole head in one buffer *)
Definition cut (t : list Z) : list Z := ztake 1022 t.
Lemma puts_fit errno : forall ts al m, meta_wf m -> meta_cap m = 4096 -> mpos m = 0 ->
  mlast m + zlen (List.concat (map (fun x => cut (snd x)) ts)) < 4096 ->
  exists m', puts al [m] ts errno = Ok (HPok [m'] al) /\ hdrps [m] (map snd ts) = Ok [m'].
Proof.
  induction ts as [|[s t] ts IH]; intros al m W C P L.
  - exists m. split; reflexivity.
  - cbn [map List.concat snd] in L. rewrite zlen_app in L.
    pose proof (zlen_nonneg (List.concat (map (fun x => cut (snd x)) ts))).
    assert (FR : meta_getfree m = 4096 - mlast m) by (unfold meta_getfree; lia).
    unfold cut at 1 in L.
    assert (X : exists m1, hdrp [m] t = Ok [m1] /\ meta_wf m1 /\ meta_cap m1 = 4096 /\ mpos m1 = 0 /\ mlast m1 = mlast m + zlen (ztake 1022 t)).
    { unfold hdrp. cbn [chain_put]. destruct (Z.ltb_spec (zlen (ztake 1022 t)) (meta_getfree m)) as [_|X]; [|lia].
      unfold meta_pdata. destruct (Z.leb_spec (zlen (ztake 1022 t)) (meta_getfree m)) as [LE|X]; [|lia].
      destruct (meta_store_ok m (ztake 1022 t) W LE) as (m1 & E1 & W1 & D1 & C1 & P1 & L1).
      rewrite E1. cbn [bind fst snd]. exists m1. split; [reflexivity|]. split; [exact W1|]. split; [congruence|]. split; [congruence|]. exact L1. }
    destruct X as (m1 & E1 & W1 & C1 & P1 & L1).
    destruct (IH al m1 W1 C1 P1) as (m' & A & B); [lia|].
    exists m'. cbn [puts map hdrps snd hdrp_a existsb].
    destruct (Z.ltb_spec (zlen (ztake 1022 t)) (meta_getfree m)) as [_|X]; [|lia]. cbn [orb].
    rewrite E1. cbn [bind]. split; assumption.
Qed.

Lemma zlen_cut t : zlen (cut t) <= 1022.
Proof. unfold cut. pose proof (zlen_nonneg t). rewrite zlen_ztake by lia. lia. Qed.
Lemma zlen_cut_le t : zlen (cut t) <= zlen t.
Proof. unfold cut. pose proof (zlen_nonneg t). rewrite zlen_ztake by lia. lia. Qed.
Lemma status_short code : zlen (status_text code) <= 36.
Proof.
  unfold status_text.
  repeat match goal with |- context [if ?b then _ else _] => destruct b end; vm_compute; discriminate.
Qed.

(** ** Every check that fails while an answer is prepared is recorded with its text
    For every status, date, length, additional header and errno, with and without a
    payload, and for every sequence of answers of the allocator: either the whole
    head is stored, or the allocator refused a buffer for the payload or the head; then
    the checks that failed are recorded, and no other. In particular the checks whose texts
    contain "%s" never fail. *)
Definition refused_payload (errno : Z) : list (list Z) :=
  [record_of (str "0 == meta_alloc(&webc->rsp_payload, payloadn)") errno].
Definition refused_head (code errno : Z) : list (list Z) :=
  [record_of (str "0 == meta_alloc(&webc->rsp_hdr, 4096)") errno; record_of (status_src code) errno].
Theorem C165_recorded : forall al code date keep len ext payload errno,
  (exists c al', rsp_a al code date keep len ext payload errno = Ok (HPok c al') /\ rsp_head code date keep len ext = Ok c) \/
  (payload = true /\ granted al = false /\ rsp_a al code date keep len ext payload errno = Ok (HPno (refused_payload errno))) \/
  (granted (if payload then tl al else al) = false /\
   rsp_a al code date keep len ext payload errno = Ok (HPno (refused_head code errno))).
Proof.
  intros al code date keep len ext payload errno. unfold rsp_a, refused_payload, refused_head.
  destruct (payload && negb (granted al)) eqn:PB.
  { right. left. apply andb_prop in PB. destruct PB as (-> & G). split; [reflexivity|].
    split; [destruct (granted al); [discriminate|reflexivity]|].
    rewrite C165_plain by (vm_compute; intuition discriminate). reflexivity. }
  generalize (if payload then tl al else al). intros al1. clear PB.
  assert (ML : map snd (head_lines code date keep len ext) =
    [status_text code; str "Server: s5" ++ crlf2; str "Date: " ++ date ++ crlf2;
             str "Connection: " ++ (if keep then str "keep-alive" else str "close") ++ crlf2;
             str "Content-Length: " ++ fmt_d len ++ crlf2]
            ++ match ext with Some e => [e] | None => [] end ++ [crlf2]) by (destruct ext; reflexivity).
  unfold rsp_head. rewrite <- ML. clear ML.
  set (rest := tl (head_lines code date keep len ext)).
  assert (HL : head_lines code date keep len ext = (status_src code, status_text code) :: rest) by reflexivity.
  assert (RL : zlen (List.concat (map (fun x => cut (snd x)) rest)) <= 3200).
  { subst rest. unfold head_lines. cbn [tl app map snd List.concat].
    pose proof (zlen_cut (str "Date: " ++ date ++ crlf2)) as L1.
    pose proof (zlen_cut (str "Content-Length: " ++ fmt_d len ++ crlf2)) as L2.
    assert (L3 : zlen (cut (str "Connection: " ++ (if keep then str "keep-alive" else str "close") ++ crlf2)) <= 24) by
      (destruct keep; vm_compute; discriminate).
    assert (L4 : zlen (cut (str "Server: s5" ++ crlf2)) <= 12) by (vm_compute; discriminate).
    assert (L5 : zlen (cut crlf2) <= 2) by (vm_compute; discriminate).
    destruct ext as [x|]; cbn [app map snd List.concat]; rewrite !zlen_app, zlen_nil; [pose proof (zlen_cut x)|]; lia. }
  rewrite HL. clearbody rest. clear HL.
  cbn [puts hdrp_a map snd hdrps]. destruct (granted al1) eqn:G.
  - left. pose proof (status_short code) as SS. pose proof (zlen_cut_le (status_text code)) as SC. unfold cut in SC.
    destruct (meta_new_wf 4096) as (W & C & D); [lia|].
    assert (FR : meta_getfree (meta_new 4096) = 4096) by (unfold meta_getfree; rewrite C; reflexivity).
    assert (X : exists m1, hdrp [] (status_text code) = Ok [m1] /\ meta_wf m1 /\ meta_cap m1 = 4096 /\ mpos m1 = 0 /\ mlast m1 <= 36).
    { unfold hdrp. cbn [chain_put]. unfold meta_pdata.
      destruct (Z.leb_spec (zlen (ztake 1022 (status_text code))) (meta_getfree (meta_new 4096))) as [LE|X]; [|lia].
      destruct (meta_store_ok _ (ztake 1022 (status_text code)) W LE) as (m1 & E1 & W1 & D1 & C1 & P1 & L1).
      rewrite E1. cbn [bind fst snd]. exists m1. split; [reflexivity|]. split; [exact W1|]. split; [congruence|].
      split; [rewrite P1; reflexivity|]. rewrite L1. change (mlast (meta_new 4096)) with 0. lia. }
    destruct X as (m1 & E1 & W1 & C1 & P1 & L1). rewrite E1. cbn [bind].
    destruct (puts_fit errno rest (tl al1) m1 W1 C1 P1) as (m' & A & B); [lia|].
    exists [m'], (tl al1). split; assumption.
  - right. right. split; [reflexivity|].
    rewrite C165_plain by (vm_compute; intuition discriminate). cbn [bind].
    rewrite C165_plain by apply status_plain. reflexivity.
Qed.
Print Assumptions C165_recorded.
Example C165_recorded_ex :
  (exists c, rsp_a [true; true; false] 200 (str "Sun, 15 Nov 2026 21:00:00 GMT") true 5 None true 0 = Ok (HPok c [false])) /\
  rsp_a [true; false] 200 (str "Sun, 15 Nov 2026 21:00:00 GMT") true 5 None true 0 = Ok (HPno (refused_head 200 0)) /\
  rsp_a [false] 200 (str "Sun, 15 Nov 2026 21:00:00 GMT") true 5 None true 12 = Ok (HPno (refused_payload 12)).
Proof. split; [eexists; vm_compute; reflexivity|]. split; vm_compute; reflexivity. Qed.

(** ** It is only the room in the buffer that keeps the other checks from harm
    Were one of them to fail, its record would be undefined behaviour. *)
Theorem C165_harmful : forall errno, record src_date errno = Fault FNull /\ record src_conn errno = Fault FNull /\
  record src_ext errno = Fault FNull /\ record src_len errno = Fault FUninit.
Proof. intros errno. repeat split. Qed.
Print Assumptions C165_harmful.
