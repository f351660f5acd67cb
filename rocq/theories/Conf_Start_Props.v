(** * C74 and C99 from the text of the configuration file to the open ports *)
From Verif Require Import Base Str_Spec Conf_Model Conf_Props Json_Model Json_Spec Json_Doc_Proofs Json_Cut_Proofs Json_Props.
From Coq Require Import String.
Open Scope Z_scope.

(** the port and service a document asks for *)
Definition asks (d : json) (x : Z * lkind) : Prop :=
  match snd x with
  | LTunC => num_of d "s5_mode" 0 1 /\ num_of d "s5_local_port" 0 (fst x)
  | LTunS => num_of d "s5_mode" 0 2 /\ num_of d "s5_serv_port" 0 (fst x)
  | LHttp => exists v, ports_of d "http_arr" v /\ In (fst x) v
  | LHttps => exists v, ports_of d "https_arr" v /\ In (fst x) v
  end.
(** at most eight together *)
Definition few (d : json) : Prop := forall a b, ports_of d "http_arr" a -> ports_of d "https_arr" b ->
  (num_of d "s5_mode" 0 1 \/ num_of d "s5_mode" 0 2 -> 1 + zlen a + zlen b <= 8) /\ zlen a + zlen b <= 8.

Lemma num_of_fun d k z v v' : num_of d k z v -> num_of d k z v' -> v = v'.
Proof. unfold num_of. destruct (member d k) as [[]|]; congruence. Qed.
Lemma ports_of_fun d k v v' : ports_of d k v -> ports_of d k v' -> v = v'.
Proof.
  unfold ports_of. destruct (member d k) as [[]|]; try contradiction; [|congruence].
  intros -> E. revert v' E. induction v as [|a v IH]; intros [|b v'] E; try discriminate; [reflexivity|].
  injection E as -> E. f_equal. apply IH. exact E.
Qed.

Lemma says_asks d c : says d c -> forall x, asks d x <-> In x (wanted c).
Proof.
  intros S (p, k). unfold wanted, asks. cbn [fst snd]. rewrite !in_app_iff, !in_map_iff. pose proof (s_m d c S) as M.
  assert (M1 : num_of d "s5_mode" 0 1 <-> s5_mode c = 1).
  { split; [intros X; exact (num_of_fun _ _ _ _ _ M X)|intros X; rewrite X in M; exact M]. }
  assert (M2 : num_of d "s5_mode" 0 2 <-> s5_mode c = 2).
  { split; [intros X; exact (num_of_fun _ _ _ _ _ M X)|intros X; rewrite X in M; exact M]. }
  destruct k; split.
  - intros (A & B). left. apply M1 in A. rewrite A. cbn. left. f_equal. exact (num_of_fun _ _ _ _ _ (s_lp d c S) B).
  - intros [H|[(y & E & _)|(y & E & _)]]; try discriminate E.
    destruct (Z.eqb_spec (s5_mode c) 1) as [E1|_].
    + destruct H as [E|[]]. injection E as <-. split; [apply M1; exact E1|exact (s_lp d c S)].
    + destruct (s5_mode c =? 2); [destruct H as [E|[]]; discriminate E|destruct H].
  - intros (A & B). left. apply M2 in A. rewrite A. cbn. left. f_equal. exact (num_of_fun _ _ _ _ _ (s_sp d c S) B).
  - intros [H|[(y & E & _)|(y & E & _)]]; try discriminate E.
    destruct (Z.eqb_spec (s5_mode c) 1) as [E1|_]; [destruct H as [E|[]]; discriminate E|].
    destruct (Z.eqb_spec (s5_mode c) 2) as [E2|_]; [|destruct H]. destruct H as [E|[]]. injection E as <-.
    split; [apply M2; exact E2|exact (s_sp d c S)].
  - intros (v & A & I). right. left. rewrite (ports_of_fun _ _ _ _ A (s_http d c S)) in I. eauto.
  - intros [H|[(y & E & I)|(y & E & _)]]; try discriminate E.
    + destruct (s5_mode c =? 1); [destruct H as [E|[]]; discriminate E|].
      destruct (s5_mode c =? 2); [destruct H as [E|[]]; discriminate E|destruct H].
    + injection E as <-. exists (ztake (http_num c) (http_arr c)). split; [exact (s_http d c S)|exact I].
  - intros (v & A & I). right. right. rewrite (ports_of_fun _ _ _ _ A (s_https d c S)) in I. eauto.
  - intros [H|[(y & E & I)|(y & E & I)]]; try discriminate E.
    + destruct (s5_mode c =? 1); [destruct H as [E|[]]; discriminate E|].
      destruct (s5_mode c =? 2); [destruct H as [E|[]]; discriminate E|destruct H].
    + injection E as <-. exists (ztake (https_num c) (https_arr c)). split; [exact (s_https d c S)|exact I].
Qed.

Lemma says_sane d c : says d c -> sane c.
Proof. intros S. destruct (s_len d c S) as (A & B & C & D). split; lia. Qed.
Lemma says_few d c : says d c -> few d -> zlen (wanted c) <= 8.
Proof.
  intros S F. destruct (F _ _ (s_http d c S) (s_https d c S)) as (F1 & F2). pose proof (s_m d c S) as M. unfold wanted.
  rewrite !zlen_app, !zlen_map.
  destruct (Z.eqb_spec (s5_mode c) 1) as [E|_].
  - rewrite E in M. specialize (F1 (or_introl M)). rewrite zlen_cons, zlen_nil. lia.
  - destruct (Z.eqb_spec (s5_mode c) 2) as [E|_].
    + rewrite E in M. specialize (F1 (or_intror M)). rewrite zlen_cons, zlen_nil. lia.
    + rewrite zlen_nil. lia.
Qed.

(** nothing else than the wanted ports is opened, and in the order of the configuration up to
    the first that fails *)
Lemma listen_start_open t : forall oks s, In s (fst (listen_start t oks)) -> exists s', In s' t /\ lport s' = lport s /\ lkind_ s' = lkind_ s.
Proof.
  induction t as [|a t IH]; intros oks s; cbn [listen_start]; [intros []|].
  destruct (match oks with [] => true | b :: _ => b end).
  - specialize (IH (tl oks)). destruct (listen_start t (tl oks)) as [t' rc]. cbn [fst] in *. intros [<-|I].
    + exists a. cbn. auto.
    + destruct (IH s I) as (s' & A & B). exists s'. cbn. auto.
  - cbn [fst]. intros [<-|I]; [exists a; cbn; auto|]. exists s. cbn. auto.
Qed.
Lemma listen_only c oks t rc : sane c -> listen_init c oks = Ok (t, rc) ->
  forall s, In s t -> In (lport s, lkind_ s) (wanted c).
Proof.
  intros S E s I. destruct (listen_table c S) as (t0 & E0 & H). rewrite H in E. injection E as E.
  destruct (listen_start_open t0 oks s) as (s' & A & B & C); [rewrite E; exact I|].
  rewrite E0 in A. apply in_map_iff in A as (x & <- & J). cbn in B, C. rewrite <- B, <- C.
  destruct x as (p, k). cbn. revert J. generalize (wanted c). unfold ztake. intros l J.
  rewrite <- (firstn_skipn (Z.to_nat NSLOT) l). apply in_or_app. left. exact J.
Qed.

(** ** C74 over the whole start-up: from the text of the file to the open ports *)
Theorem C74_text_partial : forall j t oks, plain_text j t -> within j -> few j ->
  exists rc tab, startup cjson (Bytes t) oks = Ok (rc, tab) /\
    (forall s, In s tab -> asks j (lport s, lkind_ s)) /\
    ((rc = 0 /\ forall x, asks j x -> is_open tab x) \/ (rc = -1 /\ In false oks)).
Proof.
  intros j t oks T W F. destruct (C99_plain_text_partial j t T W) as (c & E & S).
  pose proof (says_sane _ _ S) as SN. pose proof (says_few _ _ S F) as L8.
  destruct (C74_partial c oks SN L8) as (tab & rc & E2 & D). exists rc, tab. split.
  { unfold startup. rewrite E. cbn [bind fst snd]. change (0 =? 0) with true. cbn iota. rewrite E2. reflexivity. }
  split.
  - intros s I. apply (says_asks _ _ S). exact (listen_only c oks tab rc SN E2 s I).
  - destruct D as [(D1 & D2)|D]; [left|right; exact D]. split; [exact D1|]. intros x X. apply D2. apply (says_asks _ _ S). exact X.
Qed.
Print Assumptions C74_text_partial.

(** the first socket that cannot be opened makes start-up fail, whatever the document *)
Theorem C74_failure_reported_partial : forall parse b root c oks n, parse b = Some root -> config_take conf0 root = Ok c ->
  sane c -> n < Z.min 8 (zlen (wanted c)) -> zget oks n = Some false ->
  exists tab, startup parse (Bytes b) oks = Ok (-1, tab).
Proof.
  intros parse b root c oks n P E S N Z. destruct (listen_table c S) as (t & ET & H).
  assert (FS : forall t oks n, zget oks n = Some false -> n < zlen t -> snd (listen_start t oks) = -1).
  { clear. induction t as [|s t IH]; intros oks n Z L.
    - pose proof (zget_some_range _ _ _ Z). rewrite zlen_nil in L. lia.
    - cbn [listen_start]. pose proof (zget_some_range _ _ _ Z) as R. rewrite zlen_cons in L. destruct oks as [|[] oks].
      + cbn in R. lia.
      + destruct (Z.eq_dec n 0) as [->|NZ]; [discriminate Z|]. cbn [tl]. rewrite zget_cons in Z by lia.
        specialize (IH oks (n - 1) Z ltac:(lia)). destruct (listen_start t oks). exact IH.
      + reflexivity. }
  specialize (FS t oks n Z). rewrite ET, zlen_map in FS. rewrite zlen_ztake in FS by (unfold NSLOT; lia). specialize (FS N).
  rewrite ET in H. unfold startup, config_init. rewrite P, E. cbn [bind fst snd]. change (0 =? 0) with true. cbn iota.
  rewrite H. cbn [bind]. exists (fst (listen_start (map mk (ztake NSLOT (wanted c))) oks)). rewrite FS. reflexivity.
Qed.
Print Assumptions C74_failure_reported_partial.

Local Ltac lits := repeat match goal with |- context [str ?s] =>
  let v := eval vm_compute in (str s) in change (str s) with v end.
Definition start_text : list Z := str "{""s5_mode"":1,""s5_local_port"":1080,""http_arr"":[ 80, 8080]}".
Definition start_doc : json :=
  JObj [(str "s5_mode", JNum 1); (str "s5_local_port", JNum 1080); (str "http_arr", JArr [JNum 80; JNum 8080])].
Lemma start_text_ok : plain_text start_doc start_text.
Proof.
  change start_text with ([] ++ [] ++ ([123] ++ ([] ++ [34] ++ str "s5_mode" ++ [34] ++ [] ++ [58] ++ [] ++ [49] ++ [] ++ [44] ++
    ([] ++ [34] ++ str "s5_local_port" ++ [34] ++ [] ++ [58] ++ [] ++ [49; 48; 56; 48] ++ [] ++ [44] ++
    ([] ++ [34] ++ str "http_arr" ++ [34] ++ [] ++ [58] ++ [] ++
      ([91] ++ ([32] ++ [56; 48] ++ [] ++ [44] ++ ([32] ++ [56; 48; 56; 48] ++ [])) ++ [93]) ++ [])))
    ++ [125]) ++ []).
  assert (W0 : ws []) by constructor. assert (W1 : ws [32]) by (repeat constructor; lia).
  assert (RAW : forall b, 32 <= b < 256 /\ b <> 34 /\ b <> 92 -> forall s t, chars s t -> chars (b :: s) (b :: t)).
  { intros b (A & B & C) s t H. apply ch_raw; assumption. }
  assert (NUM : forall n b t, 49 <= b <= 57 -> digits t -> decval (b :: t) < 2 ^ 31 -> zlen (b :: t) <= 63 ->
    docN integer n (JNum (decval (b :: t))) (b :: t)).
  { intros n b t B D L Z. apply d_num; [|exact Z]. apply in_pos; [apply ip_other; assumption|exact L]. }
  assert (DG : forall b t, 48 <= b <= 57 -> digits t -> digits (b :: t)) by (intros; constructor; assumption).
  unfold start_doc.
  apply text_intro; [left; reflexivity|exact W0| |exact W0]. apply d_obj; [lia|].
  apply ms_more with (k := str "s5_mode"); try assumption.
  { lits; repeat (apply RAW; [lia|]). apply ch_nil. }
  { apply cstr_all. intros H; vm_compute in H; intuition discriminate. }
  { apply (NUM _ 49 []); [lia|constructor|reflexivity|discriminate]. }
  apply ms_more with (k := str "s5_local_port"); try assumption.
  { lits; repeat (apply RAW; [lia|]). apply ch_nil. }
  { apply cstr_all. intros H; vm_compute in H; intuition discriminate. }
  { apply (NUM _ 49 [48; 56; 48]); [lia|repeat (apply DG; [lia|]); constructor|reflexivity|discriminate]. }
  apply ms_one with (k := str "http_arr"); try assumption.
  { lits; repeat (apply RAW; [lia|]). apply ch_nil. }
  { apply cstr_all. intros H; vm_compute in H; intuition discriminate. }
  apply d_arr; [lia|]. apply ds_more; try assumption.
  { apply (NUM _ 56 [48]); [lia|repeat (apply DG; [lia|]); constructor|reflexivity|discriminate]. }
  apply ds_one; try assumption.
  apply (NUM _ 56 [48; 56; 48]); [lia|repeat (apply DG; [lia|]); constructor|reflexivity|discriminate].
Qed.
Example C74_text_ex : within start_doc /\ few start_doc /\ asks start_doc (1080, LTunC) /\ asks start_doc (8080, LHttp) /\
  startup cjson (Bytes start_text) [] =
    Ok (0, [Lslot 1080 LTunC true; Lslot 80 LHttp true; Lslot 8080 LHttp true]) /\
  (exists tab, startup cjson (Bytes start_text) [true; false] = Ok (-1, tab)).
Proof.
  split.
  { split; try exact I; try (vm_compute; split; discriminate).
    { vm_compute. split; [discriminate|reflexivity]. }
    split; [vm_compute; discriminate|]. constructor; [exists 80; split; [reflexivity|lia]|].
    constructor; [exists 8080; split; [reflexivity|lia]|]. constructor. }
  split.
  { intros a b A B. assert (a = [80; 8080]) as -> by (apply (ports_of_fun start_doc "http_arr"); [exact A|reflexivity]).
    assert (b = []) as -> by (apply (ports_of_fun start_doc "https_arr"); [exact B|reflexivity]).
    split; vm_compute; intros; discriminate. }
  split; [split; reflexivity|]. split; [exists [80; 8080]; split; [reflexivity|cbn; auto]|].
  split; [vm_compute; reflexivity|]. eexists. vm_compute. reflexivity.
Qed.
