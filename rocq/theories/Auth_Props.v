(** * Theorems about the key file: C100, C101. *)
From Coq Require Import String.
From Verif Require Import Base Str_Spec Ac_Model Ac_Proofs Ac_Props Conf_Model Json_Model Json_Spec Json_Proofs
  Json_Doc_Proofs Json_Cut_Proofs Json_Props Auth_Model.
Open Scope Z_scope.
Local Arguments Z.add : simpl never.
Local Arguments Z.sub : simpl never.
Local Arguments str : simpl never.
Local Opaque AUTH_FILE_MAX.

Lemma file_max : AUTH_FILE_MAX = 4096.
Proof. reflexivity. Qed.

(** a text shorter than the buffer reaches the parser as it is *)
Lemma auth_init_text t c0 : zlen t < 4096 -> ezac_compiler ezac_init = Ok c0 ->
  auth_init (Some t) =
    (let* o := json_parse t in
     let* c := match o with None => Ok ezac_init | Some root => auth_add ezac_init (children root) end in
     let* c' := ezac_compiler c in Ok (0, c')).
Proof.
  intros L _. unfold auth_init, auth_fread.
  assert (ztake AUTH_FILE_MAX t = t) as ->.
  { rewrite file_max. unfold ztake, zlen in *. apply firstn_all2. lia. }
  set (z := zrepeat 0 (AUTH_FILE_MAX - zlen t)).
  assert (exists z', z = 0 :: z') as (z' & Ez).
  { unfold z, zrepeat. rewrite file_max. exists (repeat 0 (Z.to_nat (4096 - zlen t - 1))).
    replace (Z.to_nat (4096 - zlen t)) with (S (Z.to_nat (4096 - zlen t - 1))) by lia. reflexivity. }
  clearbody z. subst z. unfold auth_fparse.
  assert (existsb (Z.eqb 0) (t ++ 0 :: z') = true) as ->.
  { apply existsb_exists. exists 0. split; [apply in_app_iff; right; left; reflexivity|reflexivity]. }
  assert (json_parse (t ++ 0 :: z') = json_parse t) as ->.
  { unfold json_parse. replace (cut (t ++ 0 :: z')) with (cut t); [reflexivity|].
    clear. induction t as [|b t IH]; [reflexivity|]. cbn [app cut]. destruct (b =? 0); [reflexivity|]. f_equal. exact IH. }
  destruct (json_parse t) as [o| |]; reflexivity.
Qed.
Lemma empty_compiles : exists c0, ezac_compiler ezac_init = Ok c0.
Proof. eexists. vm_compute. reflexivity. Qed.

Lemma auth_add_strings keys : forall c, auth_add c (map JStr keys) = ezac_adds c keys.
Proof.
  induction keys as [|k keys IH]; intros c; [reflexivity|]. cbn [map auth_add ezac_adds string_value].
  destruct (ezac_add c k) as [c'| |]; [|reflexivity|reflexivity]. cbn [bind]. apply IH.
Qed.
Lemma alikes_strings keys l : alikes (map JStr keys) l -> l = map JStr keys.
Proof.
  revert l. induction keys as [|k keys IH]; intros l H; inversion H; subst; [reflexivity|].
  cbn [map]. f_equal; [|apply IH; assumption]. inversion H2; subst. reflexivity.
Qed.

(** ** C100: the keys listed in the file are the ones that are registered, and each of them
    is accepted *)
Theorem C100_listed_keys_registered_partial : forall keys t,
  text_of (JArr (map JStr keys)) t -> zlen t < 4096 ->
  auth_init (Some t) = (let* c := ac_build keys in Ok (0, c)) /\
  (forall rc c, auth_init (Some t) = Ok (rc, c) -> rc = 0 /\
     forall k, In k keys -> k <> [] -> exists c', ezac_find c k = Ok (true, c')).
Proof.
  intros keys t T L.
  assert (auth_init (Some t) = (let* c := ac_build keys in Ok (0, c))) as E.
  { destruct empty_compiles as (c0 & E0). rewrite (auth_init_text t c0 L E0).
    destruct (C96_documents_read_partial _ _ T) as (j' & -> & _ & A). cbn [bind].
    inversion A as [ | | | |l l' AS| ]; subst. apply alikes_strings in AS. subst l'.
    cbn [children]. rewrite auth_add_strings. unfold ac_build.
    destruct (ezac_adds ezac_init keys) as [c| |]; cbn [bind]; [|reflexivity|reflexivity].
    destruct (ezac_compiler c); reflexivity. }
  split; [exact E|]. intros rc c H. rewrite E in H.
  apply bind_ok in H as (c1 & H1 & H2). injection H2 as <- <-. split; [reflexivity|].
  intros k Hk NE. exact (C21_registered_key_accepted keys c1 k H1 Hk NE).
Qed.
Print Assumptions C100_listed_keys_registered_partial.

(** the file that comes with the program *)
Definition auth_text : list Z := [91; 10; 9; 34] ++ str "auth_for_tanx" ++ [34; 10; 93; 10].
Lemma auth_text_ok : text_of (JArr (map JStr [str "auth_for_tanx"])) auth_text.
Proof.
  change auth_text with ([] ++ [] ++ ([91] ++ ([10; 9] ++ ([34] ++ str "auth_for_tanx" ++ [34]) ++ [10]) ++ [93]) ++ [10]).
  apply text_intro; [left; reflexivity|constructor| |repeat constructor; lia].
  apply d_arr; [lia|]. apply ds_one; [repeat constructor; lia| |repeat constructor; lia].
  apply d_str with (s := str "auth_for_tanx").
  - let v := eval vm_compute in (str "auth_for_tanx") in change (str "auth_for_tanx") with v.
    repeat (apply ch_raw; [lia|lia|lia|]). apply ch_nil.
  - apply cstr_all. intros H; vm_compute in H; intuition discriminate.
Qed.
Example C100_example : text_of (JArr (map JStr [str "auth_for_tanx"])) auth_text /\ zlen auth_text < 4096 /\
  exists c, auth_init (Some auth_text) = Ok (0, c).
Proof.
  split; [exact auth_text_ok|]. split; [reflexivity|].
  rewrite (proj1 (C100_listed_keys_registered_partial _ _ auth_text_ok eq_refl)).
  eexists. vm_compute. reflexivity.
Qed.

(** missing: files of 4096 bytes and more. The buffer then holds no NUL: it is read beyond
    its end. *)
Theorem C100_listed_keys_registered_refuted : forall t, 4096 <= zlen t -> ~ In 0 t ->
  auth_init (Some t) = Fault FOverread.
Proof.
  intros t L N. unfold auth_init, auth_fread.
  assert (zlen (ztake AUTH_FILE_MAX t) = 4096) as E.
  { rewrite zlen_ztake by (rewrite file_max; lia). rewrite file_max. lia. }
  rewrite E, file_max. change (zrepeat 0 (4096 - 4096)) with (@nil Z). rewrite app_nil_r.
  unfold auth_fparse. replace (existsb (Z.eqb 0) (ztake 4096 t)) with false; [reflexivity|].
  symmetry. apply not_true_is_false. intros H. apply existsb_exists in H as (x & I & H).
  apply N. assert (x = 0) as -> by lia. unfold ztake in I. rewrite <- (firstn_skipn (Z.to_nat 4096) t).
  apply in_app_iff. left. exact I.
Qed.
Print Assumptions C100_listed_keys_registered_refuted.
(** such a file with 300 proper keys *)
Definition many (n : nat) : list Z := str "[" ++ concat (repeat (str """key-of-member"",") n) ++ str """last""]".
Example C100_refuted_example : 4096 <= zlen (many 300) /\ ~ In 0 (many 300) /\
  auth_init (Some (many 300)) = Fault FOverread.
Proof.
  assert (4096 <= zlen (many 300)) as A by (vm_compute; discriminate).
  assert (~ In 0 (many 300)) as B.
  { intros H. assert (existsb (Z.eqb 0) (many 300) = true) as E by (apply existsb_exists; exists 0; split; [exact H|reflexivity]).
    vm_compute in E. discriminate E. }
  split; [exact A|]. split; [exact B|]. apply C100_listed_keys_registered_refuted; assumption.
Qed.

(** ** C101: a key file that cannot be used is reported.
    A missing file is; a damaged one is not: the server starts and refuses everybody. *)
Theorem C101_missing_reported_partial : forall c rc, auth_init None = Ok (rc, c) -> rc = -1.
Proof. intros c rc H. cbn in H. injection H as <- _. reflexivity. Qed.
Print Assumptions C101_missing_reported_partial.

Theorem C101_broken_file_reported_refuted : forall keys t a b,
  text_of (JArr (map JStr keys)) t -> zlen t < 4096 -> t = a ++ b -> (exists c, In c b /\ ~ ws [c]) ->
  exists c, auth_init (Some a) = Ok (0, c) /\
    forall x ok c', ezac_find c x = Ok (ok, c') -> ok = false.
Proof.
  intros keys t a b T L E C.
  destruct empty_compiles as (c0 & E0). exists c0. split.
  - rewrite (auth_init_text a c0); [|rewrite E, zlen_app in L; pose proof (zlen_nonneg b); lia|exact E0].
    rewrite (C97_truncation_detected _ t a b T (or_introl (ex_intro _ _ eq_refl)) E C). cbn [bind].
    rewrite E0. reflexivity.
  - intros x ok c' H. unfold ezac_find in H. apply bind_ok in H as (r & H1 & H2). injection H2 as <- _.
    vm_compute in E0. injection E0 as <-. cbn [ac_nodes ac_cur] in H1.
    revert r H1. induction x as [|y x IH]; intros r H1; cbn [find_walk] in H1.
    + injection H1 as <-. reflexivity.
    + cbn [nth_error of_opt bind n_arr n_fail lookup] in H1. exact (IH r H1).
Qed.
Print Assumptions C101_broken_file_reported_refuted.
(** the last two bytes are missing *)
Example C101_refuted_example : exists a b, auth_text = a ++ b /\ (exists c, In c b /\ ~ ws [c]) /\ zlen b = 2 /\
  exists c, auth_init (Some a) = Ok (0, c).
Proof.
  exists (ztake (zlen auth_text - 2) auth_text), (zdrop (zlen auth_text - 2) auth_text).
  assert (auth_text = ztake (zlen auth_text - 2) auth_text ++ zdrop (zlen auth_text - 2) auth_text) as E by (vm_compute; reflexivity).
  assert (exists c, In c (zdrop (zlen auth_text - 2) auth_text) /\ ~ ws [c]) as C.
  { exists 93. split; [vm_compute; tauto|]. intros H. inversion H; subst. lia. }
  split; [exact E|]. split; [exact C|]. split; [vm_compute; reflexivity|].
  destruct (C101_broken_file_reported_refuted _ _ _ _ auth_text_ok eq_refl E C) as (c & H & _). exists c. exact H.
Qed.

(** an entry that is no string: NULL is read *)
Theorem C101_refuted_entry : exists t j l, text_of j t /\ j = JArr l /\ auth_init (Some t) = Fault FNull.
Proof.
  exists (str "[null]"), (JArr [JNull]), [JNull]. split; [|split; [reflexivity|vm_compute; reflexivity]].
  change (str "[null]") with ([] ++ [] ++ ([91] ++ ([] ++ str "null" ++ []) ++ [93]) ++ []).
  apply text_intro; [left; reflexivity|constructor| |constructor].
  apply d_arr; [lia|]. apply ds_one; [constructor|apply d_null|constructor].
Qed.
Print Assumptions C101_refuted_entry.
