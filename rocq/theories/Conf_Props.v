(** * Configuration, listeners and log records: C72-C76 *)
From Coq Require Import String.
From Verif Require Import Base Str_Spec Conf_Model.
Local Arguments Z.add : simpl never.
Local Arguments Z.sub : simpl never.
Local Arguments Z.mul : simpl never.
Local Arguments zlen : simpl never.

(** ** C72. What a document says, member by member *)
(** the first member of an object whose name is [k] up to the case of ASCII letters *)
Definition fold_case (s : list Z) : list Z := map (fun b => if (65 <=? b) && (b <=? 90) then b + 32 else b) s.
Definition member (d : json) (k : string) : option json :=
  match d with
  | JObj l => option_map snd (find (fun nv => bseq (fold_case (fst nv)) (fold_case (str k))) l)
  | _ => None
  end.

Lemma same_key_spec : forall a b, same_key a b = bseq (fold_case b) (fold_case a).
Proof.
  induction a as [|x a IH]; intros [|y b]; auto. cbn [same_key fold_case map bseq]. rewrite IH.
  unfold lower. f_equal. apply Z.eqb_sym.
Qed.
Lemma member_get d k : member d k = get_item d (str k).
Proof.
  destruct d; auto. simpl. induction l as [|[n v] l IH]; auto. cbn [find find_key fst].
  rewrite same_key_spec. destruct (bseq (fold_case n) (fold_case (str k))); auto.
Qed.

(** an integer member of a document, with a default *)
Definition num_of (d : json) (k : string) (dflt : Z) (v : Z) : Prop :=
  match member d k with
  | None => v = dflt
  | Some (JNum n) => v = n
  | Some (JBool b) => v = if b then 1 else 0
  | Some _ => v = 0
  end.
Definition str_of (d : json) (k : string) (v : list Z) : Prop :=
  match member d k with
  | None => v = []
  | Some (JStr s) => v = s
  | Some _ => False
  end.
Definition ports_of (d : json) (k : string) (v : list Z) : Prop :=
  match member d k with
  | None => v = []
  | Some (JArr l) => l = map JNum v
  | Some _ => False
  end.

(** a document that keeps the limits *)
Definition int_ok (d : json) (k : string) : Prop :=
  match member d k with Some (JNum n) => INT_MIN <= n <= INT_MAX | _ => True end.
Definition port_ok (d : json) (k : string) : Prop :=
  match member d k with None => True | Some (JNum n) => 0 <= n < 65536 | Some _ => False end.
Definition strmax (d : json) (k : string) (m : Z) : Prop :=
  match member d k with None => True | Some (JStr s) => zlen s <= m | Some _ => False end.
Definition ports_ok (d : json) (k : string) : Prop :=
  match member d k with
  | None => True
  | Some (JArr l) => zlen l <= 64 /\ Forall (fun j => exists n, j = JNum n /\ 0 <= n < 65536) l
  | Some _ => False
  end.
Record within (d : json) : Prop := Within {
  w_d : int_ok d "sys_daemon"; w_p : int_ok d "sys_process"; w_l : int_ok d "sys_log_level";
  w_m : int_ok d "s5_mode";
  w_sp : port_ok d "s5_serv_port"; w_lp : port_ok d "s5_local_port"; w_lsp : port_ok d "s5_local_serv_port";
  w_crt : strmax d "ssl_crt_path" 256; w_key : strmax d "ssl_key_path" 256;
  w_auth : strmax d "s5_serv_auth_path" 256; w_gw : strmax d "s5_serv_gw" 31;
  w_ip : strmax d "s5_local_serv_ip" 16; w_la : strmax d "s5_local_auth" 32;
  w_home : strmax d "http_home" 256; w_index : strmax d "http_index" 256;
  w_http : ports_ok d "http_arr"; w_https : ports_ok d "https_arr" }.

(** the record says what the document says *)
Record says (d : json) (c : conf) : Prop := Says {
  s_d : num_of d "sys_daemon" 0 (sys_daemon c); s_p : num_of d "sys_process" 0 (sys_process_num c);
  s_l : num_of d "sys_log_level" 255 (sys_log_level c); s_m : num_of d "s5_mode" 0 (s5_mode c);
  s_sp : num_of d "s5_serv_port" 0 (s5_serv_port c); s_lp : num_of d "s5_local_port" 0 (s5_local_port c);
  s_lsp : num_of d "s5_local_serv_port" 0 (s5_local_serv_port c);
  s_crt : str_of d "ssl_crt_path" (ssl_crt_path c); s_key : str_of d "ssl_key_path" (ssl_key_path c);
  s_auth : str_of d "s5_serv_auth_path" (s5_serv_auth_path c); s_gw : str_of d "s5_serv_gw" (s5_serv_gw c);
  s_ip : str_of d "s5_local_serv_ip" (s5_local_serv_ip c); s_la : str_of d "s5_local_auth" (s5_local_auth c);
  s_home : str_of d "http_home" (http_home c); s_index : str_of d "http_index" (http_index c);
  s_http : ports_of d "http_arr" (ztake (http_num c) (http_arr c));
  s_https : ports_of d "https_arr" (ztake (https_num c) (https_arr c));
  s_len : zlen (http_arr c) = 64 /\ zlen (https_arr c) = 64 /\
          0 <= http_num c <= 64 /\ 0 <= https_num c <= 64 }.

Lemma opt_int_ok d k dflt : int_ok d k -> num_of d k dflt (opt_int d k dflt).
Proof.
  unfold int_ok, num_of, opt_int. rewrite member_get. destruct (get_item d (str k)) as [[]|]; auto; simpl.
  unfold INT_MIN, INT_MAX. intros H. lia.
Qed.

Lemma opt_port_ok d k dflt : port_ok d k -> num_of d k dflt (opt_port d k dflt).
Proof.
  unfold port_ok, num_of, opt_port. rewrite member_get. destruct (get_item d (str k)) as [[]|]; auto; simpl; try tauto.
  unfold INT_MIN, INT_MAX. intros H.
  replace (Z.max (-2147483648) (Z.min 2147483647 v)) with v by lia. apply Z.mod_small. lia.
Qed.

Lemma opt_str_ok d k m : 0 <= m -> strmax d k m -> exists v, opt_str d k m [] = Ok v /\ str_of d k v.
Proof.
  intros Hm. unfold strmax, str_of, opt_str. rewrite member_get. destruct (get_item d (str k)) as [[]|]; try tauto; simpl; eauto.
  intros H. rewrite ztake_all by lia. eauto.
Qed.

Lemma fill_ok l : forall arr i, 0 <= i -> i + zlen l <= zlen arr ->
  Forall (fun j => exists n, j = JNum n /\ 0 <= n < 65536) l ->
  exists a, fill arr i l = Ok a /\ zlen a = zlen arr /\ ztake i a = ztake i arr /\
    map JNum (ztake (zlen l) (zdrop i a)) = l.
Proof.
  induction l as [|j l IH]; intros arr i Hi Hl F; simpl.
  - exists arr. repeat split; auto.
  - rewrite zlen_cons in Hl. pose proof (zlen_nonneg l). inversion F as [|? ? (n & -> & Hn) F']; subst.
    assert (valueint (JNum n) mod 65536 = n) as ->.
    { simpl. unfold INT_MIN, INT_MAX.
      replace (Z.max (-2147483648) (Z.min 2147483647 n)) with n by lia. apply Z.mod_small. lia. }
    assert (exists a, zput arr i [n] = Some a) as [a Ha].
    { eexists. apply zput_ok; rewrite ?zlen_cons, ?zlen_nil; lia. }
    rewrite Ha. pose proof (zput_len _ _ _ _ Ha) as La.
    destruct (IH a (i + 1)) as (b & Eb & Lb & Tb & Mb); [lia|lia|auto|].
    apply zput_some in Ha as (_ & _ & Ha).
    exists b. split; auto. split; [lia|].
    assert (T2 : ztake i b = ztake i arr).
    { transitivity (ztake i (ztake (i + 1) b)).
      - rewrite ztake_ztake by lia. f_equal. lia.
      - rewrite Tb, ztake_ztake by lia. replace (Z.min i (i+1)) with i by lia.
        rewrite Ha, ztake_app_l by (rewrite zlen_ztake; lia). rewrite ztake_ztake by lia. f_equal. lia. }
    split; auto.
    assert (D : zdrop i b = n :: zdrop (i + 1) b).
    { assert (G : zget b i = Some n).
      { assert (zget (ztake (i + 1) b) i = Some n).
        - rewrite Tb, zget_ztake by lia. rewrite Ha, zget_app_r by (rewrite zlen_ztake; lia).
          rewrite zlen_ztake by lia. replace (i - Z.min i (zlen arr)) with 0 by lia. reflexivity.
        - rewrite zget_ztake in H0 by lia. exact H0. }
      apply zdrop_cons_get; auto. }
    rewrite D. rewrite zlen_cons, ztake_cons by lia. simpl. f_equal.
    replace (1 + zlen l - 1) with (zlen l) by lia. exact Mb.
Qed.

Lemma opt_arr_ok d k : ports_ok d k ->
  exists a, opt_arr d k (zrepeat 0 OPEN_PORT_MAX) = Ok a /\ zlen a = 64 /\
    ports_of d k (ztake (arr_size d k) a) /\ 0 <= arr_size d k <= 64.
Proof.
  unfold ports_ok, ports_of, opt_arr, arr_size, OPEN_PORT_MAX. rewrite member_get.
  destruct (get_item d (str k)) as [[]|]; try tauto; intros H.
  - destruct H as [L F]. simpl.
    assert (L0 : zlen (zrepeat 0 64) = 64) by reflexivity.
    destruct (fill_ok l (zrepeat 0 64) 0) as (a & Ea & La & _ & Ma); [lia|lia|auto|].
    exists a. rewrite zdrop_le0 in Ma by lia.
    pose proof (zlen_nonneg l). repeat split; auto; lia.
  - exists (zrepeat 0 64). split; [reflexivity|]. split; [reflexivity|]. split; [reflexivity|lia].
Qed.

(** a document inside the limits is taken over as it is, without a fault *)
Theorem C72_partial : forall d, within d ->
  exists c, config_take conf0 d = Ok c /\ says d c.
Proof.
  intros d W. destruct W. unfold config_take.
  destruct (opt_str_ok d "ssl_crt_path" FILEPATH ltac:(discriminate) w_crt0) as (v1 & E1 & S1).
  destruct (opt_str_ok d "ssl_key_path" FILEPATH ltac:(discriminate) w_key0) as (v2 & E2 & S2).
  destruct (opt_str_ok d "s5_serv_auth_path" FILEPATH ltac:(discriminate) w_auth0) as (v3 & E3 & S3).
  destruct (opt_str_ok d "s5_serv_gw" 31 ltac:(discriminate) w_gw0) as (v4 & E4 & S4).
  destruct (opt_str_ok d "s5_local_serv_ip" IPV4 ltac:(discriminate) w_ip0) as (v5 & E5 & S5).
  destruct (opt_str_ok d "s5_local_auth" 32 ltac:(discriminate) w_la0) as (v6 & E6 & S6).
  destruct (opt_str_ok d "http_home" FILEPATH ltac:(discriminate) w_home0) as (v7 & E7 & S7).
  destruct (opt_str_ok d "http_index" FILEPATH ltac:(discriminate) w_index0) as (v8 & E8 & S8).
  destruct (opt_arr_ok d "http_arr" w_http0) as (a1 & A1 & L1 & P1 & B1).
  destruct (opt_arr_ok d "https_arr" w_https0) as (a2 & A2 & L2 & P2 & B2).
  unfold conf0; cbn [ssl_crt_path ssl_key_path s5_serv_auth_path s5_serv_gw s5_local_serv_ip s5_local_auth
    http_arr https_arr http_home http_index sys_daemon sys_process_num sys_log_level s5_mode s5_serv_port
    s5_local_port s5_local_serv_port].
  rewrite E1, E2, E3, E4, E5, E6, A1, A2, E7, E8. cbn [bind].
  eexists. split; [reflexivity|].
  constructor; cbn [ssl_crt_path ssl_key_path s5_serv_auth_path s5_serv_gw s5_local_serv_ip s5_local_auth
    http_arr https_arr http_home http_index sys_daemon sys_process_num sys_log_level s5_mode s5_serv_port
    s5_local_port s5_local_serv_port http_num https_num]; auto using opt_int_ok, opt_port_ok.
Qed.
Print Assumptions C72_partial.

(** the client configuration shipped with the program (env/config/config.json.client) *)
Definition client_doc : json := JObj
  [(str "sys_daemon", JBool true); (str "sys_process", JNum 2); (str "sys_log_level", JNum 0);
   (str "ssl_crt_path", JStr (str "/usr/local/s5/certificate/2048.crt"));
   (str "ssl_key_path", JStr (str "/usr/local/s5/certificate/2048.key"));
   (str "s5_mode", JNum 1); (str "s5_local_port", JNum 1080); (str "s5_local_serv_port", JNum 12345);
   (str "s5_local_serv_ip", JStr (str "0.0.0.0")); (str "s5_local_auth", JStr (str "authkey"));
   (str "http_arr", JArr [JNum 80]); (str "https_arr", JArr [JNum 443]);
   (str "http_home", JStr (str "/usr/local/s5/www")); (str "http_index", JStr (str "index.html"))].
Example C72_example : within client_doc.
Proof.
  constructor; unfold int_ok, port_ok, strmax, ports_ok;
    match goal with |- context [member ?d ?k] =>
      let r := eval vm_compute in (member d k) in change (member d k) with r end; cbv iota;
    try exact Logic.I; try (vm_compute; discriminate); try (unfold INT_MIN, INT_MAX; lia);
    (split; [vm_compute; discriminate|]; repeat constructor; eexists; split; [reflexivity|lia]).
Qed.

(** 65 ports: the 65th is written behind the array *)
Theorem C72_refuted : exists d, config_take conf0 d = Fault FOob /\
  exists l, member d "http_arr" = Some (JArr l) /\ zlen l = 65 /\ Forall (fun j => exists n, j = JNum n /\ 0 <= n < 65536) l.
Proof.
  exists (JObj [(str "http_arr", JArr (zrepeat (JNum 80) 65))]). split; [vm_compute; reflexivity|].
  eexists. split; [reflexivity|]. split; [reflexivity|].
  apply Forall_forall. intros j Hj. apply repeat_spec in Hj. exists 80. split; auto. lia.
Qed.
Print Assumptions C72_refuted.

(** every longer list does the same *)
Theorem C72_refuted_any : forall l d, member d "http_arr" = Some (JArr l) -> zlen l > 64 ->
  forall arr, zlen arr = 64 -> opt_arr d "http_arr" arr = Fault FOob.
Proof.
  intros l d E L arr La. unfold opt_arr. rewrite <- member_get, E. simpl.
  assert (G : forall l arr i, 0 <= i <= zlen arr -> i + zlen l > zlen arr -> fill arr i l = Fault FOob).
  { clear. induction l as [|j l IH]; intros arr i Hi H; simpl.
    - rewrite zlen_nil in H. lia.
    - rewrite zlen_cons in H. destruct (Z.eq_dec i (zlen arr)).
      + assert (zput arr i [valueint j mod 65536] = None) as ->; auto.
        destruct (zput arr i [valueint j mod 65536]) as [a|] eqn:P; auto.
        apply zput_some in P as (_ & P & _). change (zlen [valueint j mod 65536]) with 1 in P. lia.
      + assert (exists a, zput arr i [valueint j mod 65536] = Some a) as [a Ha].
        { eexists. apply zput_ok; rewrite ?zlen_cons, ?zlen_nil; lia. }
        rewrite Ha. pose proof (zput_len _ _ _ _ Ha). apply IH; lia. }
  apply G; lia.
Qed.
Print Assumptions C72_refuted_any.

(** a port above 65535 is silently replaced by another one *)
Theorem C72_refuted_port : exists d c, config_take conf0 d = Ok c /\
  member d "s5_local_port" = Some (JNum 70000) /\ s5_local_port c = 4464.
Proof. exists (JObj [(str "s5_local_port", JNum 70000)]). eexists. vm_compute. auto. Qed.
Print Assumptions C72_refuted_port.

(** a number where a string is expected: NULL is dereferenced *)
Theorem C72_refuted_type : exists d, config_take conf0 d = Fault FNull /\
  member d "http_home" = Some (JNum 1).
Proof. exists (JObj [(str "http_home", JNum 1)]). split; vm_compute; reflexivity. Qed.
Print Assumptions C72_refuted_type.

(** ** C73: an unreadable or malformed configuration is not reported: whatever the
    parser and the state of the file, start-up goes on with the built-in defaults, no
    listener and a zero exit status *)
Theorem C73_refuted : forall parse f oks,
  (f = NoFile \/ f = NoOpen \/ exists b, f = Bytes b /\ parse b = None) ->
  startup parse f oks = Ok (0, []).
Proof.
  intros parse f oks H. unfold startup.
  assert (config_init parse f = Ok (0, conf0)) as ->.
  { destruct H as [->|[->|(b & -> & E)]]; simpl; try rewrite E; reflexivity. }
  reflexivity.
Qed.
Print Assumptions C73_refuted.
Example C73_example : startup (fun _ => None) (Bytes (str "{ broken")) [] = Ok (0, []).
Proof. apply C73_refuted. right. right. eexists. split; reflexivity. Qed.

(** ** C74. The ports a configuration asks for *)
Definition wanted (c : conf) : list (Z * lkind) :=
  (if s5_mode c =? 1 then [(s5_local_port c, LTunC)] else
   if s5_mode c =? 2 then [(s5_serv_port c, LTunS)] else []) ++
  map (fun p => (p, LHttp)) (ztake (http_num c) (http_arr c)) ++
  map (fun p => (p, LHttps)) (ztake (https_num c) (https_arr c)).

Definition sane (c : conf) : Prop :=
  0 <= http_num c <= zlen (http_arr c) /\ 0 <= https_num c <= zlen (https_arr c).

Definition mk (x : Z * lkind) : lslot := Lslot (fst x) (snd x) false.
Definition is_open (t : list lslot) (x : Z * lkind) : Prop :=
  In (Lslot (fst x) (snd x) true) t.

Lemma add_ports_spec n : forall t arr i k, 0 <= i -> i + Z.of_nat n <= zlen arr ->
  add_ports t arr i n k =
  Ok (t ++ ztake (NSLOT - zlen t) (map (fun p => mk (p, k)) (ztake (Z.of_nat n) (zdrop i arr)))).
Proof.
  induction n; intros t arr i k Hi Hn; cbn [add_ports].
  - rewrite (ztake_le0 (Z.of_nat 0)) by lia. simpl.
    destruct (Z_le_gt_dec (NSLOT - zlen t) 0); [rewrite ztake_le0 by lia|rewrite ztake_all by (rewrite zlen_nil; lia)];
    rewrite app_nil_r; reflexivity.
  - destruct (zget_in_range arr i) as [p Hp]; [lia|]. rewrite Hp.
    rewrite IHn by lia. f_equal.
    rewrite (zdrop_cons_get arr i p) by auto.
    rewrite ztake_cons by lia. replace (Z.of_nat (Datatypes.S n) - 1) with (Z.of_nat n) by lia.
    cbn [map]. unfold listen_add. destruct (Z.ltb_spec (zlen t) NSLOT) as [L|L]; cbn [fst].
    + rewrite <- app_assoc. rewrite zlen_app, zlen_cons, zlen_nil.
      rewrite (ztake_cons (NSLOT - zlen t)) by lia. simpl.
      replace (NSLOT - (zlen t + (1 + 0))) with (NSLOT - zlen t - 1) by lia. reflexivity.
    + rewrite !ztake_le0 by lia. reflexivity.
Qed.

Lemma listen_start_spec t : forall oks,
  (exists a s r, t = a ++ s :: r /\ zget oks (zlen a) = Some false /\ snd (listen_start t oks) = -1) \/
  (snd (listen_start t oks) = 0 /\
   fst (listen_start t oks) = map (fun s => Lslot (lport s) (lkind_ s) true) t).
Proof.
  induction t as [|s t IH]; intros oks; cbn [listen_start].
  - right. split; reflexivity.
  - destruct oks as [|[] oks]; cbn [tl].
    + destruct (IH []) as [(a & s' & r & -> & A & B)|[A B]].
      * exfalso. apply zget_some_range in A. change (zlen (@nil bool)) with 0 in A. lia.
      * right. destruct (listen_start t []) as [t' rc]. simpl in *. subst. split; reflexivity.
    + destruct (IH oks) as [(a & s' & r & -> & A & B)|[A B]].
      * left. exists (s :: a), s', r. split; [reflexivity|]. split.
        -- rewrite zlen_cons, zget_cons; [|pose proof (zlen_nonneg a); lia].
           replace (1 + zlen a - 1) with (zlen a) by lia. exact A.
        -- destruct (listen_start (a ++ s' :: r) oks). exact B.
      * right. destruct (listen_start t oks) as [t' rc]. simpl in *. subst. split; reflexivity.
    + left. exists [], s, t. repeat split; auto.
Qed.

Lemma listen_table c : sane c ->
  exists t, t = map mk (ztake NSLOT (wanted c)) /\
    forall oks, listen_init c oks = Ok (listen_start t oks).
Proof.
  intros [H1 H2]. eexists. split; [reflexivity|]. intros oks. unfold listen_init.
  set (t0 := if s5_mode c =? 1 then fst (listen_add [] (s5_local_port c) LTunC)
            else if s5_mode c =? 2 then fst (listen_add [] (s5_serv_port c) LTunS) else []).
  set (w0 := if s5_mode c =? 1 then [(s5_local_port c, LTunC)] else
   if s5_mode c =? 2 then [(s5_serv_port c, LTunS)] else []).
  assert (T0 : t0 = map mk w0 /\ zlen w0 <= 1).
  { subst t0 w0. destruct (s5_mode c =? 1); [split; [reflexivity|vm_compute; discriminate]|].
    destruct (s5_mode c =? 2); (split; [reflexivity|vm_compute; discriminate]). }
  destruct T0 as [T0 L0].
  rewrite add_ports_spec by lia. cbn [bind]. rewrite add_ports_spec by lia. cbn [bind].
  do 2 f_equal. unfold wanted. fold w0. rewrite !zdrop_le0 by lia. rewrite !Z2Nat.id by lia.
  rewrite T0. rewrite zlen_map.
  set (a := map (fun p => mk (p, LHttp)) (ztake (http_num c) (http_arr c))).
  set (b := map (fun p => mk (p, LHttps)) (ztake (https_num c) (https_arr c))).
  assert (M : map mk (w0 ++ map (fun p => (p, LHttp)) (ztake (http_num c) (http_arr c)) ++
                 map (fun p => (p, LHttps)) (ztake (https_num c) (https_arr c))) = map mk w0 ++ a ++ b).
  { rewrite !map_app, !map_map. reflexivity. }
  assert (TM : forall A B (f : A -> B) n l, map f (ztake n l) = ztake n (map f l)).
  { intros. unfold ztake. symmetry. apply firstn_map. }
  rewrite TM, M. pose proof (zlen_nonneg w0). pose proof (zlen_nonneg a).
  assert (zlen (map mk w0) = zlen w0) as LM by apply zlen_map.
  unfold NSLOT in *.
  rewrite (ztake_app_r 8 (map mk w0)) by lia. rewrite LM.
  rewrite zlen_app, LM, zlen_ztake by lia.
  rewrite <- app_assoc. f_equal.
  destruct (Z_le_gt_dec (zlen a) (8 - zlen w0)) as [C|C].
  - rewrite (ztake_all (8 - zlen w0) a) by lia. rewrite (ztake_app_r (8 - zlen w0)) by lia.
    f_equal. f_equal. lia.
  - rewrite (ztake_app_l (8 - zlen w0) a) by lia.
    rewrite (ztake_le0 (8 - (zlen w0 + Z.min (8 - zlen w0) (zlen a)))) by lia. apply app_nil_r.
Qed.

(** at most eight ports: each is open after start-up, or start-up reports a failure and
    some socket operation did fail *)
Theorem C74_partial : forall c oks, sane c -> zlen (wanted c) <= 8 ->
  exists t rc, listen_init c oks = Ok (t, rc) /\
    ((rc = 0 /\ forall x, In x (wanted c) -> is_open t x) \/ (rc = -1 /\ In false oks)).
Proof.
  intros c oks S L. destruct (listen_table c S) as (t & Et & H). rewrite H.
  destruct (listen_start t oks) as [t' rc] eqn:E. exists t', rc. split; auto.
  destruct (listen_start_spec t oks) as [(a & s & r & _ & A & B)|[A B]]; rewrite E in *; simpl in *; subst.
  - right. split; auto. eapply zget_In; eauto.
  - left. split; auto. intros x Hx. unfold is_open. rewrite ztake_all by (unfold NSLOT; lia).
    rewrite map_map. apply in_map_iff. exists x. split; auto.
Qed.
Print Assumptions C74_partial.

(** nine ports: start-up succeeds, the ninth is not listened on *)
Definition nine : conf :=
  Conf 0 0 255 [] [] 0 0 [] [] 0 0 [] [] 9 0 ([81;82;83;84;85;86;87;88;89] ++ zrepeat 0 55) (zrepeat 0 64) [] [].
Theorem C74_refuted : exists c oks t, sane c /\ listen_init c oks = Ok (t, 0) /\ ~ In false oks /\
  exists x, In x (wanted c) /\ ~ is_open t x.
Proof.
  exists nine, []. eexists. split; [split; vm_compute; split; discriminate|].
  split; [vm_compute; reflexivity|]. split; [intros []|].
  exists (89, LHttp). split; [vm_compute; tauto|].
  intros H. unfold is_open in H. simpl in H. repeat (destruct H as [H|H]; [discriminate|]). exact H.
Qed.
Print Assumptions C74_refuted.

(** whatever the configuration: no more than the first eight are opened, and this is
    never reported *)
Theorem C74_exact : forall c, sane c -> zlen (wanted c) > 8 ->
  exists t, listen_init c [] = Ok (t, 0) /\ zlen t = 8 /\
    forall x, In x (ztake 8 (wanted c)) <-> is_open t x.
Proof.
  intros c S L. destruct (listen_table c S) as (t & Et & H). rewrite H.
  destruct (listen_start_spec t []) as [(a & s & r & -> & A & B)|[A B]].
  - apply zget_some_range in A. change (zlen (@nil bool)) with 0 in A. lia.
  - destruct (listen_start t []) as [t' rc]. simpl in *. subst. exists (map (fun s => Lslot (lport s) (lkind_ s) true) (map mk (ztake NSLOT (wanted c)))).
    split; auto. split.
    + rewrite !zlen_map, zlen_ztake by (unfold NSLOT; lia). unfold NSLOT. lia.
    + intros x. unfold is_open. rewrite map_map. rewrite in_map_iff. split.
      * intros Hx. exists x. split; auto.
      * intros ([p k] & E & I). inversion E; subst. destruct x as [p' k']. simpl in *. subst. exact I.
Qed.
Print Assumptions C74_exact.
Example C74_example : sane nine /\ zlen (wanted nine) > 8.
Proof. split; [split; vm_compute; split; discriminate|reflexivity]. Qed.

Example C74_example2 : exists c, config_take conf0 client_doc = Ok c /\ sane c /\ zlen (wanted c) <= 8 /\
  wanted c = [(1080, LTunC); (80, LHttp); (443, LHttps)].
Proof.
  eexists. split; [vm_compute; reflexivity|]. split; [split; vm_compute; split; discriminate|].
  split; [vm_compute; discriminate|reflexivity].
Qed.

(** ** C75. The record of a message *)
(** the prefix of a record: label, time, place *)
Definition head_of (level : Z) (func_line : list Z) (p : list Z) : Prop :=
  exists lab, label level = Some lab /\ p = lab ++ func_line.

Lemma snprint_ok buf pos size s : 0 <= pos -> 0 < size -> pos + size <= zlen buf ->
  snprint buf pos size s =
  Ok (ztake pos buf ++ (ztake (Z.min (size - 1) (zlen s)) s ++ [0]) ++
      zdrop (pos + Z.min (size - 1) (zlen s) + 1) buf).
Proof.
  intros Hp Hs Hb. unfold snprint. destruct (Z.leb_spec size 0); [lia|].
  pose proof (zlen_nonneg s).
  assert (L : zlen (ztake (Z.min (size - 1) (zlen s)) s ++ [0]) = Z.min (size - 1) (zlen s) + 1).
  { rewrite zlen_app, zlen_ztake, zlen_cons, zlen_nil by lia. lia. }
  rewrite zput_ok by lia. rewrite L. unfold of_opt. do 3 f_equal. f_equal. lia.
Qed.

Theorem C75_exact : forall threshold level fl text p, head_of level fl p -> level <= threshold ->
  zlen p <= 510 ->
  (zlen p + zlen text <= 512 ->
     exists pad, log_print threshold level fl text = Ok (Some (ztake 510 (p ++ text) ++ pad)) /\
       zlen pad = Z.max 0 (zlen p + zlen text - 510) /\ Forall (fun b => b = 0) pad) /\
  (zlen p + zlen text > 512 -> log_print threshold level fl text = Fault FOverread).
Proof.
  intros threshold level fl text p (lab & Hl & Hp) Ht Lp.
  unfold log_print. destruct (Z.leb_spec level threshold); [|lia].
  rewrite Hl. cbn [of_opt bind]. rewrite <- Hp. unfold LOG_TEXT in *.
  pose proof (zlen_nonneg p) as Np. pose proof (zlen_nonneg text) as Nt.
  change (512 - 1) with 511.
  rewrite snprint_ok by (rewrite ?zlen_zrepeat; lia). cbn [bind].
  rewrite (Z.min_r (511 - 1)) by lia. rewrite (ztake_all (zlen p) p) by lia.
  rewrite ztake_le0 by lia. simpl app.
  set (b1 := (p ++ [0]) ++ zdrop (0 + zlen p + 1) (zrepeat 0 512)).
  assert (Lb : zlen b1 = 512).
  { subst b1. rewrite !zlen_app, zlen_cons, zlen_nil, zlen_zdrop, zlen_zrepeat by lia. lia. }
  replace ((512 - zlen p - 1) mod SIZE_MOD) with (511 - zlen p)
    by (rewrite Z.mod_small; unfold SIZE_MOD; lia).
  destruct (Z.leb_spec (zlen p + zlen text) 512) as [C|C].
  - split; [|lia]. intros _.
    assert (T : ztake (zlen p) b1 = p).
    { subst b1. rewrite ztake_app_l by (rewrite zlen_app, zlen_cons, zlen_nil; lia).
      rewrite ztake_app_l by lia. apply ztake_all. lia. }
    rewrite snprint_ok by lia. cbn [bind]. rewrite T.
    set (m := Z.min (511 - zlen p - 1) (zlen text)).
    set (tail := zdrop (zlen p + m + 1) b1).
    assert (Z0 : Forall (fun b => b = 0) ([0] ++ tail)).
    { apply Forall_app. split; [repeat constructor|]. subst tail b1.
      rewrite zdrop_app_r by (rewrite zlen_app, zlen_cons, zlen_nil; lia).
      apply Forall_forall. intros x Hx. unfold zdrop, zrepeat in Hx.
      assert (SK : forall (n : nat) (l : list Z) y, In y (skipn n l) -> In y l).
      { clear. induction n; intros l y; simpl; auto. destruct l; simpl; auto. }
      apply SK, SK in Hx. apply repeat_spec in Hx. auto. }
    assert (Lm : zlen (ztake m text) = m) by (rewrite zlen_ztake; lia).
    exists (ztake (zlen p + zlen text - (zlen p + m)) ([0] ++ tail)).
    split; [|split].
    + do 2 f_equal. rewrite <- app_assoc.
      rewrite ztake_app_r by lia. rewrite ztake_app_r by lia. rewrite Lm.
      rewrite app_assoc. f_equal.
      * rewrite ztake_app_r by lia. f_equal.
        destruct (Z_le_gt_dec (zlen text) (510 - zlen p)) as [D|D].
        -- rewrite (ztake_all (510 - zlen p)) by lia. apply ztake_all. lia.
        -- subst m. f_equal. lia.
      * f_equal. lia.
    + rewrite zlen_ztake, zlen_app, zlen_cons, zlen_nil by lia.
      assert (zlen tail = 512 - (zlen p + m + 1)) by (subst tail; rewrite zlen_zdrop by lia; lia).
      lia.
    + rewrite <- (ztake_zdrop (zlen p + zlen text - (zlen p + m)) ([0] ++ tail)) in Z0.
      apply Forall_app in Z0. tauto.
  - split; [lia|]. intros _. rewrite snprint_ok by lia. reflexivity.
Qed.
Print Assumptions C75_exact.

(** short messages are written in full, and nothing else is *)
Theorem C75_partial : forall threshold level fl text p, head_of level fl p -> level <= threshold ->
  zlen p + zlen text <= 510 -> log_print threshold level fl text = Ok (Some (p ++ text)).
Proof.
  intros threshold level fl text p H1 H2 H3.
  pose proof (zlen_nonneg text).
  destruct (C75_exact threshold level fl text p H1 H2 ltac:(lia)) as [A _].
  destruct A as (pad & -> & L & _); [lia|].
  rewrite (zlen_0_nil pad) by lia. rewrite app_nil_r, ztake_all; [reflexivity|rewrite zlen_app; lia].
Qed.
Print Assumptions C75_partial.

Definition fl0 : list Z := str " 2024.01.01 10:00:00 <main:12> ".
Example C75_example : head_of 0 fl0 (str "[error] 2024.01.01 10:00:00 <main:12> ") /\
  log_print 2 0 fl0 (str "bad") = Ok (Some (str "[error] 2024.01.01 10:00:00 <main:12> bad")).
Proof. split; [eexists; split; reflexivity|vm_compute; reflexivity]. Qed.

(** a message that does not fit: bytes behind the buffer are written to the log *)
Theorem C75_refuted : exists threshold level fl text p, head_of level fl p /\ level <= threshold /\
  zlen p = 38 /\ zlen text = 475 /\ log_print threshold level fl text = Fault FOverread.
Proof.
  exists 2, 0, fl0, (zrepeat 97 475), (str "[error] 2024.01.01 10:00:00 <main:12> ").
  repeat split; try reflexivity; [eexists; split; reflexivity|lia].
Qed.
Print Assumptions C75_refuted.

(** two bytes less than that: the end of the message is replaced by NULs *)
Theorem C75_refuted_nul : exists threshold level fl text p, head_of level fl p /\ level <= threshold /\
  ~ In 0 text /\ zlen p + zlen text = 512 /\
  log_print threshold level fl text = Ok (Some (p ++ ztake (zlen text - 2) text ++ [0; 0])).
Proof.
  exists 2, 0, fl0, (zrepeat 97 474), (str "[error] 2024.01.01 10:00:00 <main:12> ").
  split; [eexists; split; reflexivity|]. split; [lia|].
  split; [intros H; apply repeat_spec in H; lia|]. split; vm_compute; reflexivity.
Qed.
Print Assumptions C75_refuted_nul.

(** ** C76. Levels: 0 error, 1 info, 2 debug (log.h:11-16) *)
Definition name_of (level : Z) : list Z :=
  if level =? 0 then str "[error]" else if level =? 1 then str "[info]" else str "[debug]".

Theorem C76_partial : forall threshold level fl text, 0 <= level <= 2 ->
  (threshold < level -> log_print threshold level fl text = Ok None) /\
  (level <= threshold -> log_print threshold level fl text <> Ok None) /\
  (0 <= threshold -> zlen fl + zlen text <= 400 ->
     log_print threshold 0 fl text = Ok (Some (name_of 0 ++ fl ++ text))).
Proof.
  intros threshold level fl text Hl. unfold log_print at 1 2. split; [|split].
  - intros H. destruct (Z.leb_spec level threshold); [lia|reflexivity].
  - intros H. destruct (Z.leb_spec level threshold); [|lia].
    destruct (of_opt FOob (label level)); cbn [bind]; try discriminate.
    match goal with |- context [snprint ?a ?b ?c ?d] => destruct (snprint a b c d) end; cbn [bind]; try discriminate.
    match goal with |- context [snprint ?a ?b ?c ?d] => destruct (snprint a b c d) end; cbn [bind]; try discriminate.
    destruct (_ <=? _); discriminate.
  - intros H1 H2. pose proof (zlen_nonneg fl). pose proof (zlen_nonneg text).
    rewrite (C75_partial threshold 0 fl text (str "[error]" ++ fl)).
    + rewrite <- app_assoc. reflexivity.
    + eexists. split; reflexivity.
    + lia.
    + rewrite zlen_app. change (zlen (str "[error]")) with 7. lia.
Qed.
Print Assumptions C76_partial.
Example C76_example : log_print 1 2 fl0 (str "x") = Ok None /\ log_print 1 1 fl0 (str "x") <> Ok None.
Proof. split; [reflexivity|apply (C76_partial 1 1 fl0 (str "x")); lia]. Qed.

(** every informational record is labelled as debugging output and vice versa *)
Theorem C76_refuted : forall threshold fl text, zlen fl + zlen text <= 400 -> 2 <= threshold ->
  log_print threshold 1 fl text = Ok (Some (name_of 2 ++ fl ++ text)) /\
  log_print threshold 2 fl text = Ok (Some (name_of 1 ++ fl ++ text)).
Proof.
  intros threshold fl text H1 H2. pose proof (zlen_nonneg fl). pose proof (zlen_nonneg text). split.
  - rewrite (C75_partial threshold 1 fl text (str "[debug]" ++ fl)).
    + rewrite <- app_assoc. reflexivity.
    + eexists. split; reflexivity.
    + lia.
    + rewrite zlen_app. change (zlen (str "[debug]")) with 7. lia.
  - rewrite (C75_partial threshold 2 fl text (str "[info]" ++ fl)).
    + rewrite <- app_assoc. reflexivity.
    + eexists. split; reflexivity.
    + lia.
    + rewrite zlen_app. change (zlen (str "[info]")) with 6. lia.
Qed.
Print Assumptions C76_refuted.
Example C76_refuted_example : log_print 2 1 fl0 (str "hi") <> Ok (Some (name_of 1 ++ fl0 ++ str "hi")).
Proof. vm_compute. discriminate. Qed.
