(** * The configuration file is read completely: C115 *)
From Coq Require Import String.
From Verif Require Import Base Str_Spec Conf_Model Conf_Props Json_Props Read_Model.
Local Arguments Z.add : simpl never.
Local Arguments Z.sub : simpl never.

(** ** Specification *)

(** the text in a file: all of it, or what comes before the first NUL byte *)
Definition text_in (f t : list Z) : Prop :=
  ~ In 0 t /\ (f = t \/ exists x, f = t ++ 0 :: x).

(** the data the reads deliver until one of them fails or reports the end *)
Fixpoint data (l : list answer) : list Z :=
  match l with
  | RData d :: r => if zlen d <? 1 then [] else d ++ data r
  | _ => []
  end.

(** the property: a file that can be opened and does not change is read completely, in
    whatever pieces the system delivers it *)
Definition C115_property : Prop := forall f fd l, 0 <= fd -> data l = f ->
  exists t, read_config (World (Some (zlen f)) fd l) = Ok (Bytes t) /\ text_in f t.

(** ** The loop *)
Lemma prefix_nil {A} (l : list A) : prefix [] l.
Proof. exists l. reflexivity. Qed.
Lemma zdrop_zrepeat {A} (a : A) k n : 0 <= k <= n -> zdrop k (zrepeat a n) = zrepeat a (n - k).
Proof.
  intros H. unfold zdrop, zrepeat. replace (Z.to_nat n) with (Z.to_nat k + Z.to_nat (n - k))%nat by lia.
  rewrite repeat_app, skipn_app, repeat_length, Nat.sub_diag, skipn_all2; [reflexivity|rewrite repeat_length; lia].
Qed.
Lemma fread_spec fsz n : n = fsz + 1 -> forall l got, zlen got <= n ->
  exists more, prefix more (data l) /\ zlen (got ++ more) <= n /\
    (zlen (got ++ more) < fsz -> more = data l) /\
    fread fsz (zlen got) (got ++ zrepeat 0 (n - zlen got)) l = Ok ((got ++ more) ++ zrepeat 0 (n - zlen (got ++ more))).
Proof.
  intros N. induction l as [|a l IH]; intros got L; cbn [fread].
  - exists []. rewrite app_nil_r. split; [apply prefix_nil|]. split; [exact L|]. split; [reflexivity|].
    destruct (zlen got <? fsz); reflexivity.
  - destruct (Z.ltb_spec (zlen got) fsz) as [LT|GE].
    2:{ exists []. rewrite app_nil_r. split; [apply prefix_nil|]. split; [exact L|]. split; [lia|reflexivity]. }
    destruct a as [|d].
    { exists []. rewrite app_nil_r. split; [apply prefix_nil|]. split; [exact L|]. split; [reflexivity|reflexivity]. }
    cbv zeta. cbn [data]. pose proof (zlen_nonneg d). pose proof (zlen_nonneg got).
    set (d' := ztake (fsz + 1 - zlen got) d).
    assert (LD : zlen d' = Z.min (fsz + 1 - zlen got) (zlen d)) by (unfold d'; rewrite zlen_ztake; lia).
    destruct (Z.ltb_spec (zlen d') 1) as [L1|L1].
    + assert (zlen d < 1) by lia. destruct (Z.ltb_spec (zlen d) 1); [|lia].
      exists []. rewrite app_nil_r. split; [apply prefix_nil|]. split; [exact L|]. split; [reflexivity|reflexivity].
    + destruct (Z.ltb_spec (zlen d) 1); [lia|].
      assert (LZ : zlen (zrepeat 0 (n - zlen got)) = n - zlen got) by (apply zlen_zrepeat; lia).
      assert (LB : zlen (got ++ zrepeat 0 (n - zlen got)) = n) by (rewrite zlen_app; lia).
      rewrite zput_ok by lia. cbn [of_opt bind].
      assert (E : ztake (zlen got) (got ++ zrepeat 0 (n - zlen got)) ++ d' ++ zdrop (zlen got + zlen d') (got ++ zrepeat 0 (n - zlen got)) =
                  (got ++ d') ++ zrepeat 0 (n - zlen (got ++ d'))).
      { rewrite ztake_app_l, ztake_all by lia. rewrite <- app_assoc. do 2 f_equal.
        rewrite zdrop_app_r by lia. rewrite zlen_app.
        replace (zlen got + zlen d' - zlen got) with (zlen d') by lia.
        rewrite zdrop_zrepeat by lia. f_equal. lia. }
      rewrite E. rewrite <- (zlen_app got d').
      destruct (IH (got ++ d')) as (more & P & LM & A & F); [rewrite zlen_app; lia|].
      destruct (Z_lt_ge_dec (zlen d) (fsz + 1 - zlen got)) as [SH|LG].
      * assert (d' = d) as ED by (unfold d'; apply ztake_all; lia). rewrite ED in *.
        exists (d ++ more). rewrite !app_assoc. split; [destruct P as (x & ->); exists x; rewrite app_assoc; reflexivity|].
        split; [exact LM|]. split; [intros Q; rewrite (A Q); reflexivity|exact F].
      * exists d'. split.
        { exists (zdrop (fsz + 1 - zlen got) d ++ data l). unfold d'. rewrite app_assoc, ztake_zdrop. reflexivity. }
        rewrite zlen_app in *. split; [lia|]. split; [lia|]. rewrite F.
        assert (more = []) as -> by (apply zlen_0_nil; rewrite !zlen_app in LM; pose proof (zlen_nonneg more); lia).
        rewrite !app_nil_r, !zlen_app. reflexivity.
Qed.

Lemma ctext_spec : forall l t, ctext l = Ok t -> exists x, l = t ++ 0 :: x /\ ~ In 0 t.
Proof.
  induction l as [|b l IH]; intros t E; cbn [ctext] in E; [discriminate|].
  destruct (Z.eqb_spec b 0) as [->|NB].
  - injection E as <-. exists l. auto.
  - apply bind_ok in E as (t' & E & E2). injection E2 as <-. destruct (IH _ E) as (x & -> & N).
    exists x. split; [reflexivity|]. intros [K|K]; [congruence|exact (N K)].
Qed.
Lemma ctext_ok : forall l, In 0 l -> exists t, ctext l = Ok t.
Proof.
  induction l as [|b l IH]; intros H; [destruct H|]. cbn [ctext]. destruct (Z.eqb_spec b 0) as [->|NB]; [eauto|].
  destruct H as [H|H]; [congruence|]. destruct (IH H) as (t & ->). cbn [bind]. eauto.
Qed.
Lemma ctext_fault : forall l, ~ In 0 l -> ctext l = Fault FOverread.
Proof.
  induction l as [|b l IH]; intros H; [reflexivity|]. cbn [ctext]. destruct (Z.eqb_spec b 0) as [->|NB]; [destruct H; left; reflexivity|].
  rewrite IH; [reflexivity|]. intros K. apply H. right. exact K.
Qed.
Lemma text_in_zeros f t k : 0 <= k -> ctext (f ++ zrepeat 0 k) = Ok t -> text_in f t.
Proof.
  intros HK E. apply ctext_spec in E as (x & E & N). split; [exact N|].
  revert t E N. induction f as [|b f IH]; intros t E N.
  - left. destruct t as [|c t]; [reflexivity|]. exfalso. apply N. cbn [app] in E.
    assert (c = 0); [|subst c; left; reflexivity]. unfold zrepeat in E. destruct (Z.to_nat k); cbn in E; [discriminate|]. injection E. auto.
  - destruct t as [|c t]; cbn [app] in E.
    + injection E as -> _. right. exists f. reflexivity.
    + injection E as -> E. destruct (IH t E) as [->|(y & ->)]; [intros K; apply N; right; exact K|left; reflexivity|right; exists y; reflexivity].
Qed.

Lemma small_int x : 0 <= x < 2147483648 -> to_int x = x.
Proof. intros H. unfold to_int. lia. Qed.

(** everything the function does with a file of normal size *)
Lemma read_spec sz fd l : 0 <= sz < 2147483647 -> 0 < fd -> exists got,
  prefix got (data l) /\ zlen got <= sz + 1 /\ (zlen got < sz -> got = data l) /\
  read_config (World (Some sz) fd l) = let* t := ctext (got ++ zrepeat 0 (sz + 1 - zlen got)) in Ok (Bytes t).
Proof.
  intros H F. unfold read_config. cbn [st_size fd_ reads]. cbv zeta. rewrite (small_int sz), (small_int (sz + 1)) by lia.
  destruct (Z.leb_spec (sz + 1) 0); [lia|]. destruct (Z.leb_spec fd 0); [lia|].
  destruct (fread_spec sz (sz + 1) eq_refl l []) as (got & P & L & A & E); [rewrite zlen_nil; lia|].
  exists got. cbn [app] in *. rewrite zlen_nil, Z.sub_0_r in E. rewrite E. auto.
Qed.

(** ** C115 *)

(** a file below 2 GB whose descriptor is not 0 is read completely, however the reads cut
    it into pieces *)
Theorem C115_partial : forall f fd l, 0 < fd -> zlen f < 2147483647 -> data l = f ->
  exists t, read_config (World (Some (zlen f)) fd l) = Ok (Bytes t) /\ text_in f t.
Proof.
  intros f fd l F L D. pose proof (zlen_nonneg f).
  destruct (read_spec (zlen f) fd l) as (got & P & LG & A & E); [lia|exact F|]. rewrite D in *.
  assert (got = f) as ->.
  { destruct P as (x & P). destruct (Z_lt_ge_dec (zlen got) (zlen f)) as [LT|GE]; [apply A; exact LT|].
    rewrite P, zlen_app in GE. pose proof (zlen_nonneg x). assert (x = []) by (apply zlen_0_nil; lia). subst x. rewrite app_nil_r in P. auto. }
  destruct (ctext_ok (f ++ zrepeat 0 (zlen f + 1 - zlen f))) as (t & ET).
  { apply in_or_app. right. replace (zlen f + 1 - zlen f) with 1 by lia. left. reflexivity. }
  exists t. rewrite E, ET. split; [reflexivity|]. eapply text_in_zeros; [|exact ET]. lia.
Qed.
Print Assumptions C115_partial.

(** so what is in effect is what the file says (with C99) *)
Lemma text_in_all f t : text_in f t -> ~ In 0 f -> t = f.
Proof. intros (_ & [->|(x & ->)]) N; [reflexivity|]. destruct N. apply in_or_app. right. left. reflexivity. Qed.
Theorem C115_config_partial : forall j f fd l, 0 < fd -> zlen f < 2147483647 -> data l = f ->
  Json_Spec.text_ofN Json_Spec.integer j f -> ~ In 0 f -> within j ->
  exists c, load_config cjson (World (Some (zlen f)) fd l) = Ok (0, c) /\ says j c.
Proof.
  intros j f fd l F L D T N W. destruct (C115_partial f fd l F L D) as (t & E & TI).
  rewrite (text_in_all f t TI N) in E. unfold load_config. rewrite E. cbn [bind].
  apply (C99_plain_text_partial j f T W).
Qed.
Print Assumptions C115_config_partial.

(** a file that did not grow between stat and the reads is read within the buffer *)
Theorem C115_in_bounds_partial : forall sz fd l, 0 <= sz < 2147483647 -> zlen (data l) <= sz ->
  exists c, read_config (World (Some sz) fd l) = Ok c /\
    (c = NoOpen /\ fd <= 0 \/ exists t, c = Bytes t /\ text_in (data l) t).
Proof.
  intros sz fd l H LD. destruct (Z_lt_ge_dec 0 fd) as [F|F].
  - destruct (read_spec sz fd l) as (got & P & LG & A & E); [lia|exact F|]. 
    assert (got = data l) as ->.
    { destruct (Z_lt_ge_dec (zlen got) sz) as [LT|GE]; [apply A; exact LT|]. destruct P as (x & P).
      rewrite P in LD |- *. rewrite zlen_app in LD. pose proof (zlen_nonneg x). assert (x = []) by (apply zlen_0_nil; lia). subst x. rewrite app_nil_r. reflexivity. }
    destruct (ctext_ok (data l ++ zrepeat 0 (sz + 1 - zlen (data l)))) as (t & ET).
    { apply in_or_app. right. unfold zrepeat. destruct (Z.to_nat (sz + 1 - zlen (data l))) eqn:K; [lia|left; reflexivity]. }
    rewrite E, ET. eexists. split; [reflexivity|]. right. exists t. split; [reflexivity|]. eapply text_in_zeros; [|exact ET]. lia.
  - exists NoOpen. split; [|left; split; [reflexivity|lia]]. unfold read_config. cbn [st_size fd_]. cbv zeta.
    rewrite (small_int sz), (small_int (sz + 1)) by lia. destruct (Z.leb_spec (sz + 1) 0); [lia|]. destruct (Z.leb_spec fd 0); [reflexivity|lia].
Qed.
Print Assumptions C115_in_bounds_partial.

(** config.c:130: one byte more than the size is asked for, which is the place of the final
    NUL: a file that has grown since stat fills it, and the text is read past its end *)
Theorem C115_grown_refuted : forall sz fd d r, 0 < sz < 2147483647 -> 0 < fd ->
  sz < zlen d -> ~ In 0 (ztake (sz + 1) d) ->
  read_config (World (Some sz) fd (RData d :: r)) = Fault FOverread.
Proof.
  intros sz fd d r H F L N. unfold read_config. cbn [st_size fd_ reads]. cbv zeta. rewrite (small_int sz), (small_int (sz + 1)) by lia.
  destruct (Z.leb_spec (sz + 1) 0); [lia|]. destruct (Z.leb_spec fd 0); [lia|]. cbn [fread].
  destruct (Z.ltb_spec 0 sz); [|lia]. cbv zeta. rewrite Z.sub_0_r.
  assert (LT : zlen (ztake (sz + 1) d) = sz + 1) by (rewrite zlen_ztake; lia). rewrite LT.
  destruct (Z.ltb_spec (sz + 1) 1); [lia|].
  rewrite zput_ok by (rewrite ?zlen_zrepeat by lia; lia). cbn [of_opt bind]. rewrite LT.
  rewrite Z.add_0_l, zdrop_zrepeat, Z.sub_diag by lia. change (ztake 0 (zrepeat 0 (sz + 1))) with (@nil Z). change (zrepeat 0 0) with (@nil Z).
  cbn [app]. rewrite app_nil_r.
  assert (FR : fread sz (sz + 1) (ztake (sz + 1) d) r = Ok (ztake (sz + 1) d)).
  { destruct r; cbn [fread]; destruct (Z.ltb_spec (sz + 1) sz); try lia; reflexivity. }
  rewrite FR. cbn [bind]. rewrite (ctext_fault _ N). reflexivity.
Qed.
Print Assumptions C115_grown_refuted.
(** and that is the only way it happens *)
Theorem C115_over_read_partial : forall sz fd l, 0 <= sz < 2147483647 ->
  read_config (World (Some sz) fd l) = Fault FOverread ->
  exists got, prefix got (data l) /\ zlen got = sz + 1 /\ ~ In 0 got.
Proof.
  intros sz fd l H E. destruct (Z_lt_ge_dec 0 fd) as [F|F].
  2:{ unfold read_config in E. cbn [st_size fd_] in E. cbv zeta in E. rewrite (small_int sz), (small_int (sz + 1)) in E by lia.
      destruct (Z.leb_spec (sz + 1) 0); [lia|]. destruct (Z.leb_spec fd 0); [discriminate|lia]. }
  destruct (read_spec sz fd l) as (got & P & LG & _ & R); [lia|exact F|]. rewrite E in R.
  exists got. split; [exact P|].
  destruct (in_dec Z.eq_dec 0 (got ++ zrepeat 0 (sz + 1 - zlen got))) as [IN|NI].
  { destruct (ctext_ok _ IN) as (t & ET). rewrite ET in R. discriminate. }
  split; [|intros K; apply NI; apply in_or_app; left; exact K].
  destruct (Z_lt_ge_dec (zlen got) (sz + 1)) as [LT|GE]; [|lia]. exfalso. apply NI. apply in_or_app. right.
  unfold zrepeat. destruct (Z.to_nat (sz + 1 - zlen got)) eqn:K; [lia|left; reflexivity].
Qed.
Print Assumptions C115_over_read_partial.

(** config.c:128: with standard input closed the file gets descriptor 0, and the program
    runs with the built-in values, whatever the file says; start-up reports success *)
Theorem C115_descriptor_0_refuted : forall parse sz l, 0 <= sz < 2147483647 ->
  load_config parse (World (Some sz) 0 l) = Ok (0, conf0).
Proof.
  intros parse sz l H. unfold load_config, read_config. cbn [st_size fd_]. cbv zeta. rewrite (small_int sz), (small_int (sz + 1)) by lia.
  destruct (Z.leb_spec (sz + 1) 0); [lia|]. reflexivity.
Qed.
Print Assumptions C115_descriptor_0_refuted.
Theorem C115_property_refuted : ~ C115_property.
Proof.
  intros H. destruct (H (str "{}") 0 [RData (str "{}")]) as (t & E & _); [lia|reflexivity|]. vm_compute in E. discriminate.
Qed.
Print Assumptions C115_property_refuted.

(** config.c:131, 137: a read error is not reported either: the part that was read is parsed *)
Theorem C115_read_error_refuted : forall sz fd d r, 0 <= zlen d < sz -> 1 <= zlen d -> sz < 2147483647 -> 0 < fd ->
  exists t, read_config (World (Some sz) fd (RData d :: RErr :: r)) = Ok (Bytes t) /\ text_in d t.
Proof.
  intros sz fd d r H H1 H2 F. destruct (C115_in_bounds_partial sz fd (RData d :: RErr :: r)) as (c & E & [(_ & K)|(t & -> & T)]); [lia| |lia|].
  - cbn [data]. destruct (Z.ltb_spec (zlen d) 1); [lia|]. rewrite app_nil_r. lia.
  - exists t. split; [exact E|]. cbn [data] in T. destruct (Z.ltb_spec (zlen d) 1); [lia|]. rewrite app_nil_r in T. exact T.
Qed.
Print Assumptions C115_read_error_refuted.

(** so a read error inside the object leaves the program with the built-in values *)
Theorem C115_cut_config_refuted : forall j a b fd r, 0 < fd -> zlen (a ++ b) < 2147483647 -> 1 <= zlen a ->
  Json_Spec.text_ofN Json_Spec.number j (a ++ b) -> (exists m, j = JObj m) -> ~ In 0 a -> (exists c, In c b /\ ~ Json_Spec.ws [c]) ->
  load_config cjson (World (Some (zlen (a ++ b))) fd (RData a :: RErr :: r)) = Ok (0, conf0).
Proof.
  intros j a b fd r F L LA T O N B.
  assert (LB : 1 <= zlen b). { destruct B as (c & B & _). destruct b; [destruct B|]. rewrite zlen_cons. pose proof (zlen_nonneg b). lia. }
  rewrite zlen_app in *. destruct (C115_read_error_refuted (zlen a + zlen b) fd a r) as (t & E & TI); [lia|lia|lia|exact F|].
  rewrite (text_in_all a t TI N) in E. unfold load_config. rewrite E. cbn [bind config_init].
  unfold cjson. rewrite (C97_truncation_detected j (a ++ b) a b T (or_intror O) eq_refl B). reflexivity.
Qed.
Print Assumptions C115_cut_config_refuted.

(** config.c:123-124: a size that does not fit an int aborts the program *)
Theorem C115_huge_refuted : forall sz fd l, 2147483647 <= sz < 4294967295 ->
  read_config (World (Some sz) fd l) = Fault FAbort.
Proof.
  intros sz fd l H. unfold read_config. cbn [st_size]. cbv zeta.
  destruct (Z.leb_spec (to_int (to_int sz + 1)) 0); [reflexivity|]. exfalso.
  unfold to_int in *. lia.
Qed.
Print Assumptions C115_huge_refuted.

(** ** Examples *)
Definition cfg : list Z := str "{ ""s5_mode"" : 2, ""s5_serv_port"" : 8443 }".
Example C115_example : exists c,
  read_config (World (Some (zlen cfg)) 3 [RData (ztake 7 cfg); RData (zslice 7 20 cfg); RData (zdrop 20 cfg)]) = Ok (Bytes cfg) /\
  load_config cjson (World (Some (zlen cfg)) 3 [RData (ztake 7 cfg); RData (zslice 7 20 cfg); RData (zdrop 20 cfg)]) = Ok (0, c) /\
  s5_mode c = 2 /\ s5_serv_port c = 8443.
Proof. eexists. split; [vm_compute; reflexivity|]. split; [vm_compute; reflexivity|]. split; reflexivity. Qed.
Example C115_grown_example :
  read_config (World (Some (zlen cfg)) 3 [RData (cfg ++ [10])]) = Fault FOverread /\
  read_config (World (Some (zlen cfg)) 3 [RData (ztake 7 cfg); RData (zdrop 7 cfg); RData [10]]) = Ok (Bytes cfg).
Proof. split; vm_compute; reflexivity. Qed.
Example C115_cut_example :
  load_config cjson (World (Some (zlen conf_text)) 3 [RData (ztake 10 conf_text); RErr]) = Ok (0, conf0) /\
  exists c, load_config cjson (World (Some (zlen conf_text)) 3 [RData (ztake 10 conf_text); RData (zdrop 10 conf_text)]) = Ok (0, c) /\
    http_home c = str "/var/www".
Proof.
  split.
  - rewrite <- (ztake_zdrop 10 conf_text) at 1. eapply C115_cut_config_refuted with (j := JObj [(str "http_home", JStr (str "/var/www"))]).
    + lia.
    + vm_compute. reflexivity.
    + vm_compute. discriminate.
    + rewrite ztake_zdrop. exact conf_text_ok.
    + eauto.
    + vm_compute. intuition discriminate.
    + exists 125. split; [vm_compute; tauto|]. intros W. inversion W as [|? ? K]; subst. cbn in K. intuition discriminate.
  - eexists. split; vm_compute; reflexivity.
Qed.
