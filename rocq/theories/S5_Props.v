(** * Theorems about the session handshake: C25 - C35. *)
From Verif Require Import Base Str_Spec Ac_Model Ac_Proofs Meta_Model Meta_Proofs S5_Model S5_Spec S5_Proofs.
From Coq Require Import String.

(** ** sends *)
Definition tx_live (t : tx) : Prop := match t with TxSent n => 0 <= n | TxAgain => True | TxErr => False end.
Definition tx_count (t : tx) : Z := match t with TxSent n => n | _ => 0 end.
Definition tx_total (ts : list tx) : Z := fold_right (fun t n => tx_count t + n) 0 ts.

Lemma tx_total_nonneg ts : Forall tx_live ts -> 0 <= tx_total ts.
Proof. induction 1 as [|t ts H]; simpl; [lia|]. destruct t; simpl in *; lia. Qed.

Lemma send_ignored ph : ph = PhP2 \/ ph = PhRelay ->
  forall ts h, h_ph h = ph -> hs_run h (map InSend ts) = Ok h.
Proof.
  intros Hp. induction ts as [|r ts IH]; intros h E; [reflexivity|].
  cbn [map hs_run]. unfold hs_step. rewrite E.
  destruct Hp as [->| ->]; cbn [bind]; apply IH; exact E.
Qed.

(** everything except phase, buffer and bytes sent *)
Definition ctx2 (h : hs) := (h_s5 h, h_asked h, h_dialled h, h_addr h, h_port h, h_ac h).

Lemma send_run ph next : (ph = PhP1Rsp /\ next = PhP2) \/ (ph = PhP2Rsp /\ next = PhRelay) ->
  forall ts h cap, h_ph h = ph -> meta_wf (h_meta h) -> mdata (h_meta h) <> [] ->
    meta_cap (h_meta h) = cap -> Forall tx_live ts -> tx_total ts <= zlen (mdata (h_meta h)) ->
    exists h', hs_run h (map InSend ts) = Ok h' /\ ctx2 h' = ctx2 h /\ meta_cap (h_meta h') = cap /\
      h_sent h' = h_sent h ++ ztake (tx_total ts) (mdata (h_meta h)) /\
      (if tx_total ts =? zlen (mdata (h_meta h))
       then h_ph h' = next /\ mpos (h_meta h') = 0 /\ mlast (h_meta h') = 0
       else h_ph h' = ph).
Proof.
  intros Hp. induction ts as [|t ts IH]; intros h cap Ph W NE Cap LV LT.
  - exists h. cbn [map hs_run tx_total fold_right]. rewrite ztake_le0 by lia. rewrite app_nil_r.
    repeat (split; [first [reflexivity|assumption]|]).
    destruct (Z.eqb_spec 0 (zlen (mdata (h_meta h)))) as [E|E]; [|assumption].
    symmetry in E. apply zlen_0_nil in E. congruence.
  - pose proof (Forall_inv LV) as Ht. pose proof (Forall_inv_tail LV) as LV'. pose proof (tx_total_nonneg ts LV').
    cbn [map hs_run].
    assert (ST : hs_step h (InSend t) = do_send h t next).
    { unfold hs_step. rewrite Ph. destruct Hp as [[-> ->]|[-> ->]]; reflexivity. }
    rewrite ST. change (tx_total (t :: ts)) with (tx_count t + tx_total ts) in *.
    pose proof (mdata_len _ W) as ML.
    destruct t as [n| |]; [| |contradiction]; cbn [tx_count tx_live do_send] in *.
    + destruct (meta_consume_ok (h_meta h) n W) as (W2 & D2); [lia|].
      pose proof (mdata_len _ W2) as ML2.
      destruct (Z.ltb_spec 0 (meta_getlen (meta_consume (h_meta h) n))) as [G|G]; cbn [bind].
      * assert (GL : meta_getlen (meta_consume (h_meta h) n) = zlen (mdata (h_meta h)) - n)
          by (rewrite ML; unfold meta_getlen, meta_consume; cbn [mpos mlast]; lia).
        destruct (IH (with_sent h (h_ph h) (meta_consume (h_meta h) n) (ztake n (mdata (h_meta h)))) cap)
          as (h' & R & C & K & S' & F); cbn [h_ph h_meta with_sent h_sent] in *; auto.
        { intros E. rewrite E, zlen_nil in ML2. lia. }
        { rewrite ML2. lia. }
        exists h'. split; [exact R|]. split; [exact C|]. split; [exact K|]. split.
        -- rewrite S', <- app_assoc. f_equal. rewrite D2.
           apply ztake_add; lia.
        -- rewrite ML2, GL in F.
           replace (n + tx_total ts =? zlen (mdata (h_meta h))) with (tx_total ts =? zlen (mdata (h_meta h)) - n) by lia.
           exact F.
      * assert (n = zlen (mdata (h_meta h)) /\ tx_total ts = 0).
        { unfold meta_getlen, meta_consume in *; cbn [mpos mlast] in *. lia. }
        destruct H0 as [-> T0]. rewrite T0, Z.add_0_r.
        rewrite (send_ignored next) by (destruct Hp as [[_ ->]|[_ ->]]; auto).
        eexists. split; [reflexivity|]. split; [reflexivity|]. split; [exact Cap|].
        split; [reflexivity|]. rewrite Z.eqb_refl. auto.
    + cbn [bind]. rewrite Z.add_0_l in *. apply IH; auto.
Qed.

Lemma hs_run_app : forall a h b, hs_run h (a ++ b) = bind (hs_run h a) (fun h' => hs_run h' b).
Proof.
  induction a as [|i a IH]; intros h b; [reflexivity|].
  cbn [app hs_run]. destruct (hs_step h i); cbn [bind]; [apply IH|reflexivity|reflexivity].
Qed.

Lemma p2_fresh_fields s s' : p2_fields s' = p2_fields s -> p2_addr s' = p2_addr s.
Proof. unfold p2_fields. intros H. injection H. auto. Qed.

(** ** C28 *)
(** For every split of a greeting (with would-block results anywhere) and every
    split of the reply: nothing is sent before the last byte, then exactly 05 00,
    and the session waits for the request. *)
Theorem C28_greeting_any_split :
  forall h ver ms rs, p1_start h -> 1 <= zlen ms <= 255 -> Forall rx_live rs ->
    (forall rest, rest <> [] -> greeting ver ms = rx_data rs ++ rest ->
       exists h', hs_run h (map InRecv rs) = Ok h' /\ h_ph h' = PhP1 /\ h_sent h' = h_sent h) /\
    (rx_data rs = greeting ver ms -> forall ts, Forall tx_live ts -> tx_total ts = 2 ->
       exists h1 h2, hs_run h (map InRecv rs) = Ok h1 /\ h_sent h1 = h_sent h /\
         hs_run h1 (map InSend ts) = Ok h2 /\ h_sent h2 = h_sent h ++ [5; 0] /\ p2_start h2).
Proof.
  intros h ver ms rs (Ph & F1 & F2 & P0 & L0 & Cap & As & Di) Hn LV.
  assert (AE : at_end (h_meta h) (meta_cap (h_meta h)) (zlen (@nil Z))) by (repeat split; auto).
  split.
  - intros rest NE G.
    assert (P : exists s', p1_loop (h_s5 h) (rx_data rs) = Ok (s', false)).
    { destruct (rx_data rs) as [|a [|b l]] eqn:D.
      - eexists; reflexivity.
      - destruct (p1_loop_short (h_s5 h) [a] F1) as (s' & E & _); [reflexivity|eauto].
      - injection G as Ga Gb Gm. subst a b.
        destruct (p1_loop_greeting ver (zlen ms) l (h_s5 h) F1 Hn) as (s' & E & _).
        exists s'. rewrite E. do 2 f_equal. rewrite Gm, zlen_app.
        destruct rest as [|x rest]; [congruence|]. rewrite zlen_cons. pose proof (zlen_nonneg rest).
        destruct (Z.leb_spec (zlen l + (1 + zlen rest)) (zlen l)); [lia|reflexivity]. }
    destruct P as (s' & P).
    destruct (p1_run rs h (h_s5 h) [] (meta_cap (h_meta h)) s' false) as (h' & R & _ & C & Q1 & _); auto; try lia.
    { cbn [app]. assert (zlen (greeting ver ms) = 2 + zlen ms) by (unfold greeting; rewrite !zlen_cons; lia).
      rewrite G, zlen_app in H. pose proof (zlen_nonneg rest). lia. }
    exists h'. split; [exact R|]. split; [exact Q1|]. unfold ctx in C. congruence.
  - intros G ts LT TT.
    destruct (p1_loop_greeting ver (zlen ms) ms (h_s5 h) F1 Hn) as (s' & E & PF & St).
    rewrite Z.leb_refl in E.
    destruct (p1_run rs h (h_s5 h) [] (meta_cap (h_meta h)) s' true) as (h1 & R & S1 & C & Q1 & Q2 & Q3 & Q4 & Q5); auto; try lia.
    { cbn [app]. rewrite G. unfold greeting. rewrite !zlen_cons. lia. }
    { cbn [app]. rewrite G. exact E. }
    destruct (send_run PhP1Rsp PhP2) with (ts := ts) (h := h1) (cap := meta_cap (h_meta h)) as (h2 & R2 & C2 & K2 & S2 & F); auto.
    { rewrite Q2. discriminate. }
    { rewrite Q2, TT. reflexivity. }
    exists h1, h2. split; [exact R|]. unfold ctx in C.
    assert (SE : h_sent h1 = h_sent h) by congruence. split; [exact SE|].
    split; [exact R2|]. split.
    { rewrite S2, SE, Q2, TT. reflexivity. }
    rewrite Q2, TT in F. change (2 =? zlen [5; 0]) with true in F. cbv iota in F.
    destruct F as (F3 & F4 & F5). unfold p2_start, p2_fresh. unfold ctx2 in C2.
    assert (h_s5 h2 = s') by congruence. rewrite H.
    destruct F2 as (_ & F2).
    split; [exact F3|]. split; [split; [apply St; lia|rewrite (p2_fresh_fields _ _ PF); exact F2]|].
    repeat (split; [first [assumption | congruence | lia]|]). congruence.
Qed.
Print Assumptions C28_greeting_any_split.

(** a session of the shipped key file right after authentication *)
Definition demo_keys : list (list Z) := [str "auth_for_tanx"].
Definition demo_hdr : list Z := header_of (str "auth_for_tanx").
Definition demo_auth : res hs :=
  let* c := ac_build demo_keys in hs_run (hs_init TLS_TUNNEL_METAN c) [InRecv (RxData demo_hdr)].

Example C28_example : exists h, demo_auth = Ok h /\ p1_start h /\
  rx_data [RxData [5]; RxAgain; RxData [2; 0]; RxData [2]] = greeting 5 [0; 2] /\
  Forall rx_live [RxData [5]; RxAgain; RxData [2; 0]; RxData [2]] /\ tx_total [TxSent 1; TxAgain; TxSent 1] = 2.
Proof.
  destruct demo_auth as [h| |] eqn:E; [|vm_compute in E; discriminate E|vm_compute in E; discriminate E].
  exists h. split; [reflexivity|]. split.
  - assert (P : (match demo_auth with Ok h =>
        match h_ph h with PhP1 => true | _ => false end && (s_state (h_s5 h) =? 0) &&
        (zlen (p1_methods (h_s5 h)) =? 255) && bseq (p2_addr (h_s5 h)) (zrepeat 0 255) &&
        (mpos (h_meta h) =? 0) && (mlast (h_meta h) =? 0) && (600 <=? meta_cap (h_meta h)) &&
        match h_asked h with [] => true | _ => false end && match h_dialled h with [] => true | _ => false end
      | _ => false end) = true) by (vm_compute; reflexivity).
    rewrite E in P. repeat rewrite andb_true_iff in P.
    destruct P as ((((((((P1 & P2) & P3) & P4) & P5) & P6) & P7) & P8) & P9).
    unfold p1_start, p1_fresh, p2_fresh, METHODS_SIZE, DST_SIZE.
    destruct (h_ph h); try discriminate P1. destruct (h_asked h); [|discriminate P8].
    destruct (h_dialled h); [|discriminate P9]. apply bseq_spec in P4.
    repeat split; auto; lia.
  - split; [reflexivity|]. split; [repeat constructor|reflexivity].
Qed.

(** ** C29 *)
(** a greeting that announces no method makes the parser write behind the array *)
Theorem C29_greeting_bounds_refuted :
  exists h rs, demo_auth = Ok h /\ valid h (map InRecv rs) /\ hs_run h (map InRecv rs) = Fault FOob.
Proof.
  destruct demo_auth as [h| |] eqn:E; [|vm_compute in E; discriminate E|vm_compute in E; discriminate E].
  exists h, [RxData (5 :: 0 :: zrepeat 1 256)]. split; [reflexivity|].
  assert (P : match demo_auth with
              | Ok h => (match h_ph h with PhP1 => true | _ => false end) && (258 <=? meta_getfree (h_meta h)) &&
                  match hs_run h (map InRecv [RxData (5 :: 0 :: zrepeat 1 256)]) with Fault FOob => true | _ => false end
              | _ => false end = true) by (vm_compute; reflexivity).
  rewrite E in P. rewrite !andb_true_iff in P. destruct P as ((P1 & P2) & P3).
  split.
  - cbn [map valid]. split; [|intros; exact I].
    unfold enabled. destruct (h_ph h); try discriminate P1. cbn [rx_ok].
    split; [discriminate|]. split; [apply bytesb_spec; vm_compute; reflexivity|].
    change (zlen (5 :: 0 :: zrepeat 1 256)) with 258. lia.
  - destruct (hs_run h _) as [|[]|]; try discriminate P3. reflexivity.
Qed.
Print Assumptions C29_greeting_bounds_refuted.

Lemma p1_false_short s acc s' : p1_fresh s -> bytes acc ->
  (forall v n rest, acc = v :: n :: rest -> n <> 0) -> p1_loop s acc = Ok (s', false) -> zlen acc < 300.
Proof.
  intros F B N P. destruct acc as [|v [|n ms]]; [reflexivity|reflexivity|].
  assert (n <> 0) by eauto. inversion B as [|? ? B1 B2]; subst. inversion B2 as [|? ? B3 B4]; subst.
  unfold is_byte in B3.
  destruct (p1_loop_greeting v n ms s F) as (s1 & E & _); [lia|]. rewrite E in P. injection P as _ P.
  rewrite !zlen_cons. lia.
Qed.

Lemma p1_loop_total s acc : p1_fresh s -> bytes acc ->
  (forall v n rest, acc = v :: n :: rest -> n <> 0) -> exists s' d, p1_loop s acc = Ok (s', d).
Proof.
  intros F B N. destruct acc as [|v [|n ms]].
  - exists s, false. reflexivity.
  - destruct (p1_loop_short s [v] F) as (s' & E & _); [reflexivity|]. eauto.
  - assert (n <> 0) by eauto. inversion B as [|? ? B1 B2]; subst. inversion B2 as [|? ? B3 B4]; subst.
    unfold is_byte in B3. destruct (p1_loop_greeting v n ms s F) as (s1 & E & _); [lia|]. eauto.
Qed.

(** with a non-zero method count no byte sequence, in no segmentation, faults *)
Theorem C29_greeting_bounds_partial :
  forall h rs, p1_start h -> valid h (map InRecv rs) ->
    (forall v n rest, rx_data rs = v :: n :: rest -> n <> 0) ->
    exists h', hs_run h (map InRecv rs) = Ok h'.
Proof.
  intros h rs (Ph & F1 & F2 & P0 & L0 & Cap & As & Di).
  assert (AE : at_end (h_meta h) (meta_cap (h_meta h)) (zlen (@nil Z))) by (repeat split; auto).
  assert (G : forall rs h acc s0 cap, p1_fresh s0 -> 600 <= cap -> h_ph h = PhP1 -> bytes acc ->
     p1_loop s0 acc = Ok (h_s5 h, false) -> at_end (h_meta h) cap (zlen acc) ->
     valid h (map InRecv rs) ->
     (forall v n rest, acc ++ rx_data rs = v :: n :: rest -> n <> 0) ->
     exists h', hs_run h (map InRecv rs) = Ok h').
  { clear. induction rs as [|r rs IH]; intros h acc s0 cap F C Ph B P AE V N; [exists h; reflexivity|].
    cbn [map valid] in V. destruct V as (En & V). unfold enabled in En. rewrite Ph in En.
    cbn [map hs_run].
    assert (SH : zlen acc < 300).
    { eapply (p1_false_short s0); eauto. intros v n rest E. eapply (N v n (rest ++ rx_data (r :: rs))).
      rewrite E. reflexivity. }
    destruct (p1_again h cap (zlen acc) Ph AE) as (Ea & Ee); [lia|].
    destruct r as [bs| |].
    - destruct En as (NE & Bb & Lb).
      change (rx_data (RxData bs :: rs)) with (bs ++ rx_data rs) in *. rewrite app_assoc in N.
      destruct (p1_loop_total s0 (acc ++ bs) F) as (s1 & d & T).
      { apply bytes_app; auto. }
      { intros v n rest E. eapply (N v n (rest ++ rx_data rs)). rewrite E. reflexivity. }
      assert (T' := T). rewrite p1_loop_app, P in T'.
      destruct (p1_recv h cap (zlen acc) bs s1 d) as (h1 & ST & E1 & E2 & E3); auto; try lia.
      { pose proof (zlen_nonneg acc). lia. }
      { destruct AE as (A1 & A2 & A3). unfold meta_getfree in Lb. lia. }
      rewrite ST. cbn [bind]. destruct d.
      + destruct E3 as (E3 & _). exists h1. apply (run_ignored PhP1Rsp); auto.
      + destruct E3 as (E3 & E4). apply (IH h1 (acc ++ bs) s0 cap); auto.
        * apply bytes_app; auto.
        * rewrite T, E1. reflexivity.
        * rewrite zlen_app. exact E4.
    - rewrite Ea in *. apply (IH h acc s0 cap); auto.
    - rewrite Ee in *. exists (close h). apply (run_ignored PhClosed); auto. }
  intros V N. apply (G rs h [] (h_s5 h) (meta_cap (h_meta h))); auto. constructor.
Qed.
Print Assumptions C29_greeting_bounds_partial.

Example C29_example : exists h, demo_auth = Ok h /\ p1_start h /\
  (forall v n rest, rx_data [RxData [5; 3; 0; 1]; RxData [2; 77; 78]] = v :: n :: rest -> n <> 0).
Proof.
  destruct C28_example as (h & A & B & _). exists h. split; [exact A|]. split; [exact B|].
  intros v n rest [= <- <- _]. discriminate.
Qed.
