(** * Only what was requested is looked up and dialled (C33, the converse direction), and a
      client that leaves while its target is dialled ends the session (C31). *)
From Verif Require Import Base Str_Spec Ac_Model Ac_Proofs Meta_Model Meta_Proofs S5_Model S5_Spec S5_Proofs S5_Props S5_Req_Props.
From Coq Require Import String.

(** the part of a name before its first NUL *)
Definition before_nul (name pre : list Z) : Prop :=
  no_nul pre /\ (pre = name \/ exists r, name = pre ++ 0 :: r).

(** what may have been looked up and dialled when the client has sent [data] and [found] are
    the addresses that the cache or the resolver has answered *)
Definition as_requested (data : list Z) (found : list (list Z)) (asked : list (list Z)) (dialled : list (list Z * list Z)) : Prop :=
  (asked = [] /\ dialled = []) \/
  (exists rsv ip port rest, data = request_v4 5 1 rsv ip port ++ rest /\ zlen ip = 4 /\ zlen port = 2 /\
     asked = [] /\ dialled = [(ip, port)]) \/
  (exists rsv name port rest pre, data = request_dom 5 1 rsv name port ++ rest /\ 1 <= zlen name <= 255 /\ zlen port = 2 /\
     before_nul name pre /\ asked = [pre] /\
     (dialled = [] \/ exists ip, In ip found /\ dialled = [(ip, port)])).

(** addresses answered by the cache or the resolver in a run *)
Fixpoint answers (is : list inp) : list (list Z) :=
  match is with
  | [] => []
  | InLookup (Some ip) :: r | InDns (Some ip) :: r => ip :: answers r
  | _ :: r => answers r
  end.
Lemma answers_app a b : answers (a ++ b) = answers a ++ answers b.
Proof. induction a as [|i a IH]; [reflexivity|]. destruct i; cbn [answers app]; try exact IH; destruct a0; cbn; rewrite ?IH; reflexivity. Qed.

Lemma cstr_before l : forall t, cstr l = Some t -> no_nul t /\ exists r, l = t ++ 0 :: r.
Proof.
  induction l as [|b l IH]; intros t E; cbn [cstr] in E; [discriminate|].
  destruct (Z.eqb_spec b 0) as [->|N].
  - injection E as <-. split; [constructor|]. exists l. reflexivity.
  - destruct (cstr l) as [t'|] eqn:C; [|discriminate]. injection E as <-. destruct (IH t' eq_refl) as (A & r & ->).
    split; [constructor; assumption|]. exists r. reflexivity.
Qed.
Lemma cut_before name z t : no_nul t -> (exists r, name ++ z = t ++ 0 :: r) -> Forall (fun b => b = 0) z -> before_nul name t.
Proof.
  intros N (r & E) Z0. split; [exact N|]. revert t N E. induction name as [|b name IH]; intros t N E.
  - destruct t as [|c t]; [left; reflexivity|]. cbn [app] in E. subst z.
    inversion Z0; subst. inversion N; subst. contradiction.
  - destruct t as [|c t]; cbn [app] in E.
    + injection E as -> _. right. exists name. reflexivity.
    + injection E as -> E. inversion N; subst. destruct (IH t) as [-> | (r' & ->)]; auto. right. exists r'. reflexivity.
Qed.

(** a domain of length zero is never complete *)
Lemma empty_domain_more : forall l s, s_state s = TYP_DOMAIN -> p2_n s = 0 -> 0 <= p2_cnt s <= 255 -> zlen (p2_addr s) = 255 ->
  forall s' d, p2_loop s l = Ok (s', d) -> d = P2More.
Proof.
  induction l as [|b l IH]; intros s St N C L s' d P; cbn [p2_loop] in P; [injection P as <- <-; reflexivity|].
  assert (B : p2_byte s b = p2_addr_byte s b 0).
  { unfold p2_byte. rewrite St, N. reflexivity. }
  rewrite B in P. unfold p2_addr_byte, put1 in P.
  destruct (zput (p2_addr s) (p2_cnt s) [b]) as [a|] eqn:PU; [|discriminate]. cbn [of_opt bind] in P.
  assert (p2_cnt s < 255 /\ zlen a = 255) as (C' & La).
  { apply zput_some in PU as (X1 & X2 & ->). change (zlen [b]) with 1 in *. rewrite L in X2. split; [lia|].
    rewrite !zlen_app, zlen_ztake, zlen_zdrop by lia. change (zlen [b]) with 1. lia. }
  unfold u8 in P. rewrite Z.mod_small in P by lia.
  destruct (Z.eqb_spec (p2_cnt s + 1) 0); [lia|]. cbn [bind fst snd] in P.
  eapply IH in P; [exact P|cbn; exact St|cbn; exact N|cbn; lia|cbn; exact La].
Qed.

(** the stored request is the one that was sent *)
Definition stored (s : s5) (data : list Z) : Prop :=
  (p2_atyp s = 1 /\ exists rsv rest, data = request_v4 5 1 rsv (ztake 4 (p2_addr s)) (s5_port s) ++ rest /\ ip4 (ztake 4 (p2_addr s))) \/
  (p2_atyp s = 3 /\ exists rsv name rest, data = request_dom 5 1 rsv name (s5_port s) ++ rest /\ 1 <= zlen name <= 255 /\
     p2_addr s = name ++ zrepeat 0 (255 - zlen name)).

Lemma p2_done_stored s l s' : p2_fresh s -> bytes l -> p2_loop s l = Ok (s', P2Done) -> p2_accept s' = true -> stored s' l.
Proof.
  intros F B P A. pose proof (p2_done_connect s l s' F P A) as (r & t & rest & -> & [-> | ->]).
  - pose proof (p2_v4 s 5 1 r rest F) as H. destruct (Z.ltb_spec (zlen rest) 6).
    { destruct H as (s1 & E). congruence. }
    destruct H as (s1 & p & q & rest' & E & Rs & Ad & _ & P0 & P1 & _ & _ & Ty).
    assert (s1 = s') as -> by congruence. left. split; [exact Ty|].
    assert (zlen (ztake 4 rest) = 4) as L4 by (rewrite zlen_ztake; lia).
    assert (ztake 4 (p2_addr s') = ztake 4 rest) as T4.
    { rewrite Ad. rewrite ztake_app_l by lia. apply ztake_all. lia. }
    exists r, rest'. rewrite T4. split.
    + unfold request_v4, s5_port. rewrite P0, P1, <- !app_assoc. cbn [app]. do 4 f_equal. exact Rs.
    + split; [exact L4|]. do 4 apply Forall_inv_tail in B. rewrite <- (ztake_zdrop 4 rest) in B. apply Forall_app in B. exact (proj1 B).
  - destruct rest as [|n rest].
    { destruct (p2_dom0 s 5 1 r F) as (s1 & E). congruence. }
    assert (is_byte n) as Bn. { do 4 apply Forall_inv_tail in B. exact (Forall_inv B). } unfold is_byte in Bn.
    destruct (Z.eq_dec n 0) as [->|Nn].
    { exfalso. pose proof (fresh_len s F) as L. destruct F as (St & _). rewrite (p2_loop_head s 5 1 r 3 _ St) in P.
      change (3 =? S5_IPV4) with false in P. change (3 =? S5_IPV6) with false in P. change (3 =? S5_DOMAIN) with true in P. cbv iota in P.
      cbn [p2_loop] in P. unfold p2_byte at 1 in P. cbn [s_state set_state] in P.
      change (TYP_DOMAINN =? VER) with false in P. change (TYP_DOMAINN =? CMD) with false in P. change (TYP_DOMAINN =? RSV) with false in P.
      change (TYP_DOMAINN =? TYP) with false in P. change (TYP_DOMAINN =? TYP_V4) with false in P. change (TYP_DOMAINN =? TYP_V6) with false in P.
      change (TYP_DOMAINN =? TYP_DOMAINN) with true in P. cbv iota in P. cbn [bind fst snd] in P.
      eapply empty_domain_more in P; [discriminate P|reflexivity|reflexivity|cbn; lia|cbn; exact L]. }
    pose proof (p2_dom s 5 1 r n rest F ltac:(lia)) as H. destruct (Z.ltb_spec (zlen rest) (n + 2)).
    { destruct H as (s1 & E). congruence. }
    destruct H as (s1 & p & q & rest' & E & Rs & Ad & _ & P0 & P1 & _ & _ & Ty).
    assert (s1 = s') as -> by congruence. right. split; [exact Ty|].
    assert (zlen (ztake n rest) = n) as Ln by (rewrite zlen_ztake; lia).
    exists r, (ztake n rest), rest'. rewrite Ln. split; [|split; [lia|exact Ad]].
    unfold request_dom, s5_port. rewrite P0, P1, Ln, <- !app_assoc. cbn [app]. do 5 f_equal. exact Rs.
Qed.

Definition target (data : list Z) (found : list (list Z)) (h : hs) : Prop :=
  as_requested data found (h_asked h) [(h_addr h, h_port h)].
Definition inv33 (h : hs) (data : list Z) (found : list (list Z)) : Prop :=
  match h_ph h with
  | PhP2 => h_asked h = [] /\ h_dialled h = [] /\ bytes data /\
            exists s0, p2_fresh s0 /\ p2_loop s0 data = Ok (h_s5 h, P2More) /\ mpos (h_meta h) = mlast (h_meta h) /\
                       meta_wf (h_meta h)
  | PhAddr => h_asked h = [] /\ h_dialled h = [] /\ stored (h_s5 h) data
  | PhLookup => h_asked h = [] /\ h_dialled h = [] /\ p2_atyp (h_s5 h) <> 1 /\ stored (h_s5 h) data
  | PhDns => h_dialled h = [] /\ exists rsv name rest pre, data = request_dom 5 1 rsv name (s5_port (h_s5 h)) ++ rest /\
              1 <= zlen name <= 255 /\ before_nul name pre /\ h_asked h = [pre]
  | PhConnect => h_dialled h = [] /\ target data found h
  | PhConnWait | PhConnChk | PhP2Rsp | PhRelay => h_dialled h = [(h_addr h, h_port h)] /\ target data found h
  | PhClosed => as_requested data found (h_asked h) (h_dialled h)
  | _ => False
  end.

Lemma as_requested_more d f g a l : as_requested d f a l -> as_requested d (f ++ g) a l.
Proof.
  intros [H|[H|(rsv & name & port & rest & pre & H1 & H2 & H3 & H4 & H5 & H6)]]; [left; exact H|right; left; exact H|].
  right. right. exists rsv, name, port, rest, pre. repeat (split; [assumption|]). destruct H6 as [H6|(ip & I & H6)]; [left; exact H6|].
  right. exists ip. split; [apply in_app_iff; left; exact I|exact H6].
Qed.
(** with a dial taken back *)
Lemma as_requested_undial d f a x : as_requested d f a [x] -> as_requested d f a [].
Proof.
  intros [(_ & H)|[(rsv & ip & port & rest & H1 & H2 & H3 & H4 & H5)|(rsv & name & port & rest & pre & H1 & H2 & H3 & H4 & H5 & H6)]].
  - discriminate H.
  - left. auto.
  - right. right. exists rsv, name, port, rest, pre. repeat (split; [assumption|]). left. reflexivity.
Qed.

Lemma inv33_step h data found i h' : inv33 h data found -> enabled h i -> hs_step h i = Ok h' ->
  inv33 h' (data ++ in_bytes i) (found ++ answers [i]).
Proof.
  unfold inv33. intros I E ST. unfold enabled in E. unfold hs_step in ST.
  destruct (h_ph h) eqn:Ph; try contradiction.
  all: try (destruct i; try contradiction E).
  all: cbn [in_bytes answers].
  - (* PhP2 recv *)
    destruct I as (As & Di & Bd & s0 & F & P & PL & W). unfold do_recv in ST.
    destruct (meta_getfree (h_meta h) <? 1); [discriminate|].
    destruct r as [bs| |]; cbn [rx_bytes] in *.
    + destruct E as (NE & Bb & Lb).
      destruct (meta_store_ok (h_meta h) bs W Lb) as (m & Sm & Wm & Dm & Cm & Pm & Lm).
      rewrite Sm in ST. cbn [bind] in ST. unfold p2_feed in ST.
      assert (Dm' : mdata m = bs).
      { rewrite Dm. unfold mdata. rewrite PL, zslice_empty. reflexivity. }
      rewrite Dm' in ST. destruct (p2_loop (h_s5 h) bs) as [[s1 d]| |] eqn:P1; try discriminate.
      cbn [bind fst snd] in ST.
      assert (PA : p2_loop s0 (data ++ bs) = Ok (s1, d)) by (rewrite p2_loop_app, P; exact P1).
      assert (BA : bytes (data ++ bs)) by (apply Forall_app; split; assumption).
      destruct d; injection ST as <-; cbn [h_ph with_s5 h_asked h_dialled h_s5 h_meta mpos mlast].
      * repeat (split; [assumption|]). exists s0. split; [exact F|]. split; [exact PA|].
        split; [reflexivity|]. unfold meta_wf in *. cbn [mpos mlast]. unfold meta_cap in *. cbn [mbuf]. lia.
      * left. auto.
      * destruct (p2_accept s1) eqn:A.
        -- repeat (split; [assumption|]). eapply p2_done_stored; eauto.
        -- left. auto.
    + injection ST as <-. rewrite !app_nil_r, Ph. repeat (split; [assumption|]). exists s0. auto.
    + injection ST as <-. left. auto.
  - destruct I as (As & Di & _). injection ST as <-. left. auto.
  - (* PhAddr *)
    rewrite !app_nil_r. destruct I as (As & Di & S). destruct ok; [|injection ST as <-; left; auto].
    destruct (Z.eqb_spec (p2_atyp (h_s5 h)) S5_IPV4) as [Ty|Ty]; injection ST as <-; cbn [h_ph with_addr with_ph h_asked h_dialled h_s5].
    + split; [exact Di|]. destruct S as [(_ & rsv & rest & D & I4)|(Ty3 & _)]; [|unfold S5_IPV4 in Ty; lia].
      unfold target. cbn [h_asked h_addr h_port with_addr]. rewrite inet_addr_fmt by exact I4. right. left.
      exists rsv, (ztake 4 (p2_addr (h_s5 h))), (s5_port (h_s5 h)), rest. split; [exact D|]. split; [exact (proj1 I4)|]. auto.
    + auto.
  - (* PhLookup *)
    rewrite app_nil_r. destruct I as (As & Di & Ty & S).
    destruct (cstr (p2_addr (h_s5 h))) as [t|] eqn:C; [|discriminate]. cbn [of_opt bind] in ST.
    destruct S as [(Ty1 & _)|(_ & rsv & name & rest & D & Ln & Ad)]; [contradiction|].
    assert (before_nul name t) as BN.
    { destruct (cstr_before _ _ C) as (N & r & Er). apply (cut_before name (zrepeat 0 (255 - zlen name))); [exact N| |].
      - exists r. rewrite <- Er. symmetry. exact Ad.
      - apply Forall_forall. intros x X. apply repeat_spec in X. exact X. }
    destruct a as [ip|]; injection ST as <-; cbn [h_ph with_addr with_asked h_dialled h_asked h_s5].
    + split; [exact Di|]. unfold target. cbn [h_asked with_addr with_asked h_addr h_port]. rewrite As.
      rewrite inet_addr_fmt by exact E. right. right. exists rsv, name, (s5_port (h_s5 h)), rest, t.
      split; [exact D|]. split; [exact Ln|]. split; [reflexivity|]. split; [exact BN|]. split; [reflexivity|].
      right. exists ip. split; [apply in_app_iff; right; left; reflexivity|reflexivity].
    + split; [exact Di|]. exists rsv, name, rest, t. rewrite As. auto.
  - (* PhDns *)
    rewrite app_nil_r. destruct I as (Di & rsv & name & rest & pre & D & Ln & BN & As).
    destruct a as [ip|]; injection ST as <-; cbn [h_ph with_addr close with_ph h_dialled h_asked h_s5].
    + split; [exact Di|]. unfold target. cbn [h_asked with_addr h_addr h_port]. rewrite As.
      rewrite inet_addr_fmt by exact E. right. right. exists rsv, name, (s5_port (h_s5 h)), rest, pre.
      split; [exact D|]. split; [exact Ln|]. split; [reflexivity|]. split; [exact BN|]. split; [reflexivity|].
      right. exists ip. split; [apply in_app_iff; right; left; reflexivity|reflexivity].
    + rewrite Di. right. right. exists rsv, name, (s5_port (h_s5 h)), rest, pre. repeat (split; [assumption || reflexivity|]). left. reflexivity.
  - rewrite !app_nil_r. destruct I as (Di & rsv & name & rest & pre & D & Ln & BN & As).
    destruct ok; injection ST as <-; cbn [h_ph close with_ph h_dialled h_asked].
    + rewrite Ph. split; [exact Di|]. exists rsv, name, rest, pre. auto.
    + rewrite Di. right. right. exists rsv, name, (s5_port (h_s5 h)), rest, pre. repeat (split; [assumption || reflexivity|]). left. reflexivity.
  - rewrite !app_nil_r. destruct I as (Di & rsv & name & rest & pre & D & Ln & BN & As).
    injection ST as <-. cbn [h_ph close with_ph h_dialled h_asked].
    rewrite Di. right. right. exists rsv, name, (s5_port (h_s5 h)), rest, pre. repeat (split; [assumption || reflexivity|]). left. reflexivity.
  - (* PhConnect *)
    rewrite !app_nil_r. destruct I as (Di & T). destruct r; injection ST as <-;
      cbn [h_ph with_dial close with_ph h_dialled h_asked h_addr h_port]; rewrite Di; cbn [app]; [split; [reflexivity|exact T]..|exact T].
  - (* PhConnWait *)
    rewrite !app_nil_r. destruct I as (Di & T). destruct ok.
    + destruct (meta_store (h_meta h) (p2_reply (h_addr h) (h_port h))); try discriminate. cbn [bind] in ST.
      injection ST as <-. cbn [h_ph with_pm h_dialled h_addr h_port]. auto.
    + injection ST as <-. cbn [h_ph close with_ph h_dialled h_asked]. rewrite Di. exact T.
  - rewrite !app_nil_r. destruct I as (Di & T). destruct ok; injection ST as <-; cbn [h_ph close with_ph h_dialled h_asked].
    + rewrite Ph. auto.
    + rewrite Di. exact T.
  - rewrite !app_nil_r. destruct I as (Di & T). injection ST as <-. cbn [h_ph close with_ph h_dialled h_asked]. rewrite Di. exact T.
  - rewrite !app_nil_r. destruct I as (Di & T). destruct ok.
    + destruct (meta_store (h_meta h) (p2_reply (h_addr h) (h_port h))); try discriminate. cbn [bind] in ST.
      injection ST as <-. cbn [h_ph with_pm h_dialled h_addr h_port]. auto.
    + injection ST as <-. cbn [h_ph close with_ph h_dialled h_asked]. rewrite Di. exact T.
  - rewrite !app_nil_r. destruct I as (Di & T). unfold do_send in ST. destruct r.
    + destruct (0 <? _); injection ST as <-; cbn [h_ph with_sent h_dialled h_addr h_port]; rewrite ?Ph; auto.
    + injection ST as <-. rewrite Ph. auto.
    + injection ST as <-. cbn [h_ph close with_ph h_dialled h_asked]. rewrite Di. exact T.
  - rewrite !app_nil_r. destruct I as (Di & T). injection ST as <-. cbn [h_ph close with_ph h_dialled h_asked]. rewrite Di. exact T.
Qed.

(** whatever the client sends, however it is cut, and whatever the calls return: at most one
    name is looked up and at most one address is dialled. An address that is dialled is the
    one of a CONNECT request for an IPv4 address, or an answer to the lookup of the name (up
    to its first NUL) of a CONNECT request for a domain; the port is the port of the request.
    In particular nothing is dialled after a lookup without an answer. *)
Theorem C33_only_the_requested_is_dialled : forall h is h', p2_start h -> valid h is -> hs_run h is = Ok h' ->
  as_requested (in_data is) (answers is) (h_asked h') (h_dialled h').
Proof.
  intros h is h' ST V R.
  assert (I : inv33 h [] []).
  { destruct ST as (Ph & F & P0 & L0 & Cap & As & Di). unfold inv33. rewrite Ph.
    repeat (split; [assumption || constructor|]). exists (h_s5 h). split; [exact F|]. split; [reflexivity|].
    unfold meta_wf. lia. }
  assert (G : forall is h data found h', inv33 h data found -> valid h is -> hs_run h is = Ok h' -> inv33 h' (data ++ in_data is) (found ++ answers is)).
  { clear. induction is as [|i is IH]; intros h data found h' I V R.
    - injection R as <-. unfold in_data. cbn. rewrite !app_nil_r. exact I.
    - cbn [valid] in V. destruct V as (E & V). cbn [hs_run] in R.
      destruct (hs_step h i) as [h1| |] eqn:ST; try discriminate. cbn [bind] in R.
      change (in_data (i :: is)) with (in_bytes i ++ in_data is). change (i :: is) with ([i] ++ is). rewrite answers_app, !app_assoc.
      apply (IH h1); auto. eapply inv33_step; eauto. }
  specialize (G is h [] [] h' I V R). cbn [app] in G. unfold inv33 in G. destruct (h_ph h'); try contradiction.
  - destruct G as (A & B & _). left. auto.
  - destruct G as (A & B & _). left. auto.
  - destruct G as (A & B & _). left. auto.
  - destruct G as (A & rsv & name & rest & pre & D & Ln & BN & As). rewrite A. right. right.
    exists rsv, name, (s5_port (h_s5 h')), rest, pre. repeat (split; [assumption || reflexivity|]). left. reflexivity.
  - destruct G as (-> & T). exact (as_requested_undial _ _ _ _ T).
  - destruct G as (-> & T). exact T.
  - destruct G as (-> & T). exact T.
  - destruct G as (-> & T). exact T.
  - destruct G as (-> & T). exact T.
  - exact G.
Qed.
Print Assumptions C33_only_the_requested_is_dialled.

(** a client that leaves, or a deadline that passes, or a target that cannot be found or
    reached, ends the session: it is closed and nothing is looked up, dialled or sent any more *)
Theorem C31_abandoned_sessions_end : forall h i is, 
  (i = InTryRead false \/ i = InTimeout \/ i = InDns None \/ i = InSockUp false) ->
  h_ph h <> PhRelay -> enabled h i ->
  exists h', hs_run h (i :: is) = Ok h' /\ h_ph h' = PhClosed /\
    h_asked h' = h_asked h /\ h_dialled h' = h_dialled h /\ h_sent h' = h_sent h.
Proof.
  intros h i is Hi Nr E.
  assert (hs_step h i = Ok (close h)) as S.
  { unfold enabled in E. unfold hs_step. destruct (h_ph h); try contradiction;
      destruct Hi as [-> | [-> | [-> | ->]]]; try contradiction E; reflexivity. }
  cbn [hs_run]. rewrite S. cbn [bind]. exists (close h). split; [|auto].
  induction is as [|j is IH]; [reflexivity|]. cbn [hs_run]. unfold hs_step. cbn [close with_ph h_ph bind]. exact IH.
Qed.
Print Assumptions C31_abandoned_sessions_end.

(** runs that meet the hypotheses: a name that is resolved and dialled, and a client that
    leaves while the name is resolved *)
Definition dom_run : list inp :=
  [InRecv (RxData (ztake 7 (request_dom 5 1 0 (str "example.com") [1; 187]))); InRecv RxAgain;
   InRecv (RxData (zdrop 7 (request_dom 5 1 0 (str "example.com") [1; 187]))); InAlloc true; InLookup None].
Definition small_p2 : hs := mkHs PhP2 (meta_new 600) s5_zero ezac_init [] [] [] [] [].
Lemma small_p2_start : p2_start small_p2.
Proof. apply p2_startb_spec. vm_compute. reflexivity. Qed.
Example C33_dialled_example : exists h', p2_start small_p2 /\
  hs_run small_p2 (dom_run ++ [InTryRead true; InDns (Some [192; 0; 2; 7]); InConnect ConAgain]) = Ok h' /\
  h_asked h' = [str "example.com"] /\ h_dialled h' = [([192; 0; 2; 7], [1; 187])] /\ valid small_p2 (dom_run ++ [InTryRead true; InDns (Some [192; 0; 2; 7]); InConnect ConAgain]).
Proof.
  eexists. split; [exact small_p2_start|].
  split; [vm_compute; reflexivity|]. split; [reflexivity|]. split; [reflexivity|].
  unfold dom_run. cbn [app].
  repeat (cbn [valid]; split; [first [exact I | vm_compute; exact I | split; [vm_compute; discriminate|split; [apply bytesb_spec; vm_compute; reflexivity|vm_compute; discriminate]]
      | split; [reflexivity|apply bytesb_spec; reflexivity]]|]; intros ? X; vm_compute in X; injection X as <-).
  exact I.
Qed.
Example C31_abandoned_example : exists h1, p2_start small_p2 /\ hs_run small_p2 dom_run = Ok h1 /\ h_ph h1 = PhDns /\
  enabled h1 (InTryRead false) /\ enabled h1 InTimeout /\ enabled h1 (InDns None).
Proof.
  eexists. split; [exact small_p2_start|]. split; [vm_compute; reflexivity|]. repeat split.
Qed.
