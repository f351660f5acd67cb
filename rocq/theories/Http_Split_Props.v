(** * C50: exactly which splits of a request head the server understands *)
From Verif Require Import Base Str_Spec Meta_Model Meta_Proofs S5_Model Http_Model Http_Spec Http_Proofs Http_Props Http_Bad_Props.
From Coq Require Import String.
Open Scope Z_scope.
Local Arguments Z.add : simpl never.
Local Arguments Z.sub : simpl never.
Local Arguments zlen : simpl never.

(** the request is not completed *)
Definition never (o : res hout) : Prop := forall r m i, o <> Ok (HComplete r m i).

(** ** A pass over pending bytes that does not end the headers *)
Lemma run_pass k r m ins : q_ph r <> PBody -> 1 <= meta_getlen m ->
  match scan r (mpos m) (mdata m) with
  | SEnd r' => never (http_run k r' m ins) -> never (http_run (S k) r m ins)
  | SDone _ _ => True
  | _ => never (http_run (S k) r m ins)
  end.
Proof.
  intros P G. destruct (scan r (mpos m) (mdata m)) as [r'|r' p| |f] eqn:SC; [|exact I| |];
    cbn [http_run]; (destruct (q_ph r) eqn:E; [| |contradiction]);
    destruct (Z.ltb_spec (meta_getlen m) 1); try lia; cbn [bind]; rewrite SC.
  1,2: intros H0; destruct (meta_getfree m <? 1); [intros ? ? ? X; discriminate X|exact H0].
  all: intros ? ? ? X; discriminate X.
Qed.

Definition textb (b : Z) : bool := (32 <=? b) && (b <=? 127).
(** every CR has a text character before it ([t]: the byte before [d] is one) *)
Fixpoint hok (t : bool) (d : list Z) : Prop :=
  match d with [] => True | b :: d' => (b = 13 -> t = true) /\ hok (textb b) d' end.
Definition inside (r : hreq) (t : bool) : Prop :=
  exists s, q_ph r = PHdrs s /\ s <> HDoneSt /\ (t = true -> s <> HKeyInit).

Lemma inside_step r p b t : inside r t -> (b = 13 -> t = true) ->
  match byte_step r p b with BNext r' => inside r' (textb b) | BDone _ => False | _ => True end.
Proof.
  intros (s & P & ND & NK) C. unfold byte_step. destruct (bad_byte b); [exact I|]. rewrite P.
  assert (KV : forall f st, st <> HDoneSt -> st <> HKeyInit ->
    match with_kv r f st with BNext r' => inside r' (textb b) | BDone _ => False | _ => True end).
  { intros f st N1 N2. destruct (with_kv r f st) as [r'|r'| |] eqn:W; try exact I.
    - apply with_kv_method in W as (_ & W). exists st. auto.
    - destruct (with_kv_not_done _ _ _ _ W). }
  destruct s; unfold hdr_byte.
  - destruct (Z.eqb_spec b CR) as [E|E]; [exfalso; apply NK; auto|]. apply KV; discriminate.
  - destruct (b =? COLON); [apply KV; discriminate|]. exists HKey. repeat split; congruence || auto.
  - destruct (b =? SP); [|apply KV; discriminate]. exists HValInit. repeat split; congruence || auto.
  - destruct (b =? CR); [apply KV; discriminate|]. exists HVal. repeat split; congruence || auto.
  - destruct (Z.eqb_spec b LF) as [->|]; [|exact I]. exists HKeyInit. repeat split; congruence || discriminate.
  - contradiction.
Qed.

Lemma inside_weak r t : inside r t -> inside r false.
Proof. intros (s & P & N & _). exists s. repeat split; auto. discriminate. Qed.

Lemma inside_scan : forall d r p t, inside r t -> hok t d ->
  match scan r p d with SEnd r' => inside r' false | SDone _ _ => False | _ => True end.
Proof.
  induction d as [|b d IH]; intros r p t H K; [exact (inside_weak _ _ H)|]. cbn [scan]. destruct K as (K1 & K2).
  pose proof (inside_step r p b t H K1) as X. destruct (byte_step r p b); try exact X. apply (IH _ _ _ X K2).
Qed.

Lemma inside_run : forall k r m ins, inside r false -> hok false (mdata m) -> 1 <= meta_getlen m -> never (http_run k r m ins).
Proof.
  induction k as [|k IH]; intros r m ins H K G; [intros ? ? ? X; discriminate X|].
  assert (P : q_ph r <> PBody) by (destruct H as (s & P & _); rewrite P; discriminate).
  pose proof (run_pass k r m ins P G) as R. pose proof (inside_scan _ r (mpos m) _ H K) as X.
  destruct (scan r (mpos m) (mdata m)); try exact R; [|contradiction]. apply R, IH; assumption.
Qed.

(** ** Parts of a header block *)
Lemma text_textb b : text b -> textb b = true /\ b <> 13.
Proof. unfold text, textb. lia. Qed.
Lemma hok_text : forall w t d, Forall text w -> hok true d -> (w = [] -> hok t d) -> hok t (w ++ d).
Proof.
  induction w as [|b w IH]; intros t d F K E; [exact (E eq_refl)|]. cbn [app hok].
  destruct (text_textb b (Forall_inv F)) as (T & N). rewrite T. split; [contradiction|].
  apply IH; auto. exact (Forall_inv_tail F).
Qed.
Lemma hok_prefix : forall a b t, hok t (a ++ b) -> hok t a.
Proof. induction a as [|x a IH]; intros b t K; [exact I|]. destruct K as (K1 & K2). split; [exact K1|exact (IH _ _ K2)]. Qed.
Lemma hok_hdrs : forall hs t, Forall wf_hdr hs -> hok t (List.concat (map print_hdr hs)).
Proof.
  induction hs as [|h hs IH]; intros t F; [exact I|]. cbn [map List.concat]. unfold print_hdr, crlf. rewrite <- !app_assoc.
  pose proof (IH false (Forall_inv_tail F)) as K.
  destruct (Forall_inv F) as (Nn & Tn & _ & SP0 & Tv & (b & v & EV & _)).
  assert (K1 : hok true ([13; 10] ++ List.concat (map print_hdr hs))).
  { cbn [app hok]. split; [reflexivity|]. split; [discriminate|exact K]. }
  assert (Fs : Forall text (zrepeat 32 (h_sp h))).
  { apply Forall_forall. intros x X. apply repeat_text in X. subst x. unfold text. lia. }
  assert (K2 : hok true ([58] ++ zrepeat 32 (h_sp h) ++ h_value h ++ [13; 10] ++ List.concat (map print_hdr hs))).
  { apply (hok_text [58]); [repeat constructor; unfold text; lia| |discriminate].
    apply hok_text; [exact Fs| |intros _; apply hok_text; auto].
    apply hok_text; auto. }
  apply hok_text; [exact Tn|exact K2|]. intros X. contradiction.
Qed.

Lemma split_app {A} : forall (a b x y : list A), a ++ b = x ++ y ->
  (exists z, x = a ++ z /\ b = z ++ y) \/ (exists z, z <> [] /\ a = x ++ z /\ y = z ++ b).
Proof.
  induction a as [|u a IH]; intros b x y E.
  - left. exists x. auto.
  - destruct x as [|w x].
    + right. exists (u :: a). split; [discriminate|]. split; [reflexivity|]. symmetry. exact E.
    + injection E as -> E. destruct (IH _ _ _ E) as [(z & -> & ->)|(z & N & -> & ->)]; [left|right]; exists z; auto.
Qed.

(** a proper part of a header block never completes, whatever follows *)
Lemma part_hdrs k r m ins hs x : Forall wf_hdr hs -> zlen hs <= 15 -> q_ph r = PHdrs HKeyInit ->
  zlen (q_kvs r) = 16 -> q_kvn r = 0 -> 1 <= meta_getlen m -> x <> [] -> mdata m <> [] ->
  mdata m ++ x = print_hdrs hs -> never (http_run k r m ins).
Proof.
  intros W L15 P LK KN G NX NM E. unfold print_hdrs in E.
  destruct (split_app _ _ _ _ E) as [(z & E1 & E2)|(z & NZ & E1 & E2)].
  - apply inside_run; [exists HKeyInit; repeat split; auto; discriminate| |exact G].
    apply (hok_prefix _ z). rewrite <- E1. apply hok_hdrs. exact W.
  - (* everything but the last byte *)
    assert (EZ : z = [13]).
    { unfold crlf in E2. destruct z as [|z1 z]; [contradiction|]. injection E2 as <- E2. destruct z as [|z2 z]; [reflexivity|].
      injection E2 as <- E2. symmetry in E2. apply app_eq_nil in E2 as (_ & E2). contradiction. }
    subst z. destruct k as [|k]; [intros ? ? ? X; discriminate X|].
    assert (PB : q_ph r <> PBody) by (rewrite P; discriminate).
    pose proof (run_pass k r m ins PB G) as R.
    destruct (scan_hdr_list hs r (mpos m) P W LK) as (r1 & S1 & P1 & _); [lia|lia|].
    rewrite E1, scan_app, S1 in R. cbn [scan] in R. rewrite (step_hdr r1 HKeyInit) in R by (auto; reflexivity).
    unfold hdr_byte in R. change (13 =? CR) with true in R. cbv iota in R. apply R. clear R.
    destruct k as [|k]; [intros ? ? ? X; discriminate X|].
    set (r2 := set_ph r1 (PHdrs HDoneSt)). pose proof (run_pass k r2 m ins ltac:(discriminate) G) as R.
    destruct (mdata m) as [|b d] eqn:DM; [contradiction|].
    assert (NB : b <> 10).
    { destruct hs as [|h hs]; [injection E1 as -> _; discriminate|]. cbn [map List.concat] in E1. unfold print_hdr in E1.
      destruct (Forall_inv W) as (Nn & Tn & _). destruct (h_name h) as [|c n]; [contradiction|]. injection E1 as -> _.
      pose proof (Forall_inv Tn) as T. unfold text in T. lia. }
    cbn [scan] in R. unfold byte_step, r2 in R. cbn [q_ph set_ph] in R. unfold hdr_byte, LF in R.
    destruct (Z.eqb_spec b 10); [contradiction|]. destruct (bad_byte b); exact R.
Qed.

(** a proper part of the request line never completes either *)
Lemma part_line k m ins q x : wf_req q -> meta_wf m -> 1 <= meta_getlen m -> x <> [] -> mdata m ++ x = print_line q ->
  never (http_run k req_new m ins).
Proof.
  intros W Wm G NX E. assert (NM : mdata m <> []) by (intros X; rewrite <- mdata_len, X, zlen_nil in G by assumption; lia).
  rewrite open_line_eq in E. destruct (split_app _ _ _ _ E) as [(z & E1 & E2)|(z & NZ & E1 & E2)].
  - destruct z as [|z0 z'] eqn:EZ0.
    + (* everything but the last byte *)
      rewrite app_nil_r in E1. destruct k as [|k]; [intros ? ? ? X; discriminate X|].
      pose proof (run_pass k req_new m ins ltac:(discriminate) G) as R.
      destruct (scan_line req_new (mpos m) q [] eq_refl W) as (r' & S & P & _).
      rewrite app_nil_r, open_line_eq, scan_app, E1 in S.
      pose proof (scan_chars (mdata m) req_new (mpos m) I) as SH.
      destruct (scan req_new (mpos m) (mdata m)) as [r1|r1 p| |f]; try discriminate S.
      * apply R. clear R. cbn [scan] in S. destruct (byte_step r1 _ 10) as [r2|r2| |f] eqn:BS; try discriminate S.
        injection S as -> _. pose proof (lf_state _ _ _ BS P) as LS.
        destruct k as [|k]; [intros ? ? ? X; discriminate X|].
        assert (PB : q_ph r1 <> PBody) by (intros X; unfold byte_step in BS; rewrite X in BS; discriminate BS).
        pose proof (run_pass k r1 m ins PB G) as R. destruct (mdata m) as [|b d] eqn:DM; [contradiction|].
        assert (NB : b <> 10).
        { pose proof W as ((Nm & Fm) & _). unfold open_line in E1. destruct (rq_method q) as [|c n]; [contradiction|].
          injection E1 as <- _. pose proof (Forall_inv Fm) as T. unfold visible in T. lia. }
        assert (BE : byte_step r1 (mpos m) b = BErr).
        { revert BS. generalize (mpos m + zlen (b :: d)). intros pp BS.
          pose proof (lf_state r1 pp r' BS P b NB) as X. clear - X BS NB. unfold byte_step in *.
          destruct (bad_byte b); [reflexivity|]. change (bad_byte 10) with false in BS. cbv iota in BS.
          destruct (q_ph r1) as [s|s|]; [| |reflexivity].
          - destruct s; unfold line_byte in BS; cbn zeta in BS;
              repeat match type of BS with context[if ?c then _ else _] => destruct c end; try discriminate BS. exact X.
          - destruct s; unfold hdr_byte in BS; cbn zeta in BS;
              repeat match type of BS with context[if ?c then _ else _] => destruct c end; try discriminate BS;
              try (destruct (with_kv_not_done _ _ _ _ BS); fail). exact X. }
        cbn [scan] in R. rewrite BE in R. exact R.
      * exfalso. injection S as -> EP. destruct SH as (_ & SH & _). rewrite zlen_app in EP. change (zlen [10]) with 1 in EP. lia.
    + (* no CR yet *)
      rewrite <- EZ0 in *. assert (NC : ~ In 13 (mdata m)).
      { intros X. assert (exists u, open_line q = u ++ [13] /\ ~ In 13 u) as (u & EU & NU).
        { exists (rq_method q ++ [32] ++ print_target (rq_target q) ++ [32] ++ rq_version q). unfold open_line.
          rewrite <- !app_assoc. split; [reflexivity|].
          destruct W as ((_ & Fm) & _ & Wt & (_ & Fv) & _).
          assert (V : forall w, Forall visible w -> ~ In 13 w).
          { intros w F Y. rewrite Forall_forall in F. specialize (F _ Y). unfold visible in F. lia. }
          assert (T : ~ In 13 (print_target (rq_target q))).
          { destruct (rq_target q) as [v|s h [po|] v]; cbn [print_target wf_target] in *.
            - apply V, Wt.
            - destruct Wt as ((_ & A) & _ & _ & (_ & B) & _ & _ & ((_ & C) & _) & (D & _)).
              rewrite !in_app_iff. apply V in A, B, C, D. cbn. intuition discriminate.
            - destruct Wt as ((_ & A) & _ & _ & (_ & B) & _ & _ & _ & (D & _)).
              rewrite !in_app_iff. apply V in A, B, D. cbn. intuition discriminate. }
          apply V in Fm, Fv. rewrite !in_app_iff. cbn. intuition discriminate. }
        rewrite EU in E1. assert (NZ : z <> []) by (rewrite EZ0; discriminate).
        destruct (exists_last NZ) as (z1 & zl & EZ). rewrite EZ, app_assoc in E1. apply app_inj_tail in E1 as (E1 & _).
        apply NU. rewrite E1. apply in_or_app. left. exact X. }
      destruct (nocr_run k req_new m ins I Wm G NC) as [->| ->]; intros ? ? ? X; discriminate X.
  - exfalso. destruct z as [|z1 z]; [contradiction|]. injection E2 as _ E2. symmetry in E2. apply app_eq_nil in E2 as (_ & E2). contradiction.
Qed.

(** ** All segmentations of a head *)
(** the pieces that arrive *)
Fixpoint datas (ins : list rx) : list (list Z) :=
  match ins with
  | [] => []
  | RxData d :: t => d :: datas t
  | _ :: t => datas t
  end.

Lemma clean_first : forall ins, clean ins -> exists n,
  ins = repeat RxAgain n \/ exists d t, ins = repeat RxAgain n ++ RxData d :: t /\ d <> [] /\ clean t.
Proof.
  induction ins as [|i ins IH]; intros C; [exists 0%nat; left; reflexivity|].
  pose proof (Forall_inv C) as C1. pose proof (Forall_inv_tail C) as C2. destruct i as [d| |].
  - exists 0%nat. right. exists d, ins. auto.
  - destruct (IH C2) as (n & [->|(d & t & -> & N & CT)]); exists (Datatypes.S n); [left; reflexivity|].
    right. exists d, t. auto.
  - contradiction.
Qed.
Lemma datas_again n t : datas (repeat RxAgain n ++ t) = datas t.
Proof. induction n; [reflexivity|exact IHn]. Qed.
Lemma flat_again n t : flat (repeat RxAgain n ++ t) = flat t.
Proof. induction n; [reflexivity|exact IHn]. Qed.
Lemma flat_datas ins : flat ins = List.concat (datas ins).
Proof. induction ins as [|[d| |] t IH]; cbn; rewrite ?IH; reflexivity. Qed.
Lemma clean_flat ins : clean ins -> flat ins = [] -> exists n, ins = repeat RxAgain n.
Proof.
  intros C F. destruct (clean_first ins C) as (n & [->|(d & t & -> & N & _)]); [exists n; reflexivity|].
  rewrite flat_again in F. cbn [flat] in F. apply app_eq_nil in F as (F & _). contradiction.
Qed.

Lemma again_never k r m n ins : q_ph r <> PBody -> meta_getlen m < 1 -> 1 <= meta_getfree m ->
  (forall k, never (http_run k r m ins)) -> never (http_run k r m (repeat RxAgain n ++ ins)).
Proof.
  intros P G F H. destruct (Nat.le_gt_cases n k) as [L|L].
  - replace k with (n + (k - n))%nat by lia. rewrite run_again by assumption. apply H.
  - revert k L. induction n as [|n IH]; intros k L; [lia|]. destruct k as [|k]; [intros ? ? ? X; discriminate X|].
    cbn [repeat app http_run].
    destruct (q_ph r) eqn:E; [| |contradiction];
      (destruct (Z.ltb_spec (meta_getlen m) 1); [|lia]; unfold do_recv;
       destruct (Z.ltb_spec (meta_getfree m) 1); [lia|]; cbn [bind]; apply IH; lia).
Qed.
Lemma wait_never k r m n : q_ph r <> PBody -> meta_getlen m < 1 -> 1 <= meta_getfree m -> never (http_run k r m (repeat RxAgain n)).
Proof.
  intros P G F. rewrite <- (app_nil_r (repeat RxAgain n)). apply again_never; auto. clear k. intros [|k]; [intros ? ? ? X; discriminate X|].
  cbn [http_run]. destruct (q_ph r) eqn:E; [| |contradiction];
      (destruct (Z.ltb_spec (meta_getlen m) 1); [|lia]; unfold do_recv;
       destruct (Z.ltb_spec (meta_getfree m) 1); [lia|]; cbn [bind]; intros ? ? ? X; discriminate X).
Qed.

(** the first piece is a proper part of the head other than its first line *)
Lemma part_start fuel q d x ins : small q -> d <> [] -> x <> [] -> d ++ x = print_req q -> d <> print_line q ->
  never (http_start fuel (RxData d :: ins)).
Proof.
  intros SM ND NX E NL. destruct fuel as [|k]; [intros ? ? ? X; discriminate X|].
  destruct d as [|b t] eqn:EQ; [contradiction|]. destruct (new_run k b t ins) as (m & R & Wm & Cm & Pm & Dm).
  rewrite R. clear R. rewrite <- EQ in *. pose proof SM as (W & L15 & FIT).
  assert (LD : zlen d + zlen x = zlen (print_req q)) by (rewrite <- E, zlen_app; reflexivity).
  pose proof (zlen_nonneg x). rewrite ztake_all in Dm by lia.
  assert (G : 1 <= meta_getlen m) by (rewrite <- mdata_len, Dm, EQ, zlen_cons by assumption; pose proof (zlen_nonneg t); lia).
  unfold print_req in E. destruct (split_app _ _ _ _ E) as [(z & E1 & E2)|(z & NZ & E1 & E2)].
  - destruct z as [|z0 z]; [exfalso; apply NL; rewrite E1, app_nil_r; reflexivity|].
    apply (part_line _ _ _ q (z0 :: z)); auto; [discriminate|]. rewrite Dm. symmetry. exact E1.
  - rewrite E1 in Dm. destruct (run_line k req_new m (unread d 4096 ins) q z eq_refl W Wm Dm) as (r1 & R1 & P1 & F1 & L1).
    rewrite R1. destruct F1 as (F1 & F2 & _).
    destruct (meta_consume_ok m (zlen (print_line q)) Wm) as (W2 & D2).
    { rewrite <- mdata_len by assumption. rewrite Dm, zlen_app. pose proof (zlen_nonneg z). pose proof (zlen_nonneg (print_line q)). lia. }
    unfold meta_consume in W2, D2. rewrite Dm, zdrop_app_r, Z.sub_diag, zdrop_le0 in D2 by lia.
    destruct W as (_ & _ & _ & _ & Wh).
    apply (part_hdrs _ _ _ _ (rq_headers q) x); auto.
    + rewrite F2. reflexivity.
    + rewrite <- mdata_len by assumption. rewrite D2. destruct z; [contradiction|]. rewrite zlen_cons. pose proof (zlen_nonneg z0). lia.
    + rewrite D2. exact NZ.
    + rewrite D2. symmetry. exact E2.
Qed.

(** the first line has arrived, and then a proper part of the headers *)
Lemma part_second k q e x ins n : small q -> e <> [] -> x <> [] -> e ++ x = print_hdrs (rq_headers q) ->
  never (http_start k (RxData (print_line q) :: repeat RxAgain n ++ RxData e :: ins)).
Proof.
  intros SM NE NX E. pose proof SM as (W & L15 & FIT).
  destruct k as [|k]; [intros ? ? ? X; discriminate X|]. destruct (print_line_cons q SM) as (b & t & EQ).
  set (I2 := repeat RxAgain n ++ RxData e :: ins).
  destruct (new_run k b t I2) as (m & R & Wm & Cm & Pm & Dm). rewrite <- EQ in *. rewrite R. clear R.
  assert (PL : zlen (print_req q) = zlen (print_line q) + (zlen e + zlen x)) by (unfold print_req; rewrite <- E, !zlen_app; reflexivity).
  pose proof (zlen_nonneg x). pose proof (zlen_nonneg (print_line q)).
  assert (LE : 1 <= zlen e) by (destruct e; [contradiction|]; rewrite zlen_cons; pose proof (zlen_nonneg e); lia).
  rewrite ztake_all in Dm by lia. unfold unread. destruct (Z.leb_spec (zlen (print_line q)) 4096); [|lia].
  assert (Dm' : mdata m = print_line q ++ []) by (rewrite app_nil_r; exact Dm).
  destruct (run_line k req_new m I2 q _ eq_refl W Wm Dm') as (r1 & R1 & P1 & F1 & L1). rewrite R1. clear R1. destruct F1 as (F1 & F2 & _).
  pose proof (mdata_len m Wm) as DL. rewrite Dm in DL. unfold meta_getlen in DL.
  destruct (meta_consume_ok m (zlen (print_line q)) Wm) as (W2 & D2); [unfold meta_getlen; lia|].
  unfold meta_consume in W2, D2. rewrite Dm, zdrop_all in D2 by lia.
  set (m1 := mkMeta (mbuf m) (mpos m + zlen (print_line q)) (mlast m)) in *.
  assert (G1 : meta_getfree m1 = 4096 - zlen (print_line q)) by (unfold meta_getfree, meta_cap, m1 in *; cbn [mlast mbuf] in *; lia).
  assert (L0 : meta_getlen m1 < 1) by (unfold meta_getlen, m1; cbn [mlast mpos]; lia).
  apply again_never; [rewrite P1; discriminate|exact L0|lia|]. clear k. intros k.
  destruct k as [|k]; [intros ? ? ? X; discriminate X|].
  destruct e as [|c ct] eqn:EE; [contradiction|].
  destruct (do_recv_data m1 c ct ins W2) as (m2 & R & W3 & D3 & C3 & P3 & _); [lia|]. rewrite <- EE in *.
  rewrite D2, ztake_all in D3 by lia. cbn [app] in D3.
  assert (G2 : 1 <= meta_getlen m2) by (rewrite <- mdata_len by assumption; rewrite D3; lia).
  assert (RR : http_run (Datatypes.S k) r1 m1 (RxData e :: ins) = http_run (Datatypes.S k) r1 m2 (unread e (meta_getfree m1) ins)).
  { cbn [http_run]. rewrite P1. destruct (Z.ltb_spec (meta_getlen m1) 1); [|lia]. rewrite R. cbn [bind].
    destruct (Z.ltb_spec (meta_getlen m2) 1); [lia|]. reflexivity. }
  rewrite RR. destruct W as (_ & _ & _ & _ & Wh).
  apply (part_hdrs _ _ _ _ (rq_headers q) x); auto; [rewrite F2; reflexivity|congruence|rewrite D3; exact E].
Qed.

Definition completes (ins : list rx) : Prop := exists fuel r m i, http_start fuel ins = Ok (HComplete r m i).

(** Whatever the pieces in which a request without a body arrives, and however many
    would-block results come in between: the server completes it exactly if all of it came
    at once, or the request line in one piece and all headers in the second. *)
Theorem C50_exactly : forall q ins, small q -> Forall not_clen (rq_headers q) -> clean ins -> flat ins = print_req q ->
  (completes ins <-> datas ins = [print_req q] \/ datas ins = [print_line q; print_hdrs (rq_headers q)]).
Proof.
  intros q ins SM NC CL FL. pose proof SM as (W & L15 & FIT).
  destruct (meta_new_wf 4096) as (Wn & Cn & Dn); [lia|].
  assert (G0 : meta_getlen (meta_new 4096) < 1) by (vm_compute; reflexivity).
  assert (F0 : 1 <= meta_getfree (meta_new 4096)) by (vm_compute; discriminate).
  assert (NR : print_req q <> []).
  { destruct (print_line_cons q SM) as (b & t & EQ). unfold print_req. rewrite EQ. discriminate. }
  assert (NH : print_hdrs (rq_headers q) <> []).
  { unfold print_hdrs, crlf. intros X. apply app_eq_nil in X as (_ & X). discriminate X. }
  destruct (clean_first ins CL) as (n & [->|(d & t & -> & ND & CT)]).
  { exfalso. apply NR. rewrite <- FL, <- (app_nil_r (repeat RxAgain n)), flat_again. reflexivity. }
  rewrite datas_again. rewrite flat_again in FL. cbn [datas flat] in *. split.
  - intros (fuel & r & m & i & R). unfold http_start in R.
    assert (H : ~ forall k, never (http_start k (RxData d :: t))).
    { intros H. eapply (again_never fuel req_new (meta_new 4096) n (RxData d :: t)); eauto; discriminate. }
    destruct (list_eq_dec Z.eq_dec (flat t) []) as [E0|N0].
    { left. rewrite E0, app_nil_r in FL. rewrite <- FL. destruct (clean_flat t CT E0) as (n2 & ->).
      rewrite <- (app_nil_r (repeat RxAgain n2)), datas_again. reflexivity. }
    destruct (list_eq_dec Z.eq_dec d (print_line q)) as [ED|NL].
    2:{ exfalso. apply H. intros k. apply (part_start k q d (flat t)); assumption. }
    right. subst d. unfold print_req in FL. apply app_inv_head in FL.
    destruct (clean_first t CT) as (n2 & [->|(e & t2 & -> & NE & CT2)]).
    { exfalso. apply N0. rewrite <- (app_nil_r (repeat RxAgain n2)), flat_again. reflexivity. }
    rewrite datas_again. rewrite flat_again in FL. cbn [datas flat] in *.
    destruct (list_eq_dec Z.eq_dec (flat t2) []) as [E2|N2].
    + rewrite E2, app_nil_r in FL. rewrite <- FL. destruct (clean_flat t2 CT2 E2) as (n3 & ->).
      rewrite <- (app_nil_r (repeat RxAgain n3)), datas_again. reflexivity.
    + exfalso. apply H. intros k. apply (part_second k q e (flat t2)); assumption.
  - intros [E|E].
    + injection E as -> E. destruct (C49_partial q [] t 3%nat SM NC ltac:(lia)) as (r & m & i & R & _). rewrite app_nil_r in R.
      exists (n + 3)%nat, r, m, i. unfold http_start in *. rewrite run_again; [exact R|discriminate|assumption|assumption].
    + injection E as -> E. unfold print_req in FL. apply app_inv_head in FL.
      destruct (clean_first t CT) as (n2 & [->|(e & t2 & -> & NE & CT2)]).
      { rewrite <- (app_nil_r (repeat RxAgain n2)), datas_again in E. discriminate E. }
      rewrite datas_again in E. cbn [datas] in E. injection E as -> E.
      destruct (C50_partial q n n2 [] t2 0%nat SM NC) as (r & m & i & R & _). unfold two_pieces in R. rewrite app_nil_r in R.
      eexists _, r, m, i. exact R.
Qed.
Print Assumptions C50_exactly.

(** fuel does not matter once the outcome is there *)
Lemma run_mono : forall f r m ins o, http_run f r m ins = Ok o -> forall g, (f <= g)%nat -> http_run g r m ins = Ok o.
Proof.
  induction f as [|f IH]; intros r m ins o R g L; [discriminate R|]. destruct g as [|g]; [lia|].
  assert (L' : (f <= g)%nat) by lia. cbn [http_run] in *. unfold bind in *.
  repeat match type of R with
  | http_run f _ _ _ = _ => exact (IH _ _ _ _ R g L')
  | (match ?x with _ => _ end) = _ => destruct x; try discriminate R
  end; exact R.
Qed.
Lemma run_det f g r m ins o o' : http_run f r m ins = Ok o -> http_run g r m ins = Ok o' -> o = o'.
Proof.
  intros A B. destruct (Nat.le_ge_cases f g) as [L|L]; [pose proof (run_mono _ _ _ _ _ A g L)|pose proof (run_mono _ _ _ _ _ B f L)]; congruence.
Qed.

(** what the server then believes the request to be is what was sent *)
Theorem C50_same : forall q ins fuel r m i, small q -> Forall not_clen (rq_headers q) -> clean ins -> flat ins = print_req q ->
  http_start fuel ins = Ok (HComplete r m i) ->
  view (mbuf m) r = meaning_of q /\ mdata m = [] /\ flat i = [].
Proof.
  intros q ins fuel r m i SM NC CL FL R. pose proof (C50_exactly q ins SM NC CL FL) as X.
  destruct X as (X & _). specialize (X ltac:(do 4 eexists; exact R)).
  assert (G0 : meta_getlen (meta_new 4096) < 1) by (vm_compute; reflexivity).
  assert (F0 : 1 <= meta_getfree (meta_new 4096)) by (vm_compute; discriminate).
  destruct (clean_first ins CL) as (n & [->|(d & t & -> & ND & CT)]).
  { rewrite <- (app_nil_r (repeat RxAgain n)), datas_again in X. destruct X; discriminate. }
  rewrite flat_again in FL. rewrite datas_again in X. cbn [datas flat] in X, FL.
  assert (OUT : forall g r' m' i', http_start g (repeat RxAgain n ++ RxData d :: t) = Ok (HComplete r' m' i') ->
    view (mbuf m') r' = meaning_of q -> mdata m' ++ flat i' = [] -> view (mbuf m) r = meaning_of q /\ mdata m = [] /\ flat i = []).
  { intros g r' m' i' R' V E. unfold http_start in R, R'. pose proof (run_det _ _ _ _ _ _ _ R R') as Y. injection Y as -> -> ->.
    apply app_eq_nil in E as (E1 & E2). auto. }
  destruct X as [E|E]; injection E as -> E.
  - destruct (C49_partial q [] t 3%nat SM NC ltac:(lia)) as (r' & m' & i' & R' & V & D). rewrite app_nil_r in R'.
    apply (OUT (n + 3)%nat r' m' i'); [|exact V|].
    + unfold http_start in *. rewrite run_again; [exact R'|discriminate|assumption|assumption].
    + rewrite D. cbn [app]. rewrite flat_datas, E. reflexivity.
  - destruct (clean_first t CT) as (n2 & [->|(e & t2 & -> & NE & CT2)]).
    { rewrite <- (app_nil_r (repeat RxAgain n2)), datas_again in E. discriminate E. }
    rewrite datas_again in E. cbn [datas] in E. injection E as -> E.
    destruct (C50_partial q n n2 [] t2 0%nat SM NC) as (r' & m' & i' & R' & V & D). unfold two_pieces in R'. rewrite app_nil_r in R'.
    apply (OUT _ r' m' i' R' V). rewrite D. cbn [app]. rewrite flat_datas, E. reflexivity.
Qed.
Print Assumptions C50_same.

(** with would-block results in between; and three ways to cut the same request that never complete *)
Definition ex_line : list Z := print_line q_simple.
Definition ex_hdrs : list Z := print_hdrs (rq_headers q_simple).
Lemma q_simple_not_clen : Forall not_clen (rq_headers q_simple).
Proof. repeat (apply Forall_cons; [apply not_clen_b; reflexivity|]). apply Forall_nil. Qed.
Ltac cleans := repeat (apply Forall_cons; [cbn; first [exact I|vm_compute; discriminate]|]); apply Forall_nil.
Example ex_C50_exactly :
  completes [RxAgain; RxData ex_line; RxAgain; RxAgain; RxData ex_hdrs; RxAgain] /\
  ~ completes [RxData (ex_line ++ str "Host: a" ++ crlf); RxData crlf] /\
  ~ completes [RxData ex_line; RxData (str "Host: a" ++ crlf); RxData crlf] /\
  ~ completes [RxData (str "GET /index.html "); RxData (zdrop 16 (print_req q_simple))].
Proof.
  assert (N : forall ins, clean ins -> flat ins = print_req q_simple -> datas ins <> [print_req q_simple] ->
    datas ins <> [ex_line; ex_hdrs] -> ~ completes ins).
  { intros ins C F D1 D2 X. apply (C50_exactly q_simple ins q_simple_small q_simple_not_clen C F) in X. destruct X; auto. }
  split; [|split; [|split]].
  - apply (C50_exactly q_simple _ q_simple_small q_simple_not_clen); [cleans|reflexivity|]. right. reflexivity.
  - apply N; [cleans|reflexivity|discriminate|discriminate].
  - apply N; [cleans|reflexivity|discriminate|discriminate].
  - apply N; [cleans|reflexivity|discriminate|discriminate].
Qed.
