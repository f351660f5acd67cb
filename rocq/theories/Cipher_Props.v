(** * Properties of the cipher functions (C125-C129) *)
From Coq Require Import String.
From Coq Require Import Bool Lia.
From Verif Require Import Base Str_Spec Cipher_Model.
Open Scope Z_scope.
Local Arguments Z.add : simpl never.
Local Arguments Z.sub : simpl never.
Local Arguments Z.leb : simpl never.
Local Arguments Z.ltb : simpl never.
Local Arguments Z.lxor : simpl never.

(** ** Specification *)
(** bytewise exclusive or, as far as both go *)
Fixpoint xor2 (a b : list Z) : list Z :=
  match a, b with x :: a', y :: b' => Z.lxor x y :: xor2 a' b' | _, _ => [] end.
(** the buffer [b'] is [b] with its beginning overwritten by [d] *)
Definition holds (d b b' : list Z) : Prop := b' = d ++ zdrop (zlen d) b.
Definition all_ok (e : evp) : Prop := e_new e = true /\ e_upd e = true /\ e_fin e = true.
Definition gall_ok (o : gok) : Prop := o_upd o = true /\ o_tag o = true /\ o_fin o = true.

(** ** Writing to buffers *)
Lemma put_0 d b : zlen d <= zlen b -> put 0 d b = Ok (d ++ zdrop (zlen d) b).
Proof.
  intros L. unfold put. rewrite Z.add_0_l.
  destruct (Z.leb_spec 0 0); [| lia]. destruct (Z.leb_spec (zlen d) (zlen b)); [| lia].
  cbn [andb]. rewrite ztake_le0 by lia. reflexivity.
Qed.
Lemma put_nil o b : 0 <= o <= zlen b -> put o [] b = Ok b.
Proof.
  intros L. unfold put. change (zlen []) with 0. replace (o + 0) with o by lia.
  destruct (Z.leb_spec 0 o); [| lia]. destruct (Z.leb_spec o (zlen b)); [| lia].
  cbn [andb app]. rewrite ztake_zdrop. reflexivity.
Qed.
Lemma zlen_over d (b : list Z) : zlen d <= zlen b -> zlen (d ++ zdrop (zlen d) b) = zlen b.
Proof.
  intros L. rewrite zlen_app, zlen_zdrop by apply zlen_nonneg. lia.
Qed.
Lemma take_over d (b : list Z) : ztake (zlen d) (d ++ b) = d.
Proof. rewrite ztake_app_l by lia. apply ztake_all. lia. Qed.

(** ** The modes of operation *)
Lemma cfb8_enc_len blk m : forall r, zlen (cfb8_enc blk r m) = zlen m.
Proof.
  induction m as [| a m IH]; intros r; [reflexivity |]. cbn [cfb8_enc].
  rewrite !zlen_cons, IH. reflexivity.
Qed.
Lemma cfb8_dec_len blk m : forall r, zlen (cfb8_dec blk r m) = zlen m.
Proof.
  induction m as [| a m IH]; intros r; [reflexivity |]. cbn [cfb8_dec].
  rewrite !zlen_cons, IH. reflexivity.
Qed.
Lemma lxor_twice a b : Z.lxor (Z.lxor a b) b = a.
Proof. rewrite Z.lxor_assoc, Z.lxor_nilpotent, Z.lxor_0_r. reflexivity. Qed.
Lemma cfb8_round blk m : forall r, cfb8_dec blk r (cfb8_enc blk r m) = m.
Proof.
  induction m as [| a m IH]; intros r; [reflexivity |]. cbn [cfb8_enc cfb8_dec].
  rewrite lxor_twice, IH. reflexivity.
Qed.
Lemma cfb8_prefix blk x m1 m2 :
  forall r, ztake (zlen x) (cfb8_enc blk r (x ++ m1)) = ztake (zlen x) (cfb8_enc blk r (x ++ m2)).
Proof.
  induction x as [| a x IH]; intros r.
  - rewrite !ztake_le0 by (rewrite zlen_nil; lia). reflexivity.
  - cbn [app cfb8_enc]. pose proof (zlen_nonneg x).
    rewrite zlen_cons, !ztake_cons by lia.
    replace (1 + zlen x - 1) with (zlen x) by lia. rewrite IH. reflexivity.
Qed.
Lemma xors_len ks m : forall p, zlen (xors ks p m) = zlen m.
Proof.
  induction m as [| a m IH]; intros p; [reflexivity |]. cbn [xors].
  rewrite !zlen_cons, IH. reflexivity.
Qed.
Lemma xors_round ks m : forall p, xors ks p (xors ks p m) = m.
Proof.
  induction m as [| a m IH]; intros p; [reflexivity |]. cbn [xors].
  rewrite lxor_twice, IH. reflexivity.
Qed.
Lemma xors_xor2 ks m : forall p d,
  zlen d = zlen m -> xors ks p (xor2 (xors ks p m) d) = xor2 m d.
Proof.
  induction m as [| a m IH]; intros p d L; [reflexivity |].
  destruct d as [| x d]; [reflexivity |]. rewrite !zlen_cons in L. cbn [xors xor2].
  rewrite IH by lia. f_equal. rewrite Z.lxor_assoc, (Z.lxor_comm x), <- Z.lxor_assoc.
  rewrite lxor_twice. reflexivity.
Qed.
Lemma xors_known ks m1 : forall p m2, zlen m2 <= zlen m1 ->
  xor2 (xor2 (xors ks p m1) m1) (xors ks p m2) = m2.
Proof.
  induction m1 as [| a m1 IH]; intros p m2 L.
  - rewrite zlen_nil in L. pose proof (zlen_nonneg m2).
    rewrite (zlen_0_nil m2) by lia. reflexivity.
  - destruct m2 as [| b m2]; [reflexivity |]. rewrite !zlen_cons in L. cbn [xors xor2].
    rewrite IH by lia. f_equal.
    rewrite (Z.lxor_comm a (ks p)), lxor_twice, (Z.lxor_comm b), <- Z.lxor_assoc.
    rewrite Z.lxor_nilpotent, Z.lxor_0_l. reflexivity.
Qed.
Lemma xor2_len a : forall b, zlen b = zlen a -> zlen (xor2 a b) = zlen a.
Proof.
  induction a as [| x a IH]; intros b L; [reflexivity |].
  destruct b as [| y b]; [rewrite zlen_nil, zlen_cons in L; pose proof (zlen_nonneg a); lia |].
  rewrite !zlen_cons in *. cbn [xor2]. rewrite zlen_cons, IH by lia. reflexivity.
Qed.

(** ** C125 *)
Lemma cfb_run_spec f e m out :
  (forall x, zlen (f x) = zlen x) -> zlen m <= zlen out ->
  exists n b, cfb_run f e m out = Ok (n, b) /\
    ((n = zlen m /\ m <> [] /\ holds (f m) out b) \/ (n = 0 /\ b = out)) /\
    (all_ok e -> n = zlen m).
Proof.
  intros F L. unfold cfb_run, holds. destruct (Z.ltb_spec (zlen m) 1) as [N | N].
  - exists 0, out. split; [reflexivity |]. split; [right; auto |].
    intros _. pose proof (zlen_nonneg m). lia.
  - assert (m <> []) by (intros ->; rewrite zlen_nil in N; lia).
    assert (Lf : zlen (f m) <= zlen out) by (rewrite F; exact L).
    destruct e as [[|] [|] [|]]; cbn [e_new e_upd e_fin];
      unfold all_ok; cbn [e_new e_upd e_fin];
      try (exists 0, out; split; [reflexivity |]; split; [right; auto |];
           intros (? & ? & ?); discriminate).
    + rewrite (put_0 (f m) out Lf). cbn [bind].
      rewrite put_nil by (rewrite (zlen_over (f m) out Lf); pose proof (zlen_nonneg m); lia).
      cbn [bind]. exists (zlen m + 0), (f m ++ zdrop (zlen (f m)) out).
      split; [reflexivity |]. split; [left; repeat split; auto; lia | intros; lia].
    + rewrite (put_0 (f m) out Lf). cbn [bind].
      exists (zlen m), (f m ++ zdrop (zlen (f m)) out).
      split; [reflexivity |]. split; [left; repeat split; auto; lia | intros; lia].
Qed.

(** Encrypting and decrypting with the CFB functions: what was encrypted comes back, and the
    return values tell whether the functions worked: nothing is written unless the whole
    length is returned. *)
Theorem C125_cfb : forall blk e1 m out1,
  zlen m <= zlen out1 ->
  exists n c, aes_cfb_encrypt blk e1 m out1 = Ok (n, c) /\ zlen c = zlen out1 /\
    (n <> zlen m -> n = 0 /\ c = out1) /\ (all_ok e1 -> n = zlen m) /\
    (n = zlen m -> forall e2 out2, zlen m <= zlen out2 ->
       exists k p, aes_cfb_decrypt blk e2 (ztake n c) out2 = Ok (k, p) /\
         (k <> zlen m -> k = 0 /\ p = out2) /\ (all_ok e2 -> k = zlen m) /\
         (k = zlen m -> holds m out2 p)).
Proof.
  intros blk e1 m out1 L.
  destruct (cfb_run_spec (cfb8_enc blk the_iv) e1 m out1) as (n & c & E & D & A);
    [intros x; apply cfb8_enc_len | exact L |].
  exists n, c. split; [exact E |].
  assert (LE : zlen (cfb8_enc blk the_iv m) <= zlen out1) by (rewrite cfb8_enc_len; exact L).
  split.
  { destruct D as [(_ & _ & ->) | (_ & ->)]; [apply zlen_over; exact LE | reflexivity]. }
  split; [intros N; destruct D as [(N' & _) | D]; [contradiction | exact D] |].
  split; [exact A |].
  intros Hn e2 out2 L2.
  assert (T : ztake n c = cfb8_enc blk the_iv m).
  { destruct D as [(_ & _ & ->) | (N & ->)].
    - rewrite Hn, <- (cfb8_enc_len blk m the_iv) at 1. apply take_over.
    - rewrite Hn in N. rewrite Hn, (zlen_0_nil m N). reflexivity. }
  assert (LT : zlen (ztake n c) = zlen m) by (rewrite T; apply cfb8_enc_len).
  destruct (cfb_run_spec (cfb8_dec blk the_iv) e2 (ztake n c) out2) as (k & p & E2 & D2 & A2);
    [intros x; apply cfb8_dec_len | rewrite LT; exact L2 |].
  exists k, p. split; [exact E2 |]. rewrite LT in D2, A2.
  split; [intros N; destruct D2 as [(N' & _) | D']; [contradiction | exact D'] |].
  split; [exact A2 |].
  intros Hk. destruct D2 as [(_ & _ & H) | (N & ->)].
  - rewrite T, cfb8_round in H. exact H.
  - rewrite Hk in N. unfold holds. rewrite (zlen_0_nil m N). reflexivity.
Qed.
Print Assumptions C125_cfb.

(** a block function for examples *)
Definition toy_blk (r : list Z) : list Z := [(7 * fold_left Z.add r 0 + 3) mod 256].
Definition fine : evp := {| e_new := true; e_upd := true; e_fin := true |}.
Example C125_ex :
  exists c, aes_cfb_encrypt toy_blk fine (str "attack") (zrepeat 0 8) = Ok (6, c) /\
    ztake 6 c <> str "attack" /\
    aes_cfb_decrypt toy_blk fine (ztake 6 c) (zrepeat 1 7) = Ok (6, str "attack" ++ [1]).
Proof. eexists. vm_compute. repeat split; discriminate. Qed.

Lemma ctx_init_some i t c : ctx_init i t = Some c ->
  c = {| g_enc := t =? 0; g_ready := true; g_pos := 0; g_ct := []; g_tag := None |}.
Proof. unfold ctx_init. destruct (_ && _); [intros [= <-]; reflexivity | discriminate]. Qed.

(** what a call of [gcm_enc] on a new context does *)
Lemma gcm_enc_spec ks mac o m out tag :
  (forall x, zlen (mac x) = 16) -> zlen m <= zlen out -> 16 <= zlen tag ->
  exists n c' b t,
    gcm_enc ks mac o
      (Some {| g_enc := true; g_ready := true; g_pos := 0; g_ct := []; g_tag := None |})
      m out tag = Ok (n, c', b, t) /\
    ((n = zlen m /\ holds (xors ks 0 m) out b /\ holds (mac (xors ks 0 m)) tag t /\
      g_ready c' = false) \/ n = -1) /\ (gall_ok o <-> n = zlen m).
Proof.
  intros M L T. unfold gcm_enc, holds. cbn [g_enc g_ready g_pos g_ct g_tag andb app].
  assert (Lx : zlen (xors ks 0 m) <= zlen out) by (rewrite xors_len; exact L).
  pose proof (zlen_nonneg m) as P.
  destruct o as [[|] [|] [|]]; unfold gall_ok; cbn [o_upd o_tag o_fin];
    try rewrite (put_0 _ _ Lx); cbn [bind];
    try rewrite (put_nil (zlen m)) by (rewrite (zlen_over _ _ Lx); lia); cbn [bind];
    try rewrite (put_0 (mac (xors ks 0 m)) tag) by (rewrite M; exact T); cbn [bind];
    do 4 eexists; (split; [reflexivity |]); cbn [g_ready];
    (split; [first [right; reflexivity | left; repeat split; lia] |]);
    (split; [intros (? & ? & ?); try discriminate; lia | intros; first [lia | repeat split]]).
Qed.
(** and a call of [gcm_dec] *)
Lemma gcm_dec_spec ks mac o m out tag :
  zlen m <= zlen out -> 16 <= zlen tag ->
  exists n c' b,
    gcm_dec ks mac o
      (Some {| g_enc := false; g_ready := true; g_pos := 0; g_ct := []; g_tag := None |})
      m out tag = Ok (n, c', b) /\
    ((n = zlen m /\ mac m = ztake 16 tag /\ g_ready c' = false) \/ n = -1) /\
    (o_upd o = true -> holds (xors ks 0 m) out b) /\
    (gall_ok o -> mac m = ztake 16 tag -> n = zlen m) /\
    (n = zlen m -> gall_ok o).
Proof.
  intros L T. unfold gcm_dec, holds. cbn [g_enc g_ready g_pos g_ct g_tag andb app negb].
  assert (Lx : zlen (xors ks 0 m) <= zlen out) by (rewrite xors_len; exact L).
  pose proof (zlen_nonneg m) as P.
  destruct (Z.ltb_spec (zlen tag) 16); [lia |].
  destruct o as [[|] [|] [|]]; unfold gall_ok; cbn [o_upd o_tag o_fin andb];
    try rewrite (put_0 _ _ Lx); cbn [bind].
  1: { destruct (bseq (mac m) (ztake 16 tag)) eqn:B.
       - apply bseq_spec in B.
         rewrite (put_nil (zlen m)) by (rewrite (zlen_over _ _ Lx); lia). cbn [bind].
         do 3 eexists. split; [reflexivity |]. cbn [g_ready].
         split; [left; repeat split; [lia | exact B] |].
         split; [reflexivity | split; [intros; lia | repeat split]].
       - do 3 eexists. split; [reflexivity |]. split; [right; reflexivity |].
         split; [reflexivity |]. split; [intros _ E; apply bseq_spec in E; congruence | lia]. }
  all: do 3 eexists; (split; [reflexivity |]); (split; [right; reflexivity |]);
    (split; [intros; solve [reflexivity | discriminate] |]);
    (split; [intros (? & ? & ?); discriminate | lia]).
Qed.

(** The GCM functions, each with a new context. *)
Theorem C125_gcm : forall ks mac, (forall x, zlen (mac x) = 16) ->
  forall i1 i2 t2 c1 c2 o1 o2 m out1 tag1 out2,
  ctx_init i1 0 = Some c1 -> t2 <> 0 -> ctx_init i2 t2 = Some c2 ->
  zlen m <= zlen out1 -> 16 <= zlen tag1 -> zlen m <= zlen out2 ->
  exists n c1' ct tag, gcm_enc ks mac o1 (Some c1) m out1 tag1 = Ok (n, c1', ct, tag) /\
    (n = zlen m \/ n = -1) /\ (gall_ok o1 <-> n = zlen m) /\
    (n = zlen m ->
     exists k c2' p, gcm_dec ks mac o2 (Some c2) (ztake n ct) out2 tag = Ok (k, c2', p) /\
       (k = zlen m \/ k = -1) /\ (gall_ok o2 <-> k = zlen m) /\
       (k = zlen m -> holds m out2 p)).
Proof.
  intros ks mac M i1 i2 t2 c1 c2 o1 o2 m out1 tag1 out2 I1 T2 I2 L1 LT L2.
  apply ctx_init_some in I1, I2. apply Z.eqb_neq in T2. rewrite T2 in I2. subst c1 c2.
  change (0 =? 0) with true.
  destruct (gcm_enc_spec ks mac o1 m out1 tag1 M L1 LT) as (n & c1' & ct & tag & E & D & A).
  exists n, c1', ct, tag. split; [exact E |].
  split; [destruct D as [(? & _) | ?]; auto |]. split; [exact A |].
  intros Hn. destruct D as [(_ & Hct & Htag & _) | D]; [| pose proof (zlen_nonneg m); lia].
  unfold holds in Hct, Htag.
  assert (X : ztake n ct = xors ks 0 m).
  { rewrite Hct, Hn, <- (xors_len ks m 0) at 1. apply take_over. }
  assert (Y : ztake 16 tag = mac (xors ks 0 m)).
  { rewrite Htag, <- (M (xors ks 0 m)) at 1. apply take_over. }
  assert (LX : zlen (ztake n ct) = zlen m) by (rewrite X; apply xors_len).
  destruct (gcm_dec_spec ks mac o2 (ztake n ct) out2 tag) as (k & c2' & p & E2 & D2 & H2 & A2 & B2).
  { rewrite LX. exact L2. }
  { rewrite Htag, zlen_app, (M (xors ks 0 m)).
    pose proof (zlen_nonneg (zdrop 16 tag1)). lia. }
  exists k, c2', p. split; [exact E2 |]. rewrite LX in D2, A2, B2.
  split; [destruct D2 as [(? & _) | ?]; auto |].
  split; [split; [intros G; apply A2; [exact G | rewrite X, Y; reflexivity] | exact B2] |].
  intros Hk.
  destruct (B2 Hk) as (U & _).
  specialize (H2 U). rewrite X, xors_round in H2. exact H2.
Qed.
Print Assumptions C125_gcm.

Definition toy_ks (p : Z) : Z := (37 * p + 11) mod 256.
Definition toy_mac (x : list Z) : list Z := fold_left Z.lxor x 90 :: zrepeat 7 15.
Definition gfine : gok := {| o_upd := true; o_tag := true; o_fin := true |}.
Definition ifine : ginit := {| i_alloc := true; i_new := true; i_1 := true; i_2 := true; i_3 := true |}.
Lemma toy_mac_16 x : zlen (toy_mac x) = 16.
Proof. reflexivity. Qed.
Example C125_gcm_ex :
  exists c ct tag, gcm_enc toy_ks toy_mac gfine (ctx_init ifine 0) (str "attack")
      (zrepeat 0 6) (zrepeat 0 16) = Ok (6, c, ct, tag) /\ ct <> str "attack" /\
    exists c', gcm_dec toy_ks toy_mac gfine (ctx_init ifine 1) ct (zrepeat 0 9) tag
      = Ok (6, c', str "attack" ++ [0; 0; 0]).
Proof. do 3 eexists. vm_compute. repeat split; [discriminate | eexists; reflexivity]. Qed.

(** ** C126 *)
(** Someone who knows nothing about the key can tell from what the functions wrote whether two
    messages were the same, and whether they begin with the same [k] bytes. *)
Theorem C126_equal_refuted : exists tell : Z -> list Z -> list Z -> bool,
  forall blk e1 e2 m1 m2 out1 out2 n1 n2 c1 c2,
    all_ok e1 -> all_ok e2 -> zlen m1 <= zlen out1 -> zlen m2 <= zlen out2 ->
    aes_cfb_encrypt blk e1 m1 out1 = Ok (n1, c1) ->
    aes_cfb_encrypt blk e2 m2 out2 = Ok (n2, c2) ->
    forall k, 0 <= k ->
      (tell k (ztake n1 c1) (ztake n2 c2) = true <-> ztake k m1 = ztake k m2).
Proof.
  exists (fun k a b => bseq (ztake k a) (ztake k b)).
  intros blk e1 e2 m1 m2 out1 out2 n1 n2 c1 c2 A1 A2 L1 L2 E1 E2 k K.
  assert (G : forall e m out n c, all_ok e -> zlen m <= zlen out ->
            aes_cfb_encrypt blk e m out = Ok (n, c) -> ztake n c = cfb8_enc blk the_iv m).
  { intros e m out n c A L E.
    destruct (cfb_run_spec (cfb8_enc blk the_iv) e m out) as (n' & c' & E' & D & A');
      [intros x; apply cfb8_enc_len | exact L |].
    unfold aes_cfb_encrypt in E. rewrite E in E'. injection E' as -> ->.
    specialize (A' A). destruct D as [(_ & _ & ->) | (N & ->)].
    - rewrite A', <- (cfb8_enc_len blk m the_iv) at 1. apply take_over.
    - rewrite A' in N. rewrite A', (zlen_0_nil m N). reflexivity. }
  rewrite (G _ _ _ _ _ A1 L1 E1), (G _ _ _ _ _ A2 L2 E2), bseq_spec.
  assert (P : forall m r, ztake k (cfb8_enc blk r m) = cfb8_enc blk r (ztake k m)).
  { clear - K. revert K. intros K m. revert k K.
    induction m as [| a m IH]; intros k K r.
    - unfold ztake. rewrite !firstn_nil. reflexivity.
    - destruct (Z.eq_dec k 0) as [-> | N].
      + rewrite !ztake_le0 by lia. reflexivity.
      + cbn [cfb8_enc]. rewrite !ztake_cons by lia. cbn [cfb8_enc].
        rewrite IH by lia. reflexivity. }
  rewrite !P. split; intros H.
  - rewrite <- (cfb8_round blk (ztake k m1) the_iv), H. apply cfb8_round.
  - rewrite H. reflexivity.
Qed.
Print Assumptions C126_equal_refuted.
Example C126_equal_ex :
  exists n1 c1 n2 c2,
    aes_cfb_encrypt toy_blk fine (str "pin=1234") (zrepeat 0 9) = Ok (n1, c1) /\
    aes_cfb_encrypt toy_blk fine (str "pin=9999") (zrepeat 0 9) = Ok (n2, c2) /\
    ztake 4 c1 = ztake 4 c2 /\ ztake 5 c1 <> ztake 5 c2.
Proof. do 4 eexists. vm_compute. repeat split; discriminate. Qed.

(** Two messages encrypted with two new contexts: who knows the first reads the second (as far
    as the first goes), without the key. *)
Theorem C126_gcm_refuted : exists read : list Z -> list Z -> list Z -> list Z,
  forall ks mac, (forall x, zlen (mac x) = 16) ->
  forall i1 i2 ctx1 ctx2 o1 o2 m1 m2 out1 out2 tag1 tag2 n1 n2 ctx1' ctx2' c1 c2 t1 t2,
    ctx_init i1 0 = Some ctx1 -> ctx_init i2 0 = Some ctx2 ->
    zlen m1 <= zlen out1 -> zlen m2 <= zlen out2 -> 16 <= zlen tag1 -> 16 <= zlen tag2 ->
    gcm_enc ks mac o1 (Some ctx1) m1 out1 tag1 = Ok (n1, ctx1', c1, t1) -> 0 <= n1 ->
    gcm_enc ks mac o2 (Some ctx2) m2 out2 tag2 = Ok (n2, ctx2', c2, t2) -> 0 <= n2 ->
    zlen m2 <= zlen m1 ->
    read m1 (ztake n1 c1) (ztake n2 c2) = m2.
Proof.
  exists (fun m1 c1 c2 => xor2 (xor2 c1 m1) c2).
  intros ks mac M i1 i2 ctx1 ctx2 o1 o2 m1 m2 out1 out2 tag1 tag2 n1 n2 ctx1' ctx2' c1 c2 t1 t2
    I1 I2 L1 L2 T1 T2 E1 N1 E2 N2 L.
  assert (G : forall i ctx o m out tag n ctx' c t, ctx_init i 0 = Some ctx ->
            zlen m <= zlen out -> 16 <= zlen tag ->
            gcm_enc ks mac o (Some ctx) m out tag = Ok (n, ctx', c, t) -> 0 <= n ->
            ztake n c = xors ks 0 m).
  { clear - M. intros i ctx o m out tag n ctx' c t Hi L T E N.
    apply ctx_init_some in Hi. change (0 =? 0) with true in Hi. subst ctx.
    destruct (gcm_enc_spec ks mac o m out tag M L T) as (n' & x & b & y & E' & D & _).
    rewrite E in E'. injection E' as -> -> -> ->.
    destruct D as [(-> & -> & _) | D]; [| lia].
    rewrite <- (xors_len ks m 0) at 1. apply take_over. }
  rewrite (G _ _ _ _ _ _ _ _ _ _ I1 L1 T1 E1 N1), (G _ _ _ _ _ _ _ _ _ _ I2 L2 T2 E2 N2).
  apply xors_known. exact L.
Qed.
Print Assumptions C126_gcm_refuted.
Example C126_gcm_ex :
  exists x1 x2 c1 c2 t1 t2,
    gcm_enc toy_ks toy_mac gfine (ctx_init ifine 0) (str "known text") (zrepeat 0 10) (zrepeat 0 16)
      = Ok (10, x1, c1, t1) /\
    gcm_enc toy_ks toy_mac gfine (ctx_init ifine 0) (str "secret") (zrepeat 0 6) (zrepeat 0 16)
      = Ok (6, x2, c2, t2) /\
    xor2 (xor2 c1 (str "known text")) c2 = str "secret".
Proof. do 6 eexists. vm_compute. repeat split. Qed.

(** ** C127 *)
(** A message is accepted only with the right tag (the first 16 bytes of the tag buffer). *)
Theorem C127_accept_partial : forall ks mac i t c o m out tag n c' p,
  t <> 0 -> ctx_init i t = Some c -> zlen m <= zlen out -> 16 <= zlen tag ->
  gcm_dec ks mac o (Some c) m out tag = Ok (n, c', p) -> 0 <= n ->
  n = zlen m /\ mac m = ztake 16 tag.
Proof.
  intros ks mac i t c o m out tag n c' p T I L LT E N.
  apply ctx_init_some in I. apply Z.eqb_neq in T. rewrite T in I. subst c.
  destruct (gcm_dec_spec ks mac o m out tag L LT) as (n' & c2 & b & E' & D & _).
  rewrite E in E'. injection E' as -> -> ->.
  destruct D as [(-> & H & _) | D]; [split; [reflexivity | exact H] | lia].
Qed.
Print Assumptions C127_accept_partial.
Example C127_accept_ex :
  exists c c' p, gcm_dec toy_ks toy_mac gfine (ctx_init ifine 1) (str "abc") (zrepeat 0 3)
     (toy_mac (str "abc")) = Ok (3, c, p) /\
    gcm_dec toy_ks toy_mac gfine (ctx_init ifine 1) (str "abd") (zrepeat 0 3)
     (toy_mac (str "abc")) = Ok (-1, c', xors toy_ks 0 (str "abd")).
Proof. do 3 eexists. vm_compute. split; reflexivity. Qed.

(** But the text of a rejected message is in the caller's buffer: whoever changes the
    ciphertext of a message [m] by [d] puts [m] changed by [d] there. *)
Theorem C127_refuted : forall ks mac, (forall x, zlen (mac x) = 16) ->
  forall i1 i2 t2 c1 c2 o1 o2 m d out1 tag1 out2 tag n c1' ct tag',
  ctx_init i1 0 = Some c1 -> t2 <> 0 -> ctx_init i2 t2 = Some c2 ->
  zlen m <= zlen out1 -> 16 <= zlen tag1 -> zlen m <= zlen out2 -> 16 <= zlen tag ->
  gcm_enc ks mac o1 (Some c1) m out1 tag1 = Ok (n, c1', ct, tag') -> 0 <= n ->
  zlen d = zlen m -> mac (xor2 (ztake n ct) d) <> ztake 16 tag -> o_upd o2 = true ->
  exists c2', gcm_dec ks mac o2 (Some c2) (xor2 (ztake n ct) d) out2 tag
    = Ok (-1, c2', xor2 m d ++ zdrop (zlen m) out2).
Proof.
  intros ks mac M i1 i2 t2 c1 c2 o1 o2 m d out1 tag1 out2 tag n c1' ct tag'
    I1 T2 I2 L1 LT1 L2 LT E N Ld W U.
  apply ctx_init_some in I1, I2. apply Z.eqb_neq in T2. rewrite T2 in I2. subst c1 c2.
  change (0 =? 0) with true in E.
  destruct (gcm_enc_spec ks mac o1 m out1 tag1 M L1 LT1) as (n' & x & b & y & E' & D & _).
  rewrite E in E'. injection E' as -> -> -> ->.
  destruct D as [(-> & -> & _) | D]; [| lia].
  assert (X : ztake (zlen m) (xors ks 0 m ++ zdrop (zlen (xors ks 0 m)) out1) = xors ks 0 m).
  { rewrite <- (xors_len ks m 0) at 1. apply take_over. }
  rewrite X in *.
  assert (LX : zlen (xor2 (xors ks 0 m) d) = zlen m).
  { rewrite xor2_len; rewrite xors_len; [reflexivity | exact Ld]. }
  destruct (gcm_dec_spec ks mac o2 (xor2 (xors ks 0 m) d) out2 tag) as (k & c2' & p & E2 & D2 & H & _).
  { rewrite LX. exact L2. }
  { exact LT. }
  destruct D2 as [(_ & B & _) | ->]; [contradiction |].
  exists c2'. rewrite E2. specialize (H U). unfold holds in H.
  rewrite xors_xor2 in H by exact Ld.
  rewrite (xor2_len m d Ld) in H. rewrite H. reflexivity.
Qed.
Print Assumptions C127_refuted.
Example C127_ex :
  exists c ct t c', gcm_enc toy_ks toy_mac gfine (ctx_init ifine 0) (str "pay 1") (zrepeat 0 5)
      (zrepeat 0 16) = Ok (5, c, ct, t) /\
    gcm_dec toy_ks toy_mac gfine (ctx_init ifine 1) (xor2 ct [0; 0; 0; 0; 8]) (zrepeat 0 5) t
      = Ok (-1, c', str "pay 9").
Proof. do 4 eexists. vm_compute. split; reflexivity. Qed.

(** ** C128 *)
Theorem C128_partial : forall libc pos b buf, zlen b = 16 -> 16 <= zlen buf ->
  genrand libc pos (Some (RndGot b)) buf = Ok (0, b ++ zdrop 16 buf) /\
  genrand libc pos (Some RndErr) buf = Ok (-1, buf).
Proof.
  intros libc pos b buf L B. split; [| reflexivity]. unfold genrand.
  rewrite (ztake_all 16 b) by lia. rewrite put_0 by lia. rewrite L. reflexivity.
Qed.
Print Assumptions C128_partial.
Example C128_ex : genrand (fun _ => 5) 0 (Some (RndGot (zrepeat 200 16))) (zrepeat 0 17)
  = Ok (0, zrepeat 200 16 ++ [0]).
Proof. vm_compute. reflexivity. Qed.

(** If less than 16 bytes are read, success is reported and the rest of the buffer is what it
    was before. *)
Theorem C128_short_refuted : forall libc pos b buf, zlen b < 16 -> 16 <= zlen buf ->
  genrand libc pos (Some (RndGot b)) buf = Ok (0, b ++ zdrop (zlen b) buf).
Proof.
  intros libc pos b buf L B. unfold genrand.
  rewrite (ztake_all 16 b) by lia. rewrite put_0 by lia. reflexivity.
Qed.
Print Assumptions C128_short_refuted.
(** If the device cannot be opened, success is reported and the bytes are the same in every
    process: there is a fixed answer to each call, known in advance. *)
Theorem C128_device_refuted : exists known : (Z -> Z) -> Z -> list Z,
  forall libc pos buf, 16 <= zlen buf ->
    zlen (known libc pos) = 16 /\
    genrand libc pos None buf = Ok (0, known libc pos ++ zdrop 16 buf).
Proof.
  exists (fun libc pos => libc_bytes libc pos 16). intros libc pos buf B.
  assert (L : forall n p, zlen (libc_bytes libc p n) = Z.of_nat n).
  { induction n as [| n IH]; intros p; [reflexivity |]. cbn [libc_bytes].
    rewrite zlen_cons, IH. lia. }
  specialize (L 16%nat pos). change (Z.of_nat 16) with 16 in L.
  split; [exact L |]. unfold genrand. rewrite put_0 by lia. rewrite L. reflexivity.
Qed.
Print Assumptions C128_device_refuted.
Example C128_refuted_ex :
  genrand (fun _ => 5) 0 (Some (RndGot [9; 8])) (zrepeat 0 16) = Ok (0, [9; 8] ++ zrepeat 0 14) /\
  genrand (fun p => 1804289383 + p) 0 None (zrepeat 0 16)
    = Ok (0, [103; 104; 105; 106; 107; 108; 109; 110; 111; 112; 113; 114; 115; 116; 117; 118]).
Proof. vm_compute. split; reflexivity. Qed.

(** ** C129 *)
(** A context encrypts one message: after a call that worked every further one fails, although
    no call of the library fails for a reason of its own, and writes nothing. *)
Theorem C129_refuted : forall ks mac o c m out tag n c' ct t,
  gcm_enc ks mac o (Some c) m out tag = Ok (n, c', ct, t) -> 0 <= n ->
  forall o2 m2 out2 tag2,
    gcm_enc ks mac o2 (Some c') m2 out2 tag2 = Ok (-1, c', out2, tag2).
Proof.
  intros ks mac o c m out tag n c' ct t E N o2 m2 out2 tag2.
  assert (R : g_ready c' = false).
  { unfold gcm_enc in E. destruct (g_enc c && g_ready c && o_upd o).
    2: { injection E as E _ _ _. lia. }
    destruct (put 0 (xors ks (g_pos c) m) out) as [out1 | |]; cbn [bind] in E; try discriminate E.
    destruct (o_fin o); [| injection E as E _ _ _; lia].
    destruct (put (zlen m) [] out1) as [out2' | |]; cbn [bind] in E; try discriminate E.
    destruct (o_tag o); [| injection E as E _ _ _; lia].
    match type of E with (let* _ := ?p in _) = _ => destruct p end;
      cbn [bind] in E; try discriminate E.
    injection E as _ E _ _. rewrite <- E. reflexivity. }
  unfold gcm_enc. rewrite R, andb_false_r. reflexivity.
Qed.
Print Assumptions C129_refuted.
Theorem C129_dec_refuted : forall ks mac o c m out tag n c' p,
  gcm_dec ks mac o (Some c) m out tag = Ok (n, c', p) -> 0 <= n ->
  forall o2 m2 out2 tag2,
    gcm_dec ks mac o2 (Some c') m2 out2 tag2 = Ok (-1, c', out2).
Proof.
  intros ks mac o c m out tag n c' p E N o2 m2 out2 tag2.
  assert (R : g_ready c' = false).
  { unfold gcm_dec in E. destruct (negb (g_enc c) && g_ready c && o_upd o).
    2: { injection E as E _ _. lia. }
    destruct (put 0 (xors ks (g_pos c) m) out) as [out1 | |]; cbn [bind] in E; try discriminate E.
    destruct (o_tag o); [| injection E as E _ _; lia].
    destruct (zlen tag <? 16); [discriminate E |].
    match type of E with (if ?b then _ else _) = _ => destruct b end;
      [| injection E as E _ _; lia].
    match type of E with (let* _ := ?p in _) = _ => destruct p end;
      cbn [bind] in E; try discriminate E.
    injection E as _ E _. rewrite <- E. reflexivity. }
  unfold gcm_dec. rewrite R, andb_false_r. reflexivity.
Qed.
Print Assumptions C129_dec_refuted.
Example C129_ex :
  exists c ct t, gcm_enc toy_ks toy_mac gfine (ctx_init ifine 0) (str "one") (zrepeat 0 3)
     (zrepeat 0 16) = Ok (3, c, ct, t) /\
   gcm_enc toy_ks toy_mac gfine (Some c) (str "two") (zrepeat 0 3) (zrepeat 0 16)
     = Ok (-1, c, zrepeat 0 3, zrepeat 0 16).
Proof. do 3 eexists. vm_compute. split; reflexivity. Qed.

(** ** The properties as first stated, and that they are false *)
Definition C127_property : Prop := forall ks mac i c o m out tag n c' p,
  ctx_init i 1 = Some c ->
  gcm_dec ks mac o (Some c) m out tag = Ok (n, c', p) -> n < 0 -> p = out.
Theorem C127_property_refuted : ~ C127_property.
Proof.
  intros H.
  specialize (H toy_ks toy_mac ifine
    {| g_enc := false; g_ready := true; g_pos := 0; g_ct := []; g_tag := None |} gfine [1; 2] [0; 0] (zrepeat 0 16) (-1)).
  specialize (H {| g_enc := false; g_ready := false; g_pos := 2; g_ct := [1; 2];
                   g_tag := Some (zrepeat 0 16) |} [10; 50] eq_refl eq_refl).
  assert (X : -1 < 0) by lia. specialize (H X). discriminate H.
Qed.
Print Assumptions C127_property_refuted.
Definition C128_property : Prop := forall libc pos dev buf buf', 16 <= zlen buf ->
  genrand libc pos dev buf = Ok (0, buf') ->
  exists b, dev = Some (RndGot b) /\ ztake 16 buf' = ztake 16 b.
Theorem C128_property_refuted : ~ C128_property.
Proof.
  intros H. destruct (H (fun _ => 5) 0 None (zrepeat 0 16) (zrepeat 5 16)) as (b & E & _).
  - vm_compute. discriminate.
  - reflexivity.
  - discriminate E.
Qed.
Print Assumptions C128_property_refuted.
Definition C129_property : Prop := forall ks mac o c m out tag n c' ct t,
  gcm_enc ks mac o (Some c) m out tag = Ok (n, c', ct, t) -> 0 <= n ->
  exists n2 c2 ct2 t2,
    gcm_enc ks mac gfine (Some c') m out tag = Ok (n2, c2, ct2, t2) /\ 0 <= n2.
Theorem C129_property_refuted : ~ C129_property.
Proof.
  intros H. destruct C129_ex as (c & ct & t & E & _).
  assert (X : 0 <= 3) by lia.
  destruct (H toy_ks toy_mac gfine _ _ _ _ _ _ _ _ E X) as (n2 & c2 & ct2 & t2 & E2 & N).
  rewrite (C129_refuted _ _ _ _ _ _ _ _ _ _ _ E X) in E2. injection E2 as E2 _ _ _. lia.
Qed.
Print Assumptions C129_property_refuted.
