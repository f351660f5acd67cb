(** * Lemmas about the SOCKS5 session machine. *)
From Verif Require Import Base Ac_Model Meta_Model Meta_Proofs S5_Model.

(** ** Greeting parser *)
Lemma p1_loop_app : forall a s b,
  p1_loop s (a ++ b) =
  match p1_loop s a with Ok (s', false) => p1_loop s' b | x => x end.
Proof.
  induction a as [|x a IH]; intros s b; cbn [p1_loop app]; [reflexivity|].
  destruct (p1_byte s x) as [[s1 d]| |]; cbn [bind fst snd]; try reflexivity.
  destruct d; [reflexivity|apply IH].
Qed.

Lemma p2_loop_app : forall a s b,
  p2_loop s (a ++ b) =
  match p2_loop s a with Ok (s', P2More) => p2_loop s' b | x => x end.
Proof.
  induction a as [|x a IH]; intros s b; cbn [p2_loop app]; [reflexivity|].
  destruct (p2_byte s x) as [[s1 d]| |]; cbn [bind fst snd]; try reflexivity.
  destruct d; try reflexivity. apply IH.
Qed.

(** the request part of the record *)
Definition p2_fields (s : s5) :=
  (p2_ver s, p2_cmd s, p2_rsv s, p2_atyp s, p2_n s, p2_cnt s, p2_addr s, p2_port0 s, p2_port1 s).

Lemma put1_ok a i b : 0 <= i < zlen a -> exists a', put1 a i b = Ok a' /\ zlen a' = zlen a.
Proof.
  intros. unfold put1. rewrite zput_ok by (rewrite ?zlen_cons, ?zlen_nil; lia).
  eexists. split; [reflexivity|].
  eapply zput_len. apply zput_ok; rewrite ?zlen_cons, ?zlen_nil; lia.
Qed.

Lemma p1_methods_loop : forall ms s,
  s_state s = METHOD -> zlen (p1_methods s) = METHODS_SIZE ->
  0 <= p1_cnt s < p1_n s -> p1_n s <= 255 ->
  exists s', p1_loop s ms = Ok (s', p1_n s <=? p1_cnt s + zlen ms) /\
    p2_fields s' = p2_fields s /\
    (if p1_n s <=? p1_cnt s + zlen ms then s_state s' = 0
     else s_state s' = METHOD /\ p1_n s' = p1_n s /\ p1_cnt s' = p1_cnt s + zlen ms /\
          zlen (p1_methods s') = METHODS_SIZE).
Proof.
  induction ms as [|b ms IH]; intros s St Lm Hc Hn.
  - exists s. rewrite zlen_nil. destruct (Z.leb_spec (p1_n s) (p1_cnt s + 0)); [lia|].
    repeat split; auto; lia.
  - cbn [p1_loop]. unfold p1_byte. rewrite St. cbn [METHOD VERSION METHODN Z.eqb].
    change (2 =? 0) with false. change (2 =? 1) with false. change (2 =? 2) with true. cbv iota.
    destruct (put1_ok (p1_methods s) (p1_cnt s) b) as (m' & P & L').
    { unfold METHODS_SIZE in Lm. lia. }
    rewrite P. cbn [bind fst snd]. unfold u8.
    rewrite Z.mod_small by lia.
    rewrite zlen_cons. pose proof (zlen_nonneg ms).
    destruct (Z.eqb_spec (p1_n s) (p1_cnt s + 1)) as [E|E]; cbn [bind fst snd].
    + eexists. split; [|split].
      * destruct (Z.leb_spec (p1_n s) (p1_cnt s + (1 + zlen ms))); [reflexivity|lia].
      * reflexivity.
      * destruct (Z.leb_spec (p1_n s) (p1_cnt s + (1 + zlen ms))); [reflexivity|lia].
    + destruct (IH (set_p1 s (p1_ver s) (p1_n s) (p1_cnt s + 1) m')) as (s' & A & B & C);
        cbn [s_state p1_methods p1_cnt p1_n set_p1] in *; try lia; auto.
      replace (p1_cnt s + (1 + zlen ms)) with (p1_cnt s + 1 + zlen ms) by lia.
      exists s'. split; [exact A|]. split; [exact B|exact C].
Qed.

(** a record in which nothing of the greeting / of the request has been parsed *)
Definition p1_fresh (s : s5) : Prop := s_state s = 0 /\ zlen (p1_methods s) = METHODS_SIZE.

Lemma p1_loop_greeting v n ms s : p1_fresh s -> 1 <= n <= 255 ->
  exists s', p1_loop s (v :: n :: ms) = Ok (s', n <=? zlen ms) /\ p2_fields s' = p2_fields s /\
             (n <= zlen ms -> s_state s' = 0).
Proof.
  intros (St & Lm) Hn. cbn [p1_loop]. unfold p1_byte at 1. rewrite St.
  change (0 =? VERSION) with true. cbv iota. cbn [bind fst snd].
  unfold p1_byte at 1. cbn [s_state set_state set_p1].
  change (METHODN =? VERSION) with false. change (METHODN =? METHODN) with true. cbv iota. cbn [bind fst snd].
  match goal with |- context [p1_loop ?x ms] => set (s1 := x) end.
  destruct (p1_methods_loop ms s1) as (s' & A & B & C); subst s1;
    cbn [s_state p1_methods p1_cnt p1_n set_state set_p1] in *; try lia; auto.
  exists s'. rewrite Z.add_0_l in *. split; [exact A|]. split; [exact B|].
  intros. destruct (Z.leb_spec n (zlen ms)); [exact C|lia].
Qed.

Lemma p1_loop_short s l : p1_fresh s -> zlen l <= 1 ->
  exists s', p1_loop s l = Ok (s', false) /\ p2_fields s' = p2_fields s.
Proof.
  intros (St & Lm) L. destruct l as [|v [|n l]].
  - exists s. auto.
  - cbn [p1_loop]. unfold p1_byte. rewrite St. change (0 =? VERSION) with true. cbv iota.
    cbn [bind fst snd]. eexists. split; reflexivity.
  - rewrite !zlen_cons in L. pose proof (zlen_nonneg l). lia.
Qed.

(** ** Request parser *)
Lemma zput_cons {A} (a : list A) c b bs a1 a2 :
  zput a c [b] = Some a1 -> zput a1 (c + 1) bs = Some a2 -> zput a c (b :: bs) = Some a2.
Proof.
  intros H1 H2. pose proof (zput_len _ _ _ _ H1) as L1.
  apply zput_some in H1 as (A1 & A2 & E1). apply zput_some in H2 as (B1 & B2 & E2).
  rewrite zlen_cons, zlen_nil in *. pose proof (zlen_nonneg bs).
  rewrite zput_ok by (rewrite ?zlen_cons; lia). f_equal. rewrite E2. subst a1. rewrite zlen_cons.
  rewrite ztake_app_r by (rewrite zlen_ztake; lia).
  rewrite zlen_ztake by lia. replace (Z.min c (zlen a)) with c by lia.
  replace (c + 1 - c) with 1 by lia. cbn [app]. rewrite ztake_cons by lia.
  rewrite (ztake_le0 (1 - 1)) by lia. repeat rewrite <- app_assoc. cbn [app]. do 3 f_equal.
  rewrite zdrop_app_r by (rewrite zlen_ztake; lia). rewrite zlen_ztake by lia.
  replace (Z.min c (zlen a)) with c by lia.
  rewrite zdrop_cons by lia. rewrite zdrop_zdrop by lia. f_equal. lia.
Qed.

Lemma zput_nil {A} (a : list A) c : 0 <= c <= zlen a -> zput a c [] = Some a.
Proof.
  intros. rewrite zput_ok by (rewrite ?zlen_nil; lia). rewrite zlen_nil, Z.add_0_r. cbn [app].
  f_equal. apply ztake_zdrop.
Qed.

(** what does not change while address bytes are stored *)
Definition p2_head (s : s5) := (p2_ver s, p2_cmd s, p2_rsv s, p2_atyp s, p2_n s, p2_port0 s, p2_port1 s).

Definition addr_state (st : Z) := st = TYP_V4 \/ st = TYP_V6 \/ st = TYP_DOMAIN.
Definition addr_stop (s : s5) : Z :=
  if s_state s =? TYP_V4 then 4 else if s_state s =? TYP_V6 then 16 else p2_n s.

Lemma p2_byte_addr s b : addr_state (s_state s) -> p2_byte s b = p2_addr_byte s b (addr_stop s).
Proof. intros [E|[E|E]]; unfold p2_byte, addr_stop; rewrite E; reflexivity. Qed.

Lemma p2_addr_loop : forall bs s, addr_state (s_state s) -> bs <> [] ->
  zlen (p2_addr s) = DST_SIZE -> 0 <= p2_cnt s ->
  p2_cnt s + zlen bs <= addr_stop s <= 255 ->
  exists s' a', p2_loop s bs = Ok (s', P2More) /\ zput (p2_addr s) (p2_cnt s) bs = Some a' /\
    p2_addr s' = a' /\ p2_head s' = p2_head s /\
    (if p2_cnt s + zlen bs =? addr_stop s then s_state s' = PORT
     else s_state s' = s_state s /\ p2_cnt s' = p2_cnt s + zlen bs).
Proof.
  induction bs as [|b bs IH]; intros s St NE La Hc Hs; [congruence|].
  cbn [p2_loop]. rewrite (p2_byte_addr s b St). unfold p2_addr_byte.
  rewrite zlen_cons in *. pose proof (zlen_nonneg bs). unfold DST_SIZE in La.
  destruct (zput (p2_addr s) (p2_cnt s) [b]) as [a1|] eqn:P.
  2:{ apply zput_none in P. exfalso. change (zlen [b]) with 1 in P. lia. }
  unfold put1. rewrite P. cbn [of_opt bind]. unfold u8.
  destruct bs as [|b2 bs].
  - rewrite zlen_nil in *.
    destruct (Z.eq_dec (p2_cnt s) 255).
    + exfalso. lia.
    + rewrite Z.mod_small by lia.
      replace (p2_cnt s + (1 + 0)) with (p2_cnt s + 1) by lia.
      destruct (Z.eqb_spec (p2_cnt s + 1) (addr_stop s)); cbn [bind fst snd p2_loop];
        eexists _, a1; (split; [reflexivity|]); (split; [exact P|]); (split; [reflexivity|]);
        split; reflexivity || (split; reflexivity).
  - rewrite zlen_cons in *. pose proof (zlen_nonneg bs).
    rewrite Z.mod_small by lia.
    destruct (Z.eqb_spec (p2_cnt s + 1) (addr_stop s)); [lia|]. cbn [bind fst snd].
    match goal with |- context [p2_loop ?x (b2 :: bs)] => set (s1 := x) end.
    destruct (IH s1) as (s' & a' & A & B & C & D & E); subst s1;
      cbn [s_state p2_addr p2_cnt p2_n set_p2addr] in *; auto; try discriminate; try lia.
    { rewrite (zput_len _ _ _ _ P). exact La. }
    { change (addr_stop (set_p2addr s (p2_n s) (p2_cnt s + 1) a1)) with (addr_stop s).
      lia. }
    change (addr_stop (set_p2addr s (p2_n s) (p2_cnt s + 1) a1)) with (addr_stop s) in E.
    try rewrite zlen_cons in E.
    exists s', a'. split; [exact A|]. split; [eapply zput_cons; eassumption|].
    split; [exact C|]. split; [exact D|].
    replace (p2_cnt s + (1 + (1 + zlen bs))) with (p2_cnt s + 1 + (1 + zlen bs)) by lia.
    exact E.
Qed.

Definition p2_fresh (s : s5) : Prop := s_state s = 0 /\ p2_addr s = zrepeat 0 DST_SIZE.

(** the record after the four fixed bytes *)
Lemma p2_loop_head s v c r t rest : s_state s = 0 ->
  p2_loop s (v :: c :: r :: t :: rest) =
  if t =? S5_IPV4 then p2_loop (set_state (set_p2addr (set_p2hdr s v c r t) 4 0 (p2_addr s)) TYP_V4) rest
  else if t =? S5_IPV6 then p2_loop (set_state (set_p2addr (set_p2hdr s v c r t) 16 0 (p2_addr s)) TYP_V6) rest
  else if t =? S5_DOMAIN then p2_loop (set_state (set_p2addr (set_p2hdr s v c r t) 0 0 (p2_addr s)) TYP_DOMAINN) rest
  else Ok (set_state (set_p2hdr s v c r t) TYP, P2Reject).
Proof.
  intros St. cbn [p2_loop]. unfold p2_byte at 1. rewrite St. change (0 =? VER) with true. cbv iota. cbn [bind fst snd].
  unfold p2_byte at 1. cbn [s_state set_state].
  change (CMD =? VER) with false. change (CMD =? CMD) with true. cbv iota. cbn [bind fst snd].
  unfold p2_byte at 1. cbn [s_state set_state].
  change (RSV =? VER) with false. change (RSV =? CMD) with false. change (RSV =? RSV) with true. cbv iota. cbn [bind fst snd].
  unfold p2_byte at 1. cbn [s_state set_state].
  change (TYP =? VER) with false. change (TYP =? CMD) with false. change (TYP =? RSV) with false.
  change (TYP =? TYP) with true. cbv iota.
  destruct (t =? S5_IPV4); [reflexivity|]. destruct (t =? S5_IPV6); [reflexivity|].
  destruct (t =? S5_DOMAIN); reflexivity.
Qed.

(** the two port bytes *)
Lemma p2_loop_port s rest : s_state s = PORT ->
  match rest with
  | [] => p2_loop s rest = Ok (s, P2More)
  | [p] => exists s', p2_loop s rest = Ok (s', P2More)
  | p :: q :: _ => p2_loop s rest = Ok (set_state (set_port s p q) 0, P2Done)
  end.
Proof.
  intros St. destruct rest as [|p [|q rest]]; [reflexivity| |].
  - cbn [p2_loop]. unfold p2_byte. rewrite St. cbn. eexists. reflexivity.
  - cbn [p2_loop]. unfold p2_byte. rewrite St. cbn. reflexivity.
Qed.

(** address of [k] bytes followed by the port *)
Lemma p2_loop_addr_port s k rest : addr_state (s_state s) -> p2_cnt s = 0 ->
  zlen (p2_addr s) = DST_SIZE -> addr_stop s = k -> 1 <= k <= 255 ->
  if zlen rest <? k + 2 then exists s', p2_loop s rest = Ok (s', P2More)
  else exists s' a' p q rest', p2_loop s rest = Ok (s', P2Done) /\
    rest = ztake k rest ++ p :: q :: rest' /\
    zput (p2_addr s) 0 (ztake k rest) = Some a' /\ p2_addr s' = a' /\
    s_state s' = 0 /\ p2_port0 s' = p /\ p2_port1 s' = q /\
    p2_ver s' = p2_ver s /\ p2_cmd s' = p2_cmd s /\ p2_rsv s' = p2_rsv s /\ p2_atyp s' = p2_atyp s.
Proof.
  intros St C0 La Ek Hk.
  destruct (Z_lt_ge_dec (zlen rest) k) as [Lt|Ge].
  - destruct (Z.ltb_spec (zlen rest) (k + 2)); [|lia].
    destruct rest as [|b rest]; [eexists; reflexivity|].
    destruct (p2_addr_loop (b :: rest) s) as (s' & a' & A & _); auto; try discriminate; try lia.
    eexists; exact A.
  - pose proof (ztake_zdrop k rest) as TD.
    assert (Lk : zlen (ztake k rest) = k) by (rewrite zlen_ztake by lia; lia).
    assert (NEk : ztake k rest <> []) by (intros E; rewrite E, zlen_nil in Lk; lia).
    destruct (p2_addr_loop (ztake k rest) s) as (s1 & a' & A & B & C & D & E); auto; try lia.
    rewrite C0, Z.add_0_l, Lk, Ek, Z.eqb_refl in E.
    assert (Lr : zlen (zdrop k rest) = zlen rest - k) by (rewrite zlen_zdrop by lia; lia).
    pose proof (p2_loop_port s1 (zdrop k rest) E) as PP.
    assert (PL : p2_loop s rest = p2_loop s1 (zdrop k rest)).
    { rewrite <- TD at 1. rewrite p2_loop_app, A. reflexivity. }
    destruct (zdrop k rest) as [|p [|q rest']] eqn:ZD; rewrite ?zlen_cons, ?zlen_nil in Lr.
    + destruct (Z.ltb_spec (zlen rest) (k + 2)); [|lia]. rewrite PL, PP. eauto.
    + destruct (Z.ltb_spec (zlen rest) (k + 2)); [|lia]. rewrite PL. exact PP.
    + pose proof (zlen_nonneg rest').
      destruct (Z.ltb_spec (zlen rest) (k + 2)); [lia|].
      rewrite C0 in B. unfold p2_head in D. injection D as D1 D2 D3 D4 D5 D6 D7.
      exists (set_state (set_port s1 p q) 0), a', p, q, rest'.
      rewrite PL. split; [exact PP|]. split; [symmetry; exact TD|].
      repeat (split; [first [exact B | exact C | reflexivity | assumption]|]). assumption.
Qed.

(** ** The machine: receives while parsing *)
Definition rx_bytes (r : rx) : list Z := match r with RxData bs => bs | _ => [] end.
Definition rx_data (rs : list rx) : list Z := concat (map rx_bytes rs).
Definition rx_live (r : rx) : Prop := match r with RxErr => False | _ => True end.

(** fresh, empty buffer in a parsing phase *)
Definition p1_start (h : hs) : Prop :=
  h_ph h = PhP1 /\ p1_fresh (h_s5 h) /\ p2_fresh (h_s5 h) /\ mpos (h_meta h) = 0 /\ mlast (h_meta h) = 0 /\
  600 <= meta_cap (h_meta h) /\ h_asked h = [] /\ h_dialled h = [].
Definition p2_start (h : hs) : Prop :=
  h_ph h = PhP2 /\ p2_fresh (h_s5 h) /\ mpos (h_meta h) = 0 /\ mlast (h_meta h) = 0 /\
  600 <= meta_cap (h_meta h) /\ h_asked h = [] /\ h_dialled h = [].

(** what parsing never touches *)
Definition ctx (h : hs) := (h_sent h, h_asked h, h_dialled h, h_addr h, h_port h, h_ac h).

Definition at_end (m : meta) (cap n : Z) : Prop := mpos m = n /\ mlast m = n /\ meta_cap m = cap.

Lemma at_end_store m cap n bs : at_end m cap n -> 0 <= n -> n + zlen bs <= cap ->
  exists m', meta_store m bs = Ok m' /\ mdata m' = bs /\ mlast m' = n + zlen bs /\ meta_cap m' = cap /\ meta_wf m'.
Proof.
  intros (A & B & C) Hn Hc. pose proof (zlen_nonneg bs).
  assert (W : meta_wf m) by (unfold meta_wf; lia).
  destruct (meta_store_ok m bs W) as (m' & S1 & W1 & D1 & C1 & P1 & L1); [unfold meta_getfree; lia|].
  exists m'. split; [exact S1|]. split; [|split; [lia|split; [lia|exact W1]]].
  rewrite D1. unfold mdata. rewrite A, B, zslice_empty. reflexivity.
Qed.

Lemma run_ignored ph : ph = PhP1Rsp \/ ph = PhAddr \/ ph = PhClosed ->
  forall rs h, h_ph h = ph -> hs_run h (map InRecv rs) = Ok h.
Proof.
  intros Hp. induction rs as [|r rs IH]; intros h E; [reflexivity|].
  cbn [map hs_run]. unfold hs_step. rewrite E.
  destruct Hp as [->|[->| ->]]; cbn [bind]; apply IH; exact E.
Qed.

(** one receive in the greeting phase *)
Lemma p1_recv h cap n bs s1 d : h_ph h = PhP1 -> at_end (h_meta h) cap n -> 0 <= n < cap -> 2 <= cap ->
  n + zlen bs <= cap -> p1_loop (h_s5 h) bs = Ok (s1, d) ->
  exists h1, hs_step h (InRecv (RxData bs)) = Ok h1 /\ h_s5 h1 = s1 /\ ctx h1 = ctx h /\
    if d then h_ph h1 = PhP1Rsp /\ mdata (h_meta h1) = [5; 0] /\ mpos (h_meta h1) = 0 /\
              meta_cap (h_meta h1) = cap /\ meta_wf (h_meta h1)
    else h_ph h1 = PhP1 /\ at_end (h_meta h1) cap (n + zlen bs).
Proof.
  intros Ph AE Hn C2 Hc P. unfold hs_step. rewrite Ph. unfold do_recv.
  destruct (Z.ltb_spec (meta_getfree (h_meta h)) 1) as [F|F].
  { destruct AE as (A1 & A2 & A3). unfold meta_getfree in F. lia. }
  destruct (at_end_store _ _ _ bs AE) as (m & Sm & Dm & Lm & Cm & Wm); [lia|lia|].
  rewrite Sm. cbn [bind]. unfold p1_feed. rewrite Dm, P. cbn [bind fst snd]. destruct d.
  - destruct (at_end_store (meta_clr m) cap 0 [5; 0]) as (m2 & S2 & D2 & L2 & K2 & W2).
    { split; [reflexivity|]. split; [reflexivity|exact Cm]. }
    { lia. }
    { change (zlen [5; 0]) with 2. lia. }
    rewrite S2. cbn [bind]. eexists. split; [reflexivity|]. split; [reflexivity|]. split; [reflexivity|].
    cbn [h_ph h_meta with_s5]. split; [reflexivity|]. split; [exact D2|].
    split; [|auto].
    unfold meta_store in S2. destruct (zput _ _ _); [|discriminate].
    injection S2 as <-. reflexivity.
  - eexists. split; [reflexivity|]. split; [reflexivity|]. split; [reflexivity|].
    split; [reflexivity|]. unfold at_end. cbn [h_meta with_s5 mpos mlast]. auto.
Qed.

Lemma p2_recv h cap n bs s1 d : h_ph h = PhP2 -> at_end (h_meta h) cap n -> 0 <= n < cap ->
  n + zlen bs <= cap -> p2_loop (h_s5 h) bs = Ok (s1, d) ->
  exists h1, hs_step h (InRecv (RxData bs)) = Ok h1 /\ h_s5 h1 = s1 /\ ctx h1 = ctx h /\
    match d with
    | P2More => h_ph h1 = PhP2 /\ at_end (h_meta h1) cap (n + zlen bs)
    | P2Reject => h_ph h1 = PhClosed
    | P2Done => h_ph h1 = (if p2_accept s1 then PhAddr else PhClosed) /\ at_end (h_meta h1) cap 0
    end.
Proof.
  intros Ph AE Hn Hc P. unfold hs_step. rewrite Ph. unfold do_recv.
  destruct (Z.ltb_spec (meta_getfree (h_meta h)) 1) as [F|F].
  { destruct AE as (A1 & A2 & A3). unfold meta_getfree in F. lia. }
  destruct (at_end_store _ _ _ bs AE) as (m & Sm & Dm & Lm & Cm & Wm); [lia|lia|].
  rewrite Sm. cbn [bind]. unfold p2_feed. rewrite Dm, P. cbn [bind fst snd]. destruct d;
    (eexists; split; [reflexivity|]; split; [reflexivity|]; split; [reflexivity|]).
  - split; [reflexivity|]. unfold at_end. cbn [h_meta with_s5 mpos mlast]. auto.
  - reflexivity.
  - split; [reflexivity|]. split; [reflexivity|]. split; [reflexivity|exact Cm].
Qed.

Lemma p1_again h cap n : h_ph h = PhP1 -> at_end (h_meta h) cap n -> n < cap ->
  hs_step h (InRecv RxAgain) = Ok h /\ hs_step h (InRecv RxErr) = Ok (close h).
Proof.
  intros Ph (A1 & A2 & A3) L. unfold hs_step. rewrite Ph. unfold do_recv, meta_getfree.
  destruct (Z.ltb_spec (meta_cap (h_meta h) - mlast (h_meta h)) 1); [lia|]. auto.
Qed.

Lemma p2_again h cap n : h_ph h = PhP2 -> at_end (h_meta h) cap n -> n < cap ->
  hs_step h (InRecv RxAgain) = Ok h /\ hs_step h (InRecv RxErr) = Ok (close h).
Proof.
  intros Ph (A1 & A2 & A3) L. unfold hs_step. rewrite Ph. unfold do_recv, meta_getfree.
  destruct (Z.ltb_spec (meta_cap (h_meta h) - mlast (h_meta h)) 1); [lia|]. auto.
Qed.

Lemma p1_run : forall rs h s0 acc cap s' d, 2 <= cap ->
  h_ph h = PhP1 -> p1_loop s0 acc = Ok (h_s5 h, false) -> at_end (h_meta h) cap (zlen acc) ->
  Forall rx_live rs -> zlen (acc ++ rx_data rs) < cap ->
  p1_loop s0 (acc ++ rx_data rs) = Ok (s', d) ->
  exists h', hs_run h (map InRecv rs) = Ok h' /\ h_s5 h' = s' /\ ctx h' = ctx h /\
    if d then h_ph h' = PhP1Rsp /\ mdata (h_meta h') = [5; 0] /\ mpos (h_meta h') = 0 /\
              meta_cap (h_meta h') = cap /\ meta_wf (h_meta h')
    else h_ph h' = PhP1 /\ at_end (h_meta h') cap (zlen (acc ++ rx_data rs)).
Proof.
  induction rs as [|r rs IH]; intros h s0 acc cap s' d C2 Ph PL AE LV LC P.
  - unfold rx_data in *. cbn [map concat] in *. rewrite app_nil_r in *. rewrite PL in P.
    injection P as <- <-. exists h. auto.
  - pose proof (Forall_inv LV) as Hr. pose proof (Forall_inv_tail LV) as LV'. cbn [map hs_run].
    change (rx_data (r :: rs)) with (rx_bytes r ++ rx_data rs) in *.
    rewrite !zlen_app in LC. pose proof (zlen_nonneg (rx_bytes r)). pose proof (zlen_nonneg (rx_data rs)).
    pose proof (zlen_nonneg acc).
    destruct r as [bs| |]; [| |contradiction]; cbn [rx_bytes] in *.
    + rewrite app_assoc in P. pose proof P as P'. rewrite p1_loop_app in P.
      rewrite p1_loop_app, PL in P.
      destruct (p1_loop (h_s5 h) bs) as [[s1 d1]| |] eqn:P1; try discriminate.
      destruct (p1_recv h cap (zlen acc) bs s1 d1) as (h1 & ST & E1 & E2 & E3); auto; try lia.
      rewrite ST. cbn [bind]. destruct d1.
      * injection P as <- <-. destruct E3 as (E3 & E4).
        rewrite (run_ignored PhP1Rsp) by auto. exists h1. auto.
      * destruct E3 as (E3 & E4).
        destruct (IH h1 s0 (acc ++ bs) cap s' d) as (h' & R & Q1 & Q2 & Q3); auto.
        { rewrite p1_loop_app, PL, P1, E1. reflexivity. }
        { rewrite zlen_app. exact E4. }
        { rewrite !zlen_app. lia. }
        exists h'. rewrite <- app_assoc in Q3. rewrite <- E2. auto.
    + destruct (p1_again h cap (zlen acc) Ph AE) as (E & _); [lia|]. rewrite E. cbn [bind app] in *.
      apply (IH h s0 acc cap s' d); auto. rewrite zlen_app. lia.
Qed.

Lemma p2_run : forall rs h s0 acc cap s' d,
  h_ph h = PhP2 -> p2_loop s0 acc = Ok (h_s5 h, P2More) -> at_end (h_meta h) cap (zlen acc) ->
  Forall rx_live rs -> zlen (acc ++ rx_data rs) < cap ->
  p2_loop s0 (acc ++ rx_data rs) = Ok (s', d) ->
  exists h', hs_run h (map InRecv rs) = Ok h' /\ h_s5 h' = s' /\ ctx h' = ctx h /\
    match d with
    | P2More => h_ph h' = PhP2 /\ at_end (h_meta h') cap (zlen (acc ++ rx_data rs))
    | P2Reject => h_ph h' = PhClosed
    | P2Done => h_ph h' = (if p2_accept s' then PhAddr else PhClosed) /\ at_end (h_meta h') cap 0
    end.
Proof.
  induction rs as [|r rs IH]; intros h s0 acc cap s' d Ph PL AE LV LC P.
  - unfold rx_data in *. cbn [map concat] in *. rewrite app_nil_r in *. rewrite PL in P.
    injection P as <- <-. exists h. auto.
  - pose proof (Forall_inv LV) as Hr. pose proof (Forall_inv_tail LV) as LV'. cbn [map hs_run].
    change (rx_data (r :: rs)) with (rx_bytes r ++ rx_data rs) in *.
    rewrite !zlen_app in LC. pose proof (zlen_nonneg (rx_bytes r)). pose proof (zlen_nonneg (rx_data rs)).
    pose proof (zlen_nonneg acc).
    destruct r as [bs| |]; [| |contradiction]; cbn [rx_bytes] in *.
    + rewrite app_assoc in P. pose proof P as P'. rewrite p2_loop_app in P.
      rewrite p2_loop_app, PL in P.
      destruct (p2_loop (h_s5 h) bs) as [[s1 d1]| |] eqn:P1; try discriminate.
      destruct (p2_recv h cap (zlen acc) bs s1 d1) as (h1 & ST & E1 & E2 & E3); auto; try lia.
      rewrite ST. cbn [bind]. destruct d1.
      * destruct E3 as (E3 & E4).
        destruct (IH h1 s0 (acc ++ bs) cap s' d) as (h' & R & Q1 & Q2 & Q3); auto.
        { rewrite p2_loop_app, PL, P1, E1. reflexivity. }
        { rewrite zlen_app. exact E4. }
        { rewrite !zlen_app. lia. }
        exists h'. rewrite <- app_assoc in Q3. rewrite <- E2. auto.
      * injection P as <- <-.
        rewrite (run_ignored PhClosed) by auto. exists h1. auto.
      * injection P as <- <-. destruct E3 as (E3 & E4).
        rewrite (run_ignored (if p2_accept s1 then PhAddr else PhClosed))
          by (destruct (p2_accept s1); auto).
        exists h1. auto.
    + destruct (p2_again h cap (zlen acc) Ph AE) as (E & _); [lia|]. rewrite E. cbn [bind app] in *.
      apply (IH h s0 acc cap s' d); auto. rewrite zlen_app. lia.
Qed.
