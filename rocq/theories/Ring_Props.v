(** * Ring buffer (src/common/ringbuffer.c): property C09 *)
From Verif Require Import Base Ring_Model.
Local Arguments Z.add : simpl never.
Local Arguments Z.sub : simpl never.
Local Arguments Z.mul : simpl never.
Local Arguments zlen : simpl never.

(** ** Specification: a bounded queue of bytes *)
(** [q] the bytes inside, [p] and [g] how many have been pushed and pulled so far *)
Record fifo := Fifo { q : list Z; p : Z; g : Z }.
Definition fifo_step (cap : Z) (f : fifo) (o : op) : fifo * (Z * list Z * Z) :=
  match o with
  | Push d =>
      if (zlen (q f) =? cap) || (cap - zlen (q f) <? zlen d) then (f, (-1, [], zlen (q f)))
      else (Fifo (q f ++ d) (p f + zlen d) (g f), (0, [], zlen (q f) + zlen d))
  | Pull n =>
      if zlen (q f) =? 0 then (f, (-1, [], 0))
      else let m := Z.min n (zlen (q f)) in
           (Fifo (zdrop m (q f)) (p f) (g f + m), (0, ztake m (q f), zlen (q f) - m))
  end.
Fixpoint fifo_run (cap : Z) (f : fifo) (os : list op) : list (Z * list Z * Z) :=
  match os with
  | [] => []
  | o :: t => let '(f', r) := fifo_step cap f o in r :: fifo_run cap f' t
  end.

(** In a correct ring buffer the byte number [n] is kept in cell [n mod cap]. The bytes inside
    wrap around if the last one is in a later lap than the next one to be pulled. *)
Definition wrapped (cap : Z) (f : fifo) : Prop := 0 < p f /\ g f / cap < (p f - 1) / cap.
(** The calls that this ring buffer gets right:
    - a push that fits, when the last cell has not been the last one of the memory; while
      the bytes wrap around it must fill the buffer exactly;
    - a pull that does not end exactly at the end of the memory while the bytes wrap
      around. *)
Definition safe (cap : Z) (f : fifo) (o : op) : Prop :=
  match o with
  | Push d =>
      zlen (q f) <> cap -> zlen d <= cap - zlen (q f) ->
      (wrapped cap f -> zlen d = cap - zlen (q f)) /\ (d <> [] -> 0 < p f -> p f mod cap <> 0)
  | Pull n => 0 <= n /\ (wrapped cap f -> n <> cap - g f mod cap)
  end.
Fixpoint all_safe (cap : Z) (f : fifo) (os : list op) : Prop :=
  match os with [] => True | o :: t => safe cap f o /\ all_safe cap (fst (fifo_step cap f o)) t end.

(** ** The invariant *)
(** bytes in one piece *)
Definition one_piece (cap : Z) (b : rb) (f : fifo) : Prop :=
  exists a z lap, mem b = a ++ q f ++ z /\ pos b = zlen a /\ last b = zlen a + zlen (q f) /\
    0 <= lap /\ p f = lap * cap + last b /\ g f = lap * cap + pos b /\ (0 < lap -> 0 < last b).
(** bytes in two pieces: [t] at the end of the memory, then [h] at its start *)
Definition two_pieces (cap : Z) (b : rb) (f : fifo) : Prop :=
  exists h fr t lap, mem b = h ++ fr ++ t /\ q f = t ++ h /\ last b = zlen h /\ pos b = zlen h + zlen fr /\
    0 < zlen h /\ 0 < zlen t /\
    0 <= lap /\ p f = (lap + 1) * cap + last b /\ g f = lap * cap + pos b.
Definition inv (cap : Z) (b : rb) (f : fifo) : Prop :=
  space b = cap /\ zlen (mem b) = cap /\ 0 < cap /\ datan b = zlen (q f) /\
  (one_piece cap b f \/ two_pieces cap b f).

Lemma store_mid a x z d o : o = zlen a -> zlen d = zlen x -> store (a ++ x ++ z) o d = Ok (a ++ d ++ z).
Proof.
  intros -> L. unfold store. pose proof (zlen_nonneg d). rewrite !zlen_app. pose proof (zlen_nonneg a). pose proof (zlen_nonneg z).
  destruct (Z.leb_spec 0 (zlen a)); [|lia]. destruct (Z.leb_spec (zlen a + zlen d) (zlen a + (zlen x + zlen z))); [|lia].
  cbn [andb]. f_equal. f_equal.
  - rewrite ztake_app_l by lia. apply ztake_all. lia.
  - f_equal. rewrite zdrop_app_r by lia. rewrite zdrop_app_r by lia. apply zdrop_le0. lia.
Qed.
Lemma fetch_mid a x z o n : o = zlen a -> n = zlen x -> fetch (a ++ x ++ z) o n = Ok x.
Proof.
  intros -> ->. unfold fetch. rewrite !zlen_app. pose proof (zlen_nonneg a). pose proof (zlen_nonneg z). pose proof (zlen_nonneg x).
  destruct (Z.leb_spec 0 (zlen a)); [|lia]. destruct (Z.leb_spec 0 (zlen x)); [|lia].
  destruct (Z.leb_spec (zlen a + zlen x) (zlen a + (zlen x + zlen z))); [|lia].
  cbn [andb]. f_equal. rewrite zdrop_app_r by lia. rewrite zdrop_le0 by lia.
  rewrite ztake_app_l by lia. apply ztake_all. lia.
Qed.
Lemma store_start x z d : zlen d = zlen x -> store (x ++ z) 0 d = Ok (d ++ z).
Proof. exact (store_mid [] x z d 0 eq_refl). Qed.
Lemma fetch_start x z n : n = zlen x -> fetch (x ++ z) 0 n = Ok x.
Proof. exact (fetch_mid [] x z 0 n eq_refl). Qed.
Lemma cut (l : list Z) n : 0 <= n <= zlen l -> exists a b, l = a ++ b /\ zlen a = n /\ ztake n l = a /\ zdrop n l = b.
Proof.
  intros H. exists (ztake n l), (zdrop n l). split; [symmetry; apply ztake_zdrop|]. split; auto.
  rewrite zlen_ztake by lia. lia.
Qed.
Lemma zlen0 (l : list Z) : zlen l = 0 -> l = [].
Proof. destruct l; auto. rewrite zlen_cons. pose proof (zlen_nonneg l). lia. Qed.

Lemma one_not_wrapped cap b f : 0 < cap -> zlen (mem b) = cap -> one_piece cap b f -> ~ wrapped cap f.
Proof.
  intros C M (a & z & lap & E & Ep & El & L0 & P & G & L1) [W1 W2].
  rewrite E, !zlen_app in M. pose proof (zlen_nonneg a). pose proof (zlen_nonneg (q f)). pose proof (zlen_nonneg z).
  assert (H2 : (p f - 1) / cap <= lap).
  { apply Z.lt_succ_r. apply Z.div_lt_upper_bound; [lia|]. nia. }
  assert (H3 : lap <= g f / cap).
  { apply Z.div_le_lower_bound; [lia|]. nia. }
  lia.
Qed.
Lemma two_wrapped cap b f : 0 < cap -> zlen (mem b) = cap -> two_pieces cap b f ->
  wrapped cap f /\ g f mod cap = pos b /\ pos b < cap.
Proof.
  intros C M (h & fr & t & lap & E & Eq & El & Ep & Hh & Ht & L0 & P & G).
  rewrite E, !zlen_app in M. pose proof (zlen_nonneg fr).
  assert (Hg : g f / cap = lap). { symmetry. apply Z.div_unique with (pos b); [lia|]. rewrite G. ring. }
  split; [|split].
  - split; [nia|]. rewrite Hg. apply Z.lt_le_trans with (lap + 1); [lia|].
    apply Z.div_le_lower_bound; [lia|]. nia.
  - symmetry. apply Z.mod_unique with lap; [lia|]. rewrite G. ring.
  - lia.
Qed.

Lemma push_ok cap b f d : inv cap b f -> safe cap f (Push d) ->
  exists b', step b (Push d) = Ok (b', snd (fifo_step cap f (Push d))) /\ inv cap b' (fst (fifo_step cap f (Push d))).
Proof.
  intros (Sp & M & C & Dn & I) Sf. cbn [step fifo_step]. unfold push. rewrite Sp, Dn. rewrite (Z.eqb_sym cap).
  destruct (Z.eqb_spec (zlen (q f)) cap) as [Full|Nf]; cbn [orb bind fst snd].
  { exists b. unfold getlen. rewrite Dn. split; [reflexivity|]. repeat split; auto. }
  destruct (Z.ltb_spec (cap - zlen (q f)) (zlen d)) as [Big|Fits]; cbn [bind fst snd].
  { exists b. unfold getlen. rewrite Dn. split; [reflexivity|]. repeat split; auto. }
  destruct (Sf Nf Fits) as [SfW SfE]. pose proof (zlen_nonneg d).
  destruct I as [I|I].
  - pose proof (one_not_wrapped cap b f C M I) as NW.
    destruct I as (a & z & lap & E & Ep & El & L0 & P & G & L1).
    pose proof M as M'. rewrite E, !zlen_app in M'. pose proof (zlen_nonneg a). pose proof (zlen_nonneg (q f)). pose proof (zlen_nonneg z).
    destruct (Z.leb_spec (pos b) (last b)); [|lia].
    destruct (Z.leb_spec (zlen d) (cap - last b)) as [Fit|Wrap].
    + destruct (cut z (zlen d)) as (z1 & z2 & -> & Lz & _); [lia|]. rewrite zlen_app in *.
      rewrite E. replace (a ++ q f ++ z1 ++ z2) with ((a ++ q f) ++ z1 ++ z2) by (rewrite <- app_assoc; reflexivity).
      rewrite (store_mid (a ++ q f) z1 z2 d) by (rewrite ?zlen_app; lia).
      cbn [bind fst snd getlen datan]. eexists. split; [reflexivity|].
      split; [reflexivity|]. cbn [mem datan q]. split; [rewrite !zlen_app; lia|]. split; [auto|]. split; [rewrite zlen_app; reflexivity|].
      left. exists a, z2, lap. cbn [mem pos last q p g]. rewrite zlen_app, <- !app_assoc.
      repeat split; auto; try lia.
    + assert (Nd : d <> []) by (intros ->; change (zlen (@nil Z)) with 0 in *; lia).
      assert (Lz : 0 < zlen z).
      { destruct (Z.eq_dec (zlen z) 0) as [Z0|]; [|lia]. exfalso.
        assert (last b = cap) by lia. apply (SfE Nd); [nia|]. rewrite P, H4.
        replace (lap * cap + cap) with ((lap + 1) * cap) by ring. apply Z.mod_mul. lia. }
      destruct (Z.eqb_spec (cap - last b) 0); [lia|]. destruct (Z.ltb_spec (cap - last b) 0); [lia|].
      destruct (cut d (cap - last b)) as (d1 & d2 & Ed & Ld & Et & Edr); [lia|].
      rewrite Et, Edr, E. assert (L2 : zlen d = zlen d1 + zlen d2) by (rewrite Ed, zlen_app; reflexivity).
      destruct (cut a (zlen d2)) as (a1 & a2 & Ea & La & _); [pose proof (zlen_nonneg d2); lia|].
      assert (La' : zlen a = zlen a1 + zlen a2) by (rewrite Ea, zlen_app; reflexivity).
      replace (a ++ q f ++ z) with ((a ++ q f) ++ z ++ []) by (rewrite app_nil_r, <- app_assoc; reflexivity).
      rewrite (store_mid (a ++ q f) z [] d1) by (rewrite ?zlen_app; lia). cbn [bind mem].
      rewrite app_nil_r, Ea, <- !app_assoc.
      rewrite (store_start a1 (a2 ++ q f ++ d1) d2) by lia.
      cbn [bind fst snd getlen datan last app]. eexists. split.
      { f_equal. f_equal. f_equal. lia. }
      split; [reflexivity|]. cbn [mem datan q]. pose proof (zlen_nonneg a2). pose proof (zlen_nonneg d1).
      split; [rewrite !zlen_app; lia|]. split; [auto|]. split; [rewrite zlen_app; lia|].
      right. exists d2, a2, (q f ++ d1), lap. cbn [mem pos last q p g]. rewrite zlen_app.
      repeat split; auto; try lia; try nia. rewrite Ed, <- !app_assoc. reflexivity.
  - destruct (two_wrapped cap b f C M I) as (W & Gm & Pc).
    specialize (SfW W).
    destruct I as (h & fr & t & lap & E & Eq & El & Ep & Hh & Ht & L0 & P & G).
    pose proof M as M'. rewrite E, !zlen_app in M'. pose proof (zlen_nonneg fr).
    assert (Lq : zlen (q f) = zlen t + zlen h) by (rewrite Eq, zlen_app; reflexivity).
    destruct (Z.leb_spec (pos b) (last b)); [lia|].
    rewrite E, (store_mid h fr t d) by lia. cbn [bind fst snd getlen datan].
    eexists. split.
    { f_equal. f_equal. f_equal. lia. }
    split; [reflexivity|]. cbn [mem datan q]. split; [rewrite !zlen_app; lia|]. split; [auto|].
    split; [rewrite zlen_app; lia|].
    right. exists (h ++ d), [], t, lap. cbn [mem pos last q p g app]. change (zlen (@nil Z)) with 0.
    rewrite Eq, zlen_app, <- !app_assoc. repeat split; auto; try lia; try nia.
Qed.

Lemma pull_ok cap b f n : inv cap b f -> safe cap f (Pull n) ->
  exists b', step b (Pull n) = Ok (b', snd (fifo_step cap f (Pull n))) /\ inv cap b' (fst (fifo_step cap f (Pull n))).
Proof.
  intros (Sp & M & C & Dn & I) [Hn Sf]. cbn [step fifo_step]. unfold pull. rewrite Sp, Dn.
  destruct (Z.eqb_spec (zlen (q f)) 0) as [Empty|Ne]; cbn [bind fst snd].
  { exists b. unfold getlen. rewrite Dn, Empty. split; [reflexivity|]. repeat split; auto. }
  pose proof (zlen_nonneg (q f)).
  destruct I as [I|I].
  - destruct I as (a & z & lap & E & Ep & El & L0 & P & G & L1).
    pose proof M as M'. rewrite E, !zlen_app in M'. pose proof (zlen_nonneg a). pose proof (zlen_nonneg z).
    destruct (Z.ltb_spec (pos b) (last b)); [|lia].
    set (m := Z.min n (zlen (q f))).
    assert (Em : (if last b - pos b <=? n then last b - pos b else n) = m).
    { unfold m. destruct (Z.leb_spec (last b - pos b) n); lia. }
    rewrite Em. destruct (cut (q f) m) as (q1 & q2 & Eq & L & Et & Ed); [lia|]. rewrite Et, Ed.
    assert (Lq : zlen (q f) = zlen q1 + zlen q2) by (rewrite Eq, zlen_app; reflexivity).
    rewrite E, Eq, <- app_assoc. rewrite (fetch_mid a q1 (q2 ++ z)) by lia.
    cbn [bind fst snd getlen datan]. eexists. split; [rewrite <- Eq; reflexivity|].
    split; [reflexivity|]. cbn [mem datan q]. split; [rewrite !zlen_app; lia|]. split; [auto|]. split; [lia|].
    left. exists (a ++ q1), z, lap. cbn [mem pos last q p g]. rewrite zlen_app, <- !app_assoc.
    repeat split; auto; try lia.
  - destruct (two_wrapped cap b f C M I) as (W & Gm & Pc). specialize (Sf W). rewrite Gm in Sf.
    destruct I as (h & fr & t & lap & E & Eq & El & Ep & Hh & Ht & L0 & P & G).
    pose proof M as M'. rewrite E, !zlen_app in M'. pose proof (zlen_nonneg fr).
    assert (Lq : zlen (q f) = zlen t + zlen h) by (rewrite Eq, zlen_app; reflexivity).
    destruct (Z.ltb_spec (pos b) (last b)); [lia|].
    destruct (Z.leb_spec n (cap - pos b)).
    + rewrite (Z.min_l n (zlen (q f))) by lia.
      destruct (cut t n) as (t1 & t2 & Et & L & _); [lia|].
      assert (Lt : zlen t = zlen t1 + zlen t2) by (rewrite Et, zlen_app; reflexivity).
      rewrite E, Et. replace (h ++ fr ++ t1 ++ t2) with ((h ++ fr) ++ t1 ++ t2) by (rewrite <- app_assoc; reflexivity).
      rewrite (fetch_mid (h ++ fr) t1 t2) by (rewrite ?zlen_app; lia).
      assert (E1 : ztake n (q f) = t1).
      { rewrite Eq, Et, <- app_assoc, ztake_app_l by lia. apply ztake_all. lia. }
      assert (E2 : zdrop n (q f) = t2 ++ h).
      { rewrite Eq, Et, <- app_assoc, zdrop_app_r by lia. apply zdrop_le0. lia. }
      rewrite E1, E2. cbn [bind fst snd getlen datan]. eexists. split; [reflexivity|].
      split; [reflexivity|]. cbn [mem datan q]. split; [rewrite !zlen_app; lia|]. split; [auto|].
      split; [rewrite zlen_app; lia|].
      right. exists h, (fr ++ t1), t2, lap. cbn [mem pos last q p g]. rewrite zlen_app, <- !app_assoc.
      repeat split; auto; try lia.
    + set (m := Z.min n (zlen (q f))).
      destruct (Z.eqb_spec (cap - pos b) 0); [lia|].
      replace (mem b) with ((h ++ fr) ++ t ++ []) by (rewrite app_nil_r, <- app_assoc; auto).
      rewrite (fetch_mid (h ++ fr) t []) by (rewrite ?zlen_app; lia).
      cbn [bind fst snd mem pos]. rewrite app_nil_r, <- app_assoc.
      assert (Em : (if last b <=? n - (cap - pos b) then last b else n - (cap - pos b)) = m - zlen t).
      { unfold m. destruct (Z.leb_spec (last b) (n - (cap - pos b))); lia. }
      rewrite Em. destruct (cut h (m - zlen t)) as (h1 & h2 & Eh & L & _); [lia|].
      assert (Lh : zlen h = zlen h1 + zlen h2) by (rewrite Eh, zlen_app; reflexivity).
      rewrite Eh, <- app_assoc.
      rewrite (fetch_start h1 (h2 ++ fr ++ t)) by lia.
      assert (E1 : ztake m (q f) = t ++ h1).
      { rewrite Eq, ztake_app_r by lia. f_equal. rewrite Eh, ztake_app_l by lia. apply ztake_all. lia. }
      assert (E2 : zdrop m (q f) = h2).
      { rewrite Eq, zdrop_app_r by lia. rewrite Eh, zdrop_app_r by lia. apply zdrop_le0. lia. }
      rewrite E1, E2. cbn [bind fst snd getlen datan app]. eexists. split.
      { f_equal. f_equal. f_equal. lia. }
      split; [reflexivity|]. cbn [mem datan q]. split; [rewrite !zlen_app; lia|]. split; [auto|]. split; [lia|].
      left. exists h1, (fr ++ t), (lap + 1). cbn [mem pos last q p g].
      repeat split; auto; try lia; try nia.
Qed.

(** ** C09 *)
(** For every capacity and every history all of whose calls are safe, the caller sees
    exactly what a bounded queue of bytes shows: results, bytes and lengths; nothing
    outside the buffer is touched. *)
Theorem C09_partial contents os : 0 < zlen contents -> all_safe (zlen contents) (Fifo [] 0 0) os ->
  run (rb_alloc contents) os = Ok (fifo_run (zlen contents) (Fifo [] 0 0) os).
Proof.
  intros C. set (cap := zlen contents) in *.
  assert (I : inv cap (rb_alloc contents) (Fifo [] 0 0)).
  { repeat split; auto. left. exists [], contents, 0. cbn. change (zlen (@nil Z)) with 0. repeat split; auto; lia. }
  revert I. generalize (rb_alloc contents) (Fifo [] 0 0). induction os as [|o os IH]; intros b f I A; [reflexivity|].
  cbn [all_safe] in A. destruct A as [A1 A2].
  assert (S : exists b', step b o = Ok (b', snd (fifo_step cap f o)) /\ inv cap b' (fst (fifo_step cap f o))).
  { destruct o; [apply push_ok|apply pull_ok]; auto. }
  destruct S as (b' & E & I'). cbn [run fifo_run]. rewrite E. cbn [bind fst snd].
  destruct (fifo_step cap f o) as [f' r] eqn:Ef. cbn [fst snd] in *. rewrite (IH b' f') by auto. reflexivity.
Qed.
Print Assumptions C09_partial.
(** four bytes of space: fill, take three, wrap around filling it again, take across the
    end *)
Example C09_example :
  all_safe 4 (Fifo [] 0 0) [Push [1; 2; 3]; Pull 2; Push [4; 5; 6]; Pull 3; Push []; Pull 9; Push [7; 8]; Pull 2] /\
  run (rb_alloc [0; 0; 0; 0]) [Push [1; 2; 3]; Pull 2; Push [4; 5; 6]; Pull 3; Push []; Pull 9; Push [7; 8]; Pull 2] =
    Ok [(0, [], 3); (0, [1; 2], 1); (0, [], 4); (0, [3; 4; 5], 1); (0, [], 1); (0, [6], 0); (0, [], 2); (0, [7; 8], 0)].
Proof.
  split; [|vm_compute; reflexivity].
  vm_compute. repeat apply conj; intros; try congruence; try tauto; repeat apply conj; intros; try congruence; try tauto;
    repeat match goal with H : _ /\ _ |- _ => destruct H end; congruence.
Qed.

(** *** What goes wrong *)
Local Arguments store : simpl never.
Local Arguments fetch : simpl never.
(** For every capacity: as many bytes as the capacity go through; the next byte is
    accepted, but the pull that wants it reads behind the buffer. *)
Theorem C09_refuted_end contents d x : 0 < zlen contents -> zlen d = zlen contents ->
  run (rb_alloc contents) [Push d; Pull (zlen d); Push [x]; Pull 1] = Fault FOob /\
  fifo_run (zlen contents) (Fifo [] 0 0) [Push d; Pull (zlen d); Push [x]; Pull 1] =
    [(0, [], zlen d); (0, d, 0); (0, [], 1); (0, [x], 0)].
Proof.
  intros C L. set (cap := zlen contents) in *.
  assert (S : step (rb_alloc contents) (Push d) = Ok (Rb cap 0 cap cap d, (0, [], cap))).
  { cbn [step]. unfold push, rb_alloc. cbn [space datan pos last mem]. fold cap. rewrite L.
    destruct (Z.eqb_spec cap 0); [lia|]. destruct (Z.ltb_spec (cap - 0) cap); [lia|].
    cbn. destruct (Z.leb_spec cap (cap - 0)); [|lia].
    replace contents with (contents ++ []) by apply app_nil_r. rewrite (store_start contents [] d) by auto.
    rewrite app_nil_r. cbn. unfold getlen. cbn. rewrite Z.add_0_l. reflexivity. }
  assert (S2 : step (Rb cap 0 cap cap d) (Pull (zlen d)) = Ok (Rb cap cap cap 0 d, (0, d, 0))).
  { cbn [step]. unfold pull. cbn [space datan pos last mem]. rewrite L.
    destruct (Z.eqb_spec cap 0); [lia|]. destruct (Z.ltb_spec 0 cap); [|lia].
    destruct (Z.leb_spec (cap - 0) cap); [|lia].
    replace (fetch d 0 (cap - 0)) with (@Ok (list Z) d).
    - cbn. unfold getlen. cbn. repeat f_equal; lia.
    - symmetry. rewrite <- (app_nil_r d) at 1. apply fetch_start. lia. }
  assert (S3 : exists m, step (Rb cap cap cap 0 d) (Push [x]) = Ok (Rb cap cap (cap + 1) 1 m, (0, [], 1)) /\ zlen m = cap).
  { cbn [step]. unfold push. cbn [space datan pos last mem]. change (zlen [x]) with 1.
    destruct (Z.eqb_spec cap 0); [lia|]. destruct (Z.ltb_spec (cap - 0) 1); [lia|].
    rewrite Z.leb_refl. rewrite Z.sub_diag. cbn [Z.leb Z.eqb bind fst snd mem last datan Z.compare].
    rewrite (zdrop_le0 0) by lia. destruct d as [|y d]; [change (zlen (@nil Z)) with 0 in L; lia|].
    change (y :: d) with ([y] ++ d). rewrite (store_start [y] d [x]) by reflexivity.
    eexists. split; [reflexivity|]. rewrite zlen_app. rewrite zlen_cons in L. exact L. }
  destruct S3 as (m & S3 & Lm).
  split.
  - cbn [run]. rewrite S. cbn [bind fst snd]. rewrite S2. cbn [bind fst snd]. rewrite S3. cbn [bind fst snd].
    cbn [step]. unfold pull. cbn [space datan pos last mem]. change (1 =? 0) with false. cbv iota.
    destruct (Z.ltb_spec cap (cap + 1)); [|lia]. replace (cap + 1 - cap) with 1 by lia. change (if 1 <=? 1 then 1 else 1) with 1.
    unfold fetch. rewrite Lm. destruct (Z.leb_spec (cap + 1) cap); [lia|]. destruct (0 <=? cap); reflexivity.
  - cbn [fifo_run fifo_step q p g app]. change (zlen (@nil Z)) with 0. change (zlen [x]) with 1.
    destruct (Z.eqb_spec 0 cap); [lia|]. destruct (Z.ltb_spec (cap - 0) (zlen d)); [lia|]. cbn [orb q p g app].
    rewrite L. destruct (Z.eqb_spec cap 0); [lia|]. rewrite Z.min_id, (zdrop_all cap d), (ztake_all cap d) by lia.
    cbn [q p g app]. change (zlen (@nil Z)) with 0.
    destruct (Z.eqb_spec 0 cap); [lia|]. destruct (Z.ltb_spec (cap - 0) 1); [lia|]. cbn [orb q p g app].
    change (zlen [x]) with 1. repeat f_equal; lia.
Qed.
Print Assumptions C09_refuted_end.

(** While the bytes wrap around, a push that leaves room still makes the buffer count as
    full: bytes never pushed are pulled, and a push that fits is refused. *)
Theorem C09_refuted_count :
  exists os,
    run (rb_alloc [0; 0; 0; 0; 0]) os =
      Ok [(0, [], 4); (0, [1; 2; 3; 4], 0); (0, [], 2); (0, [], 5); (-1, [], 5); (0, [5; 6; 7; 3; 4], 0)] /\
    fifo_run 5 (Fifo [] 0 0) os =
      [(0, [], 4); (0, [1; 2; 3; 4], 0); (0, [], 2); (0, [], 3); (0, [], 4); (0, [5; 6; 7; 8], 0)].
Proof.
  exists [Push [1; 2; 3; 4]; Pull 4; Push [5; 6]; Push [7]; Push [8]; Pull 9].
  split; vm_compute; reflexivity.
Qed.
Print Assumptions C09_refuted_count.

(** A pull that ends exactly at the end of the memory while the bytes wrap around: the read
    position is not moved back to the start; every byte comes out once more, but after the
    next push a pull copies a negative number of bytes. *)
Theorem C09_refuted_pull :
  exists os r,
    run (rb_alloc [0; 0; 0; 0]) (os ++ [Push [7]]) = Ok (r ++ [(0, [], 4)]) /\
    fifo_run 4 (Fifo [] 0 0) (os ++ [Push [7]]) = r ++ [(0, [], 1)] /\
    run (rb_alloc [0; 0; 0; 0]) (os ++ [Push [7]; Pull 1]) = Fault FOob.
Proof.
  exists [Push [1; 2; 3]; Pull 2; Push [4; 5; 6]; Pull 2; Pull 2].
  eexists [(0, [], 3); (0, [1; 2], 1); (0, [], 4); (0, [3; 4], 2); (0, [5; 6], 0)].
  split; [|split]; vm_compute; reflexivity.
Qed.
Print Assumptions C09_refuted_pull.
