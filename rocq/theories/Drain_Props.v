(** * C157: requests to the web server and the memory of the process *)
From Verif Require Import Base Queue_Model Queue_Proofs Queue_Props Pool_Model Pool_Proofs Pool_Props Drain_Model.
From Coq Require Import Permutation.
Local Arguments Z.add : simpl never.
Local Arguments Z.sub : simpl never.
Local Arguments Z.mul : simpl never.
Local Arguments zlen : simpl never.

(** how many requests ask for the connection to be kept *)
Fixpoint kept (us : list use) : Z :=
  match us with [] => 0 | u :: r => (if u_keep u then 1 else 0) + kept r end.
(** a request without body; the answer is short, or a file *)
Definition plain (u : use) : Prop :=
  u_body u = 0 /\ (if u_file u then u_pay u = 0 \/ u_pay u = 16344 else 0 <= u_pay u <= 472).
(** there is room for one request, the class of the buffers (4097 to 8192 bytes) aside *)
Definition roomy (live : list (Z * Z)) : Prop :=
  nlive 0 live + 3 <= 2048 /\ nlive 1 live + 1 <= 1024 /\ nlive 5 live + 1 <= 1024.
(** buffers that can still be handed out *)
Definition left4 (live : list (Z * Z)) : Z := 1024 - nlive 4 live.

(** ** The blocks of the pool, in any order *)
Definition holds (L : layout) (s : pool) (l : list (Z * Z)) : Prop :=
  exists live, reach L s live /\ Permutation live l.

Lemma nlive_perm k l l' : Permutation l l' -> nlive k l = nlive k l'.
Proof.
  intros P. unfold nlive, zlen. f_equal. apply Permutation_length.
  induction P as [|x l l' P IH|x y l|l l2 l3 P1 IH1 P2 IH2]; cbn [filter].
  - constructor.
  - destruct (class_of (snd x) =? k); auto.
  - destruct (class_of (snd x) =? k), (class_of (snd y) =? k); auto. apply perm_swap.
  - etransitivity; eauto.
Qed.
Lemma nlive_cons k p n l : nlive k ((p, n) :: l) = (if class_of n =? k then 1 else 0) + nlive k l.
Proof. unfold nlive. cbn [filter snd]. destruct (class_of n =? k); [rewrite zlen_cons|]; lia. Qed.
Lemma nlive_nonneg k l : 0 <= nlive k l.
Proof. apply zlen_nonneg. Qed.

Lemma reach_distinct L s live : layout_ok L -> reach L s live -> NoDup (map fst live).
Proof.
  intros LO R. destruct (reach_PI L s live LO R) as (U & I & P). pose proof (pi_size _ _ _ _ _ P) as SZ.
  assert (D : forall l1 l2 l3 p n q m, live = l1 ++ (p, n) :: l2 ++ (q, m) :: l3 -> p <> q).
  { intros l1 l2 l3 p n q m E EQ. pose proof (C03_pairwise_disjoint L s live l1 l2 l3 p n q m LO R E) as DJ.
    rewrite Forall_forall in SZ.
    assert (0 < n) by (apply (SZ (p, n)); rewrite E; apply in_or_app; right; left; reflexivity).
    assert (0 < m) by (apply (SZ (q, m)); rewrite E; apply in_or_app; right; right; apply in_or_app; right; left; reflexivity).
    unfold disjoint in DJ. lia. }
  clear -D. induction live as [|(p, n) live IH]; cbn [map fst]; constructor.
  - intros X. apply in_map_iff in X as ((q, m) & EQ & X). apply in_split in X as (l2 & l3 & E).
    apply (D [] l2 l3 p n q m); [cbn; rewrite E; reflexivity|]. cbn in EQ. congruence.
  - apply IH. intros l1 l2 l3 p' n' q m E. apply (D ((p, n) :: l1) l2 l3 p' n' q m). cbn. rewrite E. reflexivity.
Qed.
Lemma filter_out p (l : list (Z * Z)) : ~ In p (map fst l) -> filter (fun e => negb (fst e =? p)) l = l.
Proof.
  induction l as [|(q, m) l IH]; intros N; [reflexivity|]. cbn [filter fst]. cbn in N.
  destruct (Z.eqb_spec q p); [tauto|]. cbn [negb]. f_equal. tauto.
Qed.
Lemma filter_perm (f : Z * Z -> bool) l l' : Permutation l l' -> Permutation (filter f l) (filter f l').
Proof.
  induction 1 as [|x l l' P IH|x y l|l l2 l3 P1 IH1 P2 IH2]; cbn [filter]; auto.
  - destruct (f x); auto.
  - destruct (f x), (f y); auto. apply perm_swap.
  - etransitivity; eauto.
Qed.

Section Pool.
Context (L : layout) (LO : layout_ok L).

Lemma holds_alloc s l n : holds L s l -> 0 < n <= 16384 -> nlive 0 l < 2048 -> nlive (class_of n) l < cnum (class_of n) ->
  exists p s', pool_alloc L s n = Ok (Some p, s') /\ holds L s' ((p, n) :: l).
Proof.
  intros (live & R & P) B N0 NK. rewrite <- (nlive_perm _ _ _ P) in N0; rewrite <- (nlive_perm _ _ _ P) in NK.
  destruct (C03_alloc L s live n LO R B N0 NK) as (p & s' & E & _). exists p, s'. split; [exact E|].
  exists ((p, n) :: live). split; [|constructor; exact P]. apply (r_alloc L s live n (Some p) s' R); [lia|exact E].
Qed.
Lemma holds_over s l n : holds L s l -> 512 < n <= 16384 -> nlive 0 l < 2048 -> cnum (class_of n) <= nlive (class_of n) l ->
  pool_alloc L s n = Fault FOob.
Proof.
  intros (live & R & P) B N0 NK. rewrite <- (nlive_perm _ _ _ P) in N0; rewrite <- (nlive_perm _ _ _ P) in NK.
  apply (C04_exhausted_class_overflows L s live n LO R B N0).
  destruct (reach_PI L s live LO R) as (U & I & PP). destruct (class_of_range n) as (H & _); [lia|].
  pose proof (nlive_U L s live U I _ PP H) as E. pose proof (zlen_nonneg (U (class_of n))). lia.
Qed.
Lemma holds_none s l n : holds L s l -> 0 < n -> nlive 0 l = 2048 -> pool_alloc L s n = Ok (None, s).
Proof.
  intros (live & R & P) B N0. rewrite <- (nlive_perm _ _ _ P) in N0.
  apply (C04_reported_partial L s live n LO R B). left. exact N0.
Qed.
Lemma holds_free s l p n r : holds L s l -> Permutation l ((p, n) :: r) ->
  exists s', pool_free L s p = Ok (0, s') /\ holds L s' r.
Proof.
  intros (live & R & P) Q. assert (PQ : Permutation live ((p, n) :: r)) by (etransitivity; eauto).
  assert (X : In (p, n) live) by (apply (Permutation_in _ (Permutation_sym PQ)); left; reflexivity).
  destruct (C03_free L s live p n LO R X) as (s' & E & _). exists s'. split; [exact E|].
  exists (filter (fun e => negb (fst e =? p)) live). split; [exact (r_free L s live p n 0 s' R X E)|].
  etransitivity; [apply filter_perm; exact PQ|]. cbn [filter fst]. rewrite Z.eqb_refl. cbn [negb].
  pose proof (Permutation_NoDup (Permutation_map fst PQ) (reach_distinct L s live LO R)) as ND. cbn [map fst] in ND.
  rewrite filter_out; [reflexivity|]. inversion ND; assumption.
Qed.
Lemma frees_ok ps : forall s l r, holds L s l -> Permutation l (ps ++ r) ->
  exists s', frees L s (map fst ps) = Ok s' /\ holds L s' r.
Proof.
  induction ps as [|(p, n) ps IH]; intros s l r H P; cbn [map fst frees].
  - destruct H as (live & R & Q). exists s. split; [reflexivity|]. exists live. split; [exact R|]. etransitivity; eauto.
  - destruct (holds_free s l p n (ps ++ r) H P) as (s1 & E & H1). rewrite E. cbn [bind snd]. apply (IH s1 _ r H1). reflexivity.
Qed.

(** ** One request *)
Ltac nl := rewrite ?nlive_cons; cbn -[nlive Z.add Z.sub Z.le Z.lt]; lia.
Ltac nl_in H := rewrite ?nlive_cons in H; cbn -[nlive Z.add Z.sub Z.le Z.lt] in H.

Lemma askz_zero s held k : askz L s 0 held k = k [] s.
Proof. reflexivity. Qed.

(** with two buffers left a plain request is answered; one buffer is gone if the
    connection is kept *)
Lemma one_ok s l old u : holds L s l -> roomy l -> plain u -> 2 <= left4 l ->
  exists s' l', serve_one L old s u = Ok (true, s') /\ holds L s' l' /\ roomy l' /\
    left4 l' = left4 l - (if u_keep u then 1 else 0) /\ (forall k, k <> 4 -> nlive k l' = nlive k l) /\
    (u_keep u = false -> l' = l).
Proof.
  intros H (R0 & R1 & R5) (B & PY) F. unfold left4 in *.
  pose proof (nlive_nonneg 0 l) as N0.
  unfold serve_one, ask.
  destruct (holds_alloc s l BUF H) as (m & s1 & E1 & H1); [unfold BUF; lia|lia|change (class_of BUF) with 4; change (cnum 4) with 1024; lia|].
  rewrite E1. cbn [bind fst snd]. clear E1.
  destruct (holds_alloc s1 _ WEBC H1) as (w & s2 & E2 & H2); [unfold WEBC; lia|nl|change (class_of WEBC) with 0; change (cnum 0) with 2048; nl|].
  rewrite E2. cbn [bind fst snd]. clear E2.
  destruct (holds_alloc s2 _ REQ H2) as (r & s3 & E3 & H3); [unfold REQ; lia|nl|change (class_of REQ) with 1; change (cnum 1) with 1024; nl|].
  rewrite E3. cbn [bind fst snd]. clear E3. rewrite B, askz_zero.
  assert (Y : exists y s4, (forall k : list Z -> pool -> res (bool * pool), askz L s3 (if u_file u then 0 else u_pay u) [m; r; w] k = k (map fst y) s4) /\
    holds L s4 (y ++ (r, REQ) :: (w, WEBC) :: (m, BUF) :: l) /\ ((y = [] /\ s4 = s3) \/ exists p n, y = [(p, n)] /\ class_of n = 0 /\ u_file u = false)).
  { destruct (u_file u) eqn:UF; [exists [], s3; split; [intros k; reflexivity|split; [exact H3|left; auto]]|].
    destruct (Z.eqb_spec (u_pay u) 0) as [Z0|NZ]; [exists [], s3; split; [intros k; rewrite Z0; reflexivity|split; [exact H3|left; auto]]|].
    assert (C0 : class_of (40 + u_pay u) = 0) by (unfold class_of; rewrite (proj2 (Z.leb_le _ _)) by lia; reflexivity).
    destruct (holds_alloc s3 _ (40 + u_pay u) H3) as (p & s4 & E4 & H4); [lia|nl|rewrite C0; change (cnum 0) with 2048; nl|].
    exists [(p, 40 + u_pay u)], s4. split; [|split; [exact H4|right; eauto 6]].
    intros k. unfold askz. destruct (Z.eqb_spec (u_pay u) 0); [contradiction|]. unfold ask. rewrite E4. reflexivity. }
  destruct Y as (y & s4 & EY & H4 & CY). rewrite EY. clear EY.
  assert (G0 : nlive 0 (y ++ (r, REQ) :: (w, WEBC) :: (m, BUF) :: l) < 2048).
  { destruct CY as [(-> & _)|(p & n & -> & CN & _)]; cbn [app]; rewrite ?nlive_cons, ?CN; cbn -[nlive Z.add]; lia. }
  assert (G4 : nlive 4 (y ++ (r, REQ) :: (w, WEBC) :: (m, BUF) :: l) = 1 + nlive 4 l).
  { destruct CY as [(-> & _)|(p & n & -> & CN & _)]; cbn [app]; rewrite ?nlive_cons, ?CN; cbn -[nlive Z.add]; lia. }
  unfold ask_head.
  destruct (holds_alloc s4 _ BUF H4) as (h & s5 & E5 & H5); [unfold BUF; lia|exact G0|change (class_of BUF) with 4; change (cnum 4) with 1024; lia|].
  rewrite E5. cbn [bind fst snd]. clear E5.
  assert (ZZ : exists z s6, (forall k : list Z -> pool -> res (bool * pool), askz L s5 (if u_file u then u_pay u else 0) [m; r; h; w] k = k (map fst z) s6) /\
    holds L s6 (z ++ (h, BUF) :: y ++ (r, REQ) :: (w, WEBC) :: (m, BUF) :: l)).
  { destruct (u_file u) eqn:UF; [|exists [], s5; split; [intros k; reflexivity|exact H5]].
    destruct PY as [PY|PY]; [exists [], s5; rewrite PY; split; [intros k; reflexivity|exact H5]|]. rewrite PY.
    destruct CY as [(-> & ->)|(p & n & _ & _ & X)]; [|discriminate]. cbn [app] in *.
    destruct (holds_alloc s5 _ 16384 H5) as (p & s6 & E6 & H6); [lia|nl|change (class_of 16384) with 5; change (cnum 5) with 1024; nl|].
    exists [(p, 16384)], s6. split; [|exact H6]. intros k. unfold askz, ask. change (16344 =? 0) with false. cbn iota.
    change (40 + 16344) with 16384. rewrite E6. reflexivity. }
  destruct ZZ as (z & s6 & EZ & H6). rewrite EZ. clear EZ. cbv zeta.
  set (own := [(r, REQ); (h, BUF)] ++ (y ++ z) ++ [(w, WEBC)]).
  assert (PO : Permutation (z ++ (h, BUF) :: y ++ (r, REQ) :: (w, WEBC) :: (m, BUF) :: l) (own ++ (m, BUF) :: l)).
  { unfold own. cbn [app]. rewrite <- !app_assoc. cbn [app].
    etransitivity; [symmetry; apply Permutation_middle|].
    etransitivity; [apply perm_skip; rewrite app_assoc; symmetry; apply Permutation_middle|].
    etransitivity; [apply perm_swap|]. apply perm_skip. apply perm_skip.
    rewrite app_assoc. apply Permutation_app_tail. apply Permutation_app_comm. }
  destruct (u_keep u) eqn:K.
  - destruct (frees_ok own s6 _ ((m, BUF) :: l) H6 PO) as (s7 & E7 & H7).
    change ([r; h] ++ (map fst y ++ map fst z) ++ [w]) with ([r; h] ++ (map fst y ++ map fst z) ++ map fst [(w, WEBC)]).
    assert (EM : map fst own = [r; h] ++ (map fst y ++ map fst z) ++ [w]) by (unfold own; rewrite !map_app; reflexivity).
    change (map fst [(w, WEBC)]) with [w]. rewrite <- EM, E7. cbn [bind].
    exists s7, ((m, BUF) :: l). split; [reflexivity|]. split; [exact H7|].
    split; [unfold roomy; nl|]. split; [nl|]. split; [|intros X; discriminate X]. intros k NK. rewrite nlive_cons. change (class_of BUF) with 4.
    destruct (Z.eqb_spec 4 k); [congruence|lia].
  - destruct (frees_ok ((m, BUF) :: own) s6 _ l H6) as (s7 & E7 & H7).
    { etransitivity; [exact PO|]. cbn [app]. symmetry. apply Permutation_middle. }
    assert (EM : map fst ((m, BUF) :: own) = m :: [r; h] ++ (map fst y ++ map fst z) ++ [w]) by (unfold own; cbn [map fst app]; rewrite !map_app; reflexivity).
    rewrite <- EM, E7. cbn [bind]. exists s7, l. split; [reflexivity|]. split; [exact H7|].
    split; [unfold roomy; lia|]. split; [lia|]. split; auto.
Qed.

(** with less than two buffers left it writes outside the pool *)
Lemma one_over s l old u : holds L s l -> roomy l -> plain u -> left4 l < 2 -> serve_one L old s u = Fault FOob.
Proof.
  intros H (R0 & R1 & R5) (B & PY) F. unfold left4 in *.
  pose proof (nlive_nonneg 0 l) as N0. unfold serve_one, ask.
  destruct (Z_lt_ge_dec (nlive 4 l) 1024) as [LT|GE].
  2:{ rewrite (holds_over s l BUF H); [reflexivity|unfold BUF; lia|lia|change (class_of BUF) with 4; change (cnum 4) with 1024; lia]. }
  destruct (holds_alloc s l BUF H) as (m & s1 & E1 & H1); [unfold BUF; lia|lia|change (class_of BUF) with 4; change (cnum 4) with 1024; lia|].
  rewrite E1. cbn [bind fst snd]. clear E1.
  destruct (holds_alloc s1 _ WEBC H1) as (w & s2 & E2 & H2); [unfold WEBC; lia|nl|change (class_of WEBC) with 0; change (cnum 0) with 2048; nl|].
  rewrite E2. cbn [bind fst snd]. clear E2.
  destruct (holds_alloc s2 _ REQ H2) as (r & s3 & E3 & H3); [unfold REQ; lia|nl|change (class_of REQ) with 1; change (cnum 1) with 1024; nl|].
  rewrite E3. cbn [bind fst snd]. clear E3. rewrite B, askz_zero.
  assert (Y : exists y s4, (forall k : list Z -> pool -> res (bool * pool), askz L s3 (if u_file u then 0 else u_pay u) [m; r; w] k = k (map fst y) s4) /\
    holds L s4 (y ++ (r, REQ) :: (w, WEBC) :: (m, BUF) :: l) /\ (y = [] \/ exists p n, y = [(p, n)] /\ class_of n = 0)).
  { destruct (u_file u) eqn:UF; [exists [], s3; split; [intros k; reflexivity|split; [exact H3|left; auto]]|].
    destruct (Z.eqb_spec (u_pay u) 0) as [Z0|NZ]; [exists [], s3; split; [intros k; rewrite Z0; reflexivity|split; [exact H3|left; auto]]|].
    assert (C0 : class_of (40 + u_pay u) = 0) by (unfold class_of; rewrite (proj2 (Z.leb_le _ _)) by lia; reflexivity).
    destruct (holds_alloc s3 _ (40 + u_pay u) H3) as (p & s4 & E4 & H4); [lia|nl|rewrite C0; change (cnum 0) with 2048; nl|].
    exists [(p, 40 + u_pay u)], s4. split; [|split; [exact H4|right; eauto 6]].
    intros k. unfold askz. destruct (Z.eqb_spec (u_pay u) 0); [contradiction|]. unfold ask. rewrite E4. reflexivity. }
  destruct Y as (y & s4 & EY & H4 & CY). rewrite EY. clear EY. unfold ask_head.
  rewrite (holds_over s4 _ BUF H4); [reflexivity|unfold BUF; lia| |].
  - destruct CY as [->|(p & n & -> & CN)]; cbn [app]; rewrite ?nlive_cons, ?CN; cbn -[nlive Z.add]; lia.
  - change (class_of BUF) with 4; change (cnum 4) with 1024.
    destruct CY as [->|(p & n & -> & CN)]; cbn [app]; rewrite ?nlive_cons, ?CN; cbn -[nlive Z.add]; lia.
Qed.

Lemma KN us : 0 <= kept us.
Proof. induction us as [|u us IH]; cbn [kept]; [lia|destruct (u_keep u); lia]. Qed.

Lemma all_plain us : forall s l old, holds L s l -> roomy l -> Forall plain us ->
  (us <> [] -> kept (removelast us) + 2 <= left4 l) ->
  exists s' l', serve_all L old s us = Ok (map (fun _ => true) us, s') /\ holds L s' l' /\
    left4 l' = left4 l - kept us /\ (forall k, k <> 4 -> nlive k l' = nlive k l) /\ (kept us = 0 -> l' = l).
Proof.
  induction us as [|u us IH]; intros s l old H R F C.
  - exists s, l. split; [reflexivity|]. split; [exact H|]. split; [cbn; lia|auto].
  - assert (C2 : 2 <= left4 l).
    { specialize (C ltac:(discriminate)). pose proof (KN (removelast (u :: us))). lia. }
    destruct (one_ok s l old u H R (Forall_inv F) C2) as (s1 & l1 & E1 & H1 & R1 & F1 & N1 & Q1).
    destruct (IH s1 l1 (true && u_keep u) H1 R1 (Forall_inv_tail F)) as (s2 & l2 & E2 & H2 & F2 & N2 & Q2).
    { intros NE. specialize (C ltac:(discriminate)). destruct us as [|u2 us]; [contradiction|].
      change (removelast (u :: u2 :: us)) with (u :: removelast (u2 :: us)) in C. cbn [kept] in C. lia. }
    exists s2, l2. cbn [serve_all]. rewrite E1. cbn [bind fst snd]. rewrite E2. cbn [bind fst snd map kept].
    split; [reflexivity|]. split; [exact H2|]. split; [lia|]. split; [intros k NK; rewrite N2, N1 by exact NK; reflexivity|].
    intros Z0. pose proof (KN us). destruct (u_keep u) eqn:UK; [lia|]. rewrite Q2 by lia. apply Q1. reflexivity.
Qed.
Lemma all_over us : forall s l old, holds L s l -> roomy l -> Forall plain us -> us <> [] ->
  left4 l < kept (removelast us) + 2 -> serve_all L old s us = Fault FOob.
Proof.
  induction us as [|u us IH]; intros s l old H R F NE C; [contradiction|]. cbn [serve_all].
  destruct (Z_lt_ge_dec (left4 l) 2) as [LT|GE]; [rewrite (one_over s l old u H R (Forall_inv F) LT); reflexivity|].
  destruct (one_ok s l old u H R (Forall_inv F)) as (s1 & l1 & E1 & H1 & R1 & F1 & N1 & _); [lia|].
  rewrite E1. cbn [bind fst snd]. destruct us as [|u2 us]; [cbn in C; lia|].
  change (removelast (u :: u2 :: us)) with (u :: removelast (u2 :: us)) in C. cbn [kept] in C.
  rewrite (IH s1 l1 _ H1 R1 (Forall_inv_tail F)); [reflexivity|discriminate|lia].
Qed.

(** ** Requests with a body *)
(** POST /echo with a body of up to 472 bytes, on a connection of its own *)
Definition post (u : use) : Prop := 1 <= u_body u <= 472 /\ u_file u = false /\ u_pay u = u_body u /\ u_keep u = false.

Lemma small0 n : 0 <= n <= 472 -> class_of (40 + n) = 0.
Proof. intros B. unfold class_of. rewrite (proj2 (Z.leb_le _ _)) by lia. reflexivity. Qed.

Lemma post_upto s l u : holds L s l -> nlive 0 l + 3 <= 2048 -> nlive 1 l + 1 <= 1024 -> 2 <= left4 l -> post u ->
  exists m w r b y s', serve_one L false s u =
    ask_head L s' (fun h s => let* s := frees L s (map fst ((m, BUF) :: [(r, REQ); (h, BUF)] ++ [(y, 40 + u_body u)] ++ [(w, WEBC)])) in Ok (true, s)) /\
    holds L s' ((y, 40 + u_body u) :: (b, 40 + u_body u) :: (r, REQ) :: (w, WEBC) :: (m, BUF) :: l).
Proof.
  intros H R0 R1 F (B & UF & UP & UK). unfold left4 in *. pose proof (small0 (u_body u) ltac:(lia)) as C0.
  unfold serve_one, ask. rewrite UF, UP, UK.
  destruct (holds_alloc s l BUF H) as (m & s1 & E1 & H1); [unfold BUF; lia|lia|change (class_of BUF) with 4; change (cnum 4) with 1024; lia|].
  rewrite E1. cbn [bind fst snd]. clear E1.
  destruct (holds_alloc s1 _ WEBC H1) as (w & s2 & E2 & H2); [unfold WEBC; lia|nl|change (class_of WEBC) with 0; change (cnum 0) with 2048; nl|].
  rewrite E2. cbn [bind fst snd]. clear E2.
  destruct (holds_alloc s2 _ REQ H2) as (r & s3 & E3 & H3); [unfold REQ; lia|nl|change (class_of REQ) with 1; change (cnum 1) with 1024; nl|].
  rewrite E3. cbn [bind fst snd]. clear E3.
  destruct (holds_alloc s3 _ (40 + u_body u) H3) as (b & s4 & E4 & H4); [lia|nl|rewrite C0; change (cnum 0) with 2048; nl|].
  destruct (holds_alloc s4 _ (40 + u_body u) H4) as (y & s5 & E5 & H5); [lia|rewrite nlive_cons, C0; nl|rewrite C0; change (cnum 0) with 2048; rewrite nlive_cons, C0; nl|].
  exists m, w, r, b, y, s5. split; [|exact H5].
  assert (NZ : (u_body u =? 0) = false) by (apply Z.eqb_neq; lia).
  unfold askz, ask. rewrite NZ, E4. cbn [bind fst snd]. rewrite E5. cbn [bind fst snd]. rewrite Z.eqb_refl. reflexivity.
Qed.
Lemma post_ok s l u : holds L s l -> nlive 0 l + 4 <= 2048 -> nlive 1 l + 1 <= 1024 -> 2 <= left4 l -> post u ->
  exists s' b, serve_one L false s u = Ok (true, s') /\ holds L s' ((b, 40 + u_body u) :: l).
Proof.
  intros H R0 R1 F PU. destruct (post_upto s l u H ltac:(lia) R1 F PU) as (m & w & r & b & y & s1 & E & H1).
  destruct PU as (B & UF & UP & UK). unfold left4 in *. pose proof (small0 (u_body u) ltac:(lia)) as C0. rewrite E. unfold ask_head.
  destruct (holds_alloc s1 _ BUF H1) as (h & s2 & E2 & H2); [unfold BUF; lia|rewrite !nlive_cons, C0; nl|change (class_of BUF) with 4; change (cnum 4) with 1024; rewrite !nlive_cons, C0; nl|].
  rewrite E2. cbn [bind fst snd].
  destruct (frees_ok ((m, BUF) :: [(r, REQ); (h, BUF)] ++ [(y, 40 + u_body u)] ++ [(w, WEBC)]) s2 _ ((b, 40 + u_body u) :: l) H2) as (s3 & E3 & H3).
  { cbn [app]. generalize (m, BUF), (r, REQ), (h, BUF), (y, 40 + u_body u), (b, 40 + u_body u), (w, WEBC). clear.
    intros m r h y b w. apply (Permutation_cons_app [m; r] (y :: w :: b :: l) h). cbn [app].
    apply (Permutation_cons_app [m; r] (w :: b :: l) y). cbn [app].
    apply (Permutation_cons_app [m; r; w] l b). cbn [app].
    apply (Permutation_cons_app [m] (w :: l) r). cbn [app]. apply perm_swap. }
  rewrite E3. cbn [bind]. eauto.
Qed.
Lemma post_uaf s l u : holds L s l -> nlive 0 l + 3 = 2048 -> nlive 1 l + 1 <= 1024 -> 2 <= left4 l -> post u ->
  serve_one L false s u = Fault FUaf.
Proof.
  intros H R0 R1 F PU. destruct (post_upto s l u H ltac:(lia) R1 F PU) as (m & w & r & b & y & s1 & E & H1).
  destruct PU as (B & UF & UP & UK). pose proof (small0 (u_body u) ltac:(lia)) as C0. rewrite E. unfold ask_head.
  rewrite (holds_none s1 _ BUF H1); [reflexivity|unfold BUF; lia|]. rewrite !nlive_cons, C0. nl.
Qed.

Lemma posts_ok us : forall s l, holds L s l -> nlive 1 l + 1 <= 1024 -> 2 <= left4 l -> Forall post us ->
  nlive 0 l + 3 + zlen us <= 2048 ->
  exists s' l', serve_all L false s us = Ok (map (fun _ => true) us, s') /\ holds L s' l' /\ nlive 0 l' = nlive 0 l + zlen us.
Proof.
  induction us as [|u us IH]; intros s l H R1 F FP C.
  - exists s, l. split; [reflexivity|]. split; [exact H|]. change (zlen (@nil use)) with 0. lia.
  - rewrite zlen_cons in *. pose proof (zlen_nonneg us). pose proof (Forall_inv FP) as PU.
    destruct (post_ok s l u H ltac:(lia) R1 F PU) as (s1 & b & E1 & H1).
    destruct PU as (B & UF & UP & UK). pose proof (small0 (u_body u) ltac:(lia)) as C0. unfold left4 in *.
    destruct (IH s1 _ H1) as (s2 & l2 & E2 & H2 & N2);
      [rewrite nlive_cons, C0; nl|rewrite nlive_cons, C0; nl|exact (Forall_inv_tail FP)|rewrite nlive_cons, C0; nl|].
    exists s2, l2. cbn [serve_all]. rewrite E1. cbn [bind fst snd]. rewrite UK. cbn [andb]. rewrite E2. cbn [bind fst snd map].
    split; [reflexivity|]. split; [exact H2|]. rewrite N2, nlive_cons, C0. nl.
Qed.
Lemma posts_uaf us : forall s l, holds L s l -> nlive 0 l + 3 <= 2048 -> nlive 1 l + 1 <= 1024 -> 2 <= left4 l -> Forall post us ->
  2048 < nlive 0 l + 3 + zlen us -> serve_all L false s us = Fault FUaf.
Proof.
  induction us as [|u us IH]; intros s l H R0 R1 F FP C; [change (zlen (@nil use)) with 0 in C; lia|].
  rewrite zlen_cons in *. pose proof (Forall_inv FP) as PU. cbn [serve_all].
  destruct (Z.eq_dec (nlive 0 l + 3) 2048) as [EQ|NE]; [rewrite (post_uaf s l u H EQ R1 F PU); reflexivity|].
  destruct (post_ok s l u H ltac:(lia) R1 F PU) as (s1 & b & E1 & H1).
  destruct PU as (B & UF & UP & UK). pose proof (small0 (u_body u) ltac:(lia)) as C0. unfold left4 in *.
  rewrite E1. cbn [bind fst snd]. rewrite UK. cbn [andb].
  rewrite (IH s1 _ H1); [reflexivity|rewrite nlive_cons, C0; nl|rewrite nlive_cons, C0; nl|rewrite nlive_cons, C0; nl|exact (Forall_inv_tail FP)|rewrite nlive_cons, C0; nl].
Qed.
(** ** No small block left *)
Lemma one_full s l u : holds L s l -> 2047 <= nlive 0 l <= 2048 -> nlive 1 l + 1 <= 1024 -> 2 <= left4 l ->
  exists s', serve_one L false s u = Ok (false, s') /\ holds L s' l.
Proof.
  intros H R0 R1 F. unfold left4 in *. unfold serve_one, ask.
  destruct (Z.eq_dec (nlive 0 l) 2048) as [E0|N0].
  { rewrite (holds_none s l BUF H) by (unfold BUF; lia). cbn [bind fst snd frees]. eauto. }
  destruct (holds_alloc s l BUF H) as (m & s1 & E1 & H1); [unfold BUF; lia|lia|change (class_of BUF) with 4; change (cnum 4) with 1024; lia|].
  rewrite E1. cbn [bind fst snd]. clear E1.
  destruct (holds_alloc s1 _ WEBC H1) as (w & s2 & E2 & H2); [unfold WEBC; lia|nl|change (class_of WEBC) with 0; change (cnum 0) with 2048; nl|].
  rewrite E2. cbn [bind fst snd]. clear E2.
  rewrite (holds_none s2 _ REQ H2); [|unfold REQ; lia|nl]. cbn [bind fst snd].
  destruct (frees_ok [(m, BUF); (w, WEBC)] s2 _ l H2) as (s3 & E3 & H3); [apply perm_swap|].
  cbn [map fst] in E3. rewrite E3. cbn [bind]. eauto.
Qed.
Lemma all_full us : forall s l, holds L s l -> 2047 <= nlive 0 l <= 2048 -> nlive 1 l + 1 <= 1024 -> 2 <= left4 l ->
  exists s', serve_all L false s us = Ok (map (fun _ => false) us, s') /\ holds L s' l.
Proof.
  induction us as [|u us IH]; intros s l H R0 R1 F; [exists s; split; [reflexivity|exact H]|].
  destruct (one_full s l u H R0 R1 F) as (s1 & E1 & H1). destruct (IH s1 l H1 R0 R1 F) as (s2 & E2 & H2).
  exists s2. cbn [serve_all]. rewrite E1. cbn [bind fst snd andb]. rewrite E2. split; [reflexivity|exact H2].
Qed.
Lemma kept_full s l u us : holds L s l -> nlive 0 l = 2048 -> serve_all L true s (u :: us) = Fault FUaf.
Proof.
  intros H R0. cbn [serve_all]. unfold serve_one, ask. rewrite (holds_none s l BUF H) by (unfold BUF; lia). reflexivity.
Qed.
End Pool.

(** ** C157 *)
(** Any number of requests without body, none of which asks for its connection to be
    kept, whatever memory is in use already: all are answered and afterwards the same
    blocks are in use as before. *)
Theorem C157_partial : forall L s live us,
  layout_ok L -> reach L s live -> roomy live -> 2 <= left4 live -> Forall plain us -> kept us = 0 ->
  exists s' live', serve_all L false s us = Ok (map (fun _ => true) us, s') /\ reach L s' live' /\ Permutation live' live.
Proof.
  intros L s live us LO R RM F FP K.
  destruct (all_plain L LO us s live false) as (s' & l' & E & (live' & R' & P) & _ & _ & Q); auto.
  - exists live. split; [exact R|reflexivity].
  - intros NE. destruct us as [|u0 us0]; [contradiction|].
    pose proof (app_removelast_last u0 NE) as D. rewrite D in K.
    assert (KA : forall a b, kept (a ++ b) = kept a + kept b) by (induction a as [|x a IH]; intros b; cbn [kept app]; [lia|rewrite IH; lia]).
    rewrite KA in K. pose proof (KN (removelast (u0 :: us0))). pose proof (KN [last (u0 :: us0) u0]). lia.
  - exists s', live'. split; [exact E|]. split; [exact R'|]. rewrite (Q K) in P. exact P.
Qed.
Print Assumptions C157_partial.

(** With requests that are kept: each takes a buffer for good. As long as two buffers
    are left when a request comes it is answered; the first request for which this is not
    so makes the server write outside its memory. *)
Theorem C157_exactly : forall L s live us,
  layout_ok L -> reach L s live -> roomy live -> Forall plain us -> us <> [] ->
  (kept (removelast us) + 2 <= 1024 - nlive 4 live ->
    exists s' live', serve_all L false s us = Ok (map (fun _ => true) us, s') /\ reach L s' live' /\
      nlive 4 live' = nlive 4 live + kept us /\ (forall k, k <> 4 -> nlive k live' = nlive k live)) /\
  (1024 - nlive 4 live < kept (removelast us) + 2 -> serve_all L false s us = Fault FOob).
Proof.
  intros L s live us LO R RM FP NE. assert (H : holds L s live) by (exists live; split; [exact R|reflexivity]). split; intros C.
  - destruct (all_plain L LO us s live false H RM FP) as (s' & l' & E & (live' & R' & P) & F & N & _); [intros _; exact C|].
    exists s', live'. split; [exact E|]. split; [exact R'|]. unfold left4 in F. rewrite (nlive_perm 4 _ _ P).
    split; [lia|]. intros k NK. rewrite (nlive_perm k _ _ P). apply N. exact NK.
  - apply (all_over L LO us s live false H RM FP NE). exact C.
Qed.
Print Assumptions C157_exactly.

(** So 1024 requests that ask for their connection to be kept are enough, whatever they
    ask for, in every state of the pool. *)
Theorem C157_refuted : forall L s live u,
  layout_ok L -> reach L s live -> roomy live -> plain u -> u_keep u = true ->
  serve_all L false s (repeat u (Z.to_nat 1024)) = Fault FOob.
Proof.
  intros L s live u LO R RM PU K.
  assert (FP : forall n, Forall plain (repeat u n)) by (induction n; constructor; auto).
  assert (KR : forall n, kept (removelast (repeat u (S n))) = Z.of_nat n).
  { induction n as [|n IH]; [reflexivity|]. change (repeat u (S (S n))) with (u :: u :: repeat u n).
    change (removelast (u :: u :: repeat u n)) with (u :: removelast (u :: repeat u n)). cbn [kept]. rewrite K.
    change (u :: repeat u n) with (repeat u (S n)). rewrite IH. lia. }
  replace (Z.to_nat 1024) with (S (Z.to_nat 1023)) by (rewrite <- Z2Nat.inj_succ by lia; reflexivity).
  apply (C157_exactly L s live _ LO R RM (FP _)); [discriminate|]. rewrite KR, Z2Nat.id by lia.
  pose proof (nlive_nonneg 4 live). lia.
Qed.
Print Assumptions C157_refuted.

(** Requests with a body take memory for good although no connection is kept: once
    fewer than three of the smallest blocks are left the server uses a connection that it
    has released. *)
Theorem C157_refuted_body : forall L s live us,
  layout_ok L -> reach L s live -> roomy live -> 2 <= left4 live -> Forall post us ->
  (nlive 0 live + 3 + zlen us <= 2048 ->
    exists s' live', serve_all L false s us = Ok (map (fun _ => true) us, s') /\ reach L s' live' /\
      nlive 0 live' = nlive 0 live + zlen us) /\
  (2048 < nlive 0 live + 3 + zlen us -> serve_all L false s us = Fault FUaf).
Proof.
  intros L s live us LO R (R0 & R1 & R5) F FP. assert (H : holds L s live) by (exists live; split; [exact R|reflexivity]). split; intros C.
  - destruct (posts_ok L LO us s live H R1 F FP C) as (s' & l' & E & (live' & R' & P) & N).
    exists s', live'. split; [exact E|]. split; [exact R'|]. rewrite (nlive_perm 0 _ _ P). exact N.
  - exact (posts_uaf L LO us s live H R0 R1 F FP C).
Qed.
Print Assumptions C157_refuted_body.

(** Once no more than one of the smallest blocks is left nobody is answered any more:
    every request on a new connection is refused, and the pool is left as it was. On a
    connection that was kept released memory is used. *)
Theorem C157_full : forall L s live us,
  layout_ok L -> reach L s live -> 2047 <= nlive 0 live <= 2048 -> nlive 1 live + 1 <= 1024 -> 2 <= left4 live ->
  (exists s' live', serve_all L false s us = Ok (map (fun _ => false) us, s') /\ reach L s' live' /\ Permutation live' live) /\
  (nlive 0 live = 2048 -> us <> [] -> serve_all L true s us = Fault FUaf).
Proof.
  intros L s live us LO R R0 R1 F. assert (H : holds L s live) by (exists live; split; [exact R|reflexivity]). split.
  - destruct (all_full L LO us s live H R0 R1 F) as (s' & E & live' & R' & P). eauto.
  - intros E0 NE. destruct us as [|u us]; [contradiction|]. exact (kept_full L LO s live u us H E0).
Qed.
Print Assumptions C157_full.
Example ex_C157_full : exists s live, reach lay0 s live /\ nlive 0 live = 2048 /\ nlive 1 live + 1 <= 1024 /\ 2 <= left4 live.
Proof.
  destruct (pool_init_PI lay0 (mkQ (fun _ => 0) (fun _ => 0)) (fun _ => 170) lay0_ok) as (s & E & P).
  assert (R : reach lay0 s []) by (eapply r_init; exact E).
  destruct (C05_allocs lay0 (Z.to_nat 2048) s [] 100 lay0_ok R) as (ps & s' & E' & LP & R'); [lia|rewrite Z2Nat.id by lia; vm_compute; discriminate|vm_compute; reflexivity|].
  exists s', (map (fun p => (p, 100)) (rev ps) ++ []). split; [exact R'|].
  split; [rewrite <- (Z2Nat.id 2048) by lia; exact (nlive_same 100 (Z.to_nat 2048) ps LP)|].
  unfold left4. rewrite !nlive_other by (vm_compute; discriminate). lia.
Qed.

(** The property as stated is false from the start of the program on: a GET of a file and
    a POST of one byte, repeated. *)
Definition get_file : use := mkUse 0 true 16344 true.
Definition get_time : use := mkUse 0 false 29 false.
Definition post_one : use := mkUse 1 false 1 false.
Theorem C157_property_refuted : exists L s, layout_ok L /\ reach L s [] /\
  serve_all L false s (repeat get_file (Z.to_nat 1024)) = Fault FOob /\
  serve_all L false s (repeat post_one (Z.to_nat 2046)) = Fault FUaf.
Proof.
  destruct (pool_init_PI lay0 (mkQ (fun _ => 0) (fun _ => 0)) (fun _ => 170) lay0_ok) as (s & E & P).
  assert (R : reach lay0 s []) by (eapply r_init; exact E). exists lay0, s. split; [exact lay0_ok|]. split; [exact R|].
  assert (RM : roomy []) by (vm_compute; repeat split; discriminate). split.
  - apply (C157_refuted lay0 s [] get_file lay0_ok R RM); [split; [reflexivity|right; reflexivity]|reflexivity].
  - apply (C157_refuted_body lay0 s [] _ lay0_ok R RM); [vm_compute; discriminate| |].
    + apply Forall_forall. intros u X. apply repeat_spec in X. subst u. unfold post, post_one. cbn. lia.
    + unfold zlen. rewrite repeat_length, Z2Nat.id by lia. change (nlive 0 []) with 0. lia.
Qed.
Print Assumptions C157_property_refuted.

(** the hypotheses are met by the pool as it is initialised and by requests of all kinds *)
Example ex_C157 : exists s s' live', reach lay0 s [] /\ roomy [] /\ 2 <= left4 [] /\
  Forall plain [get_time; get_file; mkUse 0 true 0 false; get_file; get_time] /\
  serve_all lay0 false s [get_time; get_file; mkUse 0 true 0 false; get_file; get_time] = Ok ([true; true; true; true; true], s') /\
  reach lay0 s' live' /\ nlive 4 live' = 2.
Proof.
  destruct (pool_init_PI lay0 (mkQ (fun _ => 0) (fun _ => 0)) (fun _ => 170) lay0_ok) as (s & E & P).
  assert (R : reach lay0 s []) by (eapply r_init; exact E).
  assert (RM : roomy []) by (vm_compute; repeat split; discriminate).
  assert (FP : Forall plain [get_time; get_file; mkUse 0 true 0 false; get_file; get_time]).
  { unfold plain, get_time, get_file. repeat (apply Forall_cons; [cbn; split; [reflexivity|lia]|]). apply Forall_nil. }
  destruct (proj1 (C157_exactly lay0 s [] _ lay0_ok R RM FP ltac:(discriminate))) as (s' & live' & ES & R' & N & _); [vm_compute; discriminate|].
  exists s, s', live'. split; [exact R|]. split; [exact RM|]. split; [vm_compute; discriminate|]. split; [exact FP|].
  split; [exact ES|]. split; [exact R'|]. rewrite N. reflexivity.
Qed.
