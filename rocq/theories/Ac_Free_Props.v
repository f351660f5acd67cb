(** * C110: releasing the key matcher *)
From Coq Require Import String Permutation.
From Verif Require Import Base Str_Spec Ac_Model Ac_Proofs Ac_Any_Proofs Ac_Props.

(** ** Every allocated node hangs in the trie *)
Definition all_hang (h : list node) : Prop :=
  forall n, (n < length h)%nat -> exists w, walk h 0 w = Some n.

Lemma all_hang_shape h h' : same_shape h h' -> all_hang h -> all_hang h'.
Proof.
  intros (L & S & _) A n Hn. rewrite <- L in Hn. destruct (A n Hn) as (w & W). exists w.
  rewrite <- W. symmetry. apply walk_ext. exact S.
Qed.

Lemma add_walk_hang : forall data h n p K E h',
  trie h K E -> In (p ++ data) E -> walk h 0 (map idx_of p) = Some n -> all_hang h ->
  add_walk h n data = Ok h' -> all_hang h'.
Proof.
  induction data as [|b r IH]; intros h n p K E h' T HE W A; simpl.
  - intros [= <-] m Hm. rewrite upd_length in Hm. destruct (A m Hm) as (w & Ww). exists w.
    rewrite <- Ww. apply walk_ext. intros. apply estep_set_end.
  - destruct (nth_error h n) as [nd|] eqn:Q; simpl; [|discriminate].
    assert (ES : estep h n (idx_of b) = lookup (idx_of b) (n_arr nd)) by (unfold estep; rewrite Q; reflexivity).
    assert (HE' : In ((p ++ [b]) ++ r) E) by (rewrite <- app_assoc; exact HE).
    destruct (lookup (idx_of b) (n_arr nd)) as [m|] eqn:L.
    + apply (IH h m (p ++ [b]) K E); auto. rewrite map_app, walk_app, W. simpl. rewrite ES. reflexivity.
    + destruct (trie_add_edge h K E p b r n T HE W ES) as [T' W'].
      apply (IH _ (length h) (p ++ [b]) K E); auto.
      intros m Hm. rewrite app_length, upd_length in Hm. simpl in Hm.
      destruct (Nat.eq_dec m (length h)) as [->|Nm]; [eauto|].
      destruct (A m ltac:(lia)) as (w & Ww). exists w. revert Ww. apply walk_mono.
      intros a j t Sa. rewrite (estep_add_edge h n (idx_of b) (length h) a j);
        [|apply nth_error_Some; congruence|reflexivity|exact ES].
      destruct (Nat.eqb_spec a n); simpl; [|exact Sa]. subst a.
      destruct (Z.eqb_spec j (idx_of b)); [subst; congruence|exact Sa].
Qed.

Lemma ezac_adds_hang : forall keys c c' K E,
  trie (ac_nodes c) K E -> (forall k, In k keys -> In k E) -> all_hang (ac_nodes c) ->
  ezac_adds c keys = Ok c' -> all_hang (ac_nodes c').
Proof.
  induction keys as [|k r IH]; intros c c' K E T HE A; simpl; [intros [= <-]; exact A|].
  unfold ezac_add. destruct (add_walk_spec k (ac_nodes c) 0%nat [] K E T) as (h & H1 & H2 & _).
  { apply HE; left; reflexivity. } { reflexivity. }
  rewrite H1. simpl. apply (IH (mkAc h (ac_cur c)) c' (k :: K) E); simpl; auto.
  - intros x Hx. apply HE. right. exact Hx.
  - eapply add_walk_hang with (p := []); [exact T|apply HE; left; reflexivity|reflexivity|exact A|exact H1].
Qed.

(** ** Pushing the children *)
Lemma free_push_spec h K E n nd (T : trie h K E) : nth_error h n = Some nd ->
  forall is st, NoDup is -> NoDup st -> (forall x, In x st -> (x < length h)%nat) ->
  (forall i m, In i is -> estep h n i = Some m -> ~ In m st) ->
  zlen h <= 4096 ->
  exists st', free_push is nd st = Ok st' /\ NoDup st' /\
    (forall x, In x st' <-> In x st \/ exists i, In i is /\ estep h n i = Some x).
Proof.
  intros Q. induction is as [|i r IH]; intros st ND NS RS FR L; cbn [free_push].
  - exists st. split; [reflexivity|]. split; [exact NS|]. intros x. split; [auto|]. intros [?|(i & [] & _)]; auto.
  - inversion ND; subst.
    assert (ES : estep h n i = lookup i (n_arr nd)) by (unfold estep; rewrite Q; reflexivity).
    destruct (lookup i (n_arr nd)) as [m|] eqn:S.
    + pose proof (t_range _ _ _ T _ _ _ ES) as Rm.
      assert (Nm : ~ In m st) by (apply (FR i m); [left; reflexivity|exact ES]).
      assert (NS' : NoDup (m :: st)) by (constructor; assumption).
      assert (RS' : forall x, In x (m :: st) -> (x < length h)%nat) by (intros x [<-|Hx]; [lia|auto]).
      assert (Ls : (length (m :: st) <= length h)%nat).
      { rewrite <- (seq_length (length h) 0). apply NoDup_incl_length; [exact NS'|].
        intros x Hx. apply in_seq. specialize (RS' x Hx). lia. }
      assert (P : push st m = Ok (m :: st)).
      { unfold push, AC_STACK. destruct (Z.leb_spec 4096 (zlen st)); [|reflexivity].
        unfold zlen in *. simpl in Ls. lia. }
      rewrite P. cbn [bind].
      destruct (IH (m :: st)) as (st' & A1 & A2 & A3); auto.
      * intros j m' Hj Sj [<-|Hin].
        { destruct (t_inj _ _ _ T _ _ _ _ _ ES Sj) as [_ <-]. contradiction. }
        { apply (FR j m'); auto. right. exact Hj. }
      * exists st'. split; [exact A1|]. split; [exact A2|]. intros x. rewrite A3. simpl. split.
        { intros [[<-|?]|(j & Hj & Sj)]; eauto. }
        { intros [?|(j & [<-|Hj] & Sj)]; eauto. left. left. congruence. }
    + destruct (IH st) as (st' & A1 & A2 & A3); auto.
      * intros j m' Hj. apply FR. right. exact Hj.
      * exists st'. split; [exact A1|]. split; [exact A2|]. intros x. rewrite A3. split.
        { intros [?|(j & Hj & Sj)]; auto. right. exists j. simpl. auto. }
        { intros [?|(j & [<-|Hj] & Sj)]; auto; [congruence|]. right. exists j. auto. }
Qed.

Record finv (h : list node) (freed dn st : list nat) : Prop := {
  f_nodup : NoDup (dn ++ st);
  f_range : forall x, In x (dn ++ st) -> (x < length h)%nat;
  f_freed : NoDup freed /\ forall x, In x freed <-> In x dn /\ x <> 0%nat;
  f_root : In 0%nat (dn ++ st);
  f_par : forall x, In x (dn ++ st) -> x <> 0%nat -> exists p i, In p dn /\ estep h p i = Some x;
  f_closed : forall p i x, In p dn -> estep h p i = Some x -> In x (dn ++ st)
}.

Lemma free_loop_spec h K E (T : trie h K E) (IX : forall n i m, estep h n i = Some m -> In i indices)
  (L : zlen h <= 4096) : forall fuel freed dn st,
  finv h freed dn st -> (length h - length dn < fuel)%nat ->
  exists freed' dn', free_loop fuel h freed st = Ok freed' /\ finv h freed' dn' [].
Proof.
  induction fuel as [|f IH]; intros freed dn st F Fu; [lia|].
  destruct st as [|p st]; cbn [free_loop]; [eauto|].
  pose proof (f_nodup _ _ _ _ F) as ND.
  assert (Np : ~ In p (dn ++ st)) by (apply NoDup_remove_2 in ND; exact ND).
  assert (NDst : NoDup st).
  { apply NoDup_remove_1 in ND. clear - ND. induction dn; [exact ND|]. inversion ND; auto. }
  assert (Ip : In p (dn ++ p :: st)) by (apply in_or_app; right; left; reflexivity).
  pose proof (f_range _ _ _ _ F p Ip) as Rp.
  assert (Nf : existsb (Nat.eqb p) freed = false).
  { destruct (existsb (Nat.eqb p) freed) eqn:X; [|reflexivity]. apply existsb_exists in X.
    destruct X as (x & Hx & E1). apply Nat.eqb_eq in E1. subst x.
    apply (proj2 (f_freed _ _ _ _ F)) in Hx. exfalso. apply Np. apply in_or_app. left. apply Hx. }
  rewrite Nf. destruct (nth_error h p) as [nd|] eqn:Q; [|apply nth_error_None in Q; lia]. cbn [of_opt bind].
  assert (Perm : Permutation (dn ++ p :: st) (p :: dn ++ st)) by (symmetry; apply Permutation_middle).
  assert (IN : forall x, In x (dn ++ p :: st) <-> x = p \/ In x (dn ++ st)).
  { intros x. rewrite !in_app_iff. simpl. intuition. }
  assert (Fresh : forall i m, estep h p i = Some m -> ~ In m (dn ++ p :: st)).
  { intros i m S Hin. pose proof (t_range _ _ _ T _ _ _ S) as Rm.
    destruct (f_par _ _ _ _ F m Hin ltac:(lia)) as (q & j & Hq & Sq).
    destruct (t_inj _ _ _ T _ _ _ _ _ S Sq) as [<- _]. apply Np. apply in_or_app. auto. }
  destruct (free_push_spec h K E p nd T Q indices st indices_nodup NDst) as (st' & A1 & A2 & A3).
  { intros x Hx. apply (f_range _ _ _ _ F). apply IN. right. apply in_or_app. auto. }
  { intros i m _ S Hin. apply (Fresh i m S). apply IN. right. apply in_or_app. auto. }
  { exact L. }
  rewrite A1. cbn [bind].
  assert (IN' : forall x, In x ((p :: dn) ++ st') <-> In x (dn ++ p :: st) \/ exists i, estep h p i = Some x).
  { intros x. rewrite IN. simpl. rewrite !in_app_iff, A3. split.
    - intros [<-|[?|[?|(i & _ & S)]]]; eauto.
    - intros [[->|[?|?]]|(i & S)]; auto. right. right. right. exists i. split; [eapply IX; exact S|exact S]. }
  apply (IH _ (p :: dn) st').
  - constructor.
    + simpl. constructor.
      * intros Hin. apply in_app_or in Hin. destruct Hin as [Hin|Hin]; [apply Np; apply in_or_app; auto|].
        apply A3 in Hin. destruct Hin as [Hin|(i & _ & S)]; [apply Np; apply in_or_app; auto|].
        apply (Fresh i p S). exact Ip.
      * apply NoDup_remove_1 in ND. clear - ND A2 A3 Fresh IN.
        assert (D1 : NoDup dn) by (clear - ND; induction dn; simpl in *; [constructor|]; inversion ND; subst;
          constructor; [intros H; apply H1; apply in_or_app; auto|auto]).
        assert (D2 : forall x, In x dn -> ~ In x st').
        { intros x Hx Hs. apply A3 in Hs. destruct Hs as [Hs|(i & _ & S)].
          - clear - ND Hx Hs. induction dn as [|d dn IHd]; [destruct Hx|]. simpl in ND. inversion ND; subst.
            destruct Hx as [->|Hx]; [apply H1; apply in_or_app; auto|]. apply IHd; auto.
          - apply (Fresh i x S). apply IN. right. apply in_or_app. auto. }
        clear - D1 D2 A2. induction dn as [|d dn IHd]; [exact A2|]. inversion D1; subst. simpl. constructor.
        { intros H. apply in_app_or in H. destruct H as [H|H]; [contradiction|]. apply (D2 d); [left; reflexivity|exact H]. }
        { apply IHd; auto. intros x Hx. apply D2. right. exact Hx. }
    + intros x Hx. apply IN' in Hx. destruct Hx as [Hx|(i & S)]; [apply (f_range _ _ _ _ F); exact Hx|].
      pose proof (t_range _ _ _ T _ _ _ S). lia.
    + destruct (f_freed _ _ _ _ F) as [F1 F2]. destruct (Nat.eqb_spec p 0) as [->|Nz].
      * split; [exact F1|]. intros x. rewrite F2. simpl. split; [tauto|]. intros [[<-|?] ?]; [congruence|auto].
      * split.
        { constructor; [|exact F1]. intros Hx. apply F2 in Hx. apply Np. apply in_or_app. left. apply Hx. }
        { intros x. simpl. rewrite F2. split; [intros [<-|[? ?]]; auto|]. intros [[<-|?] ?]; auto. }
    + apply IN'. left. apply F.
    + intros x Hx Nz. apply IN' in Hx. destruct Hx as [Hx|(i & S)].
      * destruct (f_par _ _ _ _ F x Hx Nz) as (q & j & Hq & Sq). exists q, j. simpl. auto.
      * exists p, i. simpl. auto.
    + intros q i x Hq S. apply IN'. simpl in Hq. destruct Hq as [<-|Hq]; [eauto|].
      left. eapply f_closed; eassumption.
  - assert (length (dn ++ p :: st) <= length h)%nat.
    { rewrite <- (seq_length (length h) 0). apply NoDup_incl_length; [exact ND|].
      intros x Hx. apply in_seq. pose proof (f_range _ _ _ _ F x Hx). lia. }
    rewrite app_length in H. cbn [length] in *. lia.
Qed.

(** ** C110: every node is released exactly once, and none is used afterwards *)
Theorem C110_matcher_released :
  forall keys c, Forall bytes keys -> total keys < 4096 -> ac_build keys = Ok c ->
    exists freed, ezac_node_free c = Ok freed /\ NoDup freed /\
      forall n, In n freed <-> (0 < n < length (ac_nodes c))%nat.
Proof.
  intros keys c Hb TL B. destruct (build_any keys Hb) as (c1 & A1 & A2 & A3 & A4). rewrite B in A4.
  destruct A4 as (_ & Sh & _). destruct (build_linked keys c Hb B) as [L _].
  pose proof (lk_trie _ _ L) as T.
  assert (AH : all_hang (ac_nodes c)).
  { eapply all_hang_shape; [exact Sh|]. eapply (ezac_adds_hang keys ezac_init c1 [] keys); auto.
    - apply trie_init.
    - intros n Hn. simpl in Hn. exists []. assert (n = 0%nat) by lia. subst. reflexivity. }
  assert (Lh : zlen (ac_nodes c) <= 4096).
  { rewrite total_total_len in TL. unfold zlen. rewrite <- (proj1 Sh). lia. }
  destruct (free_loop_spec _ _ _ T (trie_edge_index _ _ _ (proj1 (Forall_forall _ _) Hb) T) Lh
              (S (length (ac_nodes c))) [] [] [0%nat]) as (freed & dn & F1 & F2).
  - constructor; simpl; auto.
    + repeat constructor. intros [].
    + intros x [<-|[]]. apply (t_root _ _ _ T).
    + split; [constructor|]. intros x. split; [intros []|]. intros [[] _].
    + intros x [<-|[]] N. congruence.
  - simpl. lia.
  - exists freed. split; [exact F1|]. split; [apply F2|]. intros n.
    rewrite (proj2 (f_freed _ _ _ _ F2)). split.
    + intros [Hn Nz]. pose proof (f_range _ _ _ _ F2 n) as R. rewrite app_nil_r in R. specialize (R Hn). lia.
    + intros Hn. split; [|lia]. destruct (AH n) as (w & W); [lia|].
      assert (G : forall w m, walk (ac_nodes c) 0 w = Some m -> In m dn).
      { induction w0 as [|i w0 IHw] using rev_ind; intros m Wm.
        - injection Wm as <-. pose proof (f_root _ _ _ _ F2) as R. rewrite app_nil_r in R. exact R.
        - rewrite walk_app in Wm. destruct (walk (ac_nodes c) 0 w0) as [q|] eqn:Wq; [|discriminate].
          simpl in Wm. destruct (estep (ac_nodes c) q i) as [t|] eqn:S; [|discriminate]. injection Wm as <-.
          pose proof (f_closed _ _ _ _ F2 q i t (IHw q eq_refl) S) as R. rewrite app_nil_r in R. exact R. }
      exact (G w n W).
Qed.
Print Assumptions C110_matcher_released.

Example C110_ex : exists c, ac_build [str "auth_for_tanx"; str "auth_of_me"; str "guest"] = Ok c /\
  Forall bytes [str "auth_for_tanx"; str "auth_of_me"; str "guest"] /\
  total [str "auth_for_tanx"; str "auth_of_me"; str "guest"] < 4096 /\ (15 < length (ac_nodes c))%nat.
Proof.
  eexists. split; [vm_compute; reflexivity|]. split; [all_bytes|]. split; [vm_compute; reflexivity|].
  simpl. lia.
Qed.
