(** * The key matcher for arbitrary key sets: what the construction leaves behind.

    The failure links are characterised for every key set for which the
    construction completes: each link of a node leads to a node whose text is a
    proper suffix of the node's text. For key sets in which no first symbol of a
    key lies strictly inside a key, the links are the root wherever the matcher
    can stand. *)
From Verif Require Import Base Ac_Model Ac_Proofs.
From Coq Require Import Permutation.

(** ** The search of a link does not depend on links set later *)
Lemma fail_search_mono h m y0 : fail_of h m = None -> (m < length h)%nat ->
  forall fuel x i y, fail_search fuel h x i = Ok y ->
    fail_search fuel (upd h m (set_fail y0)) x i = Ok y.
Proof.
  intros Fm Lm. induction fuel as [|f IH]; intros x i y; cbn [fail_search]; [discriminate|].
  rewrite nth_upd. destruct (Nat.eqb_spec m x) as [->|N].
  - destruct (nth_error h x) as [nx|] eqn:Q; cbn [of_opt bind option_map]; [|discriminate].
    cbn [set_fail n_arr n_fail]. destruct (lookup i (n_arr nx)); [auto|].
    unfold fail_of in Fm. rewrite Q in Fm. rewrite Fm. discriminate.
  - destruct (nth_error h x) as [nx|] eqn:Q; cbn [of_opt bind]; [|discriminate].
    destruct (lookup i (n_arr nx)); [auto|]. destruct (n_fail nx) as [x'|]; [|discriminate].
    destruct (Nat.eqb x' 0); [auto|]. apply IH.
Qed.

(** ** The state of the construction: [dn] nodes are done, [st] is the stack *)
Record ginv (h : list node) (dn st : list nat) : Prop := {
  g_nodup : NoDup (dn ++ st);
  g_nz : forall n, In n (dn ++ st) -> (0 < n < length h)%nat;
  g_root : fail_of h 0 = Some 0%nat;
  g_dom : forall n, n <> 0%nat -> (fail_of h n <> None <-> In n (dn ++ st));
  g_par : forall m, In m (dn ++ st) -> exists p i, (p = 0%nat \/ In p dn) /\ estep h p i = Some m;
  g_rootc : forall i m, estep h 0 i = Some m -> In m (dn ++ st) -> fail_of h m = Some 0%nat;
  g_eq : forall n i m, In n dn -> estep h n i = Some m -> In m (dn ++ st) ->
      exists x y, fail_of h n = Some x /\ fail_search (S (length h)) h x i = Ok y /\ fail_of h m = Some y
}.

Lemma ginv_push h dn st m K E p i y :
  trie h K E -> ginv h dn st -> ~ In m (dn ++ st) -> estep h p i = Some m ->
  (p = 0%nat /\ y = 0%nat \/
   In p dn /\ exists x, fail_of h p = Some x /\ fail_search (S (length h)) h x i = Ok y) ->
  ginv (upd h m (set_fail y)) dn (m :: st).
Proof.
  intros T G Hn Sp Hp.
  pose proof (t_range _ _ _ T _ _ _ Sp) as Hm.
  assert (Fm : fail_of h m = None).
  { destruct (fail_of h m) eqn:Q; [|reflexivity]. exfalso. apply Hn.
    apply (proj1 (g_dom _ _ _ G m ltac:(lia))). rewrite Q. discriminate. }
  assert (IN : forall n, In n (dn ++ m :: st) <-> n = m \/ In n (dn ++ st)).
  { intros n. rewrite !in_app_iff. simpl. intuition. }
  pose proof (same_shape_set_fail h m y) as Sh. assert (Se := proj1 (proj2 Sh)).
  assert (FS : forall n, fail_of (upd h m (set_fail y)) n = if Nat.eqb m n then Some y else fail_of h n)
    by (intros n; apply fail_of_set; lia).
  assert (Other : forall n, In n (dn ++ st) -> fail_of (upd h m (set_fail y)) n = fail_of h n).
  { intros n Hi. rewrite FS. destruct (Nat.eqb_spec m n); [subst; contradiction|reflexivity]. }
  assert (DN : forall n, In n dn -> In n (dn ++ st)) by (intros; apply in_or_app; auto).
  constructor.
  - apply NoDup_Add with (a := m) (l := dn ++ st); [apply Add_app|].
    split; [apply G|exact Hn].
  - intros n Hi. rewrite upd_length. apply IN in Hi. destruct Hi as [->|Hi]; [lia|].
    apply (g_nz _ _ _ G); exact Hi.
  - rewrite FS. destruct (Nat.eqb_spec m 0); [lia|]. apply G.
  - intros n Nz. rewrite FS, IN. destruct (Nat.eqb_spec m n).
    + subst. split; [auto|discriminate].
    + rewrite (g_dom _ _ _ G n Nz). intuition congruence.
  - intros n Hi. apply IN in Hi. destruct Hi as [->|Hi].
    + exists p, i. rewrite <- Se. split; [|exact Sp]. destruct Hp as [[? _]|[? _]]; auto.
    + destruct (g_par _ _ _ G n Hi) as (q & j & Hq & Sq). exists q, j. rewrite <- Se. auto.
  - intros j n Sj Hi. rewrite <- Se in Sj. apply IN in Hi. destruct Hi as [->|Hi].
    + destruct (t_inj _ _ _ T _ _ _ _ _ Sp Sj) as [-> ->].
      destruct Hp as [[_ ->]|[Hp _]].
      * rewrite FS, Nat.eqb_refl. reflexivity.
      * apply DN in Hp. apply (g_nz _ _ _ G) in Hp. lia.
    + rewrite Other by exact Hi. eapply g_rootc; eassumption.
  - intros n j t Hd Sj Hi. rewrite <- Se in Sj. rewrite upd_length. rewrite Other by (apply DN; exact Hd).
    apply IN in Hi. destruct Hi as [->|Hi].
    + destruct (t_inj _ _ _ T _ _ _ _ _ Sp Sj) as [-> ->].
      destruct Hp as [[-> _]|[_ (x & Fx & Sx)]].
      * apply DN in Hd. apply (g_nz _ _ _ G) in Hd. lia.
      * exists x, y. split; [exact Fx|]. split; [apply fail_search_mono; [exact Fm|lia|exact Sx]|].
        rewrite FS, Nat.eqb_refl. reflexivity.
    + destruct (g_eq _ _ _ G n j t Hd Sj Hi) as (x & z & A & B & C).
      exists x, z. split; [exact A|]. split; [apply fail_search_mono; [exact Fm|lia|exact B]|].
      rewrite Other by exact Hi. exact C.
Qed.

(** why a step of the construction stops early *)
Definition stuck (h : list node) (r : fault) : Prop :=
  (r = FOob /\ 4096 < zlen h) \/
  exists h1 dn st n i m x, same_shape h h1 /\ ginv h1 dn st /\
    (forall j q, estep h1 0 j = Some q -> In q (dn ++ st)) /\ In n dn /\ estep h1 n i = Some m /\
    fail_of h1 n = Some x /\ fail_search (S (length h1)) h1 x i = Fault r.

Lemma stuck_shape h h' r : same_shape h h' -> stuck h' r -> stuck h r.
Proof.
  intros S [[-> L]|(h1 & dn & st & n & i & m & x & S1 & R)].
  - left. split; [reflexivity|]. destruct S as [S _]. unfold zlen in *. lia.
  - right. exists h1, dn, st, n, i, m, x. split; [eapply same_shape_trans; eassumption|exact R].
Qed.

Lemma push_cases h dn st m : ginv h dn st -> ~ In m (dn ++ st) -> (0 < m < length h)%nat ->
  push st m = Ok (m :: st) \/ (push st m = Fault FOob /\ 4096 < zlen h).
Proof.
  intros G Hn Hm. unfold push, AC_STACK. destruct (Z.leb_spec 4096 (zlen st)); [|auto]. right. split; [reflexivity|].
  assert (length (dn ++ m :: st) <= length h - 1)%nat.
  { apply NoDup_bounded_len.
    - apply NoDup_Add with (a := m) (l := dn ++ st); [apply Add_app|]. split; [apply G|exact Hn].
    - intros n Hi. rewrite in_app_iff in Hi. simpl in Hi.
      assert (n = m \/ In n (dn ++ st)) as [->|Hi'] by (rewrite in_app_iff; intuition); [lia|].
      apply (g_nz _ _ _ G); exact Hi'. }
  rewrite app_length in H0. simpl in H0. unfold zlen in *. lia.
Qed.

Definition grown (h : list node) (n : nat) (is : list Z) (dn st st' : list nat) : Prop :=
  forall m, In m (dn ++ st') <-> In m (dn ++ st) \/ exists i, In i is /\ estep h n i = Some m.

Lemma comp_root_any K E : forall is h dn st,
  trie h K E -> NoDup is ->
  (forall i m, In i is -> estep h 0 i = Some m -> ~ In m (dn ++ st)) ->
  ginv h dn st ->
  match comp_root is h st with
  | Ok (h', st') => ginv h' dn st' /\ same_shape h h' /\ grown h 0 is dn st st'
  | Fault r => stuck h r
  | NoFuel => False
  end.
Proof.
  induction is as [|i r IH]; intros h dn st T ND FR G; cbn [comp_root].
  - split; [exact G|]. split; [apply same_shape_refl|].
    intros m. split; [auto|]. intros [|(i & [] & _)]; auto.
  - inversion ND; subst.
    pose proof (t_root _ _ _ T) as R0.
    destruct (nth_error h 0) as [root|] eqn:Q; [|apply nth_error_None in Q; lia]. cbn [of_opt bind].
    assert (ES : estep h 0 i = lookup i (n_arr root)) by (unfold estep; rewrite Q; reflexivity).
    destruct (lookup i (n_arr root)) as [m|] eqn:S.
    + pose proof (t_range _ _ _ T _ _ _ ES) as Hm.
      assert (Nm : ~ In m (dn ++ st)) by (apply (FR i m); [left; reflexivity | exact ES]).
      destruct (push_cases h dn st m G Nm Hm) as [Pu|[Pu L]]; rewrite Pu; cbn [bind]; [|left; auto].
      pose proof (same_shape_set_fail h m 0%nat) as Sh. assert (Se := proj1 (proj2 Sh)).
      assert (G' : ginv (upd h m (set_fail 0%nat)) dn (m :: st)) by (eapply ginv_push; eauto).
      assert (T' : trie (upd h m (set_fail 0%nat)) K E) by (eapply trie_shape; eassumption).
      assert (FR' : forall j m', In j r -> estep (upd h m (set_fail 0%nat)) 0 j = Some m' -> ~ In m' (dn ++ m :: st)).
      { intros j m' Hj Sj Hin. rewrite <- Se in Sj. rewrite in_app_iff in Hin. simpl in Hin.
        assert (In m' (dn ++ st) \/ m' = m) as [Hin'|Heq] by (rewrite in_app_iff; intuition).
        - apply (FR j m'); auto. right; assumption.
        - subst m'. destruct (t_inj _ _ _ T _ _ _ _ _ ES Sj) as [_ ->]. contradiction. }
      specialize (IH _ dn (m :: st) T' H2 FR' G').
      destruct (comp_root r (upd h m (set_fail 0%nat)) (m :: st)) as [[h' st']|f|].
      * destruct IH as (A2 & A3 & A4). split; [exact A2|]. split; [eapply same_shape_trans; eassumption|].
        intros m'. rewrite (A4 m'), !in_app_iff. simpl. split.
        { intros [[?|[?|?]]|(j & Hj & Sj)]; auto.
          - right. exists i. subst. auto.
          - right. exists j. rewrite Se. auto. }
        { intros [[?|?]|(j & [<-|Hj] & Sj)]; auto.
          - left. right. left. congruence.
          - right. exists j. rewrite <- Se. auto. }
      * eapply stuck_shape; eassumption.
      * exact IH.
    + assert (FR' : forall j m, In j r -> estep h 0 j = Some m -> ~ In m (dn ++ st)).
      { intros j m Hj. apply FR. right. exact Hj. }
      specialize (IH h dn st T H2 FR' G).
      destruct (comp_root r h st) as [[h' st']|f|]; auto.
      destruct IH as (A2 & A3 & A4). split; [exact A2|]. split; [exact A3|]. intros m. rewrite (A4 m). split.
      { intros [?|(j & Hj & Sj)]; [left; assumption|]. right. exists j. simpl. auto. }
      { intros [?|(j & [<-|Hj] & Sj)]; [left; assumption|congruence|]. right. exists j. auto. }
Qed.

(** ** The search of a link ends *)
Lemma path_nodes h K E (T : trie h K E) : forall w n, walk h 0 w = Some n ->
  exists l, NoDup l /\ length l = S (length w) /\
    forall x, In x l -> (x < length h)%nat /\ exists v u, w = v ++ u /\ walk h 0 v = Some x.
Proof.
  induction w as [|i w IH] using rev_ind; intros n W.
  - injection W as <-. exists [0%nat]. split; [repeat constructor; intros []|]. split; [reflexivity|].
    intros x [<-|[]]. split; [apply (t_root _ _ _ T)|]. exists [], []. auto.
  - assert (W' := W). rewrite walk_app in W'. destruct (walk h 0 w) as [p|] eqn:Wp; [|discriminate].
    destruct (IH p eq_refl) as (l & ND & Ll & P).
    exists (n :: l). split; [|split].
    + constructor; [|exact ND]. intros Hi. destruct (P n Hi) as (_ & v & u & -> & Wv).
      pose proof (walk_inj _ _ _ T _ _ _ W Wv) as Ev. apply (f_equal (@length Z)) in Ev.
      rewrite !app_length in Ev. simpl in Ev. lia.
    + rewrite app_length. simpl. lia.
    + intros x [<-|Hi].
      * split; [eapply walk_lt; eassumption|]. exists (w ++ [i]), []. rewrite app_nil_r. auto.
      * destruct (P x Hi) as (A & v & u & -> & Wv). split; [exact A|]. exists v, (u ++ [i]).
        rewrite app_assoc. auto.
Qed.

Lemma walk_short h K E (T : trie h K E) w n : walk h 0 w = Some n -> (length w < length h)%nat.
Proof.
  intros W. destruct (path_nodes _ _ _ T w n W) as (l & ND & Ll & P).
  assert (incl l (seq 0 (length h))).
  { intros x Hx. apply in_seq. destruct (P x Hx). lia. }
  pose proof (NoDup_incl_length ND H). rewrite seq_length in H0. lia.
Qed.

Lemma tracked_walk h K E (T : trie h K E) m p i : estep h p i = Some m ->
  exists w, walk h 0 w = Some p /\ walk h 0 (w ++ [i]) = Some m.
Proof.
  intros S. destruct (t_edge _ _ _ T _ _ _ S) as (k & w & v & _ & _ & W). exists w. split; [exact W|].
  rewrite walk_app, W. simpl. rewrite S. reflexivity.
Qed.

(** a link leads to a node whose text is a proper suffix *)
Definition suffix_link (h : list node) (w : list Z) (f : nat) : Prop :=
  exists u v, w = u ++ v /\ u <> [] /\ walk h 0 v = Some f.

Lemma fail_search_suffix h (Q : list Z -> Prop) :
  fail_of h 0 = Some 0%nat ->
  (forall v x f, Q v -> walk h 0 v = Some x -> x <> 0%nat -> fail_of h x = Some f ->
      exists u v', v = u ++ v' /\ walk h 0 v' = Some f /\ Q v') ->
  forall fuel v x i y, Q v -> walk h 0 v = Some x -> fail_search fuel h x i = Ok y ->
    exists u v', v ++ [i] = u ++ v' /\ walk h 0 v' = Some y.
Proof.
  intros F0 HQ. induction fuel as [|f IH]; intros v x i y Qv W; cbn [fail_search]; [discriminate|].
  destruct (nth_error h x) as [nx|] eqn:N; cbn [of_opt bind]; [|discriminate].
  destruct (lookup i (n_arr nx)) as [z|] eqn:L.
  - intros [= <-]. exists [], (v ++ [i]). split; [reflexivity|]. rewrite walk_app, W. simpl.
    unfold estep. rewrite N, L. reflexivity.
  - destruct (n_fail nx) as [x'|] eqn:Fx; [|discriminate].
    destruct (Nat.eqb_spec x' 0) as [->|Nz].
    + intros [= <-]. exists (v ++ [i]), []. rewrite app_nil_r. split; reflexivity.
    + assert (Fx' : fail_of h x = Some x') by (unfold fail_of; rewrite N; exact Fx).
      assert (x <> 0%nat) by (intros ->; congruence).
      destruct (HQ v x x' Qv W H Fx') as (u & v' & -> & W' & Q').
      intros S. destruct (IH v' x' i y Q' W' S) as (u2 & v2 & E2 & W2).
      exists (u ++ u2), v2. rewrite <- !app_assoc, <- E2. auto.
Qed.

Lemma ginv_suffix h K E dn st : trie h K E -> ginv h dn st ->
  forall w m f, w <> [] -> walk h 0 w = Some m -> fail_of h m = Some f -> suffix_link h w f.
Proof.
  intros T G.
  assert (Main : forall N w m f, (length w <= N)%nat -> w <> [] -> walk h 0 w = Some m ->
                   fail_of h m = Some f -> suffix_link h w f).
  { induction N as [|N IH]; intros w m f Lw NE W F.
    - destruct w; [congruence|simpl in Lw; lia].
    - assert (Nz : m <> 0%nat).
      { destruct w as [|i w] using rev_ind; [congruence|]. rewrite walk_app in W.
        destruct (walk h 0 w) as [p|]; [|discriminate]. simpl in W.
        destruct (estep h p i) as [q|] eqn:S; [|discriminate]. injection W as <-.
        pose proof (t_range _ _ _ T _ _ _ S). lia. }
      assert (Hm : In m (dn ++ st)) by (apply (g_dom _ _ _ G m Nz); congruence).
      destruct (g_par _ _ _ G m Hm) as (p & i & Hp & Sp).
      destruct (tracked_walk _ _ _ T _ _ _ Sp) as (w' & Wp & Wm).
      assert (Ew : w = w' ++ [i]) by (eapply walk_inj; eassumption). subst w.
      rewrite app_length in Lw. simpl in Lw.
      destruct Hp as [->|Hp].
      + rewrite (g_rootc _ _ _ G i m Sp Hm) in F. injection F as <-.
        exists (w' ++ [i]), []. rewrite app_nil_r. repeat split. destruct w'; discriminate.
      + destruct (g_eq _ _ _ G p i m Hp Sp Hm) as (x & y & Fp & S & Fm).
        rewrite Fm in F. injection F as <-.
        assert (NEw : w' <> []).
        { intros ->. injection Wp as <-. assert (In 0%nat (dn ++ st)) by (apply in_or_app; auto).
          apply (g_nz _ _ _ G) in H. lia. }
        destruct (IH w' p x ltac:(lia) NEw Wp Fp) as (u & v & -> & NEu & Wx).
        assert (HQ : forall v0 x0 f0, (length v0 <= N)%nat -> walk h 0 v0 = Some x0 -> x0 <> 0%nat ->
                  fail_of h x0 = Some f0 ->
                  exists u0 v', v0 = u0 ++ v' /\ walk h 0 v' = Some f0 /\ (length v' <= N)%nat).
        { intros v0 x0 f0 Lv Wv Nx Fx.
          assert (v0 <> []) by (intros ->; injection Wv as <-; congruence).
          destruct (IH v0 x0 f0 Lv H Wv Fx) as (u3 & v3 & -> & _ & W3). exists u3, v3.
          split; [reflexivity|]. split; [exact W3|]. rewrite app_length in Lv. lia. }
        assert (Lv : (length v <= N)%nat) by (rewrite app_length in Lw; lia).
        destruct (fail_search_suffix h (fun v => (length v <= N)%nat) (g_root _ _ _ G) HQ _ v x i y Lv Wx S)
          as (u2 & v2 & E2 & W2).
        exists (u ++ u2), v2. split; [rewrite <- !app_assoc, <- E2; reflexivity|].
        split; [|exact W2]. destruct u; [congruence|discriminate]. }
  intros w m f. apply (Main (length w)). lia.
Qed.

(** it never runs out of fuel, and stops early only at a link that is not set *)
Lemma fail_search_ends h K E dn st : trie h K E -> ginv h dn st ->
  forall fuel v x i, walk h 0 v = Some x -> (length v < fuel)%nat ->
    (exists y, fail_search fuel h x i = Ok y) \/ fail_search fuel h x i = Fault FNull.
Proof.
  intros T G. induction fuel as [|f IH]; intros v x i W Lv; [lia|]. cbn [fail_search].
  pose proof (walk_lt _ _ _ T _ _ W) as Lx.
  destruct (nth_error h x) as [nx|] eqn:N; [|apply nth_error_None in N; lia]. cbn [of_opt bind].
  destruct (lookup i (n_arr nx)) as [z|] eqn:L; [left; eauto|].
  destruct (n_fail nx) as [x'|] eqn:Fx; [|auto].
  destruct (Nat.eqb_spec x' 0) as [->|Nz]; [left; eauto|].
  assert (Fx' : fail_of h x = Some x') by (unfold fail_of; rewrite N; exact Fx).
  assert (NE : v <> []).
  { intros ->. injection W as <-. rewrite (g_root _ _ _ G) in Fx'. congruence. }
  destruct (ginv_suffix _ _ _ _ _ T G v x x' NE W Fx') as (u & v' & -> & NEu & W').
  apply (IH v' x' i W'). rewrite app_length in Lv. destruct u; [congruence|simpl in Lv; lia].
Qed.

Lemma comp_children_any K E : forall is n h dn st,
  trie h K E -> NoDup is -> In n dn ->
  (forall i m, In i is -> estep h n i = Some m -> ~ In m (dn ++ st)) ->
  (forall i m, estep h 0 i = Some m -> In m (dn ++ st)) ->
  ginv h dn st ->
  match comp_children is n h st with
  | Ok (h', st') => ginv h' dn st' /\ same_shape h h' /\ grown h n is dn st st'
  | Fault r => stuck h r
  | NoFuel => False
  end.
Proof.
  induction is as [|i r IH]; intros n h dn st T ND Hdn FR RC G; cbn [comp_children].
  - split; [exact G|]. split; [apply same_shape_refl|].
    intros m. split; [auto|]. intros [|(i & [] & _)]; auto.
  - inversion ND; subst.
    assert (Hn : (0 < n < length h)%nat) by (apply (g_nz _ _ _ G); apply in_or_app; auto).
    destruct (nth_error h n) as [nd|] eqn:Q; [|apply nth_error_None in Q; lia]. cbn [of_opt bind].
    assert (ES : estep h n i = lookup i (n_arr nd)) by (unfold estep; rewrite Q; reflexivity).
    destruct (lookup i (n_arr nd)) as [m|] eqn:Sl.
    + pose proof (t_range _ _ _ T _ _ _ ES) as Hm.
      assert (Fn : fail_of h n = n_fail nd) by (unfold fail_of; rewrite Q; reflexivity).
      destruct (n_fail nd) as [x|] eqn:Fx; cbn [of_opt bind].
      2:{ exfalso. apply (proj2 (g_dom _ _ _ G n ltac:(lia))); [apply in_or_app; auto|exact Fn]. }
      destruct (tracked_walk _ _ _ T _ _ _ ES) as (w & Wn & _).
      assert (NEw : w <> []) by (intros ->; injection Wn as Wn; lia).
      destruct (ginv_suffix _ _ _ _ _ T G w n x NEw Wn Fn) as (u & v & Ew & NEu & Wx).
      pose proof (walk_short _ _ _ T _ _ Wx) as Lv.
      destruct (fail_search_ends _ _ _ _ _ T G (S (length h)) v x i Wx ltac:(lia)) as [[y Sy]|Sy];
        rewrite Sy; cbn [bind].
      2:{ right. exists h, dn, st, n, i, m, x. split; [apply same_shape_refl|]. auto 10. }
      assert (Nm : ~ In m (dn ++ st)) by (apply (FR i m); [left; reflexivity | exact ES]).
      destruct (push_cases h dn st m G Nm Hm) as [Pu|[Pu L]]; rewrite Pu; cbn [bind]; [|left; auto].
      pose proof (same_shape_set_fail h m y) as Sh. assert (Se := proj1 (proj2 Sh)).
      assert (G' : ginv (upd h m (set_fail y)) dn (m :: st)).
      { eapply ginv_push; eauto. }
      assert (T' : trie (upd h m (set_fail y)) K E) by (eapply trie_shape; eassumption).
      assert (FR' : forall j m', In j r -> estep (upd h m (set_fail y)) n j = Some m' -> ~ In m' (dn ++ m :: st)).
      { intros j m' Hj Sj Hin. rewrite <- Se in Sj. rewrite in_app_iff in Hin. simpl in Hin.
        assert (In m' (dn ++ st) \/ m' = m) as [Hin'|Heq] by (rewrite in_app_iff; intuition).
        - apply (FR j m'); auto. right; assumption.
        - subst m'. destruct (t_inj _ _ _ T _ _ _ _ _ ES Sj) as [_ ->]. contradiction. }
      assert (RC' : forall j q, estep (upd h m (set_fail y)) 0 j = Some q -> In q (dn ++ m :: st)).
      { intros j q Sj. rewrite <- Se in Sj. apply RC in Sj. rewrite in_app_iff in *. simpl. intuition. }
      specialize (IH n _ dn (m :: st) T' H2 Hdn FR' RC' G').
      destruct (comp_children r n (upd h m (set_fail y)) (m :: st)) as [[h' st']|f|].
      * destruct IH as (A2 & A3 & A4). split; [exact A2|]. split; [eapply same_shape_trans; eassumption|].
        intros m'. rewrite (A4 m'), !in_app_iff. simpl. split.
        { intros [[?|[?|?]]|(j & Hj & Sj)]; auto.
          - right. exists i. subst. auto.
          - right. exists j. rewrite Se. auto. }
        { intros [[?|?]|(j & [<-|Hj] & Sj)]; auto.
          - left. right. left. congruence.
          - right. exists j. rewrite <- Se. auto. }
      * eapply stuck_shape; eassumption.
      * exact IH.
    + assert (FR' : forall j m, In j r -> estep h n j = Some m -> ~ In m (dn ++ st)).
      { intros j m Hj. apply FR. right. exact Hj. }
      specialize (IH n h dn st T H2 Hdn FR' RC G).
      destruct (comp_children r n h st) as [[h' st']|f|]; auto.
      destruct IH as (A2 & A3 & A4). split; [exact A2|]. split; [exact A3|]. intros m. rewrite (A4 m). split.
      { intros [?|(j & Hj & Sj)]; [left; assumption|]. right. exists j. simpl. auto. }
      { intros [?|(j & [<-|Hj] & Sj)]; [left; assumption|congruence|]. right. exists j. auto. }
Qed.

Lemma ginv_pop h K E dn n st : trie h K E -> ginv h dn (n :: st) -> ginv h (n :: dn) st.
Proof.
  intros T G.
  assert (Perm : Permutation (dn ++ n :: st) ((n :: dn) ++ st)).
  { simpl. symmetry. apply Permutation_middle. }
  assert (IN : forall x, In x ((n :: dn) ++ st) <-> In x (dn ++ n :: st)).
  { intros x. split; intros H; [eapply Permutation_in; [symmetry; exact Perm|exact H]
                               |eapply Permutation_in; [exact Perm|exact H]]. }
  constructor.
  - eapply Permutation_NoDup; [exact Perm | apply G].
  - intros x Hx. apply (g_nz _ _ _ G). apply IN. exact Hx.
  - apply G.
  - intros x Nz. rewrite IN. apply (g_dom _ _ _ G x Nz).
  - intros m Hm. apply IN in Hm. destruct (g_par _ _ _ G m Hm) as (p & i & Hp & Sp).
    exists p, i. split; [|exact Sp]. destruct Hp; [auto|right; right; assumption].
  - intros i m S Hm. apply IN in Hm. eapply g_rootc; eassumption.
  - intros x i m Hx S Hm. apply IN in Hm. simpl in Hx. destruct Hx as [<-|Hx]; [|eapply g_eq; eassumption].
    exfalso. destruct (g_par _ _ _ G m Hm) as (p & j & Hp & Sp).
    destruct (t_inj _ _ _ T _ _ _ _ _ S Sp) as [-> ->].
    assert (In p (dn ++ p :: st)) by (apply in_or_app; right; left; reflexivity).
    destruct Hp as [->|Hp]; [apply (g_nz _ _ _ G) in H; lia|].
    pose proof (g_nodup _ _ _ G) as ND. apply NoDup_remove_2 in ND. apply ND. apply in_or_app; auto.
Qed.

Lemma comp_loop_any K E (Hb : forall k, In k E -> bytes k) : forall fuel h dn st,
  trie h K E -> ginv h dn st -> closed h (dn ++ st) dn ->
  (length h - length dn <= fuel)%nat ->
  match comp_loop fuel h st with
  | Ok h' => exists dn', ginv h' dn' [] /\ same_shape h h' /\ closed h' dn' dn'
  | Fault r => stuck h r
  | NoFuel => False
  end.
Proof.
  induction fuel as [|f IH]; intros h dn [|n st] T G CL Fu.
  - exists dn. rewrite app_nil_r in CL. split; [exact G|]. split; [apply same_shape_refl|exact CL].
  - assert (length (dn ++ n :: st) <= length h - 1)%nat by (apply NoDup_bounded_len; apply G).
    rewrite app_length in H. simpl in H. lia.
  - exists dn. rewrite app_nil_r in CL. split; [exact G|]. split; [apply same_shape_refl|exact CL].
  - cbn [comp_loop].
    assert (Perm : Permutation (dn ++ n :: st) ((n :: dn) ++ st)).
    { simpl. symmetry. apply Permutation_middle. }
    assert (G1 : ginv h (n :: dn) st) by (eapply ginv_pop; eassumption).
    assert (Hn : (0 < n < length h)%nat).
    { apply (g_nz _ _ _ G). apply in_or_app; right; left; reflexivity. }
    assert (Hnd : ~ In n dn).
    { pose proof (g_nodup _ _ _ G) as ND. apply NoDup_remove_2 in ND.
      intros Hx. apply ND. apply in_or_app; left; exact Hx. }
    assert (FR : forall i m, In i indices -> estep h n i = Some m -> ~ In m ((n :: dn) ++ st)).
    { intros i m Hi Sm Hin.
      assert (Hin' : In m (dn ++ n :: st)) by (eapply Permutation_in; [symmetry; exact Perm|exact Hin]).
      destruct (g_par _ _ _ G m Hin') as (p & j & Hp & Sp).
      destruct (t_inj _ _ _ T _ _ _ _ _ Sm Sp) as [-> ->].
      destruct Hp as [->|Hp]; [lia|contradiction]. }
    assert (RC : forall j q, estep h 0 j = Some q -> In q ((n :: dn) ++ st)).
    { intros j q Sj. eapply Permutation_in; [exact Perm|]. eapply (proj1 CL); exact Sj. }
    pose proof (comp_children_any K E indices n h (n :: dn) st T indices_nodup (or_introl eq_refl) FR RC G1) as A.
    destruct (comp_children indices n h st) as [[h' st']|r|]; cbn [bind fst snd]; [|exact A|exact A].
    destruct A as (A2 & A3 & A4). assert (Se := proj1 (proj2 A3)). assert (Le := proj1 A3).
    assert (T' : trie h' K E) by (eapply trie_shape; eassumption).
    assert (CL' : closed h' ((n :: dn) ++ st') (n :: dn)).
    { destruct CL as [CL0 CL1]. split.
      - intros i m Sm. rewrite <- Se in Sm. apply A4. left.
        eapply Permutation_in; [exact Perm|]. eapply CL0; eassumption.
      - intros x i m [<-|Hx] Sm; rewrite <- Se in Sm; apply A4.
        + right. exists i. split; [|exact Sm].
          destruct (t_edge _ _ _ T _ _ _ Sm) as (k & w & v & Hk & Mk & _).
          assert (In i (map idx_of k)) by (rewrite Mk; apply in_or_app; right; left; reflexivity).
          apply in_map_iff in H. destruct H as (b & <- & Hbk). apply idx_of_in.
          apply (proj1 (Forall_forall _ _) (Hb k Hk) b Hbk).
        + left. eapply Permutation_in; [exact Perm|]. eapply CL1; eassumption. }
    specialize (IH h' (n :: dn) st' T' A2 CL' ltac:(simpl; lia)).
    destruct (comp_loop f h' st') as [h2|r|].
    + destruct IH as (dn2 & B1 & B2 & B3). exists dn2. split; [exact B1|].
      split; [eapply same_shape_trans; eassumption|exact B3].
    + eapply stuck_shape; eassumption.
    + exact IH.
Qed.

(** ** Registering keys sets no links *)
Definition no_links (h : list node) : Prop := forall n, n <> 0%nat -> fail_of h n = None.

Lemma fail_of_upd h n f m : (forall nd, n_fail (f nd) = n_fail nd) ->
  fail_of (upd h n f) m = fail_of h m.
Proof.
  intros Hf. unfold fail_of. rewrite nth_upd. destruct (Nat.eqb n m); [|reflexivity].
  destruct (nth_error h m); simpl; auto.
Qed.

Lemma add_walk_no_links : forall data h n h', no_links h -> add_walk h n data = Ok h' -> no_links h'.
Proof.
  induction data as [|b r IH]; intros h n h' NL; simpl.
  - intros [= <-] m Nm. rewrite fail_of_upd by reflexivity. auto.
  - destruct (nth_error h n); simpl; [|discriminate].
    destruct (lookup (idx_of b) (n_arr n0)); [apply IH; exact NL|].
    apply IH. intros m Nm. pose proof (NL m Nm) as F.
    rewrite <- (fail_of_upd h n (add_edge (idx_of b) (length h)) m) in F by reflexivity.
    unfold fail_of in *.
    destruct (Nat.ltb_spec m (length (upd h n (add_edge (idx_of b) (length h))))).
    + rewrite nth_error_app1 by assumption. exact F.
    + rewrite nth_error_app2 by assumption.
      destruct (m - length (upd h n (add_edge (idx_of b) (length h))))%nat as [|q]; [reflexivity|].
      destruct q; reflexivity.
Qed.

Lemma ezac_adds_no_links : forall keys c c', no_links (ac_nodes c) -> ezac_adds c keys = Ok c' ->
  no_links (ac_nodes c').
Proof.
  induction keys as [|k r IH]; intros c c' NL; simpl; [intros [= <-]; exact NL|].
  unfold ezac_add. destruct (add_walk (ac_nodes c) 0 k) as [h| |] eqn:A; simpl; try discriminate.
  apply IH. simpl. eapply add_walk_no_links; eassumption.
Qed.

Lemma trie_edge_index h K E : (forall k, In k E -> bytes k) -> trie h K E ->
  forall n i m, estep h n i = Some m -> In i indices.
Proof.
  intros Hb T n i m S. destruct (t_edge _ _ _ T _ _ _ S) as (k & w & v & Hk & Mk & _).
  assert (In i (map idx_of k)) by (rewrite Mk; apply in_or_app; right; left; reflexivity).
  apply in_map_iff in H. destruct H as (b & <- & Hbk). apply idx_of_in.
  apply (proj1 (Forall_forall _ _) (Hb k Hk) b Hbk).
Qed.

(** ** The whole construction *)
Lemma build_any keys : Forall bytes keys ->
  exists c1, ezac_adds ezac_init keys = Ok c1 /\ trie (ac_nodes c1) (rev keys) keys /\
    (length (ac_nodes c1) <= S (total_len keys))%nat /\
    match ac_build keys with
    | Ok c => ac_cur c = 0%nat /\ same_shape (ac_nodes c1) (ac_nodes c) /\
              exists dn, ginv (ac_nodes c) dn [] /\ closed (ac_nodes c) dn dn
    | Fault r => stuck (ac_nodes c1) r
    | NoFuel => False
    end.
Proof.
  intros Hb. unfold ac_build.
  destruct (ezac_adds_spec keys ezac_init [] keys) as (c1 & A1 & A2 & A3 & A4); [apply trie_init|auto|].
  exists c1. split; [exact A1|]. rewrite A1. cbn [bind]. rewrite app_nil_r in A2. simpl in A4.
  split; [exact A2|]. split; [exact A4|].
  assert (RF : fail_of (ac_nodes c1) 0 = Some 0%nat).
  { rewrite (ezac_adds_root_fail keys ezac_init c1 [] keys); auto. apply trie_init. }
  assert (NL : no_links (ac_nodes c1)).
  { eapply ezac_adds_no_links; [|exact A1]. intros [|[|m]] Nm; [congruence|reflexivity|reflexivity]. }
  assert (Hb' : forall k, In k keys -> bytes k) by (apply Forall_forall; exact Hb).
  pose proof (trie_edge_index _ _ _ Hb' A2) as EI.
  assert (G0 : ginv (ac_nodes c1) [] []).
  { constructor; simpl; try (intros; contradiction); [constructor|exact RF|].
    intros n Nz. rewrite (NL n Nz). split; [congruence|intros []]. }
  unfold ezac_compiler.
  pose proof (comp_root_any (rev keys) keys indices (ac_nodes c1) [] [] A2 indices_nodup
                ltac:(intros i m _ _ []) G0) as B.
  destruct (comp_root indices (ac_nodes c1) []) as [[h1 st1]|r|]; cbn [bind fst snd]; [|exact B|exact B].
  destruct B as (B1 & B2 & B3). assert (Se := proj1 (proj2 B2)). assert (Le := proj1 B2).
  assert (CL : closed h1 ([] ++ st1) []).
  { split.
    - intros i m Sm. rewrite <- Se in Sm. apply (B3 m). right. exists i. split; [eapply EI; exact Sm|exact Sm].
    - intros n i m []. }
  pose proof (comp_loop_any (rev keys) keys Hb' (length (ac_nodes c1)) h1 [] st1
                (trie_shape _ _ _ _ B2 A2) B1 CL ltac:(simpl; lia)) as C.
  destruct (comp_loop (length (ac_nodes c1)) h1 st1) as [h2|r|]; cbn [bind].
  - destruct C as (dn & C1 & C2 & C3). split; [exact A3|]. simpl.
    split; [eapply same_shape_trans; eassumption|]. exists dn. split; assumption.
  - eapply stuck_shape; eassumption.
  - exact C.
Qed.

(** what is left behind, without reference to the construction *)
Record linked (h : list node) (K : list (list Z)) : Prop := {
  lk_trie : trie h (rev K) K;
  lk_root : fail_of h 0 = Some 0%nat;
  lk_child : forall i m, estep h 0 i = Some m -> fail_of h m = Some 0%nat;
  lk_eq : forall w n i m, w <> [] -> walk h 0 w = Some n -> estep h n i = Some m ->
      exists x y, fail_of h n = Some x /\ fail_search (S (length h)) h x i = Ok y /\ fail_of h m = Some y;
  lk_set : forall w n, walk h 0 w = Some n -> exists f, fail_of h n = Some f;
  lk_suffix : forall w n f, w <> [] -> walk h 0 w = Some n -> fail_of h n = Some f -> suffix_link h w f
}.

Lemma closed_all h K E dn : trie h K E -> closed h dn dn ->
  forall w n, w <> [] -> walk h 0 w = Some n -> In n dn.
Proof.
  intros T [C0 C1]. induction w as [|i w IH] using rev_ind; intros n NE W; [congruence|].
  rewrite walk_app in W. destruct (walk h 0 w) as [p|] eqn:P; [|discriminate].
  simpl in W. destruct (estep h p i) as [q|] eqn:S; [|discriminate]. injection W as <-.
  destruct w as [|j w'].
  - injection P as <-. eapply C0; exact S.
  - eapply C1; [|exact S]. apply IH; [discriminate|reflexivity].
Qed.

Lemma build_linked keys c : Forall bytes keys -> ac_build keys = Ok c ->
  linked (ac_nodes c) keys /\ ac_cur c = 0%nat.
Proof.
  intros Hb B. destruct (build_any keys Hb) as (c1 & A1 & A2 & _ & A3). rewrite B in A3.
  destruct A3 as (A3 & A4 & dn & G & CL). split; [|exact A3].
  assert (T : trie (ac_nodes c) (rev keys) keys) by (eapply trie_shape; eassumption).
  pose proof (closed_all _ _ _ _ T CL) as All.
  constructor.
  - exact T.
  - apply G.
  - intros i m S. eapply g_rootc; [exact G|exact S|]. rewrite app_nil_r. apply (proj1 CL) in S. exact S.
  - intros w n i m NE W S. eapply g_eq; [exact G| |exact S|].
    + eapply All; eassumption.
    + rewrite app_nil_r. eapply (proj2 CL); [|exact S]. eapply All; eassumption.
  - intros w n W. destruct w as [|i w].
    + injection W as <-. exists 0%nat. apply G.
    + assert (In n dn) by (eapply All; [|exact W]; discriminate).
      assert (n <> 0%nat).
      { assert (In n (dn ++ [])) by (rewrite app_nil_r; exact H). apply (g_nz _ _ _ G) in H0. lia. }
      destruct (fail_of (ac_nodes c) n) eqn:F; [eauto|]. exfalso.
      apply (proj2 (g_dom _ _ _ G n H0)); [rewrite app_nil_r; exact H|exact F].
  - intros w n f. eapply ginv_suffix; eassumption.
Qed.

(** ** One byte of a text *)
Definition land (h : list node) (m : nat) (r : list Z) : res (bool * nat) :=
  if is_end h m then Ok (true, 0%nat) else find_walk h m r.

Lemma find_edge h K E (T : trie h K E) cur b r m :
  estep h cur (idx_of b) = Some m -> find_walk h cur (b :: r) = land h m r.
Proof.
  intros S. pose proof (t_range _ _ _ T _ _ _ S) as R. unfold estep in S. cbn [find_walk].
  destruct (nth_error h cur) as [nc|] eqn:Q; [|discriminate]. cbn [of_opt bind]. rewrite S. cbn [bind].
  rewrite Q. cbn [of_opt bind]. rewrite S. unfold land, is_end.
  destruct (nth_error h m) as [nm|] eqn:Qm; [|apply nth_error_None in Qm; lia]. reflexivity.
Qed.

Lemma find_link h K E (T : trie h K E) cur b r f :
  estep h cur (idx_of b) = None -> fail_of h cur = Some f -> (f < length h)%nat ->
  find_walk h cur (b :: r) =
  match estep h f (idx_of b) with Some m => land h m r | None => find_walk h f r end.
Proof.
  intros S F Lf. unfold estep in S. unfold fail_of in F. cbn [find_walk].
  destruct (nth_error h cur) as [nc|] eqn:Q; [|discriminate]. cbn [of_opt bind]. rewrite S, F. cbn [of_opt bind].
  unfold estep. destruct (nth_error h f) as [nf|] eqn:Qf; [|apply nth_error_None in Qf; lia]. cbn [of_opt bind].
  destruct (lookup (idx_of b) (n_arr nf)) as [m|] eqn:L; [|reflexivity].
  assert (Sm : estep h f (idx_of b) = Some m) by (unfold estep; rewrite Qf; exact L).
  pose proof (t_range _ _ _ T _ _ _ Sm) as R. unfold land, is_end.
  destruct (nth_error h m) as [nm|] eqn:Qm; [|apply nth_error_None in Qm; lia]. reflexivity.
Qed.

Lemma walk_snoc h w n i m : walk h 0 w = Some n -> estep h n i = Some m -> walk h 0 (w ++ [i]) = Some m.
Proof. intros W S. rewrite walk_app, W. simpl. rewrite S. reflexivity. Qed.

(** the text of a link, also for the root *)
Lemma linked_link h K (L : linked h K) w n : walk h 0 w = Some n ->
  exists f u v, fail_of h n = Some f /\ w = u ++ v /\ walk h 0 v = Some f /\ (w <> [] -> u <> []).
Proof.
  intros W. destruct (lk_set _ _ L w n W) as (f & F). destruct w as [|i w].
  - injection W as <-. rewrite (lk_root _ _ L) in F. injection F as <-.
    exists 0%nat, [], []. split; [apply (lk_root _ _ L)|]. repeat split. congruence.
  - destruct (lk_suffix _ _ L (i :: w) n f ltac:(discriminate) W F) as (u & v & E & NE & Wv).
    exists f, u, v. auto.
Qed.

(** ** A relation kept by every byte *)
Lemma find_keeps h K (L : linked h K) (R : list Z -> list Z -> Prop)
  (Rlink : forall u v pre, R (u ++ v) pre -> R v pre)
  (Rtake : forall w pre i, R w pre -> R (w ++ [i]) (pre ++ [i]))
  (Rdrop : forall w pre i, R w pre -> R w (pre ++ [i])) :
  forall data cur w pre, walk h 0 w = Some cur -> R w pre ->
  exists ok cur', find_walk h cur data = Ok (ok, cur') /\
    (ok = false -> exists w', walk h 0 w' = Some cur' /\ R w' (pre ++ map idx_of data)) /\
    (ok = true -> cur' = 0%nat /\ exists k p q, In k K /\ k <> [] /\ map idx_of data = p ++ q /\
                    R (map idx_of k) (pre ++ p)).
Proof.
  pose proof (lk_trie _ _ L) as T.
  induction data as [|b r IH]; intros cur w pre W HR.
  - exists false, cur. split; [reflexivity|]. split; [|discriminate]. intros _. exists w. simpl. rewrite app_nil_r. auto.
  - assert (Step : forall n w1, walk h 0 w1 = Some n -> R w1 pre -> forall m, estep h n (idx_of b) = Some m ->
      exists ok cur', land h m r = Ok (ok, cur') /\
        (ok = false -> exists w', walk h 0 w' = Some cur' /\ R w' (pre ++ map idx_of (b :: r))) /\
        (ok = true -> cur' = 0%nat /\ exists k p q, In k K /\ k <> [] /\ map idx_of (b :: r) = p ++ q /\
                        R (map idx_of k) (pre ++ p))).
    { intros n w1 W1 R1 m S. pose proof (walk_snoc _ _ _ _ _ W1 S) as Wm. unfold land.
      destruct (is_end h m) eqn:En.
      - exists true, 0%nat. split; [reflexivity|]. split; [discriminate|]. intros _. split; [reflexivity|].
        destruct (t_end _ _ _ T m En) as (k & Hk & Wk). exists k, [idx_of b], (map idx_of r).
        assert (Ek : map idx_of k = w1 ++ [idx_of b]) by (eapply walk_inj; eassumption).
        split; [apply in_rev; exact Hk|]. split; [intros ->; destruct w1; discriminate|].
        split; [reflexivity|]. rewrite Ek. apply Rtake. exact R1.
      - destruct (IH m (w1 ++ [idx_of b]) (pre ++ [idx_of b]) Wm (Rtake _ _ _ R1)) as (ok & cur' & F1 & F2 & F3).
        exists ok, cur'. split; [exact F1|]. rewrite <- app_assoc in F2. split; [exact F2|].
        intros O. destruct (F3 O) as (C0 & k & p & q & Hk & NE & Ed & Rk). split; [exact C0|].
        exists k, (idx_of b :: p), q. split; [exact Hk|]. split; [exact NE|]. split; [simpl; rewrite Ed; reflexivity|].
        rewrite <- app_assoc in Rk. exact Rk. }
    destruct (estep h cur (idx_of b)) as [m|] eqn:S.
    + rewrite (find_edge _ _ _ T _ _ _ _ S). eapply Step; eassumption.
    + destruct (linked_link _ _ L w cur W) as (f & u & v & F & -> & Wf & _).
      rewrite (find_link _ _ _ T _ _ _ _ S F); [|eapply walk_lt; eassumption].
      apply Rlink in HR.
      destruct (estep h f (idx_of b)) as [m|] eqn:Sf; [eapply Step; eassumption|].
      destruct (IH f v (pre ++ [idx_of b]) Wf (Rdrop _ _ _ HR)) as (ok & cur' & F1 & F2 & F3).
      exists ok, cur'. split; [exact F1|]. rewrite <- app_assoc in F2. split; [exact F2|].
      intros O. destruct (F3 O) as (C0 & k & p & q & Hk & NE & Ed & Rk). split; [exact C0|].
      exists k, (idx_of b :: p), q. split; [exact Hk|]. split; [exact NE|]. split; [simpl; rewrite Ed; reflexivity|].
      rewrite <- app_assoc in Rk. exact Rk.
Qed.

(** ** Along the text of a key *)
Lemma find_from h K (L : linked h K) : forall data n v c t,
  walk h n v = Some t -> is_end h t = true -> v <> [] -> map idx_of data = v ++ c ->
  exists cur', find_walk h n data = Ok (true, cur').
Proof.
  pose proof (lk_trie _ _ L) as T.
  induction data as [|b r IH]; intros n v c t W Et NE M; destruct v as [|i v]; try congruence; [discriminate|].
  simpl in M. injection M as M0 M1. simpl in W.
  destruct (estep h n i) as [q|] eqn:S; [|discriminate].
  rewrite (find_edge _ _ _ T n b r q) by (rewrite M0; exact S). unfold land.
  destruct (is_end h q) eqn:Eq; [eauto|].
  destruct v as [|j v'].
  - injection W as ->. congruence.
  - apply (IH q (j :: v') c t W Et); [discriminate|exact M1].
Qed.

(** a key is accepted from the root *)
Lemma find_key_root h K (L : linked h K) k data c : In k K -> k <> [] -> map idx_of data = map idx_of k ++ c ->
  exists cur', find_walk h 0 data = Ok (true, cur').
Proof.
  intros Hk NE M. destruct (t_path _ _ _ (lk_trie _ _ L) k) as (t & W & Et); [apply in_rev in Hk; exact Hk|].
  apply (find_from h K L data 0%nat (map idx_of k) c t W Et); [|exact M].
  destruct k; [congruence|discriminate].
Qed.

(** symbols that start no key leave the matcher at the root *)
Lemma find_skip h K (L : linked h K) : forall p r,
  (forall i, In i (map idx_of p) -> estep h 0 i = None) -> find_walk h 0 (p ++ r) = find_walk h 0 r.
Proof.
  induction p as [|b p IH]; intros r H; [reflexivity|]. simpl app.
  assert (S : estep h 0 (idx_of b) = None) by (apply H; left; reflexivity).
  rewrite (find_link _ _ _ (lk_trie _ _ L) 0%nat b (p ++ r) 0%nat S (lk_root _ _ L)); [|apply (t_root _ _ _ (lk_trie _ _ L))].
  rewrite S. apply IH. intros i Hi. apply H. right. exact Hi.
Qed.

(** symbols that occur in no key lead back to the root *)
Lemma find_pad h K (L : linked h K) : forall p cur w r,
  walk h 0 w = Some cur -> (length w <= length p)%nat ->
  (forall n i, In i (map idx_of p) -> estep h n i = None) ->
  find_walk h cur (p ++ r) = find_walk h 0 r.
Proof.
  induction p as [|b p IH]; intros cur w r W Lw H.
  - destruct w; [|simpl in Lw; lia]. injection W as <-. reflexivity.
  - simpl app. assert (S : forall n, estep h n (idx_of b) = None) by (intros n; apply H; left; reflexivity).
    destruct (linked_link _ _ L w cur W) as (f & u & v & F & -> & Wf & Nu).
    rewrite (find_link _ _ _ (lk_trie _ _ L) cur b (p ++ r) f (S cur) F);
      [|eapply walk_lt; [apply (lk_trie _ _ L)|exact Wf]].
    rewrite S. apply (IH f v r Wf).
    + rewrite app_length in Lw. simpl in Lw. destruct u.
      * destruct v; [simpl; lia|]. exfalso. apply Nu; [discriminate|reflexivity].
      * simpl in Lw. lia.
    + intros n i Hi. apply H. right. exact Hi.
Qed.

(** ** Edges and the texts of keys *)
Lemma linked_edge h K (L : linked h K) w n i : walk h 0 w = Some n -> estep h n i <> None ->
  exists k v, In k K /\ map idx_of k = w ++ i :: v.
Proof.
  intros W S. destruct (estep h n i) as [m|] eqn:Sm; [|congruence].
  destruct (t_edge _ _ _ (lk_trie _ _ L) _ _ _ Sm) as (k & w' & v & Hk & Mk & W').
  assert (w' = w) by (eapply walk_inj; [apply (lk_trie _ _ L)|eassumption|eassumption]). subst. eauto.
Qed.

Lemma linked_path h K (L : linked h K) k w v : In k K -> map idx_of k = w ++ v ->
  exists n, walk h 0 w = Some n.
Proof.
  intros Hk M. destruct (t_path _ _ _ (lk_trie _ _ L) k) as (t & W & _); [apply in_rev in Hk; exact Hk|].
  rewrite M, walk_app in W. destruct (walk h 0 w); [eauto|discriminate].
Qed.

(** every node lies on the way to the end of a key *)
Lemma linked_leaf h K (L : linked h K) w n : w <> [] -> walk h 0 w = Some n ->
  (forall i, estep h n i = None) -> is_end h n = true.
Proof.
  intros NE W Lf. destruct w as [|i w] using rev_ind; [congruence|]. clear IHw.
  assert (W' := W). rewrite walk_app in W'. destruct (walk h 0 w) as [p|] eqn:Wp; [|discriminate].
  simpl in W'. destruct (estep h p i) as [q|] eqn:S; [|discriminate]. injection W' as ->.
  destruct (linked_edge _ _ L w p i Wp ltac:(congruence)) as (k & v & Hk & Mk).
  destruct (t_path _ _ _ (lk_trie _ _ L) k) as (t & Wt & Et); [apply in_rev in Hk; exact Hk|].
  replace (w ++ i :: v) with ((w ++ [i]) ++ v) in Mk by (rewrite <- app_assoc; reflexivity).
  rewrite Mk, walk_app, W in Wt. destruct v as [|j v].
  - injection Wt as ->. exact Et.
  - simpl in Wt. rewrite Lf in Wt. discriminate.
Qed.

(** ** Key sets with no first symbol strictly inside a key *)
Definition inner_leaf (h : list node) : Prop :=
  forall n i m m', n <> 0%nat -> estep h 0 i = Some m -> estep h n i = Some m' -> forall j, estep h m' j = None.

Definition no_inner (keys : list (list Z)) : Prop :=
  forall k k' a u x v y, In k keys -> In k' keys ->
    map idx_of k = a :: u -> map idx_of k' = x :: v ++ [y] -> ~ In a v.

Lemma inner_leaf_of_keys h K E : trie h K E -> no_inner E -> inner_leaf h.
Proof.
  intros T D n i m m' Nz S0 Sn j.
  destruct (estep h m' j) as [q|] eqn:Sq; [|reflexivity]. exfalso.
  destruct (t_edge _ _ _ T _ _ _ S0) as (k & w0 & v0 & Hk & Mk & W0).
  assert (w0 = []) by (eapply walk_inj; [exact T|exact W0|reflexivity]). subst w0.
  destruct (t_edge _ _ _ T _ _ _ Sq) as (k' & w & v & Hk' & Mk' & W).
  destruct (tracked_walk _ _ _ T _ _ _ Sn) as (w1 & W1 & W2).
  assert (w = w1 ++ [i]) by (eapply walk_inj; eassumption). subst w.
  destruct w1 as [|x w1]; [injection W1 as W1; congruence|].
  destruct (exists_last (l := j :: v)) as (v' & y & Ev); [discriminate|].
  rewrite Ev in Mk'. simpl in Mk, Mk'.
  apply (D k k' i v0 x (w1 ++ [i] ++ v') y Hk Hk' Mk).
  - rewrite Mk'. rewrite <- !app_assoc. reflexivity.
  - apply in_or_app. right. left. reflexivity.
Qed.

(** only the last node of a key can have a link other than the root *)
Lemma ginv_inner h K E dn st : trie h K E -> ginv h dn st -> inner_leaf h ->
  forall w m, walk h 0 w = Some m -> In m (dn ++ st) -> (exists i, estep h m i <> None) ->
    fail_of h m = Some 0%nat.
Proof.
  intros T G D.
  induction w as [|i w IH] using rev_ind; intros m W Hm Hc.
  - injection W as <-. apply G.
  - destruct (g_par _ _ _ G m Hm) as (p & j & Hp & Sp).
    destruct (tracked_walk _ _ _ T _ _ _ Sp) as (w1 & W1 & W2).
    assert (Ew : w1 ++ [j] = w ++ [i]) by (eapply walk_inj; eassumption).
    apply app_inj_tail in Ew. destruct Ew as [-> ->].
    destruct Hp as [->|Hp]; [eapply g_rootc; eassumption|].
    destruct (g_eq _ _ _ G p i m Hp Sp Hm) as (x & y & Fp & S & Fm).
    assert (Fp0 : fail_of h p = Some 0%nat).
    { apply IH; [exact W1|apply in_or_app; auto|]. exists i. rewrite Sp. discriminate. }
    rewrite Fp0 in Fp. injection Fp as <-.
    rewrite Fm. f_equal. cbn [fail_search] in S.
    destruct (nth_error h 0) as [n0|] eqn:Q; [|discriminate]. cbn [of_opt bind] in S.
    destruct (lookup i (n_arr n0)) as [z|] eqn:Lz.
    + exfalso. assert (Sz : estep h 0 i = Some z) by (unfold estep; rewrite Q; exact Lz).
      destruct Hc as (j & Hc). apply Hc. apply (D p i z m); [|exact Sz|exact Sp].
      assert (In p (dn ++ st)) by (apply in_or_app; auto). apply (g_nz _ _ _ G) in H. lia.
    + pose proof (g_root _ _ _ G) as F0. unfold fail_of in F0. rewrite Q in F0. rewrite F0 in S.
      cbn [Nat.eqb] in S. congruence.
Qed.

Lemma fail_search_root h i : (0 < length h)%nat -> fail_of h 0 = Some 0%nat ->
  exists y, fail_search (S (length h)) h 0 i = Ok y.
Proof.
  intros L F. cbn [fail_search]. unfold fail_of in F.
  destruct (nth_error h 0) as [n0|] eqn:Q; [|discriminate]. cbn [of_opt bind].
  destruct (lookup i (n_arr n0)); [eauto|]. rewrite F. exists 0%nat. reflexivity.
Qed.

Lemma inner_leaf_shape h h' : same_shape h h' -> inner_leaf h -> inner_leaf h'.
Proof. intros (_ & S & _) D n i m m' Nz. rewrite <- !S. intros A B j. rewrite <- S. eapply D; eassumption. Qed.

(** every node that is not a leaf has the root as its link *)
Definition root_links (h : list node) : Prop :=
  forall w n, walk h 0 w = Some n -> (exists i, estep h n i <> None) -> fail_of h n = Some 0%nat.

Lemma build_inner keys c : Forall bytes keys -> no_inner keys -> ac_build keys = Ok c ->
  inner_leaf (ac_nodes c) /\ root_links (ac_nodes c).
Proof.
  intros Hb D B. destruct (build_any keys Hb) as (c1 & A1 & A2 & A3 & A4).
  pose proof (inner_leaf_of_keys _ _ _ A2 D) as IL.
  rewrite B in A4. destruct (build_linked keys c Hb B) as [Lk Cu].
  destruct A4 as (_ & Sh & dn & G & CL).
  pose proof (inner_leaf_shape _ _ Sh IL) as IL'. split; [exact IL'|].
  intros w n W Hc. destruct w as [|i w].
  - injection W as <-. apply (lk_root _ _ Lk).
  - eapply ginv_inner; [apply (lk_trie _ _ Lk)|exact G|exact IL'|exact W| |exact Hc].
    rewrite app_nil_r. eapply closed_all; [apply (lk_trie _ _ Lk)|exact CL| |exact W]. discriminate.
Qed.

(** ** Key sets for which the construction completes *)
Definition no_pair (keys : list (list Z)) : Prop :=
  forall k k' a b u x v w, In k keys -> In k' keys ->
    map idx_of k = a :: b :: u -> map idx_of k' = x :: v ++ a :: b :: w -> False.

Lemma build_outcomes keys : Forall bytes keys -> Z.of_nat (total_len keys) < 4096 ->
  (exists c, ac_build keys = Ok c) \/ ac_build keys = Fault FNull.
Proof.
  intros Hb TL. destruct (build_any keys Hb) as (c1 & A1 & A2 & A3 & A4).
  destruct (ac_build keys) as [c|r|] eqn:B; [eauto| |destruct A4].
  right. destruct A4 as [[_ L]|(h1 & dn & st & n & i & m & x & Sh & G & _ & Hn & S & Fn & Fs)].
  - unfold zlen in L. lia.
  - assert (T1 : trie h1 (rev keys) keys) by (eapply trie_shape; eassumption).
    destruct (tracked_walk _ _ _ T1 _ _ _ S) as (w & Wn & _).
    assert (NEw : w <> []).
    { intros ->. injection Wn as <-. assert (H : In 0%nat (dn ++ st)) by (apply in_or_app; auto).
      apply (g_nz _ _ _ G) in H. lia. }
    destruct (ginv_suffix _ _ _ _ _ T1 G w n x NEw Wn Fn) as (u & v & _ & _ & Wx).
    pose proof (walk_short _ _ _ T1 _ _ Wx) as Lv.
    destruct (fail_search_ends _ _ _ _ _ T1 G (Datatypes.S (length h1)) v x i Wx ltac:(lia)) as [[y Fy]|Fy]; congruence.
Qed.

Lemma build_pairs keys : Forall bytes keys -> no_pair keys -> Z.of_nat (total_len keys) < 4096 ->
  exists c, ac_build keys = Ok c.
Proof.
  intros Hb D TL. destruct (build_any keys Hb) as (c1 & A1 & A2 & A3 & A4).
  destruct (ac_build keys) as [c|r|] eqn:B; [eauto|exfalso|destruct A4].
  destruct A4 as [[_ L]|(h1 & dn & st & n & i & m & x & Sh & G & RC & Hn & S & Fn & Fs)].
  - unfold zlen in L. lia.
  - assert (T1 : trie h1 (rev keys) keys) by (eapply trie_shape; eassumption).
    destruct (t_edge _ _ _ T1 _ _ _ S) as (k' & w & v0 & Hk' & Mk' & Wn).
    assert (NEw : w <> []).
    { intros ->. injection Wn as <-. assert (H : In 0%nat (dn ++ st)) by (apply in_or_app; auto).
      apply (g_nz _ _ _ G) in H. lia. }
    destruct (ginv_suffix _ _ _ _ _ T1 G w n x NEw Wn Fn) as (u & v & -> & NEu & Wx).
    destruct u as [|x0 u]; [congruence|].
    destruct v as [|a [|b v]].
    + injection Wx as <-.
      destruct (fail_search_root h1 i (t_root _ _ _ T1) (g_root _ _ _ G)) as (y & Fy). congruence.
    + simpl in Wx. destruct (estep h1 0 a) as [q|] eqn:Sa; [|discriminate]. injection Wx as ->.
      assert (Fx : fail_of h1 x = Some 0%nat) by (eapply g_rootc; [exact G|exact Sa|eapply RC; exact Sa]).
      cbn [fail_search] in Fs. unfold fail_of in Fx.
      destruct (nth_error h1 x) as [nx|]; [|discriminate]. cbn [of_opt bind] in Fs.
      destruct (lookup i (n_arr nx)); [discriminate|]. rewrite Fx in Fs. discriminate.
    + destruct (exists_last (l := a :: b :: v)) as (v1 & z & Ev); [discriminate|].
      rewrite Ev, walk_app in Wx. destruct (walk h1 0 v1) as [p|] eqn:Wp; [|discriminate]. simpl in Wx.
      destruct (estep h1 p z) as [q|] eqn:Sz; [|discriminate].
      destruct (t_edge _ _ _ T1 _ _ _ Sz) as (k & v1' & v2 & Hk & Mk & Wp').
      assert (v1' = v1) by (eapply walk_inj; eassumption). subst v1'.
      replace (v1 ++ z :: v2) with ((v1 ++ [z]) ++ v2) in Mk by (rewrite <- app_assoc; reflexivity).
      rewrite <- Ev in Mk. simpl in Mk.
      apply (D k k' a b (v ++ v2) x0 u (v ++ i :: v0) Hk Hk' Mk).
      rewrite Mk'. simpl. rewrite <- app_assoc. reflexivity.
Qed.

Lemma no_inner_no_pair keys : no_inner keys -> no_pair keys.
Proof.
  intros D k k' a b u x v w Hk Hk' M M'.
  destruct (exists_last (l := b :: w)) as (w' & y & Ew); [discriminate|].
  apply (D k k' a (b :: u) x (v ++ a :: w') y Hk Hk' M).
  - rewrite M'. rewrite <- app_assoc. simpl. rewrite <- Ew. reflexivity.
  - apply in_or_app. right. left. reflexivity.
Qed.

Lemma linked_inner h K (L : linked h K) w n : w <> [] -> walk h 0 w = Some n -> is_end h n = false ->
  exists i, estep h n i <> None.
Proof.
  intros NE W En. destruct w as [|i w] using rev_ind; [congruence|]. clear IHw.
  assert (W' := W). rewrite walk_app in W'. destruct (walk h 0 w) as [p|] eqn:Wp; [|discriminate].
  simpl in W'. destruct (estep h p i) as [q|] eqn:S; [|discriminate]. injection W' as ->.
  destruct (linked_edge _ _ L w p i Wp ltac:(congruence)) as (k & v & Hk & Mk).
  destruct (t_path _ _ _ (lk_trie _ _ L) k) as (t & Wt & Et); [apply in_rev in Hk; exact Hk|].
  replace (w ++ i :: v) with ((w ++ [i]) ++ v) in Mk by (rewrite <- app_assoc; reflexivity).
  rewrite Mk, walk_app, W in Wt. destruct v as [|j v].
  - injection Wt as ->. congruence.
  - exists j. simpl in Wt. destruct (estep h n j); [discriminate|discriminate Wt].
Qed.

(** the places where the matcher can stand between two bytes *)
Definition stands (h : list node) (w : list Z) (cur : nat) : Prop :=
  walk h 0 w = Some cur /\ (w = [] \/ is_end h cur = false).

Lemma stands_link h K (L : linked h K) (RL : root_links h) w cur : stands h w cur -> fail_of h cur = Some 0%nat.
Proof.
  intros [W En]. destruct w as [|i w].
  - injection W as <-. apply (lk_root _ _ L).
  - destruct En as [En|En]; [discriminate|]. apply (RL _ _ W).
    eapply linked_inner; [exact L| |exact W|exact En]. discriminate.
Qed.

(** with such links a text is accepted only if it contains a key *)
Lemma find_inner_sound h K (L : linked h K) (RL : root_links h) : forall data cur w pre,
  stands h w cur -> (exists a, pre = a ++ w) ->
  exists ok cur', find_walk h cur data = Ok (ok, cur') /\
    (exists w', stands h w' cur') /\
    (ok = true -> cur' = 0%nat /\
       exists k a b, In k K /\ k <> [] /\ pre ++ map idx_of data = a ++ map idx_of k ++ b).
Proof.
  pose proof (lk_trie _ _ L) as T.
  induction data as [|b r IH]; intros cur w pre W (a & ->).
  - exists false, cur. split; [reflexivity|]. split; [eauto|discriminate].
  - assert (Step : forall n w1 a1, stands h w1 n -> a ++ w = a1 ++ w1 -> forall m, estep h n (idx_of b) = Some m ->
      exists ok cur', land h m r = Ok (ok, cur') /\ (exists w', stands h w' cur') /\
        (ok = true -> cur' = 0%nat /\
          exists k a0 b0, In k K /\ k <> [] /\ (a ++ w) ++ map idx_of (b :: r) = a0 ++ map idx_of k ++ b0)).
    { intros n w1 a1 [W1 E1] Ea m S. pose proof (walk_snoc _ _ _ _ _ W1 S) as Wm. unfold land.
      destruct (is_end h m) eqn:En.
      - exists true, 0%nat. split; [reflexivity|]. split; [exists []; split; [reflexivity|auto]|].
        intros _. split; [reflexivity|].
        destruct (t_end _ _ _ T m En) as (k & Hk & Wk). exists k, a1, (map idx_of r).
        assert (Ek : map idx_of k = w1 ++ [idx_of b]) by (eapply walk_inj; eassumption).
        split; [apply in_rev; exact Hk|]. split; [intros ->; destruct w1; discriminate|].
        rewrite Ek, Ea, <- !app_assoc. reflexivity.
      - destruct (IH m (w1 ++ [idx_of b]) ((a ++ w) ++ [idx_of b])) as (ok & cur' & F1 & F2 & F3).
        { split; [exact Wm|right; exact En]. }
        { exists a1. rewrite Ea, <- app_assoc. reflexivity. }
        exists ok, cur'. split; [exact F1|]. split; [exact F2|]. rewrite <- app_assoc in F3. exact F3. }
    destruct (estep h cur (idx_of b)) as [m|] eqn:S.
    + rewrite (find_edge _ _ _ T _ _ _ _ S). eapply Step; [exact W|reflexivity|exact S].
    + pose proof (stands_link _ _ L RL _ _ W) as F.
      rewrite (find_link _ _ _ T _ _ _ _ S F); [|apply (t_root _ _ _ T)].
      assert (S0 : stands h [] 0) by (split; [reflexivity|auto]).
      destruct (estep h 0 (idx_of b)) as [m|] eqn:Sf.
      * apply (Step 0%nat [] (a ++ w) S0); [rewrite app_nil_r; reflexivity|exact Sf].
      * destruct (IH 0%nat [] ((a ++ w) ++ [idx_of b]) S0) as (ok & cur' & F1 & F2 & F3).
        { exists ((a ++ w) ++ [idx_of b]). rewrite app_nil_r. reflexivity. }
        exists ok, cur'. split; [exact F1|]. split; [exact F2|]. rewrite <- app_assoc in F3. exact F3.
Qed.

(** and every text that contains a key is accepted, wherever the matcher stands *)
Lemma find_inner_complete h K (L : linked h K) (RL : root_links h) (D : inner_leaf h) :
  forall data cur w k a b,
  stands h w cur -> In k K -> k <> [] -> map idx_of data = a ++ map idx_of k ++ b ->
  exists cur', find_walk h cur data = Ok (true, cur').
Proof.
  pose proof (lk_trie _ _ L) as T.
  induction data as [|x r IH]; intros cur w k a b W Hk NE M.
  - destruct a; [|discriminate]. destruct k; [congruence|discriminate].
  - assert (S0 : stands h [] 0) by (split; [reflexivity|auto]).
    pose proof (stands_link _ _ L RL _ _ W) as F.
    destruct a as [|a0 a'].
    + destruct k as [|k0 k']; [congruence|]. assert (M' := M). simpl in M'. injection M' as M0 M1.
      destruct (linked_path _ _ L (k0 :: k') [idx_of k0] (map idx_of k') Hk eq_refl) as (m0 & W0).
      simpl in W0. destruct (estep h 0 (idx_of k0)) as [m1|] eqn:Sk; [|discriminate].
      destruct (estep h cur (idx_of x)) as [m|] eqn:S.
      * destruct (Nat.eq_dec cur 0) as [->|Nz].
        { eapply find_key_root; [exact L|exact Hk|discriminate|exact M]. }
        rewrite (find_edge _ _ _ T _ _ _ _ S). unfold land.
        rewrite (linked_leaf h K L (w ++ [idx_of x]) m); [eauto| | |].
        { destruct w; discriminate. }
        { eapply walk_snoc; [apply W|exact S]. }
        { apply (D cur (idx_of x) m1 m Nz); [rewrite M0; exact Sk|exact S]. }
      * rewrite (find_link _ _ _ T _ _ _ _ S F); [|apply (t_root _ _ _ T)].
        rewrite M0, Sk. rewrite <- (find_edge _ _ _ T 0%nat x r m1) by (rewrite M0; exact Sk).
        eapply find_key_root; [exact L|exact Hk|discriminate|exact M].
    + simpl in M. injection M as M0 M1.
      assert (Step : forall n w1, stands h w1 n -> forall m, estep h n (idx_of x) = Some m ->
                exists cur', land h m r = Ok (true, cur')).
      { intros n w1 [W1 _] m S. unfold land. destruct (is_end h m) eqn:En; [eauto|].
        apply (IH m (w1 ++ [idx_of x]) k a' b); auto. split; [eapply walk_snoc; eassumption|auto]. }
      destruct (estep h cur (idx_of x)) as [m|] eqn:S.
      * rewrite (find_edge _ _ _ T _ _ _ _ S). exact (Step cur w W m S).
      * rewrite (find_link _ _ _ T _ _ _ _ S F); [|apply (t_root _ _ _ T)].
        destruct (estep h 0 (idx_of x)) as [m|] eqn:Sf; [exact (Step 0%nat [] S0 m Sf)|].
        apply (IH 0%nat [] k a' b); auto.
Qed.

(** ** The first recurrence of a first symbol gives a link to it *)
Lemma first_inner_link h K (L : linked h K) k' k x v a w u :
  In k' K -> In k K -> map idx_of k' = x :: v ++ a :: w -> map idx_of k = a :: u ->
  (forall i, In i v -> estep h 0 i = None) ->
  exists n m, walk h 0 (x :: v ++ [a]) = Some n /\ estep h 0 a = Some m /\ fail_of h n = Some m.
Proof.
  intros Hk' Hk M' M Hv.
  pose proof (lk_trie _ _ L) as T.
  assert (Root : forall v1 v2 n, v = v1 ++ v2 -> walk h 0 (x :: v1) = Some n -> fail_of h n = Some 0%nat).
  { induction v1 as [|i v1 IH] using rev_ind; intros v2 n Ev W.
    - simpl in W. destruct (estep h 0 x) as [q|] eqn:S; [|discriminate]. injection W as <-.
      apply (lk_child _ _ L x q S).
    - change (x :: v1 ++ [i]) with ((x :: v1) ++ [i]) in W. rewrite walk_app in W.
      destruct (walk h 0 (x :: v1)) as [p|] eqn:Wp; [|discriminate]. simpl in W.
      destruct (estep h p i) as [q|] eqn:S; [|discriminate]. injection W as <-.
      destruct (lk_eq _ _ L (x :: v1) p i q ltac:(discriminate) Wp S) as (f & y & Fp & Fs & Fq).
      rewrite (IH (i :: v2) p) in Fp; [|rewrite Ev, <- app_assoc; reflexivity|reflexivity].
      injection Fp as <-. rewrite Fq. f_equal. cbn [fail_search] in Fs.
      pose proof (lk_root _ _ L) as F0. unfold fail_of in F0.
      assert (S0 : estep h 0 i = None).
      { apply Hv. rewrite Ev, <- app_assoc. apply in_or_app. right. left. reflexivity. }
      unfold estep in S0. destruct (nth_error h 0) as [n0|]; [|discriminate]. cbn [of_opt bind] in Fs.
      rewrite S0, F0 in Fs. cbn [Nat.eqb] in Fs. congruence. }
  destruct (linked_path _ _ L k' (x :: v ++ [a]) w Hk') as (n & Wn).
  { rewrite M'. simpl. rewrite <- app_assoc. reflexivity. }
  destruct (linked_path _ _ L k [a] u Hk M) as (m & Wm). simpl in Wm.
  destruct (estep h 0 a) as [m0|] eqn:Sa; [|discriminate].
  exists n, m0. split; [exact Wn|]. split; [reflexivity|].
  change (x :: v ++ [a]) with ((x :: v) ++ [a]) in Wn. rewrite walk_app in Wn.
  destruct (walk h 0 (x :: v)) as [p|] eqn:Wp; [|discriminate]. simpl in Wn.
  destruct (estep h p a) as [q|] eqn:S; [|discriminate]. injection Wn as <-.
  destruct (lk_eq _ _ L (x :: v) p a q ltac:(discriminate) Wp S) as (f & y & Fp & Fs & Fq).
  rewrite (Root v [] p) in Fp; [|rewrite app_nil_r; reflexivity|exact Wp].
  injection Fp as <-. rewrite Fq. f_equal. cbn [fail_search] in Fs.
  unfold estep in Sa. destruct (nth_error h 0) as [n0|]; [|discriminate]. cbn [of_opt bind] in Fs.
  rewrite Sa in Fs. congruence.
Qed.

(** a text along the trie that meets no end of a key only moves the matcher *)
Lemma find_along h K (L : linked h K) : forall p r n m v,
  walk h n (map idx_of p) = Some m ->
  walk h 0 v = Some n ->
  (forall p1 p2 q, map idx_of p = p1 ++ p2 -> p1 <> [] -> walk h 0 (v ++ p1) = Some q -> is_end h q = false) ->
  find_walk h n (p ++ r) = find_walk h m r.
Proof.
  pose proof (lk_trie _ _ L) as T.
  induction p as [|b p IH]; intros r n m v W Wv NE.
  - injection W as <-. reflexivity.
  - simpl in W. destruct (estep h n (idx_of b)) as [q|] eqn:S; [|discriminate].
    simpl app. rewrite (find_edge _ _ _ T _ _ _ _ S). unfold land.
    pose proof (walk_snoc _ _ _ _ _ Wv S) as Wq.
    rewrite (NE [idx_of b] (map idx_of p) q eq_refl ltac:(discriminate) Wq).
    apply (IH r q m (v ++ [idx_of b]) W Wq). intros p1 p2 t E1 N1 Wt.
    apply (NE (idx_of b :: p1) p2 t); [simpl; rewrite E1; reflexivity|discriminate|].
    rewrite <- app_assoc in Wt. exact Wt.
Qed.
