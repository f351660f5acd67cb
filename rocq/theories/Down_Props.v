(** * Theorems about the end of a worker: C131 *)
From Verif Require Import Base Down_Model.
Open Scope Z_scope.

Lemma mem_In o l : mem o l = true <-> In o l.
Proof.
  unfold mem. rewrite existsb_exists. split.
  - intros (x & H & E). destruct (obj_eq_dec o x); [subst; exact H|discriminate E].
  - intros H. exists o. split; [exact H|]. destruct (obj_eq_dec o o); [reflexivity|contradiction].
Qed.
Lemma mem_false o l : mem o l = false <-> ~ In o l.
Proof. rewrite <- mem_In. destruct (mem o l); split; congruence. Qed.
Lemma In_remove x o l : In x (remove obj_eq_dec o l) <-> In x l /\ x <> o.
Proof. split; [apply in_remove|intros [H1 H2]; apply in_in_remove; assumption]. Qed.

(** ** Specification *)
(** every listener has got its connection *)
Definition ev_up (fuse : list Z) (d : env) : bool :=
  d_blks d && d_slabs d && d_ssl d && d_ev d && forallb (d_lcon d) fuse.
Definition is_conn (o : obj) : Prop := match o with OConn _ => True | _ => False end.
Definition C131_property : Prop := forall fuse server d ws s, NoDup fuse ->
  works (snd (start fuse server d)) ws = Ok s ->
  exists s', worker_end fuse server d ws = Ok s' /\ live s' = [] /\ bad_close s' = [].

(** ** The state a worker is in when it is told to stop *)
Definition parent (o : obj) : option obj :=
  match o with
  | OCtxC | OCtxS => Some OSsl
  | OEpev | OEpfd | OLcon _ => Some OEv
  | OLev i => Some (OLcon i)
  | OAc => Some OSes
  | OMime | OApi => Some OWeb
  | OHash => Some ODns
  | _ => None
  end.
Record inv (fuse : list Z) (s : st) : Prop := {
  i_ptr : forall o, In o (ptr s) -> In o (live s);
  i_live : forall o, In o (live s) -> In o (ptr s) \/ o = OMime \/ is_conn o;
  i_pool : forall o, In o (live s) -> pooled o = true -> In OPool (live s);
  i_par : forall o p, In o (ptr s) -> parent o = Some p -> In p (ptr s);
  i_lev : forall i, In (OLcon i) (ptr s) -> In (OLev i) (ptr s);
  i_fuse : forall i, In (OLcon i) (ptr s) -> In i fuse;
  i_fd : forall i, In (OLfd i) (live s) <-> In i fuse;
  i_nc : forall o, In o (ptr s) -> ~ is_conn o;
  i_bad : bad_close s = [] }.
Definition single (o : obj) : Prop := match o with OLfd _ | OLcon _ | OLev _ | OConn _ => False | _ => True end.

Lemma make_inv fuse o s : inv fuse s -> single o -> (pooled o = true -> In OPool (live s)) ->
  (forall p, parent o = Some p -> In p (ptr s)) -> inv fuse (make o s).
Proof.
  intros I S P Q. constructor; cbn [make live ptr bad_close].
  - intros x [->|H]; [left; reflexivity|right; apply (i_ptr _ _ I); exact H].
  - intros x [->|H]; [left; left; reflexivity|]. destruct (i_live _ _ I x H) as [H1|[H1|H1]]; auto. left. right. exact H1.
  - intros x [->|H] E; right; [auto|exact (i_pool _ _ I x H E)].
  - intros x p [->|H] E; right; [auto|exact (i_par _ _ I x p H E)].
  - intros i [->|H]; [contradiction S|right; exact (i_lev _ _ I i H)].
  - intros i [->|H]; [contradiction S|exact (i_fuse _ _ I i H)].
  - intros i. rewrite <- (i_fd _ _ I). split; [intros [->|H]; [contradiction S|exact H]|intros H; right; exact H].
  - intros x [->|H]; [destruct x; cbn in *; tauto|exact (i_nc _ _ I x H)].
  - apply (i_bad _ _ I).
Qed.
Lemma make2_inv fuse i s : inv fuse s -> In i fuse -> In OPool (live s) -> In OEv (ptr s) ->
  inv fuse (make (OLev i) (make (OLcon i) s)).
Proof.
  intros I F P E. constructor; cbn [make live ptr bad_close].
  - intros x [->|[->|H]]; [left; reflexivity|right; left; reflexivity|right; right; apply (i_ptr _ _ I); exact H].
  - intros x [->|[->|H]]; [left; left; reflexivity|left; right; left; reflexivity|]. destruct (i_live _ _ I x H) as [H1|[H1|H1]]; auto. left. right. right. exact H1.
  - intros x [->|[->|H]] X; right; right; [exact P|exact P|exact (i_pool _ _ I x H X)].
  - intros x p [<-|[<-|H]] X; cbn in X.
    + injection X as <-. right. left. reflexivity.
    + injection X as <-. right. right. exact E.
    + right. right. exact (i_par _ _ I x p H X).
  - intros j [X|[X|H]]; [discriminate X|injection X as ->; left; reflexivity|right; right; exact (i_lev _ _ I j H)].
  - intros j [X|[X|H]]; [discriminate X|injection X as ->; exact F|exact (i_fuse _ _ I j H)].
  - intros j. rewrite <- (i_fd _ _ I). split; [intros [X|[X|H]]; [discriminate X|discriminate X|exact H]|intros H; right; right; exact H].
  - intros x [<-|[<-|H]]; [exact (fun z => z)|exact (fun z => z)|exact (i_nc _ _ I x H)].
  - apply (i_bad _ _ I).
Qed.

(** the listeners: those up to the first failure have their connection *)
Lemma listeners_inv fuse d : forall l s, inv fuse s -> incl l fuse -> In OPool (live s) -> In OEv (ptr s) ->
  let q := listeners d l s in
  inv fuse (snd q) /\ fst q = forallb (d_lcon d) l /\ In OPool (live (snd q)) /\ In OEv (ptr (snd q)) /\
  incl (ptr s) (ptr (snd q)) /\
  (fst q = true -> forall i, In i l -> In (OLcon i) (ptr (snd q))) /\
  (fst q = false -> NoDup l -> (forall i, In i l -> ~ In (OLcon i) (ptr s)) -> exists i, In i l /\ ~ In (OLcon i) (ptr (snd q))).
Proof.
  induction l as [|i l IH]; intros s I C P E q; subst q; cbn [listeners].
  { cbn [fst snd forallb]. split; [exact I|]. split; [reflexivity|]. split; [exact P|]. split; [exact E|].
    split; [apply incl_refl|]. split; [intros _ i []|intros X; discriminate X]. }
  destruct (d_lcon d i) eqn:D.
  2:{ cbn [fst snd forallb]. rewrite D. split; [exact I|]. split; [reflexivity|]. split; [exact P|]. split; [exact E|].
      split; [apply incl_refl|]. split; [intros X; discriminate X|].
      intros _ _ N. exists i. split; [left; reflexivity|apply N; left; reflexivity]. }
  cbn [forallb]. rewrite D. cbn [andb].
  destruct (IH (make (OLev i) (make (OLcon i) s))) as (J1 & J2 & J3 & J4 & J5 & J6 & J7).
  { apply make2_inv; auto. apply C. left. reflexivity. }
  { intros x X. apply C. right. exact X. }
  { right. right. exact P. }
  { right. right. exact E. }
  split; [exact J1|]. split; [exact J2|]. split; [exact J3|]. split; [exact J4|]. split; [|split].
  - intros x X. apply J5. right. right. exact X.
  - intros T j [<-|X]; [apply J5; right; left; reflexivity|apply J6; assumption].
  - intros T N H. inversion N as [|? ? N1 N2]; subst. destruct (J7 T N2) as (j & A & B); [|exists j; split; [right; exact A|exact B]].
    intros j A [B|[B|B]]; [discriminate B|injection B as ->; contradiction|exact (H j (or_intror A) B)].
Qed.

Lemma start0_inv fuse : inv fuse (St (map OLfd fuse) (map OLfd fuse) []).
Proof.
  assert (forall o, In o (map OLfd fuse) -> exists i, o = OLfd i /\ In i fuse) as M.
  { intros o H. apply in_map_iff in H. destruct H as (i & <- & H). eauto. }
  constructor; cbn [live ptr bad_close]; auto.
  - intros o H E. destruct (M o H) as (i & -> & _). discriminate E.
  - intros o p H E. destruct (M o H) as (i & -> & _). discriminate E.
  - intros i H. destruct (M _ H) as (j & E & _). discriminate E.
  - intros i H. destruct (M _ H) as (j & E & _). discriminate E.
  - intros i. split; intros H; [destruct (M _ H) as (j & [= ->] & H'); exact H'|apply in_map; exact H].
  - intros o H. destruct (M o H) as (i & -> & _). exact (fun z => z).
Qed.

Lemma leak_inv fuse s : inv fuse s -> In OPool (live s) -> inv fuse (St (OMime :: live s) (ptr s) (bad_close s)).
Proof.
  intros I P. constructor; cbn [live ptr bad_close].
  - intros o H. right. exact (i_ptr _ _ I o H).
  - intros o [<-|H]; [right; left; reflexivity|exact (i_live _ _ I o H)].
  - intros o [<-|H] E; right; [exact P|exact (i_pool _ _ I o H E)].
  - apply (i_par _ _ I).
  - apply (i_lev _ _ I).
  - apply (i_fuse _ _ I).
  - intros i. rewrite <- (i_fd _ _ I). split; [intros [X|H]; [discriminate X|exact H]|right; assumption].
  - apply (i_nc _ _ I).
  - apply (i_bad _ _ I).
Qed.

Lemma start_inv fuse server d : NoDup fuse -> let s := snd (start fuse server d) in
  inv fuse s /\
  (ev_up fuse d = true -> forall i, In i fuse -> In (OLcon i) (ptr s)) /\
  (ev_up fuse d = false -> fuse <> [] -> exists i, In i fuse /\ ~ In (OLcon i) (ptr s)).
Proof.
  intros N s. subst s. unfold start, ev_up.
  set (s0 := St (map OLfd fuse) (map OLfd fuse) []).
  assert (inv fuse s0) as I0 by apply start0_inv.
  assert (forall i, ~ In (OLcon i) (ptr s0)) as N0.
  { intros i H. cbn in H. apply in_map_iff in H. destruct H as (j & E & _). discriminate E. }
  assert (forall s, (forall i, ~ In (OLcon i) (ptr s)) -> fuse <> [] -> exists i, In i fuse /\ ~ In (OLcon i) (ptr s)) as No.
  { intros s H F. destruct fuse as [|i r]; [contradiction|]. exists i. split; [left; reflexivity|apply H]. }
  destruct (d_blks d); cbn [negb andb]; [|split; [exact I0|split; [discriminate|intros _; apply No; exact N0]]].
  assert (inv fuse (make OPool s0)) as I1 by (apply make_inv; [exact I0|exact Logic.I|discriminate|discriminate]).
  assert (forall o s, (forall i, ~ In (OLcon i) (ptr s)) -> single o -> forall i, ~ In (OLcon i) (ptr (make o s))) as Nm.
  { intros o s H S i [->|X]; [contradiction S|exact (H i X)]. }
  assert (forall i, ~ In (OLcon i) (ptr (make OPool s0))) as N1 by (apply Nm; [exact N0|exact Logic.I]).
  destruct (d_slabs d); cbn [negb andb]; [|split; [exact I1|split; [discriminate|intros _; apply No; exact N1]]].
  destruct (d_ssl d); cbn [negb andb]; [|split; [exact I1|split; [discriminate|intros _; apply No; exact N1]]].
  set (s1 := make OPool s0) in *.
  assert (In OPool (live s1)) as P1 by (left; reflexivity).
  assert (inv fuse (make OSsl s1)) as I2 by (apply make_inv; [exact I1|exact Logic.I|intros _; exact P1|discriminate]).
  set (s2 := if d_heap d then make OHeap (make OSsl s1) else make OSsl s1).
  assert (inv fuse s2 /\ In OPool (live s2) /\ forall i, ~ In (OLcon i) (ptr s2)) as (I3 & P3 & N3).
  { subst s2. destruct (d_heap d); (split; [|split]).
    - apply make_inv; [exact I2|exact Logic.I|discriminate|discriminate].
    - right. right. exact P1.
    - apply Nm; [|exact Logic.I]. apply Nm; [exact N1|exact Logic.I].
    - exact I2.
    - right. exact P1.
    - apply Nm; [exact N1|exact Logic.I]. }
  clearbody s2. destruct (d_ev d); cbn [negb andb]; [|split; [exact I3|split; [discriminate|intros _; apply No; exact N3]]].
  set (s3 := epoll_init d (make OEv s2)).
  assert (inv fuse s3 /\ In OPool (live s3) /\ In OEv (ptr s3) /\ forall i, ~ In (OLcon i) (ptr s3)) as (I4 & P4 & E4 & N4).
  { assert (inv fuse (make OEv s2)) as J by (apply make_inv; [exact I3|exact Logic.I|intros _; exact P3|discriminate]).
    subst s3. unfold epoll_init. destruct (d_epev d); cbn [negb].
    - assert (inv fuse (make OEpev (make OEv s2))) as J2.
      { apply make_inv; [exact J|exact Logic.I|intros _; right; exact P3|intros p [= <-]; left; reflexivity]. }
      destruct (d_epfd d); cbn [negb].
      + split; [|split; [right; right; right; exact P3|split; [right; right; left; reflexivity|do 3 (apply Nm; [|exact Logic.I]); exact N3]]].
        apply make_inv; [exact J2|exact Logic.I|discriminate|intros p [= <-]; right; left; reflexivity].
      + split; [exact J2|]. split; [right; right; exact P3|]. split; [right; left; reflexivity|]. do 2 (apply Nm; [|exact Logic.I]); exact N3.
    - split; [exact J|]. split; [right; exact P3|]. split; [left; reflexivity|]. apply Nm; [exact N3|exact Logic.I]. }
  clearbody s3. pose proof (listeners_inv fuse d fuse s3 I4 (incl_refl _) P4 E4) as L. cbv zeta in L.
  destruct (listeners d fuse s3) as [b s4]. cbn [fst snd] in *. destruct L as (I5 & B & P5 & E5 & _ & Up & Dn).
  rewrite <- B. destruct b; cbn [negb].
  2:{ split; [exact I5|]. split; [discriminate|]. intros _ F. apply Dn; auto. }
  specialize (Up eq_refl). clear Dn.
  assert (forall s, inv fuse s -> incl (ptr s4) (ptr s) -> inv fuse s /\ (true = true -> forall i, In i fuse -> In (OLcon i) (ptr s)) /\
    (true = false -> fuse <> [] -> exists i, In i fuse /\ ~ In (OLcon i) (ptr s))) as Done.
  { intros s J C. split; [exact J|]. split; [intros _ i X; apply C, Up, X|discriminate]. }
  set (p := ses_init server d s4).
  assert (inv fuse (snd p) /\ In OPool (live (snd p)) /\ incl (ptr s4) (ptr (snd p))) as (I6 & P6 & C6).
  { subst p. unfold ses_init. destruct (d_ses d); cbn [negb]; [|split; [exact I5|split; [exact P5|apply incl_refl]]].
    assert (inv fuse (make OSes s4)) as J by (apply make_inv; [exact I5|exact Logic.I|intros _; exact P5|discriminate]).
    destruct server; cbn [negb]; [|split; [exact J|split; [right; exact P5|apply incl_tl, incl_refl]]].
    destruct (d_ac d); cbn [negb]; [|split; [exact J|split; [right; exact P5|apply incl_tl, incl_refl]]].
    split; [|split; [right; right; exact P5|apply incl_tl, incl_tl, incl_refl]].
    apply make_inv; [exact J|exact Logic.I|discriminate|intros q [= <-]; left; reflexivity]. }
  clearbody p. destruct (fst p); cbn [negb]; [|apply Done; assumption].
  set (w := web_init d (snd p)).
  assert (inv fuse (snd w) /\ In OPool (live (snd w)) /\ incl (ptr s4) (ptr (snd w))) as (I7 & P7 & C7).
  { subst w. unfold web_init. destruct (d_web d); cbn [negb]; [|auto].
    destruct (d_mime d); cbn [negb]; [|auto]. destruct (d_api d); cbn [negb].
    2:{ split; [apply leak_inv; assumption|]. split; [right; exact P6|exact C6]. }
    split; [|split; [right; right; right; exact P6|cbn; apply incl_tl, incl_tl, incl_tl, C6]].
    apply make_inv; [apply make_inv; [apply make_inv; [exact I6|exact Logic.I|intros _; exact P6|discriminate]|exact Logic.I|intros _; right; exact P6|intros q [= <-]; left; reflexivity]
      |exact Logic.I|intros _; right; right; exact P6|intros q [= <-]; right; left; reflexivity]. }
  clearbody w. destruct (fst w); cbn [negb]; [|apply Done; assumption].
  destruct (d_dns d); cbn [negb]; [|apply Done; assumption].
  assert (inv fuse (make ODns (snd w))) as I8 by (apply make_inv; [exact I7|exact Logic.I|intros _; exact P7|discriminate]).
  destruct (d_hash d); cbn [negb]; [|apply Done; [exact I8|apply incl_tl, C7]].
  apply Done; [|apply incl_tl, incl_tl, C7].
  apply make_inv; [exact I8|exact Logic.I|intros _; right; exact P7|intros q [= <-]; left; reflexivity].
Qed.

Lemma works_inv fuse : forall ws s s', inv fuse s -> works s ws = Ok s' ->
  inv fuse s' /\ forall i, In (OLcon i) (ptr s') <-> In (OLcon i) (ptr s).
Proof.
  induction ws as [|w ws IH]; intros s s' I H; [injection H as <-; split; [exact I|tauto]|].
  cbn [works] in H. destruct (do_work s w) as [s1| |] eqn:E; cbn [bind] in H; try discriminate H.
  assert (inv fuse s1 /\ forall i, In (OLcon i) (ptr s1) <-> In (OLcon i) (ptr s)) as (I1 & C1).
  { assert (forall o, (let* _ := follow s o in Ok s1) = Ok s1 -> In o (ptr s)) as Fo.
    { intros o X. unfold follow in X. destruct (mem o (ptr s)) eqn:M; [apply mem_In; exact M|discriminate X]. }
    assert (forall o, parent o = Some OSsl -> single o -> pooled o = false -> In OSsl (ptr s) ->
      inv fuse (make o s) /\ forall i, In (OLcon i) (ptr (make o s)) <-> In (OLcon i) (ptr s)) as Ct.
    { intros o P S F X. split.
      - apply make_inv; [exact I|exact S|congruence|intros p Q; congruence].
      - intros i. cbn. split; [intros [Y|Y]; [subst o; contradiction S|exact Y]|tauto]. }
    destruct w as [| | |i|i]; cbn [do_work] in E.
    - unfold follow in E. destruct (mem OHeap (ptr s)); [|discriminate E]. destruct (touch s OHeap); cbn [bind] in E; try discriminate E.
      destruct (mem OEv (ptr s)); [|discriminate E]. destruct (touch s OEv); cbn [bind] in E; try discriminate E.
      injection E as <-. split; [exact I|tauto].
    - unfold follow in E. destruct (mem OSsl (ptr s)) eqn:M; [|discriminate E]. destruct (touch s OSsl); cbn [bind] in E; try discriminate E.
      injection E as <-. destruct (mem OCtxC (ptr s)); [split; [exact I|tauto]|]. apply Ct; auto; [exact Logic.I|apply mem_In; exact M].
    - unfold follow in E. destruct (mem OSsl (ptr s)) eqn:M; [|discriminate E]. destruct (touch s OSsl); cbn [bind] in E; try discriminate E.
      injection E as <-. destruct (mem OCtxS (ptr s)); [split; [exact I|tauto]|]. apply Ct; auto; [exact Logic.I|apply mem_In; exact M].
    - unfold follow in E. destruct (mem OEv (ptr s)) eqn:M; [|discriminate E]. destruct (touch s OEv); cbn [bind] in E; try discriminate E.
      destruct (mem (OConn i) (live s)); injection E as <-; (split; [|tauto]); [exact I|].
      constructor; cbn [live ptr bad_close].
      + intros o X. right. exact (i_ptr _ _ I o X).
      + intros o [<-|X]; [right; right; exact Logic.I|exact (i_live _ _ I o X)].
      + intros o [<-|X] P; [discriminate P|right; exact (i_pool _ _ I o X P)].
      + apply (i_par _ _ I).
      + apply (i_lev _ _ I).
      + apply (i_fuse _ _ I).
      + intros j. rewrite <- (i_fd _ _ I). split; [intros [X|X]; [discriminate X|exact X]|right; assumption].
      + apply (i_nc _ _ I).
      + apply (i_bad _ _ I).
    - destruct (mem (OConn i) (live s)) eqn:M; [|injection E as <-; split; [exact I|tauto]].
      unfold release in E. rewrite M in E. cbn in E. injection E as <-. split; [|tauto].
      assert (~ In (OConn i) (ptr s)) as NP.
      { intros X. exact (i_nc _ _ I _ X Logic.I). }
      constructor; cbn [live ptr bad_close].
      + intros o X. apply In_remove. split; [exact (i_ptr _ _ I o X)|]. intros ->. contradiction.
      + intros o X. apply In_remove in X. apply (i_live _ _ I o). tauto.
      + intros o X P. apply In_remove in X. apply In_remove. split; [apply (i_pool _ _ I o); tauto|discriminate].
      + apply (i_par _ _ I).
      + apply (i_lev _ _ I).
      + apply (i_fuse _ _ I).
      + intros j. rewrite In_remove, (i_fd _ _ I). split; [tauto|intros X; split; [exact X|discriminate]].
      + apply (i_nc _ _ I).
      + apply (i_bad _ _ I). }
  destruct (IH s1 s' I1 H) as (I2 & C2). split; [exact I2|]. intros i. rewrite C2. apply C1.
Qed.

(** ** Releasing *)
Record gone (g : obj -> bool) (s s' : st) : Prop := {
  g_keep : forall x, g x = false -> (In x (live s') <-> In x (live s)) /\ (In x (ptr s') <-> In x (ptr s));
  g_gone : forall x, g x = true -> x <> OMime -> ~ In x (live s');
  g_sub : incl (live s') (live s);
  g_bad : bad_close s' = bad_close s }.
Lemma gone_trans g1 g2 s1 s2 s3 : gone g1 s1 s2 -> gone g2 s2 s3 -> gone (fun x => g1 x || g2 x) s1 s3.
Proof.
  intros A B. constructor.
  - intros x H. apply orb_false_elim in H. destruct H as [H1 H2].
    destruct (g_keep _ _ _ A x H1) as [A1 A2], (g_keep _ _ _ B x H2) as [B1 B2]. split; [rewrite B1; exact A1|rewrite B2; exact A2].
  - intros x H M X. apply orb_true_iff in H. destruct (g2 x) eqn:G2; [exact (g_gone _ _ _ B x G2 M X)|].
    destruct H as [H|H]; [|discriminate H]. apply (g_keep _ _ _ B x G2) in X. exact (g_gone _ _ _ A x H M X).
  - intros x X. apply (g_sub _ _ _ A), (g_sub _ _ _ B), X.
  - rewrite (g_bad _ _ _ B). apply (g_bad _ _ _ A).
Qed.
Definition eqo (o x : obj) : bool := if obj_eq_dec o x then true else false.
Lemma eqo_true o x : eqo o x = true <-> o = x.
Proof. unfold eqo. destruct (obj_eq_dec o x); split; congruence. Qed.
Lemma eqo_false o x : eqo o x = false <-> x <> o.
Proof. unfold eqo. destruct (obj_eq_dec o x); split; congruence. Qed.
Lemma gone_refl s : gone (fun _ => false) s s.
Proof. constructor; [tauto|discriminate|apply incl_refl|reflexivity]. Qed.
Lemma gone_ext g g' s s' : (forall x, g x = g' x) -> gone g s s' -> gone g' s s'.
Proof.
  intros E G. constructor; [intros x H; apply (g_keep _ _ _ G); rewrite E; exact H|intros x H; apply (g_gone _ _ _ G); rewrite E; exact H|apply (g_sub _ _ _ G)|apply (g_bad _ _ _ G)].
Qed.

Lemma release_ok s o : In o (live s) -> (pooled o = true -> In OPool (live s)) ->
  exists s', release s o = Ok s' /\ gone (eqo o) s s' /\ ptr s' = ptr s /\ (forall x, In x (live s') <-> In x (live s) /\ x <> o).
Proof.
  intros H P. unfold release. rewrite (proj2 (mem_In _ _) H). cbn [andb].
  replace (negb (pooled o) || mem OPool (live s)) with true.
  2:{ destruct (pooled o); [|reflexivity]. symmetry. apply mem_In. auto. }
  eexists. split; [reflexivity|]. split; [|split; [reflexivity|intros x; apply In_remove]].
  constructor; cbn [live ptr bad_close].
  - intros x X. apply eqo_false in X. rewrite In_remove. tauto.
  - intros x X _ Y. apply eqo_true in X. apply In_remove in Y. destruct Y as [_ Y]. congruence.
  - intros x X. apply In_remove in X. tauto.
  - reflexivity.
Qed.
(** nothing happens to a NULL pointer *)
Lemma drop_ok s o : (In o (ptr s) -> In o (live s)) -> (o <> OMime -> In o (live s) -> In o (ptr s)) ->
  (pooled o = true -> In o (ptr s) -> In OPool (live s)) ->
  exists s', drop s o = Ok s' /\ gone (eqo o) s s'.
Proof.
  intros E1 E2 P. unfold drop. destruct (mem o (ptr s)) eqn:M.
  - apply mem_In in M. destruct (release_ok s o) as (s' & R & G & Q & L); [tauto|auto|]. rewrite R. cbn [bind].
    eexists. split; [reflexivity|]. constructor; cbn [null live ptr bad_close].
    + intros x X. split; [apply (g_keep _ _ _ G x X)|]. rewrite Q, In_remove. apply eqo_false in X. tauto.
    + apply (g_gone _ _ _ G).
    + apply (g_sub _ _ _ G).
    + apply (g_bad _ _ _ G).
  - apply mem_false in M. exists s. split; [reflexivity|]. constructor; [tauto| |apply incl_refl|reflexivity].
    intros x X Ne Y. apply eqo_true in X. subst x. tauto.
Qed.
Lemma release_if s o : (In o (ptr s) -> In o (live s)) -> (o <> OMime -> In o (live s) -> In o (ptr s)) ->
  (pooled o = true -> In o (ptr s) -> In OPool (live s)) ->
  exists s', (if mem o (ptr s) then release s o else Ok s) = Ok s' /\ gone (eqo o) s s'.
Proof.
  intros E1 E2 P. destruct (mem o (ptr s)) eqn:M.
  - apply mem_In in M. destruct (release_ok s o) as (s' & R & G & _); [tauto|auto|]. eauto.
  - apply mem_false in M. exists s. split; [reflexivity|]. constructor; [tauto| |apply incl_refl|reflexivity].
    intros x X Ne Y. apply eqo_true in X. subst x. tauto.
Qed.

Section Exit.
Context (fuse : list Z) (s : st) (I : inv fuse s).
Lemma sync o : o <> OMime -> ~ is_conn o -> In o (live s) -> In o (ptr s).
Proof. intros M C H. destruct (i_live _ _ I o H) as [X|[X|X]]; [exact X|contradiction|contradiction]. Qed.
Section At.
Context (g : obj -> bool) (sk : st) (G : gone g s sk).
Lemma at_live o : g o = false -> In o (live sk) <-> In o (live s).
Proof. intros H. apply (g_keep _ _ _ G o H). Qed.
Lemma at_ptr o : g o = false -> In o (ptr sk) <-> In o (ptr s).
Proof. intros H. apply (g_keep _ _ _ G o H). Qed.
Lemma at_mem o : g o = false -> mem o (ptr sk) = mem o (ptr s).
Proof.
  intros H. destruct (mem o (ptr s)) eqn:M.
  - apply mem_In. apply at_ptr; [exact H|]. apply mem_In. exact M.
  - apply mem_false. rewrite at_ptr by exact H. apply mem_false. exact M.
Qed.
Lemma at_pool o : g o = false -> g OPool = false -> pooled o = true -> In o (live sk) -> In OPool (live sk).
Proof. intros H P Q X. apply at_live; [exact P|]. apply (i_pool _ _ I o); [apply at_live; assumption|exact Q]. Qed.
Lemma step_drop o : g o = false -> g OPool = false -> ~ is_conn o ->
  exists s', drop sk o = Ok s' /\ gone (fun x => g x || eqo o x) s s'.
Proof.
  intros H P C. destruct (drop_ok sk o) as (s' & E & G').
  - intros X. apply at_live; [exact H|]. apply (i_ptr _ _ I). apply at_ptr; assumption.
  - intros M X. apply at_ptr; [exact H|]. apply sync; [exact M|exact C|]. apply at_live; assumption.
  - intros Q X. apply (at_pool o H P Q). apply at_live; [exact H|]. apply (i_ptr _ _ I). apply at_ptr; assumption.
  - exists s'. split; [exact E|]. exact (gone_trans _ _ _ _ _ G G').
Qed.
Lemma step_release o : g o = false -> g OPool = false -> ~ is_conn o ->
  exists s', (if mem o (ptr sk) then release sk o else Ok sk) = Ok s' /\ gone (fun x => g x || eqo o x) s s'.
Proof.
  intros H P C. destruct (release_if sk o) as (s' & E & G').
  - intros X. apply at_live; [exact H|]. apply (i_ptr _ _ I). apply at_ptr; assumption.
  - intros M X. apply at_ptr; [exact H|]. apply sync; [exact M|exact C|]. apply at_live; assumption.
  - intros Q X. apply (at_pool o H P Q). apply at_live; [exact H|]. apply (i_ptr _ _ I). apply at_ptr; assumption.
  - exists s'. split; [exact E|]. exact (gone_trans _ _ _ _ _ G G').
Qed.
Lemma step_absent o : g o = false -> ~ is_conn o -> o = OMime \/ ~ In o (ptr s) -> gone (fun x => g x || eqo o x) s sk.
Proof.
  intros H C A. constructor; [intros x X; apply orb_false_elim in X; apply (g_keep _ _ _ G); tauto| |apply (g_sub _ _ _ G)|apply (g_bad _ _ _ G)].
  intros x X M Y. destruct (g x) eqn:Gx; [exact (g_gone _ _ _ G x Gx M Y)|]. cbn in X. apply eqo_true in X. subst x.
  destruct A as [A|A]; [contradiction|]. apply A. apply sync; [exact M|exact C|]. apply at_live; assumption.
Qed.
End At.
Lemma child o p : parent o = Some p -> ~ In p (ptr s) -> ~ In o (ptr s).
Proof. intros E N H. exact (N (i_par _ _ I o p H E)). Qed.

Ltac nc := exact (fun z => z).
Lemma ssl_end_ok : exists s', ssl_end s = Ok s' /\ gone (fun x => ((false || eqo OCtxC x) || eqo OCtxS x) || eqo OSsl x) s s'.
Proof.
  unfold ssl_end. destruct (mem OSsl (ptr s)) eqn:M.
  - destruct (step_drop _ s (gone_refl s) OCtxC) as (s1 & -> & G1); [reflexivity|reflexivity|nc|]. cbn [bind].
    destruct (step_drop _ s1 G1 OCtxS) as (s2 & -> & G2); [reflexivity|reflexivity|nc|]. cbn [bind].
    destruct (step_drop _ s2 G2 OSsl) as (s3 & -> & G3); [reflexivity|reflexivity|nc|]. eauto.
  - apply mem_false in M. exists s. split; [reflexivity|].
    apply step_absent; [|reflexivity|nc|right; exact M].
    apply step_absent; [|reflexivity|nc|right; exact (child OCtxS OSsl eq_refl M)].
    apply step_absent; [apply gone_refl|reflexivity|nc|right; exact (child OCtxC OSsl eq_refl M)].
Qed.
Lemma timer_end_ok g sk : gone g s sk -> g OHeap = false -> g OPool = false ->
  exists s', timer_end sk = Ok s' /\ gone (fun x => g x || eqo OHeap x) s s'.
Proof. intros G H P. apply step_release; auto. Qed.

Definition lst (l : list Z) (x : obj) : bool :=
  match x with OLfd i | OLcon i | OLev i => existsb (Z.eqb i) l | _ => false end.
Lemma lsts_ok : forall l g sk, gone g s sk -> NoDup l -> incl l fuse ->
  (forall i, In i l -> g (OLfd i) = false /\ g (OLcon i) = false /\ g (OLev i) = false) -> g OEv = false -> g OPool = false ->
  ((forall i, In i l -> In (OLcon i) (ptr s)) -> exists s', lsts_free sk l = Ok s' /\ gone (fun x => g x || lst l x) s s') /\
  ((exists i, In i l /\ ~ In (OLcon i) (ptr s)) -> lsts_free sk l = Fault FNull).
Proof.
  induction l as [|i l IH]; intros g sk G N C F E P.
  { split; [|intros (i & [] & _)]. intros _. exists sk. split; [reflexivity|]. eapply gone_ext; [|exact G].
    intros x. destruct x; cbn; rewrite orb_false_r; reflexivity. }
  cbn [lsts_free]. inversion N as [|? ? N1 N2]; subst. destruct (F i (or_introl eq_refl)) as (F1 & F2 & F3).
  unfold lst_free, follow. rewrite (at_mem g sk G) by exact F2.
  destruct (mem (OLcon i) (ptr s)) eqn:M.
  2:{ apply mem_false in M. split; [intros A; destruct M; apply A; left; reflexivity|reflexivity]. }
  apply mem_In in M.
  assert (In (OLcon i) (live sk)) as L1 by (apply (at_live g sk G); [exact F2|apply (i_ptr _ _ I); exact M]).
  unfold touch. rewrite (proj2 (mem_In _ _) L1). cbn [bind].
  destruct (release_ok sk (OLfd i)) as (s1 & R1 & G1 & _); [apply (at_live g sk G); [exact F1|]; apply (i_fd _ _ I); apply C; left; reflexivity|discriminate|].
  rewrite R1. cbn [bind]. pose proof (gone_trans _ _ _ _ _ G G1) as H1.
  assert (In OEv (live s1)) as L2.
  { apply (at_live _ _ H1); [cbn; rewrite E; reflexivity|]. apply (i_ptr _ _ I). exact (i_par _ _ I (OLcon i) OEv M eq_refl). }
  rewrite (proj2 (mem_In _ _) L2). cbn [bind].
  assert (forall o, pooled o = true -> In o (live s) -> In OPool (live s)) as PP by (intros o A B; exact (i_pool _ _ I o B A)).
  assert (In (OLev i) (live s)) as LV by (apply (i_ptr _ _ I), (i_lev _ _ I), M).
  destruct (release_ok s1 (OLev i)) as (s2 & R2 & G2 & _).
  { apply (at_live _ _ H1); [rewrite F3; apply eqo_false; discriminate|exact LV]. }
  { intros _. apply (at_live _ _ H1); [rewrite P; reflexivity|]. exact (PP (OLev i) eq_refl LV). }
  rewrite R2. cbn [bind]. pose proof (gone_trans _ _ _ _ _ H1 G2) as H2.
  destruct (release_ok s2 (OLcon i)) as (s3 & R3 & G3 & _).
  { apply (at_live _ _ H2); [cbv beta; rewrite F2; cbn [orb]; apply orb_false_intro; apply eqo_false; discriminate|]. apply (i_ptr _ _ I), M. }
  { intros _. apply (at_live _ _ H2); [cbv beta; rewrite P; reflexivity|]. exact (PP (OLev i) eq_refl LV). }
  rewrite R3. cbn [bind]. pose proof (gone_trans _ _ _ _ _ H2 G3) as H3.
  set (g3 := fun x : obj => ((g x || eqo (OLfd i) x) || eqo (OLev i) x) || eqo (OLcon i) x) in *.
  destruct (IH g3 s3 H3 N2) as (J1 & J2).
  - intros x X. apply C. right. exact X.
  - intros j X. destruct (F j (or_intror X)) as (A1 & A2 & A3). assert (j <> i) as Ne by (intros ->; contradiction).
    unfold g3. rewrite A1, A2, A3. cbn [orb]. repeat split; repeat (apply orb_false_intro); apply eqo_false; congruence.
  - unfold g3. rewrite E. reflexivity.
  - unfold g3. rewrite P. reflexivity.
  - split.
    + intros A. destruct J1 as (s' & K1 & K2); [intros j X; apply A; right; exact X|]. exists s'. split; [exact K1|].
      eapply gone_ext; [|exact K2]. intros x. unfold g3, lst.
      destruct (g x) eqn:Gx; [reflexivity|]. cbn [orb].
      destruct x as [| | | | | | | |j|j|j| | | | | | | |j]; try reflexivity; cbn [existsb]; f_equal; unfold eqo;
        destruct (Z.eqb_spec j i) as [->|Ne];
        repeat (match goal with |- context [obj_eq_dec ?a ?b] => destruct (obj_eq_dec a b) end); cbn [orb]; congruence.
    + intros (j & [<-|X] & B); [contradiction|]. exact (J2 (ex_intro _ j (conj X B))).
Qed.

Definition evg (x : obj) : bool := lst fuse x || eqo OEpfd x || eqo OEpev x || eqo OEv x.
Lemma ev_exit_ok g sk : gone g s sk -> NoDup fuse -> (forall x, evg x = true -> g x = false) -> g OPool = false ->
  ((forall i, In i fuse -> In (OLcon i) (ptr s)) -> exists s', ev_exit fuse sk = Ok s' /\ gone (fun x => g x || evg x) s s') /\
  ((exists i, In i fuse /\ ~ In (OLcon i) (ptr s)) -> ev_exit fuse sk = Fault FNull).
Proof.
  intros G N D P.
  assert (forall i, In i fuse -> existsb (Z.eqb i) fuse = true) as Ex.
  { intros i X. apply existsb_exists. exists i. split; [exact X|apply Z.eqb_refl]. }
  destruct (lsts_ok fuse g sk G N (incl_refl _)) as (A & B); [|apply D; reflexivity|exact P|].
  { intros i X. repeat split; apply D; unfold evg, lst; rewrite (Ex i X); reflexivity. }
  unfold ev_exit. split; [|intros X; rewrite (B X); reflexivity]. intros X. destruct (A X) as (s1 & E1 & G1). clear A B.
  rewrite E1. cbn [bind].
  assert (forall o, g o = false -> lst fuse o = false -> (g o || lst fuse o) = false) as Z2 by (intros o U V; rewrite U, V; reflexivity).
  rewrite (at_mem _ _ G1) by (apply Z2; [apply D; reflexivity|reflexivity]).
  destruct (mem OEv (ptr s)) eqn:M.
  - apply mem_In in M.
    assert (In OEv (live s1)) as L by (apply (at_live _ _ G1); [apply Z2; [apply D; reflexivity|reflexivity]|apply (i_ptr _ _ I), M]).
    unfold touch. rewrite (proj2 (mem_In _ _) L). cbn [bind].
    destruct (step_release _ s1 G1 OEpfd) as (s2 & -> & G2); [apply Z2; [apply D; reflexivity|reflexivity]|rewrite P; reflexivity|nc|]. cbn [bind].
    destruct (step_release _ s2 G2 OEpev) as (s3 & -> & G3); [cbv beta; rewrite (D OEpev eq_refl); reflexivity|rewrite P; reflexivity|nc|]. cbn [bind].
    destruct (step_drop _ s3 G3 OEv) as (s4 & -> & G4); [cbv beta; rewrite (D OEv eq_refl); reflexivity|rewrite P; reflexivity|nc|].
    exists s4. split; [reflexivity|]. eapply gone_ext; [|exact G4]. intros x. unfold evg. rewrite !orb_assoc. reflexivity.
  - apply mem_false in M. exists s1. split; [reflexivity|].
    apply (gone_ext (fun x => ((g x || lst fuse x) || eqo OEpfd x) || eqo OEpev x || eqo OEv x)); [intros x; unfold evg; rewrite !orb_assoc; reflexivity|].
    apply step_absent; [|cbv beta; rewrite (D OEv eq_refl); reflexivity|nc|right; exact M].
    apply step_absent; [|cbv beta; rewrite (D OEpev eq_refl); reflexivity|nc|right; exact (child OEpev OEv eq_refl M)].
    apply step_absent; [exact G1|cbv beta; rewrite (D OEpfd eq_refl); reflexivity|nc|right; exact (child OEpfd OEv eq_refl M)].
Qed.

Lemma ses_exit_ok g sk : gone g s sk -> g OSes = false -> g OAc = false -> g OPool = false ->
  exists s', ses_exit sk = Ok s' /\ gone (fun x => (g x || eqo OAc x) || eqo OSes x) s s'.
Proof.
  intros G A B P. unfold ses_exit. rewrite (at_mem _ _ G) by exact A. destruct (mem OSes (ptr s)) eqn:M.
  - destruct (step_release _ sk G OAc) as (s1 & -> & G1); [exact B|exact P|nc|]. cbn [bind].
    destruct (step_drop _ s1 G1 OSes) as (s2 & -> & G2); [rewrite A; reflexivity|rewrite P; reflexivity|nc|]. eauto.
  - apply mem_false in M. exists sk. split; [reflexivity|].
    apply step_absent; [|rewrite A; reflexivity|nc|right; exact M].
    apply step_absent; [exact G|exact B|nc|right; exact (child OAc OSes eq_refl M)].
Qed.
Lemma web_end_ok g sk : gone g s sk -> g OWeb = false -> g OMime = false -> g OApi = false -> g OPool = false ->
  exists s', web_end sk = Ok s' /\ gone (fun x => ((g x || eqo OMime x) || eqo OApi x) || eqo OWeb x) s s'.
Proof.
  intros G A B C P. unfold web_end. rewrite (at_mem _ _ G) by exact A. destruct (mem OWeb (ptr s)) eqn:M.
  - destruct (step_drop _ sk G OMime) as (s1 & -> & G1); [exact B|exact P|nc|]. cbn [bind].
    destruct (step_drop _ s1 G1 OApi) as (s2 & -> & G2); [rewrite C; reflexivity|rewrite P; reflexivity|nc|]. cbn [bind].
    destruct (step_release _ s2 G2 OWeb) as (s3 & E & G3); [rewrite A; reflexivity|rewrite P; reflexivity|nc|].
    rewrite (at_mem _ _ G2) in E by (rewrite A; reflexivity). rewrite M in E. rewrite E. eauto.
  - apply mem_false in M. exists sk. split; [reflexivity|].
    apply step_absent; [|rewrite A; reflexivity|nc|right; exact M].
    apply step_absent; [|rewrite C; reflexivity|nc|right; exact (child OApi OWeb eq_refl M)].
    apply step_absent; [exact G|exact B|nc|left; reflexivity].
Qed.
Lemma dns_end_ok g sk : gone g s sk -> g ODns = false -> g OHash = false -> g OPool = false ->
  exists s', dns_end sk = Ok s' /\ gone (fun x => (g x || eqo OHash x) || eqo ODns x) s s'.
Proof.
  intros G A B P. unfold dns_end. rewrite (at_mem _ _ G) by exact A. destruct (mem ODns (ptr s)) eqn:M.
  - destruct (step_drop _ sk G OHash) as (s1 & -> & G1); [exact B|exact P|nc|]. cbn [bind].
    destruct (step_drop _ s1 G1 ODns) as (s2 & -> & G2); [rewrite A; reflexivity|rewrite P; reflexivity|nc|]. eauto.
  - apply mem_false in M. exists sk. split; [reflexivity|].
    apply step_absent; [|rewrite A; reflexivity|nc|right; exact M].
    apply step_absent; [exact G|exact B|nc|right; exact (child OHash ODns eq_refl M)].
Qed.

Lemma exit_ok : NoDup fuse ->
  ((forall i, In i fuse -> In (OLcon i) (ptr s)) -> exists s', modules_exit fuse s = Ok s' /\
     bad_close s' = [] /\ (forall i, In i fuse -> ~ In (OLfd i) (live s')) /\ incl (live s') (live s) /\
     (forall o, In o (live s') -> is_conn o) /\ (forall i, In (OConn i) (live s) -> In (OConn i) (live s'))) /\
  ((exists i, In i fuse /\ ~ In (OLcon i) (ptr s)) -> modules_exit fuse s = Fault FNull).
Proof.
  intros N. unfold modules_exit. destruct ssl_end_ok as (s1 & -> & G1). cbn [bind].
  destruct (timer_end_ok _ s1 G1 eq_refl eq_refl) as (s2 & -> & G2). cbn [bind].
  destruct (ev_exit_ok _ s2 G2 N) as (A & B); [intros x; destruct x; try discriminate; reflexivity|reflexivity|].
  split; [|intros X; rewrite (B X); reflexivity]. intros X. destruct (A X) as (s3 & -> & G3). clear A B. cbn [bind].
  destruct (ses_exit_ok _ s3 G3 eq_refl eq_refl eq_refl) as (s4 & -> & G4). cbn [bind].
  destruct (web_end_ok _ s4 G4 eq_refl eq_refl eq_refl eq_refl) as (s5 & -> & G5). cbn [bind].
  destruct (dns_end_ok _ s5 G5 eq_refl eq_refl eq_refl) as (s6 & -> & G6). cbn [bind].
  match type of G6 with gone ?h _ _ => set (g := h) in * end.
  unfold pool_end. rewrite (at_mem _ _ G6) by reflexivity.
  assert (forall o, In o (live s6) -> o = OPool \/ o = OMime \/ is_conn o) as Q.
  { intros o Y. destruct (g o) eqn:Go; [right; left|].
    { destruct (obj_eq_dec o OMime) as [E|E]; [exact E|]. exfalso. exact (g_gone _ _ _ G6 o Go E Y). }
    assert (forall i, In i fuse -> existsb (Z.eqb i) fuse = true) as Ex.
    { intros i Z. apply existsb_exists. exists i. split; [exact Z|apply Z.eqb_refl]. }
    assert (forall i, In i fuse -> g (OLfd i) = true /\ g (OLcon i) = true /\ g (OLev i) = true) as Gt.
    { intros i Z. unfold g, evg, lst. rewrite (Ex i Z). repeat split; reflexivity. }
    apply (at_live _ _ G6) in Y; [|exact Go].
    destruct o as [| | | | | | | |i|i|i| | | | | | | |i]; try discriminate Go; auto; [| | |right; right; exact Logic.I]; exfalso.
    - apply (i_fd _ _ I) in Y. destruct (Gt i Y) as (T & _). congruence.
    - apply sync in Y; [|discriminate|nc]. apply (i_fuse _ _ I) in Y. destruct (Gt i Y) as (_ & T & _). congruence.
    - apply sync in Y; [|discriminate|nc]. pose proof (i_par _ _ I _ _ Y eq_refl) as Y2. apply (i_fuse _ _ I) in Y2. destruct (Gt i Y2) as (_ & _ & T). congruence. }
  assert (forall i, In (OConn i) (live s) -> In (OConn i) (live s6)) as K by (intros i Y; apply (at_live _ _ G6); [reflexivity|exact Y]).
  destruct (mem OPool (ptr s)) eqn:M.
  - apply mem_In in M. destruct (release_ok s6 OPool) as (s7 & -> & G7 & _ & L7); [apply (at_live _ _ G6); [reflexivity|apply (i_ptr _ _ I), M]|discriminate|].
    cbn [bind]. eexists. split; [reflexivity|]. cbn [live bad_close].
    assert (forall o, In o (filter (fun o => negb (pooled o)) (live s7)) -> is_conn o) as C.
    { intros o Y. apply filter_In in Y. destruct Y as [Y1 Y2]. apply L7 in Y1. destruct Y1 as [Y1 Y3].
      destruct (Q o Y1) as [E|[E|E]]; [contradiction|subst o; discriminate Y2|exact E]. }
    split; [|split; [|split; [|split; [exact C|]]]].
    + rewrite (g_bad _ _ _ G7), (g_bad _ _ _ G6). apply (i_bad _ _ I).
    + intros i _ Y. exact (C _ Y).
    + intros o Y. apply filter_In in Y. destruct Y as [Y _]. apply (g_sub _ _ _ G6), (g_sub _ _ _ G7), Y.
    + intros i Y. apply filter_In. split; [|reflexivity]. apply L7. split; [apply K, Y|discriminate].
  - apply mem_false in M. exists s6. split; [reflexivity|].
    assert (~ In OPool (live s)) as NP by (intros Y; apply M, sync; [discriminate|nc|exact Y]).
    assert (forall o, In o (live s6) -> is_conn o) as C.
    { intros o Y. pose proof (g_sub _ _ _ G6 o Y) as Ys. destruct (Q o Y) as [E|[E|E]]; [subst; contradiction| |exact E].
      subst o. exfalso. exact (NP (i_pool _ _ I _ Ys eq_refl)). }
    split; [rewrite (g_bad _ _ _ G6); apply (i_bad _ _ I)|]. split; [intros i _ Y; exact (C _ Y)|].
    split; [apply (g_sub _ _ _ G6)|]. split; [exact C|exact K].
Qed.
End Exit.

(** closing the listeners a second time *)
Lemma listen_end_ok : forall l s, (forall i, In i l -> ~ In (OLfd i) (live s)) ->
  listen_end s l = St (live s) (ptr s) (bad_close s ++ l).
Proof.
  induction l as [|i l IH]; intros s H; [cbn; rewrite app_nil_r; destruct s; reflexivity|].
  cbn [listen_end]. rewrite (proj2 (mem_false _ _) (H i (or_introl eq_refl))). rewrite IH.
  - cbn [live ptr bad_close]. rewrite <- app_assoc. reflexivity.
  - intros j Hj. cbn. apply H. right. exact Hj.
Qed.

(** ** C131 *)
(** If every listener has got its connection, whatever else of the start-up failed, the end of
    the worker uses nothing that is gone, and everything is released: memory, timers, event
    table, listeners, matcher, tables, TLS contexts. What is left are exactly the connections
    open at that moment. *)
Theorem C131_partial : forall fuse server d ws s, NoDup fuse -> fuse = [] \/ ev_up fuse d = true ->
  works (snd (start fuse server d)) ws = Ok s ->
  exists s', worker_end fuse server d ws = Ok s' /\
    forall o, In o (live s') <-> In o (live s) /\ is_conn o.
Proof.
  intros fuse server d ws s N U W. destruct (start_inv fuse server d N) as (I & Up & _). cbv zeta in *.
  destruct (works_inv fuse ws _ _ I W) as (I' & C). destruct (exit_ok fuse s I' N) as (A & _).
  destruct A as (s1 & E & B & F & S & L & K).
  { intros i Hi. apply C. destruct U as [U|U]; [subst fuse; contradiction Hi|exact (Up U i Hi)]. }
  unfold worker_end. rewrite W. cbn [bind]. rewrite E. cbn [bind]. rewrite listen_end_ok by exact F.
  eexists. split; [reflexivity|]. cbn [live]. intros o. split.
  - intros H. split; [exact (S o H)|exact (L o H)].
  - intros [H1 H2]. destruct o; try contradiction H2. apply K. exact H1.
Qed.
Print Assumptions C131_partial.

(** false: if a listener has not got its connection (no memory for the pool, the TLS context,
    the event table or the connection), a worker that is told to stop follows NULL *)
Theorem C131_refuted_crash : forall fuse server d ws s, NoDup fuse -> fuse <> [] -> ev_up fuse d = false ->
  works (snd (start fuse server d)) ws = Ok s -> worker_end fuse server d ws = Fault FNull.
Proof.
  intros fuse server d ws s N Ne U W. destruct (start_inv fuse server d N) as (I & _ & Dn). cbv zeta in *.
  destruct (works_inv fuse ws _ _ I W) as (I' & C). destruct (exit_ok fuse s I' N) as (_ & B).
  unfold worker_end. rewrite W. cbn [bind]. rewrite B; [reflexivity|]. destruct (Dn U Ne) as (i & Hi & X).
  exists i. split; [exact Hi|]. rewrite C. exact X.
Qed.
Print Assumptions C131_refuted_crash.

(** false: connections that are open when the worker is told to stop are neither finished nor
    closed by it (event.c:305: "todo") *)
Theorem C131_refuted_sessions : forall fuse server d ws s i, NoDup fuse -> ev_up fuse d = true ->
  works (snd (start fuse server d)) ws = Ok s -> In (OConn i) (live s) ->
  exists s', worker_end fuse server d ws = Ok s' /\ In (OConn i) (live s').
Proof.
  intros fuse server d ws s i N U W H. destruct (C131_partial fuse server d ws s N (or_intror U) W) as (s' & E & L).
  exists s'. split; [exact E|]. apply L. split; [exact H|exact Logic.I].
Qed.
Print Assumptions C131_refuted_sessions.

(** false: the descriptor of each listener is closed twice, the second time after it has been
    given back to the system *)
Theorem C131_refuted_close_twice : forall fuse server d ws s, NoDup fuse -> ev_up fuse d = true ->
  works (snd (start fuse server d)) ws = Ok s ->
  exists s', worker_end fuse server d ws = Ok s' /\ bad_close s' = fuse.
Proof.
  intros fuse server d ws s N U W. destruct (start_inv fuse server d N) as (I & Up & _). cbv zeta in *.
  destruct (works_inv fuse ws _ _ I W) as (I' & C). destruct (exit_ok fuse s I' N) as (A & _).
  destruct A as (s1 & E & B & F & _); [intros i Hi; apply C; exact (Up U i Hi)|].
  unfold worker_end. rewrite W. cbn [bind]. rewrite E. cbn [bind]. rewrite listen_end_ok by exact F.
  eexists. split; [reflexivity|]. cbn [bad_close]. rewrite B. reflexivity.
Qed.
Print Assumptions C131_refuted_close_twice.

(** *** Examples *)
Definition all_well : env := Env true true true true true true true (fun _ => true) true true true true true true true true.
Definition no_keys : env := Env true true true true true true true (fun _ => true) true true false true true true true true.
Definition no_api : env := Env true true true false true false true (fun _ => true) true true true true true false true true.
Definition no_conn : env := Env true true true true true true true (fun i => i <? 2) true true true true true true true true.
Example ex_C131_partial : NoDup [0; 1; 2] /\
  (forall d, In d [all_well; no_keys; no_api] -> ev_up [0; 1; 2] d = true) /\
  (exists s, works (snd (start [0; 1; 2] true all_well)) [Round; TlsS; Open 9; Round; Open 7; Close 9] = Ok s /\
     exists s', worker_end [0; 1; 2] true all_well [Round; TlsS; Open 9; Round; Open 7; Close 9] = Ok s' /\ live s' = [OConn 7]) /\
  (exists s', worker_end [0; 1; 2] true no_keys [Round; Round] = Ok s' /\ live s' = []) /\
  (exists s', worker_end [0; 1; 2] true no_api [] = Ok s' /\ live s' = []).
Proof.
  split; [repeat constructor; cbn; intuition discriminate|]. split; [intros d [<-|[<-|[<-|[]]]]; reflexivity|].
  split; [eexists; split; [vm_compute; reflexivity|]; eexists; split; vm_compute; reflexivity|].
  split; eexists; split; vm_compute; reflexivity.
Qed.
Example ex_C131_crash : NoDup [0; 1; 2; 3] /\ ev_up [0; 1; 2; 3] no_conn = false /\
  worker_end [0; 1; 2; 3] true no_conn [] = Fault FNull /\ fst (start [0; 1; 2; 3] true no_conn) = -1 /\
  exists s, works (snd (start [0; 1; 2; 3] true no_conn)) [Round] = Ok s.
Proof.
  split; [repeat constructor; cbn; intuition discriminate|]. split; [reflexivity|]. split; [vm_compute; reflexivity|].
  split; [vm_compute; reflexivity|]. eexists. vm_compute. reflexivity.
Qed.
Theorem C131_property_refuted : ~ C131_property.
Proof.
  intros P. destruct ex_C131_crash as (N & _ & E & _ & _).
  destruct (P [0; 1; 2; 3] true no_conn [] _ N eq_refl) as (s' & X & _). rewrite E in X. discriminate X.
Qed.
Print Assumptions C131_property_refuted.
