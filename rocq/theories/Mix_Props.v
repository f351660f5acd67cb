(** * Property C144: sessions and lookups of other sessions. *)
From Coq Require Import Lia.
From Verif Require Import Base Mix_Model Mix_Spec.
Open Scope Z_scope.

Record inv (h : list ev) (m : mem) : Prop := Inv {
  iA : forall w b, m_home m w = Some b -> exists s, m_blk m b = BSes s /\ s_who s = w;
  iA' : forall b s, m_blk m b = BSes s -> m_home m (s_who s) = Some b;
  iB : forall w q p, waits_for w h = Some (q, p) ->
       exists b s, m_home m w = Some b /\ m_blk m b = BSes s /\ s_ph s = PWait /\ s_dns s = Some q /\ s_port s = p /\ m_qry m q = Some b;
  iC : forall q b, m_qry m q = Some b -> exists s, m_blk m b = BSes s /\ s_ph s = PWait /\ s_dns s = Some q;
  iD : forall b s, m_blk m b = BSes s -> s_ph s = PWait ->
       exists q, s_dns s = Some q /\ m_qry m q = Some b /\ waits_for (s_who s) h = Some (q, s_port s) }.

Lemma upd_eq {A} (f : Z -> A) p v q : upd f p v q = if q =? p then v else f q. Proof. reflexivity. Qed.
Lemma waits_app w h e : waits_for w (h ++ [e]) = asks w (waits_for w h) e.
Proof. unfold waits_for. rewrite fold_left_app. reflexivity. Qed.

Lemma inv0 : inv [] mem0.
Proof. split; cbn; intros; discriminate. Qed.

Ltac eqb := repeat match goal with
  | H : context[?a =? ?b] |- _ => destruct (Z.eqb_spec a b); subst
  | |- context[?a =? ?b] => destruct (Z.eqb_spec a b); subst
  end.

(** an event that changes no wait *)
Lemma inv_same h m e m' : inv h m -> (forall w, asks w (waits_for w h) e = waits_for w h) ->
  inv h m' -> inv (h ++ [e]) m'.
Proof.
  intros _ Hw [a a' b c d]. split; auto.
  - intros w q p. rewrite waits_app, Hw. apply b.
  - intros b0 s H1 H2. destruct (d b0 s H1 H2) as (q & ? & ? & ?). exists q. rewrite waits_app, Hw. auto.
Qed.

(** taking the session of [b], client [w], away; its lookup must be over *)
Lemma inv_drop h m w b s : inv h m -> m_blk m b = BSes s -> s_who s = w -> s_ph s <> PWait ->
  inv h (drop m w b).
Proof.
  intros H Eb Ew Hp. pose proof (iA' h m H b s Eb) as Hh. rewrite Ew in Hh.
  split; cbn [m_blk m_home m_qry drop].
  - intros w0 b0. rewrite !upd_eq. destruct (Z.eqb_spec w0 w); [discriminate|]. intros E.
    destruct (iA h m H w0 b0 E) as (s0 & E1 & E2).
    destruct (Z.eqb_spec b0 b); [|eauto]. subst. congruence.
  - intros b0 s0. rewrite !upd_eq. destruct (Z.eqb_spec b0 b); [discriminate|]. intros E.
    pose proof (iA' h m H b0 s0 E). destruct (Z.eqb_spec (s_who s0) w); [congruence|auto].
  - intros w0 q p E. destruct (iB h m H w0 q p E) as (b0 & s0 & E1 & E2 & E3 & E4 & E5 & E6).
    exists b0, s0. rewrite !upd_eq.
    destruct (Z.eqb_spec w0 w); [subst w0; congruence|].
    destruct (Z.eqb_spec b0 b); [subst b0; congruence|]. auto 10.
  - intros q b0 E. destruct (iC h m H q b0 E) as (s0 & E1 & E2 & E3). exists s0. rewrite !upd_eq.
    destruct (Z.eqb_spec b0 b); [subst b0; congruence|]. auto.
  - intros b0 s0. rewrite !upd_eq. destruct (Z.eqb_spec b0 b); [discriminate|]. intros E1 E2.
    exact (iD h m H b0 s0 E1 E2).
Qed.

(** ending the lookup [q] of the session in [b], which goes on as a session that waits for none *)
Lemma inv_done h m e q b s ph : inv h m -> m_qry m q = Some b -> m_blk m b = BSes s -> ph <> PWait ->
  (forall w c, asks w c e = match c with Some (x, _) => if q =? x then None else c | None => c end) ->
  inv (h ++ [e]) (Mem (upd (m_blk m) b (BSes (Ses (s_who s) (s_dns s) (s_port s) ph))) (m_home m) (upd (m_qry m) q None)).
Proof.
  intros H Eq Eb Hp Ha. destruct (iC h m H q b Eq) as (s1 & E1 & E2 & E3).
  assert (s1 = s) by congruence. subst s1.
  pose proof (iA' h m H b s Eb) as Hh.
  split; cbn [m_blk m_home m_qry].
  - intros w0 b0 E. rewrite upd_eq. destruct (iA h m H w0 b0 E) as (s0 & ? & ?).
    destruct (Z.eqb_spec b0 b); [|eauto]. subst b0.
    eexists; split; [reflexivity|]. cbn. congruence.
  - intros b0 s0. rewrite upd_eq. destruct (Z.eqb_spec b0 b).
    + intros X. injection X as <-. cbn. congruence.
    + apply (iA' h m H).
  - intros w0 q0 p. rewrite waits_app, Ha. intros E.
    destruct (waits_for w0 h) as [[x y]|] eqn:Ew; [|discriminate].
    destruct (Z.eqb_spec q x); [discriminate|]. injection E as -> ->.
    destruct (iB h m H w0 q0 p Ew) as (b0 & s0 & F1 & F2 & F3 & F4 & F5 & F6).
    exists b0, s0. rewrite !upd_eq.
    destruct (Z.eqb_spec b0 b); [subst b0; congruence|].
    destruct (Z.eqb_spec q0 q); [congruence|]. auto 10.
  - intros q0 b0. rewrite upd_eq. destruct (Z.eqb_spec q0 q); [discriminate|]. intros E.
    destruct (iC h m H q0 b0 E) as (s0 & F1 & F2 & F3). exists s0. rewrite upd_eq.
    destruct (Z.eqb_spec b0 b); [subst b0; congruence|]. auto.
  - intros b0 s0. rewrite upd_eq. destruct (Z.eqb_spec b0 b).
    + intros X. injection X as <-. cbn. congruence.
    + intros F1 F2. destruct (iD h m H b0 s0 F1 F2) as (q0 & G1 & G2 & G3). exists q0.
      rewrite upd_eq, waits_app, Ha, G3.
      destruct (Z.eqb_spec q0 q); [subst; congruence|].
      destruct (Z.eqb_spec q q0); [congruence|]. auto.
Qed.

(** one event *)
Lemma step_fair h m e : inv h m -> (forall w, e = Gone w -> waits_for w h = None) ->
  match step m e with
  | Ok None => True
  | Ok (Some p) => fair h e (fst p) /\ inv (h ++ [e]) (snd p)
  | _ => False
  end.
Proof.
  intros H Hg. destruct e as [w b | w port addr | w q port | q addr | q | w]; cbn [step].
  - destruct (m_blk m b) eqn:Eb; [|exact Logic.I]. destruct (m_home m w) eqn:Eh; [exact Logic.I|].
    cbn [fst snd]. split; [constructor|].
    apply (inv_same h m); [exact H| |].
    + intros w0. cbn [asks]. destruct (Z.eqb_spec w w0); [|reflexivity]. subst w0.
      destruct (waits_for w h) as [[x y]|] eqn:Ew; [|reflexivity].
      destruct (iB h m H w x y Ew) as (? & ? & ? & _). congruence.
    + split; cbn [m_blk m_home m_qry].
      * intros w0 b0. rewrite !upd_eq. destruct (Z.eqb_spec w0 w).
        -- intros X. injection X as <-. rewrite Z.eqb_refl. eexists; split; [reflexivity|]. cbn. auto.
        -- intros E. destruct (iA h m H w0 b0 E) as (s0 & ? & ?).
           destruct (Z.eqb_spec b0 b); [subst; congruence|]. eauto.
      * intros b0 s0. rewrite !upd_eq. destruct (Z.eqb_spec b0 b).
        -- intros X. injection X as <-. cbn. rewrite Z.eqb_refl. congruence.
        -- intros E. pose proof (iA' h m H b0 s0 E). destruct (Z.eqb_spec (s_who s0) w); congruence.
      * intros w0 q p E. destruct (iB h m H w0 q p E) as (b0 & s0 & F1 & F2 & F).
        exists b0, s0. rewrite !upd_eq. destruct (Z.eqb_spec w0 w); [subst; congruence|].
        destruct (Z.eqb_spec b0 b); [subst; congruence|]. auto.
      * intros q b0 E. destruct (iC h m H q b0 E) as (s0 & F1 & F). exists s0. rewrite upd_eq.
        destruct (Z.eqb_spec b0 b); [subst; congruence|]. auto.
      * intros b0 s0. rewrite upd_eq. destruct (Z.eqb_spec b0 b).
        -- intros X. injection X as <-. cbn. discriminate.
        -- apply (iD h m H).
  - destruct (m_home m w) as [b|] eqn:Eh; [|exact Logic.I].
    destruct (iA h m H w b Eh) as (s & Eb & Ew). unfold look. rewrite Eb. cbn [bind].
    destruct (s_ph s) eqn:Ep; try exact Logic.I. cbn [fst snd]. rewrite Ew. split; [constructor|].
    apply (inv_same h m); [exact H|reflexivity|].
    split; cbn [m_blk m_home m_qry].
    + intros w0 b0 E. rewrite upd_eq. destruct (iA h m H w0 b0 E) as (s0 & ? & ?).
      destruct (Z.eqb_spec b0 b); [|eauto]. subst b0. eexists; split; [reflexivity|]. cbn. congruence.
    + intros b0 s0. rewrite upd_eq. destruct (Z.eqb_spec b0 b).
      * intros X. injection X as <-. cbn. congruence.
      * apply (iA' h m H).
    + intros w0 q p E. destruct (iB h m H w0 q p E) as (b0 & s0 & F1 & F2 & F3 & F).
      exists b0, s0. rewrite !upd_eq. destruct (Z.eqb_spec b0 b); [subst; congruence|]. auto.
    + intros q b0 E. destruct (iC h m H q b0 E) as (s0 & F1 & F2 & F). exists s0. rewrite upd_eq.
      destruct (Z.eqb_spec b0 b); [subst; congruence|]. auto.
    + intros b0 s0. rewrite upd_eq. destruct (Z.eqb_spec b0 b).
      * intros X. injection X as <-. cbn. discriminate.
      * apply (iD h m H).
  - destruct (m_home m w) as [b|] eqn:Eh; [|exact Logic.I].
    destruct (m_qry m q) eqn:Eq; [exact Logic.I|].
    destruct (iA h m H w b Eh) as (s & Eb & Ew). unfold look. rewrite Eb. cbn [bind].
    destruct (s_ph s) eqn:Ep; try exact Logic.I. cbn [fst snd]. rewrite Ew. split; [constructor|].
    split; cbn [m_blk m_home m_qry].
    + intros w0 b0 E. rewrite upd_eq. destruct (iA h m H w0 b0 E) as (s0 & ? & ?).
      destruct (Z.eqb_spec b0 b); [|eauto]. subst b0. eexists; split; [reflexivity|]. cbn. congruence.
    + intros b0 s0. rewrite upd_eq. destruct (Z.eqb_spec b0 b).
      * intros X. injection X as <-. cbn. congruence.
      * apply (iA' h m H).
    + intros w0 q0 p. rewrite waits_app. cbn [asks]. destruct (Z.eqb_spec w w0).
      * intros X. injection X as <- <-. subst w0. exists b. eexists. rewrite !upd_eq, !Z.eqb_refl.
        split; [exact Eh|]. split; [reflexivity|]. cbn. auto.
      * intros E. destruct (iB h m H w0 q0 p E) as (b0 & s0 & F1 & F2 & F3 & F4 & F5 & F6).
        exists b0, s0. rewrite !upd_eq. destruct (Z.eqb_spec b0 b); [subst; congruence|].
        destruct (Z.eqb_spec q0 q); [subst; congruence|]. auto 10.
    + intros q0 b0. rewrite upd_eq. destruct (Z.eqb_spec q0 q).
      * intros X. injection X as <-. eexists. rewrite upd_eq, Z.eqb_refl. split; [reflexivity|]. cbn. subst. auto.
      * intros E. destruct (iC h m H q0 b0 E) as (s0 & F1 & F2 & F). exists s0. rewrite upd_eq.
        destruct (Z.eqb_spec b0 b); [subst; congruence|]. auto.
    + intros b0 s0. rewrite upd_eq, waits_app. cbn [asks]. destruct (Z.eqb_spec b0 b).
      * intros X. injection X as <-. cbn. intros _. exists q. rewrite upd_eq, !Z.eqb_refl. subst. auto.
      * intros F1 F2. destruct (iD h m H b0 s0 F1 F2) as (q0 & G1 & G2 & G3). exists q0. rewrite upd_eq.
        destruct (Z.eqb_spec q0 q); [subst; congruence|].
        destruct (Z.eqb_spec w (s_who s0)) as [X|X]; [|auto].
        pose proof (iA' h m H b0 s0 F1). congruence.
  - destruct (m_qry m q) as [b|] eqn:Eq; [|exact Logic.I].
    destruct (iC h m H q b Eq) as (s & Eb & Ep & Ed). unfold look, qfree. rewrite Eb. cbn [bind].
    rewrite Ed, Eq. cbn [bind fst snd m_blk m_home m_qry].
    destruct (iD h m H b s Eb Ep) as (q0 & F1 & F2 & F3).
    assert (q0 = q) by congruence. subst q0. split; [constructor; exact F3|].
    rewrite <- Ed. apply (inv_done h m _ q b s PDial H Eq Eb); [discriminate|reflexivity].
  - destruct (m_qry m q) as [b|] eqn:Eq; [|exact Logic.I].
    destruct (iC h m H q b Eq) as (s & Eb & Ep & Ed). unfold look, qfree. rewrite Eb. cbn [bind].
    rewrite Ed, Eq. cbn [bind fst snd m_blk m_home m_qry].
    destruct (iD h m H b s Eb Ep) as (q0 & F1 & F2 & F3).
    assert (q0 = q) by congruence. subst q0. split; [econstructor; exact F3|].
    pose proof (inv_done h m (Fail q) q b s PDial H Eq Eb ltac:(discriminate) ltac:(reflexivity)) as X.
    assert (Y := inv_drop _ _ (s_who s) b (Ses (s_who s) (s_dns s) (s_port s) PDial) X). cbn [m_blk s_who s_ph] in Y.
    rewrite upd_eq, Z.eqb_refl in Y. specialize (Y eq_refl eq_refl ltac:(discriminate)).
    (* the block is freed either way *)
    revert Y. unfold drop. cbn [m_blk m_home m_qry]. intros Y. destruct Y as [a a' b1 c d].
    split; cbn [m_blk m_home m_qry] in *.
    + intros w0 b0 E. destruct (a w0 b0 E) as (s0 & G1 & G2). exists s0. rewrite !upd_eq in *.
      destruct (b0 =? b); [discriminate|auto].
    + intros b0 s0 G. apply a'. rewrite !upd_eq in *. destruct (b0 =? b); auto.
    + intros w0 q0 p E. destruct (b1 w0 q0 p E) as (b0 & s0 & G1 & G2 & G). exists b0, s0. rewrite !upd_eq in *.
      destruct (b0 =? b); [discriminate|auto].
    + intros q0 b0 E. destruct (c q0 b0 E) as (s0 & G1 & G). exists s0. rewrite !upd_eq in *.
      destruct (b0 =? b); [discriminate|auto].
    + intros b0 s0 G. apply d. rewrite !upd_eq in *. destruct (b0 =? b); auto.
  - destruct (m_home m w) as [b|] eqn:Eh; [|exact Logic.I].
    destruct (iA h m H w b Eh) as (s & Eb & Ew). unfold look. rewrite Eb. cbn [bind fst snd].
    rewrite Ew. split; [constructor|].
    apply (inv_same h m); [exact H|reflexivity|].
    apply (inv_drop h m w b s H Eb Ew). intros Ep.
    destruct (iD h m H b s Eb Ep) as (q & _ & _ & F). rewrite Ew in F. rewrite (Hg w eq_refl) in F. discriminate.
Qed.

Lemma run_fair h : forall before m, inv before m ->
  (forall h1 w h2, h = h1 ++ Gone w :: h2 -> waits_for w (before ++ h1) = None) ->
  match run m h with
  | Ok None => True
  | Ok (Some p) => all_fair before h (fst p)
  | _ => False
  end.
Proof.
  induction h as [|e r IH]; intros before m H Hp; [reflexivity|]. cbn [run].
  pose proof (step_fair before m e H) as X.
  assert (Y : forall w, e = Gone w -> waits_for w before = None).
  { intros w ->. specialize (Hp [] w r eq_refl). rewrite app_nil_r in Hp. exact Hp. }
  specialize (X Y). destruct (step m e) as [[[o m1]|]| |]; try contradiction; [|exact Logic.I].
  cbn [bind fst snd] in *. destruct X as [F H1].
  specialize (IH (before ++ [e]) m1 H1).
  assert (Q : forall h1 w h2, r = h1 ++ Gone w :: h2 -> waits_for w ((before ++ [e]) ++ h1) = None).
  { intros h1 w h2 ->. rewrite <- app_assoc. apply (Hp (e :: h1) w h2). reflexivity. }
  specialize (IH Q). destruct (run m1 r) as [[[o2 m2]|]| |]; cbn [bind fst snd] in *; try contradiction; auto.
  cbn [all_fair]. exists o, o2. auto.
Qed.

(** ** C144. For every order of events - clients coming, asking for addresses and names, answers
    and failures of lookups, clients leaving - in which no client leaves while its lookup is
    running: nothing invalid is touched, and every connection is opened for the client that the
    address was asked for, at the port it asked for. *)
Theorem C144_partial (h : list ev) : patient h ->
  match run mem0 h with
  | Ok None => True
  | Ok (Some p) => all_fair [] h (fst p)
  | _ => False
  end.
Proof.
  intros Hp. apply run_fair; [apply inv0|]. intros h1 w h2 E. apply (Hp h1 w h2 E).
Qed.
Print Assumptions C144_partial.

(** A client leaves while its lookup is running, and the next client gets its block of memory:
    the answer to the first one's question becomes the second one's target - at the second
    one's port - whatever both asked for; the second one's own lookup is thrown away. *)
Theorem C144_refuted (w1 w2 b q1 q2 p1 p2 : Z) (addr : list Z) : w1 <> w2 -> q1 <> q2 ->
  exists m, run mem0 [New w1 b; Ask w1 q1 p1; Gone w1; New w2 b; Ask w2 q2 p2; Answer q1 addr]
            = Ok (Some ([End w1; Dial w2 addr p2], m)) /\ m_qry m q2 = None /\
    ~ (exists o1 o2, [End w1; Dial w2 addr p2] = o1 ++ o2 /\
         fair [New w1 b; Ask w1 q1 p1; Gone w1; New w2 b; Ask w2 q2 p2] (Answer q1 addr) o2).
Proof.
  intros Hw Hq. eexists. split; [|split].
  - cbn. unfold look, qfree. repeat (cbn; rewrite ?upd_eq, ?Z.eqb_refl).
    repeat match goal with
      | |- context[?a =? ?b] => destruct (Z.eqb_spec a b); [congruence|]; repeat (cbn; rewrite ?upd_eq, ?Z.eqb_refl)
      end.
    reflexivity.
  - cbn [m_qry]. rewrite upd_eq, Z.eqb_refl. reflexivity.
  - intros (o1 & o2 & E & F). inversion F as [| | |w q a p Hf| |]; subst.
    assert (w = w2).
    { destruct o1 as [|x [|y [|z t]]]; cbn in E; try discriminate; injection E as; congruence. }
    subst w. revert Hf. unfold waits_for. cbn.
    rewrite Z.eqb_refl. destruct (Z.eqb_spec w1 w2); [congruence|]. cbn. congruence.
Qed.
Print Assumptions C144_refuted.

(** The same with a lookup that fails or gets no answer: the second client's session is ended. *)
Theorem C144_refuted_end (w1 w2 b q1 q2 p1 p2 : Z) : w1 <> w2 -> q1 <> q2 ->
  exists m, run mem0 [New w1 b; Ask w1 q1 p1; Gone w1; New w2 b; Ask w2 q2 p2; Fail q1]
            = Ok (Some ([End w1; End w2], m)).
Proof.
  intros Hw Hq. eexists.
  cbn. unfold look, qfree. repeat (cbn; rewrite ?upd_eq, ?Z.eqb_refl).
  repeat match goal with
    | |- context[?a =? ?b] => destruct (Z.eqb_spec a b); [congruence|]; repeat (cbn; rewrite ?upd_eq, ?Z.eqb_refl)
    end.
  reflexivity.
Qed.
Print Assumptions C144_refuted_end.

(** Without a next client, the answer is handled in memory that is free; with one that has not
    asked yet, a null pointer is followed. *)
Theorem C144_refuted_memory (w1 w2 b q1 p1 : Z) (addr : list Z) : w1 <> w2 ->
  run mem0 [New w1 b; Ask w1 q1 p1; Gone w1; Answer q1 addr] = Fault FUaf /\
  run mem0 [New w1 b; Ask w1 q1 p1; Gone w1; New w2 b; Answer q1 addr] = Fault FNull.
Proof.
  intros Hw. split; cbn; unfold look, qfree; repeat (cbn; rewrite ?upd_eq, ?Z.eqb_refl);
  repeat match goal with
    | |- context[?a =? ?b] => destruct (Z.eqb_spec a b); [congruence|]; repeat (cbn; rewrite ?upd_eq, ?Z.eqb_refl)
    end; reflexivity.
Qed.
Print Assumptions C144_refuted_memory.

(** two clients with lookups that cross, one with an address *)
Definition crossed : list ev :=
  [New 1 10; New 2 11; Ask 1 100 443; New 3 12; Ask 2 101 80; Ip 3 22 [10;0;0;1]; Answer 101 [9;9;9;9]; Gone 2;
   Answer 100 [8;8;8;8]; New 4 11; Ask 4 101 25; Fail 101; Gone 1].
Example ex_C144 : patient crossed /\
  (exists m, run mem0 crossed = Ok (Some ([Dial 3 [10;0;0;1] 22; Dial 2 [9;9;9;9] 80; End 2; Dial 1 [8;8;8;8] 443; End 4; End 1], m))).
Proof.
  split; [|eexists; vm_compute; reflexivity].
  intros h1 w h2 E.
  unfold crossed in E.
  repeat (destruct h1 as [|? h1]; cbn in E; [discriminate || (injection E as <- _; vm_compute; reflexivity)|injection E as <- E]).
  destruct h1; discriminate.
Qed.
