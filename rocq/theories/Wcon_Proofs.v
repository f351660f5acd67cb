(** * Proofs about a connection of the web server *)
From Verif Require Import Base Ssl_Model Wcon_Model Wcon_Spec.
From Coq Require Import Lia.
Open Scope Z_scope.
Local Arguments Z.add : simpl never.
Local Arguments Z.sub : simpl never.
Local Arguments Z.leb : simpl never.
Local Arguments Z.ltb : simpl never.
Local Arguments Z.eqb : simpl never.
Local Arguments Z.min : simpl never.
Local Arguments zlen : simpl never.
Local Arguments ztake : simpl never.
Local Arguments zdrop : simpl never.

Definition body_of (r : rsp) : list Z := match r_body r with BNo => [] | BFile f => f | BApi p => p end.
Definition dat (s : wst) (q : wpc) : Prop :=
  match q with
  | WHdr => s_pend s <> [] /\ s_wire s ++ s_pend s ++ body_of (s_rsp s) = s_want s
  | WApi => s_pend s <> [] /\ s_wire s ++ s_pend s = s_want s
  | WSnd => s_pend s <> [] /\ s_wire s ++ s_pend s ++ s_rest s = s_want s /\
            s_fsend s + zlen (s_pend s) + zlen (s_rest s) = s_fsize s
  | WGet => (s_tls s = true -> s_pend s = [] /\ s_off s = 0) /\ s_wire s ++ s_pend s ++ s_rest s = s_want s /\
            s_fsend s + zlen (s_pend s) + zlen (s_rest s) = s_fsize s /\ s_fsend s < s_fsize s
  | _ => s_wire s = s_want s
  end.
Definition sender (q : wpc) : cbk := match q with WHdr => CHdr | WApi => CApi | WSnd | WGet => CFile | _ => Nul end.
Definition sending (q : wpc) : Prop := q = WHdr \/ q = WApi \/ q = WSnd.

Lemma zlen_cons (x : Z) l : zlen (x :: l) = 1 + zlen l.
Proof. unfold zlen. cbn [length]. lia. Qed.
Lemma nonempty (l : list Z) : l <> [] -> 1 <= zlen l.
Proof. destruct l as [|x l]; intros N; [contradiction|]. rewrite zlen_cons. pose proof (zlen_nonneg l). lia. Qed.

Lemma run_app l : forall s m s1, run s l = Ok (Some s1) -> run s (l ++ m) = run s1 m.
Proof.
  induction l as [|a l IH]; cbn [run app]; intros s m s1 R.
  - injection R as <-. reflexivity.
  - destruct (step s a) as [[s2|]| |]; cbn [bind] in *; try discriminate. apply IH, R.
Qed.
Lemma run_inv l m s s1 : run s (l ++ m) = Ok (Some s1) -> exists s0, run s l = Ok (Some s0) /\ run s0 m = Ok (Some s1).
Proof.
  revert s; induction l as [|a l IH]; cbn [run app]; intros s R; [eauto|].
  destruct (step s a) as [[s2|]| |]; cbn [bind] in *; try discriminate. apply IH, R.
Qed.
Lemma asked_app l m : asked (l ++ m) = asked l ++ asked m.
Proof.
  induction l as [|a l IH]; [reflexivity|]. cbn [app asked].
  destruct a; try exact IH. destruct x; try exact IH. rewrite IH, app_assoc. reflexivity.
Qed.

(** ** A TLS connection *)
Definition c0 : con := Con CAccept Nul IR INo Nul Nul.
Definition c1 : con := Con KHandshake Nul IR IR CAccept Nul.
Definition tidle (s : wst) : Prop :=
  (s_hs s = false /\ (s_con s = c0 \/ s_con s = c1) /\ s_wire s = s_want s)
  \/ (s_hs s = true /\ rcb (s_con s) = CProc /\ (opt (s_con s) = IR \/ opt (s_con s) = IW /\ wcb (s_con s) = KRead) /\
      s_wire s = s_want s)
  \/ (s_hs s = true /\ exists q, sending q /\ wcb (s_con s) = sender q /\
      (opt (s_con s) = IW \/ opt (s_con s) = IR /\ rcb (s_con s) = KWrite) /\ dat s q)
  \/ (s_hs s = true /\ s_wire s = s_want s /\
      (rcb (s_con s) = CShut /\ opt (s_con s) = IR \/ wcb (s_con s) = CShut /\ opt (s_con s) = IW)).
Definition tinv (s : wst) : Prop :=
  s_tls s = true /\
  match s_pc s with
  | WIdle => tidle s
  | WHs cb => s_hs s = false /\ s_con s = (if cb then c1 else c0) /\ s_wire s = s_want s
  | WRd => s_hs s = true /\ rcb (s_con s) = CProc /\ s_wire s = s_want s
  | WTry => False
  | WHdr | WApi | WSnd | WGet => s_hs s = true /\ wcb (s_con s) = sender (s_pc s) /\ dat s (s_pc s)
  | WShut => s_hs s = true /\ s_wire s = s_want s
  | WDead => s_wire s = s_want s
  end.

Lemma write_done_wcb c : wcb (write Done c) = wcb c.
Proof. destruct c as [? ? ? [] []]; reflexivity. Qed.
Lemma write_w_wcb c : wcb (write WantW c) = wcb c /\ opt (write WantW c) = IW.
Proof. destruct c as [[] [] ? [] [] []]; cbn; split; reflexivity. Qed.
Lemma write_r_wcb c : wcb (write WantR c) = wcb c /\ opt (write WantR c) = IR /\ rcb (write WantR c) = KWrite.
Proof. destruct c as [[] [] ? [] [] []]; cbn; repeat split; reflexivity. Qed.
Lemma read_done_rcb c : rcb (read Done c) = rcb c.
Proof. destruct c as [? ? ? [] ? []]; reflexivity. Qed.
Lemma read_r_rcb c : rcb (read WantR c) = rcb c /\ opt (read WantR c) = IR.
Proof. destruct c as [[] [] ? [] [] []]; cbn; split; reflexivity. Qed.
Lemma read_w_rcb c : rcb (read WantW c) = rcb c /\ opt (read WantW c) = IW /\ wcb (read WantW c) = KRead.
Proof. destruct c as [[] [] ? [] [] []]; cbn; repeat split; reflexivity. Qed.

Local Opaque read write.
Lemma finish_tinv s : s_tls s = true -> s_hs s = true -> s_wire s = s_want s ->
  tinv (finish s) /\ s_want (finish s) = s_want s.
Proof.
  intros T H E. unfold finish. cbn [with_tmr s_rsp]. destruct (r_keep (s_rsp s)).
  - split; [|reflexivity]. unfold tinv. cbn. split; [exact T|]. split; [exact H|]. split; [reflexivity|exact E].
  - unfold net_free. cbn [with_tmr s_tls s_hs]. rewrite T, H. cbn [andb]. split; [|reflexivity].
    unfold tinv. cbn. auto.
Qed.
(** after a whole buffer of the file *)
Lemma ff_after_tinv s : s_tls s = true -> s_hs s = true -> wcb (s_con s) = CFile -> s_pend s = [] ->
  s_wire s ++ s_rest s = s_want s -> s_fsend s + zlen (s_rest s) = s_fsize s ->
  tinv (ff_after s) /\ s_want (ff_after s) = s_want s.
Proof.
  intros T H W P E F. unfold ff_after. destruct (Z.leb_spec (s_fsize s) (s_fsend s)) as [L|L].
  - apply finish_tinv; auto. assert (s_rest s = []) as R by (apply zlen_0_nil; pose proof (zlen_nonneg (s_rest s)); lia).
    rewrite R, app_nil_r in E. exact E.
  - rewrite P. cbv zeta. cbn [with_buf s_pend]. replace (0 + zlen (@nil Z) <? PAY) with true by reflexivity. cbn iota. split; [|reflexivity].
    unfold tinv. cbn. split; [exact T|]. split; [exact H|]. split; [exact W|]. split; [auto|]. split; [exact E|].
    change (zlen (@nil Z)) with 0. lia.
Qed.
Lemma head_done_tinv s : s_tls s = true -> s_hs s = true -> s_pend s = [] ->
  s_wire s ++ body_of (s_rsp s) = s_want s -> tinv (head_done s) /\ s_want (head_done s) = s_want s.
Proof.
  intros T H P E. unfold head_done, body_of in *. cbn [with_tmr s_rsp]. destruct (r_body (s_rsp s)) as [|f|p].
  - apply (finish_tinv (with_tmr s false)); auto. cbn. rewrite app_nil_r in E. exact E.
  - destruct f as [|x f]; [apply (finish_tinv (with_tmr s false)); auto; cbn; rewrite app_nil_r in E; exact E|].
    unfold ff_enter. cbn [with_con with_buf s_pend]. eapply (ff_after_tinv (with_con (with_buf (with_tmr s false) [] 0 (x :: f) 0 (zlen (x :: f))) _)); cbn; auto.
  - destruct p as [|x p]; [apply (finish_tinv (with_tmr s false)); auto; cbn; rewrite app_nil_r in E; exact E|].
    split; [|reflexivity]. unfold tinv. cbn. split; [exact T|]. split; [exact H|]. split; [reflexivity|]. split; [discriminate|exact E].
Qed.

Lemma take_all n (l : list Z) : 1 <= n -> n <= zlen l -> zdrop n l = [] -> ztake n l = l.
Proof. intros A B Z0. rewrite <- (ztake_zdrop n l) at 2. rewrite Z0, app_nil_r. reflexivity. Qed.

Lemma take_drop_len m (l : list Z) : 0 <= m -> ztake m l ++ zdrop (zlen (ztake m l)) l = l.
Proof.
  intros P. rewrite zlen_ztake by exact P. destruct (Z.le_ge_cases m (zlen l)) as [LE|GE].
  - rewrite Z.min_l by lia. apply ztake_zdrop.
  - rewrite Z.min_r, ztake_all, zdrop_all by lia. apply app_nil_r.
Qed.

Lemma tstep s a : tinv s -> calm1 a -> a <> Hs WantW ->
  exists o, step s a = Ok o /\ forall s', o = Some s' -> tinv s' /\ s_want s' = s_want s ++ asked [a].
Proof.
  intros (T & I0) CA NW. unfold step.
  destruct (s_pc s) eqn:PC.
  - (* idle *)
    destruct a; try (eexists; split; [reflexivity|discriminate]).
    + (* EvR *)
      cbn [asked]. destruct I0 as [(H & C & E)|[(H & C & O & E)|[(H & q & Q & C & O & D)|(H & E & O)]]].
      * destruct C as [C|C]; rewrite C; cbn; eexists; (split; [reflexivity|]); intros s' [= <-].
        -- unfold accept_cb. cbn [with_tmr s_tls s_hs]. rewrite T, H. cbn [negb andb]. cbn.
           split; [|rewrite app_nil_r; reflexivity]. unfold tinv. cbn. auto.
        -- split; [|cbn; rewrite app_nil_r; reflexivity]. unfold tinv. cbn. auto.
      * destruct O as [O|(O & K)]; rewrite O; cbn [has_r]; [|eexists; split; [reflexivity|discriminate]].
        rewrite C. cbn. eexists; split; [reflexivity|]. intros s' [= <-]. cbn. rewrite app_nil_r. split; [|reflexivity].
        unfold tinv. cbn. auto.
      * destruct O as [O|(O & K)]; rewrite O; cbn [has_r]; [eexists; split; [reflexivity|discriminate]|].
        rewrite K. cbn [enter]. rewrite C.
        destruct Q as [-> | [-> | ->]]; cbn [sender CHdr CApi CFile enter_app]; cbn [bind].
        -- eexists; split; [reflexivity|]. intros s' [= <-]. rewrite app_nil_r. split; [|reflexivity].
           unfold tinv. cbn. split; [exact T|]. split; [exact H|]. split; [exact C|exact D].
        -- eexists; split; [reflexivity|]. intros s' [= <-]. rewrite app_nil_r. split; [|reflexivity].
           unfold tinv. cbn. split; [exact T|]. split; [exact H|]. split; [exact C|exact D].
        -- eexists; split; [reflexivity|]. intros s' [= <-]. rewrite app_nil_r.
           destruct D as (D0 & D). unfold ff_enter. destruct (s_pend s) eqn:P; [contradiction|]. split; [|reflexivity].
           unfold tinv. cbn. split; [exact T|]. split; [exact H|]. split; [exact C|]. rewrite P. split; [discriminate|exact D].
      * destruct O as [(K & O)|(K & O)]; rewrite O; cbn [has_r]; [|eexists; split; [reflexivity|discriminate]].
        rewrite K. cbn. eexists; split; [reflexivity|]. intros s' [= <-]. rewrite app_nil_r. split; [|reflexivity].
        unfold tinv. cbn. auto.
    + (* EvW *)
      cbn [asked]. destruct I0 as [(H & C & E)|[(H & C & O & E)|[(H & q & Q & C & O & D)|(H & E & O)]]].
      * destruct C as [C|C]; rewrite C; cbn; eexists; (split; [reflexivity|discriminate]).
      * destruct O as [O|(O & K)]; rewrite O; cbn [has_w]; [eexists; split; [reflexivity|discriminate]|].
        rewrite K. cbn [enter]. rewrite C. cbn. eexists; split; [reflexivity|]. intros s' [= <-]. cbn. rewrite app_nil_r. split; [|reflexivity].
        unfold tinv. cbn. auto.
      * destruct O as [O|(O & K)]; rewrite O; cbn [has_w]; [|eexists; split; [reflexivity|discriminate]].
        rewrite C.
        destruct Q as [-> | [-> | ->]]; cbn [sender CHdr CApi CFile enter enter_app]; cbn [bind].
        -- eexists; split; [reflexivity|]. intros s' [= <-]. rewrite app_nil_r. split; [|reflexivity].
           unfold tinv. cbn. split; [exact T|]. split; [exact H|]. split; [exact C|exact D].
        -- eexists; split; [reflexivity|]. intros s' [= <-]. rewrite app_nil_r. split; [|reflexivity].
           unfold tinv. cbn. split; [exact T|]. split; [exact H|]. split; [exact C|exact D].
        -- eexists; split; [reflexivity|]. intros s' [= <-]. rewrite app_nil_r.
           destruct D as (D0 & D). unfold ff_enter. destruct (s_pend s) eqn:P; [contradiction|]. split; [|reflexivity].
           unfold tinv. cbn. split; [exact T|]. split; [exact H|]. split; [exact C|]. rewrite P. split; [discriminate|exact D].
      * destruct O as [(K & O)|(K & O)]; rewrite O; cbn [has_w]; [eexists; split; [reflexivity|discriminate]|].
        rewrite K. cbn. eexists; split; [reflexivity|]. intros s' [= <-]. rewrite app_nil_r. split; [|reflexivity].
        unfold tinv. cbn. auto.
    + contradiction.
  - (* handshake *)
    destruct I0 as (H & C & E).
    destruct a; try (eexists; split; [reflexivity|discriminate]).
    destruct r; try contradiction.
    + destruct cb.
      * cbv zeta. cbn [with_hs with_tmr with_con s_con s_tls]. rewrite C. cbn. unfold accept_cb. cbn. rewrite T. cbn. eexists; split; [reflexivity|]. intros s' [= <-]. cbn. rewrite app_nil_r. split; [|reflexivity].
        unfold tinv. cbn. auto.
      * eexists; split; [reflexivity|]. intros s' [= <-]. cbn. rewrite app_nil_r. split; [|reflexivity].
        unfold tinv. cbn. auto.
    + eexists; split; [reflexivity|]. intros s' [= <-]. cbn. rewrite app_nil_r. split; [|reflexivity].
      unfold tinv. cbn. split; [exact T|]. left. split; [exact H|]. split; [|exact E]. right. rewrite C. destruct cb; reflexivity.
  - (* read *)
    destruct I0 as (H & C & E).
    destruct a; try (eexists; split; [reflexivity|discriminate]).
    unfold below. rewrite T. destruct x; try contradiction.
    + eexists; split; [reflexivity|]. intros s' [= <-]. cbn [with_con s_want asked]. rewrite app_nil_r. split; [|reflexivity].
      unfold tinv. cbn [with_con s_tls s_pc]. rewrite PC. split; [exact T|]. split; [exact H|]. split; [|exact E]. etransitivity; [apply read_done_rcb|exact C].
    + destruct (r_head r) as [|y hd] eqn:RH; [eexists; split; [reflexivity|discriminate]|].
      eexists; split; [reflexivity|]. intros s' [= <-]. cbn [asked]. rewrite app_nil_r. split.
      * unfold tinv. cbn. split; [exact T|]. split; [exact H|]. split; [reflexivity|]. split; [discriminate|].
        rewrite E. unfold body_of. reflexivity.
      * cbn. unfold whole. rewrite RH. reflexivity.
    + eexists; split; [reflexivity|]. intros s' [= <-]. cbn [wait with_con with_tmr with_pc s_want asked]. rewrite app_nil_r. split; [|reflexivity].
      unfold tinv, tidle. cbn [wait with_con with_tmr with_pc s_tls s_pc s_hs s_con s_wire s_want]. split; [exact T|].
      destruct (read_r_rcb (s_con s)) as (A & B). right. left. rewrite A, B. auto.
    + eexists; split; [reflexivity|]. intros s' [= <-]. cbn [wait with_con with_tmr with_pc s_want asked]. rewrite app_nil_r. split; [|reflexivity].
      unfold tinv, tidle. cbn [wait with_con with_tmr with_pc s_tls s_pc s_hs s_con s_wire s_want]. split; [exact T|].
      destruct (read_w_rcb (s_con s)) as (A & B & D). right. left. rewrite A, B, D. split; [exact H|]. split; [exact C|]. split; [right; auto|exact E].
  - contradiction.
  - (* head *)
    destruct I0 as (H & C & D).
    destruct a; try (eexists; split; [reflexivity|discriminate]).
    unfold below. rewrite T. destruct x; try contradiction.
    + destruct (Z.leb_spec 1 n) as [L1|]; cbn [andb]; [|eexists; split; [reflexivity|discriminate]].
      destruct (Z.leb_spec n (zlen (s_pend s))) as [L2|]; [|eexists; split; [reflexivity|discriminate]].
      eexists; split; [reflexivity|]. intros s' [= <-]. cbn [with_wire with_con s_pend s_wire asked]. rewrite app_nil_r.
      destruct D as (D0 & D). destruct (zdrop n (s_pend s)) as [|y p] eqn:P.
      * match goal with |- tinv (head_done ?s0) /\ _ => destruct (head_done_tinv s0) as (A & B); cbn; auto end.
        rewrite (take_all n _ L1 L2 P). rewrite <- app_assoc. exact D.
      * cbn [with_wire with_con s_want]. split; [|reflexivity]. unfold tinv. cbn [with_wire with_con s_tls s_pc s_hs s_con s_wire s_want s_pend s_rsp].
        rewrite PC, write_done_wcb. split; [exact T|]. split; [exact H|]. split; [exact C|]. split; [discriminate|].
        cbn [with_wire with_con s_wire s_pend s_rsp s_want]. rewrite <- P. rewrite <- D. rewrite <- !app_assoc. f_equal.
        rewrite app_assoc, ztake_zdrop. reflexivity.
    + eexists; split; [reflexivity|]. intros s' [= <-]. cbn [wait with_con with_tmr with_pc s_want asked]. rewrite app_nil_r. split; [|reflexivity].
      unfold tinv, tidle. cbn [wait with_con with_tmr with_pc s_tls s_pc s_hs s_con s_wire s_want]. split; [exact T|].
      destruct (write_r_wcb (s_con s)) as (A & B & K). right. right. left. split; [exact H|]. exists WHdr. rewrite A, B, K.
      split; [left; reflexivity|]. split; [exact C|]. split; [right; auto|exact D].
    + eexists; split; [reflexivity|]. intros s' [= <-]. cbn [wait with_con with_tmr with_pc s_want asked]. rewrite app_nil_r. split; [|reflexivity].
      unfold tinv, tidle. cbn [wait with_con with_tmr with_pc s_tls s_pc s_hs s_con s_wire s_want]. split; [exact T|].
      destruct (write_w_wcb (s_con s)) as (A & B). right. right. left. split; [exact H|]. exists WHdr. rewrite A, B.
      split; [left; reflexivity|]. split; [exact C|]. split; [left; auto|exact D].
  - (* handler's data *)
    destruct I0 as (H & C & D).
    destruct a; try (eexists; split; [reflexivity|discriminate]).
    unfold below. rewrite T. destruct x; try contradiction.
    + destruct (Z.leb_spec 1 n) as [L1|]; cbn [andb]; [|eexists; split; [reflexivity|discriminate]].
      destruct (Z.leb_spec n (zlen (s_pend s))) as [L2|]; [|eexists; split; [reflexivity|discriminate]].
      eexists; split; [reflexivity|]. intros s' [= <-]. cbn [with_wire with_con s_pend s_wire asked]. rewrite app_nil_r.
      destruct D as (D0 & D). destruct (zdrop n (s_pend s)) as [|y p] eqn:P.
      * match goal with |- tinv (finish ?s0) /\ _ => destruct (finish_tinv s0) as (A & B); cbn; auto end.
        rewrite (take_all n _ L1 L2 P). exact D.
      * cbn [with_wire with_con s_want]. split; [|reflexivity]. unfold tinv. cbn [with_wire with_con s_tls s_pc s_hs s_con s_wire s_want s_pend s_rsp].
        rewrite PC, write_done_wcb. split; [exact T|]. split; [exact H|]. split; [exact C|]. split; [discriminate|].
        cbn [with_wire with_con s_wire s_pend s_rsp s_want]. rewrite <- P. rewrite <- D. rewrite <- !app_assoc. f_equal.
        rewrite ztake_zdrop. reflexivity.
    + eexists; split; [reflexivity|]. intros s' [= <-]. cbn [wait with_con with_tmr with_pc s_want asked]. rewrite app_nil_r. split; [|reflexivity].
      unfold tinv, tidle. cbn [wait with_con with_tmr with_pc s_tls s_pc s_hs s_con s_wire s_want]. split; [exact T|].
      destruct (write_r_wcb (s_con s)) as (A & B & K). right. right. left. split; [exact H|]. exists WApi. rewrite A, B, K.
      split; [right; left; reflexivity|]. split; [exact C|]. split; [right; auto|exact D].
    + eexists; split; [reflexivity|]. intros s' [= <-]. cbn [wait with_con with_tmr with_pc s_want asked]. rewrite app_nil_r. split; [|reflexivity].
      unfold tinv, tidle. cbn [wait with_con with_tmr with_pc s_tls s_pc s_hs s_con s_wire s_want]. split; [exact T|].
      destruct (write_w_wcb (s_con s)) as (A & B). right. right. left. split; [exact H|]. exists WApi. rewrite A, B.
      split; [right; left; reflexivity|]. split; [exact C|]. split; [left; auto|exact D].
  - (* file *)
    destruct I0 as (H & C & D).
    destruct a; try (eexists; split; [reflexivity|discriminate]).
    unfold below. rewrite T. destruct x; try contradiction.
    + destruct (Z.leb_spec 1 n) as [L1|]; cbn [andb]; [|eexists; split; [reflexivity|discriminate]].
      destruct (Z.leb_spec n (zlen (s_pend s))) as [L2|]; cbn [andb]; [|eexists; split; [reflexivity|discriminate]].
      cbn [negb orb]. destruct (Z.eqb_spec n (zlen (s_pend s))) as [EN|]; [|eexists; split; [reflexivity|discriminate]].
      eexists; split; [reflexivity|]. intros s' [= <-]. cbn [with_wire with_con s_pend s_wire asked]. rewrite app_nil_r.
      destruct D as (D0 & D & F). assert (P : zdrop n (s_pend s) = []) by (apply zlen_0_nil; rewrite zlen_zdrop by lia; lia).
      match goal with |- tinv (ff_after ?s0) /\ _ => destruct (ff_after_tinv s0) as (A & B) end;
        cbn [with_wire with_con with_buf s_tls s_hs s_con s_pend s_wire s_rest s_want s_fsend s_fsize]; auto.
      * rewrite write_done_wcb. exact C.
      * rewrite (take_all n _ L1 L2 P), <- app_assoc. exact D.
      * lia.
    + eexists; split; [reflexivity|]. intros s' [= <-]. cbn [wait with_con with_tmr with_pc s_want asked]. rewrite app_nil_r. split; [|reflexivity].
      unfold tinv, tidle. cbn [wait with_con with_tmr with_pc s_tls s_pc s_hs s_con s_wire s_want]. split; [exact T|].
      destruct (write_r_wcb (s_con s)) as (A & B & K). right. right. left. split; [exact H|]. exists WSnd. rewrite A, B, K.
      split; [right; right; reflexivity|]. split; [exact C|]. split; [right; auto|exact D].
    + eexists; split; [reflexivity|]. intros s' [= <-]. cbn [wait with_con with_tmr with_pc s_want asked]. rewrite app_nil_r. split; [|reflexivity].
      unfold tinv, tidle. cbn [wait with_con with_tmr with_pc s_tls s_pc s_hs s_con s_wire s_want]. split; [exact T|].
      destruct (write_w_wcb (s_con s)) as (A & B). right. right. left. split; [exact H|]. exists WSnd. rewrite A, B.
      split; [right; right; reflexivity|]. split; [exact C|]. split; [left; auto|exact D].
  - (* read of the file *)
    destruct I0 as (H & C & D & E & F & L). destruct (D T) as (P & OF).
    destruct a; try (eexists; split; [reflexivity|discriminate]).
    destruct x as [k|]; [|contradiction].
    destruct (Z.leb_spec 1 k) as [L1|]; [|eexists; split; [reflexivity|discriminate]].
    rewrite P, OF in *. change (zlen (@nil Z)) with 0 in *.
    assert (LR : 1 <= zlen (s_rest s)) by lia.
    assert (KP : 1 <= Z.min k (PAY - (0 + 0))) by (unfold PAY; lia).
    destruct (ztake (Z.min k (PAY - (0 + 0))) (s_rest s)) as [|y g] eqn:G.
    + exfalso. assert (X : zlen (ztake (Z.min k (PAY - (0 + 0))) (s_rest s)) = 0) by (rewrite G; reflexivity).
      rewrite zlen_ztake in X by lia. lia.
    + eexists; split; [reflexivity|]. intros s' [= <-]. cbn [asked]. rewrite app_nil_r. split; [|reflexivity].
      unfold tinv. cbn. split; [exact T|]. split; [exact H|]. split; [exact C|]. split; [discriminate|].
      pose proof (take_drop_len (Z.min k (PAY - (0 + 0))) (s_rest s) ltac:(lia)) as ED. rewrite G in ED. split.
      * cbn [app] in E, ED. rewrite ED. exact E.
      * pose proof (f_equal zlen ED) as Z1. rewrite zlen_app in Z1. lia.
  - (* shutdown *)
    destruct I0 as (H & E).
    destruct a; try (eexists; split; [reflexivity|discriminate]).
    destruct r; try contradiction; eexists; (split; [reflexivity|]); intros s' [= <-]; cbn; rewrite app_nil_r; (split; [|reflexivity]);
      unfold tinv, tidle; cbn; (split; [exact T|]); auto.
    + right. right. right. auto.
    + right. right. right. auto.
  - destruct a; eexists; (split; [reflexivity|discriminate]).
Qed.

Lemma trun l : forall s s', tinv s -> calm l -> hs_sent l -> run s l = Ok (Some s') ->
  tinv s' /\ s_want s' = s_want s ++ asked l.
Proof.
  induction l as [|a l IH]; cbn [run]; intros s s' TI CL HS R.
  - injection R as <-. cbn [asked]. rewrite app_nil_r. auto.
  - inversion CL as [|? ? C1 C2]; subst.
    destruct (tstep s a TI C1) as (o & E & P); [intros ->; apply HS; left; reflexivity|].
    rewrite E in R. cbn [bind] in R. destruct o as [s1|]; [|discriminate]. destruct (P s1 eq_refl) as (T1 & W1).
    destruct (IH s1 s' T1 C2) as (T2 & W2); [intros X; apply HS; right; exact X|exact R|]. split; [exact T2|].
    rewrite W2, W1, <- app_assoc. f_equal. change (a :: l) with ([a] ++ l). rewrite asked_app. reflexivity.
Qed.
Lemma trun_no_fault l : forall s, tinv s -> calm l -> hs_sent l -> exists o, run s l = Ok o.
Proof.
  induction l as [|a l IH]; cbn [run]; intros s TI CL HS; [eauto|].
  inversion CL as [|? ? C1 C2]; subst.
  destruct (tstep s a TI C1) as (o & E & P); [intros ->; apply HS; left; reflexivity|].
  rewrite E. cbn [bind]. destruct o as [s1|]; [|eauto]. destruct (P s1 eq_refl) as (T1 & _).
  apply IH; auto. intros X; apply HS; right; exact X.
Qed.
Lemma start_tinv : tinv (start true).
Proof. unfold tinv, tidle. cbn. split; [reflexivity|]. left. auto. Qed.

Definition quiet_pc (q : wpc) : Prop := q = WRd \/ q = WShut \/ q = WDead.
(** from here everything can be delivered *)
Definition okay (s : wst) : Prop :=
  exists l s', calm l /\ no_request l /\ hs_sent l /\ run s l = Ok (Some s') /\ quiet_pc (s_pc s').
Lemma okay_now s : quiet_pc (s_pc s) -> okay s.
Proof. intros E. exists [], s. split; [constructor|]. split; [reflexivity|]. split; [intros []|]. split; [reflexivity|exact E]. Qed.
Lemma okay_step s a s1 : calm1 a -> asked [a] = [] -> a <> Hs WantW -> step s a = Ok (Some s1) -> okay s1 -> okay s.
Proof.
  intros C A N E (l & s' & CL & NR & HS & R & W). exists (a :: l), s'. split; [constructor; assumption|]. split.
  - unfold no_request. change (a :: l) with ([a] ++ l). rewrite asked_app, A. exact NR.
  - split; [intros [X|X]; [apply N; exact X|exact (HS X)]|]. split; [|exact W]. cbn [run]. rewrite E. exact R.
Qed.
Lemma quiet_done s : tinv s -> quiet_pc (s_pc s) -> s_wire s = s_want s.
Proof. intros (_ & TI) [E|[E|E]]; rewrite E in TI; tauto. Qed.
Lemma finish_quiet s : quiet_pc (s_pc (finish s)).
Proof.
  unfold finish, quiet_pc. cbn [with_tmr s_rsp]. destruct (r_keep (s_rsp s)); [left; reflexivity|].
  unfold net_free. destruct (_ && _); [right; left|right; right]; reflexivity.
Qed.
Lemma ff_after_pc s : s_pend s = [] ->
  quiet_pc (s_pc (ff_after s)) \/ (s_pc (ff_after s) = WGet /\ s_rest (ff_after s) = s_rest s).
Proof.
  intros P. unfold ff_after. destruct (s_fsize s <=? s_fsend s); [left; apply finish_quiet|right].
  rewrite P. cbv zeta. cbn [with_buf s_pend]. replace (0 + zlen (@nil Z) <? PAY) with true by reflexivity. auto.
Qed.

Lemma file_okay n : forall s, tinv s -> (s_pc s = WSnd \/ s_pc s = WGet) -> (length (s_rest s) <= n)%nat -> okay s.
Proof.
  assert (GET : forall s, tinv s -> s_pc s = WGet -> exists s1, step s (Get (Some 1)) = Ok (Some s1) /\ tinv s1 /\ s_pc s1 = WSnd /\
                 (length (s_rest s1) < length (s_rest s))%nat).
  { intros s TI PC. destruct (tstep s (Get (Some 1)) TI Logic.I ltac:(discriminate)) as (o & E & P).
    pose proof TI as (T & I0). rewrite PC in I0. destruct I0 as (H & C & D & W & F & L). destruct (D T) as (PE & OF).
    unfold step in E |- *. rewrite PC in E |- *. change (1 <=? 1) with true in E |- *. cbv zeta in E |- *. rewrite PE, OF in E |- *.
    change (Z.min 1 (PAY - (0 + zlen (@nil Z)))) with 1 in E |- *.
    destruct (s_rest s) as [|y r] eqn:R.
    { exfalso. rewrite PE in F. change (zlen (@nil Z)) with 0 in F. lia. }
    change (ztake 1 (y :: r)) with [y] in E |- *. cbn iota in E |- *. injection E as <-. eexists. split; [reflexivity|].
    split; [apply (P _ eq_refl)|]. split; [reflexivity|]. change (zdrop (zlen [y]) (y :: r)) with r. cbn. lia. }
  assert (SND : forall s, tinv s -> s_pc s = WSnd -> exists s1, step s (Snd (SSent (zlen (s_pend s)))) = Ok (Some s1) /\ tinv s1 /\
                 (quiet_pc (s_pc s1) \/ s_pc s1 = WGet /\ s_rest s1 = s_rest s)).
  { intros s TI PC. destruct (tstep s (Snd (SSent (zlen (s_pend s)))) TI Logic.I ltac:(discriminate)) as (o & E & P).
    pose proof TI as (T & I0). rewrite PC in I0. destruct I0 as (H & C & D0 & D & F). pose proof (nonempty _ D0).
    unfold step in E |- *. rewrite PC in E |- *. cbv zeta in E |- *.
    destruct (Z.leb_spec 1 (zlen (s_pend s))); [|lia]. rewrite Z.leb_refl, Z.eqb_refl, orb_true_r in E |- *. cbn [andb] in E |- *.
    injection E as <-. eexists. split; [reflexivity|]. split; [apply (P _ eq_refl)|].
    match goal with |- context [ff_after ?x] => destruct (ff_after_pc x) as [Q|(Q1 & Q2)] end.
    - cbn [with_buf s_pend with_wire]. apply zdrop_all. lia.
    - left. exact Q.
    - right. split; [exact Q1|]. rewrite Q2. reflexivity. }
  induction n as [|n IH]; intros s TI PC LN.
  - destruct PC as [PC|PC].
    + destruct (SND s TI PC) as (s1 & E & T1 & [Q|(Q1 & Q2)]); refine (okay_step _ _ _ _ _ _ E _); try exact Logic.I; try reflexivity; try discriminate.
      * apply okay_now; assumption.
      * exfalso. destruct (GET s1 T1 Q1) as (s2 & _ & _ & _ & L2). rewrite Q2 in L2. lia.
    + exfalso. destruct (GET s TI PC) as (s2 & _ & _ & _ & L2). lia.
  - assert (G : forall s, tinv s -> s_pc s = WGet -> (length (s_rest s) <= S n)%nat -> okay s).
    { intros s0 T0 P0 L0. destruct (GET s0 T0 P0) as (s2 & E & T2 & P2 & L2).
      refine (okay_step _ _ _ _ _ _ E _); try exact Logic.I; try reflexivity; try discriminate. apply IH; auto. lia. }
    destruct PC as [PC|PC]; [|apply G; assumption].
    destruct (SND s TI PC) as (s1 & E & T1 & [Q|(Q1 & Q2)]); refine (okay_step _ _ _ _ _ _ E _); try exact Logic.I; try reflexivity; try discriminate.
    + apply okay_now; assumption.
    + apply G; auto. rewrite Q2. exact LN.
Qed.
Lemma api_okay s : tinv s -> s_pc s = WApi -> okay s.
Proof.
  intros TI PC. destruct (tstep s (Snd (SSent (zlen (s_pend s)))) TI Logic.I ltac:(discriminate)) as (o & E & P).
  pose proof TI as (T & I0). rewrite PC in I0. destruct I0 as (H & C & D0 & D). pose proof (nonempty _ D0).
  assert (X : exists s1, o = Some s1 /\ quiet_pc (s_pc s1)).
  { unfold step in E. rewrite PC in E. cbv zeta in E.
    destruct (Z.leb_spec 1 (zlen (s_pend s))); [|lia]. rewrite Z.leb_refl in E. cbn [andb] in E.
    cbn [with_wire s_pend] in E. rewrite (zdrop_all (zlen (s_pend s))) in E by lia. injection E as <-. eexists. split; [reflexivity|]. apply finish_quiet. }
  destruct X as (s1 & -> & Q). refine (okay_step _ _ _ _ _ _ E _); try exact Logic.I; try reflexivity; try discriminate.
  apply okay_now; exact Q.
Qed.
Lemma head_okay s : tinv s -> s_pc s = WHdr -> okay s.
Proof.
  intros TI PC. destruct (tstep s (Snd (SSent (zlen (s_pend s)))) TI Logic.I ltac:(discriminate)) as (o & E & P).
  pose proof TI as (T & I0). rewrite PC in I0. destruct I0 as (H & C & D0 & D). pose proof (nonempty _ D0).
  assert (X : exists s1, o = Some s1 /\ (quiet_pc (s_pc s1) \/ s_pc s1 = WApi \/ s_pc s1 = WGet)).
  { unfold step in E. rewrite PC in E. cbv zeta in E.
    destruct (Z.leb_spec 1 (zlen (s_pend s))); [|lia]. rewrite Z.leb_refl in E. cbn [andb] in E.
    cbn [with_wire s_pend] in E. rewrite (zdrop_all (zlen (s_pend s))) in E by lia. injection E as <-. eexists. split; [reflexivity|].
    unfold head_done. cbv zeta. match goal with |- context [match r_body ?x with _ => _ end] => destruct (r_body x) as [|f|p] end.
    - left. apply finish_quiet.
    - destruct f as [|y f]; [left; apply finish_quiet|]. unfold ff_enter. cbn [with_con with_buf s_pend].
      match goal with |- context [ff_after ?x] => destruct (ff_after_pc x) as [Q|(Q1 & Q2)]; [reflexivity| |] end; auto.
    - destruct p as [|y p]; [left; apply finish_quiet|]. right. left. reflexivity. }
  destruct X as (s1 & -> & Q). refine (okay_step _ _ _ _ _ _ E _); try exact Logic.I; try reflexivity; try discriminate.
  destruct (P _ eq_refl) as (T1 & _).
  destruct Q as [Q|[Q|Q]]; [apply okay_now; assumption|apply api_okay; assumption|].
  eapply file_okay; [exact T1|right; exact Q|apply le_n].
Qed.
Lemma tinv_okay s : tinv s -> okay s.
Proof.
  assert (HSD : forall s cb, tinv s -> s_pc s = WHs cb -> okay s).
  { clear s. intros s cb TI PC. pose proof TI as (T & I0). rewrite PC in I0. destruct I0 as (H & C & E0).
    assert (X : exists s1, step s (Hs Done) = Ok (Some s1) /\ s_pc s1 = WRd).
    { unfold step. rewrite PC. destruct cb; cbn [with_hs s_con with_tmr with_con]; rewrite ?C; cbn; unfold accept_cb; cbn;
        rewrite ?andb_false_r; eexists; split; reflexivity. }
    destruct X as (s1 & E & Q). refine (okay_step _ _ _ _ _ _ E _); try exact Logic.I; try reflexivity; try discriminate.
    apply okay_now. left. exact Q. }
  intros TI. pose proof TI as (T & I0). destruct (s_pc s) eqn:PC; try contradiction.
  all: try (apply okay_now; left; exact PC).
  all: try (apply okay_now; right; left; exact PC).
  all: try (apply okay_now; right; right; exact PC).
  all: try (eapply HSD; eassumption).
  - destruct I0 as [(H & C & E)|[(H & C & O & E)|[(H & q & Q & C & O & D)|(H & E & O)]]].
    { destruct (tstep s EvR TI Logic.I ltac:(discriminate)) as (o & E1 & P).
      assert (Y : exists s1 cb, o = Some s1 /\ s_pc s1 = WHs cb).
      { unfold step in E1. rewrite PC in E1. destruct C as [C|C]; rewrite C in E1; cbn in E1; injection E1 as <-.
        - unfold accept_cb. cbn [with_tmr s_tls s_hs]. rewrite T, H. cbn. do 2 eexists. split; reflexivity.
        - do 2 eexists. split; reflexivity. }
      destruct Y as (s1 & cb & -> & Y). refine (okay_step _ _ _ _ _ _ E1 _); try exact Logic.I; try reflexivity; try discriminate.
      eapply HSD; [apply (P _ eq_refl)|exact Y]. }
    { assert (X : exists a s1, (a = EvR \/ a = EvW) /\ step s a = Ok (Some s1) /\ s_pc s1 = WRd).
      { destruct O as [O|(O & K)]; [exists EvR|exists EvW]; unfold step; rewrite PC, O; [rewrite C|rewrite K]; cbn; [|rewrite C; cbn]; eauto. }
      destruct X as (a & s1 & A & E1 & Y). refine (okay_step s a s1 _ _ _ E1 _); try (destruct A as [-> | ->]; (exact Logic.I || reflexivity || discriminate)).
      apply okay_now. left. exact Y. }
    2: { assert (X : exists a s1, (a = EvR \/ a = EvW) /\ step s a = Ok (Some s1) /\ s_pc s1 = WShut).
      { destruct O as [(C & O)|(C & O)]; [exists EvR|exists EvW]; unfold step; rewrite PC, O, C; cbn; eauto. }
      destruct X as (a & s1 & A & E1 & Y). refine (okay_step s a s1 _ _ _ E1 _); try (destruct A as [-> | ->]; (exact Logic.I || reflexivity || discriminate)).
      apply okay_now. right. left. exact Y. }
    assert (X : exists a s1, (a = EvR \/ a = EvW) /\ step s a = Ok (Some s1) /\ s_pc s1 = q /\ tinv s1).
    { destruct O as [O|(O & K)].
      - destruct (tstep s EvW TI Logic.I ltac:(discriminate)) as (o & E & P). exists EvW.
        assert (Y : exists s1, o = Some s1 /\ s_pc s1 = q).
        { unfold step in E. rewrite PC, O, C in E. cbn [has_w] in E.
          destruct Q as [-> | [-> | ->]]; cbn in E; injection E as <-; eexists; (split; [reflexivity|]); try reflexivity.
          unfold ff_enter. destruct D as (D & _). destruct (s_pend s); [contradiction|reflexivity]. }
        destruct Y as (s1 & -> & Y). exists s1. split; [right; reflexivity|]. split; [exact E|]. split; [exact Y|apply (P _ eq_refl)].
      - destruct (tstep s EvR TI Logic.I ltac:(discriminate)) as (o & E & P). exists EvR.
        assert (Y : exists s1, o = Some s1 /\ s_pc s1 = q).
        { unfold step in E. rewrite PC, O, K in E. cbn [has_r enter] in E. rewrite C in E.
          destruct Q as [-> | [-> | ->]]; cbn in E; injection E as <-; eexists; (split; [reflexivity|]); try reflexivity.
          unfold ff_enter. destruct D as (D & _). destruct (s_pend s); [contradiction|reflexivity]. }
        destruct Y as (s1 & -> & Y). exists s1. split; [left; reflexivity|]. split; [exact E|]. split; [exact Y|apply (P _ eq_refl)]. }
    destruct X as (a & s1 & A & E & Y & T1).
    refine (okay_step s a s1 _ _ _ E _); try (destruct A as [-> | ->]; (exact Logic.I || reflexivity || discriminate)).
    destruct Q as [-> | [-> | ->]].
    + apply head_okay; assumption.
    + apply api_okay; assumption.
    + eapply file_okay; [exact T1|left; exact Y|apply le_n].
  - apply head_okay; assumption.
  - apply api_okay; assumption.
  - eapply file_okay; [exact TI|left; exact PC|apply le_n].
  - eapply file_okay; [exact TI|right; exact PC|apply le_n].
Qed.
Lemma tls_goes_on l s : calm l -> hs_sent l -> run (start true) l = Ok (Some s) ->
  exists l' s', calm l' /\ no_request l' /\ run s l' = Ok (Some s') /\ s_wire s' = asked l /\ settled s'.
Proof.
  intros C HS R. destruct (trun l _ _ start_tinv C HS R) as (TI & W). cbn [start s_want] in W. change ([] ++ asked l) with (asked l) in W.
  destruct (tinv_okay s TI) as (l' & s' & C' & N' & H' & R' & E'). exists l', s'. split; [exact C'|]. split; [exact N'|]. split; [exact R'|].
  destruct (trun l' _ _ TI C' H' R') as (TI' & W'). split; [|exact E'].
  rewrite (quiet_done s' TI' E'), W', N', app_nil_r. exact W.
Qed.

(** ** A plain connection *)
Definition pinv (s : wst) : Prop :=
  s_tls s = false /\ opt (s_con s) = IR /\
  match s_pc s with
  | WIdle => ((rcb (s_con s) = CAccept \/ rcb (s_con s) = CProc) /\ s_wire s = s_want s) \/ rcb (s_con s) = CTry
  | WTry => rcb (s_con s) = CTry
  | WRd => rcb (s_con s) = CProc /\ s_wire s = s_want s
  | WHdr | WApi | WSnd | WGet => rcb (s_con s) = CTry /\ dat s (s_pc s)
  | WHs _ | WShut => False
  | WDead => True
  end.
Lemma finish_pinv s : s_tls s = false -> opt (s_con s) = IR -> s_wire s = s_want s ->
  pinv (finish s) /\ s_want (finish s) = s_want s.
Proof.
  intros T O E. unfold finish. cbn [with_tmr s_rsp]. destruct (r_keep (s_rsp s)).
  - split; [|reflexivity]. unfold pinv. cbn. auto.
  - unfold net_free. cbn [with_tmr s_tls s_hs]. rewrite T. cbn [andb]. split; [|reflexivity]. unfold pinv. cbn. auto.
Qed.
Lemma ff_after_pinv s : s_tls s = false -> opt (s_con s) = IR -> rcb (s_con s) = CTry ->
  s_wire s ++ s_pend s ++ s_rest s = s_want s -> s_fsend s + zlen (s_pend s) + zlen (s_rest s) = s_fsize s ->
  pinv (ff_after s) /\ s_want (ff_after s) = s_want s.
Proof.
  intros T O R E F. unfold ff_after. destruct (Z.leb_spec (s_fsize s) (s_fsend s)) as [L|L].
  - pose proof (zlen_nonneg (s_rest s)). pose proof (zlen_nonneg (s_pend s)).
    assert (s_rest s = []) as R1 by (apply zlen_0_nil; lia). assert (s_pend s = []) as R2 by (apply zlen_0_nil; lia).
    apply finish_pinv; auto. rewrite R1, R2, !app_nil_r in E. exact E.
  - cbv zeta. cbn [with_buf s_pend]. destruct (s_pend s) as [|y p] eqn:P.
    + replace (0 + zlen (@nil Z) <? PAY) with true by reflexivity. split; [|reflexivity]. unfold pinv. cbn.
      split; [exact T|]. split; [exact O|]. split; [exact R|]. split; [intros X; rewrite X in T; discriminate|]. split; [exact E|].
      change (zlen (@nil Z)) with 0 in *. lia.
    + destruct (s_off s + zlen (y :: p) <? PAY); (split; [|reflexivity]); unfold pinv; cbn;
        (split; [exact T|]); (split; [exact O|]); (split; [exact R|]).
      * split; [intros X; rewrite X in T; discriminate|]. split; [exact E|]. lia.
      * split; [discriminate|]. split; [exact E|exact F].
Qed.
Lemma head_done_pinv s : s_tls s = false -> opt (s_con s) = IR -> rcb (s_con s) = CTry -> s_pend s = [] ->
  s_wire s ++ body_of (s_rsp s) = s_want s -> pinv (head_done s) /\ s_want (head_done s) = s_want s.
Proof.
  intros T O R P E. unfold head_done, body_of in *. cbn [with_tmr s_rsp]. destruct (r_body (s_rsp s)) as [|f|p].
  - apply (finish_pinv (with_tmr s false)); auto. cbn. rewrite app_nil_r in E. exact E.
  - destruct f as [|x f]; [apply (finish_pinv (with_tmr s false)); auto; cbn; rewrite app_nil_r in E; exact E|].
    unfold ff_enter. cbn [with_con with_buf s_pend]. eapply (ff_after_pinv (with_con (with_buf (with_tmr s false) [] 0 (x :: f) 0 (zlen (x :: f))) _)); cbn; auto.
  - destruct p as [|x p]; [apply (finish_pinv (with_tmr s false)); auto; cbn; rewrite app_nil_r in E; exact E|].
    split; [|reflexivity]. unfold pinv. cbn. split; [exact T|]. split; [exact O|]. split; [exact R|]. split; [discriminate|exact E].
Qed.
Lemma free_pinv s : s_tls s = false -> opt (s_con s) = IR -> pinv (net_free s) /\ s_want (net_free s) = s_want s.
Proof. intros T O. unfold net_free. rewrite T. cbn [andb]. split; [|reflexivity]. unfold pinv. cbn. auto. Qed.
Lemma wait_pinv s q : s_tls s = false -> opt (s_con s) = IR -> rcb (s_con s) = CTry -> q = s_want s ->
  pinv (wait s) /\ s_want (wait s) = q.
Proof. intros T O R ->. split; [|reflexivity]. unfold pinv. cbn. auto. Qed.

Lemma pstep s a : pinv s ->
  exists o, step s a = Ok o /\ forall s', o = Some s' -> pinv s' /\ s_want s' = s_want s ++ asked [a].
Proof.
  intros (T & O & I0). unfold step.
  destruct (s_pc s) eqn:PC; try contradiction.
  - destruct a; try (eexists; split; [reflexivity|discriminate]); rewrite ?O; cbn [has_r has_w asked].
    + destruct I0 as [([R|R] & E)|R]; rewrite R; cbn; eexists; (split; [reflexivity|]); intros s' [= <-]; rewrite app_nil_r.
      * unfold accept_cb. cbn [with_tmr s_tls s_hs]. rewrite T. cbn [andb]. split; [|reflexivity]. unfold pinv. cbn. auto.
      * split; [|reflexivity]. unfold pinv. cbn. auto.
      * split; [|reflexivity]. unfold pinv. cbn. auto.
    + eexists; split; [reflexivity|discriminate].
    + destruct (s_tmr s); [|eexists; split; [reflexivity|discriminate]].
      assert (X : pinv (net_free (with_tmr s false)) /\ s_want (net_free (with_tmr s false)) = s_want s) by (apply (free_pinv (with_tmr s false)); auto).
      assert (Y : pinv (with_pc (with_tmr s false) WDead) /\ s_want (with_pc (with_tmr s false) WDead) = s_want s)
        by (split; [unfold pinv; cbn; auto|reflexivity]).
      rewrite app_nil_r.
      repeat match goal with |- context [match ?x with _ => _ end] => destruct x end;
        (eexists; split; [reflexivity|]; intros s' [= <-]; assumption).
  - destruct I0 as (R & E). unfold below. rewrite T.
    destruct a; try (eexists; split; [reflexivity|discriminate]). destruct x.
    + eexists; split; [reflexivity|]. intros s' [= <-]. cbn [asked]. rewrite app_nil_r. split; [|reflexivity]. unfold pinv. rewrite PC. auto.
    + destruct (r_head r) as [|y hd] eqn:RH; [eexists; split; [reflexivity|discriminate]|].
      eexists; split; [reflexivity|]. intros s' [= <-]. cbn [asked]. rewrite app_nil_r. split.
      * unfold pinv. cbn. split; [exact T|]. split; [exact O|]. split; [reflexivity|]. split; [discriminate|].
        rewrite E. unfold body_of. reflexivity.
      * cbn. unfold whole. rewrite RH. reflexivity.
    + eexists; split; [reflexivity|]. intros s' [= <-]. cbn [asked]. rewrite app_nil_r. split; [|reflexivity]. unfold pinv. cbn. split; [exact T|]. split; [exact O|]. left. split; [right; exact R|exact E].
    + eexists; split; [reflexivity|discriminate].
    + eexists; split; [reflexivity|]. intros s' [= <-]. cbn [asked]. rewrite app_nil_r. apply free_pinv; auto.
  - destruct a; try (eexists; split; [reflexivity|discriminate]). destruct x.
    + eexists; split; [reflexivity|]. intros s' [= <-]. cbn [asked]. rewrite app_nil_r. split; [|reflexivity]. unfold pinv. cbn. auto.
    + eexists; split; [reflexivity|]. intros s' [= <-]. cbn [asked]. rewrite app_nil_r. split; [|reflexivity]. unfold pinv. cbn. auto.
    + eexists; split; [reflexivity|]. intros s' [= <-]. cbn [asked]. rewrite app_nil_r. apply free_pinv; auto.
  - destruct I0 as (R & D0 & D). unfold below. rewrite T.
    destruct a; try (eexists; split; [reflexivity|discriminate]). destruct x.
    + destruct (Z.leb_spec 1 n) as [L1|]; cbn [andb]; [|eexists; split; [reflexivity|discriminate]].
      destruct (Z.leb_spec n (zlen (s_pend s))) as [L2|]; [|eexists; split; [reflexivity|discriminate]].
      eexists; split; [reflexivity|]. intros s' [= <-]. cbn [with_wire s_pend asked]. rewrite app_nil_r.
      destruct (zdrop n (s_pend s)) as [|y p] eqn:P.
      * match goal with |- pinv (head_done ?s0) /\ _ => destruct (head_done_pinv s0) as (A & B); cbn; auto end.
        rewrite (take_all n _ L1 L2 P). rewrite <- app_assoc. exact D.
      * split; [|reflexivity]. unfold pinv. cbn [with_wire s_tls s_pc s_con s_wire s_want s_pend s_rsp].
        rewrite PC. split; [exact T|]. split; [exact O|]. split; [exact R|]. split; [discriminate|].
        cbn [with_wire s_wire s_pend s_rsp s_want]. rewrite <- P. rewrite <- D. rewrite <- !app_assoc. f_equal.
        rewrite app_assoc, ztake_zdrop. reflexivity.
    + eexists; split; [reflexivity|discriminate].
    + eexists; split; [reflexivity|]. intros s' [= <-]. cbn [asked]. rewrite app_nil_r. apply wait_pinv; auto.
    + eexists; split; [reflexivity|]. intros s' [= <-]. cbn [asked]. rewrite app_nil_r. apply free_pinv; auto.
  - destruct I0 as (R & D0 & D). unfold below. rewrite T.
    destruct a; try (eexists; split; [reflexivity|discriminate]). destruct x.
    + destruct (Z.leb_spec 1 n) as [L1|]; cbn [andb]; [|eexists; split; [reflexivity|discriminate]].
      destruct (Z.leb_spec n (zlen (s_pend s))) as [L2|]; [|eexists; split; [reflexivity|discriminate]].
      eexists; split; [reflexivity|]. intros s' [= <-]. cbn [with_wire s_pend asked]. rewrite app_nil_r.
      destruct (zdrop n (s_pend s)) as [|y p] eqn:P.
      * match goal with |- pinv (finish ?s0) /\ _ => destruct (finish_pinv s0) as (A & B); cbn; auto end.
        rewrite (take_all n _ L1 L2 P). exact D.
      * split; [|reflexivity]. unfold pinv. cbn [with_wire s_tls s_pc s_con s_wire s_want s_pend s_rsp].
        rewrite PC. split; [exact T|]. split; [exact O|]. split; [exact R|]. split; [discriminate|].
        cbn [with_wire s_wire s_pend s_rsp s_want]. rewrite <- P. rewrite <- D. rewrite <- !app_assoc. f_equal.
        rewrite ztake_zdrop. reflexivity.
    + eexists; split; [reflexivity|discriminate].
    + eexists; split; [reflexivity|]. intros s' [= <-]. cbn [asked]. rewrite app_nil_r. apply wait_pinv; auto.
    + eexists; split; [reflexivity|]. intros s' [= <-]. cbn [asked]. rewrite app_nil_r. apply free_pinv; auto.
  - destruct I0 as (R & D0 & D & F). unfold below. rewrite T.
    destruct a; try (eexists; split; [reflexivity|discriminate]). destruct x.
    + destruct (Z.leb_spec 1 n) as [L1|]; cbn [andb]; [|eexists; split; [reflexivity|discriminate]].
      destruct (Z.leb_spec n (zlen (s_pend s))) as [L2|]; cbn [andb negb orb]; [|eexists; split; [reflexivity|discriminate]].
      eexists; split; [reflexivity|]. intros s' [= <-]. cbn [asked]. rewrite app_nil_r.
      match goal with |- pinv (ff_after ?s0) /\ _ => destruct (ff_after_pinv s0) as (A & B) end;
        cbn [with_wire with_buf s_tls s_con s_pend s_wire s_rest s_want s_fsend s_fsize]; auto.
      * rewrite <- D, <- !app_assoc. f_equal. rewrite app_assoc, ztake_zdrop. reflexivity.
      * rewrite zlen_zdrop by lia. lia.
    + eexists; split; [reflexivity|discriminate].
    + eexists; split; [reflexivity|]. intros s' [= <-]. cbn [asked]. rewrite app_nil_r. apply wait_pinv; auto.
    + eexists; split; [reflexivity|]. intros s' [= <-]. cbn [asked]. rewrite app_nil_r. apply free_pinv; auto.
  - destruct I0 as (R & D0 & D & F & L).
    destruct a; try (eexists; split; [reflexivity|discriminate]).
    destruct x as [k|].
    + destruct (Z.leb_spec 1 k) as [L1|]; [|eexists; split; [reflexivity|discriminate]]. cbv zeta.
      destruct (ztake (Z.min k (PAY - (s_off s + zlen (s_pend s)))) (s_rest s)) as [|y g] eqn:G.
      * eexists; split; [reflexivity|]. intros s' [= <-]. cbn [asked]. rewrite app_nil_r. apply free_pinv; auto.
      * eexists; split; [reflexivity|]. intros s' [= <-]. cbn [asked]. rewrite app_nil_r. split; [|reflexivity].
        assert (PO : 0 <= Z.min k (PAY - (s_off s + zlen (s_pend s)))).
        { destruct (Z.le_ge_cases 0 (Z.min k (PAY - (s_off s + zlen (s_pend s))))) as [|N]; [assumption|].
          exfalso. unfold ztake in G. replace (Z.to_nat (Z.min k (PAY - (s_off s + zlen (s_pend s))))) with 0%nat in G by lia. discriminate G. }
        pose proof (take_drop_len _ (s_rest s) PO) as ED. rewrite G in ED.
        unfold pinv. cbn. split; [exact T|]. split; [exact O|]. split; [exact R|]. split.
        -- intros X. apply app_eq_nil in X. destruct X; discriminate.
        -- split.
           ++ rewrite <- D. f_equal. rewrite <- app_assoc. f_equal. exact ED.
           ++ pose proof (f_equal zlen ED) as Z1. rewrite !zlen_app in *. lia.
    + eexists; split; [reflexivity|]. intros s' [= <-]. cbn [asked]. rewrite app_nil_r. apply free_pinv; auto.
  - destruct a; eexists; (split; [reflexivity|discriminate]).
Qed.
Lemma prun l : forall s s', pinv s -> run s l = Ok (Some s') -> pinv s' /\ s_want s' = s_want s ++ asked l.
Proof.
  induction l as [|a l IH]; cbn [run]; intros s s' TI R.
  - injection R as <-. cbn [asked]. rewrite app_nil_r. auto.
  - destruct (pstep s a TI) as (o & E & P).
    rewrite E in R. cbn [bind] in R. destruct o as [s1|]; [|discriminate]. destruct (P s1 eq_refl) as (T1 & W1).
    destruct (IH s1 s' T1 R) as (T2 & W2). split; [exact T2|].
    rewrite W2, W1, <- app_assoc. f_equal. change (a :: l) with ([a] ++ l). rewrite asked_app. reflexivity.
Qed.
Lemma prun_no_fault l : forall s, pinv s -> exists o, run s l = Ok o.
Proof.
  induction l as [|a l IH]; cbn [run]; intros s TI; [eauto|].
  destruct (pstep s a TI) as (o & E & P). rewrite E. cbn [bind]. destruct o as [s1|]; [|eauto].
  destruct (P s1 eq_refl) as (T1 & _). apply IH; auto.
Qed.
Lemma start_pinv : pinv (start false).
Proof. unfold pinv. cbn. split; [reflexivity|]. split; [reflexivity|]. left. split; [left|]; reflexivity. Qed.

(** a plain connection that waits with something unsent never sends again *)
Definition mute (s : wst) : Prop :=
  s_tls s = false /\ (s_pc s = WDead \/ ((s_pc s = WIdle \/ s_pc s = WTry) /\ rcb (s_con s) = CTry /\ opt (s_con s) = IR)).
Lemma mute_step s a s' : mute s -> step s a = Ok (Some s') -> mute s' /\ s_wire s' = s_wire s.
Proof.
  intros (T & [D|(PC & R & O)]) E; unfold step in E.
  - rewrite D in E. destruct a; discriminate.
  - assert (FR : forall x, s_tls x = false -> mute (net_free x) /\ s_wire (net_free x) = s_wire x).
    { intros x TX. unfold net_free. rewrite TX. cbn [andb]. split; [|reflexivity]. split; [exact TX|]. left. reflexivity. }
    destruct PC as [PC|PC]; rewrite PC in E; destruct a; try discriminate; rewrite ?R, ?O in E; cbn [has_r has_w] in E; try discriminate.
    + cbn in E. injection E as <-. split; [|reflexivity]. split; [exact T|]. right. cbn. auto.
    + destruct (s_tmr s); [|discriminate]. cbn [with_tmr s_con] in E. rewrite R in E. cbn in E.
      assert (X : s' = net_free (with_tmr s false) \/ s' = with_pc (with_tmr s false) WDead).
      { repeat match type of E with context [match ?x with _ => _ end] => destruct x end; injection E as <-; auto. }
      destruct X as [-> | ->]; [apply (FR (with_tmr s false)); exact T|]. split; [|reflexivity]. split; [exact T|]. left. reflexivity.
    + destruct x; injection E as <-.
      * split; [|reflexivity]. split; [exact T|]. right. cbn. auto.
      * split; [|reflexivity]. split; [exact T|]. right. cbn. auto.
      * apply FR. exact T.
Qed.
Lemma mute_silent s : mute s -> silent s.
Proof.
  intros M l. revert s M. induction l as [|a l IH]; cbn [run]; intros s M s' R; [injection R as <-; reflexivity|].
  destruct (step s a) as [[s1|]| |] eqn:E; cbn [bind] in R; try discriminate.
  destruct (mute_step s a s1 M E) as (M1 & W). rewrite <- W. apply (IH s1 M1 s' R).
Qed.
Lemma plain_silent l s : run (start false) l = Ok (Some s) -> waiting s -> s_wire s <> asked l -> silent s.
Proof.
  intros R W N. destruct (prun l _ _ start_pinv R) as ((T & O & P) & E). cbn [start s_want] in E. change ([] ++ asked l) with (asked l) in E.
  unfold waiting in W. rewrite W in P. apply mute_silent. split; [exact T|]. right. split; [left; exact W|]. split; [|exact O].
  destruct P as [(_ & X)|X]; [|exact X]. exfalso. apply N. rewrite X. exact E.
Qed.

(** without waits *)
Definition fresh (s : wst) : Prop := s_pc s <> WTry /\ (s_pc s = WIdle -> rcb (s_con s) <> CTry).
Lemma finish_fresh s : fresh (finish s).
Proof.
  unfold finish, net_free. cbn [with_tmr s_rsp s_tls s_hs]. destruct (r_keep (s_rsp s)); [|destruct (_ && _)]; split; cbn; intros; discriminate.
Qed.
Lemma ff_after_fresh s : fresh (ff_after s).
Proof.
  unfold ff_after. destruct (_ <=? _); [apply finish_fresh|]. cbv zeta. destruct (_ <? _); split; cbn; intros; discriminate.
Qed.
Lemma head_done_fresh s : fresh (head_done s).
Proof.
  unfold head_done. cbv zeta. destruct (r_body _) as [|[|y f]|[|y p]]; try apply finish_fresh; [|split; cbn; intros; discriminate].
  unfold ff_enter. cbn [with_con with_buf s_pend]. apply ff_after_fresh.
Qed.
Lemma fresh_step s a s' : pinv s -> fresh s -> a <> Snd SWaitW -> step s a = Ok (Some s') -> fresh s'.
Proof.
  intros (T & O & I0) (F1 & F2) NA E. unfold step, below in E. rewrite T in E.
  assert (FR : forall x, s_tls x = false -> fresh (net_free x)).
  { intros x TX. unfold net_free. rewrite TX. cbn [andb]. split; cbn; intros; discriminate. }
  destruct (s_pc s) eqn:PC; try contradiction.
  - destruct a; try discriminate; rewrite ?O in E; cbn [has_r has_w] in E; try discriminate.
    + destruct I0 as [([R|R] & _)|R]; [| |exfalso; apply (F2 eq_refl); exact R]; rewrite R in E; cbn in E; injection E as <-.
      * unfold accept_cb. cbn [with_tmr s_tls s_hs]. rewrite T. cbn [andb]. split; cbn; intros; discriminate.
      * split; cbn; intros; discriminate.
    + destruct (s_tmr s); [|discriminate].
      assert (X : s' = net_free (with_tmr s false) \/ s' = with_pc (with_tmr s false) WDead).
      { repeat match type of E with context [match ?x with _ => _ end] => destruct x end; injection E as <-; auto. }
      destruct X as [-> | ->]; [apply FR; exact T|]. split; cbn; intros; discriminate.
  - destruct I0 as (R & _). destruct a; try discriminate. destruct x; try discriminate.
    + injection E as <-. split; rewrite PC; intros; discriminate.
    + destruct (r_head r); [discriminate|]. injection E as <-. split; cbn; intros; discriminate.
    + injection E as <-. split; cbn; [intros; discriminate|]. intros _. rewrite R. discriminate.
    + injection E as <-. apply FR. exact T.
  - destruct a; try discriminate. destruct x; try discriminate; try contradiction.
    + destruct (_ && _); [|discriminate]. injection E as <-. cbv zeta. cbn [with_wire s_pend]. destruct (zdrop n (s_pend s)).
      * apply head_done_fresh.
      * split; cbn; rewrite PC; intros; discriminate.
    + injection E as <-. apply FR. exact T.
  - destruct a; try discriminate. destruct x; try discriminate; try contradiction.
    + destruct (_ && _); [|discriminate]. injection E as <-. cbv zeta. cbn [with_wire s_pend]. destruct (zdrop n (s_pend s)).
      * apply finish_fresh.
      * split; cbn; rewrite PC; intros; discriminate.
    + injection E as <-. apply FR. exact T.
  - destruct a; try discriminate. destruct x; try discriminate; try contradiction.
    + destruct (_ && _); [|discriminate]. injection E as <-. apply ff_after_fresh.
    + injection E as <-. apply FR. exact T.
  - destruct a; try discriminate. destruct x as [k|]; [|injection E as <-; apply FR; exact T].
    destruct (1 <=? k); [|discriminate]. cbv zeta in E. destruct (ztake _ _); injection E as <-; [apply FR; exact T|].
    split; cbn; intros; discriminate.
  - destruct a; discriminate.
Qed.
Lemma plain_done l s : ~ In (Snd SWaitW) l -> run (start false) l = Ok (Some s) -> waiting s -> s_wire s = asked l.
Proof.
  intros N R W. destruct (prun l _ _ start_pinv R) as ((T & O & P) & E). cbn [start s_want] in E. change ([] ++ asked l) with (asked l) in E.
  assert (F : forall l s0 s1, pinv s0 -> fresh s0 -> ~ In (Snd SWaitW) l -> run s0 l = Ok (Some s1) -> fresh s1).
  { clear. induction l as [|a l IH]; cbn [run]; intros s0 s1 P F N R; [injection R as <-; exact F|].
    destruct (pstep s0 a P) as (o & E & Q). rewrite E in R. cbn [bind] in R. destruct o as [s2|]; [|discriminate].
    apply (IH s2 s1); [apply (Q _ eq_refl)| |intros X; apply N; right; exact X|exact R].
    apply (fresh_step s0 a s2 P F); [intros ->; apply N; left; reflexivity|exact E]. }
  assert (FR : fresh s) by (apply (F l (start false) s start_pinv); auto; split; cbn; intros; discriminate).
  unfold waiting in W. rewrite W in P. destruct P as [(_ & X)|X]; [rewrite X; exact E|]. exfalso. apply (proj2 FR W X).
Qed.

(** ** The timer *)
Definition nohs (c : con) : Prop := rcb c <> KHandshake /\ wcb c <> KHandshake /\ cbr c <> KHandshake /\ cbw c <> KHandshake.
Definition early (s : wst) : Prop :=
  s_pc s = WDead \/
  (s_con s = Con CAccept Nul IR INo Nul Nul /\ (s_pc s = WIdle \/ s_pc s = WHs false)) \/
  ((s_pc s = WIdle \/ s_pc s = WHs true) /\ cbr (s_con s) = CAccept /\ (rcb (s_con s) = CAccept \/ rcb (s_con s) = KHandshake) /\
   (wcb (s_con s) = Nul \/ wcb (s_con s) = KHandshake) /\ (cbw (s_con s) = Nul \/ cbw (s_con s) = KHandshake) /\
   (s_pc s = WIdle -> has_r (opt (s_con s)) = true -> rcb (s_con s) = KHandshake)).
Definition is_hs (q : wpc) : bool := match q with WHs _ => true | _ => false end.
Definition lazy (q : wpc) : bool := match q with WIdle | WTry => true | _ => false end.
Definition dinv (s : wst) : Prop :=
  (lazy (s_pc s) = true -> s_tmr s = true) /\
  (if s_tls s && negb (s_hs s) then early s else nohs (s_con s) /\ is_hs (s_pc s) = false).
Definition active (s : wst) : Prop := lazy (s_pc s) = false /\ is_hs (s_pc s) = false.
(** the flags do not change, the callbacks stay free of the handshake *)
Definition same (s s' : wst) : Prop := s_tls s' = s_tls s /\ s_hs s' = s_hs s /\ (nohs (s_con s) -> nohs (s_con s')).
Lemma same_refl s : same s s. Proof. unfold same; auto. Qed.
Lemma same_trans a b c : same a b -> same b c -> same a c.
Proof. intros (A & B & C) (D & E & F). unfold same. rewrite D, E. auto. Qed.
Lemma same_fields a b : s_tls b = s_tls a -> s_hs b = s_hs a -> s_con b = s_con a -> same a b.
Proof. intros A B C. unfold same. rewrite A, B, C. auto. Qed.
Lemma free_active s : active (net_free s) /\ same s (net_free s).
Proof. unfold net_free. destruct (_ && _); (split; [split; reflexivity|apply same_fields; reflexivity]). Qed.
Lemma finish_active s : active (finish s) /\ same s (finish s).
Proof.
  unfold finish. cbv zeta. destruct (r_keep _).
  - split; [split; reflexivity|]. split; [reflexivity|]. split; [reflexivity|]. intros (A & B & C & D). cbn. unfold nohs. cbn. repeat split; auto; discriminate.
  - destruct (free_active (with_tmr s false)) as (A & B). split; [exact A|]. eapply same_trans; [|exact B]. apply same_fields; reflexivity.
Qed.
Lemma ff_after_active s : active (ff_after s) /\ same s (ff_after s).
Proof.
  unfold ff_after. destruct (_ <=? _); [apply finish_active|]. cbv zeta. destruct (_ <? _); (split; [split; reflexivity|apply same_fields; reflexivity]).
Qed.
Lemma ff_enter_active s : active (ff_enter s) /\ same s (ff_enter s).
Proof. unfold ff_enter. destruct (s_pend s); [apply ff_after_active|]. split; [split; reflexivity|apply same_fields; reflexivity]. Qed.
Lemma head_done_active s : active (head_done s) /\ same s (head_done s).
Proof.
  assert (N : forall (x : wst) p off r f z k, k <> KHandshake ->
    same x (with_con (with_buf (with_tmr x false) p off r f z) (set_wcb k (s_con x)))).
  { intros x p off r f z k K. split; [reflexivity|]. split; [reflexivity|]. intros (A & B & C & D). unfold nohs. cbn. auto. }
  assert (F : active (finish (with_tmr s false)) /\ same s (finish (with_tmr s false))).
  { destruct (finish_active (with_tmr s false)) as (A & B). split; [exact A|]. eapply same_trans; [|exact B]. apply same_fields; reflexivity. }
  unfold head_done. cbv zeta. cbn [with_tmr s_rsp s_con]. destruct (r_body (s_rsp s)) as [|[|y f]|[|y p]]; try exact F.
  - match goal with |- active (ff_enter ?x) /\ _ => destruct (ff_enter_active x) as (A & B) end.
    split; [exact A|]. eapply same_trans; [|exact B]. apply (N s). discriminate.
  - split; [split; reflexivity|]. eapply same_trans; [apply (N s (y :: p) 0 [] 0 0 CApi); discriminate|]. apply same_fields; reflexivity.
Qed.
Lemma nohs_opt o c : nohs c -> nohs (set_opt o c). Proof. exact (fun H => H). Qed.
Lemma nohs_typ o c : nohs c -> nohs (set_typ o c). Proof. exact (fun H => H). Qed.
Lemma nohs_rcb k c : k <> KHandshake -> nohs c -> nohs (set_rcb k c). Proof. intros K (A & B & C & D). unfold nohs. cbn. auto. Qed.
Lemma nohs_wcb k c : k <> KHandshake -> nohs c -> nohs (set_wcb k c). Proof. intros K (A & B & C & D). unfold nohs. cbn. auto. Qed.
Lemma nohs_cbr k c : k <> KHandshake -> nohs c -> nohs (set_cbr k c). Proof. intros K (A & B & C & D). unfold nohs. cbn. auto. Qed.
Lemma nohs_cbw k c : k <> KHandshake -> nohs c -> nohs (set_cbw k c). Proof. intros K (A & B & C & D). unfold nohs. cbn. auto. Qed.
Lemma nohs_save c : nohs c -> nohs (save c).
Proof.
  intros N. unfold save. cbv zeta.
  set (c1 := match typ c with INo => set_typ (opt c) c | _ => c end).
  assert (N1 : nohs c1) by (subst c1; destruct (typ c); exact N). clearbody c1.
  set (c2 := match cbr c1 with Nul => match rcb c1 with Nul => c1 | k => set_cbr k c1 end | _ => c1 end).
  assert (N2 : nohs c2).
  { subst c2. pose proof N1 as (A & B & C & D). destruct (cbr c1); auto. destruct (rcb c1); auto; apply nohs_cbr; auto. }
  clearbody c2. pose proof N2 as (A & B & C & D). destruct (cbw c2); auto. destruct (wcb c2); auto; apply nohs_cbw; auto.
Qed.
Lemma nohs_restore c : nohs c -> nohs (restore_typ c).
Proof. intros N. unfold restore_typ. destruct (typ c); exact N. Qed.
Local Transparent read write.
Lemma nohs_read r c : nohs c -> nohs (read r c).
Proof.
  intros N. unfold read. destruct r.
  - cbv zeta. pose proof (nohs_restore c N) as M. pose proof M as (A & B & C & D).
    destruct (cbw (restore_typ c)); auto; apply nohs_cbw; try discriminate; apply nohs_wcb; auto.
  - apply nohs_opt, nohs_save, N.
  - apply nohs_opt, nohs_wcb; [discriminate|]. apply nohs_save, N.
  - exact N.
Qed.
Lemma nohs_write r c : nohs c -> nohs (write r c).
Proof.
  intros N. unfold write. destruct r.
  - cbv zeta. pose proof (nohs_restore c N) as M. pose proof M as (A & B & C & D).
    destruct (cbr (restore_typ c)); auto; apply nohs_cbr; try discriminate; apply nohs_rcb; auto.
  - apply nohs_opt, nohs_rcb; [discriminate|]. apply nohs_save, N.
  - apply nohs_opt, nohs_save, N.
  - exact N.
Qed.
Local Opaque read write.
Lemma same_below f s : (forall c, nohs c -> nohs (f c)) -> same s (below f s).
Proof. intros F. unfold below. destruct (s_tls s) eqn:T; [|apply same_refl]. split; [reflexivity|]. split; [reflexivity|]. apply F. Qed.
Lemma enter_app_ok s k s' : s_tls s && negb (s_hs s) = false -> k <> KHandshake -> enter_app s k = Ok s' ->
  is_hs (s_pc s') = false /\ (lazy (s_pc s') = true -> s_tmr s' = s_tmr s) /\ same s s'.
Proof.
  intros T N E. destruct k as [|n| | |]; try discriminate; try contradiction.
  assert (P : forall q x, enter_app s (App x) = Ok s' -> Ok s' = Ok (with_pc s q) -> is_hs q = false ->
    is_hs (s_pc s') = false /\ (lazy (s_pc s') = true -> s_tmr s' = s_tmr s) /\ same s s').
  { intros q x _ [= ->] Q. cbn. split; [exact Q|]. split; [reflexivity|]. apply same_fields; reflexivity. }
  unfold enter_app in E. repeat match type of E with context [match ?x with _ => _ end] => destruct x end; try discriminate;
    injection E as <-;
    lazymatch goal with
    | |- context [accept_cb] =>
        unfold accept_cb; cbn [with_tmr s_tls s_hs]; rewrite T; cbn; split; [reflexivity|]; split; [discriminate|];
        split; [reflexivity|]; split; [reflexivity|]; intros (A & B & C & D); unfold nohs; cbn; repeat split; auto; discriminate
    | |- context [ff_enter] =>
        destruct (ff_enter_active s) as ((A1 & A2) & B); split; [exact A2|]; split; [rewrite A1; discriminate|exact B]
    | |- _ => split; [reflexivity|]; split; [reflexivity|]; apply same_fields; reflexivity
    end.
Qed.
Lemma enter_ok s k s' : s_tls s && negb (s_hs s) = false -> nohs (s_con s) -> k <> KHandshake -> enter s k = Ok s' ->
  is_hs (s_pc s') = false /\ (lazy (s_pc s') = true -> s_tmr s' = s_tmr s) /\ same s s'.
Proof.
  intros T (A & B & _) N E. unfold enter in E.
  destruct k; try (apply (enter_app_ok s _ s' T N E)).
  - destruct (rcb (s_con s)) eqn:R; try discriminate; try (apply (enter_app_ok s _ s' T) in E; auto; discriminate).
  - destruct (wcb (s_con s)) eqn:R; try discriminate; try (apply (enter_app_ok s _ s' T) in E; auto; discriminate).
Qed.
(** the end of a step in the later phase *)
Lemma late s s' : s_tls s && negb (s_hs s) = false -> nohs (s_con s) -> same s s' -> is_hs (s_pc s') = false ->
  (lazy (s_pc s') = true -> s_tmr s' = true) -> dinv s'.
Proof. intros T N (A & B & C) H L. split; [exact L|]. rewrite A, B, T. auto. Qed.
Lemma late_active s s' : s_tls s && negb (s_hs s) = false -> nohs (s_con s) -> active s' /\ same s s' -> dinv s'.
Proof. intros T N ((A & B) & C). apply (late s); auto. rewrite A. discriminate. Qed.

Lemma dstep_early s a s' : s_tls s && negb (s_hs s) = true -> early s -> (lazy (s_pc s) = true -> s_tmr s = true) ->
  step s a = Ok (Some s') -> dinv s'.
Proof.
  intros T I0 L E. assert (T1 : s_tls s = true /\ s_hs s = false).
  { destruct (s_tls s), (s_hs s); try discriminate; auto. }
  destruct T1 as (T1 & T2). unfold step in E.
  assert (DEAD : forall x, s_pc x = WDead -> s_tls x = true -> s_hs x = false -> dinv x).
  { intros x P Q R. split; [rewrite P; discriminate|]. rewrite Q, R. cbn [andb negb]. left. exact P. }
  assert (EXP : s_pc s = WIdle -> (if s_tmr s then let s := with_tmr s false in match rcb (s_con s), wcb (s_con s) with
        | App 9, _ | _, App 9 => Ok (Some (with_pc s WDead)) | _, _ => Ok (Some (net_free s)) end else Ok None) = Ok (Some s') -> dinv s').
  { clear E. intros _ E. destruct (s_tmr s); [|discriminate]. cbv zeta in E.
    assert (X : s' = net_free (with_tmr s false) \/ s' = with_pc (with_tmr s false) WDead).
    { repeat match type of E with context [match ?x with _ => _ end] => destruct x end; injection E as <-; auto. }
    destruct X as [-> | ->]; [unfold net_free; cbn [with_tmr s_tls s_hs]; rewrite T1, T2; cbn [andb]|]; apply DEAD; auto. }
  assert (HSW : forall r, (r = WantR \/ r = WantW) -> s' = wait (with_con s (handshake r (s_con s))) ->
    (s_con s = Con CAccept Nul IR INo Nul Nul \/
     (cbr (s_con s) = CAccept /\ (rcb (s_con s) = CAccept \/ rcb (s_con s) = KHandshake) /\
      (wcb (s_con s) = Nul \/ wcb (s_con s) = KHandshake) /\ (cbw (s_con s) = Nul \/ cbw (s_con s) = KHandshake))) -> dinv s').
  { clear E EXP I0 L. intros r RR -> C. split; [reflexivity|]. cbn [wait with_pc with_tmr with_con s_tls s_hs]. rewrite T. right. right.
    cbn [wait with_pc with_tmr with_con s_con s_pc]. split; [left; reflexivity|].
    destruct (s_con s) as [a1 a2 a3 a4 a5 a6]. cbn [rcb wcb cbr cbw] in C. destruct C as [C|(C1 & C2 & C3 & C4)].
    - injection C as -> -> -> -> -> ->. destruct RR as [-> | ->]; cbn; auto 10.
      split; [reflexivity|]. split; [auto|]. split; [auto|]. split; [auto|]. discriminate.
    - subst a5. destruct RR as [-> | ->]; destruct C2 as [-> | ->], C3 as [-> | ->], C4 as [-> | ->], a4; cbn;
        (split; [reflexivity|]); (split; [auto|]); (split; [auto|]); (split; [auto|]); auto; discriminate. }
  destruct I0 as [D|[(C & [D|D])|([D|D] & C1 & C2 & C3 & C4 & C5)]]; rewrite D in *.
  - destruct a; discriminate.
  - destruct a; try discriminate; try (apply EXP; auto; fail); rewrite C in E; cbn in E; try discriminate.
    injection E as <-. unfold accept_cb. cbn [with_tmr s_tls s_hs]. rewrite T. split; [discriminate|].
    cbn [with_pc with_tmr s_tls s_hs]. rewrite T. right. left. cbn. split; [exact C|auto].
  - destruct a; try discriminate. destruct r.
    + injection E as <-. split; [discriminate|]. cbn [with_pc cbs with_con with_hs s_tls s_hs s_con s_pc]. rewrite T1. cbn [andb negb].
      rewrite C. cbn. split; [repeat split; discriminate|reflexivity].
    + injection E as E. apply (HSW WantR); auto.
    + injection E as E. apply (HSW WantW); auto.
    + injection E as <-. apply DEAD; auto.
  - destruct a; try discriminate; try (apply EXP; auto; fail).
    + destruct (has_r (opt (s_con s))) eqn:H; [|discriminate]. rewrite (C5 eq_refl eq_refl) in E. cbn in E. injection E as <-.
      split; [discriminate|]. cbn [with_pc s_tls s_hs]. rewrite T. right. right. cbn. split; [auto|]. repeat (split; [auto; fail|]). discriminate.
    + destruct (has_w (opt (s_con s))) eqn:H; [|discriminate]. destruct C3 as [C3|C3]; rewrite C3 in E; cbn in E; injection E as <-.
      * split; [rewrite D; exact L|]. rewrite T. right. right. rewrite D. split; [auto|]. repeat (split; [auto; fail|]). exact C5.
      * split; [discriminate|]. cbn [with_pc s_tls s_hs]. rewrite T. right. right. cbn. split; [auto|]. repeat (split; [auto; fail|]). discriminate.
  - destruct a; try discriminate. destruct r.
    + cbn [with_con with_tmr with_hs s_con] in E. destruct (s_con s) as [a1 a2 a3 a4 a5 a6] eqn:EC. cbn [rcb wcb cbr cbw] in *. subst a5.
      destruct C3 as [-> | ->], C4 as [-> | ->].
      2-4: destruct C2 as [-> | ->], a4; discriminate E.
      assert (X : exists o, handshake_end (Con a1 Nul a3 a4 CAccept Nul) = Con CAccept Nul o a4 Nul Nul).
      { destruct a4; eexists; reflexivity. }
      destruct X as (o & X). rewrite X in E. cbn in E. unfold accept_cb in E. cbn in E. rewrite andb_false_r in E. injection E as <-.
      split; [discriminate|]. cbn. rewrite andb_false_r. split; [|reflexivity]. unfold nohs. cbn. repeat split; discriminate.
    + injection E as E. apply (HSW WantR); auto.
    + injection E as E. apply (HSW WantW); auto.
    + injection E as <-. apply DEAD; auto.
Qed.
Lemma dstep s a s' : dinv s -> step s a = Ok (Some s') -> dinv s'.
Proof.
  intros (L & I0) E. destruct (s_tls s && negb (s_hs s)) eqn:T; [apply (dstep_early s a s' T I0 L E)|].
  destruct I0 as (N & H). pose proof (late_active s s' T N) as LA. pose proof (late s s' T N) as LT. unfold step in E.
  assert (BR : forall r, same s (below (read r) s)) by (intros r; apply same_below; intros c; apply nohs_read).
  assert (BW : forall r, same s (below (write r) s)) by (intros r; apply same_below; intros c; apply nohs_write).
  assert (FF : forall x, same s x -> s_tls x = s_tls x) by reflexivity.
  assert (FREE : forall x, same s x -> s' = net_free x -> dinv s').
  { intros x SX ->. apply LA. destruct (free_active x) as (A & B). split; [exact A|]. eapply same_trans; eauto. }
  assert (WAIT : forall x, same s x -> s' = wait x -> dinv s').
  { intros x SX ->. apply LT; [|reflexivity|reflexivity]. eapply same_trans; [exact SX|]. apply same_fields; reflexivity. }
  assert (WR : forall p w x, same x (with_wire x p w)) by (intros; apply same_fields; reflexivity).
  assert (SE : forall x y, same s x -> active y /\ same x y -> s' = y -> dinv s').
  { intros x y SX (A & B) ->. apply LA. split; [exact A|]. eapply same_trans; eauto. }
  destruct (s_pc s) eqn:PC; try discriminate H.
  - assert (EN : forall k x, k <> KHandshake -> enter s k = Ok x -> s' = x -> dinv s').
    { intros k x K EK ->. destruct (enter_ok s k x T N K EK) as (A & B & C). apply LT; auto. intros Z. rewrite (B Z). apply L. reflexivity. }
    destruct N as (N1 & N2 & N3 & N4).
    destruct a; try discriminate.
    + destruct (has_r _); [|discriminate]. destruct (rcb (s_con s)) as [|n| | |] eqn:R; [injection E as <-|..]; try contradiction.
      1: { apply LT; [apply same_refl|rewrite PC; reflexivity|rewrite PC; exact L]. }
      all: match type of E with context [enter ?s ?k] => destruct (enter s k) as [x| |] eqn:EK; try discriminate; cbn [bind] in E; injection E as E; apply (EN k x); auto; discriminate end.
    + destruct (has_w _); [|discriminate]. destruct (wcb (s_con s)) as [|n| | |] eqn:R; [injection E as <-|..]; try contradiction.
      1: { apply LT; [apply same_refl|rewrite PC; reflexivity|rewrite PC; exact L]. }
      all: match type of E with context [enter ?s ?k] => destruct (enter s k) as [x| |] eqn:EK; try discriminate; cbn [bind] in E; injection E as E; apply (EN k x); auto; discriminate end.
    + destruct (s_tmr s); [|discriminate]. cbv zeta in E.
      assert (X : s' = net_free (with_tmr s false) \/ s' = with_pc (with_tmr s false) WDead).
      { repeat match type of E with context [match ?x with _ => _ end] => destruct x end; injection E as <-; auto. }
      destruct X as [X|X]; [apply (FREE _ (same_fields s (with_tmr s false) eq_refl eq_refl eq_refl) X)|].
      subst s'. apply LA. split; [split; reflexivity|apply same_fields; reflexivity].
  - destruct a; try discriminate. destruct x.
    + injection E as E. subst s'. apply LT; [exact (BR Done)|..]; unfold below; destruct (s_tls s); cbn; rewrite PC; try reflexivity; discriminate.
    + destruct (r_head r); [discriminate|]. injection E as E. refine (SE s _ (same_refl s) _ (eq_sym E)).
      split; [split; reflexivity|]. destruct (BR Done) as (A & B & C). split; [exact A|]. split; [exact B|].
      intros Z. destruct (C Z) as (A1 & A2 & A3 & A4). unfold nohs. cbn. repeat split; auto; discriminate.
    + injection E as E. apply (WAIT _ (BR WantR) (eq_sym E)).
    + destruct (s_tls s); [|discriminate]. injection E as E. apply (WAIT _ (BR WantW) (eq_sym E)).
    + injection E as E. apply (FREE _ (same_refl s) (eq_sym E)).
  - destruct a; try discriminate. destruct x; injection E as E; try (apply (FREE _ (same_refl s) (eq_sym E)));
      subst s'; (apply LT; [apply same_fields; reflexivity|reflexivity|intros _; apply L; reflexivity]).
  - destruct a; try discriminate. destruct x.
    + match type of E with (if ?b then _ else _) = _ => destruct b; [|discriminate] end. cbv zeta in E. injection E as E. cbn [with_wire s_pend] in E. destruct (zdrop n (s_pend s)).
      * apply (SE _ _ (same_trans _ _ _ (BW Done) (WR _ _ _)) (head_done_active _) (eq_sym E)).
      * subst s'. apply LT; [exact (same_trans _ _ _ (BW Done) (WR _ _ _))|..]; unfold below; destruct (s_tls s); cbn; rewrite PC; try reflexivity; discriminate.
    + destruct (s_tls s); [|discriminate]. injection E as E. apply (WAIT _ (BW WantR) (eq_sym E)).
    + injection E as E. apply (WAIT _ (BW WantW) (eq_sym E)).
    + injection E as E. apply (FREE _ (same_refl s) (eq_sym E)).
  - destruct a; try discriminate. destruct x.
    + match type of E with (if ?b then _ else _) = _ => destruct b; [|discriminate] end. cbv zeta in E. injection E as E. cbn [with_wire s_pend] in E. destruct (zdrop n (s_pend s)).
      * apply (SE _ _ (same_trans _ _ _ (BW Done) (WR _ _ _)) (finish_active _) (eq_sym E)).
      * subst s'. apply LT; [exact (same_trans _ _ _ (BW Done) (WR _ _ _))|..]; unfold below; destruct (s_tls s); cbn; rewrite PC; try reflexivity; discriminate.
    + destruct (s_tls s); [|discriminate]. injection E as E. apply (WAIT _ (BW WantR) (eq_sym E)).
    + injection E as E. apply (WAIT _ (BW WantW) (eq_sym E)).
    + injection E as E. apply (FREE _ (same_refl s) (eq_sym E)).
  - destruct a; try discriminate. destruct x.
    + match type of E with (if ?b then _ else _) = _ => destruct b; [|discriminate] end. injection E as E.
      refine (SE _ _ _ (ff_after_active _) (eq_sym E)). eapply same_trans; [exact (BW Done)|]. apply same_fields; reflexivity.
    + destruct (s_tls s); [|discriminate]. injection E as E. apply (WAIT _ (BW WantR) (eq_sym E)).
    + injection E as E. apply (WAIT _ (BW WantW) (eq_sym E)).
    + injection E as E. apply (FREE _ (same_refl s) (eq_sym E)).
  - destruct a; try discriminate. destruct x as [k|]; [|injection E as E; apply (FREE _ (same_refl s) (eq_sym E))].
    destruct (1 <=? k); [|discriminate]. cbv zeta in E. destruct (ztake _ _); injection E as E; [apply (FREE _ (same_refl s) (eq_sym E))|].
    subst s'. apply LA. split; [split; reflexivity|apply same_fields; reflexivity].
  - destruct a; try discriminate. destruct N as (N1 & N2 & N3 & N4). destruct r; injection E as <-.
    1,4: apply LA; split; [split; reflexivity|apply same_fields; reflexivity].
    all: apply LT; [|reflexivity|reflexivity]; split; [reflexivity|]; split; [reflexivity|]; intros _; unfold nohs; cbn; repeat split; auto; discriminate.
  - destruct a; discriminate.
Qed.
Lemma drun l : forall s s', dinv s -> run s l = Ok (Some s') -> dinv s'.
Proof.
  induction l as [|a l IH]; cbn [run]; intros s s' D R; [injection R as <-; exact D|].
  destruct (step s a) as [[s1|]| |] eqn:E; cbn [bind] in R; try discriminate. apply (IH s1 s'); auto. apply (dstep s a s1 D E).
Qed.
Lemma start_dinv t : dinv (start t).
Proof.
  split; [reflexivity|]. destruct t; cbn.
  - right. left. cbn. auto.
  - split; [|reflexivity]. unfold nohs. cbn. repeat split; discriminate.
Qed.
Lemma deadline t l s : run (start t) l = Ok (Some s) -> waiting s -> s_tmr s = true.
Proof. intros R W. destruct (drun l _ _ (start_dinv t) R) as (L & _). apply L. unfold waiting in W. rewrite W. reflexivity. Qed.

(** what comes after the timer *)
Definition closing (s : wst) : Prop :=
  s_pc s = WDead \/ s_pc s = WShut \/
  (s_pc s = WIdle /\ ((rcb (s_con s) = CShut /\ wcb (s_con s) = Nul) \/ (rcb (s_con s) = Nul /\ wcb (s_con s) = CShut))).
Lemma closing_step s a s' : closing s -> step s a = Ok (Some s') -> closing s' /\ s_wire s' = s_wire s.
Proof.
  intros C E. unfold step in E. destruct C as [C|[C|(C & D)]]; rewrite C in E.
  - destruct a; discriminate.
  - destruct a; try discriminate. destruct r; injection E as <-; (split; [|reflexivity]); unfold closing; cbn; auto.
    + right. right. split; [reflexivity|]. auto.
    + right. right. split; [reflexivity|]. auto.
  - destruct a; try discriminate.
    + destruct (has_r _); [|discriminate]. destruct D as [(D1 & D2)|(D1 & D2)]; rewrite D1 in E; cbn in E; injection E as <-.
      * split; [|reflexivity]. right. left. reflexivity.
      * split; [|reflexivity]. right. right. auto.
    + destruct (has_w _); [|discriminate]. destruct D as [(D1 & D2)|(D1 & D2)]; rewrite D2 in E; cbn in E; injection E as <-.
      * split; [|reflexivity]. right. right. auto.
      * split; [|reflexivity]. right. left. reflexivity.
    + destruct (s_tmr s); [|discriminate]. cbn [with_tmr s_con] in E. destruct D as [(D1 & D2)|(D1 & D2)]; rewrite D1, D2 in E; cbn in E; injection E as <-;
        (split; [|reflexivity]); left; reflexivity.
Qed.
Lemma closing_run l : forall s s', closing s -> run s l = Ok (Some s') -> closing s' /\ s_wire s' = s_wire s.
Proof.
  induction l as [|a l IH]; cbn [run]; intros s s' C R; [injection R as <-; auto|].
  destruct (step s a) as [[s1|]| |] eqn:E; cbn [bind] in R; try discriminate. destruct (closing_step s a s1 C E) as (C1 & W).
  destruct (IH s1 s' C1 R) as (C2 & W2). split; [exact C2|congruence].
Qed.
Lemma expire_closing s s' : waiting s -> step s Expire = Ok (Some s') -> (s_pc s' = WDead \/ s_pc s' = WShut) /\ s_wire s' = s_wire s.
Proof.
  unfold waiting, step. intros -> E. destruct (s_tmr s); [|discriminate]. cbv zeta in E.
  assert (X : s' = net_free (with_tmr s false) \/ s' = with_pc (with_tmr s false) WDead).
  { repeat match type of E with context [match ?x with _ => _ end] => destruct x end; injection E as <-; auto. }
  destruct X as [-> | ->]; [|auto]. unfold net_free. destruct (_ && _); auto.
Qed.
Lemma closing_expire s : closing s -> waiting s -> s_tmr s = true -> exists s', step s Expire = Ok (Some s') /\ s_pc s' = WDead.
Proof.
  intros C W T. destruct C as [C|[C|(C & D)]]; try (unfold waiting in W; rewrite W in C; discriminate).
  unfold step. rewrite C, T. cbn [with_tmr s_con]. destruct D as [(D1 & D2)|(D1 & D2)]; rewrite D1, D2; cbn; eauto.
Qed.
