(** * A worker told to stop stops: C114 *)
From Verif Require Import Base Heap_Model Heap_Proofs Timer_Model Timer_Props Stop_Model.
Local Arguments Z.add : simpl never.
Local Arguments Z.sub : simpl never.

(** ** Specification *)

(** milliseconds spent waiting; number of waits; number of times the flag is tested *)
Fixpoint waited (l : list act) : Z :=
  match l with [] => 0 | APass dt :: r => dt + waited r | _ :: r => waited r end.
Fixpoint wakes (l : list act) : Z :=
  match l with [] => 0 | AWake _ :: r => 1 + wakes r | _ :: r => wakes r end.
Fixpoint tests (l : list act) : Z :=
  match l with [] => 0 | ATest :: r => 1 + tests r | _ :: r => tests r end.

(** the clock is not set back, and no delay is longer than [D] ms *)
Fixpoint calm (D now : Z) (l : list act) : Prop :=
  match l with
  | [] => True
  | AWake t :: r => now <= t /\ calm D t r
  | ATm (TArm _ d) :: r => d <= D /\ calm D now r
  | _ :: r => calm D now r
  end.

(** the property: from the signal on, no time is spent waiting *)
Definition C114_property : Prop := forall now l1 l2 es s',
  wrun (wk0 now) (l1 ++ ASig :: l2) = Ok (Some (es, s')) -> waited l2 = 0.

(** ** The flag *)
Lemma wrun_app : forall a s b es s', wrun s (a ++ b) = Ok (Some (es, s')) ->
  exists e1 s1 e2, wrun s a = Ok (Some (e1, s1)) /\ wrun s1 b = Ok (Some (e2, s')) /\ es = e1 ++ e2.
Proof.
  induction a as [|x a IH]; intros s b es s' E; cbn [app wrun] in *.
  - exists [], s, es. auto.
  - apply bind_ok in E as ([[e q]|] & E1 & E); [|discriminate]. cbn [fst snd] in E.
    apply bind_ok in E as ([[e2 q2]|] & E2 & E); [|discriminate]. injection E as <- <-. cbn [fst snd].
    destruct (IH _ _ _ _ E2) as (e3 & s3 & e4 & A & B & ->).
    exists (e ++ e3), s3, e4. rewrite E1. cbn [bind snd]. rewrite A. cbn [bind fst snd]. rewrite app_assoc. auto.
Qed.

(** how much waiting is still possible once the flag is set *)
Definition left_ (B : Z) (s : wk) : Z :=
  match w_pc s with PExp => B | PWait w false => w | _ => 0 end.
Definition wleft (s : wk) : Z :=
  match w_pc s with PExp | PWait _ _ => 1 | _ => 0 end.
Definition tleft (s : wk) : Z := match w_pc s with PStop => 0 | _ => 1 end.

(** the state of the timers: nothing is due later than [D] from now *)
Definition soon (D : Z) (s : tst) (es : list tev) : Prop :=
  TI s es /\ forall x k, deadline es x = Some k -> k <= t_now s + D.
Definition good (B D : Z) (s : wk) (es : list tev) : Prop :=
  soon D (w_t s) es /\ match w_pc s with PWait w _ => 0 <= w <= B | _ => True end.

Lemma tstep_soon D s es i e s' : soon D s es -> tstep s i = Ok (e, s') -> accepted e ->
  match i with TTick t => t_now s <= t | TArm _ d => d <= D | _ => True end ->
  soon D s' (es ++ [e]) /\
  t_now s' = match i with TTick t => t | _ => t_now s end.
Proof.
  intros (T & N) E A C.
  destruct (TI_step s es i T) as (e' & s1 & E1 & _ & T1 & M). rewrite E in E1. injection E1 as <- <-.
  specialize (T1 A). destruct i as [t|x d|x| |]; cbn [tstep] in E.
  - injection E as <- <-. split; [|reflexivity]. split; [exact T1|]. intros x k K. rewrite deadline_app in K. cbn in K. specialize (N _ _ K). cbn. lia.
  - destruct (TI_arm s es x d T) as (ok & s3 & E3 & NOW & _). rewrite E3 in E. cbn [bind fst snd] in E. injection E as <- <-.
    cbn in A. subst ok. split; [|exact NOW]. split; [exact T1|]. intros y k K. rewrite deadline_app in K. cbn in K. rewrite NOW.
    destruct (x =? y); [injection K as <-; lia|exact (N _ _ K)].
  - destruct (TI_del s es x (EDel x) T) as (s3 & E3 & _ & NOW & _); [reflexivity|]. rewrite E3 in E. cbn [bind] in E. injection E as <- <-.
    split; [|exact NOW]. split; [exact T1|]. intros y k K. rewrite deadline_app in K. cbn in K. rewrite NOW.
    destruct (x =? y); [discriminate|exact (N _ _ K)].
  - injection E as <- <-. split; [|reflexivity]. split; [exact T1|]. intros x k K. rewrite deadline_app in K. cbn in K. specialize (N _ _ K). cbn. lia.
  - unfold timer_iter in E. apply bind_ok in E as (m & EM & E). 
    assert (SAME : forall w, Ok (EDone w (t_now s), mkT (t_heap s) (t_set s) (t_now s) false) = Ok (e, s') ->
       soon D s' (es ++ [e]) /\ t_now s' = t_now s).
    { intros w [= <- <-]. split; [|reflexivity]. split; [exact T1|]. intros x k K. rewrite deadline_app in K. cbn in K. exact (N _ _ K). }
    destruct m as [x|]; [|eapply SAME; exact E].
    destruct (t_now s <? hkey (t_heap s) x); [eapply SAME; exact E|].
    destruct (TI_del s es x (EFire x (t_now s)) T) as (s3 & E3 & _ & NOW & _); [reflexivity|]. rewrite E3 in E. cbn [bind] in E. injection E as <- <-.
    split; [|exact NOW]. split; [exact T1|]. intros y k K. rewrite deadline_app in K. cbn in K. rewrite NOW.
    destruct (x =? y); [discriminate|exact (N _ _ K)].
Qed.

Lemma wstep_good D s es a e s' : 0 <= D < 2147483648 -> good (Z.max 200 D) D s es -> wstep s a = Ok (Some (e, s')) -> Forall accepted e ->
  calm D (t_now (w_t s)) [a] ->
  good (Z.max 200 D) D s' (es ++ e) /\ t_now (w_t s') = match a with AWake t => t | _ => t_now (w_t s) end.
Proof.
  intros HD (SO & W) E A C. 
  assert (TS : forall i pc' q', (let* q := tstep (w_t s) i in Ok (Some ([fst q], Wk pc' q' (snd q)))) = Ok (Some (e, s')) ->
     match i with TTick t => t_now (w_t s) <= t | TArm _ d => d <= D | _ => True end ->
     match pc' with PWait _ _ => False | _ => True end ->
     good (Z.max 200 D) D s' (es ++ e) /\ t_now (w_t s') = match i with TTick t => t | _ => t_now (w_t s) end).
  { intros i pc' q' E1 CI NP. apply bind_ok in E1 as ((ev, s1) & E1 & E2). injection E2 as <- <-. cbn [fst snd w_t w_pc] in *.
    destruct (tstep_soon D _ es i _ _ SO E1 (Forall_inv A) CI) as (S1 & NOW). split; [|exact NOW]. split; [exact S1|].
    cbn [w_pc]. destruct pc'; auto. contradiction. }
  unfold wstep in E. destruct s as [p q t]. cbn [w_pc w_quit w_t] in *.
  assert (NE : forall p' q', match p' with PWait w _ => 0 <= w <= Z.max 200 D | _ => True end -> Ok (Some ([], Wk p' q' t)) = Ok (Some (e, s')) -> good (Z.max 200 D) D s' (es ++ e) /\ t_now (w_t s') = t_now t).
  { intros p' q' H [= <- <-]. rewrite app_nil_r. split; [|reflexivity]. split; [exact SO|exact H]. }
  destruct p as [| |w [|]| |], a as [| |i|dt|t1|]; try discriminate; try (destruct i as [t2|x d|x| |]; try discriminate);
    try (apply NE in E; [exact E|exact Logic.I || exact W]).
  - destruct q; [apply NE in E; [exact E|exact Logic.I]|]. apply TS in E; [exact E|exact Logic.I|exact Logic.I].
  - apply TS in E; [exact E|cbn in C; tauto|exact Logic.I].
  - apply TS in E; [exact E|exact Logic.I|exact Logic.I].
  - apply bind_ok in E as ((ev, s1) & E1 & E2). cbn [fst snd] in E2.
    assert (AE : accepted ev /\ e = [ev] /\ w_t s' = s1) by (destruct ev; injection E2 as <- <-; (split; [exact (Forall_inv A)|split; reflexivity])).
    destruct AE as (AE & -> & WT).
    destruct (tstep_soon D _ es TIter _ _ SO E1 AE Logic.I) as (S1 & NOW). rewrite WT. split; [|exact NOW]. split; [rewrite WT; exact S1|].
    destruct ev as [| | | | |w t9]; injection E2 as <-; cbn [w_pc]; auto.
    destruct SO as (TT & N). destruct (TI_step t es TIter TT) as (e' & s2 & E3 & _ & _ & M). rewrite E1 in E3. injection E3 as <- <-.
    destruct M as (-> & [(-> & _)|(x & k & K & L & -> & _)]); [lia|].
    specialize (N _ _ K). unfold cast_int. lia.
  - apply TS in E; [exact E|cbn in C; tauto|exact Logic.I].
  - destruct ((0 <? dt) && ((w <? 0) || (dt <=? w)))%bool eqn:B; [|discriminate].
    apply NE in E; [exact E|]. destruct (Z.ltb_spec w 0); lia.
  - apply TS in E; [exact E|cbn in C; tauto|exact Logic.I].
  - apply TS in E; [exact E|cbn in C; tauto|exact Logic.I].
  - apply TS in E; [exact E|exact Logic.I|exact Logic.I].
Qed.

Lemma calm_app D : forall a b now, calm D now (a ++ b) -> calm D now a.
Proof.
  induction a as [|x a IH]; intros b now C; cbn [app calm] in *; [exact Logic.I|].
  destruct x as [| |i|dt|t|]; try (eapply IH; exact C); [|destruct C; split; eauto].
  destruct i; try (eapply IH; exact C). destruct C; split; eauto.
Qed.
Lemma wrun_good D : 0 <= D < 2147483648 -> forall l s es e s', good (Z.max 200 D) D s es -> wrun s l = Ok (Some (e, s')) -> Forall accepted e ->
  forall r, calm D (t_now (w_t s)) (l ++ r) -> good (Z.max 200 D) D s' (es ++ e) /\ calm D (t_now (w_t s')) r.
Proof.
  intros HD. induction l as [|a l IH]; intros s es e s' G E A r C; cbn [wrun app] in *.
  - injection E as <- <-. rewrite app_nil_r. auto.
  - apply bind_ok in E as ([[e1 s1]|] & E1 & E); [|discriminate]. cbn [fst snd] in E.
    apply bind_ok in E as ([[e2 s2]|] & E2 & E); [|discriminate]. injection E as <- <-. cbn [fst snd] in *.
    apply Forall_app in A as (A1 & A2).
    destruct (wstep_good D s es a e1 s1 HD G E1 A1 (calm_app D [a] (l ++ r) _ C)) as (G1 & NOW).
    rewrite app_assoc. eapply IH; [exact G1|exact E2|exact A2|]. rewrite NOW.
    destruct a as [| |i|dt|t|]; cbn [calm app] in C; try exact C; try (destruct C; assumption).
    destruct i; try exact C. destruct C; assumption.
Qed.

(** with the flag set: every action uses up some of what is left *)
Lemma wstep_left D s es a e s' : 0 <= D < 2147483648 -> good (Z.max 200 D) D s es -> wstep s a = Ok (Some (e, s')) -> Forall accepted e ->
  calm D (t_now (w_t s)) [a] -> w_quit s = true \/ w_pc s = PStop ->
  (w_quit s' = true \/ w_pc s' = PStop) /\
  waited [a] + left_ (Z.max 200 D) s' <= left_ (Z.max 200 D) s /\
  wakes [a] + wleft s' <= wleft s /\ tests [a] + tleft s' <= tleft s.
Proof.
  intros HD G E A C Q. destruct (wstep_good D s es a e s' HD G E A C) as (G1 & _).
  destruct G as (_ & W). destruct G1 as (_ & W1). destruct s as [p q t]. cbn [w_pc w_quit w_t] in *.
  destruct Q as [->|Q]; [|subst p; discriminate].
  unfold wstep in E. cbn [w_pc w_quit w_t] in E. unfold left_, wleft, tleft. cbn [w_pc].
  destruct p as [| |w [|]| |], a as [| |i|dt|t1|]; try discriminate; try (destruct i as [t2|x d|x| |]; try discriminate);
    try (injection E as <- <-; cbn [w_pc w_quit waited wakes tests] in *; split; [auto|lia]; fail);
    try (apply bind_ok in E as ((ev, s1) & E1 & E2); injection E2 as <- <-; cbn [w_pc w_quit waited wakes tests] in *; split; [auto|lia]; fail).
  - apply bind_ok in E as ((ev, s1) & E1 & E2). cbn [fst snd] in E2.
    destruct ev; injection E2 as <- <-; cbn [w_pc w_quit waited wakes tests] in *; (split; [auto|lia]).
  - destruct ((0 <? dt) && ((w <? 0) || (dt <=? w)))%bool eqn:B; [|discriminate]. injection E as <- <-.
    cbn [w_pc w_quit waited wakes tests] in *. split; [auto|]. destruct (Z.ltb_spec w 0); lia.
Qed.
Lemma waited_cons a l : waited (a :: l) = waited [a] + waited l.
Proof. destruct a; cbn [waited]; lia. Qed.
Lemma wakes_cons a l : wakes (a :: l) = wakes [a] + wakes l.
Proof. destruct a; cbn [wakes]; lia. Qed.
Lemma tests_cons a l : tests (a :: l) = tests [a] + tests l.
Proof. destruct a; cbn [tests]; lia. Qed.
Lemma wrun_left D : 0 <= D < 2147483648 -> forall l s es e s', good (Z.max 200 D) D s es -> wrun s l = Ok (Some (e, s')) -> Forall accepted e ->
  calm D (t_now (w_t s)) l -> w_quit s = true \/ w_pc s = PStop ->
  (w_quit s' = true \/ w_pc s' = PStop) /\
  waited l + left_ (Z.max 200 D) s' <= left_ (Z.max 200 D) s /\
  wakes l + wleft s' <= wleft s /\ tests l + tleft s' <= tleft s.
Proof.
  intros HD. induction l as [|a l IH]; intros s es e s' G E A C Q; cbn [wrun] in E.
  - injection E as <- <-. cbn. split; [exact Q|]. lia.
  - apply bind_ok in E as ([[e1 s1]|] & E1 & E); [|discriminate]. cbn [fst snd] in E.
    apply bind_ok in E as ([[e2 s2]|] & E2 & E); [|discriminate]. injection E as <- <-. cbn [fst snd] in *.
    apply Forall_app in A as (A1 & A2).
    destruct (wstep_left D s es a e1 s1 HD G E1 A1 (calm_app D [a] l _ C) Q) as (Q1 & L1 & L2 & L3).
    assert (GG : good (Z.max 200 D) D s1 (es ++ e1) /\ calm D (t_now (w_t s1)) l).
    { apply (wrun_good D HD [a] s es e1 s1 G); [|exact A1|exact C]. cbn [wrun]. rewrite E1. cbn [bind fst snd]. rewrite app_nil_r. reflexivity. }
    destruct GG as (G1 & C1). destruct (IH _ _ _ _ G1 E2 A2 C1 Q1) as (Q2 & M1 & M2 & M3).
    rewrite waited_cons, wakes_cons, tests_cons. split; [exact Q2|]. lia.
Qed.
Lemma good0 D now : good (Z.max 200 D) D (wk0 now) [].
Proof.
  split; [|exact Logic.I]. split; [|discriminate]. unfold wk0, w_t.
  destruct (TI_init 1536) as (W & _); [lia|]. destruct (heap_create_wf 1536 ltac:(lia)) as (_ & _ & EM).
  split; [exact W|]. intros x. cbn [deadline fold_left t_heap t_set]. split; [apply EM|reflexivity].
Qed.

(** ** C114 *)

(** From the SIGINT on the worker waits at most once, for at most the longest delay (200 ms
    if that is longer), and tests the flag at most once: if it was tested, the worker has
    stopped. With the delays of the program (dns.c:85, 375) that is 30 s. *)
Theorem C114_partial : forall D now l1 l2 es s', 0 <= D < 2147483648 ->
  wrun (wk0 now) (l1 ++ ASig :: l2) = Ok (Some (es, s')) -> Forall accepted es -> calm D now (l1 ++ ASig :: l2) ->
  waited l2 <= Z.max 200 D /\ wakes l2 <= 1 /\
  (tests l2 = 0 /\ w_pc s' <> PStop \/ tests l2 = 1 /\ w_pc s' = PStop).
Proof.
  intros D now l1 l2 es s' HD E A C.
  destruct (wrun_app _ _ _ _ _ E) as (e1 & s1 & e2 & E1 & E2 & ->). apply Forall_app in A as (A1 & A2).
  destruct (wrun_good D HD _ _ _ _ _ (good0 D now) E1 A1 _ C) as (G1 & C1).
  change (ASig :: l2) with ([ASig] ++ l2) in E2. destruct (wrun_app _ _ _ _ _ E2) as (e3 & s2 & e4 & E3 & E4 & ->).
  apply Forall_app in A2 as (A3 & A4).
  destruct (wrun_good D HD [ASig] s1 _ _ _ G1 E3 A3 l2 C1) as (G2 & C2).
  assert (Q : w_quit s2 = true /\ w_pc s2 <> PStop).
  { cbn [wrun] in E3. apply bind_ok in E3 as ([[e9 s9]|] & E5 & E6); [|discriminate]. injection E6 as _ <-. cbn [snd].
    unfold wstep in E5. destruct (w_pc s1) as [| |w [|]| |]; try discriminate; injection E5 as _ <-; cbn; (split; [reflexivity|discriminate]). }
  destruct Q as (Q & NS).
  destruct (wrun_left D HD _ _ _ _ _ G2 E4 A4 C2 (or_introl Q)) as (Q2 & L1 & L2 & L3).
  pose proof (wrun_good D HD l2 s2 _ _ _ G2 E4 A4 []) as G3. rewrite app_nil_r in G3. destruct (G3 C2) as ((_ & W3) & _). destruct G2 as (_ & W2).
  assert (N : forall l, 0 <= tests l) by (induction l as [|a l IH]; [cbn; lia|rewrite tests_cons; destruct a; cbn [tests] in *; lia]).
  specialize (N l2). unfold left_, wleft, tleft in *.
  split; [destruct (w_pc s2) as [| |w [|]| |], (w_pc s') as [| |w' [|]| |]; lia|].
  split; [destruct (w_pc s2) as [| |w [|]| |], (w_pc s') as [| |w' [|]| |]; lia|].
  destruct (w_pc s') eqn:PS; try (left; split; [destruct (w_pc s2); lia|discriminate]).
  right. split; [|reflexivity].
  (* a stop needs a test *)
  assert (ST : forall l s e z, wrun s l = Ok (Some (e, z)) -> w_pc z = PStop -> w_pc s <> PStop -> 1 <= tests l).
  { clear. induction l as [|a l IH]; intros s e z E P NP; cbn [wrun] in E; [injection E as <- <-; contradiction|].
    apply bind_ok in E as ([[e1 s1]|] & E1 & E); [|discriminate]. cbn [fst snd] in E.
    apply bind_ok in E as ([[e2 s2]|] & E2 & E); [|discriminate]. injection E as <- <-. cbn [fst snd] in *.
    rewrite tests_cons. assert (N : forall l, 0 <= tests l) by (clear; induction l as [|a l IH]; [cbn; lia|rewrite tests_cons; destruct a; cbn [tests] in *; lia]).
    destruct a; cbn [tests]; [|specialize (N l); lia| | | |].
    all: assert (K : w_pc s1 <> PStop); [|specialize (IH _ _ _ E2 P K); lia].
    all: unfold wstep in E1; destruct (w_pc s) as [| |w [|]| |]; try discriminate; try contradiction;
      try (destruct i; try discriminate);
      try (injection E1 as <- <-; discriminate);
      try (apply bind_ok in E1 as (q & _ & E1); try destruct (fst q); injection E1 as <- <-; discriminate);
      try (destruct (_ && _)%bool; [injection E1 as <- <-|]; discriminate). }
  specialize (ST _ _ _ _ E4 PS NS). destruct (w_pc s2); lia.
Qed.
Print Assumptions C114_partial.

(** a signal that comes while the worker waits ends the wait *)
Theorem C114_woken : forall D now l1 l2 es s' e1 w intr q t, 0 <= D < 2147483648 ->
  wrun (wk0 now) l1 = Ok (Some (e1, Wk (PWait w intr) q t)) ->
  wrun (wk0 now) (l1 ++ ASig :: l2) = Ok (Some (es, s')) -> Forall accepted es -> calm D now (l1 ++ ASig :: l2) ->
  waited l2 = 0.
Proof.
  intros D now l1 l2 es s' e1 w intr q t HD E1 E A C.
  destruct (wrun_app _ _ _ _ _ E) as (e1' & s1 & e2 & E1' & E2 & ->). rewrite E1 in E1'. injection E1' as <- <-.
  apply Forall_app in A as (A1 & A2).
  destruct (wrun_good D HD _ _ _ _ _ (good0 D now) E1 A1 _ C) as (G1 & C1).
  change (ASig :: l2) with ([ASig] ++ l2) in E2. destruct (wrun_app _ _ _ _ _ E2) as (e3 & s2 & e4 & E3 & E4 & ->).
  apply Forall_app in A2 as (A3 & A4).
  destruct (wrun_good D HD [ASig] _ _ _ _ G1 E3 A3 l2 C1) as (G2 & C2).
  assert (Q : s2 = Wk (PWait w true) true t) by (cbn in E3; destruct intr; injection E3 as <- <-; reflexivity).
  subst s2. destruct (wrun_left D HD _ _ _ _ _ G2 E4 A4 C2 (or_introl eq_refl)) as (Q2 & L1 & _).
  pose proof (wrun_good D HD l2 _ _ _ _ G2 E4 A4 []) as G3. rewrite app_nil_r in G3. destruct (G3 C2) as ((_ & W3) & _).
  assert (N : 0 <= waited l2).
  { clear - E4. revert E4. generalize (Wk (PWait w true) true t). revert e4 s'. induction l2 as [|a l IH]; intros e4 s' s E; [cbn; lia|].
    cbn [wrun] in E. apply bind_ok in E as ([[e1 s1]|] & E1 & E); [|discriminate]. cbn [fst snd] in E.
    apply bind_ok in E as ([[e2 s2]|] & E2 & E); [|discriminate]. specialize (IH _ _ _ E2). rewrite waited_cons.
    destruct a; cbn [waited]; try lia. unfold wstep in E1. destruct (w_pc s) as [| |w0 [|]| |]; try discriminate.
    destruct ((0 <? dt) && ((w0 <? 0) || (dt <=? w0)))%bool eqn:B; [lia|discriminate]. }
  unfold left_ in L1. cbn [w_pc] in L1. destruct (w_pc s') as [| |w' [|]| |]; lia.
Qed.
Print Assumptions C114_woken.

(** one that comes after the test and before the wait does not: with nothing to do the
    worker then sits out the wait for the cleaning of the name cache, dns.c:85 *)
Definition lost : list act :=
  [ATm (TArm 1 30000); ADone; ATest; ASig; ATm TIter; APass 30000; AWake 31000; ADone; ATest].
Theorem C114_at_once_refuted : exists es s',
  wrun (wk0 1000) lost = Ok (Some (es, s')) /\ Forall accepted es /\ calm 30000 1000 lost /\ w_pc s' = PStop /\
  waited (skipn 4 lost) = 30000.
Proof.
  destruct (wrun (wk0 1000) lost) as [[[es s']|]| |] eqn:E.
  2-4: exfalso; vm_compute in E; discriminate E.
  exists es, s'. split; [reflexivity|].
  assert (Q : es = match wrun (wk0 1000) lost with Ok (Some (o, h)) => o | _ => [] end) by (rewrite E; reflexivity).
  assert (P : w_pc s' = match wrun (wk0 1000) lost with Ok (Some (o, h)) => w_pc h | _ => PExp end) by (rewrite E; reflexivity).
  clear E. vm_compute in Q, P. split; [subst es; repeat constructor|]. split; [cbn; lia|]. split; [exact P|reflexivity].
Qed.
Print Assumptions C114_at_once_refuted.
Theorem C114_property_refuted : ~ C114_property.
Proof.
  intros H. destruct C114_at_once_refuted as (es & s' & E & _ & _ & _ & W).
  pose proof (H 1000 [ATm (TArm 1 30000); ADone; ATest] (skipn 4 lost) es s' E). rewrite W in H0. discriminate.
Qed.
Print Assumptions C114_property_refuted.

(** if the clock is set back while the worker waits, the next wait is longer by that much *)
Definition set_back : list act :=
  [ATm (TArm 1 30000); ADone; ATest; ATm TIter; APass 10000; AWake 1; ADone; ATest; ASig; ATm TIter; APass 30999; AWake 31000; ADone; ATest].
Theorem C114_set_back_refuted : exists es s',
  wrun (wk0 1000) set_back = Ok (Some (es, s')) /\ Forall accepted es /\ w_pc s' = PStop /\ waited (skipn 9 set_back) = 30999.
Proof.
  destruct (wrun (wk0 1000) set_back) as [[[es s']|]| |] eqn:E.
  2-4: exfalso; vm_compute in E; discriminate E.
  exists es, s'. split; [reflexivity|].
  assert (Q : es = match wrun (wk0 1000) set_back with Ok (Some (o, h)) => o | _ => [] end) by (rewrite E; reflexivity).
  assert (P : w_pc s' = match wrun (wk0 1000) set_back with Ok (Some (o, h)) => w_pc h | _ => PExp end) by (rewrite E; reflexivity).
  clear E. vm_compute in Q, P. split; [subst es; repeat constructor|]. split; [exact P|reflexivity].
Qed.
Print Assumptions C114_set_back_refuted.

(** ** Examples *)
Definition woken : list act :=
  [ATm (TArm 1 30000); ADone; ATest; ATm TIter; APass 250; ASig; AWake 1250; ATm (TArm 2 10000); ADone; ATest].
Example C114_example : exists es s',
  wrun (wk0 1000) woken = Ok (Some (es, s')) /\ Forall accepted es /\ calm 30000 1000 woken /\ w_pc s' = PStop /\
  waited (skipn 6 woken) = 0 /\ es = [EArm 1 30000 1000 true; EExpire; EDone 30000 1000; ETick 1250; EArm 2 10000 1250 true].
Proof.
  destruct (wrun (wk0 1000) woken) as [[[es s']|]| |] eqn:E.
  2-4: exfalso; vm_compute in E; discriminate E.
  exists es, s'. split; [reflexivity|].
  assert (Q : es = match wrun (wk0 1000) woken with Ok (Some (o, h)) => o | _ => [] end) by (rewrite E; reflexivity).
  assert (P : w_pc s' = match wrun (wk0 1000) woken with Ok (Some (o, h)) => w_pc h | _ => PExp end) by (rewrite E; reflexivity).
  clear E. vm_compute in Q, P. split; [subst es; repeat constructor|]. split; [cbn; lia|]. split; [exact P|]. split; [reflexivity|exact Q].
Qed.
