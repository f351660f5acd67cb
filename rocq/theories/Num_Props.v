(** * The number of workers: theorems (C153) *)
From Verif Require Import Base Num_Model.
Local Open Scope Z_scope.
Local Arguments Z.add : simpl never.
Local Arguments Z.sub : simpl never.
Local Arguments Z.mul : simpl never.
Local Arguments Z.modulo : simpl never.
Local Arguments Z.div : simpl never.
Local Arguments Z.ltb : simpl never.
Local Arguments Z.leb : simpl never.
Local Arguments Z.eqb : simpl never.

(** ** What is expected *)
Definition int (n : Z) : Prop := - two31 <= n < two31.
Definition ended (s : st) (p : Z) : Prop := match procs s p with Some x => ph_ x = End_ | None => True end.
(** a run in which no fork fails and nothing but a signal ends a process *)
Fixpoint calm (n : Z) (s : st) (l : list act) : Prop :=
  match l with
  | [] => True
  | a :: r =>
      match a with
      | AKill _ => False
      | AGo p None => match procs s p with Some x => match ph_ x with At (Fork j) => n <= j | _ => True end | None => True end
      | _ => True
      end /\
      match step n s a with Some s' => calm n s' r | None => True end
  end.
(** the number in the file is either refused at the start or that many workers are started and
    one stop request to everybody can be obeyed *)
Definition C153_property : Prop := forall n, int n -> forall ok,
  process_init n ok = Ok (-1) \/
  (process_init n ok = Ok 0 /\
   (0 < n -> forall m, 0 < m -> exists l s, calm n (first m) l /\ run n (first m) l = Some s /\ ended s m)).

(** ** The table *)
Lemma number_rows_spec mapped : forall k i, 0 <= i ->
  (number_rows mapped i k = Ok tt <-> (k = 0%nat \/ ROW * (i + Z.of_nat k - 1) + 4 <= mapped)) /\
  (number_rows mapped i k = Ok tt \/ number_rows mapped i k = Fault FOob).
Proof.
  induction k as [|k IH]; intros i I0; cbn [number_rows]; [split; [tauto|auto]|].
  destruct (IH (i + 1) ltac:(lia)) as (A & B). destruct (Z.leb_spec (ROW * i + 4) mapped) as [L|L]; unfold ROW in *.
  - split; [|exact B]. rewrite A. split.
    + intros [->|H]; right; lia.
    + intros [H|H]; [discriminate|]. destruct k; [left; reflexivity|right; lia].
  - split; [|auto]. split; [discriminate|]. intros [H|H]; [discriminate|lia].
Qed.

(** Exactly: [process_init] with every int. It works for up to 178956969 rows if there is memory; for
    larger numbers the size is computed modulo 2^32, and either the start is refused or the loop
    that numbers the rows writes behind the table. *)
Theorem C153_table : forall n ok, int n ->
  process_init n ok =
  if (table_size n <? two31) && ok then (if ROW * n + 4 <? two32 then Ok 0 else Fault FOob) else Ok (-1).
Proof.
  intros n ok IN. unfold process_init, shm_alloc. destruct ((table_size n <? two31) && ok) eqn:E; [|reflexivity].
  apply andb_prop in E as (E & _). apply Z.ltb_lt in E.
  set (mapped := (table_size n + (PAGE - 1)) / PAGE * PAGE).
  assert (M1 : table_size n <= mapped). { unfold mapped, PAGE. pose proof (Z_div_mod_eq_full (table_size n + (4096 - 1)) 4096). pose proof (Z.mod_pos_bound (table_size n + (4096 - 1)) 4096). lia. }
  assert (M2 : mapped <= table_size n + 4095). { unfold mapped, PAGE. pose proof (Z_div_mod_eq_full (table_size n + (4096 - 1)) 4096). pose proof (Z.mod_pos_bound (table_size n + (4096 - 1)) 4096). lia. }
  destruct (number_rows_spec mapped (Z.to_nat n) 0 ltac:(lia)) as (A & B).
  unfold int, two31, two32, ROW in *. destruct (Z.ltb_spec (12 * n + 4) 4294967296) as [L|L].
  - assert (O : number_rows mapped 0 (Z.to_nat n) = Ok tt).
    { apply A. destruct (Z_le_gt_dec n 0); [left; lia|right]. unfold table_size, two32, ROW in *. rewrite Z.mod_small in * by lia. lia. }
    rewrite O. reflexivity.
  - destruct B as [B|B]; [|rewrite B; reflexivity]. exfalso. apply A in B. destruct B as [B|B]; [lia|].
    unfold table_size, two32, ROW in *. pose proof (Z_div_mod_eq_full (12 * n + 4) 4294967296) as D.
    assert (1 <= (12 * n + 4) / 4294967296) by (apply Z.div_le_lower_bound; lia). lia.
Qed.
Print Assumptions C153_table.
Example ex_C153_table : process_init 4 true = Ok 0 /\ process_init (-1) true = Ok (-1) /\ process_init 200000000 true = Ok (-1) /\
  (exists n, int n /\ process_init n true = Fault FOob) /\ (forall n, 0 <= n <= 178956969 -> process_init n true = Ok 0).
Proof.
  split; [reflexivity|]. split; [reflexivity|]. split; [rewrite C153_table by (unfold int, two31; lia); reflexivity|]. split.
  - exists 357913942. split; [unfold int, two31; lia|]. rewrite C153_table by (unfold int, two31; lia). reflexivity.
  - intros n N. rewrite C153_table by (unfold int, two31; lia). unfold table_size, two31, two32, ROW. rewrite Z.mod_small by lia.
    destruct (Z.ltb_spec (12 * n + 4) 2147483648); [|lia]. destruct (Z.ltb_spec (12 * n + 4) 4294967296); [|lia]. reflexivity.
Qed.
Theorem C153_refuted_table : exists n, int n /\ 0 < n /\ process_init n true = Fault FOob.
Proof. exists 357913942. split; [unfold int, two31; lia|]. split; [lia|]. rewrite C153_table by (unfold int, two31; lia). reflexivity. Qed.
Print Assumptions C153_refuted_table.

(** ** Up to 255 workers *)
Definition plain (n : Z) (x : proc) : Prop := 0 <= id_ x < n /\ (ph_ x = End_ \/ exists c, ph_ x = Work c).
Definition rank (c : pos) : Prop := match c with Fork j | Reap j | Clear j => 0 <= j | _ => True end.
Definition one_master (n m : Z) (s : st) : Prop :=
  (forall q x, procs s q = Some x -> q <> m -> plain n x) /\
  (forall x, procs s m = Some x -> match ph_ x with At c => rank c | Work _ => False | End_ => True end).

Ltac ifs := repeat match goal with
  | H : context [if ?b then _ else _] |- _ => destruct b eqn:?; try discriminate H
  | |- context [if ?b then _ else _] => destruct b eqn:? end.

Lemma put_eq {A} (f : Z -> A) i a : put f i a i = a.
Proof. unfold put. rewrite Z.eqb_refl. reflexivity. Qed.
Lemma put_ne {A} (f : Z -> A) i a j : j <> i -> put f i a j = f j.
Proof. intros N. unfold put. destruct (Z.eqb_spec j i); [contradiction|reflexivity]. Qed.

Lemma one_master_step n m s a s' : n <= MASTER -> one_master n m s -> step n s a = Some s' -> one_master n m s'.
Proof.
  intros N (O & M) E.
  assert (W : forall p x x', procs s p = Some x -> id_ x' = id_ x ->
     (p <> m -> plain n x -> ph_ x' = End_ \/ exists c, ph_ x' = Work c) ->
     (p = m -> match ph_ x' with At c => rank c | Work _ => False | End_ => True end) ->
     forall t, one_master n m (St t (put (procs s) p (Some x')))).
  { intros p x x' P I1 A B t. split; cbn [procs].
    - intros q y Q NQ. destruct (Z.eq_dec q p) as [->|NE]; [rewrite put_eq in Q|rewrite put_ne in Q by exact NE; eauto]. injection Q as <-.
      pose proof (O p x P NQ) as PL. split; [rewrite I1; apply PL|auto].
    - intros y Q. destruct (Z.eq_dec m p) as [->|NE]; [rewrite put_eq in Q; injection Q as <-; apply B; reflexivity|rewrite put_ne in Q by exact NE; apply M; exact Q]. }
  destruct a as [p g|p f|p]; cbn [step] in E; destruct (procs s p) as [x|] eqn:P; try discriminate.
  - destruct (open_to x g) eqn:OT; [|discriminate]. injection E as <-.
    assert (H : forall q r t, one_master n m (St t (put (procs s) p (Some (set_flags (set_ph x (match ph_ x with At Susp => At Wake | h => h end)) q r))))).
    { intros q r t. apply (W p x); [exact P|reflexivity| |]; cbn [set_flags set_ph ph_].
      - intros NM (_ & [H|(c & H)]); rewrite H; eauto.
      - intros ->. pose proof (M x P) as H. destruct (ph_ x) as [c|c|]; auto. destruct c; auto. }
    unfold handle. destruct g.
    + apply H.
    + destruct (id_ x =? MASTER).
      * specialize (H (quit_ x) true (tab s)). destruct H as (H1 & H2). split; cbn [wait_all procs].
        -- intros q y. destruct (zombie _ _ _); [discriminate|]. apply H1.
        -- intros y. destruct (zombie _ _ _); [discriminate|]. apply H2.
      * replace (set_ph x match ph_ x with At Susp => At Wake | h => h end) with (set_flags (set_ph x match ph_ x with At Susp => At Wake | h => h end) (quit_ x) (reap_ x)) by (destruct x; reflexivity). apply H.
    + replace (set_ph x match ph_ x with At Susp => At Wake | h => h end) with (set_flags (set_ph x match ph_ x with At Susp => At Wake | h => h end) (quit_ x) (reap_ x)) by (destruct x; reflexivity). apply H.
  - assert (E' : Some (go n s p x f) = Some s' /\ match f with Some q => procs s q = None | None => True end).
    { destruct f as [q|]; [destruct (procs s q) eqn:Q; [discriminate|]; destruct (0 <? q); [|discriminate]|]; auto. }
    clear E. destruct E' as (E & FR). injection E as <-. unfold go. destruct (ph_ x) as [c|c|] eqn:PH.
    + destruct (quit_ x); [|split; assumption]. apply (W p x); auto; cbn [set_ph set_flags ph_ id_].
      * intros NM (I1 & _). destruct (Z.eqb_spec (id_ x) MASTER); [lia|auto].
      * intros ->. pose proof (M x P) as H. rewrite PH in H. destruct H.
    + assert (PM : p = m). { destruct (Z.eq_dec p m) as [|NM]; [assumption|]. destruct (O p x P NM) as (_ & [H|(c' & H)]); congruence. }
      pose proof P as P'. rewrite PM in P'. pose proof (M x P') as R. rewrite PH in R. clear P'.
      assert (A1 : forall h, match h with At c => rank c | Work _ => False | End_ => True end -> one_master n m (St (tab s) (put (procs s) p (Some (set_ph x h))))).
      { intros h H. apply (W p x); auto; intros; contradiction. }
      assert (FK : forall j c q, 0 <= j < n -> rank c -> procs s q = None -> one_master n m (fork s p x j c q)).
      { intros j c' q J RC Q. assert (NQ : q <> m) by (intros ->; subst p; congruence). unfold fork. split; cbn [procs].
        - intros y z Y NY. destruct (Z.eq_dec y q) as [->|N1]; [rewrite put_eq in Y; injection Y as <-; split; cbn [id_ ph_]; [lia|eauto]|].
          rewrite put_ne in Y by exact N1. rewrite put_ne in Y by congruence. eauto.
        - intros z Y. rewrite put_ne in Y by congruence. subst p. rewrite put_eq in Y. injection Y as <-. exact RC. }
      destruct c as [j| | |j|j]; cbn [rank] in R.
      * destruct (Z.ltb_spec j n); [|apply A1; exact I]. destruct f as [q|]; [apply FK; cbn [rank]; auto; lia|apply A1; exact I].
      * split; assumption.
      * destruct (quit_ x && all_exited n s); [apply A1; exact I|]. destruct (reap_ x); apply A1; cbn [rank]; [lia|exact I].
      * destruct (Z.ltb_spec j n).
        -- destruct (exited_ (tab s j) && negb (quit_ x)); [|apply A1; cbn [rank]; lia]. destruct f as [q|]; [apply FK; cbn [rank]; auto; lia|apply A1; cbn [rank]; lia].
        -- apply (W p x); auto; intros; try contradiction. cbn [set_ph ph_ rank]. exact I.
      * apply (W p x); auto; intros; try contradiction. cbn [set_ph ph_ rank]. lia.
    + split; assumption.
  - assert (E' : Some (St (tab s) (put (procs s) p (Some (set_ph x End_)))) = Some s') by (destruct (ph_ x); congruence).
    injection E' as <-. apply (W p x); auto. intros _. exact I.
Qed.

(** Proved for up to 255 workers and every run, whatever is killed and whichever forks fail:
    every process but the first one is a worker with the number of its row, and one that has
    handled SIGINT ends with its next step; so there is one master. *)
Theorem C153_partial : forall n m l s q x, n <= 255 -> run n (first m) l = Some s -> q <> m -> procs s q = Some x -> ph_ x <> End_ ->
  0 <= id_ x < n /\ (exists c, ph_ x = Work c) /\
  forall s1 s2, step n s (ASig q SInt) = Some s1 -> step n s1 (AGo q None) = Some s2 -> ended s2 q.
Proof.
  intros n m l s q x N R NQ Q NE.
  assert (OM : one_master n m s).
  { assert (O1 : one_master n m (first m)).
    { split; cbn [first procs]; intros y; [intros z; destruct (Z.eqb_spec y m); [intros; contradiction|discriminate]|].
      rewrite Z.eqb_refl. intros H. injection H as <-. cbn [ph_ rank]. lia. }
    revert O1 R. generalize (first m). induction l as [|a l IH]; cbn [run]; intros s0 O1 R; [injection R as <-; exact O1|].
    destruct (step n s0 a) as [s1|] eqn:E; [|discriminate]. apply (IH s1); [|exact R]. eapply one_master_step; eauto. }
  destruct (proj1 OM q x Q NQ) as (I1 & [H|(c & H)]); [contradiction|]. split; [exact I1|]. split; [eauto|].
  intros s1 s2 E1 E2. cbn [step] in E1. rewrite Q in E1. destruct (open_to x SInt); [|discriminate]. injection E1 as <-.
  cbn [step handle procs] in E2. rewrite put_eq in E2. injection E2 as <-. unfold go. cbn [set_flags set_ph ph_ quit_ id_]. rewrite H.
  unfold ended. cbn [procs]. rewrite put_eq. cbn [set_ph ph_ id_ set_flags]. destruct (Z.eqb_spec (id_ x) MASTER) as [EQ|]; [unfold MASTER in EQ; lia|reflexivity].
Qed.
Print Assumptions C153_partial.

(** Once the master has taken the order to stop it does not forget it, whatever happens, until it ends. *)
Definition ordered (b : bool) (m : Z) (s : st) : Prop :=
  (forall p x, procs s p = Some x -> 0 < p) /\
  exists x, procs s m = Some x /\ par_ x = 0 /\ (b = true -> quit_ x = true \/ ph_ x = End_).
Lemma ordered_step b n m s a s' : n <= MASTER -> 0 < m -> one_master n m s -> ordered b m s -> step n s a = Some s' -> ordered b m s'.
Proof.
  intros N M0 (O & M) (PP & x & X & PX & QX) E.
  assert (PUT : forall t p y z, procs s p = Some y -> (p = m -> par_ z = 0 /\ (b = true -> quit_ z = true \/ ph_ z = End_)) ->
    ordered b m (St t (put (procs s) p (Some z)))).
  { intros t p y z Y H. split; cbn [procs].
    - intros q w. unfold put. destruct (Z.eqb_spec q p) as [->|]; [intros _; exact (PP _ _ Y)|apply PP].
    - destruct (Z.eqb_spec p m) as [->|NE]; [exists z; rewrite put_eq; split; [reflexivity|auto]|].
      exists x. rewrite put_ne by congruence. auto. }
  destruct a as [p g|p f|p]; cbn [step] in E.
  - destruct (procs s p) as [y|] eqn:Y; [|discriminate]. destruct (open_to y g); [|discriminate]. injection E as <-.
    assert (YX : p = m -> y = x) by (intros ->; rewrite X in Y; injection Y as <-; reflexivity).
    assert (KEEP : forall h, (ph_ y = End_ -> h = End_) -> p = m -> par_ (set_ph y h) = 0 /\ (b = true -> quit_ (set_ph y h) = true \/ ph_ (set_ph y h) = End_)).
    { intros h H EQ. rewrite (YX EQ) in *. cbn. split; [exact PX|]. intros B. destruct (QX B); auto. }
    unfold handle. destruct g.
    + apply (PUT _ _ y); [exact Y|]. intros EQ. rewrite (YX EQ). cbn. auto.
    + destruct (id_ y =? MASTER).
      * set (z := set_flags (set_ph y match ph_ y with At Susp => At Wake | h => h end) (quit_ y) true).
        assert (OZ : ordered b m (St (tab s) (put (procs s) p (Some z)))).
        { apply (PUT _ _ y); [exact Y|]. intros EQ. unfold z. rewrite (YX EQ) in *. cbn. split; [exact PX|].
          intros B. destruct (QX B) as [Q|Q]; [left; exact Q|right; rewrite Q; reflexivity]. }
        destruct OZ as (P1 & w & W & PW & QW). unfold wait_all. split; cbn [procs].
        -- intros q v. destruct (zombie _ p q); [discriminate|]. apply P1.
        -- exists w. assert (ZN : zombie (St (tab s) (put (procs s) p (Some z))) p m = false).
           { unfold zombie. rewrite W, PW. pose proof (PP _ _ Y). destruct (Z.eqb_spec 0 p); [lia|reflexivity]. }
           rewrite ZN. auto.
      * apply (PUT _ _ y); [exact Y|]. apply KEEP. intros H. rewrite H. reflexivity.
    + apply (PUT _ _ y); [exact Y|]. apply KEEP. intros H. rewrite H. reflexivity.
  - destruct (procs s p) as [y|] eqn:Y; [|discriminate].
    assert (YX : p = m -> y = x) by (intros ->; rewrite X in Y; injection Y as <-; reflexivity).
    assert (E' : s' = go n s p y f /\ (forall q, f = Some q -> procs s q = None /\ 0 < q)).
    { destruct f as [q|]; [|injection E as <-; split; [reflexivity|discriminate]].
      destruct (procs s q) eqn:Q; [discriminate|]. destruct (Z.ltb_spec 0 q); [|discriminate]. injection E as <-.
      split; [reflexivity|]. intros q' H'. injection H' as <-. auto. }
    destruct E' as (-> & NEW). clear E.
    assert (KEEP : forall h, ph_ y <> End_ -> p = m -> par_ (set_ph y h) = 0 /\ (b = true -> quit_ (set_ph y h) = true \/ ph_ (set_ph y h) = End_)).
    { intros h H EQ. rewrite (YX EQ) in *. cbn. split; [exact PX|]. intros B. destruct (QX B); [auto|contradiction]. }
    assert (FK : forall j c q, ph_ y <> End_ -> f = Some q -> ordered b m (fork s p y j c q)).
    { intros j c q H F. destruct (NEW q F) as (NQ & Q0). unfold fork.
      destruct (PUT (put (tab s) j (Row q (exited_ (tab s j)))) p y (set_ph y (At c)) Y (KEEP _ H)) as (P1 & w & W & R).
      split; cbn [procs] in *.
      - intros k v. unfold put at 1. destruct (Z.eqb_spec k q) as [->|]; [intros _; exact Q0|apply P1].
      - exists w. rewrite put_ne; [auto|]. intros ->. congruence. }
    unfold go. destruct (ph_ y) as [c|c|] eqn:PH.
    + destruct (quit_ y); [|split; eauto]. apply (PUT _ _ y); [exact Y|]. intros EQ. specialize (M y).
      rewrite <- EQ in M. specialize (M Y). rewrite PH in M. contradiction.
    + destruct c.
      all: repeat match goal with |- context [if ?b then _ else _] => destruct b eqn:? end.
      all: try match goal with |- context [match ?o with Some _ => _ | None => _ end] => destruct o eqn:? end.
      all: try (apply FK; [discriminate|reflexivity]).
      all: try (apply (PUT _ _ y); [exact Y|]; try (apply KEEP; discriminate)).
      all: try (split; eauto; fail).
    + split; eauto.
  - destruct (procs s p) as [y|] eqn:Y; [|discriminate]. destruct (ph_ y) eqn:PH; try discriminate; injection E as <-;
    (apply (PUT _ _ y); [exact Y|]; intros ->; rewrite X in Y; injection Y as <-; cbn; auto).
Qed.
Theorem C153_kept : forall n m l s x l2 s2, n <= 255 -> 0 < m -> run n (first m) l = Some s -> procs s m = Some x -> quit_ x = true ->
  run n s l2 = Some s2 -> exists x2, procs s2 m = Some x2 /\ (quit_ x2 = true \/ ph_ x2 = End_).
Proof.
  intros n m l s x l2 s2 N M0 R X Q R2.
  assert (INV : one_master n m s /\ ordered false m s).
  { assert (O1 : one_master n m (first m) /\ ordered false m (first m)).
    { split; [|split]; cbn [first procs].
      - split; cbn [first procs]; intros y; [intros z; destruct (Z.eqb_spec y m); [intros; contradiction|discriminate]|].
        rewrite Z.eqb_refl. intros H. injection H as <-. cbn [ph_ rank]. lia.
      - intros p y. destruct (Z.eqb_spec p m); [intros _; lia|discriminate].
      - rewrite Z.eqb_refl. eexists. split; [reflexivity|]. split; [reflexivity|discriminate]. }
    revert O1 R. generalize (first m). induction l as [|a l IH]; cbn [run]; intros s0 O1 R; [injection R as <-; exact O1|].
    destruct (step n s0 a) as [s1|] eqn:E; [|discriminate]. apply (IH s1); [|exact R]. destruct O1 as (O1 & O2).
    split; [eapply one_master_step; eauto|]. eapply ordered_step; eauto. }
  destruct INV as (OM & PP & y & Y & PM & _).
  assert (OR : ordered true m s) by (split; [exact PP|]; exists y; rewrite X in Y; injection Y as <-; auto).
  revert OM OR R2. clear - N M0. revert s. induction l2 as [|a l2 IH]; cbn [run]; intros s OM OR R2.
  - injection R2 as <-. destruct OR as (_ & y & Y & _ & Q). exists y. auto.
  - destruct (step n s a) as [s1|] eqn:E; [|discriminate]. apply (IH s1); auto; [eapply one_master_step; eauto|eapply ordered_step; eauto].
Qed.
Print Assumptions C153_kept.

(** ** From 256 workers on *)
Definition okpos (c : pos) : Prop := match c with Fork j => 255 < j | _ => True end.
Definition okph (h : ph) : Prop := match h with Work c | At c => okpos c | End_ => False end.
Definition other (x : proc) : Prop := id_ x <> MASTER /\ (ph_ x = End_ \/ exists c, ph_ x = Work c).
(** before the worker of row 255 is started *)
Definition early (m : Z) (s : st) : Prop :=
  pid_ (tab s 255) = 0 /\ (exists x j, procs s m = Some x /\ id_ x = MASTER /\ ph_ x = At (Fork j) /\ 0 <= j <= 255) /\
  exited_ (tab s 255) = false /\ procs s 0 = None /\
  forall q x, procs s q = Some x -> q <> m -> other x.
(** afterwards: there are two masters, [m] and [w] *)
Definition late (m w : Z) (s : st) : Prop :=
  tab s 255 = Row w false /\ w <> m /\
  (exists x, procs s m = Some x /\ id_ x = MASTER /\ okph (ph_ x)) /\
  (exists x, procs s w = Some x /\ id_ x = MASTER /\ okph (ph_ x)) /\
  forall q x, procs s q = Some x -> q <> m -> q <> w -> other x.

Definition calm1 (n : Z) (s : st) (a : act) : Prop :=
  match a with
  | AKill _ => False
  | AGo p None => match procs s p with Some x => match ph_ x with At (Fork j) => n <= j | _ => True end | None => True end
  | _ => True
  end.

(** one process changes, and possibly the table *)
Lemma late_put m w s t p x x' : late m w s -> t 255 = Row w false -> procs s p = Some x -> id_ x' = id_ x ->
  (id_ x = MASTER -> okph (ph_ x) -> okph (ph_ x')) -> (other x -> ph_ x' = End_ \/ exists c, ph_ x' = Work c) ->
  late m w (St t (put (procs s) p (Some x'))).
Proof.
  intros (T & NW & (xm & M & IM & HM) & (xw & W & IW & HW) & O) T' P I1 A B. split; [exact T'|]. split; [exact NW|]. cbn [procs]. split; [|split].
  - destruct (Z.eq_dec m p) as [->|NE]; [rewrite put_eq|rewrite put_ne by exact NE; eauto]. assert (x = xm) by congruence. subst xm. exists x'. rewrite I1. auto.
  - destruct (Z.eq_dec w p) as [->|NE]; [rewrite put_eq|rewrite put_ne by exact NE; eauto]. assert (x = xw) by congruence. subst xw. exists x'. rewrite I1. auto.
  - intros q y Q N1 N2. destruct (Z.eq_dec q p) as [->|NE]; [rewrite put_eq in Q; injection Q as <-|rewrite put_ne in Q by exact NE; eauto].
    pose proof (O p x P N1 N2) as OX. split; [rewrite I1; apply OX|auto].
Qed.
Lemma late_wait n m w s p : late m w s -> late m w (wait_all n s p).
Proof.
  intros (T & NW & (xm & M & IM & HM) & (xw & W & IW & HW) & O).
  assert (ZA : forall q x, procs s q = Some x -> okph (ph_ x) -> zombie s p q = false).
  { intros q x Q H. unfold zombie. rewrite Q. destruct (ph_ x); [..|destruct H]; apply andb_false_r. }
  split; [|split; [exact NW|split; [|split]]]; cbn [wait_all tab procs].
  - rewrite T. cbn [pid_]. rewrite (ZA w xw W HW). rewrite andb_false_r. reflexivity.
  - rewrite (ZA m xm M HM). eauto.
  - rewrite (ZA w xw W HW). eauto.
  - intros q x. destruct (zombie s p q); [discriminate|]. apply O.
Qed.
Lemma late_fork m w s p x j c q : late m w s -> procs s p = Some x -> id_ x = MASTER -> procs s q = None -> j <> 255 -> okpos c ->
  late m w (fork s p x j c q).
Proof.
  intros L P IX Q J C. unfold fork.
  assert (L1 : late m w (St (tab s) (put (procs s) p (Some (set_ph x (At c)))))).
  { apply (late_put m w s (tab s) p x); auto; [apply L|]. intros (X & _). contradiction. }
  destruct L1 as (T & NW & (xm & M & IM & HM) & (xw & W & IW & HW) & O). cbn [tab procs] in *.
  assert (NP : q <> p) by congruence.
  assert (QN : put (procs s) p (Some (set_ph x (At c))) q = None) by (rewrite put_ne by exact NP; exact Q).
  split; [cbn [tab]; rewrite put_ne by congruence; exact T|]. split; [exact NW|]. cbn [procs]. split; [|split].
  - rewrite put_ne by congruence. eauto.
  - rewrite put_ne by congruence. eauto.
  - intros y z Y N1 N2. destruct (Z.eq_dec y q) as [->|NE]; [|rewrite put_ne in Y by exact NE; eauto]. rewrite put_eq in Y. injection Y as <-.
    split; cbn [id_ ph_]; [exact J|eauto].
Qed.
Lemma upto_In n i : In i (upto n) <-> 0 <= i < n.
Proof.
  unfold upto. rewrite in_map_iff. split.
  - intros (k & <- & K). apply in_seq in K. lia.
  - intros H. exists (Z.to_nat i). split; [lia|]. apply in_seq. lia.
Qed.
Lemma all_exited_not n s : 256 <= n -> exited_ (tab s 255) = false -> all_exited n s = false.
Proof.
  intros N H. destruct (all_exited n s) eqn:E; [|reflexivity]. unfold all_exited in E. rewrite forallb_forall in E.
  specialize (E 255). cbv beta in E. rewrite E in H; [discriminate|]. apply upto_In. lia.
Qed.
Lemma late_step n m w s a s' : 256 <= n -> late m w s -> calm1 n s a -> step n s a = Some s' -> late m w s'.
Proof.
  intros N L C E. pose proof L as (T & NW & (xm & M & IM & HM) & (xw & W & IW & HW) & O).
  destruct a as [p g|p f|p]; cbn [step] in E; [| |destruct C]; destruct (procs s p) as [x|] eqn:P; try discriminate.
  - destruct (open_to x g); [|discriminate]. injection E as <-.
    assert (H : forall q r, late m w (St (tab s) (put (procs s) p (Some (set_flags (set_ph x (match ph_ x with At Susp => At Wake | h => h end)) q r))))).
    { intros q r. apply (late_put m w s (tab s) p x); auto; cbn [set_flags set_ph ph_].
      - intros _ HX. destruct (ph_ x) as [c|c|]; auto. destruct c; auto.
      - intros (_ & [HX|(c & HX)]); rewrite HX; eauto. }
    assert (HS : set_ph x match ph_ x with At Susp => At Wake | h => h end = set_flags (set_ph x match ph_ x with At Susp => At Wake | h => h end) (quit_ x) (reap_ x)) by (destruct x; reflexivity).
    unfold handle. destruct g; [apply H| |rewrite HS; apply H]. destruct (id_ x =? MASTER); [|rewrite HS; apply H]. apply late_wait. apply H.
  - assert (E' : Some (go n s p x f) = Some s' /\ match f with Some q => procs s q = None | None => True end).
    { destruct f as [q|]; [destruct (procs s q) eqn:Q; [discriminate|]; destruct (0 <? q); [|discriminate]|]; auto. }
    clear E. destruct E' as (E & FR). injection E as <-. unfold go. destruct (ph_ x) as [c|c|] eqn:PH.
    + destruct (quit_ x); [|exact L]. apply (late_put m w s (tab s) p x); auto; cbn [set_ph set_flags ph_ id_].
      * intros IX H. destruct (Z.eqb_spec (id_ x) MASTER); [|contradiction]. rewrite PH in H. exact H.
      * intros (NI & _). destruct (Z.eqb_spec (id_ x) MASTER); [contradiction|auto].
    + assert (IX : id_ x = MASTER /\ okph (ph_ x)).
      { destruct (Z.eq_dec p m) as [->|N1]; [assert (x = xm) by congruence; subst; auto|]. destruct (Z.eq_dec p w) as [->|N2]; [assert (x = xw) by congruence; subst; auto|].
        destruct (O p x P N1 N2) as (_ & [H|(c' & H)]); congruence. }
      destruct IX as (IX & OK). rewrite PH in OK. cbn [okph] in OK.
      assert (A1 : forall t y, t 255 = Row w false -> id_ y = id_ x -> okph (ph_ y) -> late m w (St t (put (procs s) p (Some y)))).
      { intros t y TT H IY. apply (late_put m w s t p x); auto. intros (X & _). contradiction. }
      destruct c as [j| | |j|j]; cbn [okpos] in OK.
      * destruct (Z.ltb_spec j n).
        -- destruct f as [q|]; [apply late_fork; cbn [okpos]; [exact L|exact P|exact IX|exact FR|lia|lia]|]. cbn [calm1] in C. rewrite P, PH in C. lia.
        -- apply A1; [exact T|reflexivity|exact I].
      * exact L.
      * destruct (quit_ x && all_exited n s) eqn:AE.
        -- exfalso. apply andb_prop in AE as (_ & AE). rewrite (all_exited_not n s N) in AE; [discriminate|]. rewrite T. reflexivity.
        -- destruct (reap_ x); (apply A1; [exact T|reflexivity|exact I]).
      * destruct (Z.ltb_spec j n).
        -- destruct (exited_ (tab s j) && negb (quit_ x)) eqn:EX; [|apply A1; [exact T|reflexivity|exact I]]. apply andb_prop in EX as (EX & _).
           destruct f as [q|]; [|apply A1; [exact T|reflexivity|exact I]]. apply late_fork; cbn [okpos]; [exact L|exact P|exact IX|exact FR| |exact I]. intros ->. rewrite T in EX. discriminate.
        -- apply A1; [exact T|reflexivity|exact I].
      * apply A1; [|reflexivity|exact I]. destruct (Z.eq_dec 255 j) as [<-|NE]; [rewrite put_eq, T; reflexivity|rewrite put_ne by exact NE; exact T].
    + exact L.
Qed.

Lemma early_put m s p x x' : early m s -> p <> m -> procs s p = Some x -> id_ x' = id_ x ->
  (ph_ x' = End_ \/ exists c, ph_ x' = Work c) -> early m (St (tab s) (put (procs s) p (Some x'))).
Proof.
  intros (T & (xm & j & M & H) & X & Z0 & O) NP P I1 B. split; [exact T|]. split; [|split; [exact X|]]; cbn [procs].
  - exists xm, j. rewrite put_ne by congruence. auto.
  - split; [rewrite put_ne by congruence; exact Z0|]. intros q y Q NQ. destruct (Z.eq_dec q p) as [->|NE]; [rewrite put_eq in Q; injection Q as <-|rewrite put_ne in Q by exact NE; eauto].
    split; [rewrite I1; apply (O p x P NP)|exact B].
Qed.
Lemma early_step n m s a s' : 256 <= n -> 0 < m -> early m s -> calm1 n s a -> step n s a = Some s' -> early m s' \/ exists w, late m w s'.
Proof.
  intros N M0 L C E. pose proof L as (T & (xm & j & M & IM & HM & J) & X & Z0 & O).
  destruct a as [p g|p f|p]; cbn [step] in E; [| |destruct C]; destruct (procs s p) as [x|] eqn:P; try discriminate.
  - left. destruct (open_to x g) eqn:OT; [|discriminate]. injection E as <-.
    assert (H : forall q r, early m (St (tab s) (put (procs s) p (Some (set_flags (set_ph x (match ph_ x with At Susp => At Wake | h => h end)) q r))))).
    { intros q r. destruct (Z.eq_dec p m) as [->|NP].
      - assert (x = xm) by congruence. subst x. split; [exact T|]. split; [|split; [exact X|]]; cbn [procs].
        + eexists _, j. rewrite put_eq. split; [reflexivity|]. cbn [set_flags set_ph id_ ph_]. rewrite HM. auto.
        + split; [rewrite put_ne by lia; exact Z0|]. intros q' y Q NQ. rewrite put_ne in Q by exact NQ. eauto.
      - apply (early_put m s p x); auto. cbn [set_flags set_ph ph_]. destruct (O p x P NP) as (_ & [H|(c & H)]); rewrite H; eauto. }
    assert (HS : set_ph x match ph_ x with At Susp => At Wake | h => h end = set_flags (set_ph x match ph_ x with At Susp => At Wake | h => h end) (quit_ x) (reap_ x)) by (destruct x; reflexivity).
    unfold handle. destruct g; [apply H| |rewrite HS; apply H]. destruct (id_ x =? MASTER) eqn:IX; [|rewrite HS; apply H].
    specialize (H (quit_ x) true). revert H. generalize (St (tab s) (put (procs s) p (Some (set_flags (set_ph x match ph_ x with At Susp => At Wake | h => h end) (quit_ x) true)))). clear - M0.
    intros s (T & (xm & j & M & IM & HM & J) & X & Z0 & O).
    assert (Z1 : zombie s p 0 = false) by (unfold zombie; rewrite Z0; reflexivity).
    split; [cbn [wait_all tab]; destruct (_ && _ && _ && _); exact T|]. split; [|split; [|split]]; cbn [wait_all tab procs].
    + exists xm, j. assert (ZM : zombie s p m = false) by (unfold zombie; rewrite M, HM; apply andb_false_r). rewrite ZM. auto.
    + rewrite T, Z1, andb_false_r. exact X.
    + rewrite Z1. exact Z0.
    + intros q x. destruct (zombie s p q); [discriminate|]. apply O.
  - assert (E' : Some (go n s p x f) = Some s' /\ match f with Some q => procs s q = None /\ 0 < q | None => True end).
    { destruct f as [q|]; [destruct (procs s q) eqn:Q; [discriminate|]; destruct (Z.ltb_spec 0 q); [|discriminate]|]; auto. }
    clear E. destruct E' as (E & FR). injection E as <-. unfold go. destruct (Z.eq_dec p m) as [->|NP].
    + assert (x = xm) by congruence. subst x. rewrite HM. destruct (Z.ltb_spec j n); [|lia]. destruct f as [q|].
      2:{ cbn [calm1] in C. rewrite P, HM in C. lia. }
      destruct FR as (Q & Q0). assert (NQ : q <> m) by congruence. unfold fork. destruct (Z.eq_dec j 255) as [->|NJ].
      * right. exists q. split; [cbn [tab]; rewrite put_eq, X; reflexivity|]. split; [exact NQ|]. cbn [procs]. split; [|split].
        -- rewrite put_ne by congruence. rewrite put_eq. eexists. split; [reflexivity|]. split; [exact IM|]. cbn [set_ph ph_ okph okpos]. lia.
        -- rewrite put_eq. eexists. split; [reflexivity|]. split; [reflexivity|]. cbn [ph_ okph okpos]. lia.
        -- intros y z Y N1 N2. rewrite put_ne in Y by exact N2. rewrite put_ne in Y by exact N1. eauto.
      * left. split; [cbn [tab]; rewrite put_ne by congruence; exact T|]. split; [|split; [|split]]; cbn [procs tab].
        -- rewrite put_ne by congruence. rewrite put_eq. eexists _, (j + 1). split; [reflexivity|]. split; [exact IM|]. split; [reflexivity|lia].
        -- rewrite put_ne by congruence. exact X.
        -- rewrite put_ne by lia. rewrite put_ne by lia. exact Z0.
        -- intros y z Y NY. destruct (Z.eq_dec y q) as [->|NE]; [rewrite put_eq in Y; injection Y as <-; split; cbn [id_ ph_]; [exact NJ|eauto]|].
           rewrite put_ne in Y by exact NE. rewrite put_ne in Y by exact NY. eauto.
    + left. destruct (O p x P NP) as (NI & [H|(c & H)]); rewrite H; [exact L|]. destruct (quit_ x); [|exact L].
      apply (early_put m s p x); auto. cbn [set_ph set_flags ph_ id_]. destruct (Z.eqb_spec (id_ x) MASTER); [contradiction|auto].
Qed.
Lemma calm_cons n s a l s' : calm n s (a :: l) -> step n s a = Some s' -> calm1 n s a /\ calm n s' l.
Proof.
  cbn [calm]. intros (B & C) E. rewrite E in C. split; [|exact C]. destruct a as [p g|p [q|]|p]; cbn [calm1]; auto.
Qed.

(** Found false, for every number from 256 on and every run (signals of all kinds to anybody at
    any time): the worker of row 255 takes itself for the master. It does not end when it is told
    to, because it waits for its own end, and so the master never ends either. *)
Theorem C153_refuted_stop : forall n m l s, 256 <= n -> 0 < m -> calm n (first m) l -> run n (first m) l = Some s ->
  ~ ended s m /\ (pid_ (tab s 255) = 0 \/ ~ ended s (pid_ (tab s 255))).
Proof.
  intros n m l s N M0 C R.
  assert (X : early m s \/ exists w, late m w s).
  { assert (O1 : early m (first m) \/ exists w, late m w (first m)).
    { left. split; [reflexivity|]. split; [|split; [reflexivity|]]; cbn [first procs].
      - eexists _, 0. rewrite Z.eqb_refl. split; [reflexivity|]. split; [reflexivity|]. split; [reflexivity|lia].
      - destruct (Z.eqb_spec 0 m); [lia|]. split; [reflexivity|]. intros q x Q NQ. destruct (Z.eqb_spec q m); [contradiction|discriminate]. }
    revert O1 C R. generalize (first m). induction l as [|a l IH]; cbn [run]; intros s0 O1 C R; [injection R as <-; exact O1|].
    destruct (step n s0 a) as [s1|] eqn:E; [|discriminate]. destruct (calm_cons _ _ _ _ _ C E) as (C1 & C2).
    apply (IH s1); [|exact C2|exact R]. destruct O1 as [O1|(w & O1)]; [eapply early_step; eauto|right; exists w; eapply late_step; eauto]. }
  unfold ended. destruct X as [(T & (x & j & M & IM & HM & J) & _)|(w & T & NW & (xm & M & IM & HM) & (xw & W & IW & HW) & _)].
  - rewrite M, HM. split; [discriminate|left; exact T].
  - rewrite M, T. cbn [pid_]. rewrite W. split; [intros H; rewrite H in HM; exact HM|right; intros H; rewrite H in HW; exact HW].
Qed.
Print Assumptions C153_refuted_stop.

(** *** A stop that works *)
Lemma run_app n : forall l1 l2 s, run n s (l1 ++ l2) = match run n s l1 with Some s' => run n s' l2 | None => None end.
Proof. induction l1 as [|a l1 IH]; intros l2 s; cbn [app run]; [reflexivity|]. destruct (step n s a); [apply IH|reflexivity]. Qed.
Lemma calm_app n : forall l1 l2 s s', calm n s l1 -> run n s l1 = Some s' -> calm n s' l2 -> calm n s (l1 ++ l2).
Proof.
  induction l1 as [|a l1 IH]; intros l2 s s' C R D; cbn [app run] in *; [injection R as <-; exact D|].
  destruct (step n s a) as [s1|] eqn:E; [|discriminate]. destruct C as (A & B). split; [exact A|]. rewrite E in *. eapply IH; eauto.
Qed.
Definition reach (n m : Z) (s : st) : Prop := exists l, calm n (first m) l /\ run n (first m) l = Some s.
Lemma reach_step n m s a s' : reach n m s -> calm1 n s a -> step n s a = Some s' -> reach n m s'.
Proof.
  intros (l & C & R) C1 E. exists (l ++ [a]). split.
  - eapply calm_app; eauto. cbn [calm]. rewrite E. split; [|exact I]. destruct a as [p g|p [q|]|p]; cbn [calm1] in C1; auto.
  - rewrite run_app, R. cbn [run]. rewrite E. reflexivity.
Qed.
(** [k] workers are started *)
Definition started (m k : Z) (s : st) : Prop :=
  procs s m = Some (Proc MASTER 0 true false false (At (Fork k))) /\
  (forall i, 0 <= i < k -> tab s i = Row (m + 1 + i) false /\ procs s (m + 1 + i) = Some (Proc i m false false false (Work (Fork (i + 1))))) /\
  (forall q, m + k < q -> procs s q = None) /\ (forall i, k <= i -> exited_ (tab s i) = false).
Lemma start_all n m : 0 < m -> forall k : nat, Z.of_nat k <= n -> exists s, reach n m s /\ started m (Z.of_nat k) s.
Proof.
  intros M0. induction k as [|k IH]; intros K.
  - exists (first m). split; [exists []; split; [exact I|reflexivity]|]. split; [|split; [|split]]; cbn [first procs tab].
    + rewrite Z.eqb_refl. reflexivity.
    + intros i J. lia.
    + intros q Q. destruct (Z.eqb_spec q m); [lia|reflexivity].
    + reflexivity.
  - destruct IH as (s & R & A & B & C & D); [lia|]. remember (Z.of_nat k) as kz. assert (K0 : 0 <= kz) by lia.
    replace (Z.of_nat (S k)) with (kz + 1) in * by lia.
    assert (E : step n s (AGo m (Some (m + 1 + kz))) = Some (fork s m (Proc MASTER 0 true false false (At (Fork kz))) kz (Fork (kz + 1)) (m + 1 + kz))).
    { cbn [step]. rewrite A, (C (m + 1 + kz)) by lia. destruct (Z.ltb_spec 0 (m + 1 + kz)); [|lia]. unfold go. cbn [ph_]. destruct (Z.ltb_spec kz n); [reflexivity|lia]. }
    eexists. split; [eapply reach_step; [exact R| |exact E]; exact I|]. unfold fork. split; [|split; [|split]]; cbn [procs tab set_ph id_ par_ block_ quit_ reap_].
    + rewrite put_ne by lia. rewrite put_eq. reflexivity.
    + intros i J. destruct (Z.eq_dec i kz) as [->|NE].
      * rewrite !put_eq. rewrite D by lia. auto.
      * rewrite !put_ne by lia. apply B. lia.
    + intros q Q. rewrite !put_ne by lia. apply C. lia.
    + intros i J. rewrite put_ne by lia. apply D. lia.
Qed.
(** [k] of them have ended; the master knows of the stop *)
Definition stopping (n m k : Z) (s : st) : Prop :=
  procs s m = Some (Proc MASTER 0 true true false (At Wake)) /\
  (forall i, 0 <= i < n -> tab s i = Row (m + 1 + i) false) /\
  (forall i, 0 <= i < k -> procs s (m + 1 + i) = Some (Proc i m false false false End_)) /\
  (forall i, k <= i < n -> procs s (m + 1 + i) = Some (Proc i m false false false (Work (Fork (i + 1))))).
Lemma stop_all n m s : 0 < m -> n <= 255 -> reach n m s -> stopping n m 0 s -> forall k : nat, Z.of_nat k <= n -> exists s, reach n m s /\ stopping n m (Z.of_nat k) s.
Proof.
  intros M0 N R S0. induction k as [|k IH]; intros K; [exists s; auto|]. destruct IH as (s1 & R1 & A & B & C & D); [lia|].
  remember (Z.of_nat k) as kz. assert (K0 : 0 <= kz) by lia. replace (Z.of_nat (S k)) with (kz + 1) in * by lia.
  set (p := m + 1 + kz). assert (P : procs s1 p = Some (Proc kz m false false false (Work (Fork (kz + 1))))) by (apply D; lia).
  set (s2 := St (tab s1) (put (procs s1) p (Some (Proc kz m false true false (Work (Fork (kz + 1))))))).
  assert (E : step n s1 (ASig p SInt) = Some s2) by (cbn [step]; rewrite P; reflexivity).
  assert (R2 : reach n m s2) by (eapply reach_step; [exact R1| |exact E]; exact I).
  assert (E2 : step n s2 (AGo p None) = Some (St (tab s1) (put (procs s2) p (Some (Proc kz m false false false End_))))).
  { cbn [step]. unfold s2 at 1. cbn [procs]. rewrite put_eq. unfold go. cbn [ph_ quit_ id_ set_flags set_ph]. destruct (Z.eqb_spec kz MASTER) as [X|]; [unfold MASTER in X; lia|]. reflexivity. }
  eexists. split; [eapply reach_step; [exact R2| |exact E2]; cbn [calm1]; unfold s2; cbn [procs]; rewrite put_eq; exact I|].
  unfold stopping, s2, p. cbn [procs tab]. split; [|split; [|split]].
  - rewrite !put_ne by lia. exact A.
  - exact B.
  - intros i J. destruct (Z.eq_dec i kz) as [->|NE]; [rewrite put_eq; reflexivity|rewrite !put_ne by lia; apply C; lia].
  - intros i J. rewrite !put_ne by lia. apply D. lia.
Qed.
(** Proved: up to 255 workers are all started, and when everybody is told to stop, everybody can
    end: all workers, and then the master. *)
Theorem C153_stops_partial : forall n m, 0 < n <= 255 -> 0 < m -> exists l s, calm n (first m) l /\ run n (first m) l = Some s /\ ended s m /\
  forall i, 0 <= i < n -> exited_ (tab s i) = true /\ 0 < pid_ (tab s i) /\ procs s (pid_ (tab s i)) = None.
Proof.
  intros n m N M0. destruct (start_all n m M0 (Z.to_nat n) ltac:(lia)) as (s & R & A & B & C & D). rewrite Z2Nat.id in * by lia.
  set (s1 := St (tab s) (put (procs s) m (Some (Proc MASTER 0 true false false (At Susp))))).
  assert (E1 : step n s (AGo m None) = Some s1). { cbn [step]. rewrite A. unfold go. cbn [ph_]. rewrite Z.ltb_irrefl. reflexivity. }
  assert (R1 : reach n m s1). { eapply reach_step; [exact R| |exact E1]. cbn [calm1]. rewrite A. cbn [ph_]. lia. }
  set (s2 := St (tab s) (put (procs s1) m (Some (Proc MASTER 0 true true false (At Wake))))).
  assert (E2 : step n s1 (ASig m SInt) = Some s2). { cbn [step]. unfold s1 at 1. cbn [procs]. rewrite put_eq. reflexivity. }
  assert (R2 : reach n m s2) by (eapply reach_step; [exact R1| |exact E2]; exact I).
  assert (S2 : stopping n m 0 s2).
  { unfold s2, s1. split; [|split; [|split]]; cbn [procs tab].
    - rewrite put_eq. reflexivity.
    - intros i J. apply B. lia.
    - intros i J. lia.
    - intros i J. rewrite !put_ne by lia. apply B. lia. }
  destruct (stop_all n m s2 M0 ltac:(lia) R2 S2 (Z.to_nat n) ltac:(lia)) as (s3 & R3 & A3 & B3 & C3 & _). rewrite Z2Nat.id in * by lia.
  assert (NX : all_exited n s3 = false).
  { destruct (all_exited n s3) eqn:X; [|reflexivity]. unfold all_exited in X. rewrite forallb_forall in X. specialize (X 0 ltac:(apply upto_In; lia)). cbv beta in X.
    rewrite B3 in X by lia. discriminate. }
  set (s4 := St (tab s3) (put (procs s3) m (Some (Proc MASTER 0 true true false (At Susp))))).
  assert (E4 : step n s3 (AGo m None) = Some s4). { cbn [step]. rewrite A3. unfold go. cbn [ph_ quit_ andb reap_]. rewrite NX. reflexivity. }
  assert (R4 : reach n m s4). { eapply reach_step; [exact R3| |exact E4]. cbn [calm1]. rewrite A3. exact I. }
  set (s5 := wait_all n (St (tab s4) (put (procs s4) m (Some (Proc MASTER 0 true true true (At Wake))))) m).
  assert (E5 : step n s4 (ASig m SChld) = Some s5). { cbn [step]. unfold s4 at 1. cbn [procs]. rewrite put_eq. reflexivity. }
  assert (R5 : reach n m s5) by (eapply reach_step; [exact R4| |exact E5]; exact I).
  assert (ZB : forall i, 0 <= i < n -> zombie (St (tab s4) (put (procs s4) m (Some (Proc MASTER 0 true true true (At Wake))))) m (m + 1 + i) = true).
  { intros i J. unfold zombie, s4. cbn [procs]. rewrite !put_ne by lia. rewrite C3 by lia. cbn [par_ ph_]. rewrite Z.eqb_refl. reflexivity. }
  assert (T5 : forall i, 0 <= i < n -> tab s5 i = Row (m + 1 + i) true).
  { intros i J. unfold s5, wait_all. cbn [tab]. assert (TI : tab s4 i = Row (m + 1 + i) false) by (apply B3; exact J). rewrite TI. cbn [pid_]. rewrite (ZB i J).
    destruct (Z.leb_spec 0 i); [|lia]. destruct (Z.ltb_spec i n); [|lia]. cbn [andb].
    destruct (existsb _ (upto i)) eqn:X; [|reflexivity]. exfalso. apply existsb_exists in X as (j & J1 & J2). apply upto_In in J1. unfold s4 in J2. cbn [tab] in J2. rewrite B3 in J2 by lia. cbn [pid_] in J2. apply Z.eqb_eq in J2. lia. }
  assert (P5 : procs s5 m = Some (Proc MASTER 0 true true true (At Wake))).
  { unfold s5, wait_all. cbn [procs]. unfold zombie at 1. cbn [procs]. rewrite put_eq. cbn [ph_]. rewrite andb_false_r. reflexivity. }
  assert (AX : all_exited n s5 = true). { unfold all_exited. apply forallb_forall. intros i J. apply upto_In in J. rewrite T5 by exact J. reflexivity. }
  set (s6 := St (tab s5) (put (procs s5) m (Some (Proc MASTER 0 true true true End_)))).
  assert (E6 : step n s5 (AGo m None) = Some s6). { cbn [step]. rewrite P5. unfold go. cbn [ph_ quit_ andb]. rewrite AX. reflexivity. }
  assert (R6 : reach n m s6). { eapply reach_step; [exact R5| |exact E6]. cbn [calm1]. rewrite P5. exact I. }
  destruct R6 as (l & CL & RL). exists l, s6. split; [exact CL|]. split; [exact RL|]. split.
  - unfold ended, s6. cbn [procs]. rewrite put_eq. reflexivity.
  - intros i J. unfold s6. cbn [tab procs]. rewrite T5 by exact J. cbn [exited_ pid_]. split; [reflexivity|]. split; [lia|]. rewrite put_ne by lia.
    unfold s5, wait_all. cbn [procs]. rewrite ZB by exact J. reflexivity.
Qed.
Print Assumptions C153_stops_partial.

(** *** Examples *)
(** two workers are started, everybody is told to stop: all end *)
Definition stop_two : list act :=
  [AGo 10 (Some 11); AGo 10 (Some 12); AGo 10 None; ASig 11 SInt; AGo 11 None; ASig 12 SInt; AGo 12 None;
   ASig 10 SChld; AGo 10 None; AGo 10 (Some 13); AGo 10 None; AGo 10 (Some 14); AGo 10 None].
Definition stop_now : list act :=
  [AGo 10 (Some 11); AGo 10 (Some 12); AGo 10 None; ASig 10 SInt; ASig 11 SInt; AGo 11 None; ASig 12 SInt; AGo 12 None; AGo 10 None;
   ASig 10 SChld; AGo 10 None].
Example ex_C153_two :
  (exists s, run 2 (first 10) stop_now = Some s /\ ended s 10 /\ procs s 11 = None /\ procs s 12 = None /\ calm 2 (first 10) stop_now) /\
  (exists s, run 2 (first 10) stop_two = Some s /\ pid_ (tab s 0) = 13 /\ pid_ (tab s 1) = 14 /\ ~ ended s 13).
Proof.
  split; eexists; (split; [vm_compute; reflexivity|]).
  - split; [vm_compute; reflexivity|]. split; [reflexivity|]. split; [reflexivity|]. vm_compute. repeat split; discriminate.
  - split; [vm_compute; reflexivity|]. split; [vm_compute; reflexivity|]. vm_compute. discriminate.
Qed.
(** 256 workers: the last one is told to stop and becomes a second master *)
Definition start_256 : list act := map (fun i => AGo 1 (Some (i + 2))) (upto 256) ++ [AGo 1 None; ASig 257 SInt; AGo 257 None; AGo 257 None; ASig 257 SInt; AGo 257 None].
Example ex_C153_256 : exists s, run 256 (first 1) start_256 = Some s /\ pid_ (tab s 255) = 257 /\ procs s 257 = Some (Proc MASTER 1 false true false (At Susp)).
Proof. eexists. split; [vm_compute; reflexivity|]. split; vm_compute; reflexivity. Qed.

Theorem C153_property_refuted : ~ C153_property.
Proof.
  intros P. unfold C153_property in P. destruct (P 256 ltac:(unfold int, two31; lia) true) as [H|(_ & H)].
  - vm_compute in H. discriminate.
  - destruct (H ltac:(lia) 1 ltac:(lia)) as (l & s & C & R & E). apply (C153_refuted_stop 256 1 l s); auto; lia.
Qed.
Print Assumptions C153_property_refuted.
Example ex_C153_kept : exists s x s2 x2, run 1 (first 7) [AGo 7 (Some 8); AGo 7 None; ASig 7 SInt] = Some s /\ procs s 7 = Some x /\ quit_ x = true /\
  run 1 s [AGo 7 None; AKill 8; ASig 7 SChld; AGo 7 None] = Some s2 /\ procs s2 7 = Some x2 /\ ph_ x2 = End_.
Proof. do 4 eexists. split; [reflexivity|]. split; [reflexivity|]. split; [reflexivity|]. split; [reflexivity|]. split; reflexivity. Qed.
