(** * Properties C146 and C147: where log records go. *)
From Coq Require Import String.
From Verif Require Import Base Str_Spec Lfd_Model.
Open Scope Z_scope.
Local Arguments Z.add : simpl never.
Local Arguments Z.sub : simpl never.

(** ** Specification, without descriptors *)
(** the descriptors 0, 1, … the program is started with: open or not *)
Definition given (t : tab) (n : nat) : option obj := nth n t None.
(** the program becomes a daemon if its configuration says so and could be read, for which
    there has to be a standard input *)
Definition is_daemon (t : tab) (c : conf) : bool :=
  match c, given t 0 with CRead d, Some _ => d | _, _ => false end.
(** standard output: what it was when the program was started, /dev/null for a daemon *)
Definition stdout (t : tab) (c : conf) : option obj :=
  match given t 1 with
  | Some o => Some (if is_daemon t c then ONull else o)
  | None => None
  end.
Definition part (o : obj) (text : list Z) (w : option Z) : list (obj * list Z) :=
  match w with Some k => [(o, ztake k text)] | None => [] end.
(** every record is written to standard output and to the log file of its kind; without a
    standard output to the main log file instead. [live]: which processes have their log
    files open. *)
Fixpoint expect (so : option obj) (im ia : Z) (live : list bool) (l : list step) : list (obj * list Z) :=
  match l with
  | [] => []
  | LFork p :: l => expect so im ia (live ++ [match zget live p with Some b => b | None => false end]) l
  | LEnd p :: l => expect so im ia (firstn (Z.to_nat p) live ++ false :: skipn (S (Z.to_nat p)) live) l
  | LRec p acc text w1 w2 :: l =>
      let b := match zget live p with Some b => b | None => false end in
      match so with Some o => part o text w1 | None => if b then part (OFile im) text w1 else [] end ++
      (if b then part (OFile (if acc then ia else im)) text w2 else []) ++ expect so im ia live l
  | _ :: l => expect so im ia live l
  end.

(** ** Descriptor tables *)
Lemma slot_nth t n : slot t n = nth n t None.
Proof. revert n. induction t as [|x t IH]; intros [|n]; cbn; auto. Qed.
Lemma slot_put t n x k : slot (put t n x) k = if Nat.eqb k n then x else slot t k.
Proof.
  revert t k. induction n as [|n IH]; intros t k.
  - destruct t as [|y t]; destruct k as [|k]; cbn; auto.
  - destruct t as [|y t]; destruct k as [|k]; cbn [put slot Nat.eqb]; auto; rewrite IH; destruct (Nat.eqb k n); auto.
    all: destruct k; reflexivity.
Qed.
Lemma fget_fput t n x k : 0 <= n -> fget (fput t n x) k = if k =? n then x else fget t k.
Proof.
  intros N. unfold fget, fput. destruct (Z.ltb_spec n 0) as [|_]; [lia|].
  destruct (Z.ltb_spec k 0); [destruct (Z.eqb_spec k n); [lia|reflexivity]|].
  rewrite slot_put. destruct (Nat.eqb_spec (Z.to_nat k) (Z.to_nat n)), (Z.eqb_spec k n); try lia; reflexivity.
Qed.
Lemma fget_fclose t n k : fget (fclose t n) k = if k =? n then None else fget t k.
Proof.
  unfold fclose. destruct (fget t n) eqn:E.
  - assert (0 <= n) by (unfold fget in E; destruct (Z.ltb_spec n 0); [discriminate|lia]). apply fget_fput. assumption.
  - destruct (Z.eqb_spec k n) as [->|]; auto.
Qed.
(** the number that is given out is the lowest one that is free *)
Lemma fopen_spec t o : 0 <= snd (fopen t o) /\ fget t (snd (fopen t o)) = None /\
  (forall k, 0 <= k < snd (fopen t o) -> fget t k <> None) /\
  (forall k, fget (fst (fopen t o)) k = if k =? snd (fopen t o) then Some o else fget t k).
Proof.
  induction t as [|[x|] t (I1 & I2 & I3 & I4)]; cbn [fopen fst snd].
  - split; [lia|]. split; [reflexivity|]. split; [lia|]. intros k. unfold fget.
    destruct (Z.eqb_spec k 0) as [->|]; [reflexivity|]. destruct (Z.ltb_spec k 0); [reflexivity|].
    destruct (Z.to_nat k) as [|[|?]] eqn:E; try reflexivity. lia.
  - assert (Sh : forall (u : tab) (y : option obj) k, 0 < k -> fget (y :: u) k = fget u (k - 1)).
    { intros u y k K. unfold fget. destruct (Z.ltb_spec k 0); [lia|]. destruct (Z.ltb_spec (k - 1) 0); [lia|].
      replace (Z.to_nat k) with (S (Z.to_nat (k - 1))) by lia. reflexivity. }
    set (n := snd (fopen t o)) in *. split; [lia|]. split; [rewrite Sh by lia; replace (1 + n - 1) with n by lia; exact I2|].
    split.
    + intros k K. destruct (Z.eqb_spec k 0) as [->|]; [discriminate|]. rewrite Sh by lia. apply I3. lia.
    + intros k. destruct (Z.ltb_spec 0 k).
      * rewrite !Sh by lia. rewrite I4. destruct (Z.eqb_spec (k - 1) n), (Z.eqb_spec k (1 + n)); try lia; reflexivity.
      * destruct (Z.eqb_spec k (1 + n)); [lia|]. destruct (Z.eqb_spec k 0) as [->|]; [reflexivity|].
        unfold fget. destruct (Z.ltb_spec k 0); [reflexivity|lia].
  - split; [lia|]. split; [reflexivity|]. split; [lia|]. intros k. unfold fget.
    destruct (Z.eqb_spec k 0) as [->|]; [reflexivity|]. destruct (Z.ltb_spec k 0); [reflexivity|].
    replace (Z.to_nat k) with (S (Z.to_nat (k - 1))) by lia. reflexivity.
Qed.

(** ** Start *)
Lemma given_fget t n : given t n = fget t (Z.of_nat n).
Proof. unfold given, fget. destruct (Z.ltb_spec (Z.of_nat n) 0); [lia|]. rewrite Nat2Z.id, slot_nth. reflexivity. Qed.
(** the place of a record in the table of a running process *)
Definition placed (so : option obj) (im ia : Z) (t : tab) (m a : Z) : Prop :=
  0 < m /\ 0 < a /\ m <> a /\ a <> 1 /\ fget t m = Some (OFile im) /\ fget t a = Some (OFile ia) /\
  match so with Some o => m <> 1 /\ fget t 1 = Some o | None => m = 1 end.
Lemma log_init_ok t im ia t' m a : log_init t im ia = Some (t', (m, a)) -> placed (fget t 1) im ia t' m a.
Proof.
  unfold log_init. destruct (fopen_spec t (OFile im)) as (M1 & M2 & M3 & M4).
  destruct (fopen t (OFile im)) as (t1, m1). cbn [fst snd] in *.
  destruct (Z.ltb_spec 0 m1); [|discriminate].
  destruct (fopen_spec t1 (OFile ia)) as (A1 & A2 & A3 & A4). destruct (fopen t1 (OFile ia)) as (t2, a1). cbn [fst snd] in *.
  destruct (Z.ltb_spec 0 a1); [|discriminate]. intros [= <- <- <-].
  assert (N : m1 <> a1) by (intros ->; rewrite M4, Z.eqb_refl in A2; discriminate).
  assert (O : a1 <> 1).
  { intros ->. rewrite M4 in A2. destruct (Z.eqb_spec 1 m1) as [|]; [discriminate|].
    apply (M3 1); [lia|exact A2]. }
  split; [lia|]. split; [lia|]. split; [exact N|]. split; [exact O|].
  split; [rewrite A4; destruct (Z.eqb_spec m1 a1); [lia|]; rewrite M4, Z.eqb_refl; reflexivity|].
  split; [rewrite A4, Z.eqb_refl; reflexivity|].
  destruct (fget t 1) as [o|] eqn:E.
  - assert (m1 <> 1) by (intros ->; congruence). split; [assumption|]. rewrite A4, M4.
    destruct (Z.eqb_spec 1 a1); [lia|]. destruct (Z.eqb_spec 1 m1); [lia|exact E].
  - destruct (Z.eqb_spec m1 1) as [|N1]; [assumption|]. exfalso. apply (M3 1); [lia|exact E].
Qed.
Lemma pid_file_same t k : fget (pid_file t) k = fget t k.
Proof.
  unfold pid_file. destruct (fopen_spec t OPid) as (P1 & P2 & P3 & P4). rewrite fget_fclose, P4.
  destruct (Z.eqb_spec k (snd (fopen t OPid))) as [->|]; auto.
Qed.
Lemma start_ok t c im ia t' m a : start t c im ia = Some (t', (m, a)) -> placed (stdout t c) im ia t' m a.
Proof.
  unfold start. intros E. apply log_init_ok in E. rewrite pid_file_same in E.
  replace (stdout t c) with (fget (daemon (fst (read_conf t c)) (snd (read_conf t c))) 1); [exact E|clear E].
  assert (H : (fget (fst (read_conf t c)) 1 = given t 1) /\ snd (read_conf t c) = is_daemon t c /\
              (snd (read_conf t c) = true -> fget (fst (read_conf t c)) 0 <> None)).
  { unfold is_daemon. rewrite !given_fget. change (Z.of_nat 1) with 1. change (Z.of_nat 0) with 0.
    destruct c as [| |d]; cbn [read_conf fst snd]; try (split; [reflexivity|split; [reflexivity|discriminate]]).
    destruct (fopen_spec t OConf) as (C1 & C2 & C3 & C4). set (n := snd (fopen t OConf)) in *.
    destruct (Z.eqb_spec n 0) as [N|N]; cbn [fst snd].
    - split; [rewrite C4; destruct (Z.eqb_spec 1 n); [lia|reflexivity]|]. rewrite N in C2. rewrite C2. split; [reflexivity|discriminate].
    - rewrite !fget_fclose. destruct (Z.eqb_spec 0 n); [lia|]. rewrite !C4. destruct (Z.eqb_spec 0 n); [lia|].
      split; [destruct (Z.eqb_spec 1 n) as [<-|]; [symmetry; exact C2|reflexivity]|].
      pose proof (C3 0 ltac:(lia)) as X. destruct (fget t 0); [|congruence]. split; [reflexivity|discriminate]. }
  destruct (read_conf t c) as (t1, d). cbn [fst snd] in *. destruct H as (H1 & -> & H0).
  unfold stdout. rewrite <- H1. unfold daemon. destruct (is_daemon t c); [|destruct (fget t1 1); reflexivity].
  specialize (H0 eq_refl). destruct (fopen_spec t1 ONull) as (D1 & D2 & D3 & D4). set (n := snd (fopen t1 ONull)) in *.
  assert (N : n <> 0) by (intros X; rewrite X in D2; contradiction).
  rewrite fget_fclose. unfold dup2. destruct (Z.eqb_spec 1 n) as [N1|N1]; [rewrite <- N1 in D2; rewrite D2; reflexivity|].
  rewrite !fget_fput by lia. cbn [Z.eqb]. destruct (Z.eqb_spec n 0); [lia|]. rewrite D4, Z.eqb_refl.
  destruct (fget t1 1) eqn:F; [reflexivity|]. exfalso. apply (D3 1); [lia|exact F].
Qed.

(** ** Running *)
Definition proc_ok (so : option obj) (im ia m a : Z) (b : bool) (q : proc) : Prop :=
  if b then p_log q = Some (m, a) /\ placed so im ia (p_tab q) m a /\
            Forall (fun n => n <> 1 /\ n <> m /\ n <> a) (p_own q)
  else p_log q = None /\ fget (p_tab q) 1 = so /\ Forall (fun n => n <> 1) (p_own q).
Definition sys_ok so im ia m a (live : list bool) (s : sys) : Prop := Forall2 (proc_ok so im ia m a) live (s_procs s).

Lemma sys_get so im ia m a live s p q : sys_ok so im ia m a live s -> zget (s_procs s) p = Some q ->
  exists b, zget live p = Some b /\ proc_ok so im ia m a b q.
Proof.
  unfold sys_ok, zget. destruct (p <? 0); [discriminate|]. intros F. revert F. generalize (Z.to_nat p). generalize (s_procs s).
  intros ps n F. revert n. induction F as [|b x live' ps' H F IH]; intros [|n] E; cbn in *; try discriminate.
  - injection E as <-. exists b. auto.
  - exact (IH n E).
Qed.
Lemma sys_upd so im ia m a live s p q q' b b' : sys_ok so im ia m a live s -> zget (s_procs s) p = Some q -> zget live p = Some b ->
  proc_ok so im ia m a b' q' ->
  sys_ok so im ia m a (firstn (Z.to_nat p) live ++ b' :: skipn (S (Z.to_nat p)) live) (upd s p q').
Proof.
  unfold sys_ok, zget, upd. cbn [s_procs]. destruct (p <? 0); [discriminate|]. intros F. revert F. generalize (Z.to_nat p). generalize (s_procs s).
  intros ps n F. revert n. induction F as [|x y live' ps' H F IH]; intros [|n] E E' P; cbn [nth_error firstn skipn app] in *; try discriminate.
  - constructor; assumption.
  - constructor; [assumption|]. apply IH; assumption.
Qed.
Lemma same_live {A} (live : list A) p b : zget live p = Some b ->
  firstn (Z.to_nat p) live ++ b :: skipn (S (Z.to_nat p)) live = live.
Proof.
  unfold zget. destruct (p <? 0); [discriminate|]. generalize (Z.to_nat p). induction live as [|x l IH]; intros [|n] E; cbn in *; try discriminate.
  - injection E as ->. reflexivity.
  - f_equal. apply IH, E.
Qed.

Lemma lrun_ok so im ia m a : forall l s s' ws live, sys_ok so im ia m a live s -> l_valid s l -> lrun s l = Some (s', ws) ->
  ws = expect so im ia live l.
Proof.
  induction l as [|x l IH]; intros s s' ws live K V E; cbn [lrun] in E; [injection E as <- <-; reflexivity|].
  cbn [l_valid] in V. destruct V as (OK & V). destruct (lstep s x) as [q|] eqn:S; [|discriminate]. specialize (V q eq_refl).
  destruct (lrun (fst q) l) as [(s2, w2)|] eqn:R; [|discriminate]. injection E as <- <-. cbn [snd fst].
  destruct x as [p|p o|p n|p acc text w1 w2'|p|acc i]; cbn [lstep] in S; cbn [expect].
  - destruct (zget (s_procs s) p) as [y|] eqn:Ep; [|discriminate]. injection S as <-. cbn [fst snd app] in *.
    destruct (sys_get _ _ _ _ _ _ _ _ _ K Ep) as (b & Eb & P). rewrite Eb. eapply IH; [|exact V|exact R].
    unfold sys_ok. cbn [s_procs]. apply Forall2_app; [exact K|]. constructor; [exact P|constructor].
  - destruct (zget (s_procs s) p) as [y|] eqn:Ep; [|discriminate]. injection S as <-. cbn [fst snd app] in *.
    destruct (sys_get _ _ _ _ _ _ _ _ _ K Ep) as (b & Eb & P). eapply IH; [|exact V|exact R].
    rewrite <- (same_live live p b Eb). eapply sys_upd; [exact K|exact Ep|exact Eb|].
    destruct OK as (y' & E1 & NE). rewrite Ep in E1. injection E1 as <-.
    destruct b; [|destruct P as (PL & _); contradiction]. destruct P as (PL & PP & PO).
    destruct PP as (P1 & P2 & P3 & P4 & P5 & P6 & P7).
    destruct (fopen_spec (p_tab y) o) as (F1 & F2 & F3 & F4). set (n := snd (fopen (p_tab y) o)) in *.
    assert (Nm : n <> m) by (intros ->; congruence). assert (Na : n <> a) by (intros ->; congruence).
    assert (N1 : n <> 1) by (intros ->; destruct so; [destruct P7|subst m]; congruence).
    split; [exact PL|]. cbn [p_tab p_own]. split; [|constructor; [auto|exact PO]].
    unfold placed. rewrite !F4. destruct (Z.eqb_spec m n); [lia|]. destruct (Z.eqb_spec a n); [lia|]. destruct (Z.eqb_spec 1 n); [lia|].
    repeat (split; [assumption|]). assumption.
  - destruct (zget (s_procs s) p) as [y|] eqn:Ep; [|discriminate]. injection S as <-. cbn [fst snd app] in *.
    destruct (sys_get _ _ _ _ _ _ _ _ _ K Ep) as (b & Eb & P). eapply IH; [|exact V|exact R].
    rewrite <- (same_live live p b Eb). eapply sys_upd; [exact K|exact Ep|exact Eb|].
    destruct OK as (y' & E1 & IN). rewrite Ep in E1. injection E1 as <-. destruct b.
    + destruct P as (PL & PP & PO). destruct (proj1 (Forall_forall _ _) PO n IN) as (N1 & Nm & Na).
      destruct PP as (P1 & P2 & P3 & P4 & P5 & P6 & P7). split; [exact PL|]. cbn [p_tab p_own]. split; [|exact PO].
      unfold placed. rewrite !fget_fclose. destruct (Z.eqb_spec m n); [lia|]. destruct (Z.eqb_spec a n); [lia|]. destruct (Z.eqb_spec 1 n); [lia|].
      repeat (split; [assumption|]). assumption.
    + destruct P as (PL & PP & PO). pose proof (proj1 (Forall_forall _ _) PO n IN) as N1. cbv beta in N1.
      split; [exact PL|]. cbn [p_tab p_own]. rewrite fget_fclose. destruct (Z.eqb_spec 1 n); [lia|]. auto.
  - destruct (zget (s_procs s) p) as [y|] eqn:Ep; [|discriminate]. injection S as <-. cbn [fst snd] in *.
    destruct (sys_get _ _ _ _ _ _ _ _ _ K Ep) as (b & Eb & P). rewrite Eb. rewrite app_assoc. f_equal; [|eapply IH; [exact K|exact V|exact R]].
    unfold record, wr. destruct b.
    + destruct P as (PL & PP & _). rewrite PL. destruct PP as (P1 & P2 & P3 & P4 & P5 & P6 & P7). f_equal.
      * destruct so as [o|]; [destruct P7 as (_ & ->)|subst m; rewrite P5]; reflexivity.
      * destruct acc; [destruct (Z.ltb_spec 0 a); [rewrite P6; reflexivity|lia]|destruct (Z.ltb_spec 0 m); [rewrite P5; reflexivity|lia]].
    + destruct P as (PL & PP & _). rewrite PL, PP. destruct so; reflexivity.
  - destruct (zget (s_procs s) p) as [y|] eqn:Ep; [|discriminate]. injection S as <-. cbn [fst snd app] in *.
    destruct (sys_get _ _ _ _ _ _ _ _ _ K Ep) as (b & Eb & P). eapply IH; [|exact V|exact R].
    eapply sys_upd; [exact K|exact Ep|exact Eb|]. unfold log_end. destruct b.
    + destruct P as (PL & PP & PO). rewrite PL. destruct PP as (P1 & P2 & P3 & P4 & P5 & P6 & P7).
      destruct (Z.eqb_spec m 0); [lia|]. destruct (Z.eqb_spec a 0); [lia|]. cbn [p_log p_tab p_own]. split; [reflexivity|].
      cbn [p_tab p_own]. rewrite !fget_fclose. destruct (Z.eqb_spec 1 a); [lia|]. split.
      * destruct so as [o|]; [destruct P7 as (? & P7); destruct (Z.eqb_spec 1 m); [lia|exact P7]|subst m; reflexivity].
      * eapply Forall_impl; [|exact PO]. intros ? X. apply X.
    + destruct P as (PL & PP & PO). rewrite PL. split; [exact PL|]. auto.
  - injection S as <-. cbn [fst snd app] in *. refine (IH _ _ _ live _ V R). exact K.
Qed.

(** ** C146 *)
(** Exactly: once the program has started, every record of every process is written to standard
    output and to the log file of its kind; without a standard output to the main log file
    instead. Whatever is opened, and closed once too often, in between. *)
Theorem C146_where (t : tab) (c : conf) (im ia : Z) q (l : list step) s ws :
  start t c im ia = Some q -> l_valid (boot q im ia) l -> lrun (boot q im ia) l = Some (s, ws) ->
  ws = expect (stdout t c) im ia [true] l.
Proof.
  destruct q as (t', (m, a)). intros S V R. apply start_ok in S. apply (lrun_ok (stdout t c) im ia m a l (boot (t', (m, a)) im ia) s ws [true]); auto.
  constructor; [|constructor]. split; [reflexivity|]. split; [exact S|constructor].
Qed.
Print Assumptions C146_where.

(** the bytes that were written to a file or a socket *)
Definition obj_eqb (x y : obj) : bool :=
  match x, y with
  | OOut a, OOut b | OFile a, OFile b | OConn a, OConn b => a =? b
  | ONull, ONull | OConf, OConf | OPid, OPid => true
  | _, _ => false
  end.
Lemma obj_eqb_spec x y : reflect (x = y) (obj_eqb x y).
Proof.
  destruct x, y; cbn; try (constructor; congruence); destruct (Z.eqb_spec k k0) || destruct (Z.eqb_spec i i0); constructor; congruence.
Qed.
Definition content (o : obj) (ws : list (obj * list Z)) : list Z := List.concat (map snd (filter (fun w => obj_eqb (fst w) o) ws)).
Lemma content_app o a b : content o (a ++ b) = content o a ++ content o b.
Proof. unfold content. rewrite filter_app, map_app, concat_app. reflexivity. Qed.
(** the records of a run: kind and text *)
Definition records (l : list step) : list (bool * list Z) :=
  flat_map (fun x => match x with LRec _ acc text _ _ => [(acc, text)] | _ => [] end) l.
Definition texts (k : option bool) (l : list step) : list Z :=
  List.concat (map snd (filter (fun r => match k with Some b => Bool.eqb (fst r) b | None => true end) (records l))).
(** the writes of a run are not cut short, and no record is made after the log files were closed *)
Fixpoint whole (l : list step) : Prop :=
  match l with
  | [] => True
  | LRec _ _ text w1 w2 :: l => w1 = Some (zlen text) /\ w2 = Some (zlen text) /\ whole l
  | LEnd _ :: _ => False
  | _ :: l => whole l
  end.

(** each record is once in its own log file, once on standard output and nowhere else; the
    program keeps the order in which they were made *)
Definition good (t : tab) (c : conf) (im ia : Z) (l : list step) (ws : list (obj * list Z)) : Prop :=
  content (OFile im) ws = texts (Some false) l /\ content (OFile ia) ws = texts (Some true) l /\
  (forall o, stdout t c = Some o -> content o ws = texts None l) /\
  (forall k, content (OConn k) ws = []).
Definition C146_property : Prop := forall t c im ia q l s ws, im <> ia -> (forall n o, given t n = Some o -> exists k, o = OOut k) ->
  start t c im ia = Some q -> l_valid (boot q im ia) l -> lrun (boot q im ia) l = Some (s, ws) -> good t c im ia l ws.

Lemma all_live (live : list bool) p : Forall (eq true) live -> forall b, zget live p = Some b -> b = true.
Proof. intros F b E. unfold zget in E. destruct (p <? 0); [discriminate|]. apply nth_error_In in E. symmetry. exact (proj1 (Forall_forall _ _) F b E). Qed.
(** the processes that a run names exist; which ones are there is all that matters *)
Fixpoint named (n : Z) (l : list step) : Prop :=
  match l with
  | [] => True
  | LFork p :: l => 0 <= p < n /\ named (n + 1) l
  | LRec p _ _ _ _ :: l => 0 <= p < n /\ named n l
  | _ :: l => named n l
  end.
Lemma lrun_named : forall l s s' ws, lrun s l = Some (s', ws) -> named (zlen (s_procs s)) l.
Proof.
  induction l as [|x l IH]; intros s s' ws E; [exact Logic.I|]. cbn [lrun] in E.
  destruct (lstep s x) as [q|] eqn:S; [|discriminate]. destruct (lrun (fst q) l) as [(s2, w2)|] eqn:R; [|discriminate].
  specialize (IH _ _ _ R).
  assert (G : forall p y, zget (s_procs s) p = Some y -> 0 <= p < zlen (s_procs s)).
  { intros p y G. unfold zget in G. destruct (Z.ltb_spec p 0); [discriminate|]. assert (X : nth_error (s_procs s) (Z.to_nat p) <> None) by congruence.
    apply nth_error_Some in X. unfold zlen. lia. }
  assert (U : forall p y y', zget (s_procs s) p = Some y -> zlen (s_procs (upd s p y')) = zlen (s_procs s)).
  { intros p y y' E1. apply G in E1. unfold upd, zlen in *. cbn [s_procs]. rewrite app_length. cbn [List.length]. rewrite firstn_length, skipn_length. lia. }
  destruct x as [p|p o|p n|p acc text w1 w2'|p|acc i]; cbn [lstep] in S; cbn [named];
    try (destruct (zget (s_procs s) p) as [y|] eqn:Ep; [|discriminate]); injection S as <-; cbn [fst] in IH; try (rewrite (U _ _ _ Ep) in IH; exact IH).
  - split; [eapply G, Ep|]. cbn [s_procs] in IH. unfold zlen in *. rewrite app_length in IH. cbn [List.length] in IH. rewrite Nat2Z.inj_add in IH. exact IH.
  - split; [eapply G, Ep|exact IH].
  - exact IH.
Qed.

Lemma ztake_all' (l : list Z) : ztake (zlen l) l = l.
Proof. unfold ztake, zlen. rewrite Nat2Z.id. apply firstn_all. Qed.
Lemma expect_whole so im ia : forall l live, Forall (eq true) live -> named (zlen live) l -> whole l ->
  forall o, content o (expect so im ia live l) =
    List.concat (map (fun r : bool * list Z => (if obj_eqb (match so with Some o => o | None => OFile im end) o then snd r else []) ++
                               (if obj_eqb (OFile (if fst r then ia else im)) o then snd r else [])) (records l)).
Proof.
  induction l as [|x l IH]; intros live F N W o; [reflexivity|].
  destruct x as [p|p b|p n|p acc text w1 w2'|p|acc i]; cbn [expect named whole] in *;
    try (apply IH; assumption); try contradiction.
  - destruct N as (P & N). destruct (zget live p) as [b|] eqn:E.
    + rewrite (all_live live p F b E). apply IH; [|unfold zlen in *; rewrite app_length, Nat2Z.inj_add; exact N|exact W].
      apply Forall_app. split; [exact F|repeat constructor].
    + exfalso. unfold zget in E. destruct (Z.ltb_spec p 0); [lia|]. apply nth_error_None in E. unfold zlen in P. lia.
  - destruct N as (P & N). destruct W as (-> & -> & W). destruct (zget live p) as [b|] eqn:E.
    + rewrite (all_live live p F b E). rewrite !content_app, IH by assumption.
      change (records (LRec p acc text (Some (zlen text)) (Some (zlen text)) :: l)) with ((acc, text) :: records l).
      cbn [map List.concat fst snd]. rewrite app_assoc. f_equal. unfold part, content. rewrite !ztake_all'.
      destruct so as [x|]; cbn [filter fst map snd]; f_equal;
        match goal with |- context[if ?b then _ else _] => destruct b end; cbn; rewrite ?app_nil_r; reflexivity.
    + exfalso. unfold zget in E. destruct (Z.ltb_spec p 0); [lia|]. apply nth_error_None in E. unfold zlen in P. lia.
Qed.

(** C146 with a standard output and writes that work *)
Theorem C146_partial t c im ia q l s ws : im <> ia -> (forall n o, given t n = Some o -> exists k, o = OOut k) ->
  given t 1 <> None -> whole l ->
  start t c im ia = Some q -> l_valid (boot q im ia) l -> lrun (boot q im ia) l = Some (s, ws) -> good t c im ia l ws.
Proof.
  intros D G T W S V R. rewrite (C146_where t c im ia q l s ws S V R).
  pose proof (lrun_named l _ _ _ R) as N. change (zlen (s_procs (boot q im ia))) with (zlen [true]) in N.
  pose proof (expect_whole (stdout t c) im ia l [true] ltac:(repeat constructor) N W) as X.
  assert (O : exists o, stdout t c = Some o /\ (forall i, o <> OFile i) /\ (forall i, o <> OConn i) /\ (o = ONull \/ given t 1 = Some o)).
  { unfold stdout. destruct (given t 1) as [o|] eqn:E; [|congruence]. destruct (G _ _ E) as (k & ->).
    eexists. split; [reflexivity|]. destruct (is_daemon t c); repeat split; try discriminate; auto. }
  destruct O as (o & O1 & O2 & O3 & O4). rewrite O1 in *.
  assert (Y : forall o' (b : Z -> bool) , (forall z, obj_eqb (OFile z) o' = b z) -> obj_eqb o o' = false ->
    content o' (expect (Some o) im ia [true] l) =
    List.concat (map snd (filter (fun r : bool * list Z => b (if fst r then ia else im)) (records l)))).
  { intros o' b B E. rewrite X. rewrite E. clear X. induction (records l) as [|r rs IH]; [reflexivity|]. cbn [map List.concat filter]. rewrite IH, B.
    destruct (b (if fst r then ia else im)); reflexivity. }
  unfold good, texts. repeat split.
  - rewrite (Y (OFile im) (fun z => z =? im)); [|reflexivity|destruct (obj_eqb_spec o (OFile im)); [exfalso; eapply O2; eassumption|reflexivity]].
    f_equal. f_equal. apply filter_ext. intros ([|], r); cbn [fst Bool.eqb]; [apply Z.eqb_neq; auto|apply Z.eqb_refl].
  - rewrite (Y (OFile ia) (fun z => z =? ia)); [|reflexivity|destruct (obj_eqb_spec o (OFile ia)); [exfalso; eapply O2; eassumption|reflexivity]].
    f_equal. f_equal. apply filter_ext. intros ([|], r); cbn [fst Bool.eqb]; [apply Z.eqb_refl|apply Z.eqb_neq; auto].
  - intros o' E.
    assert (Z1 : content o (expect (Some o) im ia [true] l) = List.concat (map snd (filter (fun _ : bool * list Z => true) (records l)))).
    { rewrite X. destruct (obj_eqb_spec o o) as [_|]; [|congruence]. clear X Y. induction (records l) as [|r rs IH]; [reflexivity|].
      cbn [map List.concat filter]. rewrite IH. destruct (obj_eqb_spec (OFile (if fst r then ia else im)) o) as [Q|_]; [exfalso; eapply O2; symmetry; eassumption|].
      rewrite app_nil_r. reflexivity. }
    rewrite O1 in E. injection E as <-. exact Z1.
  - intros k. rewrite (Y (OConn k) (fun _ => false)); [|reflexivity|destruct (obj_eqb_spec o (OConn k)); [exfalso; eapply O3; eassumption|reflexivity]].
    clear X Y. induction (records l); [reflexivity|assumption].
Qed.
Print Assumptions C146_partial.

(** no record ever reaches a connection, the pid file or the configuration, however the program
    was started, whatever fails and whenever processes end *)
Theorem C146_not_to_clients t c im ia q l s ws : (forall n o, given t n = Some o -> exists k, o = OOut k) ->
  start t c im ia = Some q -> l_valid (boot q im ia) l -> lrun (boot q im ia) l = Some (s, ws) ->
  forall o text, In (o, text) ws -> (exists k, o = OOut k /\ given t 1 = Some o) \/ o = ONull \/ o = OFile im \/ o = OFile ia.
Proof.
  intros G S V R. rewrite (C146_where t c im ia q l s ws S V R).
  assert (O : match stdout t c with Some o => (exists k, o = OOut k /\ given t 1 = Some o) \/ o = ONull | None => True end).
  { unfold stdout. destruct (given t 1) as [o|] eqn:E; [|exact Logic.I]. destruct (is_daemon t c); [auto|].
    destruct (G _ _ E) as (k & ->). left. exists k. auto. }
  assert (P : forall o x w o' text, In (o', text) (part o x w) -> o' = o).
  { intros o x [k|] o' text IN; [|contradiction]. destruct IN as [IN|[]]. congruence. }
  clear S V R. generalize ([true]). induction l as [|x l IH]; intros live o text IN; [contradiction|].
  destruct x as [p|p b|p n|p acc tx w1 w2'|p|acc i]; cbn [expect] in IN; try (eapply IH; exact IN).
  apply in_app_or in IN as [IN|IN]; [|apply in_app_or in IN as [IN|IN]; [|eapply IH; exact IN]].
  - destruct (stdout t c) as [o1|].
    + apply P in IN as ->. destruct O; auto.
    + destruct (zget live p) as [[|]|]; try contradiction. apply P in IN as ->. auto.
  - destruct (zget live p) as [[|]|]; try contradiction. apply P in IN as ->. destruct acc; auto.
Qed.
Print Assumptions C146_not_to_clients.

(** False: started without a standard output, every record is in the main log file twice, and
    those of the access log are there as well *)
Theorem C146_refuted_twice t c im ia q l s ws : im <> ia -> given t 1 = None -> whole l ->
  start t c im ia = Some q -> l_valid (boot q im ia) l -> lrun (boot q im ia) l = Some (s, ws) ->
  content (OFile im) ws = List.concat (map (fun r : bool * list Z => if fst r then snd r else snd r ++ snd r) (records l)).
Proof.
  intros D G W S V R. rewrite (C146_where t c im ia q l s ws S V R).
  pose proof (lrun_named l _ _ _ R) as N. change (zlen (s_procs (boot q im ia))) with (zlen [true]) in N.
  assert (O : stdout t c = None) by (unfold stdout; rewrite G; reflexivity). rewrite O.
  rewrite (expect_whole None im ia l [true] ltac:(repeat constructor) N W). f_equal. apply map_ext. intros ([|], r); cbn [fst snd obj_eqb];
    rewrite ?Z.eqb_refl; [|reflexivity]. destruct (Z.eqb_spec ia im); [congruence|]. apply app_nil_r.
Qed.
Print Assumptions C146_refuted_twice.

Definition term : tab := [Some (OOut 0); Some (OOut 1); Some (OOut 2)].
Definition no_out : tab := [Some (OOut 0); None; Some (OOut 2)].
Definition two (w : option Z) : list step :=
  [LOpen 0 (OConn 7); LFork 0; LOpen 1 (OConn 8); LRec 1 false [65; 10] (Some 2) w; LClose 1 5; LClose 1 5; LOpen 1 (OConn 9); LRec 0 true [66; 10] (Some 2) (Some 2)].
Ltac lv := repeat (split; [first [exact Logic.I | (eexists; split; [vm_compute; reflexivity|first [discriminate | (vm_compute; tauto)]])] |
  let q := fresh "q" in let E := fresh "E" in intros q E; vm_compute in E; injection E as <-; cbn [fst]]); try exact Logic.I.
Example ex_C146 : exists q s ws, start term (CRead true) 20 30 = Some q /\ l_valid (boot q 20 30) (two (Some 2)) /\ whole (two (Some 2)) /\
  lrun (boot q 20 30) (two (Some 2)) = Some (s, ws) /\ ws = [(ONull, [65; 10]); (OFile 20, [65; 10]); (ONull, [66; 10]); (OFile 30, [66; 10])].
Proof.
  eexists _, _, _. split; [vm_compute; reflexivity|]. split; [unfold two; lv|]. split; [vm_compute; auto|].
  split; vm_compute; reflexivity.
Qed.
Example ex_C146_twice : exists q s ws, start no_out (CRead false) 20 30 = Some q /\ l_valid (boot q 20 30) (two (Some 2)) /\ whole (two (Some 2)) /\
  lrun (boot q 20 30) (two (Some 2)) = Some (s, ws) /\ content (OFile 20) ws = [65; 10; 65; 10; 66; 10].
Proof.
  eexists _, _, _. split; [vm_compute; reflexivity|]. split; [unfold two; lv|]. split; [vm_compute; auto|].
  split; vm_compute; reflexivity.
Qed.
(** False also if a write is cut short, which nobody notices: the rest of the record is lost *)
Theorem C146_refuted : ~ C146_property /\
  exists q s ws, start term (CRead true) 20 30 = Some q /\ l_valid (boot q 20 30) (two (Some 1)) /\
    lrun (boot q 20 30) (two (Some 1)) = Some (s, ws) /\ content (OFile 20) ws = [65] /\ texts (Some false) (two (Some 1)) = [65; 10].
Proof.
  assert (X : exists q s ws, start term (CRead true) 20 30 = Some q /\ l_valid (boot q 20 30) (two (Some 1)) /\
    lrun (boot q 20 30) (two (Some 1)) = Some (s, ws) /\ content (OFile 20) ws = [65] /\ texts (Some false) (two (Some 1)) = [65; 10]).
  { eexists _, _, _. split; [vm_compute; reflexivity|]. split; [unfold two; lv|]. repeat (split; [vm_compute; reflexivity|]). vm_compute; reflexivity. }
  split; [|exact X]. destruct X as (q & s & ws & S & V & R & C & T). intros P.
  destruct (P term (CRead true) 20 30 q (two (Some 1)) s ws) as (B & _); auto; [discriminate| |congruence].
  intros n o E. destruct n as [|[|[|n]]]; cbn in E; try (injection E as <-; eexists; reflexivity). destruct n; discriminate.
Qed.
Print Assumptions C146_refuted.

(** ** C147: moving the log files away *)
(** Somebody moves the main log file away and makes the program reload, so that the worker is a
    new process: its records are in the file that has the name now. *)
Definition C147_property : Prop := forall t c im ia q l1 i l2 s ws s' ws', im <> ia ->
  (forall n o, given t n = Some o -> exists k, o = OOut k) -> given t 1 <> None ->
  start t c im ia = Some q -> l_valid (boot q im ia) (l1 ++ LMove false i :: l2 ++ [LFork 0]) ->
  whole (l1 ++ LMove false i :: l2 ++ [LFork 0]) -> (forall j, ~ In (LMove false j) l2) ->
  lrun (boot q im ia) (l1 ++ LMove false i :: l2 ++ [LFork 0]) = Some (s, ws) ->
  lrun s [LRec (zlen (s_procs s) - 1) false [65] (Some 1) (Some 1)] = Some (s', ws') ->
  exists j, n_main (s_names s') = Some j /\ content (OFile j) ws' = [65].

Lemma content_other o ws : (forall x, ~ In (o, x) ws) -> content o ws = [].
Proof.
  unfold content. induction ws as [|(o1, x) ws IH]; intros H; [reflexivity|]. cbn [filter fst].
  destruct (obj_eqb_spec o1 o) as [->|]; [exfalso; apply (H x); left; reflexivity|]. apply IH. intros y Y. apply (H y). right. exact Y.
Qed.
(** False, always: nothing that happens while the program runs gives a file that came later a
    single byte of a record. *)
Theorem C147_refuted_always t c im ia q l s ws j : (forall n o, given t n = Some o -> exists k, o = OOut k) ->
  start t c im ia = Some q -> l_valid (boot q im ia) l -> lrun (boot q im ia) l = Some (s, ws) -> j <> im -> j <> ia ->
  content (OFile j) ws = [].
Proof.
  intros G S V R J1 J2. apply content_other. intros x IN.
  destruct (C146_not_to_clients t c im ia q l s ws G S V R _ _ IN) as [(k & X & _)|[X|[X|X]]]; congruence.
Qed.
Print Assumptions C147_refuted_always.

Lemma term_given n o : given term n = Some o -> exists k, o = OOut k.
Proof. intros E. destruct n as [|[|[|n]]]; cbn in E; try (injection E as <-; eexists; reflexivity). destruct n; discriminate. Qed.
Definition rotated : list step := [LFork 0; LRec 1 false [64] (Some 1) (Some 1)] ++ LMove false (Some 21) :: [] ++ [LFork 0].
Example ex_C147 : exists q s ws, start term (CRead false) 20 30 = Some q /\ l_valid (boot q 20 30) rotated /\
  lrun (boot q 20 30) rotated = Some (s, ws) /\ n_main (s_names s) = Some 21 /\
  exists s' ws', lrun s [LRec 2 false [65] (Some 1) (Some 1)] = Some (s', ws') /\ ws' = [(OOut 1, [65]); (OFile 20, [65])].
Proof.
  eexists _, _, _. split; [vm_compute; reflexivity|]. split; [unfold rotated; cbn [app]; lv|]. split; [vm_compute; reflexivity|].
  split; [vm_compute; reflexivity|]. eexists _, _. split; vm_compute; reflexivity.
Qed.
Theorem C147_refuted : ~ C147_property.
Proof.
  intros P. destruct ex_C147 as (q & s & ws & S & V & R & N & s' & ws' & R' & W').
  assert (L : zlen (s_procs s) = 3).
  { vm_compute in S. injection S as <-. vm_compute in R. injection R as <- _. reflexivity. }
  destruct (P term (CRead false) 20 30 q _ _ _ s ws s' ws' ltac:(discriminate) term_given ltac:(discriminate) S V) as (j & J1 & J2); auto.
  - vm_compute. auto.
  - rewrite L. exact R'.
  - assert (s_names s' = s_names s).
    { cbn [lrun lstep] in R'. destruct (zget (s_procs s) 2); [|discriminate]. cbn in R'. injection R' as <- _. reflexivity. }
    rewrite H, N in J1. injection J1 as <-. rewrite W' in J2. vm_compute in J2. discriminate.
Qed.
Print Assumptions C147_refuted.

(** While nobody touches the files the names stand for the files that are written; the same holds
    again when the program was ended and started again, since it opens the files by name. *)
Theorem C147_partial t c im ia q l s ws : im <> ia -> (forall n o, given t n = Some o -> exists k, o = OOut k) ->
  given t 1 <> None -> whole l -> (forall acc i, ~ In (LMove acc i) l) ->
  start t c im ia = Some q -> l_valid (boot q im ia) l -> lrun (boot q im ia) l = Some (s, ws) ->
  exists m a, n_main (s_names s) = Some m /\ n_access (s_names s) = Some a /\
    content (OFile m) ws = texts (Some false) l /\ content (OFile a) ws = texts (Some true) l.
Proof.
  intros D G T W M S V R. exists im, ia.
  assert (N : s_names s = Nm (Some im) (Some ia)).
  { change (Nm (Some im) (Some ia)) with (s_names (boot q im ia)). clear D T W S V. revert R. generalize (boot q im ia). revert ws.
    induction l as [|x l IH]; intros ws s0 R; cbn [lrun] in R; [injection R as <- <-; reflexivity|].
    destruct (lstep s0 x) as [r|] eqn:E; [|discriminate]. destruct (lrun (fst r) l) as [(s2, w2)|] eqn:R2; [|discriminate].
    injection R as <- <-. cbn [fst]. rewrite (IH (fun acc i X => M acc i (or_intror X)) _ _ R2).
    destruct x as [p|p o|p n|p acc text w1 w2'|p|acc i]; cbn [lstep] in E;
      try (destruct (zget (s_procs s0) p) as [y|] eqn:Ep; [|discriminate]; injection E as <-; reflexivity).
    exfalso. apply (M acc i). left. reflexivity. }
  rewrite N. split; [reflexivity|]. split; [reflexivity|].
  destruct (C146_partial t c im ia q l s ws D G T W S V R) as (A & B & _). auto.
Qed.
Print Assumptions C147_partial.
