(** * The pid file and the commands: C132, C133, C134 *)
From Coq Require Import String.
From Verif Require Import Base Str_Spec S5_Model Http_Model Http_Spec Http_Proofs Web_Model Web_Proofs Cmd_Model Cmd_Spec.
Open Scope Z_scope.
Local Arguments Z.add : simpl never.
Local Arguments Z.sub : simpl never.
Local Arguments Z.mul : simpl never.
Local Arguments Z.pow : simpl never.
Local Arguments zlen : simpl never.

(** ** strtol on a whole buffer *)
Lemma is_space_iff b : is_space b = true <-> space b.
Proof. unfold is_space, space. lia. Qed.
Lemma is_digit_iff b : is_digit b = true <-> dig b.
Proof. unfold is_digit, dig. lia. Qed.

Lemma zget_at pre (x : Z) t : zget (pre ++ x :: t) (zlen pre) = Some x.
Proof. rewrite zget_app_r, Z.sub_diag by lia. reflexivity. Qed.
Lemma zget_end (pre : list Z) : zget pre (zlen pre) = None.
Proof. apply zget_none. lia. Qed.

Lemma skip_all : forall rest pre fuel, (length rest < fuel)%nat ->
  (Forall space rest /\ skip_space (pre ++ rest) fuel (zlen pre) = Fault FOverread) \/
  exists a c t, rest = a ++ c :: t /\ Forall space a /\ ~ space c /\
    skip_space (pre ++ rest) fuel (zlen pre) = Ok (zlen pre + zlen a).
Proof.
  induction rest as [|x rest IH]; intros pre fuel L; (destruct fuel as [|fuel]; [inversion L|]); cbn [skip_space].
  - left. split; [constructor|]. rewrite app_nil_r, zget_end. reflexivity.
  - rewrite zget_at. cbn [of_opt bind]. destruct (is_space x) eqn:E.
    + apply is_space_iff in E.
      destruct (IH (pre ++ [x]) fuel) as [(F & R)|(a & c & t & R1 & F & N & R)]; [cbn in L; lia| |];
        rewrite <- app_assoc, zlen_app in R; cbn [app] in R; change (zlen [x]) with 1 in R.
      * left. split; [constructor; assumption|exact R].
      * right. exists (x :: a), c, t. split; [rewrite R1; reflexivity|].
        split; [constructor; assumption|]. split; [exact N|]. rewrite R, zlen_cons. f_equal. lia.
    + right. exists [], x, rest. split; [reflexivity|]. split; [constructor|].
      split; [intros S1; apply is_space_iff in S1; congruence|]. change (zlen []) with 0. f_equal. lia.
Qed.

Lemma digits_all : forall rest pre acc fuel, (length rest < fuel)%nat ->
  (Forall dig rest /\ digits (pre ++ rest) fuel (zlen pre) acc = Fault FOverread) \/
  exists ds c t, rest = ds ++ c :: t /\ Forall dig ds /\ ~ dig c /\
    digits (pre ++ rest) fuel (zlen pre) acc = Ok (dec_from acc ds).
Proof.
  induction rest as [|x rest IH]; intros pre acc fuel L; (destruct fuel as [|fuel]; [inversion L|]); cbn [digits].
  - left. split; [constructor|]. rewrite app_nil_r, zget_end. reflexivity.
  - rewrite zget_at. cbn [of_opt bind]. destruct (is_digit x) eqn:E.
    + apply is_digit_iff in E.
      destruct (IH (pre ++ [x]) (acc * 10 + (x - 48)) fuel) as [(F & R)|(a & c & t & R1 & F & N & R)]; [cbn in L; lia| |];
        rewrite <- app_assoc, zlen_app in R; cbn [app] in R; change (zlen [x]) with 1 in R.
      * left. split; [constructor; assumption|exact R].
      * right. exists (x :: a), c, t. split; [rewrite R1; reflexivity|].
        split; [constructor; assumption|]. split; [exact N|]. exact R.
    + right. exists [], x, rest. split; [reflexivity|]. split; [constructor|].
      split; [intros S1; apply is_digit_iff in S1; congruence|]. reflexivity.
Qed.

Lemma strtol_all buf :
  (endless buf /\ strtol buf 0 = Fault FOverread) \/
  exists v, begins_with buf v /\ strtol buf 0 = Ok (clamp64 v).
Proof.
  unfold strtol. set (fuel := S (length buf)).
  destruct (skip_all buf [] fuel) as [(F & R)|(a & c & t & R1 & F & N & R)]; [subst fuel; lia| |];
    cbn [app] in R; change (zlen []) with 0 in R; rewrite R; cbn [bind].
  - left. split; [|reflexivity]. exists buf, [], 1, []. rewrite !app_nil_r. split; [reflexivity|]. split; [exact F|].
    split; [left; auto|constructor].
  - rewrite Z.add_0_l. subst buf. rewrite zget_at. cbn [of_opt bind].
    assert (LEN : (length t < fuel)%nat) by (subst fuel; rewrite app_length; cbn; lia).
    assert (LEN' : (length (c :: t) < fuel)%nat) by (subst fuel; rewrite app_length; cbn; lia).
    destruct (Z.eqb_spec c 45) as [->|N45]; [|destruct (Z.eqb_spec c 43) as [->|N43]].
    + destruct (digits_all t (a ++ [45]) 0 fuel LEN) as [(D & E)|(ds & c & t' & -> & D & ND & E)];
        rewrite <- app_assoc, zlen_app in E; cbn [app] in E; change (zlen [45]) with 1 in E; rewrite E; cbn [bind].
      * left. split; [|reflexivity]. exists a, [45], (-1), t. split; [reflexivity|]. split; [exact F|].
        split; [right; right; auto|exact D].
      * right. exists (- dec_from 0 ds). split; [|reflexivity].
        exists a, [45], (-1), ds, c, t'. split; [reflexivity|]. split; [exact F|]. split; [right; right; auto|].
        split; [exact D|]. split; [exact ND|]. split; [discriminate|lia].
    + destruct (digits_all t (a ++ [43]) 0 fuel LEN) as [(D & E)|(ds & c & t' & -> & D & ND & E)];
        rewrite <- app_assoc, zlen_app in E; cbn [app] in E; change (zlen [43]) with 1 in E; rewrite E; cbn [bind].
      * left. split; [|reflexivity]. exists a, [43], 1, t. split; [reflexivity|]. split; [exact F|].
        split; [right; left; auto|exact D].
      * right. exists (dec_from 0 ds). split; [|reflexivity].
        exists a, [43], 1, ds, c, t'. split; [reflexivity|]. split; [exact F|]. split; [right; left; auto|].
        split; [exact D|]. split; [exact ND|]. split; [discriminate|lia].
    + destruct (digits_all (c :: t) a 0 fuel LEN') as [(D & E)|(ds & c' & t' & R1 & D & ND & E)]; rewrite E; cbn [bind].
      * left. split; [|reflexivity]. exists a, [], 1, (c :: t). split; [reflexivity|]. split; [exact F|].
        split; [left; auto|exact D].
      * right. exists (dec_from 0 ds). split; [|reflexivity].
        exists a, [], 1, ds, c', t'. split; [rewrite R1; reflexivity|]. split; [exact F|]. split; [left; auto|].
        split; [exact D|]. split; [exact ND|]. split; [|lia]. intros _ ->. cbn in R1. injection R1 as -> _. auto.
Qed.

(** ** C133: what is in the file *)

(** the 32 bytes the program looks at *)
Definition window (f : list Z) : list Z := ztake 32 f ++ zrepeat 0 (32 - zlen (ztake 32 f)).

Lemma drop_zeros k n : 0 <= k <= n -> zdrop k (zrepeat 0 n) = zrepeat 0 (n - k).
Proof.
  intros B. unfold zdrop, zrepeat. replace (Z.to_nat n) with (Z.to_nat k + Z.to_nat (n - k))%nat by lia.
  rewrite repeat_app, skipn_app, skipn_all2 by (rewrite repeat_length; lia).
  rewrite repeat_length, Nat.sub_diag. reflexivity.
Qed.
Lemma put_window f : zput (zrepeat 0 32) 0 (ztake 32 f) = Some (window f).
Proof.
  pose proof (zlen_nonneg f).
  assert (L : zlen (ztake 32 f) = Z.min 32 (zlen f)) by (apply zlen_ztake; lia).
  rewrite zput_ok by (rewrite ?zlen_zrepeat; lia).
  rewrite ztake_le0, Z.add_0_l, drop_zeros by lia. reflexivity.
Qed.
Lemma pid_read fd f : 0 < fd -> f <> [] ->
  pid_from_file fd (Some f) = (let* v := strtol (window f) 0 in Ok (Some (to_int v))).
Proof.
  intros D N. unfold pid_from_file. destruct (Z.leb_spec fd 0); [lia|].
  assert (L : zlen (ztake 32 f) = Z.min 32 (zlen f)) by (apply zlen_ztake; lia).
  assert (0 < zlen f) by (destruct f; [contradiction|rewrite zlen_cons; pose proof (zlen_nonneg f); lia]).
  cbn zeta. destruct (Z.ltb_spec (zlen (ztake 32 f)) 1); [lia|]. rewrite put_window. reflexivity.
Qed.

Lemma skip_at : forall a pre c t fuel, Forall space a -> ~ space c -> (length a < fuel)%nat ->
  skip_space (pre ++ a ++ c :: t) fuel (zlen pre) = Ok (zlen pre + zlen a).
Proof.
  induction a as [|x a IH]; intros pre c t fuel F N L; (destruct fuel as [|fuel]; [inversion L|]); cbn [skip_space app].
  - rewrite zget_at. cbn [of_opt bind]. destruct (is_space c) eqn:E; [apply is_space_iff in E; contradiction|].
    change (zlen []) with 0. f_equal. lia.
  - rewrite zget_at. cbn [of_opt bind]. rewrite (proj2 (is_space_iff x) (Forall_inv F)).
    replace (pre ++ x :: a ++ c :: t) with ((pre ++ [x]) ++ a ++ c :: t) by (rewrite <- app_assoc; reflexivity).
    replace (zlen pre + 1) with (zlen (pre ++ [x])) by (rewrite zlen_app; reflexivity).
    rewrite IH; [|exact (Forall_inv_tail F)|exact N|cbn in L; lia].
    rewrite zlen_app. change (zlen [x]) with 1. rewrite (zlen_cons x a). f_equal. lia.
Qed.

Lemma strtol_holds a ds n c t : Forall space a -> numeral ds n -> ~ dig c ->
  strtol (a ++ ds ++ c :: t) 0 = Ok (clamp64 n).
Proof.
  intros F N C. pose proof N as (NE & D & E). destruct ds as [|d ds]; [contradiction|].
  pose proof (Forall_inv D) as Dd. cbn in Dd. unfold strtol. cbn [app].
  rewrite (skip_at a [] d (ds ++ c :: t)); [|exact F|unfold space; lia|rewrite app_length; cbn; lia].
  cbn [bind]. change (zlen []) with 0. rewrite Z.add_0_l, zget_at. cbn [of_opt bind].
  destruct (Z.eqb_spec d 45); [lia|]. destruct (Z.eqb_spec d 43); [lia|].
  rewrite (digits_at _ (d :: ds) (zlen a) 0 _ c).
  - cbn [bind]. rewrite E. reflexivity.
  - exists a, t. split; [|reflexivity]. repeat (rewrite <- ?app_assoc; cbn [app]). reflexivity.
  - destruct (is_digit c) eqn:X; [apply is_digit_iff in X; contradiction|reflexivity].
  - exact D.
  - rewrite !app_length. cbn. rewrite app_length. lia.
Qed.

Lemma to_int_pid n : 0 < n < 2 ^ 31 -> to_int (clamp64 n) = n.
Proof.
  intros B. unfold to_int, clamp64. rewrite Z.min_l, Z.max_r by lia. rewrite Z.mod_small by lia. lia.
Qed.

(** the number ends within the first 31 bytes *)
Lemma window_holds a ds b : zlen (a ++ ds) < 32 -> (forall c t, b = c :: t -> ~ dig c) ->
  exists c t, window (a ++ ds ++ b) = a ++ ds ++ c :: t /\ ~ dig c.
Proof.
  intros L F. unfold window. rewrite app_assoc, ztake_app_r by lia.
  set (k := 32 - zlen (a ++ ds)) in *. destruct b as [|x b].
  - exists 0, (zrepeat 0 (k - 1)). split; [|unfold dig; lia]. replace (ztake k []) with (@nil Z) by (unfold ztake; symmetry; apply firstn_nil).
    rewrite app_nil_r, <- app_assoc. do 2 f_equal. change (32 - zlen (a ++ ds)) with k. unfold zrepeat.
    replace (Z.to_nat k) with (Datatypes.S (Z.to_nat (k - 1))) by lia. reflexivity.
  - rewrite ztake_cons by lia. eexists x, _. split; [rewrite <- !app_assoc; cbn [app]; reflexivity|]. eapply F. reflexivity.
Qed.

Lemma pid_holds fd a ds b n : 0 < fd -> Forall space a -> numeral ds n -> 0 < n < 2 ^ 31 ->
  (forall c t, b = c :: t -> ~ dig c) -> zlen (a ++ ds) < 32 ->
  pid_from_file fd (Some (a ++ ds ++ b)) = Ok (Some n).
Proof.
  intros D F N B FB L. pose proof N as (NE & _). rewrite pid_read; [|exact D|].
  - destruct (window_holds a ds b L FB) as (c & t & -> & C).
    rewrite (strtol_holds a ds n c t F N C). cbn [bind]. rewrite to_int_pid by exact B. reflexivity.
  - intros X. apply app_eq_nil in X as (_ & X). apply app_eq_nil in X as (X & _). contradiction.
Qed.
Lemma pid_fmt fd p : 0 < fd -> 0 < p < 2 ^ 31 -> pid_from_file fd (Some (fmt_d p)) = Ok (Some p).
Proof.
  intros D B. rewrite <- (app_nil_r (fmt_d p)). change (fmt_d p ++ []) with ([] ++ fmt_d p ++ []).
  apply pid_holds; auto; [apply fmt_d_ok; lia|discriminate|]. cbn [app]. pose proof (fmt_d_len p). lia.
Qed.

Lemma is_opt_iff lit o : is_opt lit o = true <-> o = lit.
Proof.
  unfold is_opt. rewrite andb_true_iff, bseq_spec, Z.eqb_eq. split.
  - intros (L & E). rewrite L in E at 2. rewrite !ztake_all in E by lia. auto.
  - intros ->. auto.
Qed.
Lemma parse_command fd file o sig : command o sig ->
  option_parse fd file [o] = (let* p := pid_from_file fd file in
    match p with None => Ok (Command [] 0) | Some pid => Ok (Command [(kill_target pid, sig)] 0) end).
Proof. intros [(-> & ->)|(-> & ->)]; reflexivity. Qed.

(** a signal is sent only by [-stop] (SIGINT) and [-reload] (SIGHUP), one at most *)
Theorem C133_commands fd file args c : option_parse fd file args = Ok c ->
  (args = [] /\ c = StartUp) \/
  exists sent status, c = Command sent status /\
    (sent = [] \/ exists o sig t, args = [o] /\ command o sig /\ sent = [(t, sig)]).
Proof.
  intros H. unfold option_parse in H. destruct args as [|o [|o2 r]].
  - injection H as <-. left. auto.
  - right. destruct (is_opt lit_reload o) eqn:R; [|destruct (is_opt lit_stop o) eqn:T].
    + apply is_opt_iff in R. cbn [Z.eqb Z.opp] in H. apply bind_ok in H as (p & _ & H).
      destruct p as [pid|]; injection H as <-; do 2 eexists; (split; [reflexivity|]); [right|left; reflexivity].
      exists o, 1. eexists. split; [reflexivity|]. split; [right; auto|reflexivity].
    + apply is_opt_iff in T. apply bind_ok in H as (p & _ & H).
      destruct p as [pid|]; injection H as <-; do 2 eexists; (split; [reflexivity|]); [right|left; reflexivity].
      exists o, 2. eexists. split; [reflexivity|]. split; [left; auto|reflexivity].
    + injection H as <-. do 2 eexists. split; [reflexivity|]. left. reflexivity.
  - right. injection H as <-. do 2 eexists. split; [reflexivity|]. left. reflexivity.
Qed.

(** a file with the number of a process (nothing but white space around it): exactly this process is signalled *)
Theorem C133_partial fd f n o sig : 0 < fd -> holds f n -> zlen f < 32 -> command o sig ->
  option_parse fd (Some f) [o] = Ok (Command [(One n, sig)] 0).
Proof.
  intros D (a & ds & b & -> & FA & N & B & FB) L C. rewrite (parse_command _ _ _ _ C).
  rewrite (pid_holds fd a ds b n) by
    (auto; first [intros c t ->; apply Forall_inv in FB; unfold space, dig in *; lia
           |rewrite !zlen_app in *; pose proof (zlen_nonneg b); lia]).
  cbn [bind]. unfold kill_target. destruct (Z.ltb_spec 0 n); [reflexivity|lia].
Qed.

(** what happens with any content: the program looks at 32 bytes; if there is no end of the
    number in them it reads on behind its buffer; otherwise the number (0 if there is none),
    forced into an int, is handed to kill *)
Theorem C133_any fd f o sig : 0 < fd -> f <> [] -> command o sig ->
  (endless (window f) /\ option_parse fd (Some f) [o] = Fault FOverread) \/
  exists v, begins_with (window f) v /\
    option_parse fd (Some f) [o] = Ok (Command [(kill_target (to_int (clamp64 v)), sig)] 0).
Proof.
  intros D N C. rewrite (parse_command _ _ _ _ C), (pid_read fd f D N).
  destruct (strtol_all (window f)) as [(E & ->)|(v & E & ->)]; [left; auto|right].
  exists v. split; [exact E|reflexivity].
Qed.

(** the property: no access outside of the buffer, no signal to anyone but the process the
    file holds *)
Definition C133_property : Prop := forall fd f o sig, 0 < fd -> bytes f -> command o sig ->
  exists sent status, option_parse fd (Some f) [o] = Ok (Command sent status) /\
    Forall (fun x => exists n, holds f n /\ x = (One n, sig)) sent.

Definition stop : list Z := str "-stop".
Lemma stop_command : command stop 2. Proof. left. split; reflexivity. Qed.

Theorem C133_refuted : ~ C133_property /\
  (* a file without a number: the caller's whole process group *)
  option_parse 3 (Some (str "none")) [stop] = Ok (Command [(OwnGroup, 2)] 0) /\
  (* every process there is *)
  option_parse 3 (Some (str "-1")) [stop] = Ok (Command [(Everyone, 2)] 0) /\
  (* a number that does not fit: process 1 *)
  option_parse 3 (Some (str "4294967297")) [stop] = Ok (Command [(One 1, 2)] 0) /\
  (* 32 digits *)
  option_parse 3 (Some (zrepeat 48 32)) [stop] = Fault FOverread.
Proof.
  split; [|repeat split; vm_compute; reflexivity].
  intros P. destruct (P 3 (str "none") stop 2) as (sent & status & E & F);
    [lia|repeat constructor; cbn; lia|exact stop_command|].
  vm_compute in E. injection E as <- _. apply Forall_inv in F as (n & _ & F). discriminate.
Qed.

Example ex_C133_partial : option_parse 3 (Some (str "4711
")) [str "-reload"] = Ok (Command [(One 4711, 1)] 0).
Proof.
  apply C133_partial; [lia| |vm_compute; reflexivity|right; split; reflexivity].
  exists [], (str "4711"), [10]. split; [reflexivity|]. split; [constructor|].
  split; [split; [discriminate|split; [repeat constructor; cbn; lia|reflexivity]]|].
  split; [lia|repeat constructor; unfold space; lia].
Qed.
Example ex_C133_commands : option_parse 3 (Some (str "4711")) [str "-stopp"] = Ok (Command [] 0) /\
  option_parse 3 (Some (str "4711")) [stop; stop] = Ok (Command [] 0).
Proof. split; vm_compute; reflexivity. Qed.

(** ** C132: several instances *)
(** the outcome of a start, by what it met *)
Lemma start_cases e p f : (open_ok e = true -> written e = zlen (fmt_d p)) ->
  (succeeds e p /\ exists x, start e p f = (true, Some (fmt_d p), x)) \/
  (files e p /\ core_ok e = false /\ exists x, start e p f = (false, None, x)) \/
  (~ files e p /\ exists x, start e p f = (false, f, x)).
Proof.
  intros W. unfold start, pid_create, succeeds, files.
  destruct (conf_ok e); cbn [negb]; [|right; right; split; [intros (X & _); discriminate|eauto]].
  destruct (daemon e && negb (fork_ok e)) eqn:DF.
  { apply andb_true_iff in DF as (D & F). right; right. split; [|eauto].
    intros (_ & X & _). destruct (X D) as (Y & _). rewrite Y in F. discriminate. }
  destruct (daemon e && negb (detach_ok e)) eqn:DD.
  { apply andb_true_iff in DD as (D & F). right; right. split; [|eauto].
    intros (_ & X & _). destruct (X D) as (_ & Y). rewrite Y in F. discriminate. }
  destruct (open_ok e); cbn [negb]; [|right; right; split; [intros (_ & _ & X & _); discriminate|eauto]].
  rewrite (W eq_refl), Z.eqb_refl, ztake_all by lia. cbn [negb].
  assert (D : daemon e = true -> fork_ok e = true /\ detach_ok e = true).
  { intros D. rewrite D in *. destruct (fork_ok e), (detach_ok e); cbn in *; auto; discriminate. }
  destruct (core_ok e); cbn [negb]; [left|right; left]; eauto 10.
Qed.

Lemma run_app l1 : forall s l2, run s (l1 ++ l2) = match run s l1 with Some s1 => run s1 l2 | None => None end.
Proof.
  induction l1 as [|a l1 IH]; intros s l2; cbn [run app]; [reflexivity|].
  destruct (step s a); [apply IH|reflexivity].
Qed.
Lemma run_snoc l a s : run st0 (l ++ [a]) = Some s -> exists s1, run st0 l = Some s1 /\ step s1 a = Some s.
Proof.
  rewrite run_app. destruct (run st0 l) as [s1|]; [|discriminate]. cbn [run].
  destruct (step s1 a) eqn:E; [|discriminate]. intros H. injection H as <-. eauto.
Qed.

Lemma isrun_iff p l : existsb (Z.eqb p) l = true <-> In p l.
Proof.
  rewrite existsb_exists. split.
  - intros (x & I1 & E). apply Z.eqb_eq in E. subst. exact I1.
  - intros I1. exists p. split; [exact I1|apply Z.eqb_refl].
Qed.

(** one step, in terms of the specification *)
Lemma step_cases s a s' : step s a = Some s' -> whole a ->
  (exists p, writes a p /\ 0 < p < 2 ^ 31 /\ ~ In p (running s) /\ s' = St (p :: running s) (Some (fmt_d p))) \/
  (removes a /\ (forall q, ~ writes a q) /\ pidfile s' = None /\
     match a with
     | EStart _ _ | EWorker _ => running s' = running s
     | EEnd p | ECrash p => In p (running s) /\ running s' = remove Z.eq_dec p (running s)
     end) \/
  (~ removes a /\ (forall q, ~ writes a q) /\ pidfile s' = pidfile s /\
     match a with
     | EStart _ _ | EWorker _ => running s' = running s
     | EEnd p | ECrash p => In p (running s) /\ running s' = remove Z.eq_dec p (running s)
     end).
Proof.
  intros H W. destruct a as [p e|p|p|p]; cbn [step] in H.
  - destruct (Z.leb_spec p 0); [discriminate|]. destruct (Z.leb_spec (2 ^ 31) p); [discriminate|].
    destruct (existsb (Z.eqb p) (running s)) eqn:R; [discriminate|]. cbn [orb] in H.
    assert (NR : ~ In p (running s)) by (intros X; apply isrun_iff in X; congruence).
    destruct (start_cases e p (pidfile s) W) as [(SU & x & E)|[(F & C & x & E)|(F & x & E)]]; rewrite E in H; injection H as <-.
    + left. exists p. split; [exists e; auto|]. split; [lia|]. auto.
    + right; left. split; [split; assumption|]. split; [|auto].
      intros q (e' & Y & (_ & C')). injection Y as -> ->. congruence.
    + right; right. split; [intros (X & _); contradiction|]. split; [|auto].
      intros q (e' & Y & (F' & _)). injection Y as -> ->. contradiction.
  - destruct (existsb _ _) eqn:R; [|discriminate]. injection H as <-. apply isrun_iff in R.
    right; left. split; [exact I|]. split; [intros q (e & Y & _); discriminate|]. auto.
  - destruct (existsb _ _) eqn:R; [|discriminate]. injection H as <-.
    right; left. split; [exact I|]. split; [intros q (e & Y & _); discriminate|]. auto.
  - destruct (existsb _ _) eqn:R; [|discriminate]. injection H as <-. apply isrun_iff in R.
    right; right. split; [intros []|]. split; [intros q (e & Y & _); discriminate|]. auto.
Qed.

Lemma names_new l a p : writes a p -> names (l ++ [a]) p.
Proof. intros W. exists l, a, []. auto. Qed.
Lemma names_keep l a p : ~ removes a -> (forall q, ~ writes a q) -> names l p -> names (l ++ [a]) p.
Proof.
  intros R W (l1 & b & l2 & -> & B & F). exists l1, b, (l2 ++ [a]). rewrite <- app_assoc. split; [reflexivity|].
  split; [exact B|]. apply Forall_app. auto.
Qed.
Lemma names_last l a p : names (l ++ [a]) p -> writes a p \/ (~ removes a /\ (forall q, ~ writes a q) /\ names l p).
Proof.
  intros (l1 & b & l2 & E & B & F). induction l2 as [|x l2 _] using rev_ind.
  - apply app_inj_tail in E as (-> & ->). auto.
  - right. change (l1 ++ b :: l2 ++ [x]) with (l1 ++ (b :: l2) ++ [x]) in E. rewrite app_assoc in E.
    apply app_inj_tail in E as (-> & ->). apply Forall_app in F as (F & X). apply Forall_inv in X as (X1 & X2).
    split; [exact X1|]. split; [exact X2|]. exists l1, b, l2. auto.
Qed.

(** whoever's number the file holds *)
Lemma file_names l : forall s, run st0 l = Some s -> Forall whole l ->
  (forall p, names l p -> pidfile s = Some (fmt_d p) /\ 0 < p < 2 ^ 31) /\
  ((forall p, ~ names l p) -> pidfile s = None).
Proof.
  induction l as [|a l IH] using rev_ind; intros s R W.
  - cbn in R. injection R as <-. split; [|reflexivity].
    intros p (l1 & a & l2 & E & _). destruct l1; discriminate.
  - apply run_snoc in R as (s1 & R & E). apply Forall_app in W as (W & Wa). apply Forall_inv in Wa.
    destruct (IH s1 R W) as (A & B).
    destruct (step_cases s1 a s E Wa) as [(p & Wp & Bp & _ & ->)|[(Rm & NW & PF & _)|(Rm & NW & PF & _)]]; cbn [pidfile].
    + split.
      * intros q Q. apply names_last in Q as [Q|(_ & X & _)]; [|destruct (X p Wp)].
        destruct Wp as (e & -> & _), Q as (e' & Y & _). injection Y as <- <-. auto.
      * intros N. destruct (N p (names_new l a p Wp)).
    + split.
      * intros q Q. apply names_last in Q as [Q|(X & _ & _)]; [destruct (NW q Q)|contradiction].
      * auto.
    + split.
      * intros q Q. apply names_last in Q as [Q|(_ & _ & Q)]; [destruct (NW q Q)|]. rewrite PF. auto.
      * intros N. rewrite PF. apply B. intros p Q. apply (N p). apply names_keep; assumption.
Qed.

Lemma none_read fd : pid_from_file fd None = Ok None. Proof. reflexivity. Qed.

(** whom a command reaches: the last instance that was started, unless a start failed late or
    any instance or worker has ended since then; then nobody *)
Theorem C132_whom l s fd o sig : run st0 l = Some s -> Forall whole l -> 0 < fd -> command o sig ->
  (forall p, names l p -> option_parse fd (pidfile s) [o] = Ok (Command [(One p, sig)] 0)) /\
  ((forall p, ~ names l p) -> option_parse fd (pidfile s) [o] = Ok (Command [] 0)).
Proof.
  intros R W D C. destruct (file_names l s R W) as (A & B). split.
  - intros p N. destruct (A p N) as (-> & Bp). rewrite (parse_command _ _ _ _ C), (pid_fmt fd p D Bp).
    cbn [bind]. unfold kill_target. destruct (Z.ltb_spec 0 p); [reflexivity|lia].
  - intros N. rewrite (B N), (parse_command _ _ _ _ C). reflexivity.
Qed.

(** without crashes, the file never names a process that does not run *)
Lemma file_runs l : forall s p, run st0 l = Some s -> Forall whole l -> Forall no_crash l -> names l p -> In p (running s).
Proof.
  induction l as [|a l IH] using rev_ind; intros s p R W NC N.
  - destruct N as (l1 & a & l2 & E & _). destruct l1; discriminate.
  - apply run_snoc in R as (s1 & R & E). apply Forall_app in W as (W & Wa). apply Forall_inv in Wa.
    apply Forall_app in NC as (NC & NCa). apply Forall_inv in NCa.
    apply names_last in N as [Wp|(NR & NW & N)].
    + destruct (step_cases s1 a s E Wa) as [(q & Wq & _ & _ & ->)|[(_ & NW & _)|(_ & NW & _)]]; [|destruct (NW p Wp)..].
      destruct Wp as (e & -> & _), Wq as (e' & Y & _). injection Y as <- <-. left. reflexivity.
    + specialize (IH s1 p R W NC N).
      destruct (step_cases s1 a s E Wa) as [(q & Wq & _)|[(Rm & _)|(_ & _ & _ & U)]]; [destruct (NW q Wq)|contradiction|].
      destruct a as [q e|q|q|q]; cbn in NR, NCa; try contradiction; try (destruct (NR I)).
      rewrite U. exact IH.
Qed.
Theorem C132_no_stranger_partial l s fd o sig : run st0 l = Some s -> Forall whole l -> Forall no_crash l ->
  0 < fd -> command o sig ->
  option_parse fd (pidfile s) [o] = Ok (Command [] 0) \/
  exists p, In p (running s) /\ option_parse fd (pidfile s) [o] = Ok (Command [(One p, sig)] 0).
Proof.
  intros R W NC D C. destruct (C132_whom l s fd o sig R W D C) as (A & B).
  destruct (pidfile s) as [t|] eqn:P; [|left; rewrite (parse_command _ _ _ _ C); reflexivity].
  assert (EM : (exists p, names l p) \/ forall p, ~ names l p).
  { clear A B C D P NC t fd o sig. revert s R W. induction l as [|a l IH] using rev_ind; intros s R W.
    - right. intros p (l1 & a & l2 & E & _). destruct l1; discriminate.
    - apply run_snoc in R as (s1 & R & E). apply Forall_app in W as (W & Wa). apply Forall_inv in Wa.
      destruct (step_cases s1 a s E Wa) as [(q & Wq & _)|[(Rm & NW & _)|(NR & NW & _)]].
      + left. exists q. apply names_new. exact Wq.
      + right. intros p N. apply names_last in N as [Q|(X & _ & _)]; [exact (NW p Q)|contradiction].
      + destruct (IH s1 R W) as [(p & N)|N].
        * left. exists p. apply names_keep; assumption.
        * right. intros p Q. apply names_last in Q as [Q|(_ & _ & Q)]; [exact (NW p Q)|exact (N p Q)]. }
  destruct EM as [(p & N)|N]; [|left; auto]. right. exists p. split; [eapply file_runs; eassumption|auto].
Qed.

(** one instance at a time, workers end with their master only *)
Lemma alone_inv l : forall s, run st0 l = Some s -> Forall whole l -> Forall no_worker l -> alone l ->
  (running s = [] /\ (Forall no_crash l -> pidfile s = None)) \/
  exists p, running s = [p] /\ pidfile s = Some (fmt_d p) /\ 0 < p < 2 ^ 31.
Proof.
  induction l as [|a l IH] using rev_ind; intros s R W NK AL.
  - cbn in R. injection R as <-. left. auto.
  - apply run_snoc in R as (s1 & R & E). apply Forall_app in W as (W & Wa). apply Forall_inv in Wa.
    apply Forall_app in NK as (NK & NKa). apply Forall_inv in NKa.
    assert (AL1 : alone l).
    { intros l1 p e l2 s2 X. apply (AL l1 p e (l2 ++ [a])). subst l. rewrite <- app_assoc. reflexivity. }
    specialize (IH s1 R W NK AL1).
    assert (ST : forall p e, a = EStart p e -> running s1 = []).
    { intros p e ->. apply (AL l p e []); auto. }
    destruct (step_cases s1 a s E Wa) as [(p & Wp & Bp & _ & ->)|[(Rm & NW & PF & U)|(Rm & NW & PF & U)]].
    + right. exists p. destruct Wp as (e & -> & _). cbn [running pidfile]. rewrite (ST p e eq_refl). auto.
    + left. split; [|auto]. destruct a as [p e|p|p|p]; cbn in NKa, Rm; try contradiction.
      * rewrite U. apply (ST p e eq_refl).
      * destruct U as (Ip & ->). destruct IH as [(E1 & _)|(q & E1 & _)]; rewrite E1 in *; [destruct Ip|].
        destruct Ip as [->|[]]. cbn. destruct (Z.eq_dec p p); [reflexivity|contradiction].
    + destruct a as [p e|p|p|p]; cbn in NKa, Rm; try contradiction; try (destruct (Rm I)).
      * left. rewrite U, PF, (ST p e eq_refl). split; [reflexivity|]. intros NC. apply Forall_app in NC as (NC & _).
        destruct IH as [(_ & X)|(q & X & _)]; [auto|]. rewrite (ST p e eq_refl) in X. discriminate.
      * left. destruct U as (Ip & ->). split.
        -- destruct IH as [(E1 & _)|(q & E1 & _)]; rewrite E1 in *; [destruct Ip|].
           destruct Ip as [->|[]]. cbn. destruct (Z.eq_dec p p); [reflexivity|contradiction].
        -- intros NC. apply Forall_app in NC as (_ & NC). apply Forall_inv in NC. contradiction.
Qed.

Lemma serves_one s p fd o sig : pidfile s = Some (fmt_d p) -> 0 < p < 2 ^ 31 -> 0 < fd -> command o sig ->
  option_parse fd (pidfile s) [o] = Ok (Command [(One p, sig)] 0).
Proof.
  intros -> B D C. rewrite (parse_command _ _ _ _ C), (pid_fmt fd p D B). cbn [bind].
  unfold kill_target. destruct (Z.ltb_spec 0 p); [reflexivity|lia].
Qed.

(** one instance at a time, no crash, no worker that ends on its own, no short write: commands
    do what they are for. If instances do crash, a running one is still reached. *)
Theorem C132_partial l s : run st0 l = Some s -> Forall whole l -> Forall no_worker l -> alone l ->
  (Forall no_crash l -> serves s) /\
  (running s <> [] -> serves s).
Proof.
  intros R W NK AL. destruct (alone_inv l s R W NK AL) as [(E & N)|(p & E & F & B)].
  - split; [|contradiction]. intros NC fd o sig D C. exists [], 0. rewrite (N NC), (parse_command _ _ _ _ C).
    split; [reflexivity|]. split; [auto|]. rewrite E. contradiction.
  - assert (X : serves s).
    { intros fd o sig D C. exists [(One p, sig)], 0. split; [apply serves_one; assumption|].
      rewrite E. split; [discriminate|]. intros _. exists p. split; [left; reflexivity|reflexivity]. }
    split; auto.
Qed.

(** the property: in every state the program can get into *)
Definition C132_property : Prop := forall l s, run st0 l = Some s -> serves s.

Definition ok_start (p : Z) : ev := EStart p (good_env true p).
Definition busy_start (p : Z) : ev := EStart p (Env true true true true true (zlen (fmt_d p)) false).
Definition full_start (p : Z) : ev := EStart p (Env true true true true true 2 true).

(** the histories that break it *)
Theorem C132_refuted : ~ C132_property /\
  (* a second instance is started and ended: the first one can no longer be told anything *)
  run st0 [ok_start 100; ok_start 200; EEnd 200] = Some (St [100] None) /\
  (* a second start fails: the same *)
  run st0 [ok_start 100; busy_start 200] = Some (St [100] None) /\
  (* a worker ends on its own: the same *)
  run st0 [ok_start 100; EWorker 100] = Some (St [100] None) /\
  (* after a crash the number stays in the file; whoever has it next is signalled *)
  (exists s, run st0 [ok_start 100; ECrash 100] = Some s /\ running s = [] /\
     option_parse 3 (pidfile s) [stop] = Ok (Command [(One 100, 2)] 0)) /\
  (* the number is only partly written, the start fails: a process that was never an instance *)
  (exists s, run st0 [full_start 4711] = Some s /\ running s = [] /\
     option_parse 3 (pidfile s) [stop] = Ok (Command [(One 47, 2)] 0)).
Proof.
  assert (X : run st0 [ok_start 100; ok_start 200; EEnd 200] = Some (St [100] None)) by (vm_compute; reflexivity).
  split; [|split; [exact X|]].
  - intros P. destruct (P _ _ X 3 stop 2) as (sent & status & E & _ & F); [lia|exact stop_command|].
    destruct F as (p & _ & ->); [discriminate|]. vm_compute in E. discriminate.
  - split; [vm_compute; reflexivity|]. split; [vm_compute; reflexivity|].
    split; eexists; (split; [vm_compute; reflexivity|split; [reflexivity|vm_compute; reflexivity]]).
Qed.

Example ex_C132_partial : exists s, run st0 [ok_start 100; EEnd 100; busy_start 200; ok_start 300] = Some s /\ serves s.
Proof.
  eexists. split; [vm_compute; reflexivity|].
  apply (C132_partial [ok_start 100; EEnd 100; busy_start 200; ok_start 300]).
  - vm_compute; reflexivity.
  - repeat constructor.
  - repeat constructor.
  - intros l1 p e l2 s E R.
    destruct l1 as [|a1 [|a2 [|a3 [|a4 [|a5 r]]]]]; cbn in E; try discriminate; injection E; intros; subst;
      vm_compute in R; injection R as <-; reflexivity.
  - discriminate.
Qed.
Example ex_C132_whom : option_parse 3 (pidfile (St [200; 100] (Some (str "200")))) [stop] = Ok (Command [(One 200, 2)] 0) /\
  run st0 [ok_start 100; ok_start 200] = Some (St [200; 100] (Some (str "200"))) /\
  names [ok_start 100; ok_start 200] 200.
Proof.
  split; [vm_compute; reflexivity|]. split; [vm_compute; reflexivity|].
  apply (names_new [ok_start 100]). exists (good_env true 200). split; [reflexivity|].
  repeat split; intros; reflexivity.
Qed.

(** ** C134: exit status *)
(** the property: a command's status is 0 exactly if it sent its signal, a start's exactly
    if the instance runs *)
Definition C134_property : Prop :=
  (forall fd file o sent status, option_parse fd file [o] = Ok (Command sent status) -> status = 0 <-> sent <> []) /\
  (forall e p f ok f' status, start e p f = (ok, f', Some status) -> status = 0 <-> ok = true).

Theorem C134_refuted : ~ C134_property /\
  (* nothing to stop, or not understood: status 0 *)
  option_parse 3 None [stop] = Ok (Command [] 0) /\ option_parse 3 (Some (str "47")) [str "--stop"] = Ok (Command [] 0) /\
  (* called with its standard input closed, so that the file becomes descriptor 0: the same *)
  option_parse 0 (Some (str "47")) [stop] = Ok (Command [] 0) /\
  (* as a daemon: the start fails, status 0 *)
  start (Env true true true true true 3 false) 100 None = (false, None, Some 0).
Proof.
  assert (X : option_parse 3 None [stop] = Ok (Command [] 0)) by reflexivity.
  split; [|repeat split; vm_compute; reflexivity].
  intros (P & _). apply P in X. apply X; reflexivity.
Qed.
(** in the foreground the status is right: the program returns from its start only with a
    failure, and then says so. A daemon's start always returns, with 0 if the daemon runs;
    a failure it reports is one, too, and has left everything as it was. *)
Theorem C134_partial e p f ok f' status : start e p f = (ok, f', status) ->
  (daemon e = false -> (ok = true /\ status = None) \/ (ok = false /\ status = Some 255)) /\
  (daemon e = true -> (status = Some 0 \/ status = Some 255) /\ (ok = true -> status = Some 0) /\
    (status = Some 255 -> ok = false /\ f' = f)).
Proof.
  unfold start. intros H. destruct (daemon e) eqn:D, (conf_ok e) eqn:CO; cbn [andb negb] in H.
  - split; [discriminate|]. intros _. destruct (fork_ok e); cbn [negb] in H.
    + destruct (detach_ok e); cbn [negb] in H; [|injection H as <- <- <-; repeat split; auto; discriminate].
      destruct (pid_create e p f) as (k & g). destruct k; cbn [negb] in H; [|injection H as <- <- <-; repeat split; auto; discriminate].
      destruct (core_ok e); injection H as <- <- <-; repeat split; auto; discriminate.
    + injection H as <- <- <-. repeat split; auto; discriminate.
  - split; [discriminate|]. intros _. injection H as <- <- <-. repeat split; auto; discriminate.
  - split; [|discriminate]. intros _.
    destruct (pid_create e p f) as (k & g). destruct k; cbn [negb] in H; [|injection H as <- <- <-; auto].
    destruct (core_ok e); injection H as <- <- <-; auto.
  - split; [|discriminate]. intros _. injection H as <- <- <-. auto.
Qed.
Example ex_C134_partial : start (Env false false false true true 3 false) 100 None = (false, None, Some 255) /\
  start (good_env false 100) 100 None = (true, Some (str "100"), None) /\
  start (Env true false true true true 3 true) 100 None = (false, None, Some 255).
Proof. repeat split; vm_compute; reflexivity. Qed.

Print Assumptions C132_whom.
Print Assumptions C132_no_stranger_partial.
Print Assumptions C132_partial.
Print Assumptions C132_refuted.
Print Assumptions C133_commands.
Print Assumptions C133_partial.
Print Assumptions C133_any.
Print Assumptions C133_refuted.
Print Assumptions C134_partial.
Print Assumptions C134_refuted.
