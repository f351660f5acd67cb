(** * Lookups of several sessions at the same time: theorems (C143) *)
From Coq Require Import String.
From Verif Require Import Base Str_Spec Meta_Model Meta_Proofs S5_Model Hash_Model Hash_Props Dns_Model Dns_Spec Dns_Proofs
  Dns_Props Dns_Cache_Props Look_Model Look_Props Looks_Model Looks_Spec.
Local Open Scope Z_scope.
Local Open Scope list_scope.
Local Arguments Z.add : simpl never.
Local Arguments Z.mul : simpl never.
Local Arguments zlen : simpl never.

(** ** Proofs *)
Lemma asked_app i l m : asked i (l ++ m) = match asked i l with Some n => Some n | None => asked i m end.
Proof. induction l as [|[j n|j d al t|j|t] l IH]; cbn [app asked]; auto. destruct (j =? i); auto. Qed.
Lemma asked_ids i l : asked i l <> None -> In i (ids l).
Proof. induction l as [|[j n|j d al t|j|t] l IH]; cbn [asked ids]; auto; try congruence. destruct (Z.eqb_spec j i) as [->|]; [left; reflexivity|right; auto]. Qed.
Lemma ids_app l m : ids (l ++ m) = ids l ++ ids m.
Proof. induction l as [|[j n|j d al t|j|t] l IH]; cbn [app ids]; auto. cbn. rewrite IH. reflexivity. Qed.
Lemma datagrams_app i l m : datagrams i (l ++ m) = datagrams i l ++ datagrams i m.
Proof. induction l as [|[j n|j d al t|j|t] l IH]; cbn [app datagrams]; auto. destruct (j =? i); cbn; rewrite IH; reflexivity. Qed.
Lemma own_app i l m : asked i l <> None -> own i (l ++ m) = own i l ++ datagrams i m.
Proof.
  induction l as [|[j n|j d al t|j|t] l IH]; cbn [app asked own]; auto; [congruence|].
  destruct (j =? i); [intros _; apply datagrams_app|exact IH].
Qed.
Lemma own_new i l m : asked i l = None -> own i (l ++ m) = own i m.
Proof. induction l as [|[j n|j d al t|j|t] l IH]; cbn [app asked own]; auto. destruct (j =? i); [discriminate|exact IH]. Qed.

Lemma waiting_some i l q : waiting i l = Some q -> In q l /\ q_id q = i.
Proof. unfold waiting. intros F. apply find_some in F as (A & B). apply Z.eqb_eq in B. auto. Qed.
Lemma others_in i l q : In q (others i l) <-> In q l /\ q_id q <> i.
Proof. unfold others. rewrite filter_In, negb_true_iff, Z.eqb_neq. reflexivity. Qed.

(** what is known about the queries that wait *)
Definition sound (dn : list cop) (q : query) : Prop :=
  asked (q_id q) dn = Some (q_name q) /\ own (q_id q) dn = q_ds q /\
  (exists m, dns_packet (q_name q) = Ok (m, q_len q)) /\ dns_response (q_len q) (received 1500 (q_ds q)) = Ok DWait.
Lemma sound_more dn o q : sound dn q -> datagrams (q_id q) [o] = [] -> sound (dn ++ [o]) q.
Proof.
  intros (A & B & C & D) E. split; [rewrite asked_app, A; reflexivity|]. split; [|auto]. rewrite own_app by congruence. rewrite E, app_nil_r. exact B.
Qed.
Lemma packet_pos n p : dns_packet n = Ok p -> 0 <= snd p.
Proof.
  unfold dns_packet. intros E. apply bind_ok in E as (h & _ & E). apply bind_ok in E as (m1 & _ & E). apply bind_ok in E as (q & _ & E).
  apply bind_ok in E as (m2 & _ & E). apply bind_ok in E as (m3 & _ & E). injection E as <-. apply zlen_nonneg.
Qed.
Lemma response_none n : 0 <= n -> dns_response n [] = Ok DWait.
Proof. intros N. unfold dns_response. cbn [dns_collect]. change (meta_getlen (meta_new 1500)) with 0. destruct (Z.leb_spec (12 + n + 4) 0); [lia|reflexivity]. Qed.

Definition all_sound (dn : list cop) (s : st) : Prop := Forall (sound dn) (s_wait s).
Lemma step_sound dn s o t s' : NoDup (ids (dn ++ [o])) -> all_sound dn s -> cstep s o = Ok (t, s') -> all_sound (dn ++ [o]) s'.
Proof.
  unfold all_sound. rewrite !Forall_forall. intros ND S E.
  assert (KEEP : forall q, In q (s_wait s) -> datagrams (q_id q) [o] = [] -> sound (dn ++ [o]) q) by (intros q I0; apply sound_more, S, I0).
  destruct o as [i n|i d al now|i|now]; cbn [cstep] in E.
  - apply bind_ok in E as ([a|] & EF & E); [injection E as <- <-; auto|].
    apply bind_ok in E as (p & P & E). injection E as <- <-. cbn [s_wait]. intros q I0. apply in_app_iff in I0 as [I0|[<-|[]]]; [apply KEEP; auto|].
    assert (NA : asked i dn = None).
    { destruct (asked i dn) eqn:A; [|reflexivity]. exfalso. rewrite ids_app in ND. cbn [ids] in ND. apply NoDup_remove_2 in ND. apply ND.
      rewrite app_nil_r. apply asked_ids. congruence. }
    split; cbn [q_id q_name q_len q_ds]; [rewrite asked_app, NA; cbn [asked]; rewrite Z.eqb_refl; reflexivity|].
    split; [rewrite own_new by exact NA; cbn [own]; rewrite Z.eqb_refl; reflexivity|]. split; [exists (fst p); destruct p; exact P|].
    cbn [received]. apply response_none, (packet_pos n p P).
  - destruct (waiting i (s_wait s)) as [q0|] eqn:W.
    2:{ injection E as <- <-. intros q I0. apply KEEP; [exact I0|]. cbn [datagrams]. destruct (Z.eqb_spec i (q_id q)) as [->|]; [|reflexivity].
        exfalso. unfold waiting in W. pose proof (find_none _ _ W q I0) as X. cbv beta in X. rewrite Z.eqb_refl in X. discriminate. }
    destruct (waiting_some _ _ _ W) as (I1 & ID). apply bind_ok in E as (r & R & E).
    assert (OTH : forall q, In q (others i (s_wait s)) -> sound (dn ++ [Data i d al now]) q).
    { intros q I0. apply others_in in I0 as (I0 & N). apply KEEP; [exact I0|]. cbn [datagrams]. destruct (Z.eqb_spec i (q_id q)); [congruence|reflexivity]. }
    destruct r as [| |a].
    + injection E as <- <-. cbn [s_wait]. intros q I0. apply in_app_iff in I0 as [I0|[<-|[]]]; [auto|].
      destruct (S q0 I1) as (A & B & C & _). rewrite ID in A, B. split; cbn [q_id q_name q_len q_ds]; [rewrite asked_app, A; reflexivity|].
      split; [|auto]. rewrite own_app by congruence. cbn [datagrams]. rewrite Z.eqb_refl, B. reflexivity.
    + injection E as <- <-. exact OTH.
    + apply bind_ok in E as (c & _ & E). injection E as <- <-. exact OTH.
  - destruct (waiting i (s_wait s)) as [q0|]; injection E as <- <-; intros q I0; [apply others_in in I0 as (I0 & _)|]; apply KEEP; auto.
  - injection E as <- <-. intros q I0. apply KEEP; auto.
Qed.

(** what an event that ends a lookup says *)
Lemma step_out dn s o i a s' : all_sound dn s -> cstep s o = Ok (Some (i, a), s') ->
  (exists n x, o = Start i n /\ rec_find (s_cache s) n = Ok (Some x) /\ a = Some x /\ s' = s) \/
  (exists n m k d, asked i dn = Some n /\ dns_packet n = Ok (m, k) /\
     dns_response k (received 1500 (own i (dn ++ [o]))) = Ok d /\
     (exists q, In q (s_wait s) /\ q_id q = i /\ q_name q = n) /\ s_wait s' = others i (s_wait s) /\
     match d with
     | DAnswer x => exists dd al now, o = Data i dd al now /\ a = Some (ans_addr x) /\ rec_store al now (s_cache s) n x = Ok (s_cache s')
     | _ => a = None /\ s_cache s' = s_cache s /\ (o = Late i \/ exists dd al now, o = Data i dd al now)
     end).
Proof.
  unfold all_sound. rewrite Forall_forall. intros S E. destruct o as [j n|j d al now|j|now]; cbn [cstep] in E.
  - apply bind_ok in E as ([x|] & EF & E); [|apply bind_ok in E as (p & _ & E); discriminate]. injection E as <- <- <-. left. exists n, x. auto.
  - right. destruct (waiting j (s_wait s)) as [q|] eqn:W; [|discriminate]. destruct (waiting_some _ _ _ W) as (I1 & ID).
    apply bind_ok in E as (r & R & E). destruct (S q I1) as (A & B & (m & C) & D). rewrite ID in A, B.
    assert (OW : own j (dn ++ [Data j d al now]) = q_ds q ++ [d]) by (rewrite own_app by congruence; cbn [datagrams]; rewrite Z.eqb_refl, B; reflexivity).
    destruct r as [| |x]; [discriminate| |].
    + injection E as <- <- <-. exists (q_name q), m, (q_len q), DFail. rewrite OW. repeat split; eauto 10.
    + apply bind_ok in E as (c & EC & E). injection E as <- <- <-. exists (q_name q), m, (q_len q), (DAnswer x). rewrite OW. repeat split; eauto 10.
  - right. destruct (waiting j (s_wait s)) as [q|] eqn:W; [|discriminate]. injection E as <- <- <-. destruct (waiting_some _ _ _ W) as (I1 & ID).
    destruct (S q I1) as (A & B & (m & C) & D). rewrite ID in A, B. exists (q_name q), m, (q_len q), DWait.
    rewrite own_app by congruence. cbn [datagrams]. rewrite app_nil_r, B. repeat split; eauto 10.
  - discriminate.
Qed.

Definition clean (s : st) (w : list (Z * list Z)) : Prop :=
  (exists f, csees (s_cache s) f /\ forall q, In q (s_wait s) -> f (q_name q) = None) /\
  (forall q q', In q (s_wait s) -> In q' (s_wait s) -> q_name q = q_name q' -> q_id q = q_id q') /\
  (forall q, In q (s_wait s) -> In (q_id q, q_name q) w).
(** what remains to be waited for after an event *)
Definition next_wait (w : list (Z * list Z)) (o : cop) (t : option outcome) : list (Z * list Z) :=
  match o, t with
  | Start i n, None => (i, n) :: w
  | _, None => w
  | _, Some (i, _) => filter (fun x => negb (fst x =? i)) w
  end.
Lemma next_wait_end w o (p : outcome) : next_wait w o (Some p) = filter (fun x => negb (fst x =? fst p)) w.
Proof. destruct o, p; reflexivity. Qed.
Definition fresh (w : list (Z * list Z)) (o : cop) (t : option outcome) : Prop :=
  match o, t with Start i n, None => forall j, ~ In (j, n) w | _, _ => True end.
Lemma apart_cons w o h t tr : apart w (o :: h) (t :: tr) -> fresh w o t /\ apart (next_wait w o t) h tr.
Proof. cbn [apart]. destruct o as [i n|i d al now|i|now], t as [(j, a)|]; cbn [fresh next_wait]; auto. Qed.

Lemma find_sees c f n : csees c f -> rec_find c n = Ok (option_map ce_addr (f n)).
Proof. intros S. unfold rec_find. rewrite (proj2 (proj1 S) n). reflexivity. Qed.
Lemma step_serial dn s w o t s' : NoDup (ids (dn ++ [o])) -> all_sound dn s -> clean s w -> fresh w o t -> cstep s o = Ok (t, s') ->
  clean s' (next_wait w o t) /\
  exists r, lrun (s_cache s) (at_once (dn ++ [o]) o t) = Ok (r, s_cache s') /\
    found (at_once (dn ++ [o]) o t) r = results [t] /\ length r = length (at_once (dn ++ [o]) o t).
Proof.
  intros ND AS ((f & S & FN) & U & W) FR E. pose proof AS as AS0. unfold all_sound in AS0. rewrite Forall_forall in AS0.
  assert (DROP : forall i c g, csees c g -> (forall q, In q (s_wait s) -> q_id q <> i -> g (q_name q) = None) -> (forall s1, s_cache s1 = c -> s_wait s1 = others i (s_wait s) ->
     clean s1 (filter (fun x => negb (fst x =? i)) w))).
  { intros i c g SG G s1 EC0 EW. unfold clean. rewrite EW, EC0. split; [exists g; split; [exact SG|intros q I0; apply others_in in I0 as (I0 & N); auto]|]. split.
    - intros q q' I0 I1. apply others_in in I0 as (I0 & _). apply others_in in I1 as (I1 & _). auto.
    - intros q I0. apply others_in in I0 as (I0 & N). apply filter_In. split; [auto|]. cbn [fst]. apply negb_true_iff, Z.eqb_neq. exact N. }
  destruct t as [(i, a)|].
  - destruct (step_out dn s o i a s' AS E) as [(n & x & -> & EF & -> & ->)|(n & m & k & d & A & P & R & (q & IQ & ID & NM) & EW & M)].
    + assert (NI : forall q, In q (s_wait s) -> q_id q <> i).
      { intros q I0 EQ. rewrite ids_app in ND. cbn [ids] in ND. apply NoDup_remove_2 in ND. apply ND. rewrite app_nil_r. apply asked_ids.
        destruct (AS0 q I0) as (A & _). rewrite EQ in A. rewrite A. discriminate. }
      split.
      * split; [exists f; auto|]. split; [exact U|]. intros q I0. apply filter_In. split; [auto|]. cbn [fst]. apply negb_true_iff, Z.eqb_neq. auto.
      * unfold at_once. assert (A : asked i (dn ++ [Start i n]) = Some n).
        { rewrite asked_app. destruct (asked i dn) eqn:X; [|cbn [asked]; rewrite Z.eqb_refl; reflexivity]. exfalso.
          rewrite ids_app in ND. cbn [ids] in ND. apply NoDup_remove_2 in ND. apply ND. rewrite app_nil_r. apply asked_ids. congruence. }
        rewrite A. cbn [lrun lstep]. unfold lookup. rewrite EF. cbn. exists [Some x]. auto.
    + assert (FQ : rec_find (s_cache s) n = Ok None) by (rewrite (find_sees _ f n S), <- NM, (FN q IQ); reflexivity).
      assert (A' : asked i (dn ++ [o]) = Some n) by (rewrite asked_app, A; reflexivity).
      assert (OWNN : forall q', In q' (s_wait s) -> q_id q' <> i -> q_name q' <> n).
      { intros q' I0 N EN. apply N. rewrite <- ID. apply U; auto. congruence. }
      destruct d as [| |x].
      * destruct M as (-> & EC & O). split; [rewrite next_wait_end; cbn [fst]; apply (DROP i (s_cache s') f); auto; rewrite EC; auto|].
        assert (X : exists al now, at_once (dn ++ [o]) o (Some ((i, None) : outcome)) = [LLook al now n (own i (dn ++ [o]))]).
        { destruct O as [->|(dd & al & now & ->)]; unfold at_once; rewrite A'; eauto. }
        destruct X as (al & now & ->). cbn [lrun lstep]. unfold lookup. rewrite FQ. cbn [bind]. rewrite P. cbn [bind snd]. rewrite R. cbn. rewrite EC. exists [None]. auto.
      * destruct M as (-> & EC & O). split; [rewrite next_wait_end; cbn [fst]; apply (DROP i (s_cache s') f); auto; rewrite EC; auto|].
        assert (X : exists al now, at_once (dn ++ [o]) o (Some ((i, None) : outcome)) = [LLook al now n (own i (dn ++ [o]))]).
        { destruct O as [->|(dd & al & now & ->)]; unfold at_once; rewrite A'; eauto. }
        destruct X as (al & now & ->). cbn [lrun lstep]. unfold lookup. rewrite FQ. cbn [bind]. rewrite P. cbn [bind snd]. rewrite R. cbn. rewrite EC. exists [None]. auto.
      * destruct M as (dd & al & now & -> & -> & EC). cbn [next_wait]. split.
        -- apply (DROP i (s_cache s') _ (rec_store_csees _ _ _ _ _ _ _ S EC)); auto. intros q' I0 N. rewrite (FN q' I0).
           destruct (bseq n (q_name q')) eqn:B; [|reflexivity]. apply bseq_spec in B. exfalso. apply (OWNN q' I0 N). congruence.
        -- unfold at_once. rewrite A'. cbn [lrun lstep]. unfold lookup. rewrite FQ. cbn [bind]. rewrite P. cbn [bind snd]. rewrite R. cbn [bind]. rewrite EC. cbn.
           exists [Some (ans_addr x)]. auto.
  - destruct o as [i n|i d al now|i|now]; cbn [cstep] in E.
    + apply bind_ok in E as ([x|] & EF & E); [discriminate|]. apply bind_ok in E as (p & P & E). injection E as <-. cbn [next_wait fresh] in *. split.
      * split; [exists f; cbn [s_cache s_wait]; split; [exact S|]|split]; cbn [s_wait].
        -- intros q I0. apply in_app_iff in I0 as [I0|[<-|[]]]; [auto|]. cbn [q_name]. rewrite (find_sees _ f n S) in EF. destruct (f n); [discriminate|reflexivity].
        -- intros q q' I0 I1 N. apply in_app_iff in I0 as [I0|[<-|[]]]; apply in_app_iff in I1 as [I1|[<-|[]]]; cbn [q_id q_name] in *; auto; exfalso.
           ++ apply (FR (q_id q)). rewrite <- N. auto.
           ++ apply (FR (q_id q')). rewrite N. auto.
        -- intros q I0. apply in_app_iff in I0 as [I0|[<-|[]]]; [right; auto|left; reflexivity].
      * exists []. cbn. auto.
    + cbn [next_wait]. split; [|exists []; cbn; split; [|auto]; f_equal; f_equal]; destruct (waiting i (s_wait s)) as [q|] eqn:WT.
      2:{ injection E as <-. split; [exists f; auto|]. auto. }
      3:{ injection E as <-. reflexivity. }
      all: destruct (waiting_some _ _ _ WT) as (I1 & ID); apply bind_ok in E as (r & R & E); destruct r as [| |x]; [|discriminate|apply bind_ok in E as (c & EC & E); discriminate].
      * injection E as <-. assert (SUB : forall q', In q' (others i (s_wait s) ++ [Qy i (q_name q) (q_len q) (q_ds q ++ [d])]) -> exists q1, In q1 (s_wait s) /\ q_id q1 = q_id q' /\ q_name q1 = q_name q').
        { intros q' I0. apply in_app_iff in I0 as [I0|[<-|[]]]; [apply others_in in I0 as (I0 & _); eauto|]. exists q. auto. }
        split; [exists f; split; [exact S|]|split]; cbn [s_wait].
        -- intros q' I0. destruct (SUB q' I0) as (q1 & A & B & C). rewrite <- C. auto.
        -- intros q' q2 I0 I2 N. destruct (SUB q' I0) as (q1 & A & B & C). destruct (SUB q2 I2) as (q3 & A3 & B3 & C3). rewrite <- B, <- B3. apply U; auto. congruence.
        -- intros q' I0. destruct (SUB q' I0) as (q1 & A & B & C). rewrite <- B, <- C. auto.
      * injection E as <-. reflexivity.
    + destruct (waiting i (s_wait s)); [discriminate|]. injection E as <-. cbn [next_wait]. split; [split; [exists f; auto|auto]|exists []; cbn; auto].
    + injection E as <-. cbn [next_wait]. split.
      * split; [|auto]. eexists. cbn [s_cache s_wait]. split; [apply rec_chk_csees; exact S|]. cbv beta. intros q I0. rewrite (FN q I0). reflexivity.
      * exists [None]. cbn. auto.
Qed.

Lemma lrun_both l1 : forall c l2 r1 c1 r2 c2, lrun c l1 = Ok (r1, c1) -> lrun c1 l2 = Ok (r2, c2) -> lrun c (l1 ++ l2) = Ok (r1 ++ r2, c2).
Proof.
  induction l1 as [|o l1 IH]; intros c l2 r1 c1 r2 c2 A B; cbn [lrun app] in *; [injection A as <- <-; exact B|].
  apply bind_ok in A as (p & P & A). apply bind_ok in A as (q & Q0 & A). injection A as <- <-. rewrite P. cbn [bind].
  rewrite (IH _ _ _ _ _ _ (eq_trans Q0 (f_equal Ok (surjective_pairing q))) B). reflexivity.
Qed.
Lemma found_app l1 : forall l2 r1 r2, length r1 = length l1 -> found (l1 ++ l2) (r1 ++ r2) = found l1 r1 ++ found l2 r2.
Proof. induction l1 as [|o l1 IH]; intros l2 [|a r1] r2 L; try discriminate; [reflexivity|]. injection L as L. destruct o; cbn; rewrite IH; auto. Qed.
Lemma serial h : forall dn s w tr s', NoDup (ids (dn ++ h)) -> all_sound dn s -> clean s w -> apart w h tr -> crun s h = Ok (tr, s') ->
  exists r, lrun (s_cache s) (one_by_one dn h tr) = Ok (r, s_cache s') /\ found (one_by_one dn h tr) r = results tr.
Proof.
  induction h as [|o h IH]; intros dn s w tr s' ND AS CL AP R; cbn [crun] in R; [injection R as <- <-; exists []; auto|].
  apply bind_ok in R as ((t, s1) & E & R). apply bind_ok in R as ((tr', s2) & R & X). injection X as <- <-. cbn [fst snd] in *.
  destruct (apart_cons _ _ _ _ _ AP) as (FR & AP'). assert (ND1 : NoDup (ids (dn ++ [o]))).
  { replace (dn ++ o :: h) with ((dn ++ [o]) ++ h) in ND by (rewrite <- app_assoc; reflexivity). rewrite ids_app in ND.
    clear -ND. induction (ids (dn ++ [o])) as [|x l IH]; [constructor|]. inversion ND as [|? ? A B]; subst. constructor; [|auto].
    intros I0. apply A, in_app_iff. auto. }
  destruct (step_serial dn s w o t s1 ND1 AS CL FR E) as (CL1 & r1 & L1 & F1 & N1).
  destruct (IH (dn ++ [o]) s1 (next_wait w o t) tr' s2) as (r2 & L2 & F2); auto.
  { rewrite <- app_assoc. exact ND. }
  { apply (step_sound dn s o t s1); auto. }
  exists (r1 ++ r2). cbn [one_by_one]. split; [apply (lrun_both _ _ _ _ _ _ _ L1 L2)|]. rewrite found_app by exact N1. rewrite F1, F2.
  destruct t as [(i, a)|]; reflexivity.
Qed.

(** ** C143 *)
Definition C143_property : Prop := forall h tr s, NoDup (ids h) -> crun st0 h = Ok (tr, s) ->
  exists r, lrun cache0 (one_by_one [] h tr) = Ok (r, s_cache s) /\ found (one_by_one [] h tr) r = results tr.

(** However the lookups of any number of sessions, their datagrams, the ends of their timers and
    the passes over the cache are mixed: if nobody asks for a name while another session waits
    for it, then every session gets what it would have got if the lookups had been made one
    after the other, each at once with its own datagrams; and the cache is left the same. *)
Theorem C143_partial : forall h tr s, NoDup (ids h) -> crun st0 h = Ok (tr, s) -> apart [] h tr ->
  exists r, lrun cache0 (one_by_one [] h tr) = Ok (r, s_cache s) /\ found (one_by_one [] h tr) r = results tr.
Proof.
  intros h tr s ND R AP. apply (serial h [] st0 [] tr s); auto; [constructor|].
  split; [exists (fun _ => None); split; [exact cache0_csees|intros q []]|]. split; [intros q q' []|intros q []].
Qed.
Print Assumptions C143_partial.

(** Without that condition: a session that gets its result at the [k]-th event either asked at
    that event for a name that was in the cache, or gets what the datagrams that came for itself,
    all of them and no others, say about the name it asked for. *)
Theorem C143_alone : forall h1 o h2 tr s i a, NoDup (ids (h1 ++ o :: h2)) ->
  crun st0 (h1 ++ o :: h2) = Ok (tr, s) -> nth_error tr (length h1) = Some (Some (i, a)) ->
  exists n, asked i (h1 ++ [o]) = Some n /\
  ((exists tr1 s1 x, o = Start i n /\ crun st0 h1 = Ok (tr1, s1) /\ rec_find (s_cache s1) n = Ok (Some x) /\ a = Some x) \/
   (exists m k d, dns_packet n = Ok (m, k) /\ dns_response k (received 1500 (own i (h1 ++ [o]))) = Ok d /\
      a = match d with DAnswer x => Some (ans_addr x) | _ => None end)).
Proof.
  intros h1 o h2 tr s i a ND R NT.
  assert (SPLIT : forall l s0 dn tr0 s', crun s0 (l ++ o :: h2) = Ok (tr0, s') -> all_sound dn s0 -> NoDup (ids (dn ++ l ++ o :: h2)) ->
    exists tr1 s1 t s2, crun s0 l = Ok (tr1, s1) /\ length tr1 = length l /\ cstep s1 o = Ok (t, s2) /\ nth_error tr0 (length l) = Some t /\ all_sound (dn ++ l) s1).
  { clear. induction l as [|x l IH]; intros s0 dn tr0 s' R S ND; cbn [app crun] in R; apply bind_ok in R as ((t, s1) & E & R); apply bind_ok in R as ((tr', s2) & R & X); injection X as <- <-; cbn [fst snd] in *.
    - exists [], s0, t, s1. rewrite app_nil_r. auto.
    - destruct (IH s1 (dn ++ [x]) tr' s2 R) as (tr1 & s3 & t1 & s4 & A & B & C & D & F).
      + apply (step_sound dn s0 x t s1); auto. replace (dn ++ (x :: l) ++ o :: h2) with ((dn ++ [x]) ++ l ++ o :: h2) in ND by (rewrite <- app_assoc; reflexivity).
        rewrite ids_app in ND. revert ND. generalize (ids (dn ++ [x])). induction l0 as [|y l0 IH']; intros ND; [constructor|]. inversion ND as [|? ? N1 N2]; subst.
        constructor; [intros I0; apply N1, in_app_iff; auto|auto].
      + rewrite <- app_assoc. exact ND.
      + exists (t :: tr1), s3, t1, s4. cbn [crun]. rewrite E. cbn [bind snd]. rewrite A. cbn. rewrite B. rewrite <- app_assoc in F. auto. }
  destruct (SPLIT h1 st0 [] tr s R) as (tr1 & s1 & t & s2 & A & B & C & D & F); [constructor|exact ND|].
  rewrite D in NT. injection NT as ->. cbn [app] in F.
  destruct (step_out h1 s1 o i a s2 F C) as [(n & x & -> & EF & -> & ->)|(n & m & k & d & AK & P & RS & _ & _ & M)]; exists n.
  - split.
    + rewrite asked_app. destruct (asked i h1) eqn:X; [|cbn [asked]; rewrite Z.eqb_refl; reflexivity]. exfalso.
      rewrite ids_app in ND. cbn [ids] in ND. apply NoDup_remove_2 in ND. apply ND. apply in_app_iff. left. apply asked_ids. congruence.
    + left. exists tr1, s1, x. auto.
  - split; [rewrite asked_app, AK; reflexivity|]. right. exists m, k, d. split; [exact P|]. split; [exact RS|].
    destruct d; [apply M|apply M|]. destruct M as (dd & al & now & _ & -> & _). reflexivity.
Qed.
Print Assumptions C143_alone.

(** False in general: two sessions that ask for the same name at the same time both send a query
    and may get different addresses; one after the other, the second gets the first one's. *)
Definition alw : allocs := mkAllocs true true true.
Definition two : list cop :=
  [Start 1 (str "a.b"); Start 2 (str "a.b"); Data 1 (53, forged 5 [10; 0; 0; 1] 60) alw 0; Data 2 (53, forged 5 [10; 0; 0; 2] 60) alw 0].
Theorem C143_refuted : ~ C143_property.
Proof.
  intros P. assert (N : NoDup (ids two)) by (repeat constructor; cbn; intuition lia).
  assert (Q : exists s, crun st0 two = Ok ([None; None; Some (1, Some [10; 0; 0; 1]); Some (2, Some [10; 0; 0; 2])], s)) by (eexists; vm_compute; reflexivity).
  destruct Q as (s & Q). destruct (P _ _ _ N Q) as (r & L & F). clear P Q.
  assert (E : exists c, lrun cache0 (one_by_one [] two [None; None; Some (1, Some [10; 0; 0; 1]); Some (2, Some [10; 0; 0; 2])]) = Ok ([Some [10; 0; 0; 1]; Some [10; 0; 0; 1]], c)) by (eexists; vm_compute; reflexivity).
  destruct E as (c & E). rewrite E in L. injection L as <- _. cbv in F. discriminate F.
Qed.
Print Assumptions C143_refuted.

(** three sessions and a pass over the cache mixed; the first session's answer comes in two
    datagrams, the third finds the second's address in the cache, a fourth hears nothing *)
Definition mixed : list cop :=
  [Start 1 (str "a.b"); Start 2 (str "c.d"); Data 1 (53, ztake 12 (forged 5 [10; 0; 0; 1] 60)) alw 0; Start 4 (str "e.f");
   Data 2 (53, forged 5 [10; 0; 0; 2] 60) alw 0; Start 3 (str "c.d"); Data 1 (53, zdrop 12 (forged 5 [10; 0; 0; 1] 60)) alw 0;
   Chk 100; Late 4; Data 4 (53, []) alw 0].
Definition mixed_tr : list (option outcome) :=
  [None; None; None; None; Some (2, Some [10; 0; 0; 2]); Some (3, Some [10; 0; 0; 2]); Some (1, Some [10; 0; 0; 1]); None; Some (4, None); None].
Example ex_C143 : NoDup (ids mixed) /\ (exists s, crun st0 mixed = Ok (mixed_tr, s)) /\ apart [] mixed mixed_tr.
Proof.
  split; [repeat constructor; cbn; intuition lia|]. split; [eexists; vm_compute; reflexivity|].
  cbn. repeat split; intros j H; intuition congruence.
Qed.
Example ex_alone : nth_error mixed_tr 6 = Some (Some (1, Some [10; 0; 0; 1])) /\ zlen (own 1 (firstn 7 mixed)) = 2. Proof. split; reflexivity. Qed.
