(** * One lookup in time: theorems (C151) *)
From Coq Require Import String.
From Verif Require Import Base Str_Spec Meta_Model Meta_Proofs S5_Model Hash_Model Dns_Model Dns_Spec Dns_Proofs
  Dns_Props Look_Model Look_Props Lost_Model.
Local Open Scope Z_scope.
Local Open Scope list_scope.
Local Arguments Z.add : simpl never.
Local Arguments Z.sub : simpl never.
Local Arguments Z.mul : simpl never.
Local Arguments Z.max : simpl never.
Local Arguments Z.min : simpl never.
Local Arguments zlen : simpl never.

(** ** What is expected *)
(** every call of sendto takes the whole datagram, as it does on a datagram socket *)
Definition whole (rs : list sres) : Prop := Forall (fun r => exists n, r = STook n /\ 1500 <= n) rs.
Definition whole_ev (e : kev) : Prop := match e with KWrite rs => whole rs | _ => True end.
(** a lookup that heard nothing asks again before it gives up *)
Definition C151_property : Prop := forall name t rs es s,
  name_ok name -> whole rs -> Forall whole_ev es ->
  klook name t rs es = Ok s -> k_in s = [] -> k_out s = Some None -> 2 <= zlen (k_left s).

(** bytes of datagrams *)
Fixpoint bytes (ds : list dgram) : Z := match ds with [] => 0 | d :: r => zlen (snd d) + bytes r end.
(** readable means there is a datagram, and datagrams are not empty *)
Definition loud (e : kev) : Prop := match e with KRead ds => ds <> [] /\ Forall (fun d => 1 <= zlen (snd d)) ds | _ => True end.
Fixpoint writes (es : list kev) : Z := match es with [] => 0 | KWrite _ :: r => 1 + writes r | _ :: r => writes r end.

(** ** Proofs *)
Lemma bytes_app a b : bytes (a ++ b) = bytes a + bytes b.
Proof. induction a as [|d a IH]; cbn [app bytes]; [lia|]. rewrite IH. lia. Qed.
Lemma bytes_nonneg ds : 0 <= bytes ds.
Proof. induction ds as [|d r IH]; cbn [bytes]; [lia|]. pose proof (zlen_nonneg (snd d)). lia. Qed.
Lemma bytes_loud ds : ds <> [] -> Forall (fun d : dgram => 1 <= zlen (snd d)) ds -> 1 <= bytes ds.
Proof. intros N F. destruct ds as [|d r]; [contradiction|]. inversion F; subst. cbn [bytes]. pose proof (bytes_nonneg r). lia. Qed.

Lemma wait_bytes want : forall ds m, meta_wf m -> mpos m = 0 -> want <= mlast m + meta_getfree m ->
  dns_collect m want (received (meta_getfree m) ds) = Ok (inl DWait) -> meta_getlen m + bytes ds < want.
Proof.
  induction ds as [|(w, b) r IH]; intros m W P L E; cbn [received bytes snd] in *.
  - cbn [dns_collect] in E. destruct (Z.leb_spec want (meta_getlen m)); [discriminate|lia].
  - destruct (ztake (meta_getfree m) b) as [|x y] eqn:T.
    { cbn [dns_collect] in E. destruct (want <=? meta_getlen m); discriminate. }
    rewrite <- T in E. cbn [dns_collect] in E.
    destruct (Z.leb_spec want (meta_getlen m)) as [|G]; [discriminate|].
    destruct (Z.ltb_spec (meta_getfree m) 1) as [|F]; [discriminate|].
    apply bind_ok in E as (m' & EM & E).
    assert (TL : zlen (ztake (meta_getfree m) b) = Z.min (meta_getfree m) (zlen b)) by (rewrite zlen_ztake by lia; reflexivity).
    destruct (meta_store_ok m (ztake (meta_getfree m) b) W) as (m2 & E2 & W' & D & C & P' & LL); [lia|].
    rewrite E2 in EM. injection EM as ->. unfold meta_getlen, meta_getfree in *.
    replace (meta_cap m - mlast m - zlen (ztake (meta_cap m - mlast m) b)) with (meta_cap m' - mlast m') in E by lia.
    pose proof (IH m' W') as I'. unfold meta_getlen, meta_getfree in I'. rewrite P' in I'. specialize (I' P ltac:(lia) E). pose proof (bytes_nonneg r). lia.
Qed.
Lemma response_wait_bytes qlen ds : 0 <= qlen <= 257 -> dns_response qlen (received 1500 ds) = Ok DWait -> bytes ds < 16 + qlen.
Proof.
  intros Q E. unfold dns_response in E. apply bind_ok in E as ([d|m] & EC & E).
  - injection E as ->. destruct (meta_new_wf 1500) as (W0 & C0 & D0); [lia|].
    assert (F0 : meta_getfree (meta_new 1500) = 1500) by (unfold meta_getfree; rewrite C0; reflexivity).
    rewrite <- F0 in EC. apply wait_bytes in EC; auto; try (rewrite ?F0; change (mlast (meta_new 1500)) with 0; lia).
    change (meta_getlen (meta_new 1500)) with 0 in EC. lia.
  - apply bind_ok in E as (qd & _ & E). apply bind_ok in E as (an & _ & E).
    destruct (qd <? 1); [discriminate|]. destruct (an <? 1); [discriminate|].
    apply bind_ok in E as ([a|] & _ & E); discriminate.
Qed.

(** what stays true: the query is split into what left and what is to be sent; the timer runs;
    as long as the lookup waits the bytes that arrived are fewer than the query has; [w] bounds
    how often the timer was armed while sending *)
Record inv (pkt : list Z) (t0 w : Z) (s : lk) : Prop := Inv {
  v_pkt : List.concat (k_left s) ++ k_pend s = pkt;
  v_len : zlen pkt = 16 + k_qlen s;
  v_q : 0 <= k_qlen s <= 257;
  v_at : k_out s = None -> exists d, k_at s = Some d /\ k_now s < d <= k_now s + dns_tmout;
  v_by : k_out s = None -> k_pend s = [] -> bytes (k_in s) < 16 + k_qlen s;
  v_t : k_out s = None -> forall d, k_at s = Some d -> d <= t0 + dns_tmout * (w + bytes (k_in s)) }.

Lemma recv_inv pkt t0 w s s' :
  List.concat (k_left s) ++ k_pend s = pkt -> zlen pkt = 16 + k_qlen s -> 0 <= k_qlen s <= 257 ->
  k_now s + dns_tmout <= t0 + dns_tmout * (w + bytes (k_in s)) -> k_out s = None ->
  k_recv s = Ok s' -> inv pkt t0 w s' /\ k_in s' = k_in s /\ k_left s' = k_left s /\ k_pend s' = k_pend s.
Proof.
  intros P L Q T N E. unfold k_recv in E. apply bind_ok in E as (d & ED & E). destruct d as [| |a]; injection E as <-; (split; [|repeat split]);
    constructor; cbn [k_arm k_done k_left k_pend k_qlen k_out k_at k_now k_in]; auto; try congruence; try discriminate.
  - intros _. eexists. split; [reflexivity|]. unfold dns_tmout. lia.
  - intros _ _. apply response_wait_bytes; assumption.
Qed.
Lemma send_inv pkt t0 w : forall rs s s',
  List.concat (k_left s) ++ k_pend s = pkt -> zlen pkt = 16 + k_qlen s -> 0 <= k_qlen s <= 257 ->
  k_now s + dns_tmout <= t0 + dns_tmout * (w + bytes (k_in s)) -> k_out s = None ->
  k_send s rs = Ok s' -> inv pkt t0 w s' /\ k_in s' = k_in s.
Proof.
  induction rs as [|r rs IH]; intros s s' P L Q T N E; cbn [k_send] in E; destruct (k_pend s) as [|x y] eqn:PE.
  - rewrite <- PE in P. destruct (recv_inv _ _ _ _ _ P L Q T N E) as (A & B & _). auto.
  - injection E as <-. split; [|reflexivity].
    constructor; cbn [k_arm k_left k_pend k_qlen k_out k_at k_now k_in]; rewrite ?PE; auto.
    + intros _. eexists. split; [reflexivity|]. unfold dns_tmout. lia.
    + discriminate.
    + intros _ d X. injection X as <-. exact T.
  - rewrite <- PE in P. destruct (recv_inv _ _ _ _ _ P L Q T N E) as (A & B & _). auto.
  - rewrite <- PE in *. destruct r as [| |n].
    + injection E as <-. split; [|reflexivity].
      constructor; cbn [k_arm k_left k_pend k_qlen k_out k_at k_now k_in]; rewrite ?PE; auto.
      * rewrite <- PE. exact P.
      * intros _. eexists. split; [reflexivity|]. unfold dns_tmout. lia.
      * discriminate.
      * intros _ d X. injection X as <-. exact T.
    + injection E as <-. split; [|reflexivity].
      constructor; cbn [k_done k_left k_pend k_qlen k_out k_at k_now k_in]; auto; discriminate.
    + apply IH in E; cbn [k_left k_pend k_qlen k_out k_at k_now k_in] in *; auto.
      rewrite concat_app. cbn [List.concat]. rewrite app_nil_r, <- app_assoc. rewrite ztake_zdrop. exact P.
Qed.
Lemma step_inv pkt t0 w s e s' : inv pkt t0 w s -> loud e -> kstep s e = Ok s' -> inv pkt t0 (w + writes [e]) s'.
Proof.
  intros V L E. unfold kstep in E. assert (WP : 0 <= writes [e]) by (destruct e; cbn [writes]; lia). destruct (k_out s) as [o|] eqn:O.
  { injection E as <-. destruct V. constructor; auto; rewrite O; discriminate. }
  destruct (v_at _ _ _ _ V O) as (d & AT & ND). pose proof (v_t _ _ _ _ V O d AT) as TB. pose proof (bytes_nonneg (k_in s)) as BN.
  destruct e as [rs|ds|t]; cbn [writes] in *.
  - destruct (k_pend s) as [|x y] eqn:PE.
    + injection E as <-. destruct V. constructor; auto. intros _ d' X. rewrite AT in X. injection X as <-. unfold dns_tmout in *. lia.
    + apply (send_inv pkt t0 (w + (1 + 0))) in E; [exact (proj1 E)|apply V|apply V|apply V| |exact O]. unfold dns_tmout in *. lia.
  - destruct L as (LN & LF). pose proof (bytes_loud ds LN LF) as B1. cbn [k_pend] in E. destruct (k_pend s) as [|x y] eqn:PE.
    + apply (recv_inv pkt t0 (w + 0)) in E; cbn [k_left k_pend k_qlen k_out k_at k_now k_in] in *; [exact (proj1 E)|rewrite <- PE; apply V|apply V|apply V| |reflexivity].
      rewrite bytes_app. unfold dns_tmout in *. lia.
    + injection E as <-. constructor; cbn [k_left k_pend k_qlen k_out k_at k_now k_in]; try apply V.
      * rewrite <- PE. apply V.
      * intros _. rewrite AT. exists d. split; [reflexivity|lia].
      * discriminate.
      * intros _ d' X. rewrite AT in X. injection X as <-. rewrite bytes_app. unfold dns_tmout in *. lia.
  - cbn [k_at] in E. rewrite AT in E. destruct (Z.leb_spec d t).
    + injection E as <-. constructor; cbn [k_done k_left k_pend k_qlen k_out k_at k_now k_in]; try apply V; discriminate.
    + injection E as <-. constructor; cbn [k_left k_pend k_qlen k_out k_at k_now k_in]; try apply V.
      * intros _. exists d. split; [reflexivity|lia].
      * intros _ P. apply V; assumption.
      * intros _ d' X. injection X as <-. rewrite Z.add_0_r. exact TB.
Qed.
Lemma writes_nonneg es : 0 <= writes es.
Proof. induction es as [|e r IH]; cbn [writes]; [lia|]. destruct e; lia. Qed.
Lemma run_inv pkt t0 : forall es w s s', inv pkt t0 w s -> Forall loud es -> krun s es = Ok s' -> inv pkt t0 (w + writes es) s'.
Proof.
  induction es as [|e r IH]; intros w s s' V L E; cbn [krun] in E.
  - injection E as <-. cbn [writes]. rewrite Z.add_0_r. exact V.
  - inversion L as [|? ? L1 L2]; subst. apply bind_ok in E as (s1 & E1 & E). pose proof (step_inv _ _ _ _ _ _ V L1 E1) as V1.
    pose proof (IH _ _ _ V1 L2 E) as V2. replace (w + writes (e :: r)) with (w + writes [e] + writes r); [exact V2|].
    destruct e; cbn [writes]; lia.
Qed.
Lemma look_inv name t rs es s m q : name_ok name -> dns_packet name = Ok (m, q) -> Forall loud es -> klook name t rs es = Ok s ->
  inv (mdata m) t (1 + writes es) s.
Proof.
  intros NO E L R. destruct (packet_len name NO) as (m1 & q1 & E1 & Q & ML). rewrite E in E1. injection E1 as <- ->.
  unfold klook in R. apply bind_ok in R as (s1 & S & R). unfold k_start in S. rewrite E in S. cbn [bind fst snd] in S.
  eapply run_inv; [|exact L|exact R].
  apply (send_inv (mdata m) t 1) in S; cbn [k_left k_pend k_qlen k_out k_at k_now k_in List.concat app bytes]; [exact (proj1 S)|reflexivity|exact ML|exact Q| |reflexivity].
  unfold dns_tmout. lia.
Qed.

(** *** without the condition on the datagrams: the query leaves at most once *)
Definition sent_of (pkt : list Z) (s : lk) : Prop := List.concat (k_left s) ++ k_pend s = pkt.
Lemma recv_sent pkt s s' : sent_of pkt s -> k_recv s = Ok s' -> sent_of pkt s'.
Proof. unfold sent_of, k_recv. intros P E. apply bind_ok in E as ([| |a] & _ & E); injection E as <-; exact P. Qed.
Lemma send_sent pkt : forall rs s s', sent_of pkt s -> k_send s rs = Ok s' -> sent_of pkt s'.
Proof.
  induction rs as [|r rs IH]; intros s s' P E; cbn [k_send] in E; destruct (k_pend s) as [|x y] eqn:PE;
    try (eapply recv_sent; [exact P|exact E]); try (injection E as <-; exact P).
  rewrite <- PE in E. destruct r as [| |n]; try (injection E as <-; exact P).
  apply IH in E; [exact E|]. unfold sent_of in *. cbn [k_left k_pend]. rewrite concat_app. cbn [List.concat].
  rewrite app_nil_r, <- app_assoc, ztake_zdrop. exact P.
Qed.
Lemma step_sent pkt s e s' : sent_of pkt s -> kstep s e = Ok s' -> sent_of pkt s'.
Proof.
  intros P E. unfold kstep in E. destruct (k_out s); [injection E as <-; exact P|]. destruct e as [rs|ds|t].
  - destruct (k_pend s); [injection E as <-; exact P|]. eapply send_sent; eassumption.
  - cbn [k_pend] in E. destruct (k_pend s) eqn:PE.
    + eapply recv_sent; [|exact E]. unfold sent_of in *. cbn [k_left k_pend]. rewrite <- PE. exact P.
    + injection E as <-. unfold sent_of in *. cbn [k_left k_pend]. rewrite <- PE. exact P.
  - cbn [k_at] in E. destruct (k_at s) as [d|]; [destruct (d <=? t)|]; injection E as <-; exact P.
Qed.
Lemma run_sent pkt : forall es s s', sent_of pkt s -> krun s es = Ok s' -> sent_of pkt s'.
Proof.
  induction es as [|e r IH]; intros s s' P E; cbn [krun] in E; [injection E as <-; exact P|].
  apply bind_ok in E as (s1 & E1 & E). eapply IH; [|exact E]. eapply step_sent; eassumption.
Qed.

(** ** C151 *)
(** In every run, whatever the network does: what was given to the network is, put together,
    a beginning of one query. Nothing is ever sent again. *)
Theorem C151_once : forall name t rs es s m q, dns_packet name = Ok (m, q) ->
  klook name t rs es = Ok s -> prefix (List.concat (k_left s)) (mdata m).
Proof.
  intros name t rs es s m q E R. unfold klook in R. apply bind_ok in R as (s1 & S & R). unfold k_start in S. rewrite E in S. cbn [bind fst snd] in S.
  assert (P : sent_of (mdata m) s). { eapply run_sent; [|exact R]. eapply send_sent; [|exact S]. reflexivity. }
  exists (k_pend s). symmetry. exact P.
Qed.
Print Assumptions C151_once.

(** A waiting lookup has a timer that is due within five seconds; it has heard fewer bytes than
    its query has; and if readiness for reading always means a datagram with contents, it has
    not waited for more than five seconds for each of these bytes, for the start and for each
    time the socket became writable. *)
Theorem C151_ends : forall name t rs es s m q, name_ok name -> dns_packet name = Ok (m, q) -> Forall loud es ->
  klook name t rs es = Ok s -> k_out s = None ->
  (exists d, k_at s = Some d /\ k_now s < d <= k_now s + 5000) /\
  (k_pend s = [] -> bytes (k_in s) < zlen (mdata m)) /\
  k_now s < t + 5000 * (1 + writes es + bytes (k_in s)).
Proof.
  intros name t rs es s m q NO E L R O. pose proof (look_inv _ _ _ _ _ _ _ NO E L R) as V.
  destruct (v_at _ _ _ _ V O) as (d & AT & ND). split; [exists d; auto|]. split.
  - intros P. rewrite (v_len _ _ _ _ V). apply (v_by _ _ _ _ V O P).
  - pose proof (v_t _ _ _ _ V O d AT). unfold dns_tmout in *. lia.
Qed.
Print Assumptions C151_ends.

(** The timer decides when it is due. *)
Theorem C151_timer : forall name t rs es s d t', klook name t rs es = Ok s -> k_out s = None -> k_at s = Some d -> d <= t' ->
  exists s', klook name t rs (es ++ [KTick t']) = Ok s' /\ k_out s' = Some None /\ k_left s' = k_left s.
Proof.
  intros name t rs es s d t' R O A G. unfold klook in *. apply bind_ok in R as (s1 & S & R). rewrite S. cbn [bind].
  assert (X : forall es s1, krun s1 es = Ok s -> krun s1 (es ++ [KTick t']) = kstep s (KTick t')).
  { clear - O. induction es as [|e r IH]; intros s1 R; cbn [krun app] in *.
    - injection R as ->. destruct (kstep s (KTick t')); reflexivity.
    - destruct (kstep s1 e); cbn [bind] in *; try discriminate. apply IH, R. }
  rewrite (X _ _ R). unfold kstep. rewrite O. cbn [k_at]. rewrite A. destruct (Z.leb_spec d t'); [|lia].
  eexists. split; [reflexivity|]. split; reflexivity.
Qed.
Print Assumptions C151_timer.

Lemma start_whole name t m q n : name_ok name -> dns_packet name = Ok (m, q) -> 1500 <= n ->
  k_start name t [STook n] = Ok (Lk q [] [mdata m] [] t (Some (t + dns_tmout)) None).
Proof.
  intros NO E N. destruct (packet_len name NO) as (m1 & q1 & E1 & Q & ML). rewrite E in E1. injection E1 as <- ->.
  unfold k_start. rewrite E. cbn [bind fst snd]. destruct (mdata m) as [|x y] eqn:D; [change (zlen (@nil Z)) with 0 in ML; lia|].
  cbn [k_send k_pend k_qlen k_left k_in k_now k_at k_out]. rewrite <- D in *.
  replace (Z.max 1 (Z.min n (zlen (mdata m)))) with (zlen (mdata m)) by lia.
  rewrite zdrop_all, ztake_all by lia. cbn [app k_send k_pend]. unfold k_recv. cbn [k_qlen k_in received]. unfold dns_response.
  cbn [dns_collect]. change (meta_getlen (meta_new 1500)) with 0. destruct (Z.leb_spec (12 + zlen q1 + 4) 0); [lia|]. reflexivity.
Qed.

(** Found false for every name: when the query or the reply is lost, the lookup fails after five
    seconds, having asked once. *)
Theorem C151_refuted : forall name m q t n t', name_ok name -> dns_packet name = Ok (m, q) -> 1500 <= n -> t + 5000 <= t' ->
  exists s, klook name t [STook n] [KTick t'] = Ok s /\ k_in s = [] /\ k_out s = Some None /\ k_left s = [mdata m].
Proof.
  intros name m q t n t' NO E N T. unfold klook. rewrite (start_whole name t m q n NO E N). cbn [bind krun]. unfold kstep.
  cbn [k_out k_at]. unfold dns_tmout. destruct (Z.leb_spec (t + 5000) t'); [|lia]. cbn [bind]. eexists. split; [reflexivity|]. repeat split.
Qed.
Print Assumptions C151_refuted.

(** What holds: if the query leaves at once and the first datagram comes within five seconds and
    is at least as long as the query, its contents decide the lookup. *)
Theorem C151_partial : forall name m q t n ts who b ds d s, name_ok name -> dns_packet name = Ok (m, q) -> 1500 <= n ->
  Forall (fun t' => t' < t + 5000) ts -> zlen (mdata m) <= zlen b ->
  dns_response q [RxData (ztake 1500 b)] = Ok d ->
  klook name t [STook n] (map KTick ts ++ [KRead ((who, b) :: ds)]) = Ok s ->
  k_out s = Some (match d with DAnswer a => Some a | _ => None end) /\ k_left s = [mdata m].
Proof.
  intros name m q t n ts who b ds d s NO E N TS LB D R. unfold klook in R. rewrite (start_whole name t m q n NO E N) in R. cbn [bind] in R.
  destruct (packet_len name NO) as (m1 & q1 & E1 & Q & ML). rewrite E in E1. injection E1 as <- ->.
  assert (X : forall ts now, Forall (fun t' => t' < t + 5000) ts ->
    exists now', krun (Lk (zlen q1) [] [mdata m] [] now (Some (t + dns_tmout)) None) (map KTick ts ++ [KRead ((who, b) :: ds)]) =
      (let* s := kstep (Lk (zlen q1) [] [mdata m] [] now' (Some (t + dns_tmout)) None) (KRead ((who, b) :: ds)) in Ok s)).
  { clear. intros ts. induction ts as [|t' ts IH]; intros now F; cbn [map app krun].
    - exists now. reflexivity.
    - inversion F; subst. unfold kstep at 1. cbn [k_out k_at k_qlen k_pend k_left k_in k_now]. 
      destruct (Z.leb_spec (t + dns_tmout) t'); [unfold dns_tmout in *; lia|]. cbn [bind]. apply IH. assumption. }
  destruct (X ts t TS) as (now' & Y). rewrite Y in R. clear X Y. unfold kstep in R. cbn [k_out k_pend k_qlen k_left k_in k_now k_at app] in R.
  unfold k_recv in R. cbn [k_qlen k_in] in R.
  assert (TL : 16 + zlen q1 <= zlen (ztake 1500 b) <= 1500) by (rewrite zlen_ztake by lia; lia).
  rewrite received_cons in R by (intros Z0; rewrite Z0 in TL; change (zlen (@nil Z)) with 0 in TL; lia).
  rewrite (response_first _ _ _ [] Q TL), D in R. cbn [bind] in R. destruct d as [| |a].
  - exfalso. assert (W : bytes [(0, ztake 1500 b)] < 16 + zlen q1).
    { apply response_wait_bytes; [lia|]. rewrite received_cons; rewrite (ztake_all _ (ztake 1500 b)) by lia; [rewrite (response_first _ _ _ [] Q TL); exact D|].
      intros Z0. rewrite Z0 in TL. change (zlen (@nil Z)) with 0 in TL. lia. }
    cbn [bytes snd] in W. lia.
  - injection R as <-. split; reflexivity.
  - injection R as <-. split; reflexivity.
Qed.
Print Assumptions C151_partial.

(** *** Examples *)
Definition lost_name : list Z := str "example.com".
Definition lost_m : meta * Z := match dns_packet lost_name with Ok p => p | _ => (meta_new 1, 0) end.
Example ex_C151 : name_ok lost_name /\ dns_packet lost_name = Ok lost_m /\
  (exists s, klook lost_name 100 [STook 1500] [KTick 600; KRead [(7, forged 13 [192; 0; 2; 1] 60)]] = Ok s /\
     k_out s = Some (Some (mkAnswer [192; 0; 2; 1] 60 4)) /\ k_left s = [mdata (fst lost_m)]) /\
  (exists s, klook lost_name 100 [STook 20; SAgain] [KTick 600; KWrite [STook 9]; KTick 5500; KRead [(7, [1; 2])]; KTick 10400] = Ok s /\
     k_out s = None /\ k_at s = Some 10500 /\ k_left s = [ztake 20 (mdata (fst lost_m)); zdrop 20 (mdata (fst lost_m))]).
Proof.
  split; [split; [vm_compute; split; discriminate|repeat constructor; discriminate]|]. split; [vm_compute; reflexivity|].
  split; eexists; (split; [vm_compute; reflexivity|]); repeat split; vm_compute; reflexivity.
Qed.
Theorem C151_property_refuted : ~ C151_property.
Proof.
  intros P. destruct ex_C151 as (NO & E & _).
  destruct lost_m as (m, q). destruct (C151_refuted lost_name m q 0 1500 5000 NO E) as (s & R & I0 & O & LF); [lia|lia|].
  specialize (P lost_name 0 [STook 1500] [KTick 5000] s NO). rewrite LF in P.
  assert (X : 2 <= zlen [mdata m]); [|change (zlen [mdata m]) with 1 in X; lia].
  apply P; auto. constructor; [exists 1500; split; [reflexivity|lia]|constructor]. constructor; [exact I|constructor].
Qed.
Print Assumptions C151_property_refuted.
