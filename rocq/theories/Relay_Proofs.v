(** * Invariants of the relay *)
From Verif Require Import Base Meta_Model Meta_Proofs S5_Model Relay_Model.

(** ** One direction *)
Definition dwf (pre : list Z) (d : dir) : Prop :=
  meta_wf (d_buf d) /\ 0 < meta_cap (d_buf d) /\ pre ++ d_in d = d_out d ++ mdata (d_buf d).

(** parked: nothing of this direction is running *)
Definition waits_read (d : dir) : Prop :=
  d_rcb d = true /\ d_wcb d = false /\ d_err d = false /\ meta_getlen (d_buf d) = 0 /\ 0 < meta_getfree (d_buf d).
Definition waits_write (d : dir) : Prop :=
  d_rcb d = false /\ d_wcb d = true /\ 0 < meta_getlen (d_buf d).
Definition parked (d : dir) : Prop := waits_read d \/ waits_write d.

Definition rinv (pre_dn pre_up : list Z) (r : relay) : Prop :=
  let pre b := if b : bool then pre_dn else pre_up in
  (forall b, dwf (pre b) (get r b)) /\
  match r_pc r with
  | PIdle => forall b, parked (get r b)
  | PRecv b => d_rcb (get r b) = true /\ d_wcb (get r b) = false /\ d_err (get r b) = false /\
               0 < meta_getfree (d_buf (get r b)) /\ parked (get r (negb b))
  | PSend b => waits_write (get r b) /\ parked (get r (negb b))
  | PDead (DClosed b) => d_err (get r b) = true /\ meta_getlen (d_buf (get r b)) = 0 /\ parked (get r (negb b))
  | PDead _ => True
  end.

Lemma get_put_same r b d p : get (put r b d p) b = d.
Proof. destruct b; reflexivity. Qed.
Lemma get_put_other r b d p : get (put r b d p) (negb b) = get r (negb b).
Proof. destruct b; reflexivity. Qed.
Lemma pc_put r b d p : r_pc (put r b d p) = p.
Proof. destruct b; reflexivity. Qed.
Lemma get_with_pc r p b : get (with_pc r p) b = get r b.
Proof. destruct b; reflexivity. Qed.

Lemma all_dirs (P : bool -> Prop) b : P b -> P (negb b) -> forall b', P b'.
Proof. destruct b; intros ? ? []; assumption. Qed.

Ltac both b := match goal with |- forall x, @?P x => apply (all_dirs P b) end; cbv beta.

Lemma rinv_put pd pu r (b : bool) d p :
  dwf (if b then pd else pu) d ->
  dwf (if negb b then pd else pu) (get r (negb b)) ->
  (match p with
   | PIdle => parked d /\ parked (get r (negb b))
   | PRecv b' => b' = b /\ d_rcb d = true /\ d_wcb d = false /\ d_err d = false /\
                 0 < meta_getfree (d_buf d) /\ parked (get r (negb b))
   | PSend b' => b' = b /\ waits_write d /\ parked (get r (negb b))
   | PDead (DClosed b') => b' = b /\ d_err d = true /\ meta_getlen (d_buf d) = 0 /\ parked (get r (negb b))
   | PDead _ => True
   end) -> rinv pd pu (put r b d p).
Proof.
  intros D O P. split.
  - both b; [rewrite get_put_same|rewrite get_put_other]; assumption.
  - rewrite pc_put. destruct p as [|b'|b'|[b'|b'|]].
    + both b; [rewrite get_put_same|rewrite get_put_other]; apply P.
    + destruct P as (-> & P). rewrite get_put_same, get_put_other. exact P.
    + destruct P as (-> & P). rewrite get_put_same, get_put_other. exact P.
    + destruct P as (-> & P). rewrite get_put_same, get_put_other. exact P.
    + exact P.
    + exact P.
Qed.

Lemma after_recv_inv pd pu r (b : bool) d :
  dwf (if b then pd else pu) d ->
  dwf (if negb b then pd else pu) (get r (negb b)) -> parked (get r (negb b)) ->
  d_rcb d = true -> d_wcb d = false ->
  (0 < meta_getlen (d_buf d) \/ 0 < meta_getfree (d_buf d)) ->
  rinv pd pu (after_recv r b d).
Proof.
  intros D O P R W L. unfold after_recv. destruct D as (WF & C & E).
  destruct (Z.ltb_spec 0 (meta_getlen (d_buf d))).
  - apply rinv_put; [split; [exact WF|split; assumption]|exact O|].
    split; [reflexivity|]. split; [|exact P]. split; [reflexivity|]. split; [reflexivity|]. assumption.
  - assert (meta_getlen (d_buf d) = 0) as Z0.
    { destruct WF as (? & ?). unfold meta_getlen in *. lia. }
    destruct (d_err d) eqn:Er.
    + apply rinv_put; [split; [exact WF|split; assumption]|exact O|]. auto.
    + apply rinv_put; [split; [exact WF|split; assumption]|exact O|]. split; [|exact P].
      left. split; [exact R|]. split; [exact W|]. split; [exact Er|]. split; [exact Z0|]. lia.
Qed.

Lemma recv_loop_inv pd pu r (b : bool) d :
  dwf (if b then pd else pu) d ->
  dwf (if negb b then pd else pu) (get r (negb b)) -> parked (get r (negb b)) ->
  d_rcb d = true -> d_wcb d = false -> d_err d = false ->
  (0 < meta_getlen (d_buf d) \/ 0 < meta_getfree (d_buf d)) ->
  rinv pd pu (recv_loop r b d).
Proof.
  intros D O P R W E L. unfold recv_loop. destruct (Z.ltb_spec 0 (meta_getfree (d_buf d))).
  - apply rinv_put; [exact D|exact O|]. auto 7.
  - apply after_recv_inv; assumption.
Qed.

Lemma meta_clr_cap m : meta_cap (meta_clr m) = meta_cap m.
Proof. reflexivity. Qed.

Lemma mdata_nil m : meta_wf m -> meta_getlen m = 0 -> mdata m = [].
Proof. intros W L. apply zlen_0_nil. rewrite mdata_len by exact W. exact L. Qed.

Lemma after_send_inv pd pu r (b : bool) d :
  dwf (if b then pd else pu) d ->
  dwf (if negb b then pd else pu) (get r (negb b)) -> parked (get r (negb b)) ->
  meta_getlen (d_buf d) = 0 ->
  rinv pd pu (after_send r b d).
Proof.
  intros D O P L. unfold after_send. destruct (d_err d) eqn:E.
  - apply rinv_put; auto.
  - destruct D as (WF & C & EQ). destruct (meta_clr_wf _ WF) as (WF' & MD).
    apply recv_loop_inv; simpl; auto.
    + split; [exact WF'|]. split; [exact C|]. simpl. rewrite MD. rewrite (mdata_nil _ WF L) in EQ. exact EQ.
    + right. unfold meta_getfree. rewrite meta_clr_cap. simpl. lia.
Qed.

Lemma send_loop_inv pd pu r (b : bool) d :
  dwf (if b then pd else pu) d ->
  dwf (if negb b then pd else pu) (get r (negb b)) -> parked (get r (negb b)) ->
  d_rcb d = false -> d_wcb d = true ->
  rinv pd pu (send_loop r b d).
Proof.
  intros D O P R W. unfold send_loop. destruct (Z.ltb_spec 0 (meta_getlen (d_buf d))) as [L|L].
  - apply rinv_put; auto. split; [reflexivity|]. split; [|exact P]. split; [exact R|]. split; [exact W|exact L].
  - apply after_send_inv; auto. destruct D as (((? & ?) & ?) & _). unfold meta_getlen in *. lia.
Qed.

(** ** Every step keeps the invariant and raises no fault *)
Lemma relay_step_inv pd pu r i : rinv pd pu r -> r_enabled r i ->
  exists r', relay_step r i = Ok r' /\ rinv pd pu r'.
Proof.
  intros (D & PC) EN. unfold r_enabled in EN. unfold relay_step.
  destruct (r_pc r) as [|b|b|why] eqn:Epc; destruct i as [x|x|b'|b'|]; try contradiction.
  - pose proof (PC b') as K.
    destruct (d_rcb (get r b')) eqn:R.
    + eexists. split; [reflexivity|]. destruct K as [K|K]; [|destruct K; congruence].
      destruct K as (K1 & K2 & K3 & K4 & K5). apply recv_loop_inv; auto.
    + eexists. split; [reflexivity|]. split; [exact D|]. rewrite Epc. exact PC.
  - pose proof (PC b') as K.
    destruct (d_wcb (get r b')) eqn:W.
    + eexists. split; [reflexivity|]. destruct K as [K|K]; [destruct K as (?&?&?); congruence|].
      destruct K as (K1 & K2 & K3). apply send_loop_inv; auto.
    + eexists. split; [reflexivity|]. split; [exact D|]. rewrite Epc. exact PC.
  - eexists. split; [reflexivity|]. split; [intros b; rewrite get_with_pc; apply D|exact I].
  - destruct PC as (R & W & E & F & P). destruct (Z.ltb_spec (meta_getfree (d_buf (get r b))) 1); [lia|].
    pose proof (D b) as (WF & C & EQ).
    destruct x as [bs| |].
    + destruct EN as (NE & BY & LE). destruct (meta_store_ok _ bs WF LE) as (m' & S1 & S2 & S3 & S4 & S5 & S6).
      rewrite S1. simpl. eexists. split; [reflexivity|].
      apply recv_loop_inv; simpl; auto.
      * split; [exact S2|]. simpl. split; [rewrite S4; exact C|]. rewrite S3, !app_assoc, EQ. reflexivity.
      * left. unfold meta_getlen. rewrite S5, S6. destruct WF as (? & _).
        destruct bs as [|z bs]; [congruence|]. rewrite zlen_cons. pose proof (zlen_nonneg bs). lia.
    + eexists. split; [reflexivity|]. apply after_recv_inv; auto.
    + eexists. split; [reflexivity|]. apply after_recv_inv; simpl; auto; apply (D b).
  - destruct PC as ((R & W & L) & P). destruct (Z.ltb_spec (meta_getlen (d_buf (get r b))) 1); [lia|].
    pose proof (D b) as (WF & C & EQ).
    destruct x as [n| |].
    + destruct (meta_consume_ok _ n WF EN) as (WF' & MD).
      eexists. split; [reflexivity|]. apply send_loop_inv; simpl; auto.
      split; [exact WF'|]. simpl. split; [exact C|]. rewrite MD, <- app_assoc, ztake_zdrop. exact EQ.
    + eexists. split; [reflexivity|]. split; [intros b'; rewrite get_with_pc; apply D|].
      simpl. both b; rewrite get_with_pc; [right; split; [exact R|split; assumption]|exact P].
    + eexists. split; [reflexivity|]. split; [intros b'; rewrite get_with_pc; apply D|exact I].
Qed.

Lemma relay_run_inv pd pu : forall is r, rinv pd pu r -> r_valid r is ->
  exists r', relay_run r is = Ok r' /\ rinv pd pu r'.
Proof.
  induction is as [|i l IH]; intros r I V; simpl.
  - eauto.
  - destruct V as (EN & V). destruct (relay_step_inv _ _ _ _ I EN) as (r1 & E & I1).
    rewrite E. simpl. apply IH; auto.
Qed.

Definition handover_ok (m : meta) : Prop :=
  meta_wf m /\ 0 < meta_cap m /\ (0 < meta_getlen m \/ 0 < meta_getfree m).

Lemma relay_init_inv m cap : handover_ok m -> 0 < cap -> rinv (mdata m) [] (relay_init m cap).
Proof.
  intros (WF & C & L) HC. unfold relay_init.
  destruct (meta_new_wf cap) as (W2 & C2 & D2); [lia|].
  apply recv_loop_inv; simpl; auto.
  - split; [exact WF|]. split; [exact C|]. simpl. rewrite app_nil_r. reflexivity.
  - split; [exact W2|]. simpl. rewrite C2, D2. split; [lia|reflexivity].
  - left. split; [reflexivity|]. split; [reflexivity|]. split; [reflexivity|].
    split; [reflexivity|]. unfold meta_getfree. simpl d_buf. rewrite C2. simpl. lia.
Qed.

(** ** The capacity of the buffers never changes *)
Lemma cap_step r i r' : relay_step r i = Ok r' -> forall b, meta_cap (d_buf (get r' b)) = meta_cap (d_buf (get r b)).
Proof.
  assert (PUT : forall r b d p, meta_cap (d_buf d) = meta_cap (d_buf (get r b)) ->
     forall b', meta_cap (d_buf (get (put r b d p) b')) = meta_cap (d_buf (get r b'))).
  { intros r0 b d p E. both b; [rewrite get_put_same; exact E|rewrite get_put_other; reflexivity]. }
  assert (AR : forall r b d, meta_cap (d_buf d) = meta_cap (d_buf (get r b)) ->
     forall b', meta_cap (d_buf (get (after_recv r b d) b')) = meta_cap (d_buf (get r b'))).
  { intros. unfold after_recv. destruct (_ <? _); [|destruct (d_err d)]; apply PUT; assumption. }
  assert (RL : forall r b d, meta_cap (d_buf d) = meta_cap (d_buf (get r b)) ->
     forall b', meta_cap (d_buf (get (recv_loop r b d) b')) = meta_cap (d_buf (get r b'))).
  { intros. unfold recv_loop. destruct (_ <? _); [apply PUT|apply AR]; assumption. }
  assert (SL : forall r b d, meta_cap (d_buf d) = meta_cap (d_buf (get r b)) ->
     forall b', meta_cap (d_buf (get (send_loop r b d) b')) = meta_cap (d_buf (get r b'))).
  { intros. unfold send_loop, after_send. destruct (_ <? _); [apply PUT; assumption|].
    destruct (d_err d); [apply PUT; assumption|apply RL; assumption]. }
  unfold relay_step. intros E b. 
  destruct (r_pc r) as [|b1|b1|why]; destruct i as [x|x|b'|b'|];
    try (injection E as <-; reflexivity).
  - destruct (d_rcb (get r b')); injection E as <-; [apply RL|]; reflexivity.
  - destruct (d_wcb (get r b')); injection E as <-; [apply SL|]; reflexivity.
  - destruct (_ <? 1); [discriminate|]. destruct x as [bs| |].
    + apply bind_ok in E as (m & E1 & E). injection E as <-. apply RL. simpl.
      unfold meta_store in E1. apply bind_ok in E1 as (bb & E1 & E2). injection E2 as <-.
      unfold meta_cap. simpl. unfold of_opt in E1. destruct (zput _ _ bs) eqn:Z; [|discriminate].
      injection E1 as <-. eapply zput_len; eauto.
    + injection E as <-. apply AR. reflexivity.
    + injection E as <-. apply AR. reflexivity.
  - destruct (_ <? 1); [discriminate|]. destruct x as [n| |]; injection E as <-; try (rewrite get_with_pc; reflexivity).
    apply SL. reflexivity.
Qed.
Lemma cap_run : forall is r r', relay_run r is = Ok r' -> forall b, meta_cap (d_buf (get r' b)) = meta_cap (d_buf (get r b)).
Proof.
  induction is as [|i l IH]; intros r r' E b; simpl in E.
  - injection E as <-. reflexivity.
  - apply bind_ok in E as (r1 & E1 & E2). rewrite (IH _ _ E2 b). apply (cap_step _ _ _ E1).
Qed.

(** ** With sockets *)
(** what must hold of a parked direction: no progress possible, or an edge pending *)
Definition covered (d : dir) (k : ksock) : Prop :=
  (waits_read d /\ (k_er k = true \/ (k_avail k = [] /\ k_eof k = false))) \/
  (waits_write d /\ (k_ew k = true \/ k_room k <= 0)).

Definition runs (p : rpc) (b : bool) : Prop := p = PRecv b \/ p = PSend b.
Definition alive (p : rpc) : Prop := forall why, p <> PDead why.

Definition kbytes (w : world) : Prop := bytes (k_avail (w_dn w)) /\ bytes (k_avail (w_up w)).
Definition act_ok (a : wact) : Prop := match a with WArrive _ bs => bytes bs | _ => True end.

Definition winv (pd pu : list Z) (w : world) : Prop :=
  rinv pd pu (w_relay w) /\ kbytes w /\
  (alive (r_pc (w_relay w)) -> forall b, ~ runs (r_pc (w_relay w)) b -> covered (get (w_relay w) b) (kget w b)).

Lemma kget_kput_same w r b k : kget (kput w r b k) b = k.
Proof. destruct b; reflexivity. Qed.
Lemma kget_kput_other w r b k : kget (kput w r b k) (negb b) = kget w (negb b).
Proof. destruct b; reflexivity. Qed.
Lemma relay_kput w r b k : w_relay (kput w r b k) = r.
Proof. destruct b; reflexivity. Qed.
Lemma kbytes_get w : kbytes w <-> forall b, bytes (k_avail (kget w b)).
Proof. split; [intros (?&?) []; assumption|intros H; split; [apply (H true)|apply (H false)]]. Qed.
Lemma kbytes_kput w r b k : kbytes w -> bytes (k_avail k) -> kbytes (kput w r b k).
Proof.
  intros K B. apply kbytes_get. both b.
  - rewrite kget_kput_same. exact B.
  - rewrite kget_kput_other. apply kbytes_get. exact K.
Qed.

(** after activity of direction [b] the other one is untouched *)
Lemma put_other r b d p : get (put r b d p) (negb b) = get r (negb b).
Proof. apply get_put_other. Qed.
Lemma after_recv_other r b d : get (after_recv r b d) (negb b) = get r (negb b).
Proof. unfold after_recv. destruct (_ <? _); [|destruct (d_err d)]; apply put_other. Qed.
Lemma recv_loop_other r b d : get (recv_loop r b d) (negb b) = get r (negb b).
Proof. unfold recv_loop. destruct (_ <? _); [apply put_other|apply after_recv_other]. Qed.
Lemma send_loop_other r b d : get (send_loop r b d) (negb b) = get r (negb b).
Proof.
  unfold send_loop, after_send. destruct (_ <? _); [apply put_other|].
  destruct (d_err d); [apply put_other|apply recv_loop_other].
Qed.

Lemma runs_negb p b : runs p b -> ~ runs p (negb b).
Proof. intros [->| ->] [H|H]; try discriminate; injection H as H; destruct b; discriminate. Qed.

(** pc after the loops: running [b], idle or dead *)
Lemma after_recv_pc r b d : (0 < meta_getlen (d_buf d) -> r_pc (after_recv r b d) = PSend b).
Proof. intros. unfold after_recv. destruct (Z.ltb_spec 0 (meta_getlen (d_buf d))); [|lia]. apply pc_put. Qed.

Definition live_next (p : rpc) (b : bool) : Prop := runs p b \/ exists why, p = PDead why.

Lemma recv_loop_next r b d : 0 < meta_getlen (d_buf d) \/ 0 < meta_getfree (d_buf d) -> live_next (r_pc (recv_loop r b d)) b.
Proof.
  intros L. unfold recv_loop. destruct (Z.ltb_spec 0 (meta_getfree (d_buf d))).
  - rewrite pc_put. left; left; reflexivity.
  - rewrite after_recv_pc by lia. left; right; reflexivity.
Qed.
Lemma send_loop_next r b d : 0 < meta_cap (d_buf d) -> live_next (r_pc (send_loop r b d)) b.
Proof.
  intros C. unfold send_loop, after_send. destruct (_ <? _); [rewrite pc_put; left; right; reflexivity|].
  destruct (d_err d); [rewrite pc_put; right; eauto|]. apply recv_loop_next. right.
  unfold meta_getfree. simpl. unfold meta_cap in *. simpl. lia.
Qed.

(** general step of the world: direction [b] takes a relay step and then runs or is dead *)
Lemma winv_run pd pu w r' b k' :
  winv pd pu w -> alive (r_pc (w_relay w)) -> ~ runs (r_pc (w_relay w)) (negb b) ->
  rinv pd pu r' -> get r' (negb b) = get (w_relay w) (negb b) ->
  bytes (k_avail k') ->
  (live_next (r_pc r') b \/ covered (get r' b) k') ->
  winv pd pu (kput w r' b k').
Proof.
  intros (I & KB & CO) AL NR I' OT B' LN. split; [rewrite relay_kput; exact I'|].
  split; [apply kbytes_kput; assumption|].
  rewrite relay_kput. intros AL'.
  both b.
  - intros NR'. rewrite kget_kput_same. destruct LN as [[LN|(why & LN)]|LN]; [contradiction|exfalso; apply (AL' why); exact LN|exact LN].
  - intros NR'. rewrite kget_kput_other, OT. apply CO; assumption.
Qed.

Lemma covered_kernel d k k' : covered d k ->
  (k_er k' = true \/ (k_avail k' = k_avail k /\ k_eof k' = k_eof k /\ k_er k' = k_er k)) ->
  (k_ew k' = true \/ (k_room k' = k_room k /\ k_ew k' = k_ew k)) -> covered d k'.
Proof.
  intros C E W. destruct C as [(A & C)|(A & C)].
  - left. split; [exact A|]. destruct E as [E|(E1 & E2 & E3)]; [auto|]. rewrite E1, E2, E3. exact C.
  - right. split; [exact A|]. destruct W as [W|(W1 & W2)]; [auto|]. rewrite W1, W2. exact C.
Qed.

Lemma winv_kernel pd pu w b k' :
  winv pd pu w -> bytes (k_avail k') ->
  (k_er k' = true \/ (k_avail k' = k_avail (kget w b) /\ k_eof k' = k_eof (kget w b) /\ k_er k' = k_er (kget w b))) ->
  (k_ew k' = true \/ (k_room k' = k_room (kget w b) /\ k_ew k' = k_ew (kget w b))) ->
  winv pd pu (kput w (w_relay w) b k').
Proof.
  intros (I & KB & CO) B E W. split; [rewrite relay_kput; exact I|].
  split; [apply kbytes_kput; assumption|]. rewrite relay_kput. intros AL.
  both b.
  - intros NR. rewrite kget_kput_same. eapply covered_kernel; [apply CO; assumption|exact E|exact W].
  - intros NR. rewrite kget_kput_other. apply CO; assumption.
Qed.

Lemma winv_dead pd pu r' k1 k2 : kbytes (mkW r' k1 k2) -> rinv pd pu r' -> (exists why, r_pc r' = PDead why) ->
  winv pd pu (mkW r' k1 k2).
Proof.
  intros KB I (why & E). split; [exact I|]. split; [exact KB|].
  intros AL. exfalso. apply (AL why). exact E.
Qed.

Lemma parked_len d : parked d -> 0 < meta_getlen (d_buf d) \/ 0 < meta_getfree (d_buf d).
Proof. intros [(?&?&?&?&?)|(?&?&?)]; auto. Qed.

Lemma idle_not_run b : ~ runs PIdle b.
Proof. intros [H|H]; discriminate. Qed.
Lemma idle_alive : alive PIdle.
Proof. intros w H; discriminate. Qed.

Lemma idle_read pd pu w b (k' : ksock) : winv pd pu w -> r_pc (w_relay w) = PIdle ->
  k_avail k' = k_avail (kget w b) -> k_room k' = k_room (kget w b) -> k_ew k' = k_ew (kget w b) ->
  exists r', relay_step (w_relay w) (RReadable b) = Ok r' /\ winv pd pu (kput w r' b k').
Proof.
  intros WI PC K1 K2 K3. pose proof WI as (I & KB & CO).
  destruct (relay_step_inv pd pu _ (RReadable b) I) as (r' & E & I').
  { unfold r_enabled. rewrite PC. exact Logic.I. }
  exists r'. split; [exact E|]. unfold relay_step in E. rewrite PC in E.
  pose proof I as (D & PP). rewrite PC in PP.
  assert (bytes (k_avail k')) as BY by (rewrite K1; apply kbytes_get; exact KB).
  rewrite PC in CO.
  destruct (d_rcb (get (w_relay w) b)) eqn:R; injection E as <-.
  - apply (winv_run _ _ _ _ _ _ WI); auto.
    + rewrite PC. apply idle_alive.
    + rewrite PC. apply idle_not_run.
    + apply recv_loop_other.
    + left. apply recv_loop_next. apply parked_len. apply PP.
  - apply (winv_run _ _ _ _ _ _ WI); auto.
    + rewrite PC. apply idle_alive.
    + rewrite PC. apply idle_not_run.
    + right. destruct (CO idle_alive b (idle_not_run b)) as [((A&_)&_)|(A & C)]; [congruence|].
      right. split; [exact A|]. rewrite K2, K3. exact C.
Qed.

Lemma idle_write pd pu w b (k' : ksock) : winv pd pu w -> r_pc (w_relay w) = PIdle ->
  k_avail k' = k_avail (kget w b) -> k_eof k' = k_eof (kget w b) -> k_er k' = k_er (kget w b) ->
  exists r', relay_step (w_relay w) (RWritable b) = Ok r' /\ winv pd pu (kput w r' b k').
Proof.
  intros WI PC K1 K2 K3. pose proof WI as (I & KB & CO).
  destruct (relay_step_inv pd pu _ (RWritable b) I) as (r' & E & I').
  { unfold r_enabled. rewrite PC. exact Logic.I. }
  exists r'. split; [exact E|]. unfold relay_step in E. rewrite PC in E.
  pose proof I as (D & PP). rewrite PC in PP.
  assert (bytes (k_avail k')) as BY by (rewrite K1; apply kbytes_get; exact KB).
  rewrite PC in CO.
  destruct (d_wcb (get (w_relay w) b)) eqn:R; injection E as <-.
  - apply (winv_run _ _ _ _ _ _ WI); auto.
    + rewrite PC. apply idle_alive.
    + rewrite PC. apply idle_not_run.
    + apply send_loop_other.
    + left. apply send_loop_next. apply (D b).
  - apply (winv_run _ _ _ _ _ _ WI); auto.
    + rewrite PC. apply idle_alive.
    + rewrite PC. apply idle_not_run.
    + right. destruct (CO idle_alive b (idle_not_run b)) as [(A & C)|((_&A&_)&_)]; [|congruence].
      left. split; [exact A|]. rewrite K1, K2, K3. exact C.
Qed.

Lemma wstep_inv pd pu w a : winv pd pu w -> act_ok a -> exists w', wstep w a = Ok w' /\ winv pd pu w'.
Proof.
  intros WI AO. pose proof WI as (I & KB & CO). destruct a as [b bs|b|b n|b|b|n| |]; simpl.
  - destruct (k_eof (kget w b)) eqn:E; [eauto|]. destruct bs as [|z bs]; [eauto|].
    eexists. split; [reflexivity|]. apply winv_kernel; simpl; auto.
    apply bytes_app. split; [|exact AO]. apply kbytes_get. exact KB.
  - eexists. split; [reflexivity|]. apply winv_kernel; simpl; auto. apply kbytes_get. exact KB.
  - destruct (0 <? n); [|eauto]. eexists. split; [reflexivity|]. apply winv_kernel; simpl; auto.
    apply kbytes_get. exact KB.
  - destruct (r_pc (w_relay w)) eqn:PC; try (eauto; fail).
    destruct (k_er (kget w b)); [|eauto].
    destruct (idle_read pd pu w b (mkK (k_avail (kget w b)) (k_eof (kget w b)) (k_room (kget w b)) false (k_ew (kget w b))) WI PC)
      as (r' & E & W'); try reflexivity.
    rewrite E. simpl. eauto.
  - destruct (r_pc (w_relay w)) eqn:PC; try (eauto; fail).
    destruct (k_ew (kget w b)); [|eauto].
    destruct (idle_write pd pu w b (mkK (k_avail (kget w b)) (k_eof (kget w b)) (k_room (kget w b)) (k_er (kget w b)) false) WI PC)
      as (r' & E & W'); try reflexivity.
    rewrite E. simpl. eauto.
  - destruct (r_pc (w_relay w)) as [|b|b|why] eqn:PC; try (eauto; fail).
    + (* recv *)
      pose proof I as (D & PP). rewrite PC in PP. destruct PP as (R & W & ER & F & P).
      assert (AL : alive (r_pc (w_relay w))) by (rewrite PC; intros y H; discriminate).
      assert (NR : ~ runs (r_pc (w_relay w)) (negb b)).
      { rewrite PC. apply runs_negb. left; reflexivity. }
      destruct (k_avail (kget w b)) as [|z l] eqn:KA.
      * destruct (relay_step_inv pd pu _ (RRecv (if k_eof (kget w b) then RxErr else RxAgain)) I) as (r' & E & I').
        { unfold r_enabled. rewrite PC. destruct (k_eof (kget w b)); exact Logic.I. }
        rewrite E. simpl. eexists. split; [reflexivity|].
        unfold relay_step in E. rewrite PC in E.
        destruct (Z.ltb_spec (meta_getfree (d_buf (get (w_relay w) b))) 1); [lia|].
        assert (BY : bytes (k_avail (kget w b))) by (apply kbytes_get; exact KB).
        destruct (k_eof (kget w b)) eqn:KE; injection E as <-.
        -- apply (winv_run _ _ _ _ _ _ WI AL NR I' (after_recv_other _ _ _) BY).
           left. unfold after_recv. simpl. destruct (_ <? _); rewrite pc_put; [left; right; reflexivity|right; eauto].
        -- apply (winv_run _ _ _ _ _ _ WI AL NR I' (after_recv_other _ _ _) BY).
           destruct (Z.ltb_spec 0 (meta_getlen (d_buf (get (w_relay w) b)))) as [L|L].
           ++ left. rewrite after_recv_pc by exact L. left; right; reflexivity.
           ++ right. unfold after_recv. destruct (Z.ltb_spec 0 (meta_getlen (d_buf (get (w_relay w) b)))); [lia|].
              rewrite ER, get_put_same. left. split.
              ** split; [exact R|]. split; [exact W|]. split; [exact ER|]. split; [|exact F].
                 destruct (D b) as (((?&?)&?)&_). unfold meta_getlen in *. lia.
              ** right. auto.
      * set (m := Z.max 1 (Z.min n (Z.min (zlen (z :: l)) (meta_getfree (d_buf (get (w_relay w) b)))))).
        assert (M : 1 <= m /\ m <= zlen (z :: l) /\ m <= meta_getfree (d_buf (get (w_relay w) b))).
        { unfold m. rewrite zlen_cons. pose proof (zlen_nonneg l). lia. }
        assert (BY : bytes (z :: l)) by (rewrite <- KA; apply kbytes_get; exact KB).
        assert (BT : bytes (ztake m (z :: l)) /\ bytes (zdrop m (z :: l))).
        { rewrite <- (ztake_zdrop m (z :: l)) in BY. apply bytes_app in BY. exact BY. }
        assert (LT : zlen (ztake m (z :: l)) = m) by (rewrite zlen_ztake by lia; lia).
        destruct (relay_step_inv pd pu _ (RRecv (RxData (ztake m (z :: l)))) I) as (r' & E & I').
        { unfold r_enabled. rewrite PC. simpl. split; [|split; [apply BT|lia]].
          intros N. rewrite N in LT. change (zlen (@nil Z)) with 0 in LT. lia. }
        rewrite E. simpl. eexists. split; [reflexivity|].
        unfold relay_step in E. rewrite PC in E.
        destruct (Z.ltb_spec (meta_getfree (d_buf (get (w_relay w) b))) 1); [lia|].
        apply bind_ok in E as (mm & E1 & E). injection E as <-.
        apply (winv_run _ _ _ _ _ _ WI AL NR I' (recv_loop_other _ _ _)); [apply BT|].
        left. apply recv_loop_next. left. simpl.
        destruct (D b) as (WF & _). destruct (meta_store_ok _ (ztake m (z :: l)) WF) as (m2 & T1 & T2 & T3 & T4 & T5 & T6); [lia|].
        rewrite T1 in E1. injection E1 as <-. unfold meta_getlen. rewrite T5, T6. destruct WF as (?&_). lia.
    + (* send *)
      pose proof I as (D & PP). rewrite PC in PP. destruct PP as ((R & W & L) & P).
      assert (AL : alive (r_pc (w_relay w))) by (rewrite PC; intros y H; discriminate).
      assert (NR : ~ runs (r_pc (w_relay w)) (negb b)).
      { rewrite PC. apply runs_negb. right; reflexivity. }
      assert (BY : bytes (k_avail (kget w b))) by (apply kbytes_get; exact KB).
      destruct (Z.ltb_spec (k_room (kget w b)) 1) as [RM|RM].
      * destruct (relay_step_inv pd pu _ (RSend TxAgain) I) as (r' & E & I').
        { unfold r_enabled. rewrite PC. exact Logic.I. }
        rewrite E. simpl. eexists. split; [reflexivity|].
        unfold relay_step in E. rewrite PC in E.
        destruct (Z.ltb_spec (meta_getlen (d_buf (get (w_relay w) b))) 1); [lia|]. injection E as <-.
        apply (winv_run _ _ _ _ _ _ WI AL NR I'); [apply get_with_pc|exact BY|].
        right. rewrite get_with_pc. right. split; [split; [exact R|split; assumption]|]. right. lia.
      * set (m := Z.max 1 (Z.min n (Z.min (k_room (kget w b)) (meta_getlen (d_buf (get (w_relay w) b)))))).
        assert (M : 1 <= m /\ m <= k_room (kget w b) /\ m <= meta_getlen (d_buf (get (w_relay w) b))) by (unfold m; lia).
        destruct (relay_step_inv pd pu _ (RSend (TxSent m)) I) as (r' & E & I').
        { unfold r_enabled. rewrite PC. simpl. lia. }
        rewrite E. simpl. eexists. split; [reflexivity|].
        unfold relay_step in E. rewrite PC in E.
        destruct (Z.ltb_spec (meta_getlen (d_buf (get (w_relay w) b))) 1); [lia|]. injection E as <-.
        apply (winv_run _ _ _ _ _ _ WI AL NR I' (send_loop_other _ _ _)); [exact BY|].
        left. apply send_loop_next. simpl. apply (D b).
  - destruct (r_pc (w_relay w)) as [|b|b|why] eqn:PC; try (eauto; fail).
    destruct (relay_step_inv pd pu _ (RSend TxErr) I) as (r' & E & I').
    { unfold r_enabled. rewrite PC. exact Logic.I. }
    rewrite E. simpl. eexists. split; [reflexivity|].
    apply winv_dead; [exact KB|exact I'|].
    unfold relay_step in E. rewrite PC in E. destruct (_ <? 1); [discriminate|]. injection E as <-. simpl. eauto.
  - destruct (r_pc (w_relay w)) as [|b|b|why] eqn:PC; try (eauto; fail).
    destruct (relay_step_inv pd pu _ RTimer I) as (r' & E & I').
    { unfold r_enabled. rewrite PC. exact Logic.I. }
    rewrite E. simpl. eexists. split; [reflexivity|].
    apply winv_dead; [exact KB|exact I'|].
    unfold relay_step in E. rewrite PC in E. injection E as <-. simpl. eauto.
Qed.

Lemma wrun_inv pd pu : forall l w, winv pd pu w -> Forall act_ok l -> exists w', wrun w l = Ok w' /\ winv pd pu w'.
Proof.
  induction l as [|a l IH]; intros w WI F; simpl; [eauto|].
  destruct (wstep_inv _ _ _ _ WI (Forall_inv F)) as (w1 & E & W1). rewrite E. simpl.
  apply IH; [exact W1|apply (Forall_inv_tail F)].
Qed.

Lemma winit_inv m cap kd ku : handover_ok m -> 0 < cap -> bytes (k_avail kd) -> bytes (k_avail ku) ->
  winv (mdata m) [] (winit m cap kd ku).
Proof.
  intros H C B1 B2. pose proof (relay_init_inv m cap H C) as I. split; [exact I|].
  split; [split; assumption|]. simpl. intros AL b NR.
  assert (PK : parked (get (relay_init m cap) b)).
  { pose proof I as (D & PP). destruct (r_pc (relay_init m cap)) as [|b'|b'|why].
    - apply PP.
    - destruct PP as (_ & _ & _ & _ & PP). destruct b, b'; try exact PP; exfalso; apply NR; left; reflexivity.
    - destruct PP as (_ & PP). destruct b, b'; try exact PP; exfalso; apply NR; right; reflexivity.
    - exfalso. apply (AL why). reflexivity. }
  destruct PK as [PK|PK]; [left|right]; (split; [exact PK|]); left; destruct b; reflexivity.
Qed.


(** ** Callbacks return: with a fixed kernel state the relay gets back to the event loop *)
Definition measure (w : world) : Z :=
  match r_pc (w_relay w) with
  | PRecv b => 3 * zlen (k_avail (kget w b)) + 2 * meta_getlen (d_buf (get (w_relay w) b)) + 1
  | PSend b => 3 * zlen (k_avail (kget w b)) + 2 * meta_getlen (d_buf (get (w_relay w) b))
  | _ => 0
  end.

Definition resting (p : rpc) : Prop := match p with PIdle | PDead _ => True | _ => False end.

Lemma measure_resting w : resting (r_pc (w_relay w)) -> measure w = 0.
Proof. unfold measure. destruct (r_pc (w_relay w)); simpl; tauto. Qed.

Lemma after_recv_measure w b d k :
  0 <= meta_getlen (d_buf d) ->
  measure (kput w (after_recv (w_relay w) b d) b k) <= 3 * zlen (k_avail k) + 2 * meta_getlen (d_buf d).
Proof.
  intros L. unfold measure. rewrite relay_kput. pose proof (zlen_nonneg (k_avail k)). unfold after_recv.
  destruct (_ <? _); [|destruct (d_err d)]; rewrite pc_put; try lia.
  rewrite kget_kput_same, get_put_same. simpl. lia.
Qed.
Lemma recv_loop_measure w b d k :
  0 <= meta_getlen (d_buf d) ->
  measure (kput w (recv_loop (w_relay w) b d) b k) <= 3 * zlen (k_avail k) + 2 * meta_getlen (d_buf d) + 1.
Proof.
  intros L. unfold recv_loop. destruct (_ <? _).
  - unfold measure. rewrite relay_kput, pc_put, kget_kput_same, get_put_same. lia.
  - pose proof (after_recv_measure w b d k L). lia.
Qed.
Lemma send_loop_measure w b d k :
  0 <= meta_getlen (d_buf d) ->
  measure (kput w (send_loop (w_relay w) b d) b k) <= 3 * zlen (k_avail k) + 2 * meta_getlen (d_buf d) + 1.
Proof.
  intros L. unfold send_loop. destruct (Z.ltb_spec 0 (meta_getlen (d_buf d))).
  - unfold measure. rewrite relay_kput, pc_put, kget_kput_same, get_put_same. lia.
  - unfold after_send. destruct (d_err d).
    + unfold measure. rewrite relay_kput, pc_put. pose proof (zlen_nonneg (k_avail k)). lia.
    + eapply Z.le_trans; [apply recv_loop_measure; simpl; unfold meta_getlen; simpl; lia|].
      unfold meta_getlen in *. cbn [d_buf d_setcb d_setbuf meta_clr mpos mlast]. lia.
Qed.

Lemma wio_decreases pd pu w n w' : winv pd pu w -> ~ resting (r_pc (w_relay w)) ->
  wstep w (WIo n) = Ok w' -> 0 <= measure w' < measure w.
Proof.
  intros WI NR E. destruct (wstep_inv pd pu w (WIo n) WI I) as (w1 & E1 & WI'). rewrite E in E1. injection E1 as <-.
  split.
  - unfold measure. destruct WI' as ((D & _) & _).
    destruct (r_pc (w_relay w')) as [|b|b|why]; try lia;
      destruct (D b) as (((?&?)&?)&_); pose proof (zlen_nonneg (k_avail (kget w' b))); unfold meta_getlen; lia.
  - destruct WI as ((D & PP) & _). simpl in E.
    destruct (r_pc (w_relay w)) as [|b|b|why] eqn:PC; try (exfalso; apply NR; exact I).
    + destruct PP as (R & W & ER & F & P). pose proof (D b) as (WF & _).
      assert (L0 : 0 <= meta_getlen (d_buf (get (w_relay w) b))) by (destruct WF as (?&?); unfold meta_getlen; lia).
      unfold measure at 2. rewrite PC.
      destruct (k_avail (kget w b)) as [|z l] eqn:KA.
      * apply bind_ok in E as (r' & E1 & E). injection E as <-. unfold relay_step in E1. rewrite PC in E1.
        destruct (_ <? 1); [discriminate|].
        destruct (k_eof (kget w b)); injection E1 as <-;
          (eapply Z.le_lt_trans; [apply after_recv_measure; exact L0|]); cbn [d_buf d_seterr]; rewrite ?KA; change (zlen (@nil Z)) with 0; lia.
      * set (m := Z.max 1 (Z.min n (Z.min (zlen (z :: l)) (meta_getfree (d_buf (get (w_relay w) b)))))) in *.
        assert (M : 1 <= m /\ m <= zlen (z :: l) /\ m <= meta_getfree (d_buf (get (w_relay w) b))).
        { unfold m. rewrite zlen_cons. pose proof (zlen_nonneg l). lia. }
        assert (LT : zlen (ztake m (z :: l)) = m) by (rewrite zlen_ztake by lia; lia).
        apply bind_ok in E as (r' & E1 & E). injection E as <-. unfold relay_step in E1. rewrite PC in E1.
        destruct (_ <? 1); [discriminate|]. apply bind_ok in E1 as (mm & E1 & E2). injection E2 as <-.
        destruct (meta_store_ok _ (ztake m (z :: l)) WF) as (m2 & T1 & T2 & T3 & T4 & T5 & T6); [lia|].
        rewrite T1 in E1. injection E1 as <-.
        eapply Z.le_lt_trans; [apply recv_loop_measure; simpl; destruct T2 as (?&?); unfold meta_getlen; lia|].
        cbn [d_buf d_recvd k_avail]. rewrite zlen_zdrop by lia. unfold meta_getlen at 1. rewrite T5, T6. unfold meta_getlen. lia.
    + destruct PP as ((R & W & L) & P). unfold measure at 2. rewrite PC.
      pose proof (zlen_nonneg (k_avail (kget w b))).
      destruct (Z.ltb_spec (k_room (kget w b)) 1) as [RM|RM].
      * apply bind_ok in E as (r' & E1 & E). injection E as <-. unfold relay_step in E1. rewrite PC in E1.
        destruct (_ <? 1); [discriminate|]. injection E1 as <-. unfold measure. rewrite relay_kput. cbn [r_pc with_pc]. lia.
      * set (m := Z.max 1 (Z.min n (Z.min (k_room (kget w b)) (meta_getlen (d_buf (get (w_relay w) b)))))) in *.
        assert (M : 1 <= m /\ m <= meta_getlen (d_buf (get (w_relay w) b))) by (unfold m; lia).
        apply bind_ok in E as (r' & E1 & E). injection E as <-. unfold relay_step in E1. rewrite PC in E1.
        destruct (_ <? 1); [discriminate|]. injection E1 as <-.
        eapply Z.le_lt_trans; [apply send_loop_measure; simpl; unfold meta_getlen, meta_consume in *; simpl; lia|].
        cbn [d_buf d_sent k_avail]. unfold meta_getlen, meta_consume in *; cbn [mpos mlast]. lia.
Qed.

Lemma io_returns pd pu : forall ns w w', winv pd pu w -> measure w <= zlen ns ->
  wrun w (map WIo ns) = Ok w' -> resting (r_pc (w_relay w')).
Proof.
  induction ns as [|n ns IH]; intros w w' WI M E; simpl in E.
  - injection E as <-. change (zlen (@nil Z)) with 0 in M. destruct WI as ((D & PP) & _).
    unfold measure in M. destruct (r_pc (w_relay w)) as [|b|b|why]; simpl; auto; exfalso;
      destruct (D b) as (((?&?)&?)&_); pose proof (zlen_nonneg (k_avail (kget w b))); unfold meta_getlen in *.
    + lia.
    + destruct PP as ((_ & _ & L) & _). unfold meta_getlen in L. lia.
  - apply bind_ok in E as (w1 & E1 & E). destruct (wstep_inv pd pu w (WIo n) WI I) as (w2 & E2 & WI').
    simpl in E1, E2. rewrite E1 in E2. injection E2 as <-.
    destruct (r_pc (w_relay w)) as [|b|b|why] eqn:PC.
    + injection E1 as <-. apply (IH w w'); auto. rewrite measure_resting; [apply zlen_nonneg|]. rewrite PC. exact I.
    + pose proof (wio_decreases pd pu w n w1 WI) as Q. rewrite PC in Q. simpl in Q. rewrite PC in Q.
      specialize (Q (fun x => x) E1). rewrite zlen_cons in M. apply (IH w1 w'); auto. lia.
    + pose proof (wio_decreases pd pu w n w1 WI) as Q. rewrite PC in Q. simpl in Q. rewrite PC in Q.
      specialize (Q (fun x => x) E1). rewrite zlen_cons in M. apply (IH w1 w'); auto. lia.
    + injection E1 as <-. apply (IH w w'); auto. rewrite measure_resting; [apply zlen_nonneg|]. rewrite PC. exact I.
Qed.

(** ** The observable trace *)
Inductive ioev :=
| EvIn (b : bool) (bs : list Z)   (* recv of source [b] returned these bytes *)
| EvInErr (b : bool)              (* recv of source [b] reported close or error *)
| EvOut (b : bool) (bs : list Z)  (* send of direction [b] accepted these bytes *)
| EvOutAgain (b : bool)           (* send of direction [b] would block *)
| EvOutErr (b : bool)
| EvTimer.

Definition observe (r : relay) (i : rin) : list ioev :=
  match r_pc r, i with
  | PRecv b, RRecv (RxData bs) => [EvIn b bs]
  | PRecv b, RRecv RxErr => [EvInErr b]
  | PSend b, RSend (TxSent n) =>
      (* send(fd, meta->pos, meta->last - meta->pos) accepted [n] bytes *)
      [EvOut b (ztake n (zdrop (mpos (d_buf (get r b))) (mbuf (d_buf (get r b)))))]
  | PSend b, RSend TxAgain => [EvOutAgain b]
  | PSend b, RSend TxErr => [EvOutErr b]
  | PIdle, RTimer => [EvTimer]
  | _, _ => []
  end.
Fixpoint trace (r : relay) (is : list rin) : list ioev :=
  match is with
  | [] => []
  | i :: l => observe r i ++ match relay_step r i with Ok r' => trace r' l | _ => [] end
  end.

Fixpoint ins (tr : list ioev) (b : bool) : list Z :=
  match tr with
  | EvIn b' bs :: t => (if Bool.eqb b b' then bs else []) ++ ins t b
  | _ :: t => ins t b
  | [] => []
  end.
Fixpoint outs (tr : list ioev) (b : bool) : list Z :=
  match tr with
  | EvOut b' bs :: t => (if Bool.eqb b b' then bs else []) ++ outs t b
  | _ :: t => outs t b
  | [] => []
  end.

Lemma ins_app t1 t2 b : ins (t1 ++ t2) b = ins t1 b ++ ins t2 b.
Proof. induction t1 as [|[]]; simpl; auto. rewrite <- app_assoc, IHt1. reflexivity. Qed.
Lemma outs_app t1 t2 b : outs (t1 ++ t2) b = outs t1 b ++ outs t2 b.
Proof. induction t1 as [|[]]; simpl; auto. rewrite <- app_assoc, IHt1. reflexivity. Qed.

(** the four helper transitions keep streams and error flag *)
Definition same_streams (r r' : relay) (b : bool) (d : dir) : Prop :=
  d_in (get r' b) = d_in d /\ d_out (get r' b) = d_out d /\ d_err (get r' b) = d_err d.
Lemma put_streams r b d p : same_streams r (put r b d p) b d.
Proof. unfold same_streams. rewrite get_put_same. auto. Qed.
Lemma after_recv_streams r b d : same_streams r (after_recv r b d) b d.
Proof.
  unfold after_recv. destruct (_ <? _); [|destruct (d_err d) eqn:E]; unfold same_streams; rewrite get_put_same; auto.
Qed.
Lemma recv_loop_streams r b d : same_streams r (recv_loop r b d) b d.
Proof. unfold recv_loop. destruct (_ <? _); [apply put_streams|apply after_recv_streams]. Qed.
Lemma send_loop_streams r b d : same_streams r (send_loop r b d) b d.
Proof.
  unfold send_loop, after_send. destruct (_ <? _); [apply put_streams|].
  destruct (d_err d) eqn:E; [unfold same_streams; rewrite get_put_same; auto|].
  destruct (recv_loop_streams r b (d_setcb (d_setbuf d (meta_clr (d_buf d))) true false)) as (A & B & C).
  split; [exact A|]. split; [exact B|exact C].
Qed.

Lemma pc_of_loops r b d :
  (forall b', r_pc (recv_loop r b d) <> PDead (DSendErr b')) /\ r_pc (recv_loop r b d) <> PDead DTimeout /\
  (forall b', r_pc (after_recv r b d) <> PDead (DSendErr b')) /\ r_pc (after_recv r b d) <> PDead DTimeout.
Proof.
  unfold recv_loop, after_recv.
  split; [|split; [|split]]; intros; repeat (destruct (_ <? _)); try destruct (d_err d); rewrite pc_put; discriminate.
Qed.
Lemma pc_of_send r b d :
  (forall b', r_pc (send_loop r b d) <> PDead (DSendErr b')) /\ r_pc (send_loop r b d) <> PDead DTimeout.
Proof.
  unfold send_loop, after_send. destruct (_ <? _); [rewrite pc_put; split; discriminate|].
  destruct (d_err d); [rewrite pc_put; split; discriminate|].
  destruct (pc_of_loops r b (d_setcb (d_setbuf d (meta_clr (d_buf d))) true false)) as (A & B & _). auto.
Qed.

(** what one step does to streams, flags and the reason of death, as seen in the trace *)
Definition step_spec (r r' : relay) (ev : list ioev) : Prop :=
  (forall b, d_in (get r' b) = d_in (get r b) ++ ins ev b) /\
  (forall b, d_out (get r' b) = d_out (get r b) ++ outs ev b) /\
  (forall b, d_err (get r' b) = true -> d_err (get r b) = true \/ In (EvInErr b) ev) /\
  (forall b, r_pc r' = PDead (DSendErr b) -> r_pc r = PDead (DSendErr b) \/ In (EvOutErr b) ev) /\
  (r_pc r' = PDead DTimeout -> r_pc r = PDead DTimeout \/ In EvTimer ev).

Lemma step_spec_refl r : step_spec r r [].
Proof.
  split; [intros; simpl; rewrite app_nil_r; reflexivity|].
  split; [intros; simpl; rewrite app_nil_r; reflexivity|]. auto.
Qed.

Lemma eqb_negb b : Bool.eqb (negb b) b = false.
Proof. destruct b; reflexivity. Qed.

(** a step of direction [b] through one of the loops *)
Lemma step_spec_loop r r' b d ev :
  same_streams r r' b d -> get r' (negb b) = get r (negb b) ->
  (forall b', r_pc r' <> PDead (DSendErr b')) -> r_pc r' <> PDead DTimeout ->
  d_in d = d_in (get r b) ++ ins ev b -> ins ev (negb b) = [] ->
  d_out d = d_out (get r b) ++ outs ev b -> outs ev (negb b) = [] ->
  (d_err d = true -> d_err (get r b) = true \/ In (EvInErr b) ev) ->
  step_spec r r' ev.
Proof.
  intros (A & B & C) O P1 P2 I1 I2 O1 O2 ER.
  split; [|split; [|split; [|split]]].
  - both b; [rewrite A; exact I1|rewrite O, I2, app_nil_r; reflexivity].
  - both b; [rewrite B; exact O1|rewrite O, O2, app_nil_r; reflexivity].
  - both b; [rewrite C; exact ER|rewrite O; auto].
  - intros b' E. exfalso. apply (P1 b' E).
  - intros E. exfalso. apply (P2 E).
Qed.

Lemma relay_step_spec0 r i r' : r_enabled r i ->
  relay_step r i = Ok r' -> step_spec r r' (observe r i).
Proof.
  intros EN E. unfold r_enabled in EN. unfold relay_step in E. unfold observe.
  destruct (r_pc r) as [|b|b|why] eqn:Epc; destruct i as [x|x|b'|b'|]; try contradiction.
  - destruct (d_rcb (get r b')); injection E as <-; [|apply step_spec_refl].
    destruct (pc_of_loops r b' (get r b')) as (P1 & P2 & _).
    eapply step_spec_loop; [apply recv_loop_streams|apply recv_loop_other|exact P1|exact P2|..]; simpl; auto;
      rewrite app_nil_r; reflexivity.
  - destruct (d_wcb (get r b')); injection E as <-; [|apply step_spec_refl].
    destruct (pc_of_send r b' (get r b')) as (P1 & P2).
    eapply step_spec_loop; [apply send_loop_streams|apply send_loop_other|exact P1|exact P2|..]; simpl; auto;
      rewrite app_nil_r; reflexivity.
  - injection E as <-. split; [|split; [|split; [|split]]]; intros; rewrite ?get_with_pc in *; simpl; rewrite ?app_nil_r; auto.
    simpl in H. discriminate.
  - destruct (_ <? 1); [discriminate|]. destruct x as [bs| |].
    + apply bind_ok in E as (m & E1 & E). injection E as <-.
      destruct (pc_of_loops r b (d_recvd (get r b) m bs)) as (P1 & P2 & _).
      eapply step_spec_loop; [apply recv_loop_streams|apply recv_loop_other|exact P1|exact P2|..]; simpl;
        rewrite ?eqb_negb, ?Bool.eqb_reflx, ?app_nil_r; auto.
    + injection E as <-. destruct (pc_of_loops r b (get r b)) as (_ & _ & P1 & P2).
      eapply step_spec_loop; [apply after_recv_streams|apply after_recv_other|exact P1|exact P2|..]; simpl; auto;
      rewrite app_nil_r; reflexivity.
    + injection E as <-. destruct (pc_of_loops r b (d_seterr (get r b))) as (_ & _ & P1 & P2).
      eapply step_spec_loop; [apply after_recv_streams|apply after_recv_other|exact P1|exact P2|..]; simpl; auto;
      rewrite app_nil_r; reflexivity.
  - destruct (_ <? 1); [discriminate|]. destruct x as [n| |]; injection E as <-.
    + destruct (pc_of_send r b (d_sent (get r b) (meta_consume (d_buf (get r b)) n) (ztake n (mdata (d_buf (get r b)))))) as (P1 & P2).
      eapply step_spec_loop; [apply send_loop_streams|apply send_loop_other|exact P1|exact P2|..]; simpl;
        rewrite ?eqb_negb, ?Bool.eqb_reflx, ?app_nil_r; auto.
      f_equal. unfold mdata, zslice. simpl in EN. unfold meta_getlen in EN. rewrite ztake_ztake. f_equal. lia.
    + split; [|split; [|split; [|split]]]; intros; rewrite ?get_with_pc in *; simpl; rewrite ?app_nil_r; auto; simpl in H; discriminate.
    + split; [|split; [|split; [|split]]]; intros; rewrite ?get_with_pc in *; simpl; rewrite ?app_nil_r; auto; simpl in H.
      * injection H as <-. auto.
      * discriminate.
Qed.

Lemma relay_step_spec pd pu r i r' : rinv pd pu r -> r_enabled r i ->
  relay_step r i = Ok r' -> step_spec r r' (observe r i).
Proof. intros _. apply relay_step_spec0. Qed.

Lemma step_spec_trans r1 r2 r3 e1 e2 : step_spec r1 r2 e1 -> step_spec r2 r3 e2 -> step_spec r1 r3 (e1 ++ e2).
Proof.
  intros (A1 & B1 & C1 & D1 & E1) (A2 & B2 & C2 & D2 & E2).
  split; [|split; [|split; [|split]]]; intros.
  - rewrite A2, A1, ins_app, app_assoc. reflexivity.
  - rewrite B2, B1, outs_app, app_assoc. reflexivity.
  - destruct (C2 _ H) as [H1|H1]; [destruct (C1 _ H1)|]; auto; right; apply in_or_app; auto.
  - destruct (D2 _ H) as [H1|H1]; [destruct (D1 _ H1)|]; auto; right; apply in_or_app; auto.
  - destruct (E2 H) as [H1|H1]; [destruct (E1 H1)|]; auto; right; apply in_or_app; auto.
Qed.

Lemma relay_run_spec pd pu : forall is r r', rinv pd pu r -> r_valid r is -> relay_run r is = Ok r' ->
  step_spec r r' (trace r is).
Proof.
  induction is as [|i l IH]; intros r r' I V E; simpl in *.
  - injection E as <-. apply step_spec_refl.
  - destruct V as (EN & V). apply bind_ok in E as (r1 & E1 & E). rewrite E1.
    destruct (relay_step_inv pd pu r i I EN) as (r2 & E2 & I2). rewrite E1 in E2. injection E2 as <-.
    eapply step_spec_trans; [eapply relay_step_spec; eauto|]. apply IH; auto.
Qed.

(** a direction waits for its sink only after a send that would block *)
Definition wcb_why (r : relay) (tr : list ioev) (b : bool) : Prop :=
  d_wcb (get r b) = true ->
  r_pc r = PSend b \/ r_pc r = PDead (DClosed b) \/ r_pc r = PDead (DSendErr b) \/ In (EvOutAgain b) tr.

Lemma wcb_step pd pu r i r' tr : rinv pd pu r -> r_enabled r i -> relay_step r i = Ok r' ->
  (forall b, wcb_why r tr b) -> forall b, wcb_why r' (tr ++ observe r i) b.
Proof.
  intros (D & PC) EN E W. unfold r_enabled in EN. unfold relay_step in E. unfold observe.
  assert (AR : forall b d tr', d_wcb d = false -> wcb_why (after_recv r b d) tr' b).
  { intros b d tr' Q. unfold after_recv, wcb_why. destruct (_ <? _); [|destruct (d_err d)]; rewrite get_put_same, pc_put; simpl; auto; congruence. }
  assert (RL : forall b d tr', d_wcb d = false -> wcb_why (recv_loop r b d) tr' b).
  { intros b d tr' Q. unfold recv_loop. destruct (_ <? _); [|apply AR; exact Q]. unfold wcb_why. rewrite get_put_same, pc_put. congruence. }
  assert (SL : forall b d tr', wcb_why (send_loop r b d) tr' b).
  { intros b d tr'. unfold send_loop, after_send. destruct (_ <? _); [unfold wcb_why; rewrite pc_put; auto|].
    destruct (d_err d); [unfold wcb_why; rewrite pc_put; auto|]. apply RL. reflexivity. }
  assert (OT : forall b r2 tr2, get r2 (negb b) = get r (negb b) ->
     (r_pc r = PIdle \/ r_pc r = PRecv b \/ r_pc r = PSend b) ->
     wcb_why r2 (tr ++ tr2) (negb b)).
  { intros b r2 tr2 O Q H. rewrite O in H. destruct (W (negb b) H) as [K|[K|[K|K]]].
    - exfalso. destruct Q as [Q|[Q|Q]]; rewrite Q in K; try discriminate. injection K as K. destruct b; discriminate.
    - exfalso. destruct Q as [Q|[Q|Q]]; rewrite Q in K; discriminate.
    - exfalso. destruct Q as [Q|[Q|Q]]; rewrite Q in K; discriminate.
    - right; right; right. apply in_or_app. auto. }
  destruct (r_pc r) as [|b|b|why] eqn:Epc; destruct i as [x|x|b'|b'|]; try contradiction.
  - destruct (d_rcb (get r b')) eqn:R; injection E as <-.
    + both b'.
      * apply RL. destruct (PC b') as [(_ & K & _)|(K & _)]; congruence.
      * apply OT; [apply recv_loop_other|auto].
    + both b'; [|apply OT; auto]. intros H. rewrite Epc. destruct (W b' H) as [K|[K|[K|K]]]; rewrite ?Epc in K; try discriminate.
      right; right; right. apply in_or_app. auto.
  - destruct (d_wcb (get r b')) eqn:R; injection E as <-.
    + both b'; [apply SL|apply OT; [apply send_loop_other|auto]].
    + both b'; [|apply OT; auto]. intros H. congruence.
  - injection E as <-. both true; intros H; rewrite get_with_pc in H; destruct (W _ H) as [K|[K|[K|K]]]; rewrite ?Epc in K; try discriminate;
      right; right; right; apply in_or_app; auto.
  - destruct PC as (R & WC & ER & F & P). destruct (_ <? 1); [discriminate|]. destruct x as [bs| |].
    + apply bind_ok in E as (m & E1 & E). injection E as <-. both b; [apply RL; exact WC|apply OT; [apply recv_loop_other|auto]].
    + injection E as <-. both b; [apply AR; exact WC|apply OT; [apply after_recv_other|auto]].
    + injection E as <-. both b; [apply AR; exact WC|apply OT; [apply after_recv_other|auto]].
  - destruct (_ <? 1); [discriminate|]. destruct x as [n| |]; injection E as <-.
    + both b; [apply SL|apply OT; [apply send_loop_other|auto]].
    + both b; [|apply OT; [apply get_with_pc|auto]]. intros _. right; right; right. apply in_or_app. simpl; auto.
    + both b; [|apply OT; [apply get_with_pc|auto]]. intros _. right; right; left. reflexivity.
Qed.

Lemma wcb_run pd pu : forall is r r' tr, rinv pd pu r -> r_valid r is -> relay_run r is = Ok r' ->
  (forall b, wcb_why r tr b) -> forall b, wcb_why r' (tr ++ trace r is) b.
Proof.
  induction is as [|i l IH]; intros r r' tr I V E W; simpl in *.
  - injection E as <-. rewrite app_nil_r. exact W.
  - destruct V as (EN & V). apply bind_ok in E as (r1 & E1 & E). rewrite E1.
    destruct (relay_step_inv pd pu r i I EN) as (r2 & E2 & I2). rewrite E1 in E2. injection E2 as <-.
    rewrite app_assoc. apply (IH r1 r'); auto. eapply wcb_step; eauto.
Qed.

Lemma wcb_init m cap : handover_ok m -> forall b, wcb_why (relay_init m cap) [] b.
Proof.
  intros H b. unfold wcb_why, relay_init, recv_loop, after_recv. simpl.
  destruct (_ <? _); [destruct b; discriminate|].
  destruct (_ <? _); [|destruct b; discriminate]. destruct b; [auto|discriminate].
Qed.

(** ** Deciding validity of concrete schedules *)
Definition r_enabledb (r : relay) (i : rin) : bool :=
  match r_pc r, i with
  | PRecv b, RRecv (RxData bs) =>
      negb (zlen bs =? 0) && forallb (fun x => (0 <=? x) && (x <? 256)) bs && (zlen bs <=? meta_getfree (d_buf (get r b)))
  | PRecv b, RRecv _ => true
  | PSend b, RSend (TxSent n) => (0 <=? n) && (n <=? meta_getlen (d_buf (get r b)))
  | PSend b, RSend _ => true
  | PIdle, RReadable _ | PIdle, RWritable _ | PIdle, RTimer => true
  | _, _ => false
  end.
Fixpoint r_validb (r : relay) (is : list rin) : bool :=
  match is with
  | [] => true
  | i :: l => r_enabledb r i && match relay_step r i with Ok r' => r_validb r' l | _ => true end
  end.

Lemma r_enabledb_ok r i : r_enabledb r i = true -> r_enabled r i.
Proof.
  unfold r_enabledb, r_enabled. destruct (r_pc r); destruct i as [[]|[]| | |]; simpl; auto; try discriminate.
  - intros H. apply andb_prop in H as (H & L). apply andb_prop in H as (N & B).
    split; [intros ->; discriminate|]. split; [|lia].
    apply Forall_forall. intros x Hx. rewrite forallb_forall in B. specialize (B x Hx). unfold is_byte. lia.
  - intros H. apply andb_prop in H. lia.
Qed.
Lemma r_validb_ok : forall is r, r_validb r is = true -> r_valid r is.
Proof.
  induction is as [|i l IH]; intros r H; simpl in *; auto.
  apply andb_prop in H as (H1 & H2). split; [apply r_enabledb_ok; exact H1|].
  intros r' E. rewrite E in H2. apply IH. exact H2.
Qed.
