(** C156: a web connection that is refused memory is closed once, what it had is
    released and nothing released is touched (Wmem_Model.v). *)
From Coq Require Import ZArith List Bool Lia Permutation.
From Verif Require Import Base Wmem_Model.
Import ListNotations.
Local Open Scope Z_scope.
Local Arguments Z.add : simpl never.
Local Arguments Z.sub : simpl never.
Local Arguments Z.max : simpl never.

(** ** What a connection asks the allocator for, in order, while it is granted.
    The flag says that it is the first request of the connection. *)
Inductive site :=
  | STun                  (** the buffer of webser_transfer_to_tlstunnel *)
  | SBuf (first : bool)   (** the buffer of a request *)
  | SWeb (first : bool)   (** the webser_t *)
  | SReq | SBody | SPay | SHead.

Definition asks_start (f : bool) : list site := [SBuf f; SWeb f; SReq].
Definition asks_answer (q : wreq) : list site :=
  match q_kind q with
  | KNone => []
  | KGet | KPost => [SPay; SHead]
  | KFile n => SHead :: (if q_sent1 q then if 0 <? n then [SPay] else [] else [])
  end.
Definition asks_one (f : bool) (q : wreq) : list site :=
  asks_start f ++
  (if q_head q then
     (if q_body q then [SBody] else []) ++
     (if negb (q_body q) || q_got q then asks_answer q else [])
   else []).
(** whether the request is answered and the connection kept *)
Definition goes_on (q : wreq) : bool :=
  q_head q && (negb (q_body q) || q_got q) && q_sent1 q && q_keep q &&
  match q_kind q with KNone => false | KFile n => negb (0 <? n) || q_sent2 q | _ => q_sent2 q end.
Fixpoint asks (f : bool) (qs : list wreq) : list site :=
  match qs with
  | [] => asks_start f
  | q :: r => asks_one f q ++ (if goes_on q then asks false r else [])
  end.
Definition asks_con (tun : bool) (qs : list wreq) : list site :=
  (if tun then [STun] else []) ++ asks true qs.

(** the first request that is refused, and those granted before *)
Fixpoint refused (l : list site) (mem : list bool) : option site :=
  match l with
  | [] => None
  | x :: r => if hd true mem then refused r (tl mem) else Some x
  end.
(** buffers and bodies among what is granted *)
Definition weight (x : site) : Z := match x with STun | SBuf _ | SBody => 1 | _ => 0 end.
Fixpoint kept (l : list site) (mem : list bool) : Z :=
  match l with
  | [] => 0
  | x :: r => if hd true mem then weight x + kept r (tl mem) else 0
  end.
(** the refusals that are not survived: the head of an answer, when the
    connection is released at once, and the buffer or the webser_t of a request
    that is not the first *)
Definition deadly (x : site) (sd : list bool) : bool :=
  match x with
  | SHead => negb (hd false sd)
  | SBuf f | SWeb f => negb f
  | _ => false
  end.
(** POST /echo comes with a body (without: C86_refuted_post) *)
Definition posts_body (q : wreq) : Prop := q_kind q = KPost -> q_body q = true.

(** closed once, the connection gone, [n] blocks left *)
Definition closed (e : wm) (n : Z) : Prop := w_con e = false /\ w_closes e = 1 /\ zlen (w_live e) = n.

(** ** Proofs *)
Definition fine (r : res wm) (n : Z) : Prop := exists e e', r = Ok e /\ settle e = Ok e' /\ closed e' n.
Definition dead (r : res wm) : Prop := bind r settle = Fault FUaf.
Definition good (r : res wm) (l : list site) (mem sd : list bool) (z : Z) : Prop :=
  match refused l mem with
  | Some x => if deadly x sd then dead r else fine r (Z.max 0 (z + kept l mem - 1))
  | None => fine r (Z.max 0 (z + kept l mem - 1))
  end.

Definition ol (o : option Z) : list Z := match o with Some x => [x] | None => [] end.

Lemma take_perm x l r : Permutation l (x :: r) -> exists l', take_blk x l = Some l' /\ Permutation l' r.
Proof.
  revert r. induction l as [|y l IH]; intros r P.
  - exfalso. exact (Permutation_nil_cons P).
  - cbn. destruct (Z.eqb_spec y x) as [->|N].
    + exists l. split; [reflexivity|]. exact (Permutation_cons_inv P).
    + assert (I : In y (x :: r)) by (eapply Permutation_in; [exact P|left; reflexivity]).
      destruct I as [->|I]; [congruence|]. apply in_split in I. destruct I as (a & b & ->).
      assert (P2 : Permutation l (x :: a ++ b)).
      { apply (Permutation_cons_inv (a := y)). rewrite P. rewrite perm_swap. apply perm_skip.
        symmetry. apply Permutation_middle. }
      destruct (IH _ P2) as (l' & E & P3). rewrite E. exists (y :: l'). split; [reflexivity|].
      rewrite P3. apply Permutation_middle.
Qed.
Lemma take_none x l : ~ In x l -> take_blk x l = None.
Proof.
  induction l as [|y l IH]; intros N; [reflexivity|]. cbn.
  destruct (Z.eqb_spec y x) as [->|E]; [destruct N; left; reflexivity|].
  rewrite IH; [reflexivity|]. intros I. apply N. right. exact I.
Qed.

(** frees of blocks that are allocated *)
Lemma free_ol o s r : Permutation (w_live s) (ol o ++ r) ->
  exists l, free_b o s = Ok (mkWm (w_mem s) (w_sd s) (w_next s) l (w_con s) (w_closing s) (w_closes s)
                        (w_meta s) (w_data s) (w_req s) (w_body s) (w_hdr s) (w_pay s)) /\ Permutation l r.
Proof.
  destruct o as [x|]; cbn [ol app]; intros P.
  - destruct (take_perm _ _ _ P) as (l & E & P2). exists l. cbn [free_b]. rewrite E. split; [reflexivity|exact P2].
  - exists (w_live s). cbn [free_b]. destruct s; cbn. split; [reflexivity|exact P].
Qed.

(** a webser_t in use *)
Definition held (s : wm) (d : Z) (r : list Z) : Prop :=
  w_data s = Some d /\ Permutation (w_live s) (ol (w_req s) ++ ol (w_hdr s) ++ ol (w_pay s) ++ d :: r).
Lemma release_ok s d r : held s d r ->
  exists l, release s = Ok (mkWm (w_mem s) (w_sd s) (w_next s) l (w_con s) (w_closing s) (w_closes s)
                        (w_meta s) (w_data s) (w_req s) (w_body s) (w_hdr s) (w_pay s)) /\ Permutation l r.
Proof.
  intros (D & P). unfold release. rewrite D.
  assert (T : exists l, take_blk d (w_live s) = Some l).
  { assert (P2 : Permutation (w_live s) (d :: ol (w_req s) ++ ol (w_hdr s) ++ ol (w_pay s) ++ r)).
    { rewrite P. rewrite !app_assoc. symmetry. apply Permutation_middle. }
    destruct (take_perm _ _ _ P2) as (l & E & _). exists l. exact E. }
  destruct T as (t & T). rewrite T. cbn [of_opt bind].
  destruct (free_ol _ _ _ P) as (l1 & E1 & P1). rewrite E1. cbn [bind]. clear E1.
  destruct (free_ol (w_hdr s) (mkWm (w_mem s) (w_sd s) (w_next s) l1 (w_con s) (w_closing s) (w_closes s)
     (w_meta s) (w_data s) (w_req s) (w_body s) (w_hdr s) (w_pay s)) _ P1) as (l2 & E2 & P2).
  cbn [w_mem w_sd w_next w_con w_closing w_closes w_meta w_data w_req w_body w_hdr w_pay] in *.
  rewrite E2. cbn [bind]. clear E2.
  destruct (free_ol (w_pay s) (mkWm (w_mem s) (w_sd s) (w_next s) l2 (w_con s) (w_closing s) (w_closes s)
     (w_meta s) (w_data s) (w_req s) (w_body s) (w_hdr s) (w_pay s)) _ P2) as (l3 & E3 & P3).
  cbn [w_mem w_sd w_next w_con w_closing w_closes w_meta w_data w_req w_body w_hdr w_pay] in *.
  rewrite E3. cbn [bind]. clear E3.
  destruct (free_ol (Some d) (mkWm (w_mem s) (w_sd s) (w_next s) l3 (w_con s) (w_closing s) (w_closes s)
     (w_meta s) (w_data s) (w_req s) (w_body s) (w_hdr s) (w_pay s)) _ P3) as (l4 & E4 & P4).
  cbn [w_mem w_sd w_next w_con w_closing w_closes w_meta w_data w_req w_body w_hdr w_pay] in *.
  exists l4. rewrite <- D. rewrite D at 1. split; [|exact P4]. exact E4.
Qed.

(** the connection while a request is served: [L] is what will be left *)
Definition mid (s : wm) (d : Z) (L : list Z) : Prop :=
  w_con s = true /\ w_closes s = 0 /\ w_data s = Some d /\
  Permutation (w_live s) (ol (w_meta s) ++ ol (w_req s) ++ ol (w_hdr s) ++ ol (w_pay s) ++ d :: L).
Lemma direct_mid s d L : mid s d L -> exists e, free_direct s = Ok e /\ closed e (zlen L) /\ w_closing e = false.
Proof.
  intros (C & N & D & P). unfold free_direct. rewrite C. cbn [negb].
  destruct (free_ol _ _ _ P) as (l & E & P2). rewrite E. cbn [bind w_data]. rewrite D.
  destruct (release_ok (mkWm (w_mem s) (w_sd s) (w_next s) l (w_con s) (w_closing s) (w_closes s)
     (w_meta s) (w_data s) (w_req s) (w_body s) (w_hdr s) (w_pay s)) d L) as (l2 & E2 & P3).
  { split; [exact D|exact P2]. }
  rewrite D in E2. rewrite E2. cbn [bind]. eexists. split; [reflexivity|].
  split; [|reflexivity]. split; [reflexivity|]. cbn [w_closes w_live]. split; [lia|].
  unfold zlen. f_equal. apply Permutation_length. exact P3.
Qed.
(** the connection before the first webser_t *)
Lemma direct_new s L : w_con s = true -> w_closes s = 0 -> w_data s = None ->
  Permutation (w_live s) (ol (w_meta s) ++ L) ->
  exists e, free_direct s = Ok e /\ closed e (zlen L) /\ w_closing e = false.
Proof.
  intros C N D P. unfold free_direct. rewrite C. cbn [negb].
  destruct (free_ol _ _ _ P) as (l & E & P2). rewrite E. cbn [bind w_data]. rewrite D. cbn [bind].
  eexists. split; [reflexivity|]. split; [|reflexivity]. split; [reflexivity|]. cbn [w_closes w_live].
  split; [lia|]. unfold zlen. f_equal. apply Permutation_length. exact P2.
Qed.
(** c->data left over from a request before *)
Lemma direct_stale s d L : w_con s = true -> w_data s = Some d -> ~ In d (w_live s) ->
  Permutation (w_live s) (ol (w_meta s) ++ L) -> free_direct s = Fault FUaf.
Proof.
  intros C D N P. unfold free_direct. rewrite C. cbn [negb].
  destruct (free_ol _ _ _ P) as (l & E & P2). rewrite E. cbn [bind w_data]. rewrite D.
  unfold release. cbn [w_data w_live].
  rewrite take_none; [reflexivity|]. intros I. apply N.
  eapply Permutation_in; [symmetry; exact P|]. apply in_or_app. right. eapply Permutation_in; eassumption.
Qed.

(** giving the connection up *)
Lemma nfree_fine s L : w_con s = true ->
  (forall s', w_con s' = w_con s -> w_closes s' = w_closes s -> w_data s' = w_data s -> w_live s' = w_live s ->
      w_meta s' = w_meta s -> w_req s' = w_req s -> w_hdr s' = w_hdr s -> w_pay s' = w_pay s ->
      exists e, free_direct s' = Ok e /\ closed e L /\ w_closing e = false) ->
  fine (nfree s) L.
Proof.
  intros C H. unfold fine, nfree. rewrite C. cbn [negb].
  destruct (w_sd s) as [|[] r]; cbn [tl];
    match goal with
    | |- context[free_direct ?x] => destruct (H x) as (e & E & K & W); try reflexivity; [cbn; congruence|]
    | |- context[Ok ?x = Ok _] => destruct (H x) as (e & E & K & W); try reflexivity; [cbn; congruence|]
    end.
  1, 3: exists e, e; rewrite E; split; [reflexivity|]; split; [unfold settle; rewrite W; reflexivity|exact K].
  eexists. exists e. split; [reflexivity|]. split; [unfold settle; cbn [w_closing]; exact E|exact K].
Qed.
Lemma nfree_mid s d L : mid s d L -> fine (nfree s) (zlen L).
Proof.
  intros M. pose proof M as (C & N & D & P). apply nfree_fine; [exact C|].
  intros s' A1 A2 A3 A4 A5 A6 A7 A8. apply (direct_mid s' d L). unfold mid.
  rewrite A1, A2, A3, A4, A5, A6, A7, A8. exact M.
Qed.
Lemma nfree_new s L : w_con s = true -> w_closes s = 0 -> w_data s = None ->
  Permutation (w_live s) (ol (w_meta s) ++ L) -> fine (nfree s) (zlen L).
Proof.
  intros C N D P. apply nfree_fine; [exact C|]. intros s' A1 A2 A3 A4 A5 A6 A7 A8.
  apply direct_new; congruence.
Qed.
Lemma nfree_stale s d L : w_con s = true -> w_data s = Some d -> ~ In d (w_live s) ->
  Permutation (w_live s) (ol (w_meta s) ++ L) -> dead (nfree s).
Proof.
  intros C D N P. unfold dead, nfree. rewrite C. cbn [negb].
  destruct (w_sd s) as [|[] r]; cbn [tl].
  - rewrite (direct_stale _ d L); try assumption; reflexivity.
  - cbn [bind]. unfold settle. cbn [w_closing]. apply (direct_stale _ d L); try assumption; reflexivity.
  - rewrite (direct_stale _ d L); try assumption; reflexivity.
Qed.
(** giving it up twice *)
Lemma twice s d L : mid s d L ->
  let r := let* e := nfree s in let* e := nfree e in Ok e in
  if negb (hd false (w_sd s)) then dead r else fine r (zlen L).
Proof.
  intros M. pose proof M as (C & N & D & P). cbn zeta. unfold nfree at 1 3. rewrite C. cbn [negb].
  assert (G : forall sd, let s' := mkWm (w_mem s) sd (w_next s) (w_live s) true (w_closing s) (w_closes s)
                (w_meta s) (w_data s) (w_req s) (w_body s) (w_hdr s) (w_pay s) in
              dead (let* e := free_direct s' in let* e0 := nfree e in Ok e0)).
  { intros sd s'. destruct (direct_mid s' d L) as (e & E & (K & _ & _) & _).
    { unfold mid, s'. cbn [w_con w_closes w_data w_live w_meta w_req w_hdr w_pay]. repeat split; assumption. }
    rewrite E. cbn [bind]. unfold dead, nfree. rewrite K. reflexivity. }
  destruct (w_sd s) as [|[] r]; cbn [hd tl negb]; try apply G.
  cbn [bind].
  match goal with |- fine (let* e0 := nfree ?s' in Ok e0) _ =>
    assert (F : fine (nfree s') (zlen L)) by (apply (nfree_mid s' d L); repeat split; assumption) end.
  destruct F as (e & e' & E & F). rewrite E. cbn [bind]. exists e, e'. split; [reflexivity|exact F].
Qed.

Lemma good_step r x l mem sd z : hd true mem = true -> good r l (tl mem) sd (z + weight x) -> good r (x :: l) mem sd z.
Proof.
  intros H. unfold good. cbn [refused kept]. rewrite H.
  replace (z + (weight x + kept l (tl mem)) - 1) with (z + weight x + kept l (tl mem) - 1) by lia. exact (fun g => g).
Qed.
Lemma good_ref r x l mem sd z : hd true mem = false -> deadly x sd = false ->
  fine r (Z.max 0 (z - 1)) -> good r (x :: l) mem sd z.
Proof.
  intros H D F. unfold good. cbn [refused kept]. rewrite H, D. replace (z + 0 - 1) with (z - 1) by lia. exact F.
Qed.
Lemma good_dead r x l mem sd z : hd true mem = false -> deadly x sd = true -> dead r -> good r (x :: l) mem sd z.
Proof. intros H D F. unfold good. cbn [refused]. rewrite H, D. exact F. Qed.
Lemma good_nil r mem sd z : fine r (Z.max 0 (z - 1)) -> good r [] mem sd z.
Proof. intros F. unfold good. cbn [refused kept]. replace (z + 0 - 1) with (z - 1) by lia. exact F. Qed.

Definition run (r : res (wm + wm)) (K : wm -> res wm) : res wm :=
  let* x := r in match x with inl s => K s | inr e => Ok e end.
Lemma run_andthen r k K : run (andthen r k) K = run r (fun s => run (k s) K).
Proof. unfold run, andthen. destruct r as [[s|e]| |]; reflexivity. Qed.
Lemma run_end r K : run (let* e := r in Ok (inr e)) K = r.
Proof. unfold run. destruct r; reflexivity. Qed.
Lemma run_end2 r K : run (let* e := r in let* e := nfree e in Ok (inr e)) K = let* e := r in let* e := nfree e in Ok e.
Proof. unfold run. destruct r as [e| |]; cbn [bind]; [|reflexivity|reflexivity]. destruct (nfree e); reflexivity. Qed.

(** between two requests *)
Definition idle (f : bool) (s : wm) (z : Z) : Prop :=
  w_con s = true /\ w_closes s = 0 /\ z = zlen (w_live s) /\
  NoDup (w_live s) /\ Forall (fun y => y < w_next s) (w_live s) /\
  (exists L, Permutation (w_live s) (ol (w_meta s) ++ L) /\ (w_meta s = None -> L = [])) /\
  (if f then w_data s = None else exists d, w_data s = Some d /\ ~ In d (w_live s) /\ d < w_next s).
(** while a request is served *)
Definition inuse (s : wm) (d : Z) (L : list Z) (b h p : option Z) : Prop :=
  mid s d L /\ NoDup (w_live s) /\ Forall (fun y => y < w_next s) (w_live s) /\
  (exists m, w_meta s = Some m) /\ w_body s = b /\ w_hdr s = h /\ w_pay s = p.

Lemma fresh l n : NoDup l -> Forall (fun y => y < n) l -> NoDup (n :: l) /\ Forall (fun y => y < n + 1) (n :: l).
Proof.
  intros ND F. split.
  - constructor; [|exact ND]. intros I. rewrite Forall_forall in F. specialize (F _ I). cbn in F. lia.
  - constructor; [lia|]. eapply Forall_impl; [|exact F]. cbn. intros; lia.
Qed.
Lemma nodup_r (a b : list Z) : NoDup (a ++ b) -> NoDup b.
Proof. induction a as [|x a IH]; cbn; intros H; [exact H|]. inversion H; subst. apply IH. assumption. Qed.
Lemma zlen_perm (a b : list Z) : Permutation a b -> zlen a = zlen b.
Proof. intros P. unfold zlen. rewrite (Permutation_length P). reflexivity. Qed.
Lemma zlen_nn {A} (l : list A) : 0 <= zlen l.
Proof. unfold zlen. lia. Qed.

Ltac rec := cbn [w_mem w_sd w_next w_live w_con w_closing w_closes w_meta w_data w_req w_body w_hdr w_pay].

Lemma buf_good f s z l K : idle f s z ->
  (forall s', idle f s' (z + 1) -> w_meta s' <> None -> w_sd s' = w_sd s ->
     good (K s') l (w_mem s') (w_sd s) (z + 1)) ->
  good (run (get_buf s) K) (SBuf f :: l) (w_mem s) (w_sd s) z.
Proof.
  intros (C & N & Z0 & ND & F & (L & P & LN) & DT) H.
  pose proof (fresh _ _ ND F) as (ND1 & F1).
  assert (ZL : zlen L = Z.max 0 (z - 1)).
  { rewrite (zlen_perm _ _ P) in Z0. destruct (w_meta s) as [m|].
    - cbn [ol app] in Z0. unfold zlen in *. cbn [length] in Z0. lia.
    - rewrite LN in * by reflexivity. subst z. reflexivity. }
  unfold get_buf, took, granted. destruct (hd true (w_mem s)) eqn:G1; cbn [negb]; cbn zeta; rec.
  2:{ rewrite run_end. destruct f.
      - apply good_ref; [exact G1|reflexivity|]. rewrite <- ZL. apply nfree_new; rec; assumption.
      - destruct DT as (d & D & NI & _). apply good_dead; [exact G1|reflexivity|].
        apply (nfree_stale _ d L); rec; assumption. }
  apply good_step; [exact G1|]. cbn [weight]. unfold run. cbn [bind].
  match goal with |- good (K ?x) _ _ _ _ => apply (H x) end; [|rec; discriminate|reflexivity].
  unfold idle. rec. repeat split; try assumption.
  - subst z. unfold zlen. cbn [length]. lia.
  - exists (w_live s). split; [reflexivity|discriminate].
  - destruct f; [exact DT|]. destruct DT as (d & D & NI & LT). exists d. split; [exact D|]. split; [|lia].
    intros [E|E]; [lia|contradiction].
Qed.
Lemma web_good f s z l K : idle f s z -> w_meta s <> None ->
  (forall s' d L, mid s' d L -> NoDup (w_live s') -> Forall (fun y => y < w_next s') (w_live s') ->
     w_meta s' <> None -> w_req s' = None -> w_hdr s' = None -> w_pay s' = None ->
     w_sd s' = w_sd s -> z = zlen L + 1 ->
     good (K s') l (w_mem s') (w_sd s) z) ->
  good (run (get_web s) K) (SWeb f :: l) (w_mem s) (w_sd s) z.
Proof.
  intros (C & N & Z0 & ND & F & (L & P & LN) & DT) ME H.
  pose proof (fresh _ _ ND F) as (ND1 & F1).
  assert (ZL : z = zlen L + 1).
  { rewrite (zlen_perm _ _ P) in Z0. destruct (w_meta s) as [m|]; [|contradiction].
    cbn [ol app] in Z0. unfold zlen in *. cbn [length] in Z0. lia. }
  unfold get_web, took, granted. destruct (hd true (w_mem s)) eqn:G1; cbn [negb]; cbn zeta; rec.
  2:{ rewrite run_end. destruct f.
      - apply good_ref; [exact G1|reflexivity|]. rewrite ZL. pose proof (zlen_nn L).
        replace (Z.max 0 (zlen L + 1 - 1)) with (zlen L) by lia. apply nfree_new; rec; assumption.
      - destruct DT as (d & D & NI & _). apply good_dead; [exact G1|reflexivity|].
        apply (nfree_stale _ d L); rec; assumption. }
  apply good_step; [exact G1|]. cbn [weight]. rewrite Z.add_0_r. unfold run. cbn [bind].
  match goal with |- good (K ?x) _ _ _ _ => apply (H x (w_next s) L) end; rec; try assumption; try reflexivity.
  repeat split; rec; try assumption. cbn [ol app]. rewrite P. apply Permutation_middle.
Qed.
Lemma req_good s z d L l K : mid s d L -> NoDup (w_live s) -> Forall (fun y => y < w_next s) (w_live s) ->
  w_meta s <> None -> w_req s = None -> w_hdr s = None -> w_pay s = None -> z = zlen L + 1 ->
  (forall s', inuse s' d L None None None -> w_sd s' = w_sd s -> good (K s') l (w_mem s') (w_sd s) z) ->
  good (run (get_req s) K) (SReq :: l) (w_mem s) (w_sd s) z.
Proof.
  intros M ND F ME RQ HD PY ZL H. pose proof M as (C & N & D & P).
  pose proof (fresh _ _ ND F) as (ND1 & F1).
  unfold get_req, took, granted. destruct (hd true (w_mem s)) eqn:G1; cbn [negb]; cbn zeta; rec.
  2:{ rewrite run_end. apply good_ref; [exact G1|reflexivity|]. rewrite ZL. pose proof (zlen_nn L).
      replace (Z.max 0 (zlen L + 1 - 1)) with (zlen L) by lia. apply (nfree_mid _ d). repeat split; rec; assumption. }
  apply good_step; [exact G1|]. cbn [weight]. rewrite Z.add_0_r. unfold run. cbn [bind].
  match goal with |- good (K ?x) _ _ _ _ => apply (H x) end; [|reflexivity].
  split; [|rec; repeat split; try assumption; destruct (w_meta s) as [m|]; [exists m; reflexivity|contradiction]].
  repeat split; rec; try assumption. rewrite P, RQ. cbn [ol app]. apply Permutation_middle.
Qed.
Lemma start_good f s z l K : idle f s z ->
  (forall s' d L, inuse s' d L None None None -> w_sd s' = w_sd s -> z + 1 = zlen L + 1 ->
     good (K s') l (w_mem s') (w_sd s) (z + 1)) ->
  good (run (wstart s) K) (asks_start f ++ l) (w_mem s) (w_sd s) z.
Proof.
  intros ID H. unfold wstart, asks_start. cbn [app]. rewrite !run_andthen.
  apply (buf_good f s z); [exact ID|]. intros s1 ID1 M1 SD1. rewrite <- SD1.
  apply (web_good f s1); [exact ID1|exact M1|].
  intros s2 d L M2 ND2 F2 ME2 RQ HD PY SD2 ZZ. rewrite <- SD2.
  apply (req_good s2 (z + 1) d L); try assumption.
  intros s3 U3 SD3. rewrite SD2, SD1. apply (H s3 d L U3); congruence.
Qed.

Definition l_pay (q : wreq) (l : list site) : list site :=
  match q_kind q with
  | KFile n => if 0 <? n then SPay :: (if q_sent2 q then l else []) else l
  | _ => if q_sent2 q then l else []
  end.
Definition l_head (q : wreq) (l : list site) : list site := SHead :: (if q_sent1 q then l else []).
Definition l_route (q : wreq) (l : list site) : list site :=
  match q_kind q with KNone => [] | KFile _ => l | _ => SPay :: l end.
Definition l_body (q : wreq) (l : list site) : list site :=
  if q_head q then (if q_body q then [SBody] else []) ++ (if negb (q_body q) || q_got q then l else []) else [].
Lemma asks_nested f q rest :
  asks_one f q ++ (if goes_on q then rest else []) =
  asks_start f ++ l_body q (l_route q (l_head q (l_pay q (if q_keep q then rest else [])))).
Proof.
  unfold asks_one, goes_on, l_body, l_route, l_head, l_pay, asks_answer. rewrite <- app_assoc. f_equal.
  destruct q as [hd bd gt kd s1 s2 kp]. cbn [q_head q_body q_got q_kind q_sent1 q_sent2 q_keep].
  destruct hd, bd, gt, s1, s2, kp; cbn [andb orb negb app]; try reflexivity;
    destruct kd as [| |n|]; cbn [app]; try reflexivity; destruct (0 <? n); reflexivity.
Qed.

Lemma zmax1 L : Z.max 0 (@zlen Z L + 1 - 1) = zlen L.
Proof. pose proof (zlen_nn L). lia. Qed.
Lemma mid_more s d L x mem nx cl bd : mid s d L ->
  mid (mkWm mem (w_sd s) nx (x :: w_live s) (w_con s) cl (w_closes s) (w_meta s) (w_data s) (w_req s) bd (w_hdr s) (w_pay s))
      d (x :: L).
Proof.
  intros (C & N & D & P). repeat split; rec; try assumption. rewrite P. rewrite !app_assoc.
  rewrite Permutation_middle. apply Permutation_app_head. apply perm_swap.
Qed.

Lemma body_good q s d L l K : inuse s d L None None None ->
  (forall s' L' b, inuse s' d L' b None None -> w_sd s' = w_sd s -> (q_body q = true -> b <> None) ->
     good (K s') l (w_mem s') (w_sd s) (zlen L' + 1)) ->
  good (run (wbody q s) K) (l_body q l) (w_mem s) (w_sd s) (zlen L + 1).
Proof.
  intros U H. pose proof U as (M & ND & F & (m & ME) & B & HH & PP). pose proof M as (C & N & D & P).
  unfold wbody, l_body.
  destruct (q_head q); cbn [negb].
  2:{ rewrite run_end. apply good_nil. rewrite zmax1. exact (nfree_mid _ _ _ M). }
  destruct (q_body q) eqn:QB; cbn [negb].
  2:{ cbn [orb app]. unfold run. cbn [bind]. apply (H s L None); [exact U|reflexivity|discriminate]. }
  cbn [orb app]. unfold took, granted.
  destruct (hd true (w_mem s)) eqn:G; cbn [negb]; rec.
  2:{ rewrite run_end. apply good_ref; [exact G|reflexivity|]. rewrite zmax1.
      apply (nfree_mid _ d). repeat split; rec; assumption. }
  apply good_step; [exact G|]. cbn [weight]. pose proof (fresh _ _ ND F) as (ND1 & F1).
  replace (zlen L + 1 + 1) with (zlen (w_next s :: L) + 1) by (unfold zlen; cbn [length]; lia).
  destruct (q_got q); cbn [negb].
  2:{ rewrite run_end. apply good_nil. rewrite zmax1. apply (nfree_mid _ d). apply mid_more. exact M. }
  unfold run. cbn [bind].
  match goal with |- good (K ?x) _ _ _ _ => apply (H x (w_next s :: L) (Some (w_next s))) end;
    [|reflexivity|discriminate].
  split; [apply mid_more; exact M|]. rec. repeat split; try assumption. exists m. exact ME.
Qed.

Lemma apay_good s d L b l K : inuse s d L b None None ->
  (forall s' p, inuse s' d L b None p -> w_sd s' = w_sd s -> good (K s') l (w_mem s') (w_sd s) (zlen L + 1)) ->
  good (run (api_pay s) K) (SPay :: l) (w_mem s) (w_sd s) (zlen L + 1).
Proof.
  intros U H. pose proof U as (M & ND & F & (m & ME) & B & HH & PP). pose proof M as (C & N & D & P).
  unfold api_pay, took, granted.
  destruct (hd true (w_mem s)) eqn:G; cbn [negb]; rec.
  2:{ rewrite run_end. apply good_ref; [exact G|reflexivity|]. rewrite zmax1.
      apply (nfree_mid _ d). repeat split; rec; assumption. }
  apply good_step; [exact G|]. cbn [weight]. rewrite Z.add_0_r. pose proof (fresh _ _ ND F) as (ND1 & F1).
  unfold run. cbn [bind].
  match goal with |- good (K ?x) _ _ _ _ => apply (H x (Some (w_next s))) end; [|reflexivity].
  split.
  - repeat split; rec; try assumption. rewrite P. rewrite PP, HH. cbn [ol app].
    rewrite !app_assoc. apply Permutation_middle.
  - rec. repeat split; try assumption. exists m. exact ME.
Qed.

Lemma route_good q s d L b l K : posts_body q -> inuse s d L b None None -> (q_body q = true -> b <> None) ->
  (forall s' p, inuse s' d L b None p -> w_sd s' = w_sd s ->
     (match q_kind q with KFile _ => p = None | _ => True end) ->
     good (K s') l (w_mem s') (w_sd s) (zlen L + 1)) ->
  good (run (wroute q s) K) (l_route q l) (w_mem s) (w_sd s) (zlen L + 1).
Proof.
  intros PB U BB H. pose proof U as (M & ND & F & (m & ME) & B & HH & PP).
  unfold wroute, l_route. destruct (q_kind q) as [| |n|] eqn:QK.
  - eapply apay_good; [exact U|]. intros s' p U' SD. apply (H s' p U' SD). exact I.
  - destruct (w_body s) eqn:WB.
    + eapply apay_good; [exact U|]. intros s' p U' SD. apply (H s' p U' SD). exact I.
    + exfalso. apply BB; [apply PB; exact QK|]. congruence.
  - unfold run. cbn [bind]. apply (H s None); [exact U|reflexivity|reflexivity].
  - rewrite run_end. apply good_nil. rewrite zmax1. exact (nfree_mid _ _ _ M).
Qed.

Lemma head_good q s d L b p l K : inuse s d L b None p ->
  (forall s' h, inuse s' d L b h p -> w_sd s' = w_sd s -> good (K s') l (w_mem s') (w_sd s) (zlen L + 1)) ->
  good (run (whead q s) K) (l_head q l) (w_mem s) (w_sd s) (zlen L + 1).
Proof.
  intros U H. pose proof U as (M & ND & F & (m & ME) & B & HH & PP). pose proof M as (C & N & D & P).
  unfold whead, l_head, took, granted.
  destruct (hd true (w_mem s)) eqn:G; cbn [negb]; rec.
  2:{ rewrite run_end2.
      match goal with |- good (let* e := nfree ?x in _) _ _ _ _ =>
        pose proof (twice x d L) as T; assert (MX : mid x d L) by (repeat split; rec; assumption) end.
      specialize (T MX). cbn zeta in T. cbn [w_sd] in T.
      destruct (negb (hd false (w_sd s))) eqn:E.
      - apply good_dead; [exact G|exact E|exact T].
      - apply good_ref; [exact G|exact E|]. rewrite zmax1. exact T. }
  apply good_step; [exact G|]. cbn [weight]. rewrite Z.add_0_r. pose proof (fresh _ _ ND F) as (ND1 & F1).
  assert (PP2 : Permutation (w_next s :: w_live s)
     (ol (w_meta s) ++ ol (w_req s) ++ ol (Some (w_next s)) ++ ol (w_pay s) ++ d :: L)).
  { rewrite P. rewrite HH. cbn [ol app]. rewrite !app_assoc. rewrite <- (app_assoc _ (ol (w_pay s))). apply Permutation_middle. }
  destruct (q_sent1 q); cbn [negb].
  - unfold run. cbn [bind].
    match goal with |- good (K ?x) _ _ _ _ => apply (H x (Some (w_next s))) end; [|reflexivity].
    split.
    + repeat split; rec; assumption.
    + rec. repeat split; try assumption. exists m. exact ME.
  - rewrite run_end. apply good_nil. rewrite zmax1. apply (nfree_mid _ d). repeat split; rec; assumption.
Qed.

Lemma pay_good q s d L b h p l K : inuse s d L b h p -> (match q_kind q with KFile _ => p = None | _ => True end) ->
  (forall s' p', inuse s' d L b h p' -> w_sd s' = w_sd s -> good (K s') l (w_mem s') (w_sd s) (zlen L + 1)) ->
  good (run (wpay q s) K) (l_pay q l) (w_mem s) (w_sd s) (zlen L + 1).
Proof.
  intros U PN H. pose proof U as (M & ND & F & (m & ME) & B & HH & PP). pose proof M as (C & N & D & P).
  assert (O : good (run (if negb (q_sent2 q) then let* e := nfree s in Ok (inr e) else Ok (inl s)) K)
                (if q_sent2 q then l else []) (w_mem s) (w_sd s) (zlen L + 1)).
  { destruct (q_sent2 q); cbn [negb].
    - unfold run. cbn [bind]. apply (H s p U eq_refl).
    - rewrite run_end. apply good_nil. rewrite zmax1. exact (nfree_mid _ _ _ M). }
  unfold wpay, l_pay. destruct (q_kind q) as [| |n|]; [exact O|exact O| |exact O].
  destruct (0 <? n); cbn [negb]; [|unfold run; cbn [bind]; apply (H s p U eq_refl)].
  unfold took, granted.
  destruct (hd true (w_mem s)) eqn:G; cbn [negb]; rec.
  2:{ rewrite run_end. apply good_ref; [exact G|reflexivity|]. rewrite zmax1.
      apply (nfree_mid _ d). repeat split; rec; assumption. }
  apply good_step; [exact G|]. cbn [weight]. rewrite Z.add_0_r. pose proof (fresh _ _ ND F) as (ND1 & F1).
  assert (PP2 : Permutation (w_next s :: w_live s)
     (ol (w_meta s) ++ ol (w_req s) ++ ol (w_hdr s) ++ ol (Some (w_next s)) ++ d :: L)).
  { rewrite P. rewrite PP, PN. cbn [ol app]. rewrite !app_assoc. apply Permutation_middle. }
  destruct (q_sent2 q); cbn [negb].
  - unfold run. cbn [bind].
    match goal with |- good (K ?x) _ _ _ _ => apply (H x (Some (w_next s))) end; [|reflexivity].
    split.
    + repeat split; rec; assumption.
    + rec. repeat split; try assumption. exists m. exact ME.
  - rewrite run_end. apply good_nil. rewrite zmax1. apply (nfree_mid _ d). repeat split; rec; assumption.
Qed.

Lemma loop_good qs : Forall posts_body qs -> forall f s z, idle f s z ->
  good (wloop qs s) (asks f qs) (w_mem s) (w_sd s) z.
Proof.
  induction qs as [|q qs IH]; intros PB f s z ID.
  - change (wloop [] s) with (run (wstart s) nfree). cbn [asks].
    rewrite <- (app_nil_r (asks_start f)). apply (start_good f s z [] nfree ID).
    intros s' d L (M & _) _ ZZ. apply good_nil. rewrite ZZ, zmax1. exact (nfree_mid _ _ _ M).
  - change (wloop (q :: qs) s) with (run (wone q s) (wloop qs)). cbn [asks]. rewrite asks_nested.
    unfold wone. rewrite run_andthen. apply (start_good f s z _ _ ID).
    intros s1 d L U1 SD1 ZZ. rewrite run_andthen. rewrite ZZ, <- SD1.
    apply (body_good q s1 d L); [exact U1|]. intros s2 L2 b U2 SD2 BB. rewrite run_andthen. rewrite <- SD2.
    apply (route_good q s2 d L2 b); [exact (Forall_inv PB)|exact U2|exact BB|].
    intros s3 p U3 SD3 PN. rewrite run_andthen, <- SD3.
    apply (head_good q s3 d L2 b p); [exact U3|]. intros s4 h U4 SD4. rewrite run_andthen, <- SD4.
    apply (pay_good q s4 d L2 b h p); [exact U4|exact PN|]. intros s5 p5 U5 SD5. rewrite <- SD5.
    pose proof U5 as (M & ND & F & (m & ME) & B & HH & PP). pose proof M as (C & N & D & P).
    destruct (q_keep q).
    2:{ rewrite run_end. apply good_nil. rewrite zmax1. exact (nfree_mid _ _ _ M). }
    destruct (release_ok s5 d (m :: L2)) as (lv & E & PL).
    { split; [exact D|]. rewrite P, ME. cbn [ol app].
      rewrite !app_assoc. rewrite Permutation_middle. apply Permutation_app_head. apply perm_swap. }
    rewrite E. unfold run. cbn [bind].
    match goal with |- good (wloop qs ?x) _ _ _ _ =>
      refine (IH (Forall_inv_tail PB) false x (zlen L2 + 1) _) end.
    assert (P0 : Permutation (w_live s5) ((ol (w_req s5) ++ ol (w_hdr s5) ++ ol (w_pay s5) ++ [d]) ++ lv)).
    { rewrite P, ME, PL. cbn [ol app]. rewrite <- !app_assoc. cbn [app].
      rewrite !app_assoc. rewrite Permutation_middle. apply Permutation_app_head. apply perm_swap. }
    pose proof (Permutation_NoDup P0 ND) as ND2.
    assert (SUB : forall x, In x lv -> In x (w_live s5)).
    { intros x I. eapply Permutation_in; [symmetry; exact P0|]. apply in_or_app. right. exact I. }
    repeat split; rec; try assumption.
    + rewrite (zlen_perm _ _ PL). unfold zlen. cbn [length]. lia.
    + exact (nodup_r _ _ ND2).
    + rewrite Forall_forall in *. intros x I. apply F. apply SUB. exact I.
    + exists L2. rewrite ME. cbn [ol app]. split; [exact PL|discriminate].
    + exists d. split; [exact D|]. split.
      * intros I. rewrite !app_assoc in ND2. rewrite <- app_assoc in ND2. cbn [app] in ND2.
        apply NoDup_remove_2 in ND2. apply ND2. apply in_or_app. right. exact I.
      * rewrite Forall_forall in F. apply (F d). eapply Permutation_in; [symmetry; exact P|].
        rewrite !app_assoc. apply in_or_app. right. left. reflexivity.
Qed.

Lemma wcon_good tun qs mem sd : Forall posts_body qs ->
  match refused (asks_con tun qs) mem with
  | Some x => if deadly x sd then wcon tun qs mem sd = Fault FUaf
              else exists e, wcon tun qs mem sd = Ok e /\ closed e (Z.max 0 (kept (asks_con tun qs) mem - 1))
  | None => exists e, wcon tun qs mem sd = Ok e /\ closed e (Z.max 0 (kept (asks_con tun qs) mem - 1))
  end.
Proof.
  intros PB. unfold wcon. cbn zeta.
  match goal with |- context[bind ?r (fun e => settle e)] => set (R := r) end.
  assert (G : good R (asks_con tun qs) mem sd 0).
  { subst R. unfold asks_con. destruct tun; cbn [app].
    - unfold granted, took, granted, wm0. rec.
      destruct (hd true mem) eqn:H; cbn [negb]; cbn zeta; rec.
      + apply good_step; [exact H|]. cbn [weight].
        match goal with |- good (wloop qs ?x) _ _ _ _ => apply (loop_good qs PB true x) end.
        repeat split; rec; try reflexivity; [constructor; [intros []|constructor]|constructor; [lia|constructor]|].
        exists []. split; [reflexivity|reflexivity].
      + apply good_ref; [exact H|reflexivity|]. change (Z.max 0 (0 - 1)) with (@zlen Z []).
        apply nfree_new; reflexivity.
    - apply (loop_good qs PB true (wm0 mem sd)).
      repeat split; try (constructor; fail). exists []. split; [constructor|reflexivity]. }
  assert (FN : forall n, fine R n -> exists e, bind R settle = Ok e /\ closed e n).
  { intros n (e & e' & E1 & E2 & E3). exists e'. rewrite E1. cbn [bind]. split; [exact E2|exact E3]. }
  unfold good in G. rewrite Z.add_0_l in G.
  destruct (refused (asks_con tun qs) mem) as [x|]; [destruct (deadly x sd)|]; [exact G|apply FN; exact G|apply FN; exact G].
Qed.

(** ** C156
    Unless one of the three refusals above happens, whatever else is refused and
    whenever: the connection is closed once and is gone, nothing released was
    touched, and of its blocks only buffers and bodies are left, all of them but
    one (they are never freed: C84). *)
Theorem C156_partial : forall tun qs mem sd, Forall posts_body qs ->
  (forall x, refused (asks_con tun qs) mem = Some x -> deadly x sd = false) ->
  exists e, wcon tun qs mem sd = Ok e /\ w_con e = false /\ w_closes e = 1 /\
    zlen (w_live e) = Z.max 0 (kept (asks_con tun qs) mem - 1).
Proof.
  intros tun qs mem sd PB H. pose proof (wcon_good tun qs mem sd PB) as G.
  destruct (refused (asks_con tun qs) mem) as [x|]; [rewrite (H x eq_refl) in G|]; exact G.
Qed.
Print Assumptions C156_partial.

(** Released memory is touched exactly when one of them happens. *)
Theorem C156_exactly : forall tun qs mem sd, Forall posts_body qs ->
  wcon tun qs mem sd = Fault FUaf <->
  exists x, refused (asks_con tun qs) mem = Some x /\ deadly x sd = true.
Proof.
  intros tun qs mem sd PB. pose proof (wcon_good tun qs mem sd PB) as G. split.
  - intros E. destruct (refused (asks_con tun qs) mem) as [x|].
    + exists x. split; [reflexivity|]. destruct (deadly x sd); [reflexivity|].
      destruct G as (e & E2 & _). congruence.
    + destruct G as (e & E2 & _). congruence.
  - intros (x & E & D). rewrite E, D in G. exact G.
Qed.
Print Assumptions C156_exactly.

(** The full property: however memory is refused, the connection is closed once
    and its blocks are released. *)
Definition C156_property : Prop := forall tun qs mem sd, Forall posts_body qs ->
  exists e, wcon tun qs mem sd = Ok e /\ w_con e = false /\ w_closes e = 1 /\ w_live e = [].

(** The head of an answer: webser_rsp_hdrp gives the connection up and webser_rsp
    gives it up again. Any connection, any request. *)
Theorem C156_refuted_head : forall tun qs mem sd, Forall posts_body qs ->
  refused (asks_con tun qs) mem = Some SHead -> hd false sd = false ->
  wcon tun qs mem sd = Fault FUaf.
Proof.
  intros tun qs mem sd PB R D. apply C156_exactly; [exact PB|]. exists SHead. split; [exact R|].
  cbn [deadly]. rewrite D. reflexivity.
Qed.
Print Assumptions C156_refuted_head.
(** A request after one that was kept alive: c->data still points at the
    webser_t that webser_keepalive released. *)
Theorem C156_refuted_kept : forall tun qs mem sd x, Forall posts_body qs ->
  refused (asks_con tun qs) mem = Some x -> x = SBuf false \/ x = SWeb false ->
  wcon tun qs mem sd = Fault FUaf.
Proof.
  intros tun qs mem sd x PB R X. apply C156_exactly; [exact PB|]. exists x. split; [exact R|].
  destruct X as [-> | ->]; reflexivity.
Qed.
Print Assumptions C156_refuted_kept.

Definition file_req (k : bool) : wreq := mkReq true false true (KFile 100) true true k.
Definition post_req (k : bool) : wreq := mkReq true true true KPost true true k.
Lemma posts_all l : Forall (fun q => match q_kind q with KPost => q_body q | _ => true end = true) l -> Forall posts_body l.
Proof.
  apply Forall_impl. intros q E K. rewrite K in E. exact E.
Qed.

Theorem C156_property_refuted : ~ C156_property.
Proof.
  intros H. destruct (H false [file_req false] [true; true; true; false] []) as (e & E & _).
  - apply posts_all. repeat constructor.
  - vm_compute in E. discriminate.
Qed.
Print Assumptions C156_property_refuted.

(** a request kept alive, then a posted one whose answer is refused its payload:
    the first buffer and the body are left *)
Example ex_C156_partial :
  let qs := [file_req true; post_req false] in
  let mem := [true; true; true; true; true; true; true; true; true; false] in
  Forall posts_body qs /\ refused (asks_con false qs) mem = Some SPay /\
  (exists e, wcon false qs mem [] = Ok e /\ closed e 2) /\
  (** the payload of the file is refused, on a TLS connection whose shutdown waits *)
  refused (asks_con true [file_req true]) [true; true; true; true; true; false] = Some SPay /\
  (exists e, wcon true [file_req true] [true; true; true; true; true; false] [true] = Ok e /\ closed e 1).
Proof.
  cbn zeta. split; [apply posts_all; repeat constructor|]. split; [vm_compute; reflexivity|].
  split; [|split; [vm_compute; reflexivity|]]; eexists; (split; [vm_compute; reflexivity|]);
    repeat split; reflexivity.
Qed.
(** the deadly refusals, and the head on a connection whose shutdown waits *)
Example ex_C156_exactly :
  refused (asks_con false [file_req false]) [true; true; true; false] = Some SHead /\
  wcon false [file_req false] [true; true; true; false] [] = Fault FUaf /\
  (exists e, wcon false [file_req false] [true; true; true; false] [true] = Ok e /\ closed e 0) /\
  refused (asks_con false [file_req true]) [true; true; true; true; true; false] = Some (SBuf false) /\
  wcon false [file_req true] [true; true; true; true; true; false] [true] = Fault FUaf /\
  refused (asks_con false [file_req true]) [true; true; true; true; true; true; false] = Some (SWeb false) /\
  wcon false [file_req true] [true; true; true; true; true; true; false] [] = Fault FUaf.
Proof.
  split; [vm_compute; reflexivity|]. split; [vm_compute; reflexivity|].
  split; [eexists; split; [vm_compute; reflexivity|]; repeat split; reflexivity|].
  repeat split; vm_compute; reflexivity.
Qed.
