(** * Properties of growable arrays and lists: C19, C82 *)
From Verif Require Import Base Queue_Model Queue_Proofs Arr_Model.
Local Arguments Z.add : simpl never.
Local Arguments Z.sub : simpl never.
Local Arguments zlen : simpl never.

(** representation: the chain from [p] visits exactly [l] *)
Fixpoint chain (nx1 : Z -> Z) (p : Z) (l : list Z) : Prop :=
  match l with [] => p = 0 | x :: r => p = x /\ x <> 0 /\ chain nx1 (nx1 x) r end.

Lemma chain_frame nx1 nx2 : forall l p, (forall y, In y l -> nx2 y = nx1 y) -> chain nx1 p l -> chain nx2 p l.
Proof.
  induction l as [|x l IH]; intros p E C; [exact C|]. destruct C as (A & B & C). split; [exact A|]. split; [exact B|].
  rewrite E by (left; reflexivity). apply IH; [intros; apply E; right; assumption|exact C].
Qed.
Lemma chain_app nx1 q : forall l p x, NoDup (l ++ [x]) -> ~ In q (l ++ [x]) -> q <> 0 ->
  chain nx1 p (l ++ [x]) -> chain (upd (upd nx1 q 0) x q) p ((l ++ [x]) ++ [q]).
Proof.
  induction l as [|y l IH]; intros p x N NI Q C; simpl in *.
  - destruct C as (A & B & C). split; [exact A|]. split; [exact B|]. rewrite upd_same. split; [reflexivity|]. split; [exact Q|].
    rewrite upd_other by (intros ->; tauto). apply upd_same.
  - destruct C as (A & B & C). split; [exact A|]. split; [exact B|]. inversion N as [|? ? NY NL]; subst.
    rewrite (upd_other _ x q y), (upd_other _ q 0 y).
    + apply IH; try assumption. tauto.
    + intros ->. tauto.
    + intros ->. apply NY. apply in_or_app. right. left. reflexivity.
Qed.

(** ** Arrays *)
Definition arr_rep (a : arr) (l : list Z) : Prop :=
  chain (a_next a) (a_head a) l /\ a_num a = zlen l /\ (l <> [] -> a_last a = last l 0) /\ NoDup l /\ ~ In 0 l.

Lemma arr_create_rep nx0 : arr_rep (arr_create nx0) [].
Proof. split; [reflexivity|]. split; [reflexivity|]. split; [intros X; congruence|]. split; [constructor|intros []]. Qed.

Lemma arr_push_ok a l p : arr_rep a l -> p <> 0 -> ~ In p l ->
  exists a', arr_push a (Some p) = Ok (Some p, a') /\ arr_rep a' (l ++ [p]).
Proof.
  intros (C & N & LA & ND & Z0) P NI. unfold arr_push. cbv zeta.
  assert (NDA : NoDup (l ++ [p])). { apply (NoDup_Add (a := p) (l := l)); [rewrite <- (app_nil_r l) at 1; apply Add_app|auto]. }
  assert (Z0A : ~ In 0 (l ++ [p])) by (rewrite in_app_iff; simpl; intuition).
  destruct (exists_last' l) as [->|(l1 & x & ->)].
  - change (zlen (@nil Z)) with 0 in N. rewrite N. cbn [Z.eqb]. eexists. split; [reflexivity|]. cbn [a_next a_head a_num a_last app].
    split; [simpl; split; [reflexivity|split; [exact P|apply upd_same]]|]. split; [reflexivity|]. split; [reflexivity|]. split; assumption.
  - rewrite zlen_app, zlen_cons in N. change (zlen (@nil Z)) with 0 in N. pose proof (zlen_nonneg l1).
    destruct (Z.eqb_spec (a_num a) 0); [lia|].
    rewrite LA by (destruct l1; discriminate). rewrite last_last. destruct (Z.eqb_spec x 0) as [E|NE].
    { exfalso. apply Z0. apply in_or_app. right. left. exact E. }
    eexists. split; [reflexivity|]. cbn [a_next a_head a_num a_last].
    split; [apply chain_app; auto|]. split; [rewrite !zlen_app, !zlen_cons; change (zlen (@nil Z)) with 0; cbn [a_num]; lia|].
    split; [intros _; rewrite last_last; reflexivity|]. split; assumption.
Qed.

Lemma arr_skip_chain nx1 : forall n l p, chain nx1 p l -> (n < length l)%nat -> arr_skip nx1 n p = Ok (nth n l 0).
Proof.
  induction n as [|n IH]; intros l p C B; destruct l as [|x l]; simpl in B; try lia; destruct C as (-> & X & C); simpl; rewrite z0 by exact X; [reflexivity|].
  apply IH; [exact C|lia].
Qed.

(** histories of pushes: for each push what the allocator returned *)
Fixpoint push_all (a : arr) (rs : list (option Z)) : res (list (option Z) * arr) :=
  match rs with
  | [] => Ok ([], a)
  | r :: t => let* x := arr_push a r in let* y := push_all (snd x) t in Ok (fst x :: fst y, snd y)
  end.
Fixpoint somes (rs : list (option Z)) : list Z :=
  match rs with [] => [] | Some p :: t => p :: somes t | None :: t => somes t end.

Lemma push_all_rep : forall rs a l, arr_rep a l -> NoDup (l ++ somes rs) -> ~ In 0 (somes rs) ->
  exists a', push_all a rs = Ok (rs, a') /\ arr_rep a' (l ++ somes rs).
Proof.
  induction rs as [|[p|] rs IH]; intros a l R N Z0; cbn [push_all somes] in *.
  - rewrite app_nil_r. eauto.
  - pose proof (NoDup_remove _ _ _ N) as (_ & NI). rewrite in_app_iff in NI.
    destruct (arr_push_ok a l p R) as (a1 & E & R1); [simpl in Z0; intros ->; tauto|tauto|].
    rewrite E. cbn [bind fst snd]. destruct (IH a1 (l ++ [p]) R1) as (a2 & E2 & R2).
    + rewrite <- app_assoc. exact N.
    + simpl in Z0. tauto.
    + rewrite E2. cbn [bind fst snd]. rewrite <- app_assoc in R2. eauto.
  - cbn [arr_push bind fst snd]. destruct (IH a l R N Z0) as (a2 & E2 & R2). rewrite E2. cbn [bind fst snd]. eauto.
Qed.

(** C19, arrays. For every sequence of pushes, whatever the allocator answers each time:
    each push returns the block the allocator gave (nothing when it had none), position i
    is the block of the i-th successful push, and positions outside 1..n give nothing. *)
Theorem C19_array : forall nx0 rs,
  NoDup (somes rs) -> ~ In 0 (somes rs) ->
  exists a, push_all (arr_create nx0) rs = Ok (rs, a) /\
    (forall i, 1 <= i <= zlen (somes rs) -> exists p, zget (somes rs) (i - 1) = Some p /\ arr_get a i = Ok (Some p)) /\
    (forall i, i < 1 \/ zlen (somes rs) < i -> arr_get a i = Ok None).
Proof.
  intros nx0 rs N Z0.
  destruct (push_all_rep rs (arr_create nx0) []) as (a & E & (C & NU & _)).
  - apply arr_create_rep.
  - exact N.
  - exact Z0.
  - cbn [app] in *. exists a. split; [exact E|]. split.
    + intros i B. unfold arr_get. destruct (Z.ltb_spec i 1); [lia|]. rewrite NU. destruct (Z.ltb_spec (zlen (somes rs)) i); [lia|]. cbn [orb].
      assert (B' : (Z.to_nat (i - 1) < length (somes rs))%nat) by (unfold zlen in B; lia).
      rewrite (arr_skip_chain _ _ _ _ C B'). cbn [bind]. exists (nth (Z.to_nat (i - 1)) (somes rs) 0). split; [|reflexivity].
      unfold zget. destruct (Z.ltb_spec (i - 1) 0); [lia|]. apply nth_error_nth'. exact B'.
    + intros i B. unfold arr_get. rewrite NU. destruct (Z.ltb_spec i 1); [reflexivity|]. destruct (Z.ltb_spec (zlen (somes rs)) i); [reflexivity|lia].
Qed.
Print Assumptions C19_array.
Example C19_array_case : NoDup (somes [Some 7; None; Some 3; Some 9]) /\ ~ In 0 (somes [Some 7; None; Some 3; Some 9]).
Proof. split; [repeat (constructor; [simpl; lia|]); constructor|simpl; lia]. Qed.

(** ** Lists *)
Definition list_rep (s : slist) (l : list (Z * list Z)) : Prop :=
  chain (s_next s) (s_head s) (map fst l) /\ NoDup (map fst l) /\ ~ In 0 (map fst l) /\
  forall p d, In (p, d) l -> s_data s p = d ++ [0].

Lemma list_end_chain nx1 : forall l p x f, chain nx1 p (l ++ [x]) -> (length l < f)%nat -> list_end f nx1 p = Ok x.
Proof.
  induction l as [|y l IH]; intros p x f C B; destruct f as [|f]; simpl in B; try lia.
  - simpl in C. destruct C as (-> & X & C). simpl. rewrite (z0 x X), C. reflexivity.
  - cbn [app chain] in C. destruct C as (-> & Y & C). simpl. rewrite (z0 y Y).
    destruct (Z.eqb_spec (nx1 y) 0) as [E|NE]; [|apply IH; [exact C|lia]].
    exfalso. destruct l as [|? ?]; cbn [app chain] in C; destruct C as (C1 & C2 & _); congruence.
Qed.

Fixpoint lpush_all (fuel : nat) (s : slist) (rs : list (option Z * list Z)) : res (list Z * slist) :=
  match rs with
  | [] => Ok ([], s)
  | (r, d) :: t => let* x := list_push fuel s r d in let* y := lpush_all fuel (snd x) t in Ok (fst x :: fst y, snd y)
  end.
(** which pushes succeed: the string fits the largest block and there was a block *)
Fixpoint pushed (rs : list (option Z * list Z)) : list (Z * list Z) :=
  match rs with
  | [] => []
  | (Some p, d) :: t => if zlen d <=? 16367 then (p, d) :: pushed t else pushed t
  | (None, _) :: t => pushed t
  end.
Definition rcs (rs : list (option Z * list Z)) : list Z :=
  map (fun x => match x with (Some _, d) => if zlen d <=? 16367 then 0 else -1 | _ => -1 end) rs.

Lemma list_push_ok s l p d f : list_rep s l -> p <> 0 -> ~ In p (map fst l) -> zlen d <= 16367 -> (length l <= f)%nat ->
  exists s', list_push f s (Some p) d = Ok (0, s') /\ list_rep s' (l ++ [(p, d)]).
Proof.
  intros (C & ND & Z0 & D) P NI B F. unfold list_push. destruct (Z.ltb_spec 16384 (16 + zlen d + 1)); [lia|]. cbv zeta.
  assert (NDA : NoDup (map fst l ++ [p])). { apply (NoDup_Add (a := p) (l := map fst l)); [rewrite <- (app_nil_r (map fst l)) at 1; apply Add_app|auto]. }
  assert (Z0A : ~ In 0 (map fst l ++ [p])) by (rewrite in_app_iff; simpl; intuition).
  assert (DA : forall q e, In (q, e) (l ++ [(p, d)]) -> upd (s_data s) p (d ++ [0]) q = e ++ [0]).
  { intros q e X. apply in_app_iff in X as [X|[X|[]]].
    - rewrite upd_other; [apply D; exact X|]. intros ->. apply NI. apply in_map_iff. exists (p, e). auto.
    - injection X as <- <-. apply upd_same. }
  destruct (exists_last' (map fst l)) as [E|(l1 & x & E)].
  - assert (l = []) by (destruct l; [reflexivity|discriminate]). subst l. cbn [map chain] in C. rewrite C. cbn [Z.eqb].
    eexists. split; [reflexivity|]. split; [|split; [|split]]; cbn [s_next s_head s_data app map fst]; auto.
    simpl. split; [reflexivity|]. split; [exact P|apply upd_same].
  - rewrite E in *. assert (H0 : s_head s <> 0). { destruct l1; cbn [app chain] in C; destruct C as (-> & X & _); exact X. }
    rewrite (z0 _ H0). assert (C' : chain (upd (s_next s) p 0) (s_head s) (l1 ++ [x])).
    { eapply chain_frame; [|exact C]. intros y Y. apply upd_other. intros ->. tauto. }
    rewrite (list_end_chain _ _ _ _ f C'). 2:{ assert (LL : length (map fst l) = length (l1 ++ [x])) by (rewrite E; reflexivity). rewrite map_length, app_length in LL. simpl in LL. lia. }
    cbn [bind]. eexists. split; [reflexivity|]. split; [|split; [|split]]; cbn [s_next s_head s_data]; try (rewrite map_app, E; cbn [map fst]; assumption); [|exact DA].
    rewrite map_app, E. cbn [map fst]. apply chain_app; auto.
Qed.

Lemma lpush_all_rep f : forall rs s l, list_rep s l -> NoDup (map fst l ++ map fst (pushed rs)) -> ~ In 0 (map fst (pushed rs)) ->
  (length l + length rs <= f)%nat ->
  exists s', lpush_all f s rs = Ok (rcs rs, s') /\ list_rep s' (l ++ pushed rs).
Proof.
  induction rs as [|([p|], d) rs IH]; intros s l R N Z0 F; cbn [lpush_all pushed length] in *.
  - rewrite app_nil_r. cbn [rcs map]. eauto.
  - unfold rcs. cbn [map]. fold (rcs rs). destruct (Z.leb_spec (zlen d) 16367) as [B|B].
    + cbn [map fst] in N, Z0. pose proof (NoDup_remove _ _ _ N) as (_ & NI). rewrite in_app_iff in NI.
      destruct (list_push_ok s l p d f R) as (s1 & E & R1); [simpl in Z0; intros ->; tauto|tauto|exact B|lia|].
      rewrite E. cbn [bind fst snd]. destruct (IH s1 (l ++ [(p, d)]) R1) as (s2 & E2 & R2).
      * rewrite map_app, <- app_assoc. exact N.
      * simpl in Z0. tauto.
      * rewrite app_length. simpl. lia.
      * rewrite E2. cbn [bind fst snd]. rewrite <- app_assoc in R2. eauto.
    + unfold list_push. destruct (Z.ltb_spec 16384 (16 + zlen d + 1)); [|lia]. cbn [bind fst snd].
      destruct (IH s l R N Z0) as (s2 & E2 & R2); [lia|]. rewrite E2. cbn [bind fst snd]. eauto.
  - unfold rcs. cbn [map]. fold (rcs rs). unfold list_push. destruct (Z.ltb_spec 16384 (16 + zlen d + 1)); cbn [bind fst snd];
    (destruct (IH s l R N Z0) as (s2 & E2 & R2); [lia|]); rewrite E2; cbn [bind fst snd]; eauto.
Qed.

(** reading a list: from the head along next *)
Fixpoint list_read (fuel : nat) (s : slist) (p : Z) : res (list (list Z)) :=
  if p =? 0 then Ok []
  else match fuel with O => NoFuel | S f => let* l := list_read f s (s_next s p) in Ok (s_data s p :: l) end.
Lemma list_read_ok s : forall l p f, chain (s_next s) p (map fst l) -> (forall q d, In (q, d) l -> s_data s q = d ++ [0]) -> (length l <= f)%nat ->
  list_read f s p = Ok (map (fun e => snd e ++ [0]) l).
Proof.
  induction l as [|(q, d) l IH]; intros p f C D F; cbn [map fst chain length] in *.
  - subst p. destruct f; reflexivity.
  - destruct C as (-> & Q & C). destruct f as [|f]; [lia|]. cbn [list_read]. rewrite (z0 q Q), (IH _ f C); [|intros; apply D; right; assumption|lia].
    cbn [bind snd]. rewrite (D q d) by (left; reflexivity). reflexivity.
Qed.

(** C19, lists. A push reports failure exactly when the string is longer than the largest
    block holds or there is no block, and reading the list gives exactly the strings of the
    successful pushes, NUL terminated, in order. *)
Theorem C19_list : forall nx0 dt0 rs f,
  NoDup (map fst (pushed rs)) -> ~ In 0 (map fst (pushed rs)) -> (length rs <= f)%nat ->
  exists s, lpush_all f (mkSl 0 nx0 dt0) rs = Ok (rcs rs, s) /\
    list_read f s (s_head s) = Ok (map (fun e => snd e ++ [0]) (pushed rs)).
Proof.
  intros nx0 dt0 rs f N Z0 F. destruct (lpush_all_rep f rs (mkSl 0 nx0 dt0) []) as (s & E & (C & _ & _ & D)); try assumption.
  - split; [reflexivity|]. split; [constructor|]. split; [intros []|]. intros p d [].
  - cbn [app] in *. exists s. split; [exact E|]. apply list_read_ok; [exact C|exact D|].
    assert (P : (length (pushed rs) <= length rs)%nat).
    { clear. induction rs as [|([p|], d) rs IH]; cbn [pushed length]; [lia| |lia]. destruct (zlen d <=? 16367); cbn [length]; lia. }
    lia.
Qed.
Print Assumptions C19_list.
Example C19_list_case : forall rs, rs = [(Some 5, [104; 105]); (None, [1]); (Some 9, [])] ->
  NoDup (map fst (pushed rs)) /\ ~ In 0 (map fst (pushed rs)) /\ (length rs <= 3)%nat.
Proof. intros rs ->. split; [|split; [simpl; lia|simpl; lia]]. simpl. repeat (constructor; [simpl; lia|]); constructor. Qed.

(** ** Release *)
Lemma free_chain_ok nx1 : forall l p f, chain nx1 p l -> (length l <= f)%nat -> free_chain f nx1 p = Ok l.
Proof.
  induction l as [|x l IH]; intros p f C F; simpl in *.
  - subst p. destruct f; reflexivity.
  - destruct C as (-> & X & C). destruct f as [|f]; [lia|]. simpl. rewrite (z0 x X). rewrite (IH _ f C) by lia. reflexivity.
Qed.

(** C82. Releasing an array frees exactly the blocks of its successful pushes, each once;
    likewise a list. *)
Theorem C82_array_release : forall nx0 rs a f,
  NoDup (somes rs) -> ~ In 0 (somes rs) -> push_all (arr_create nx0) rs = Ok (rs, a) -> (length rs <= f)%nat ->
  arr_free f a = Ok (somes rs).
Proof.
  intros nx0 rs a f N Z0 E F.
  destruct (push_all_rep rs (arr_create nx0) []) as (a' & E' & (C & _)).
  - apply arr_create_rep.
  - exact N.
  - exact Z0.
  - rewrite E in E'. injection E' as <-. apply free_chain_ok; [exact C|]. cbn [app].
    assert (P : (length (somes rs) <= length rs)%nat) by (clear; induction rs as [|[p|] rs IH]; simpl; lia). lia.
Qed.
Print Assumptions C82_array_release.
Theorem C82_list_release : forall nx0 dt0 rs f s,
  NoDup (map fst (pushed rs)) -> ~ In 0 (map fst (pushed rs)) -> (length rs <= f)%nat ->
  lpush_all f (mkSl 0 nx0 dt0) rs = Ok (rcs rs, s) -> list_free f s = Ok (map fst (pushed rs)).
Proof.
  intros nx0 dt0 rs f s N Z0 F E. destruct (lpush_all_rep f rs (mkSl 0 nx0 dt0) []) as (s' & E' & (C & _)); try assumption.
  - split; [reflexivity|]. split; [constructor|]. split; [intros []|]. intros p d [].
  - rewrite E in E'. injection E' as <-. apply free_chain_ok; [exact C|]. cbn [app]. rewrite map_length.
    assert (P : (length (pushed rs) <= length rs)%nat).
    { clear. induction rs as [|([p|], d) rs IH]; cbn [pushed length]; [lia| |lia]. destruct (zlen d <=? 16367); cbn [length]; lia. }
    lia.
Qed.
Print Assumptions C82_list_release.
Example C82_case :
  match push_all (arr_create (fun _ => 99)) [Some 7; None; Some 3; Some 9] with Ok (_, a) => arr_free 4 a = Ok [7; 3; 9] | _ => False end.
Proof. vm_compute. reflexivity. Qed.
