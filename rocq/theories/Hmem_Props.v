(** * Theorems about the memory of a hash table: C130 *)
From Coq Require Import Permutation.
From Verif Require Import Base Hash_Model Hmem_Model.
Open Scope Z_scope.

Section P.
Context {A : Type}.

(** ** Specification: the blocks a table is made of *)
Definition blocks (os : list (hobj A)) : list Z := flat_map (fun o => [o_obj o; o_key o; o_val o]) os.
Definition owned (m : hmem A) : list Z := h_hdr m :: h_arr m :: blocks (concat (h_bk m)).

(** the pool gives out blocks that are not in use (C03); the rest of the program, whose
    blocks are [rest], takes new ones and gives back its own; no empty keys or values *)
Definition some_list (l : list (option Z)) : list Z := flat_map (fun a => match a with Some x => [x] | None => [] end) l.
Definition fair (rest : list Z) (m : hmem A) (o : mop A) : Prop :=
  match o with
  | MAdd a1 a2 a3 k v n => NoDup (some_list [a1; a2; a3] ++ h_live m) /\ 0 < zlen k /\ 0 < n
  | MTake a => ~ In a (h_live m)
  | MGive a => In a rest
  | _ => True
  end.
Definition rest_after (rest : list Z) (o : mop A) : list Z :=
  match o with MTake a => a :: rest | MGive a => remove Z.eq_dec a rest | _ => rest end.
Fixpoint fair_run (rest : list Z) (m : hmem A) (os : list (mop A)) : Prop :=
  match os with
  | [] => True
  | o :: r => fair rest m o /\ forall m', mstep m o = Ok m' -> fair_run (rest_after rest o) m' r
  end.
Definition rest_end (rest : list Z) (os : list (mop A)) : list Z := fold_left rest_after os rest.

(** what the table contains, and what the uses do to that (Hash_Model.v) *)
Definition content (m : hmem A) : table A := map (map (fun o => (o_k o, o_v o))) (h_bk m).
Definition given (a : option Z) : bool := match a with Some _ => true | None => false end.
Definition estep (t : table A) (o : mop A) : res (table A) :=
  match o with
  | MAdd a1 a2 a3 k v n => let* p := hash_add (mkAllocs (given a1) (given a2) (given a3)) t k v n in Ok (snd p)
  | MDel k => hash_del t k
  | MChk d => Ok (map (filter (fun e => negb (d (snd e)))) t)
  | _ => Ok t
  end.
Fixpoint erun (t : table A) (os : list (mop A)) : res (table A) :=
  match os with [] => Ok t | o :: r => let* t' := estep t o in erun t' r end.

(** ** Lemmas *)
Lemma blocks_app a b : blocks (a ++ b) = blocks a ++ blocks b.
Proof. unfold blocks. apply flat_map_app. Qed.
Lemma inb a l : In a l -> existsb (Z.eqb a) l = true.
Proof. intros H. apply existsb_exists. exists a. split; [exact H|apply Z.eqb_refl]. Qed.
Lemma use_ok l a : In a l -> use l a = Ok tt.
Proof. intros H. unfold use. rewrite (inb _ _ H). reflexivity. Qed.
Lemma rel_ok live a L : NoDup live -> Permutation live (a :: L) ->
  exists l, rel live a = Ok l /\ Permutation l L /\ NoDup l.
Proof.
  intros N P. exists (remove Z.eq_dec a live). unfold rel.
  rewrite (inb a live) by (eapply Permutation_in; [symmetry; exact P|left; reflexivity]).
  split; [reflexivity|].
  assert (NoDup (a :: L)) as N2 by (eapply Permutation_NoDup; eauto). inversion N2 as [|x y N3 N4]; subst.
  assert (NoDup (remove Z.eq_dec a live)) as N5.
  { clear - N. induction live as [|x l IH]; [constructor|]. inversion N; subst. cbn.
    destruct (Z.eq_dec a x); [auto|]. constructor; [|auto]. intros H. apply in_remove in H. tauto. }
  split; [|exact N5]. apply NoDup_Permutation; [exact N5|exact N4|]. intros x. split; intros H.
  - apply in_remove in H. destruct H as [H1 H2]. apply (Permutation_in _ P) in H1. destruct H1; [congruence|assumption].
  - apply in_in_remove; [intros ->; contradiction|]. apply (Permutation_in _ (Permutation_sym P)). right. exact H.
Qed.

Lemma rel_obj_ok live (o : hobj A) R : NoDup live -> Permutation live ([o_obj o; o_key o; o_val o] ++ R) ->
  exists l, rel_obj live o = Ok l /\ Permutation l R /\ NoDup l.
Proof.
  intros N P. unfold rel_obj.
  destruct (rel_ok live (o_key o) ([o_obj o; o_val o] ++ R) N) as (l1 & E1 & P1 & N1).
  { rewrite P. cbn. apply perm_swap. }
  rewrite E1. cbn [bind].
  destruct (rel_ok l1 (o_val o) ([o_obj o] ++ R) N1) as (l2 & E2 & P2 & N2).
  { rewrite P1. cbn. apply perm_swap. }
  rewrite E2. cbn [bind].
  rewrite use_ok by (eapply Permutation_in; [symmetry; exact P2|left; reflexivity]). cbn [bind].
  destruct (rel_ok l2 (o_obj o) R N2) as (l3 & E3 & P3 & N3); [exact P2|]. eauto.
Qed.

Section Walk.
Context (test : list Z -> hobj A -> res bool) (f : hobj A -> bool).
Context (T : forall l o, In (o_obj o) l -> In (o_key o) l -> In (o_val o) l -> test l o = Ok (f o)).
Lemma bk_walk_ok : forall b live R, NoDup live -> Permutation live (blocks b ++ R) ->
  exists l, bk_walk test live b = Ok (filter (fun o => negb (f o)) b, l) /\
    Permutation l (blocks (filter (fun o => negb (f o)) b) ++ R) /\ NoDup l.
Proof.
  induction b as [|o b IH]; intros live R N P; [exists live; cbn in *; auto|].
  cbn [bk_walk]. change (blocks (o :: b)) with ([o_obj o; o_key o; o_val o] ++ blocks b) in P.
  rewrite T; [|eapply Permutation_in; [symmetry; exact P|cbn; auto]..]. cbn [bind filter].
  rewrite <- app_assoc in P. destruct (f o) eqn:Fo; cbn [negb].
  - destruct (rel_obj_ok live o (blocks b ++ R) N P) as (l & E & P1 & N1). rewrite E. cbn [bind]. apply IH; assumption.
  - destruct (IH live ([o_obj o; o_key o; o_val o] ++ R) N) as (l & E & P1 & N1).
    { rewrite P, !app_assoc. apply Permutation_app_tail. apply Permutation_app_comm. }
    rewrite E. cbn [bind fst snd]. exists l. split; [reflexivity|]. split; [|exact N1].
    rewrite P1. change (blocks (o :: filter (fun o => negb (f o)) b)) with ([o_obj o; o_key o; o_val o] ++ blocks (filter (fun o => negb (f o)) b)).
    rewrite !app_assoc. apply Permutation_app_tail. apply Permutation_app_comm.
Qed.
Lemma bks_walk_ok : forall bs live R, NoDup live -> Permutation live (blocks (concat bs) ++ R) ->
  exists l, bks_walk test live bs = Ok (map (filter (fun o => negb (f o))) bs, l) /\
    Permutation l (blocks (concat (map (filter (fun o => negb (f o))) bs)) ++ R) /\ NoDup l.
Proof.
  induction bs as [|b bs IH]; intros live R N P; [exists live; cbn in *; auto|].
  cbn [bks_walk concat map] in *. rewrite blocks_app, <- app_assoc in P.
  destruct (bk_walk_ok b live _ N P) as (l & E & P1 & N1). rewrite E. cbn [bind fst snd].
  destruct (IH l (blocks (filter (fun o => negb (f o)) b) ++ R) N1) as (l2 & E2 & P2 & N2).
  { rewrite P1, !app_assoc. apply Permutation_app_tail. apply Permutation_app_comm. }
  rewrite E2. cbn [bind fst snd]. exists l2. split; [reflexivity|]. split; [|exact N2].
  rewrite P2, blocks_app, !app_assoc. apply Permutation_app_tail. apply Permutation_app_comm.
Qed.
End Walk.

(** the invariant *)
Record inv (rest : list Z) (m : hmem A) : Prop := {
  i_nd : NoDup (h_live m);
  i_pm : Permutation (h_live m) (owned m ++ rest);
  i_ln : 0 < zlen (h_bk m) }.

Lemma inv_in rest m x : inv rest m -> In x (owned m) -> In x (h_live m).
Proof. intros I H. eapply Permutation_in; [symmetry; apply (i_pm _ _ I)|]. apply in_or_app. auto. Qed.
Lemma use_hdr {B} rest m (k : res B) : inv rest m ->
  (let* _ := use (h_live m) (h_hdr m) in let* _ := use (h_live m) (h_arr m) in k) = k.
Proof.
  intros I. rewrite !use_ok by (eapply inv_in; [exact I|cbn; auto]). reflexivity.
Qed.

Lemma idx_range rest m k : inv rest m -> 0 <= hm_idx m k < zlen (h_bk m).
Proof. intros I. apply Z.mod_pos_bound. apply (i_ln _ _ I). Qed.
Lemma zget_split {B} (l : list B) i : 0 <= i < zlen l -> exists b, zget l i = Some b /\
  exists l1 l2, l = l1 ++ b :: l2 /\ zlen l1 = i.
Proof.
  revert i. induction l as [|x l IH]; intros i H; [change (zlen (@nil B)) with 0 in H; lia|].
  destruct (Z.eq_dec i 0) as [->|Ne].
  - exists x. split; [apply zget_0|]. exists [], l. split; reflexivity.
  - rewrite zlen_cons in H. destruct (IH (i - 1)) as (b & G & l1 & l2 & E & L); [lia|].
    exists b. rewrite zget_cons by lia. split; [exact G|]. exists (x :: l1), l2. rewrite E. split; [reflexivity|].
    rewrite zlen_cons. lia.
Qed.
Lemma zput_split {B} (l1 : list B) b l2 x : zput (l1 ++ b :: l2) (zlen l1) [x] = Some (l1 ++ x :: l2).
Proof.
  rewrite zput_ok by (rewrite ?zlen_app, ?zlen_cons; change (zlen [x]) with 1; change (zlen (@nil B)) with 0; pose proof (zlen_nonneg l1); pose proof (zlen_nonneg l2); lia).
  change (zlen [x]) with 1. f_equal.
  replace (ztake (zlen l1) (l1 ++ b :: l2)) with l1.
  2:{ rewrite ztake_app_l by lia. rewrite ztake_all by lia. reflexivity. }
  replace (zdrop (zlen l1 + 1) (l1 ++ b :: l2)) with l2; [reflexivity|].
  change (l1 ++ b :: l2) with (l1 ++ [b] ++ l2). rewrite app_assoc.
  replace (zlen l1 + 1) with (zlen (l1 ++ [b])) by (rewrite zlen_app; reflexivity).
  rewrite zdrop_app_r by lia. rewrite Z.sub_diag. reflexivity.
Qed.

Lemma match_key_ok k l (o : hobj A) : In (o_obj o) l -> In (o_key o) l -> In (o_val o) l -> match_key l k o = Ok (bseq (o_k o) k).
Proof.
  intros H1 H2 _. unfold match_key. rewrite use_ok by exact H1. cbn [bind]. rewrite use_ok by exact H2. cbn [bind].
  destruct (Z.eqb_spec (zlen (o_k o)) (zlen k)) as [E|E]; [reflexivity|].
  destruct (bseq (o_k o) k) eqn:Q; [|reflexivity]. apply bseq_spec in Q. congruence.
Qed.
Definition kv (o : hobj A) : list Z * A := (o_k o, o_v o).
Lemma bk_find_ok k live (b : list (hobj A)) : (forall x, In x (blocks b) -> In x live) ->
  bk_find live k b = Ok (bucket_find (map kv b) k).
Proof.
  induction b as [|o b IH]; intros H; [reflexivity|]. cbn [bk_find map].
  change (blocks (o :: b)) with ([o_obj o; o_key o; o_val o] ++ blocks b) in H.
  rewrite match_key_ok by (apply H; cbn; auto). cbn [bind]. unfold kv at 1. cbn [bucket_find].
  destruct (bseq (o_k o) k); [rewrite use_ok by (apply H; cbn; auto); reflexivity|].
  apply IH. intros x X. apply H. apply in_or_app. auto.
Qed.

Lemma zget_map' {B C} (f : B -> C) l i : zget (map f l) i = option_map f (zget l i).
Proof. unfold zget. destruct (i <? 0); [reflexivity|]. apply nth_error_map. Qed.
Lemma content_idx m k : hash_idx (content m) k = hm_idx m k.
Proof. unfold hash_idx, hm_idx, content, zlen. rewrite map_length. reflexivity. Qed.

Lemma bk_in (bs1 : list (list (hobj A))) b bs2 x : In x (blocks b) -> In x (blocks (concat (bs1 ++ b :: bs2))).
Proof. intros H. rewrite concat_app. cbn [concat]. rewrite !blocks_app. apply in_or_app. right. apply in_or_app. auto. Qed.

Lemma find_ok rest m k : inv rest m -> exists r, hm_find m k = Ok r /\ hash_find (content m) k = Ok r.
Proof.
  intros I. unfold hm_find. rewrite (use_hdr rest) by exact I.
  destruct (zget_split (h_bk m) (hm_idx m k) (idx_range _ _ k I)) as (b & G & l1 & l2 & E & L).
  rewrite G. cbn [of_opt bind]. rewrite bk_find_ok.
  - eexists. split; [reflexivity|]. unfold hash_find. rewrite content_idx. unfold content. rewrite zget_map', G. reflexivity.
  - intros x X. apply (inv_in _ _ _ I). unfold owned. right. right. rewrite E. apply bk_in. exact X.
Qed.

Lemma perm_mid (bs1 : list (list (hobj A))) b bs2 X :
  Permutation (blocks (concat (bs1 ++ b :: bs2)) ++ X) (blocks b ++ (blocks (concat bs1) ++ blocks (concat bs2) ++ X)).
Proof.
  rewrite concat_app. cbn [concat]. rewrite !blocks_app, <- !app_assoc.
  rewrite !app_assoc. apply Permutation_app_tail. apply Permutation_app_tail. apply Permutation_app_comm.
Qed.
Lemma owned_perm m bs1 b bs2 rest : h_bk m = bs1 ++ b :: bs2 ->
  Permutation (owned m ++ rest) (blocks b ++ ([h_hdr m; h_arr m] ++ blocks (concat bs1) ++ blocks (concat bs2) ++ rest)).
Proof.
  intros E. unfold owned. rewrite E.
  change ((h_hdr m :: h_arr m :: blocks (concat (bs1 ++ b :: bs2))) ++ rest) with
    ([h_hdr m; h_arr m] ++ (blocks (concat (bs1 ++ b :: bs2)) ++ rest)).
  rewrite perm_mid, !app_assoc. do 3 apply Permutation_app_tail. apply Permutation_app_comm.
Qed.

Lemma owned_flat m rest : Permutation (owned m ++ rest) (blocks (concat (h_bk m)) ++ [h_hdr m; h_arr m] ++ rest).
Proof.
  unfold owned. change ((h_hdr m :: h_arr m :: blocks (concat (h_bk m))) ++ rest) with ([h_hdr m; h_arr m] ++ (blocks (concat (h_bk m)) ++ rest)).
  rewrite !app_assoc. apply Permutation_app_tail. apply Permutation_app_comm.
Qed.

Lemma del_ok rest m k : inv rest m -> exists m', hm_del m k = Ok m' /\ inv rest m' /\ hash_del (content m) k = Ok (content m').
Proof.
  intros I. unfold hm_del. rewrite (use_hdr rest) by exact I.
  destruct (zget_split (h_bk m) (hm_idx m k) (idx_range _ _ k I)) as (b & G & l1 & l2 & E & L).
  rewrite G. cbn [of_opt bind].
  destruct (bk_walk_ok (fun l o => match_key l k o) (fun o => bseq (o_k o) k) (match_key_ok k) b (h_live m)
    ([h_hdr m; h_arr m] ++ blocks (concat l1) ++ blocks (concat l2) ++ rest) (i_nd _ _ I)) as (l & W & P & N).
  { rewrite (i_pm _ _ I). apply owned_perm. exact E. }
  rewrite W. cbn [bind fst snd]. rewrite E, <- L, zput_split. cbn [of_opt bind]. eexists. split; [reflexivity|]. split.
  - constructor; cbn [h_live h_bk]; [exact N| |rewrite zlen_app, zlen_cons; pose proof (zlen_nonneg l1); pose proof (zlen_nonneg l2); lia].
    etransitivity; [exact P|]. symmetry. apply (owned_perm (mkHm (h_hdr m) (h_arr m) (l1 ++ _ :: l2) l)). reflexivity.
  - unfold hash_del. rewrite content_idx. unfold content at 1. rewrite zget_map', G. cbn [option_map of_opt bind].
    unfold content at 1. rewrite E, map_app. cbn [map]. rewrite <- L.
    replace (zlen l1) with (zlen (map (map (fun o : hobj A => (o_k o, o_v o))) l1)) by (unfold zlen; rewrite map_length; reflexivity).
    rewrite zput_split. cbn [of_opt]. unfold content. cbn [h_bk]. rewrite map_app. cbn [map]. do 3 f_equal.
    unfold bucket_del. clear. induction b as [|o b IH]; [reflexivity|]. cbn. destruct (bseq (o_k o) k); cbn; [exact IH|]. f_equal. exact IH.
Qed.

Lemma chk_ok rest m d : inv rest m -> exists m', hm_chk d m = Ok m' /\ inv rest m' /\ content m' = map (filter (fun e => negb (d (snd e)))) (content m).
Proof.
  intros I. unfold hm_chk. rewrite (use_hdr rest) by exact I.
  destruct (bks_walk_ok (fun l o => let* _ := use l (o_obj o) in let* _ := use l (o_val o) in Ok (d (o_v o))) (fun o => d (o_v o))) with
    (bs := h_bk m) (live := h_live m) (R := [h_hdr m; h_arr m] ++ rest) as (l & W & P & N).
  - intros l o H1 _ H3. rewrite !use_ok by assumption. reflexivity.
  - apply (i_nd _ _ I).
  - etransitivity; [apply (i_pm _ _ I)|apply owned_flat].
  - rewrite W. cbn [bind fst snd]. eexists. split; [reflexivity|]. split.
    + constructor; cbn [h_live h_bk]; [exact N| |unfold zlen; rewrite map_length; apply (i_ln _ _ I)].
      etransitivity; [exact P|]. symmetry. apply (owned_flat (mkHm (h_hdr m) (h_arr m) _ l)).
    + unfold content. cbn [h_bk]. rewrite !map_map. apply map_ext. intros b. clear.
      induction b as [|o b IH]; [reflexivity|]. cbn. destruct (d (o_v o)); cbn; [exact IH|]. f_equal. exact IH.
Qed.

Lemma free_ok rest m : inv rest m -> exists l, hm_free m = Ok l /\ Permutation l rest /\ NoDup l.
Proof.
  intros I. unfold hm_free. rewrite (use_hdr rest) by exact I.
  destruct (bks_walk_ok (fun l o => let* _ := use l (o_obj o) in Ok true) (fun _ => true)) with
    (bs := h_bk m) (live := h_live m) (R := [h_hdr m; h_arr m] ++ rest) as (l & W & P & N).
  - intros l o H1 _ _. rewrite use_ok by assumption. reflexivity.
  - apply (i_nd _ _ I).
  - etransitivity; [apply (i_pm _ _ I)|apply owned_flat].
  - rewrite W. cbn [bind fst snd].
    assert (concat (map (filter (fun o : hobj A => negb true)) (h_bk m)) = []) as C.
    { clear. induction (h_bk m) as [|b bs IH]; [reflexivity|]. cbn [map concat]. rewrite IH, app_nil_r. induction b; [reflexivity|assumption]. }
    rewrite C in P. cbn [blocks flat_map app] in P.
    rewrite use_ok by (eapply Permutation_in; [symmetry; exact P|cbn; auto]). cbn [bind].
    destruct (rel_ok l (h_arr m) (h_hdr m :: rest) N) as (l1 & E1 & P1 & N1); [rewrite P; apply perm_swap|].
    rewrite E1. cbn [bind]. destruct (rel_ok l1 (h_hdr m) rest N1 P1) as (l2 & E2 & P2 & N2). eauto.
Qed.

Lemma nd_cons (a : Z) l : NoDup (a :: l) -> ~ In a l /\ NoDup l.
Proof. intros H. inversion H; auto. Qed.

Lemma add_ok rest m a1 a2 a3 k v n : inv rest m -> fair rest m (MAdd a1 a2 a3 k v n) ->
  exists b m', hm_add m a1 a2 a3 k v n = Ok (b, m') /\ inv rest m' /\ hash_add (mkAllocs (given a1) (given a2) (given a3)) (content m) k v n = Ok (b, content m').
Proof.
  intros I (F & K & V). unfold hm_add, hash_add. destruct (find_ok rest m k I) as (r & E1 & E2). rewrite E1, E2. cbn [bind].
  destruct r as [x|]; [eexists _, _; split; [reflexivity|]; split; [exact I|reflexivity]|].
  destruct a1 as [o|]; cbn [given a_obj a_key a_val negb]; [|eexists _, _; split; [reflexivity|]; split; [exact I|reflexivity]].
  destruct (Z.leb_spec (zlen k) 0); [lia|].
  destruct a2 as [ka|]; cbn [given negb].
  2:{ destruct (rel_ok (o :: h_live m) o (h_live m)) as (l & R1 & R2 & R3); [|reflexivity|].
      { destruct a3; cbn in F; [inversion F; subst|exact F].
        constructor; [|inversion F as [|? ? F1 F2]; subst; inversion F2; assumption].
        intros X. inversion F as [|? ? F1 F2]; subst. apply F1. right. exact X. }
      rewrite R1. cbn [bind]. eexists _, _. split; [reflexivity|]. split; [|reflexivity].
      constructor; cbn [h_live h_bk]; [exact R3|etransitivity; [exact R2|apply (i_pm _ _ I)]|apply (i_ln _ _ I)]. }
  destruct (Z.leb_spec n 0); [lia|].
  destruct a3 as [va|]; cbn [given negb].
  2:{ cbn in F. destruct (rel_ok (ka :: o :: h_live m) ka (o :: h_live m)) as (l & R1 & R2 & R3); [|reflexivity|].
      { eapply Permutation_NoDup; [apply perm_swap|exact F]. }
      rewrite R1. cbn [bind].
      destruct (rel_ok l o (h_live m) R3 R2) as (l2 & S1 & S2 & S3).
      rewrite S1. cbn [bind]. eexists _, _. split; [reflexivity|]. split; [|reflexivity].
      constructor; cbn [h_live h_bk]; [exact S3|etransitivity; [exact S2|apply (i_pm _ _ I)]|apply (i_ln _ _ I)]. }
  destruct (zget_split (h_bk m) (hm_idx m k) (idx_range _ _ k I)) as (b & G & l1 & l2 & E & L).
  rewrite G, content_idx. unfold content at 1. rewrite zget_map', G. cbn [option_map of_opt bind].
  rewrite E, <- L, zput_split. cbn [of_opt bind]. eexists _, _. split; [reflexivity|]. split.
  - constructor; cbn [h_live h_bk]; [| |rewrite zlen_app, zlen_cons; pose proof (zlen_nonneg l1); pose proof (zlen_nonneg l2); lia].
    + cbn in F. eapply Permutation_NoDup; [|exact F].
      transitivity (ka :: o :: va :: h_live m); [apply perm_swap|]. transitivity (ka :: va :: o :: h_live m); [apply perm_skip, perm_swap|apply perm_swap].
    + rewrite (owned_perm _ l1 (b ++ [mkObj o ka va k v]) l2) by reflexivity. cbn [h_hdr h_arr].
      pose proof (owned_perm m l1 b l2 rest E) as Q. set (X := [h_hdr m; h_arr m] ++ blocks (concat l1) ++ blocks (concat l2) ++ rest) in *.
      transitivity ([o; ka; va] ++ h_live m); [symmetry; cbn; transitivity (ka :: o :: va :: h_live m); [apply perm_swap|]; transitivity (ka :: va :: o :: h_live m); [apply perm_skip, perm_swap|apply perm_swap]|].
      transitivity ([o; ka; va] ++ blocks b ++ X); [apply Permutation_app_head; etransitivity; [apply (i_pm _ _ I)|exact Q]|].
      rewrite blocks_app. change (blocks [mkObj o ka va k v]) with [o; ka; va].
      rewrite !app_assoc. apply Permutation_app_tail. apply Permutation_app_comm.
  - unfold content at 1. rewrite E, map_app. cbn [map]. 
    replace (zlen l1) with (zlen (map (map (fun o : hobj A => (o_k o, o_v o))) l1)) by (unfold zlen; rewrite map_length; reflexivity).
    rewrite zput_split. cbn [of_opt bind]. unfold content. cbn [h_bk]. rewrite map_app. cbn [map]. rewrite map_app. reflexivity.
Qed.

Lemma create_inv live a1 a2 n m l : NoDup (a1 :: a2 :: live) -> 0 < n -> hm_create live (Some a1) (Some a2) n = Ok (Some m, l) ->
  inv live m /\ h_live m = l /\ content m = zrepeat [] n.
Proof.
  intros N Hn H. unfold hm_create in H. destruct (Z.leb_spec (n * 16) 0); [lia|]. injection H as <- <-.
  split; [|split; [reflexivity|]].
  - constructor; cbn [h_live h_bk].
    + eapply Permutation_NoDup; [apply perm_swap|exact N].
    + unfold owned. cbn [h_hdr h_arr h_bk].
      assert (concat (zrepeat (@nil (hobj A)) n) = []) as ->; [|apply perm_swap].
      unfold zrepeat. induction (Z.to_nat n); [reflexivity|assumption].
    + rewrite zlen_zrepeat by lia. exact Hn.
  - unfold content. cbn [h_bk]. unfold zrepeat. induction (Z.to_nat n) as [|k IH]; [reflexivity|]. cbn. f_equal. exact IH.
Qed.

Lemma mrun_ok : forall os rest m, inv rest m -> fair_run rest m os ->
  exists m', mrun m os = Ok m' /\ inv (rest_end rest os) m' /\ erun (content m) os = Ok (content m').
Proof.
  induction os as [|o os IH]; intros rest m I F; [exists m; auto|].
  cbn [mrun erun fair_run rest_end fold_left] in *. destruct F as [F FR].
  assert (exists m', mstep m o = Ok m' /\ inv (rest_after rest o) m' /\ estep (content m) o = Ok (content m')) as (m' & E1 & I1 & C1).
  { destruct o as [a1 a2 a3 k v n|k|k|d|a|a]; cbn [mstep estep rest_after].
    - destruct (add_ok rest m a1 a2 a3 k v n I F) as (b & m' & E & I' & C). rewrite E, C. cbn. eauto.
    - apply del_ok. exact I.
    - destruct (find_ok rest m k I) as (r & E & _). rewrite E. cbn. eauto.
    - destruct (chk_ok rest m d I) as (m' & E & I' & C). exists m'. rewrite C. auto.
    - eexists. split; [reflexivity|]. split; [|reflexivity]. cbn in F. constructor; cbn [h_live h_bk].
      + constructor; [exact F|apply (i_nd _ _ I)].
      + unfold owned. cbn [h_hdr h_arr h_bk]. apply Permutation_cons_app. apply (i_pm _ _ I).
      + apply (i_ln _ _ I).
    - cbn in F. assert (NoDup (owned m ++ rest)) as N by (eapply Permutation_NoDup; [apply (i_pm _ _ I)|apply (i_nd _ _ I)]).
      assert (NoDup rest) as Nr by (clear - N; induction (owned m); [exact N|inversion N; auto]).
      destruct (rel_ok rest a (remove Z.eq_dec a rest) Nr) as (l0 & _ & _ & Nr2).
      { apply NoDup_Permutation; [exact Nr| |].
        - constructor; [apply remove_In|]. clear - Nr. induction rest as [|x l IH]; [constructor|]. inversion Nr; subst. cbn.
          destruct (Z.eq_dec a x); [auto|]. constructor; [|auto]. intros H. apply in_remove in H. tauto.
        - intros x. split; intros H; [destruct (Z.eq_dec a x) as [->|Ne]; [left; reflexivity|right; apply in_in_remove; congruence]|].
          destruct H as [->|H]; [exact F|apply in_remove in H; tauto]. }
      destruct (rel_ok (h_live m) a (owned m ++ remove Z.eq_dec a rest) (i_nd _ _ I)) as (l & R1 & R2 & R3).
      { etransitivity; [apply (i_pm _ _ I)|]. symmetry.
        etransitivity; [apply Permutation_middle|]. apply Permutation_app_head. apply NoDup_Permutation; [|exact Nr|].
        - constructor; [apply remove_In|]. clear - Nr. induction rest as [|x l IH]; [constructor|]. inversion Nr; subst. cbn.
          destruct (Z.eq_dec a x); [auto|]. constructor; [|auto]. intros H. apply in_remove in H. tauto.
        - intros x. split; intros H; [destruct H as [->|H]; [exact F|apply in_remove in H; tauto]|].
          destruct (Z.eq_dec a x) as [->|Ne]; [left; reflexivity|right; apply in_in_remove; congruence]. }
      rewrite R1. cbn [bind]. eexists. split; [reflexivity|]. split; [|reflexivity].
      constructor; cbn [h_live h_bk]; [exact R3|exact R2|apply (i_ln _ _ I)]. }
  rewrite E1, C1. cbn [bind]. apply IH; [exact I1|]. apply FR. exact E1.
Qed.

End P.

(** ** C130. Whatever is done with a table, nothing that is not live is read or released; the
    live blocks are exactly those of the rest of the program, the two of the table and three
    for each entry; releasing the table gives back all of its blocks, each once, and no block
    of the rest; and the entries are those of the map (C18). *)
Theorem C130_hash_memory : forall (A : Type) live a1 a2 n m l (os : list (mop A)),
  NoDup (a1 :: a2 :: live) -> 0 < n -> hm_create live (Some a1) (Some a2) n = Ok (Some m, l) ->
  fair_run live m os ->
  exists m', mrun m os = Ok m' /\
    NoDup (h_live m') /\ Permutation (h_live m') (owned m' ++ rest_end live os) /\
    erun (zrepeat [] n) os = Ok (content m') /\
    exists left, hm_free m' = Ok left /\ NoDup left /\ Permutation left (rest_end live os).
Proof.
  intros A live a1 a2 n m l os N Hn C F. destruct (create_inv live a1 a2 n m l N Hn C) as (I & _ & Z).
  destruct (mrun_ok os live m I F) as (m' & E & I' & R). exists m'. rewrite Z in R.
  split; [exact E|]. split; [apply (i_nd _ _ I')|]. split; [apply (i_pm _ _ I')|]. split; [exact R|].
  destruct (free_ok _ _ I') as (x & X1 & X2 & X3). eauto.
Qed.
Print Assumptions C130_hash_memory.

(** a table that cannot be made leaves nothing behind *)
Theorem C130_create : forall (A : Type) live a1 a2 n r l,
  NoDup (some_list [a1; a2] ++ live) -> @hm_create A live a1 a2 n = Ok (r, l) ->
  match r with
  | None => Permutation l live
  | Some m => h_live m = l /\ exists x y, a1 = Some x /\ a2 = Some y /\ owned m = [x; y] /\ Permutation l ([x; y] ++ live)
  end.
Proof.
  intros A live a1 a2 n r l N H. unfold hm_create in H. destruct a1 as [x|]; [|injection H as <- <-; reflexivity].
  destruct (n * 16 <=? 0); [discriminate H|]. destruct a2 as [y|].
  - injection H as <- <-. split; [reflexivity|]. exists x, y. split; [reflexivity|]. split; [reflexivity|]. split; [|apply perm_swap].
    unfold owned. cbn [h_hdr h_arr h_bk]. do 2 f_equal. unfold zrepeat. induction (Z.to_nat n); [reflexivity|assumption].
  - cbn in N. destruct (rel_ok (x :: live) x live N) as (l' & E & P & _); [reflexivity|]. rewrite E in H. cbn in H. injection H as <- <-. exact P.
Qed.
Print Assumptions C130_create.

(** *** Examples *)
Definition ex_ops : list (mop Z) :=
  [MAdd (Some 5) (Some 6) (Some 7) [97] 1 8; MAdd (Some 8) None (Some 9) [98] 2 8; MTake 8;
   MAdd (Some 9) (Some 10) (Some 11) [98] 2 8; MAdd (Some 12) (Some 13) None [99] 3 8; MAdd None None None [97] 4 8;
   MDel [97]; MGive 8; MAdd (Some 7) (Some 6) (Some 5) [99; 100] 9 8; MChk (fun v => v <? 5); MFind [99; 100]].
Example ex_C130 : exists m, hm_create [1; 2] (Some 3) (Some 4) 2 = Ok (Some m, [4; 3; 1; 2]) /\
  NoDup [3; 4; 1; 2] /\ fair_run [1; 2] m ex_ops /\ rest_end [1; 2] ex_ops = [1; 2] /\
  exists m', mrun m ex_ops = Ok m' /\ blocks (concat (h_bk m')) = [7; 6; 5] /\ content m' = [[([99; 100], 9)]; []] /\
    hm_free m' = Ok [1; 2].
Proof.
  assert (forall x y z w : Z, x <> y -> x <> z -> x <> w -> y <> z -> y <> w -> z <> w -> NoDup [x; y; z; w]) as N4.
  { intros. repeat constructor; cbn; intuition congruence. }
  eexists. split; [reflexivity|]. split; [apply N4; discriminate|]. split.
  - unfold ex_ops. repeat match goal with
    | |- fair_run _ _ (_ :: _) => cbn [fair_run]
    | |- forall m', _ = Ok m' -> _ => let E := fresh in intros ? E; vm_compute in E; injection E as <-
    | |- fair_run _ _ [] => exact I
    | |- fair _ _ _ => cbn [fair]
    | |- _ /\ _ => split
    | |- NoDup _ => vm_compute; repeat constructor; cbn; intuition discriminate
    | |- True => exact I
    | |- ~ In _ _ => cbn; intuition discriminate
    | |- In _ _ => vm_compute; tauto
    | |- (_ < _)%Z => reflexivity
    end.
  - split; [reflexivity|]. eexists. split; [vm_compute; reflexivity|]. repeat split; reflexivity.
Qed.
Example ex_C130_create : @hm_create Z [1; 2] (Some 3) None 7 = Ok (None, [1; 2]) /\ NoDup (some_list [Some 3; None] ++ [1; 2]).
Proof. split; [reflexivity|]. cbn. repeat constructor; cbn; intuition discriminate. Qed.
