(** * Theorems about the DNS cache: C47, C48, C80, C81 *)
From Verif Require Import Base Str_Spec Meta_Model S5_Model Hash_Model Hash_Props Dns_Model Dns_Spec Dns_Props.
From Coq Require Import String.
Local Open Scope Z_scope.
Local Open Scope list_scope.
Local Arguments Z.add : simpl never.
Local Arguments Z.mul : simpl never.
Local Arguments zlen : simpl never.

(** ** Histories of the cache *)
Inductive cop :=
| CAns (al : allocs) (now : Z) (q : list Z) (a : answer)   (* an answer for the name [q] *)
| CFind (q : list Z)
| CChk (now : Z).

Definition cache_step (c : cache) (o : cop) : res (option (list Z) * cache) :=
  match o with
  | CAns al now q a => let* c' := rec_store al now c q a in Ok (None, c')
  | CFind q => let* r := rec_find c q in Ok (r, c)
  | CChk now => Ok (None, rec_chk now c)
  end.
(** the results of the lookups, in order ([None] for the other operations) *)
Fixpoint cache_run (c : cache) (os : list cop) : res (list (option (list Z)) * cache) :=
  match os with
  | [] => Ok ([], c)
  | o :: r => let* p := cache_step c o in let* q := cache_run (snd p) r in Ok (fst p :: fst q, snd q)
  end.

(** ** Specification: the record of one domain, independent of the table.
    An answer makes a record only if there is none, the answer has an address and a time to
    live, and memory is available; [evict now e] says which records a pass at [now] removes.
    The milliseconds are an [int] (see C80). *)
Definition record := (Z * list Z)%type. (* expiry, address *)
Definition expiry (now : Z) (a : answer) : Z := now + Z.min (to_int32 (1000 * ans_ttl a)) 10800000.
Definition usable (al : allocs) (a : answer) : bool :=
  (0 <? ans_ttl a) && (0 <? ans_rdlen a) && (a_obj al && a_key al && a_val al).
Section Spec.
Context (evict : Z -> Z -> bool).
Definition rec_after1 (cur : option record) (o : cop) (q : list Z) : option record :=
  match o with
  | CAns al now q' a =>
      match cur with
      | Some e => Some e
      | None => if bseq q' q && usable al a then Some (expiry now a, ans_addr a) else None
      end
  | CFind _ => cur
  | CChk now => match cur with Some (x, a) => if evict now x then None else Some (x, a) | None => None end
  end.
Definition rec_after (os : list cop) (q : list Z) : option record :=
  fold_left (fun cur o => rec_after1 cur o q) os None.
Fixpoint answers (before os : list cop) : list (option (list Z)) :=
  match os with
  | [] => []
  | o :: r => (match o with CFind q => option_map snd (rec_after before q) | _ => None end) :: answers (before ++ [o]) r
  end.
End Spec.

(** ** Proof *)
Definition uniq (c : cache) : Prop := forall i b, zget c i = Some b -> NoDup (map fst b).
Definition csees (c : cache) (f : list Z -> option centry) : Prop := sees c f /\ uniq c.

Lemma bucket_find_in {A} (b : list (list Z * A)) k v : bucket_find b k = Some v -> In (k, v) b.
Proof.
  induction b as [|(k', v') b IH]; simpl; [discriminate|]. destruct (bseq k' k) eqn:E.
  - apply bseq_spec in E as ->. intros [= ->]. left. reflexivity.
  - intros H. right. auto.
Qed.
Lemma bucket_find_none {A} (b : list (list Z * A)) k : bucket_find b k = None <-> ~ In k (map fst b).
Proof.
  induction b as [|(k', v') b IH]; simpl; [tauto|]. destruct (bseq k' k) eqn:E.
  - apply bseq_spec in E as ->. split; [discriminate|]. intros H. exfalso. apply H. auto.
  - apply bseq_neq in E. rewrite IH. intuition.
Qed.

Lemma bucket_find_filter {A} (p : list Z * A -> bool) b k : NoDup (map fst b) ->
  bucket_find (filter p b) k = match bucket_find b k with Some v => if p (k, v) then Some v else None | None => None end.
Proof.
  induction b as [|(k', v') b IH]; intros N; simpl; [reflexivity|].
  inversion N as [|? ? N1 N2]; subst. specialize (IH N2).
  destruct (p (k', v')) eqn:P; simpl.
  - destruct (bseq k' k) eqn:E; [|exact IH]. apply bseq_spec in E as ->. rewrite P. reflexivity.
  - destruct (bseq k' k) eqn:E; [|exact IH]. apply bseq_spec in E as ->. rewrite P.
    apply bucket_find_none. intros H. apply N1. apply in_map_iff in H as ((k2, v2) & <- & I).
    apply filter_In in I as (I & _). simpl. apply in_map_iff. exists (k2, v2). auto.
Qed.
Lemma NoDup_filter_keys {A} (p : list Z * A -> bool) b : NoDup (map fst b) -> NoDup (map fst (filter p b)).
Proof.
  induction b as [|(k, v) b IH]; simpl; intros N; [constructor|]. inversion N as [|? ? N1 N2]; subst.
  destruct (p (k, v)); simpl; [|auto]. constructor; [|auto].
  intros H. apply N1. apply in_map_iff in H as (x & E & I). apply filter_In in I as (I & _). apply in_map_iff. eauto.
Qed.

Lemma zget_map {A B} (g : A -> B) l i : zget (map g l) i = option_map g (zget l i).
Proof. unfold zget. destruct (i <? 0); [reflexivity|]. apply nth_error_map. Qed.
Lemma zlen_map {A B} (g : A -> B) l : zlen (map g l) = zlen l.
Proof. unfold zlen. rewrite map_length. reflexivity. Qed.

Lemma rec_chk_csees now c f : csees c f ->
  csees (rec_chk now c) (fun k => match f k with Some e => if now <? ce_expire e then None else Some e | None => None end).
Proof.
  intros ((L & S) & U). split; [split|].
  - unfold rec_chk. rewrite zlen_map. exact L.
  - intros k. specialize (S k). unfold hash_find, hash_idx, rec_chk in *. rewrite zlen_map, zget_map.
    destruct (zget c (fnv1a k mod zlen c)) as [b|] eqn:G; [|discriminate S]. simpl in *.
    f_equal. rewrite bucket_find_filter by (eapply U; eauto). injection S as <-.
    destruct (bucket_find b k) as [e|]; [|reflexivity]. simpl. destruct (now <? ce_expire e); reflexivity.
  - intros i b G. unfold rec_chk in G. rewrite zget_map in G. destruct (zget c i) as [b0|] eqn:G0; [|discriminate].
    injection G as <-. apply NoDup_filter_keys. eapply U; eauto.
Qed.

Lemma rec_add_csees al now c f q addr msec c' : csees c f ->
  rec_add al now c q addr msec = Ok c' ->
  csees c' (fun k => match f k with
     | Some x => Some x
     | None => if bseq q k && (a_obj al && a_key al && a_val al) then Some (mkC (now + Z.min msec 10800000) addr) else None end).
Proof.
  intros (S & U) E. unfold rec_add in E.
  replace (if 10800000 <? msec then 10800000 else msec) with (Z.min msec 10800000) in E by (destruct (Z.ltb_spec 10800000 msec); lia).
  apply bind_ok in E as ((ok, c1) & E & [= <-]). simpl.
  destruct (list_eq_dec Z.eq_dec q []) as [->|NE].
  - (* the empty name: nothing is inserted, or the process aborts *)
    unfold hash_add in E. rewrite (proj2 S []) in E. cbn [bind] in E.
    assert (K : c1 = c /\ (f [] <> None \/ a_obj al = false)).
    { destruct (f []) eqn:F; [injection E as _ <-; split; [reflexivity|left; discriminate]|].
      destruct (a_obj al); cbn [negb] in E; [|injection E as _ <-; auto].
      change (zlen [] <=? 0) with true in E. discriminate. }
    destruct K as (-> & K). split; [|exact U]. apply sees_ext with f; [exact S|]. intros k. destruct (f k) eqn:FK; [reflexivity|].
    destruct (bseq [] k) eqn:B; [|reflexivity]. apply bseq_spec in B as <-.
    destruct K as [K|K]; [contradiction|]. rewrite K. reflexivity.
  - destruct (hash_add_sees al c f q (mkC (now + Z.min msec 10800000) addr) 288 S NE ltac:(lia)) as (ok' & c2 & E2 & _ & S2).
    rewrite E2 in E. injection E as <- <-. split; [exact S2|].
    unfold hash_add in E2. rewrite (proj2 S q) in E2. cbn [bind] in E2.
    destruct (f q) eqn:F; [injection E2 as _ <-; exact U|].
    destruct (a_obj al); cbn [negb] in E2; [|injection E2 as _ <-; exact U].
    destruct (zlen q <=? 0); [discriminate|].
    destruct (a_key al); cbn [negb] in E2; [|injection E2 as _ <-; exact U].
    change (288 <=? 0) with false in E2. cbv iota in E2.
    destruct (a_val al); cbn [negb] in E2; [|injection E2 as _ <-; exact U].
    apply bind_ok in E2 as (b & G & E2). apply bind_ok in E2 as (t' & P & E2). injection E2 as _ <-.
    destruct (zget c (hash_idx c q)) as [b0|] eqn:G0; [|discriminate]. injection G as ->.
    destruct (zput c (hash_idx c q) [b ++ [(q, mkC (now + Z.min msec 10800000) addr)]]) as [t|] eqn:P0; [|discriminate]. injection P as ->.
    intros i b1 G1. rewrite (zget_zput1 _ _ _ _ i P0) in G1. destruct (Z.eqb_spec i (hash_idx c q)); [|eapply U; eauto].
    injection G1 as <-. rewrite map_app. simpl. 
    destruct (sees_get c f q S) as (b2 & G2 & H2). rewrite G0 in G2. injection G2 as <-. rewrite F in H2.
    apply bucket_find_none in H2. pose proof (U _ _ G0) as ND.
    apply NoDup_rev in ND. rewrite <- (rev_involutive (map fst b)), <- (rev_involutive [q]), <- rev_app_distr.
    apply NoDup_rev. simpl. constructor; [|exact ND]. rewrite <- in_rev. exact H2.
Qed.

Lemma rec_store_csees al now c f q a c' : csees c f ->
  rec_store al now c q a = Ok c' ->
  csees c' (fun k => match f k with
     | Some x => Some x
     | None => if bseq q k && usable al a then Some (mkC (expiry now a) (ans_addr a)) else None end).
Proof.
  intros S E. unfold rec_store, rec_find in E. rewrite (proj2 (proj1 S) q) in E. cbn [bind] in E.
  assert (KEEP : (f q <> None \/ usable al a = false) -> csees c (fun k => match f k with
     | Some x => Some x
     | None => if bseq q k && usable al a then Some (mkC (expiry now a) (ans_addr a)) else None end)).
  { intros K. destruct S as (S & U). split; [|exact U]. apply sees_ext with f; [exact S|]. intros k.
    destruct (f k) eqn:F; [reflexivity|]. destruct (bseq q k) eqn:B; [|reflexivity]. apply bseq_spec in B as <-.
    destruct K as [K|K]; [contradiction|]. rewrite K. reflexivity. }
  destruct (f q) as [x|] eqn:F; cbn [option_map] in E.
  - injection E as <-. apply KEEP. left. discriminate.
  - destruct ((0 <? ans_ttl a) && (0 <? ans_rdlen a)) eqn:T.
    + pose proof (rec_add_csees _ _ _ _ _ _ _ _ S E) as S'. unfold usable. rewrite T. exact S'.
    + injection E as <-. apply KEEP. right. unfold usable. rewrite T. reflexivity.
Qed.

Definition e2r (e : centry) : record := (ce_expire e, ce_addr e).
Definition inverted (now x : Z) : bool := now <? x.

Lemma rec_after_app evict os o q : rec_after evict (os ++ [o]) q = rec_after1 evict (rec_after evict os q) o q.
Proof. unfold rec_after. rewrite fold_left_app. reflexivity. Qed.

Lemma cache_run_answers : forall os c before f r c',
  csees c f -> (forall k, option_map e2r (f k) = rec_after inverted before k) ->
  cache_run c os = Ok (r, c') -> r = answers inverted before os.
Proof.
  induction os as [|o os IH]; intros c before f r c' S E R; simpl in R.
  - injection R as <- _. reflexivity.
  - apply bind_ok in R as ((a, c1) & R1 & R). apply bind_ok in R as ((a2, c2) & R2 & R).
    injection R as <- <-. simpl. simpl in R2.
    destruct o as [al now q a0|q|now]; simpl in R1.
    + apply bind_ok in R1 as (c3 & R1 & [= <- <-]). f_equal.
      eapply IH; [eapply rec_store_csees; eauto| |exact R2].
      intros k. rewrite rec_after_app, <- E. simpl. destruct (f k); simpl; [reflexivity|].
      destruct (bseq q k && usable al a0); reflexivity.
    + apply bind_ok in R1 as (x & R1 & [= <- <-]). unfold rec_find in R1. rewrite (proj2 (proj1 S) q) in R1. injection R1 as <-.
      f_equal; [rewrite <- E; destruct (f q); reflexivity|].
      eapply IH; [exact S| |exact R2]. intros k. rewrite rec_after_app, <- E. reflexivity.
    + injection R1 as <- <-. f_equal. eapply IH; [eapply rec_chk_csees; eauto| |exact R2].
      intros k. rewrite rec_after_app, <- E. simpl. destruct (f k) as [e|]; simpl; [|reflexivity].
      unfold inverted. destruct (now <? ce_expire e); reflexivity.
Qed.

Lemma cache_run_progress : forall os c f, csees c f ->
  Forall (fun o => match o with CAns _ _ q _ => q <> [] | _ => True end) os ->
  exists r c', cache_run c os = Ok (r, c').
Proof.
  induction os as [|o os IH]; intros c f S F; simpl; [eauto|].
  assert (ST : exists a c1 f1, cache_step c o = Ok (a, c1) /\ csees c1 f1).
  { destruct o as [al now q a|q|now]; simpl.
    - pose proof (Forall_inv F) as N. simpl in N.
      assert (A : exists c1, rec_store al now c q a = Ok c1).
      { unfold rec_store, rec_find. rewrite (proj2 (proj1 S) q). cbn [bind].
        destruct (f q); cbn [option_map]; [eauto|]. destruct ((0 <? ans_ttl a) && (0 <? ans_rdlen a)); [|eauto].
        unfold rec_add. match goal with |- context [hash_add _ _ _ ?v _] => 
          destruct (hash_add_sees al c f q v 288 (proj1 S) N ltac:(lia)) as (ok & c2 & E2 & _) end.
        rewrite E2. simpl. eauto. }
      destruct A as (c1 & A). rewrite A. simpl. do 3 eexists. split; [reflexivity|]. eapply rec_store_csees; eauto.
    - unfold rec_find. rewrite (proj2 (proj1 S) q). simpl. eauto 6.
    - do 3 eexists. split; [reflexivity|]. apply rec_chk_csees. eassumption. }
  destruct ST as (a & c1 & f1 & -> & S1). simpl.
  destruct (IH c1 f1 S1 (Forall_inv_tail F)) as (r & c' & ->). simpl. eauto.
Qed.

(** the empty cache of dns_init: 279 buckets *)
Definition cache0 : cache := zrepeat [] 279.
Lemma cache0_csees : csees cache0 (fun _ => None).
Proof.
  split.
  - exact (create_sees 279 ltac:(lia)).
  - intros i b G. apply zget_In in G. apply repeat_spec in G. subst. constructor.
Qed.

(** ** C47: lookups return only what was recorded for exactly this domain

    Every answer of every history is the specified one; in particular a returned address
    comes from an insertion for the same name. *)
Lemma answers_nth : forall os evict before i q, zget os i = Some (CFind q) ->
  zget (answers evict before os) i = Some (option_map snd (rec_after evict (before ++ ztake i os) q)).
Proof.
  induction os as [|o os IH]; intros evict before i q G.
  - apply zget_some_range in G. change (zlen (@nil cop)) with 0 in G. lia.
  - destruct (Z.eq_dec i 0) as [->|N].
    + rewrite zget_0 in G. injection G as ->. simpl. rewrite app_nil_r. reflexivity.
    + pose proof (zget_some_range _ _ _ G) as R. rewrite zget_cons in G by lia. simpl.
      rewrite zget_cons by lia. rewrite (IH _ _ _ _ G), <- app_assoc.
      rewrite ztake_cons by lia. reflexivity.
Qed.

Lemma rec_after_source evict q x a : forall os, rec_after evict os q = Some (x, a) ->
  exists h1 al now b h2, os = h1 ++ CAns al now q b :: h2 /\
    (usable al b = true /\ ans_addr b = a) /\ x = expiry now b /\
    rec_after evict h1 q = None /\
    Forall (fun o => match o with CChk t => evict t x = false | _ => True end) h2.
Proof.
  intros os. induction os as [|o os IH] using rev_ind; [discriminate|].
  rewrite rec_after_app. intros H.
  assert (OLD : rec_after evict os q = Some (x, a) -> (forall t, o = CChk t -> evict t x = false) ->
    exists h1 al now b h2, os ++ [o] = h1 ++ CAns al now q b :: h2 /\
    (usable al b = true /\ ans_addr b = a) /\ x = expiry now b /\ rec_after evict h1 q = None /\
    Forall (fun o => match o with CChk t => evict t x = false | _ => True end) h2).
  { intros E C. destruct (IH E) as (h1 & al & now & b & h2 & -> & A & X & N & F).
    exists h1, al, now, b, (h2 ++ [o]). rewrite <- app_assoc. split; [reflexivity|]. split; [exact A|].
    split; [exact X|]. split; [exact N|]. apply Forall_app. split; [exact F|]. constructor; [|constructor].
    destruct o; auto. }
  destruct o as [al now q' b|q'|t]; simpl in H.
  - destruct (rec_after evict os q) as [e|] eqn:E.
    + apply OLD; [congruence|discriminate].
    + destruct (bseq q' q) eqn:B; simpl in H; [|discriminate]. apply bseq_spec in B as ->.
      destruct (usable al b) eqn:A; [|discriminate]. injection H as <- <-.
      exists os, al, now, b, []. repeat split; auto.
  - apply OLD; [exact H|discriminate].
  - destruct (rec_after evict os q) as [(x0, a0)|] eqn:E; [|discriminate]. destruct (evict t x0) eqn:V; [discriminate|].
    injection H as -> ->. apply OLD; [reflexivity|]. intros t' [= <-]. exact V.
Qed.

Theorem C47_recorded_for_this_domain : forall os r c' i q a,
  cache_run cache0 os = Ok (r, c') ->
  zget os i = Some (CFind q) -> zget r i = Some (Some a) ->
  exists h1 al now b h2,
    ztake i os = h1 ++ CAns al now q b :: h2 /\ ans_addr b = a /\
    0 < ans_ttl b /\ 0 < ans_rdlen b /\ a_obj al = true /\ a_key al = true /\ a_val al = true /\
    (* and no pass in between evicted it *)
    Forall (fun o => match o with CChk t => (t <? expiry now b) = false | _ => True end) h2.
Proof.
  intros os r c' i q a R G Z. pose proof (cache_run_answers os cache0 [] _ r c' cache0_csees (fun _ => eq_refl) R) as ->.
  rewrite (answers_nth os inverted [] i q G) in Z. simpl in Z.
  destruct (rec_after inverted (ztake i os) q) as [(x, a')|] eqn:E; [|discriminate]. injection Z as ->.
  destruct (rec_after_source _ _ _ _ _ E) as (h1 & al & now & b & h2 & EQ & (A & <-) & X & _ & F).
  exists h1, al, now, b, h2. subst x. unfold usable in A. rewrite !andb_true_iff in A.
  repeat split; auto; lia || tauto.
Qed.
Print Assumptions C47_recorded_for_this_domain.

(** and conversely every lookup that should find something does *)
Theorem C47_complete : forall os r c' i q,
  cache_run cache0 os = Ok (r, c') -> zget os i = Some (CFind q) ->
  zget r i = Some (option_map snd (rec_after inverted (ztake i os) q)).
Proof.
  intros os r c' i q R G. pose proof (cache_run_answers os cache0 [] _ r c' cache0_csees (fun _ => eq_refl) R) as ->.
  apply (answers_nth os inverted [] i q G).
Qed.
Print Assumptions C47_complete.

Definition ok3 := mkAllocs true true true.
Definition cdemo : list cop :=
  [ CAns ok3 0 (str "a.com") (mkAnswer [1;1;1;1] 1 4); CAns ok3 5 (str "b.com") (mkAnswer [2;2;2;2] 90000 4);
    CAns ok3 9 (str "a.com") (mkAnswer [3;3;3;3] 1 4); CFind (str "a.com"); CChk 1000; CFind (str "a.com"); CFind (str "b.com");
    CFind (str "c.com") ].
Example C47_demo : exists c', cache_run cache0 cdemo =
  Ok ([None; None; None; Some [1;1;1;1]; None; Some [1;1;1;1]; None; None], c').
Proof.
  assert (P : match cache_run cache0 cdemo with Ok (r, _) => 
     forallb (fun p => match p with (Some a, Some b) => bseq a b | (None, None) => true | _ => false end)
      (combine r [None; None; None; Some [1;1;1;1]; None; Some [1;1;1;1]; None; None]) && (zlen r =? 8) | _ => false end = true)
    by (vm_compute; reflexivity).
  destruct (cache_run_progress cdemo cache0 _ cache0_csees) as (r & c' & E).
  { repeat constructor; discriminate. }
  exists c'. rewrite E. rewrite (cache_run_answers cdemo cache0 [] _ r c' cache0_csees (fun _ => eq_refl) E).
  vm_compute. reflexivity.
Qed.

(** ** C48: expiry. The specification evicts exactly the expired records. *)
Definition expired (now x : Z) : bool := x <=? now.
Definition C48_property : Prop := forall os r c',
  cache_run cache0 os = Ok (r, c') -> r = answers expired [] os.

Theorem C48_expiry_refuted :
  (* an expired record survives the pass and is returned *)
  (exists r c', cache_run cache0 [CAns ok3 0 (str "a.com") (mkAnswer [1;1;1;1] 60 4); CChk 3600000; CFind (str "a.com")] = Ok (r, c') /\
     r = [None; None; Some [1;1;1;1]]) /\
  (* a fresh record is thrown away *)
  (exists r c', cache_run cache0 [CAns ok3 0 (str "a.com") (mkAnswer [1;1;1;1] 3600 4); CChk 30000; CFind (str "a.com")] = Ok (r, c') /\
     r = [None; None; None]) /\ ~ C48_property.
Proof.
  assert (A : forall os, Forall (fun o => match o with CAns _ _ q _ => q <> [] | _ => True end) os ->
    exists r c', cache_run cache0 os = Ok (r, c') /\ r = answers inverted [] os).
  { intros os F. destruct (cache_run_progress os cache0 _ cache0_csees F) as (r & c' & E). exists r, c'. split; [exact E|].
    exact (cache_run_answers os cache0 [] _ r c' cache0_csees (fun _ => eq_refl) E). }
  assert (A1 := A [CAns ok3 0 (str "a.com") (mkAnswer [1;1;1;1] 60 4); CChk 3600000; CFind (str "a.com")] ltac:(repeat constructor; discriminate)).
  assert (A2 := A [CAns ok3 0 (str "a.com") (mkAnswer [1;1;1;1] 3600 4); CChk 30000; CFind (str "a.com")] ltac:(repeat constructor; discriminate)).
  destruct A1 as (r1 & c1 & E1 & R1). destruct A2 as (r2 & c2 & E2 & R2).
  split; [exists r1, c1; split; [exact E1|rewrite R1; reflexivity]|].
  split; [exists r2, c2; split; [exact E2|rewrite R2; reflexivity]|].
  intros P. pose proof (P _ _ _ E1) as X. rewrite R1 in X. vm_compute in X. discriminate X.
Qed.
Print Assumptions C48_expiry_refuted.

(** what holds: without an eviction pass nothing is lost; and a pass is consistent: it
    keeps exactly the records with expiry at or before its time *)
Theorem C48_expiry_partial : forall os r c' i q h1 al now a h2,
  cache_run cache0 os = Ok (r, c') -> zget os i = Some (CFind q) ->
  ztake i os = h1 ++ CAns al now q a :: h2 ->
  rec_after inverted h1 q = None -> usable al a = true ->
  Forall (fun o => match o with CChk t => expiry now a <= t | _ => True end) h2 ->
  zget r i = Some (Some (ans_addr a)).
Proof.
  intros os r c' i q h1 al now a h2 R G T N A F.
  rewrite (C47_complete os r c' i q R G), T.
  assert (K : forall h, Forall (fun o => match o with CChk t => expiry now a <= t | _ => True end) h ->
     rec_after inverted (h1 ++ CAns al now q a :: h) q = Some (expiry now a, ans_addr a)).
  { intros h. induction h as [|o h IH] using rev_ind; intros FH.
    - rewrite rec_after_app, N. simpl. rewrite (proj2 (bseq_spec q q) eq_refl), A. reflexivity.
    - apply Forall_app in FH as (FH & FO). replace (h1 ++ CAns al now q a :: h ++ [o]) with ((h1 ++ CAns al now q a :: h) ++ [o]) by (rewrite <- app_assoc; reflexivity).
      rewrite rec_after_app, (IH FH). apply Forall_inv in FO. destruct o as [| |t]; simpl; auto.
      unfold inverted. destruct (Z.ltb_spec t (expiry now a)); [lia|reflexivity]. }
  rewrite (K h2 F). reflexivity.
Qed.
Print Assumptions C48_expiry_partial.

Example C48_demo :
  let os := [CAns ok3 0 (str "a.com") (mkAnswer [1;1;1;1] 1 4); CFind (str "b.com"); CChk 1000; CFind (str "a.com")] in
  ztake 3 os = [] ++ CAns ok3 0 (str "a.com") (mkAnswer [1;1;1;1] 1 4) :: [CFind (str "b.com"); CChk 1000] /\
  rec_after inverted [] (str "a.com") = None /\ zget os 3 = Some (CFind (str "a.com")).
Proof. repeat split. Qed.

(** ** C80: the time to live of an answer is honoured (capped at three hours) *)
Lemma cache_run_sees : forall os c0 f before r c, csees c0 f ->
  (forall k, option_map e2r (f k) = rec_after inverted before k) -> cache_run c0 os = Ok (r, c) ->
  exists f', csees c f' /\ forall k, option_map e2r (f' k) = rec_after inverted (before ++ os) k.
Proof.
  induction os as [|o os IH]; intros c0 f before r c S E R; simpl in R.
  - injection R as _ <-. exists f. rewrite app_nil_r. auto.
  - apply bind_ok in R as ((a1, c1) & R1 & R). apply bind_ok in R as ((a2, c2) & R2 & R). injection R as _ <-.
    simpl in R2. replace (before ++ o :: os) with ((before ++ [o]) ++ os) by (rewrite <- app_assoc; reflexivity).
    destruct o as [al now q a|q|now]; simpl in R1.
    + apply bind_ok in R1 as (c3 & R1 & [= _ <-]). eapply IH; [eapply rec_store_csees; eauto| |exact R2].
      intros k. rewrite rec_after_app, <- E. simpl. destruct (f k); simpl; [reflexivity|].
      destruct (bseq q k && usable al a); reflexivity.
    + apply bind_ok in R1 as (x & R1 & [= _ <-]). eapply IH; [exact S| |exact R2].
      intros k. rewrite rec_after_app, <- E. reflexivity.
    + injection R1 as _ <-. eapply IH; [eapply rec_chk_csees; eauto| |exact R2].
      intros k. rewrite rec_after_app, <- E. simpl. destruct (f k) as [e|]; simpl; [|reflexivity].
      unfold inverted. destruct (now <? ce_expire e); reflexivity.
Qed.

(** after any history in which the name has no record any more, the answer is recorded with
    now plus its time to live, and the record found is the first one made *)
Definition ttl_kept (now ttl : Z) : Prop := forall os r c q a c',
  cache_run cache0 os = Ok (r, c) -> rec_find c q = Ok None ->
  rec_store ok3 now c q a = Ok c' -> q <> [] -> ans_ttl a = ttl -> 0 < ttl -> 0 < ans_rdlen a ->
  hash_find c' q = Ok (Some (mkC (now + Z.min (1000 * ttl) 10800000) (ans_addr a))) /\
  forall k, k <> q -> hash_find c' k = hash_find c k.

Theorem C80_ttl_partial : forall now ttl, ttl <= 2147483 -> ttl_kept now ttl.
Proof.
  intros now ttl L os r c q a c' RUN NONE R NE T P RD.
  destruct (cache_run_sees os cache0 _ [] r c cache0_csees (fun _ => eq_refl) RUN) as (f & S & _).
  assert (f q = None) as FN.
  { unfold rec_find in NONE. rewrite (proj2 (proj1 S) q) in NONE. simpl in NONE. destruct (f q); [discriminate|reflexivity]. }
  pose proof (rec_store_csees _ _ _ _ _ _ _ S R) as ((_ & S') & _).
  assert (usable ok3 a = true) as US by (unfold usable; rewrite !andb_true_iff; repeat split; lia).
  split.
  - rewrite S', FN, (proj2 (bseq_spec q q) eq_refl), US. simpl. unfold expiry.
    assert (I : to_int32 (1000 * ttl) = 1000 * ttl).
    { unfold to_int32. rewrite Z.mod_small by lia. destruct (Z.ltb_spec (1000 * ttl) 2147483648); lia. }
    rewrite T, I. reflexivity.
  - intros k N. rewrite S', (proj2 (proj1 S) k). destruct (f k); [reflexivity|].
    destruct (bseq q k) eqn:B; [|reflexivity]. apply bseq_spec in B. congruence.
Qed.
Print Assumptions C80_ttl_partial.

(** 25 days (2147484 s) wrap to a negative number: the record is stored as already expired *)
Theorem C80_ttl_refuted : exists a c' e,
  ans_ttl a = 2147484 /\ ans_rdlen a = 4 /\
  rec_store ok3 0 cache0 (str "a.com") a = Ok c' /\ hash_find c' (str "a.com") = Ok (Some e) /\ ce_expire e < 0.
Proof.
  set (a := mkAnswer [1;1;1;1] 2147484 4).
  assert (P : match rec_store ok3 0 cache0 (str "a.com") a with
     Ok c => match hash_find c (str "a.com") with Ok (Some e) => ce_expire e <? 0 | _ => false end | _ => false end = true)
    by (vm_compute; reflexivity).
  destruct (rec_store ok3 0 cache0 (str "a.com") a) as [c'| |] eqn:E; [|discriminate P|discriminate P].
  destruct (hash_find c' (str "a.com")) as [[e|]| |] eqn:H; try discriminate P.
  exists a, c', e. repeat split; auto. lia.
Qed.
Print Assumptions C80_ttl_refuted.

Example C80_demo : exists c' e, rec_store ok3 7 cache0 (str "a.com") (mkAnswer [1;1;1;1] 300 4) = Ok c' /\
  hash_find c' (str "a.com") = Ok (Some e) /\ ce_expire e = 300007.
Proof.
  assert (A : exists c', rec_store ok3 7 cache0 (str "a.com") (mkAnswer [1;1;1;1] 300 4) = Ok c').
  { eexists. vm_compute. reflexivity. }
  destruct A as (c' & A). exists c', (mkC 300007 [1;1;1;1]). split; [exact A|]. split; [|reflexivity].
  assert (F : rec_find cache0 (str "a.com") = Ok None) by (unfold rec_find; rewrite (proj2 (proj1 cache0_csees) (str "a.com")); reflexivity).
  assert (RUN : cache_run cache0 [] = Ok ([], cache0)) by reflexivity.
  exact (proj1 (C80_ttl_partial 7 300 ltac:(lia) [] [] cache0 (str "a.com") (mkAnswer [1;1;1;1] 300 4) c' RUN F A ltac:(discriminate) eq_refl ltac:(lia) ltac:(simpl; lia))).
Qed.

(** ** C81: every answer can be recorded

    A SOCKS5 domain that starts with a zero byte is the empty C string: the query for
    it is sent, and the answer aborts the process. *)
Theorem C81_record_any_answer_refuted : exists m qlen pkt a,
  dns_packet [] = Ok (m, qlen) /\ dns_response qlen [RxData pkt] = Ok (DAnswer a) /\
  rec_store ok3 0 cache0 [] a = Fault FAbort.
Proof.
  assert (P : match dns_packet [] with Ok (_, n) => n =? 1 | _ => false end = true) by (vm_compute; reflexivity).
  destruct (dns_packet []) as [(m, n)| |]; [|discriminate P|discriminate P].
  exists m, n, (response 48879 33152 1 0 0 [0] (enc_rr (mkRR [192; 12] 1 1 60 [93; 184; 216; 34]))), (mkAnswer [93; 184; 216; 34] 60 4).
  split; [reflexivity|]. replace n with 1 by lia. split; vm_compute; reflexivity.
Qed.
Print Assumptions C81_record_any_answer_refuted.

(** with a non-empty name every answer is recorded (or dropped for lack of memory) after
    any history of the cache *)
Theorem C81_record_any_answer_partial : forall os r c al now q a,
  cache_run cache0 os = Ok (r, c) -> q <> [] -> exists c', rec_store al now c q a = Ok c'.
Proof.
  intros os r c al now q a R NE.
  destruct (cache_run_sees os cache0 _ [] r c cache0_csees (fun _ => eq_refl) R) as (f & S & _).
  unfold rec_store, rec_find. rewrite (proj2 (proj1 S) q). simpl.
  destruct (f q); simpl; [eauto|]. destruct ((0 <? ans_ttl a) && (0 <? ans_rdlen a)); [|eauto].
  unfold rec_add. match goal with |- context [hash_add _ _ _ ?v _] => 
    destruct (hash_add_sees al c f q v 288 (proj1 S) NE ltac:(lia)) as (ok & c2 & E2 & _) end.
  rewrite E2. simpl. eauto.
Qed.
Print Assumptions C81_record_any_answer_partial.

Example C81_demo : exists r c, cache_run cache0 cdemo = Ok (r, c) /\ str "x.org" <> [].
Proof. destruct C47_demo as (c & E). do 2 eexists. split; [exact E|discriminate]. Qed.
