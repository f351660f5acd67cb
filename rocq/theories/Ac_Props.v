(** * Theorems about the key matcher: C21, C22, C23, C24, C77.

    The matcher folds all bytes >= 128 to one symbol; the specification states
    this with [collapse] and is otherwise about plain substring occurrence. *)
From Verif Require Import Base Str_Spec Ac_Model Ac_Proofs Ac_Any_Proofs.
From Coq Require Import String.

Definition collapse (b : Z) : Z := if b <? 128 then b else 0.

(** [k] occurs in [t] up to that folding; for 7-bit strings this is [occurs k t] *)
Definition contains_key (t k : list Z) : Prop := occurs (map collapse k) (map collapse t).

(** key sets in which no key has the first symbol of a key strictly between its
    own first and last symbol *)
Definition first_unique (keys : list (list Z)) : Prop :=
  forall k k' a u x v y, In k keys -> In k' keys ->
    map collapse k = a :: u -> map collapse k' = x :: v ++ [y] -> ~ In a v.

(** key sets in which no key has the first two symbols of a key at a later place *)
Definition pair_free (keys : list (list Z)) : Prop :=
  forall k k' a b u x v w, In k keys -> In k' keys ->
    map collapse k = a :: b :: u -> map collapse k' <> x :: v ++ a :: b :: w.

Definition total (keys : list (list Z)) : Z := fold_right (fun k n => zlen k + n) 0 keys.

Lemma idx_collapse b : is_byte b -> idx_of b = collapse b.
Proof.
  unfold is_byte, idx_of, collapse, EZAC_MAX. intros.
  destruct (Z.ltb_spec b 128); cbv zeta.
  - destruct (Z.ltb_spec b 0), (Z.ltb_spec 128 b); simpl; lia.
  - destruct (Z.ltb_spec (b - 256) 0); simpl; lia.
Qed.

Lemma map_idx_collapse l : bytes l -> map idx_of l = map collapse l.
Proof.
  intros H. apply map_ext_in. intros b Hb. apply idx_collapse.
  exact (proj1 (Forall_forall _ _) H b Hb).
Qed.

Lemma no_inner_of_first_unique keys :
  Forall bytes keys -> first_unique keys -> no_inner keys.
Proof.
  intros Hb F k k' a u x v y Hk Hk' E E'.
  rewrite Forall_forall in Hb.
  rewrite map_idx_collapse in E by auto. rewrite map_idx_collapse in E' by auto.
  exact (F k k' a u x v y Hk Hk' E E').
Qed.

Lemma no_pair_of_pair_free keys : Forall bytes keys -> pair_free keys -> no_pair keys.
Proof.
  intros Hb F k k' a b u x v w Hk Hk' E E'.
  rewrite Forall_forall in Hb.
  rewrite map_idx_collapse in E by auto. rewrite map_idx_collapse in E' by auto.
  exact (F k k' a b u x v w Hk Hk' E E').
Qed.

Lemma total_total_len keys : total keys = Z.of_nat (total_len keys).
Proof. induction keys; simpl; [reflexivity|]. unfold zlen. lia. Qed.

Lemma build_first_unique keys : Forall bytes keys -> first_unique keys -> total keys < 4096 ->
  exists c, ac_build keys = Ok c /\ ac_cur c = 0%nat /\ linked (ac_nodes c) keys /\
    inner_leaf (ac_nodes c) /\ root_links (ac_nodes c).
Proof.
  intros Hb F TL. pose proof (no_inner_of_first_unique _ Hb F) as D.
  destruct (build_pairs keys Hb (no_inner_no_pair _ D)) as (c & B).
  { rewrite <- total_total_len. exact TL. }
  destruct (build_linked keys c Hb B) as [L Cu]. destruct (build_inner keys c Hb D B) as [IL RL].
  exists c. auto.
Qed.

Lemma stands_root h : stands h [] 0.
Proof. split; [reflexivity|auto]. Qed.

(** ** C21 *)
Theorem C21_registered_key_accepted :
  forall keys c k, ac_build keys = Ok c -> In k keys -> k <> [] ->
    exists c', ezac_find c k = Ok (true, c').
Proof.
  intros keys c k B Hk NE. destruct (key_accepted keys c k B Hk NE) as (c' & H & _). eauto.
Qed.
Print Assumptions C21_registered_key_accepted.

Example C21_example :
  exists c, ac_build [str "auth_for_tanx"; str "guest"; str "gu"] = Ok c /\
            In (str "guest") [str "auth_for_tanx"; str "guest"; str "gu"] /\ str "guest" <> [].
Proof. eexists. split; [vm_compute; reflexivity|]. split; [simpl; auto|discriminate]. Qed.

(** ** C22 *)
Theorem C22_accepts_only_texts_with_key_refuted :
  exists keys c t c', ac_build keys = Ok c /\ ezac_find c t = Ok (true, c') /\
    Forall bytes keys /\ bytes t /\ forall k, In k keys -> ~ occurs k t.
Proof.
  exists [str "aaab"]. eexists. exists (str "aaaXab"). eexists.
  split; [vm_compute; reflexivity|]. split; [vm_compute; reflexivity|].
  split; [all_bytes|].
  split; [apply bytesb_spec; reflexivity|].
  intros k [<-|[]]. apply not_occurs. vm_compute. reflexivity.
Qed.
Print Assumptions C22_accepts_only_texts_with_key_refuted.

Theorem C22_accepts_only_texts_with_key_partial :
  forall keys t, Forall bytes keys -> first_unique keys -> total keys < 4096 -> bytes t ->
    exists c ok c', ac_build keys = Ok c /\ ezac_find c t = Ok (ok, c') /\
      (ok = true -> exists k, In k keys /\ contains_key t k).
Proof.
  intros keys t Hb F TL Ht.
  destruct (build_first_unique keys Hb F TL) as (c & B & Cu & L & IL & RL).
  destruct (find_inner_sound _ _ L RL t 0%nat [] [] (stands_root _)) as (ok & cur' & F1 & _ & F3);
    [exists []; reflexivity|].
  exists c, ok, (mkAc (ac_nodes c) cur'). split; [exact B|]. split.
  - unfold ezac_find. rewrite Cu, F1. reflexivity.
  - intros ->. destruct (F3 eq_refl) as (_ & k & a & b & Hk & _ & E). exists k.
    split; [exact Hk|]. exists a, b.
    rewrite <- (map_idx_collapse t Ht).
    rewrite <- (map_idx_collapse k) by (rewrite Forall_forall in Hb; auto). exact E.
Qed.
Print Assumptions C22_accepts_only_texts_with_key_partial.

(** a boolean test of the condition, for examples *)
Fixpoint inner (l : list Z) : list Z :=
  match l with
  | [] | [_] => []
  | x :: r => x :: inner r
  end.

Definition first_uniqueb (keys : list (list Z)) : bool :=
  forallb (fun k => match map collapse k with
                    | [] => true
                    | a :: _ => forallb (fun k' => negb (existsb (Z.eqb a) (inner (tl (map collapse k'))))) keys
                    end) keys.

Lemma inner_snoc v y : inner (v ++ [y]) = v.
Proof.
  induction v as [|x v IH]; [reflexivity|]. simpl. rewrite IH.
  destruct (v ++ [y]) eqn:E; [destruct v; discriminate|reflexivity].
Qed.

Lemma first_uniqueb_ok keys : first_uniqueb keys = true -> first_unique keys.
Proof.
  intros H k k' a u x v y Hk Hk' E E' Hin. unfold first_uniqueb in H. rewrite forallb_forall in H.
  specialize (H k Hk). rewrite E in H. rewrite forallb_forall in H. specialize (H k' Hk').
  rewrite E' in H. cbn [tl] in H. rewrite inner_snoc in H. apply negb_true_iff in H.
  assert (existsb (Z.eqb a) v = true) by (apply existsb_exists; exists a; split; [exact Hin|apply Z.eqb_refl]).
  congruence.
Qed.

Example C22_example :
  Forall bytes [str "Alice_2024"; str "Bob-keyB"] /\ first_unique [str "Alice_2024"; str "Bob-keyB"] /\
  total [str "Alice_2024"; str "Bob-keyB"] < 4096 /\ bytes (str "xxBob-keyByy").
Proof.
  split; [all_bytes|].
  split; [|split; [vm_compute; reflexivity|apply bytesb_spec; reflexivity]].
  apply first_uniqueb_ok. reflexivity.
Qed.

(** ** C77: completeness *)
Theorem C77_text_with_key_accepted_refuted :
  exists keys c t c' k, ac_build keys = Ok c /\ In k keys /\ k <> [] /\ occurs k t /\
    ezac_find c t = Ok (false, c').
Proof.
  exists [str "ababc"; str "xy"]. eexists. exists (str "ababxy"). eexists. exists (str "xy").
  split; [vm_compute; reflexivity|]. split; [simpl; auto|]. split; [discriminate|].
  split; [apply occursb_spec; reflexivity|]. vm_compute. reflexivity.
Qed.
Print Assumptions C77_text_with_key_accepted_refuted.

Theorem C77_text_with_key_accepted_partial :
  forall keys t k, Forall bytes keys -> first_unique keys -> total keys < 4096 -> bytes t ->
    In k keys -> k <> [] -> contains_key t k ->
    exists c c', ac_build keys = Ok c /\ ezac_find c t = Ok (true, c').
Proof.
  intros keys t k Hb F TL Ht Hk NE (a & b & O).
  destruct (build_first_unique keys Hb F TL) as (c & B & Cu & L & IL & RL).
  destruct (find_inner_complete _ _ L RL IL t 0%nat [] k a b (stands_root _) Hk NE) as (cur' & F1).
  - rewrite (map_idx_collapse t Ht).
    rewrite (map_idx_collapse k) by (rewrite Forall_forall in Hb; auto). exact O.
  - exists c, (mkAc (ac_nodes c) cur'). split; [exact B|].
    unfold ezac_find. rewrite Cu, F1. reflexivity.
Qed.
Print Assumptions C77_text_with_key_accepted_partial.

Example C77_example : contains_key (str "xxBob-keyyy") (str "Bob-key").
Proof. exists (str "xx"), (str "yy"). reflexivity. Qed.

(** ** C23 *)
Theorem C23_build_total_refuted :
  exists keys, Forall bytes keys /\ ac_build keys = Fault FNull.
Proof.
  exists [str "bacd"; str "ace"]. split.
  - all_bytes.
  - vm_compute. reflexivity.
Qed.
Print Assumptions C23_build_total_refuted.

(** it completes when no key has the first two symbols of a key at a later place *)
Theorem C23_build_total_partial :
  forall keys, Forall bytes keys -> pair_free keys -> total keys < 4096 ->
    exists c, ac_build keys = Ok c.
Proof.
  intros keys Hb F TL. apply build_pairs; [exact Hb|apply no_pair_of_pair_free; assumption|].
  rewrite <- total_total_len. exact TL.
Qed.
Print Assumptions C23_build_total_partial.

(** for every other key set below the limit it completes or dereferences NULL;
    it does not run on for ever and does not leave its stack *)
Theorem C23_build_outcomes :
  forall keys, Forall bytes keys -> total keys < 4096 ->
    (exists c, ac_build keys = Ok c) \/ ac_build keys = Fault FNull.
Proof.
  intros keys Hb TL. apply build_outcomes; [exact Hb|]. rewrite <- total_total_len. exact TL.
Qed.
Print Assumptions C23_build_outcomes.

Theorem C23_build_single_key_partial :
  forall k, bytes k -> exists c, ac_build [k] = Ok c.
Proof. exact build_single. Qed.
Print Assumptions C23_build_single_key_partial.

(** a boolean test of the condition, for examples *)
Definition pair_freeb (keys : list (list Z)) : bool :=
  forallb (fun k => match map collapse k with
                    | a :: b :: _ => forallb (fun k' => negb (occursb [a; b] (tl (map collapse k')))) keys
                    | _ => true
                    end) keys.

Lemma pair_freeb_ok keys : pair_freeb keys = true -> pair_free keys.
Proof.
  intros H k k' a b u x v w Hk Hk' E E'. unfold pair_freeb in H. rewrite forallb_forall in H.
  specialize (H k Hk). rewrite E in H. rewrite forallb_forall in H. specialize (H k' Hk').
  rewrite E' in H. cbn [tl] in H. apply negb_true_iff in H. apply not_occurs in H. apply H.
  exists v, w. reflexivity.
Qed.

Example C23_example : bytes (str "aabaab") /\
  pair_free [str "auth_for_tanx"; str "guest"; str "banana-split"] /\
  ~ first_unique [str "auth_for_tanx"; str "guest"; str "banana-split"] /\
  exists c, ac_build [str "auth_for_tanx"; str "guest"; str "banana-split"] = Ok c.
Proof.
  split; [apply bytesb_spec; reflexivity|]. split; [apply pair_freeb_ok; reflexivity|]. split.
  - intros F. apply (F (str "auth_for_tanx") (str "auth_for_tanx") 97 (str "uth_for_tanx") 97
                       (str "uth_for_tan") 120); simpl; auto 20.
  - eexists. vm_compute. reflexivity.
Qed.

(** ** C24 *)
(** a rejected attempt makes the server accept half a key, and another one makes
    it reject a registered key *)
Theorem C24_verdict_independent_refuted :
  (exists keys c t1 t2 c1 c2,
     ac_build keys = Ok c /\ (forall k, In k keys -> k <> [] -> ~ occurs k t2) /\
     ezac_find c t2 = Ok (false, c1) /\ ac_attempts c [t1; t2] = Ok ([false; true], c2)) /\
  (exists keys c t1 k c2,
     ac_build keys = Ok c /\ In k keys /\ ac_attempts c [t1; k] = Ok ([false; false], c2)).
Proof.
  split.
  - exists [str "auth_for_tanx"]. eexists. exists (str "auth_for_"), (str "tanx"). eexists. eexists.
    split; [vm_compute; reflexivity|]. split.
    { intros k [<-|[]] _. apply not_occurs. reflexivity. }
    split; vm_compute; reflexivity.
  - exists [str "ababc"; str "xy"]. eexists. exists (str "abab"), (str "xy"). eexists.
    split; [vm_compute; reflexivity|]. split; [simpl; auto|]. vm_compute; reflexivity.
Qed.
Print Assumptions C24_verdict_independent_refuted.

Lemma attempts_stand h K (L : linked h K) (RL : root_links h) : forall ts cur w,
  stands h w cur ->
  exists oks cur', ac_attempts (mkAc h cur) ts = Ok (oks, mkAc h cur') /\ exists w', stands h w' cur'.
Proof.
  induction ts as [|t r IH]; intros cur w W.
  - exists [], cur. split; [reflexivity|eauto].
  - destruct (find_inner_sound _ _ L RL t cur w w W) as (ok & cur1 & F1 & (w1 & W1) & _); [exists []; reflexivity|].
    destruct (IH cur1 w1 W1) as (oks & cur2 & A & R).
    exists (ok :: oks), cur2. split; [|exact R].
    simpl. unfold ezac_find. simpl. rewrite F1. simpl. rewrite A. reflexivity.
Qed.

(** with such key sets earlier attempts of any kind never lock out a valid key,
    and after an accepted attempt the matcher is as fresh *)
Theorem C24_verdict_independent_partial :
  forall keys, Forall bytes keys -> first_unique keys -> total keys < 4096 ->
    exists c, ac_build keys = Ok c /\
      (forall history k, In k keys -> k <> [] ->
         exists oks c1 c2, ac_attempts c history = Ok (oks, c1) /\ ezac_find c1 k = Ok (true, c2)) /\
      (forall t c1, ezac_find c t = Ok (true, c1) -> c1 = c).
Proof.
  intros keys Hb F TL.
  destruct (build_first_unique keys Hb F TL) as (c & B & Cu & L & IL & RL).
  exists c. split; [exact B|]. split.
  - intros history k Hk NE. destruct c as [h cur]. simpl in *. subst cur.
    destruct (attempts_stand h _ L RL history 0%nat [] (stands_root _)) as (oks & cur1 & A & w & W).
    destruct (find_inner_complete _ _ L RL IL k cur1 w k [] [] W Hk NE) as (cur2 & F2).
    + rewrite app_nil_r. reflexivity.
    + exists oks, (mkAc h cur1), (mkAc h cur2). split; [exact A|].
      unfold ezac_find. simpl. rewrite F2. reflexivity.
  - intros t c1. unfold ezac_find. rewrite Cu.
    destruct (find_inner_sound _ _ L RL t 0%nat [] [] (stands_root _)) as (ok & cur' & F1 & _ & F3);
      [exists []; reflexivity|].
    rewrite F1. simpl. intros [= -> <-]. destruct (F3 eq_refl) as [-> _].
    destruct c; simpl in *; subst; reflexivity.
Qed.
Print Assumptions C24_verdict_independent_partial.

Example C24_example :
  Forall bytes [str "Alice_2024"; str "Bob-keyB"] /\ first_unique [str "Alice_2024"; str "Bob-keyB"] /\
  In (str "Bob-keyB") [str "Alice_2024"; str "Bob-keyB"] /\ str "Bob-keyB" <> [].
Proof.
  destruct C22_example as (A & B & _). repeat (split; [assumption|]).
  split; [simpl; auto|discriminate].
Qed.
