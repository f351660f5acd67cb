(** * C135-C137: printing JSON. *)
From Coq Require Import String.
From Verif Require Import Base Str_Spec Conf_Model Web_Model Json_Model Json_Spec Json_Props Json_Limit_Props
  Jprint_Model Jprint_Spec Jprint_Proofs.
Open Scope Z_scope.
Local Arguments Z.add : simpl never.
Local Arguments Z.sub : simpl never.
Local Arguments Z.mul : simpl never.
Local Arguments Z.div : simpl never.
Local Arguments Z.modulo : simpl never.
Local Arguments zlen : simpl never.

(** ** From the specification to the proofs *)
Lemma proper_wf : (forall j, proper j -> wf j) /\ (forall l, proper_all l -> wfs l) /\ (forall l, proper_mem l -> wfm l).
Proof.
  apply proper_ind3; intros; cbn; auto.
Qed.
Lemma c_opt_wf o s : c_opt o s -> wf_str o.
Proof.
  destruct o as [t|]; [|constructor]. intros (-> & C). cbn. unfold clean. eapply Forall_impl; [|exact C].
  intros; cbn in *; lia.
Qed.
Lemma means_wf : (forall n j v, means n j v -> wf j /\ full j) /\ (forall n l vs, means_all n l vs -> wfs l /\ fulls l) /\
  (forall n l vs, means_mem n l vs -> wfm l /\ fullm l).
Proof.
  apply means_ind3; try (intros; cbn; auto; fail).
  - intros n v B. cbn. split; [|exact I]. change (2 ^ 31) with 2147483648 in *. lia.
  - intros n o s C. split; [exact (c_opt_wf _ _ C)|exact I].
  - intros n j v l vs _ (A & B) _ (C & D). cbn. auto.
  - intros n o k j v l vs C _ (A & B) _ (D & F). cbn. split; [|auto]. split; [exact (c_opt_wf _ _ C)|auto].
Qed.

(** ** The text of a value *)
Lemma hex_hexc v : 0 <= v < 16 -> hexd (hexc v) v.
Proof.
  intros B. unfold hexc. destruct (Z.ltb_spec v 10).
  - replace v with (48 + v - 48) at 2 by lia. constructor. lia.
  - replace v with (87 + v - 87) at 2 by lia. apply hexd_lower. lia.
Qed.
Lemma esc_chars b s t : 0 < b < 256 -> chars s t -> chars (b :: s) (esc b ++ t).
Proof.
  intros B C. unfold esc.
  repeat match goal with |- context [b =? ?k] => destruct (Z.eqb_spec b k) as [->|]; [apply ch_esc; [vm_compute; tauto|exact C]|] end.
  destruct (Z.ltb_spec b 32).
  - replace (b :: s) with (utf8_of b ++ s) by (unfold utf8_of; destruct (Z.ltb_spec b 128); [reflexivity|lia]).
    apply (ch_u [hexc (b / 4096 mod 16); hexc (b / 256 mod 16); hexc (b / 16 mod 16); hexc (b mod 16)] b); [|lia|exact C].
    assert (E : b = 4096 * (b / 4096 mod 16) + 256 * (b / 256 mod 16) + 16 * (b / 16 mod 16) + b mod 16).
    { assert (b / 4096 = 0) by (apply Z.div_small; lia). assert (b / 256 = 0) by (apply Z.div_small; lia).
      pose proof (Z.div_mod b 16). pose proof (Z.mod_pos_bound b 16). rewrite H0, H1. change (0 mod 16) with 0.
      rewrite (Z.mod_small (b / 16)); lia. }
    rewrite E at 5. constructor; apply hex_hexc; apply Z.mod_pos_bound; lia.
  - apply ch_raw; [lia|lia|lia|exact C].
Qed.
Lemma escs_chars s : c_bytes s -> chars s (flat_map esc s).
Proof.
  induction 1 as [|b s B _ IH]; [constructor|]. cbn [flat_map]. apply esc_chars; assumption.
Qed.
Lemma c_str s : c_bytes s -> cstr s s.
Proof. intros C. constructor. intros H. apply (proj1 (Forall_forall _ _) C) in H. lia. Qed.
Lemma rstr_of o s : c_opt o s -> rstr o = [34] ++ flat_map esc s ++ [34] /\ c_bytes s.
Proof.
  destruct o as [t|]; [intros (-> & C); split; [reflexivity|exact C]|]. intros ->. split; [reflexivity|constructor].
Qed.

Lemma digits_of_decval : forall f n, 0 <= n < 10 ^ Z.of_nat (S f) ->
  decval (digits_of (S f) n) = n /\ digits (digits_of (S f) n) /\ (0 < n -> exists b t, digits_of (S f) n = b :: t /\ 49 <= b <= 57).
Proof.
  assert (APP : forall a b, decval (a ++ [b]) = decval a * 10 + (b - 48)).
  { induction a as [|x a IH]; intros b; cbn [decval app]; [change (zlen []) with 0; rewrite Z.pow_0_r; lia|].
    rewrite IH, zlen_app. change (zlen [b]) with 1. rewrite Z.pow_add_r by (pose proof (zlen_nonneg a); lia). lia. }
  induction f as [|f IH]; intros n B; cbn [digits_of]; destruct (Z.ltb_spec n 10).
  - split; [cbn [decval]; change (zlen []) with 0; rewrite Z.pow_0_r; lia|]. split; [constructor; [lia|constructor]|].
    intros P. exists (48 + n), []. split; [reflexivity|lia].
  - cbn in B. lia.
  - split; [cbn [decval]; change (zlen []) with 0; rewrite Z.pow_0_r; lia|]. split; [constructor; [lia|constructor]|].
    intros P. exists (48 + n), []. split; [reflexivity|lia].
  - replace (Z.of_nat (S (S f))) with (Z.of_nat (S f) + 1) in B by lia. rewrite Z.pow_add_r in B by lia.
    change (10 ^ 1) with 10 in B.
    pose proof (Z.div_mod n 10). pose proof (Z.mod_pos_bound n 10).
    destruct (IH (n / 10)) as (V & D & H2); [split; [apply Z.div_pos; lia|apply Z.div_lt_upper_bound; lia]|].
    fold (digits_of (S f) (n / 10)) in *. cbn [digits_of] in *.
    split; [rewrite APP, V; lia|]. split; [apply Forall_app; split; [exact D|constructor; [lia|constructor]]|].
    intros _. destruct H2 as (b & t & -> & Bb); [lia|]. exists b, (t ++ [48 + n mod 10]). split; [reflexivity|exact Bb].
Qed.
Lemma digits_int n : 0 <= n < 2 ^ 31 -> int_part (digits_of 20 n) /\ decval (digits_of 20 n) = n /\ digits (digits_of 20 n).
Proof.
  intros B. destruct (digits_of_decval 19 n) as (V & D & H).
  { split; [lia|]. assert (2 ^ 31 < 10 ^ Z.of_nat 20) by reflexivity. lia. }
  split; [|split; [exact V|exact D]]. destruct (Z.eq_dec n 0) as [->|NZ]; [constructor|].
  destruct H as (b & t & E & Bb); [lia|]. rewrite E in *. constructor; [exact Bb|exact (Forall_inv_tail D)].
Qed.
Lemma fmt_integer v : - 2 ^ 31 < v < 2 ^ 31 -> integer (fmt_d v) v /\ forall dp, point dp -> ~ In dp (fmt_d v).
Proof.
  intros B. unfold fmt_d. destruct (Z.ltb_spec v 0).
  - destruct (digits_int (- v)) as (P & V & D); [lia|]. split.
    + replace v with (- decval (digits_of 20 (- v))) at 2 by lia. constructor; [exact P|lia].
    + intros dp PT [E|IN]; [destruct PT; lia|]. apply (proj1 (Forall_forall _ _) D) in IN. destruct PT; lia.
  - destruct (digits_int v) as (P & V & D); [lia|]. split.
    + rewrite <- V at 2. constructor; [exact P|lia].
    + intros dp PT IN. apply (proj1 (Forall_forall _ _) D) in IN. destruct PT; lia.
Qed.

Section Text.
Context (dp : Z) (DP : point dp) (fmt : bool).
Lemma ws_tabs n : ws (zrepeat 9 n). Proof. apply Forall_forall. intros b H. apply repeat_spec in H. auto. Qed.
Lemma ws_if (b : bool) x : ws x -> ws (if b then x else []). Proof. destruct b; [auto|constructor]. Qed.

Lemma text_doc :
  (forall n j v, means n j v -> forall d, docN integer n v (render dp fmt d j)) /\
  (forall n l vs, means_all n l vs -> forall d w, ws w -> l <> [] -> docsN integer n vs (w ++ relems dp fmt d l)) /\
  (forall n l vs, means_mem n l vs -> forall d w w', ws w -> ws w' -> l <> [] -> memsN integer n vs (w ++ rmems dp fmt d l ++ w')).
Proof.
  apply means_ind3.
  - constructor.
  - intros n []; constructor.
  - intros n v B d. cbn [render]. unfold rnum. destruct (fmt_integer v B) as (IN & NP). rewrite map_ext_in with (g := fun c => c), map_id.
    + constructor; [exact IN|]. pose proof (fmt_short v). lia.
    + intros c H. destruct (Z.eqb_spec c dp); [|reflexivity]. subst. destruct (NP dp DP H).
  - intros n o s C d. cbn [render]. destruct (rstr_of o s C) as (-> & CB). eapply d_str; [apply escs_chars; exact CB|apply c_str; exact CB].
  - intros n l vs N M IH d. rewrite render_arr. destruct l as [|x l].
    + inversion M; subst. apply (d_arr0 n []); [exact N|constructor].
    + apply d_arr; [exact N|]. apply (IH (d + 1) []); [constructor|discriminate].
  - intros n l vs N M IH d. rewrite render_obj. destruct l as [|x l].
    + inversion M; subst. pose proof (@d_obj0 integer n ((if fmt then [10] else []) ++ (if fmt then zrepeat 9 d else [])) N) as H.
      rewrite <- app_assoc in H. cbn [rmems app]. apply H. apply Forall_app. split; apply ws_if; [constructor; auto|apply ws_tabs].
    + rewrite !(app_assoc _ _ [125]). apply d_obj; [exact N|].
      apply IH; [apply ws_if; constructor; auto|apply ws_if; apply ws_tabs|discriminate].
  - intros n d w _ H. destruct H; reflexivity.
  - intros n j v l vs M IHj MA IHl d w W _. cbn [relems].
    destruct l as [|y l].
    + inversion MA; subst. rewrite app_nil_r. rewrite <- (app_nil_r (render dp fmt d j)). apply ds_one; [exact W|apply IHj|constructor].
    + apply (ds_more n v vs w (render dp fmt d j) []); [exact W|apply IHj|constructor|].
      apply IHl; [apply ws_if; constructor; auto|discriminate].
  - intros n d w w' _ _ H. destruct H; reflexivity.
  - intros n o k j v l vs C M IHj MM IHl d w w' W W' _. cbn [rmems]. destruct (rstr_of o k C) as (-> & CB).
    pose proof (escs_chars k CB) as CH. pose proof (c_str k CB) as CS.
    destruct l as [|y l].
    + inversion MM; subst. cbn [rmems].
      pose proof (@ms_one integer n k k (flat_map esc k) v (w ++ (if fmt then zrepeat 9 d else [])) [] (if fmt then [9] else [])
        (render dp fmt d j) ((if fmt then [10] else []) ++ w')) as P.
      rewrite <- !app_assoc in *. cbn [app] in *. apply P; auto.
      * apply Forall_app. split; [exact W|apply ws_if; apply ws_tabs].
      * constructor.
      * apply ws_if. constructor; auto.
      * apply Forall_app. split; [apply ws_if; constructor; auto|exact W'].
    + pose proof (@ms_more integer n k k (flat_map esc k) v (w ++ (if fmt then zrepeat 9 d else [])) [] (if fmt then [9] else [])
        (render dp fmt d j) [] vs ((if fmt then [10] else []) ++ rmems dp fmt d (y :: l) ++ w')) as P.
      cbn [rmems] in P. rewrite <- !app_assoc in *. cbn [app] in *. apply P; auto.
      * apply Forall_app. split; [exact W|apply ws_if; apply ws_tabs].
      * constructor.
      * apply ws_if. constructor; auto.
      * constructor.
      * apply (IHl d); [apply ws_if; constructor; auto|exact W'|discriminate].
Qed.
End Text.

(** ** Whole calls *)
Definition start (fmt re : bool) (n : Z) (m : list bool) : pb := PB (Some (zrepeat UN n)) n 0 0 false fmt re m 1.
Lemma start_ready fmt re n m : 0 <= n -> (0 < n \/ re = true) -> ready (start fmt re n m) [].
Proof.
  intros N P. split.
  - exists (zrepeat UN n). cbn. rewrite zlen_zrepeat by lia. change (zlen []) with 0. auto with zarith.
  - cbn. destruct P as [P| ->]; [auto|]. destruct (Z.eq_dec n 0); [auto|lia].
Qed.
Lemma point_nz dp : point dp -> 0 <> dp. Proof. intros [-> | ->]; lia. Qed.
Lemma clean_app a b : clean (a ++ b) <-> clean a /\ clean b. Proof. apply Forall_app. Qed.
Lemma clean_tabs n : clean (zrepeat 9 n). Proof. apply Forall_forall. intros b H. apply repeat_spec in H. lia. Qed.
Lemma clean_if (b : bool) x : clean x -> clean (if b then x else []). Proof. destruct b; [auto|constructor]. Qed.
Lemma rstr_clean o : wf_str o -> clean (rstr o).
Proof.
  intros W. unfold rstr. rewrite !clean_app. split; [repeat constructor|]. split; [|repeat constructor].
  destruct o as [s|]; [apply escs_clean; exact W|constructor].
Qed.
Section Clean.
Context (dp : Z) (fmt : bool).
Lemma render_clean : forall j, wf j -> forall d, clean (render dp fmt d j).
Proof.
  apply (item_ind' (fun j => wf j -> forall d, clean (render dp fmt d j))).
  - repeat constructor.
  - intros []; repeat constructor.
  - intros n W d. cbn [render]. unfold rnum. destruct (number_text_ok n W) as (t & E & _ & C & _).
    apply Forall_map. destruct n as [v| |a c b]; cbn in W.
    + eapply Forall_impl; [|apply fmt_clean]. intros x X. cbn in *. destruct (x =? dp); lia.
    + change (str "null") with [110; 117; 108; 108]. repeat (apply Forall_cons; [destruct (_ =? dp); lia|]). apply Forall_nil.
    + destruct W as (A & B & _). destruct c; (eapply Forall_impl; [|eassumption]; intros x X; cbn in *; destruct (x =? dp); lia).
  - intros [s|] W d; [exact W|constructor].
  - intros o W d. apply rstr_clean. exact W.
  - intros l F W d. rewrite render_arr, !clean_app. split; [repeat constructor|]. split; [|repeat constructor].
    change (wf (PArr l)) with (wfs l) in W. induction F as [|x t V F IH]; [constructor|]. destruct W as (W1 & W2). cbn [relems].
    rewrite clean_app. split; [apply V; exact W1|]. destruct t as [|y t]; [constructor|]. rewrite !clean_app.
    split; [repeat constructor|]. split; [apply clean_if; repeat constructor|]. apply IH. exact W2.
  - intros l F W d. rewrite render_obj, !clean_app. split; [repeat constructor|]. split; [apply clean_if; repeat constructor|].
    split; [|split; [apply clean_if; apply clean_tabs|repeat constructor]].
    change (wf (PObj l)) with (wfm l) in W. induction F as [|(k, x) t V F IH]; [constructor|]. destruct W as (W0 & W1 & W2). cbn [rmems snd] in *.
    rewrite !clean_app. split; [apply clean_if; apply clean_tabs|]. split; [apply rstr_clean; exact W0|].
    split; [repeat constructor|]. split; [apply clean_if; repeat constructor|]. split; [apply V; exact W1|].
    split; [destruct t; repeat constructor|]. split; [apply clean_if; repeat constructor|]. apply IH. exact W2.
  - constructor.
Qed.
End Clean.
Lemma clean_holds t r : clean t -> holds (t ++ 0 :: r) t.
Proof.
  intros C. split; [|split; [|eauto]]; intros H; apply (proj1 (Forall_forall _ _) C) in H; [lia|unfold UN in H; lia].
Qed.

Lemma zrepeat_none (a n : Z) : n <= 0 -> zrepeat a n = [].
Proof. intros H. unfold zrepeat. replace (Z.to_nat n) with O by lia. reflexivity. Qed.

(** ** What [cJSON_Print], [cJSON_PrintBuffered] and [cJSON_PrintPreallocated] do with the text
    of an item *)
Section Calls.
Context (dp : Z) (DP : point dp) (fmt : bool) (j : item) (W : wf j).
Let t := render dp fmt 0 j.
Lemma t_clean : clean t. Proof. apply render_clean. exact W. Qed.

Lemma run p : ready p [] -> dep p = 0 -> fmtd p = fmt ->
  out p (print_value dp j p) (fun q => printed q t /\ zlen t + 2 <= len q) (enough p (zlen t + 2) /\ full j).
Proof.
  intros R D F. destruct (value_out dp (point_nz dp DP) j p [] R) as (ok & q & E & S1 & P & Y); [lia|exact W|].
  cbn [app] in P, Y. rewrite D, F in P, Y. fold t in P, Y. exists ok, q. split; [exact E|]. split; [exact S1|]. split; [|exact Y].
  intros O. destruct (P O) as (A & _ & B). auto.
Qed.
Lemma pop_nil m ok m' : pop m = (ok, m') -> m = [] -> ok = true /\ m' = [].
Proof. intros E ->. injection E as <- <-. auto. Qed.

Lemma print_ok re m : exists r l, print dp re fmt m j = Ok (r, l) /\
  match r with None => l = 0 | Some b => l = 1 /\ b = t ++ [0] end /\
  (m = [] -> full j -> zlen t + 2 <= INT_MAX -> r <> None).
Proof.
  assert (N : forall l, l = 0 -> (m = [] -> full j -> zlen t + 2 <= INT_MAX -> False) ->
    exists (r : option (list Z)) l', Ok (None, l) = Ok (r, l') /\
    match r with None => l' = 0 | Some b => l' = 1 /\ b = t ++ [0] end /\ (m = [] -> full j -> zlen t + 2 <= INT_MAX -> r <> None)).
  { intros l -> H. exists None, 0. split; [reflexivity|]. split; [reflexivity|]. intros A B C. destruct (H A B C). }
  unfold print. destruct (pop m) as (ok & m1) eqn:PM. pose proof (pop_nil _ _ _ PM) as PN.
  destruct ok; cbn [negb]; [|apply N; [reflexivity|intros X; destruct (PN X); discriminate]].
  fold (start fmt re 256 m1). destruct (run (start fmt re 256 m1)) as (ok & p & -> & S1 & P & Y);
    [apply start_ready; lia|reflexivity|reflexivity|]. cbn [bind fst snd].
  destruct S1 as (_ & _ & _ & L1 & _ & M1 & _). cbn in L1, M1. unfold lv in L1.
  destruct ok; cbn [negb].
  2:{ apply N; [destruct (buf p); lia|]. intros X FJ LE. enough (false = true) by discriminate. apply Y. split; [|exact FJ].
      split; [exact LE|]. right. split; [reflexivity|]. cbn. apply PN. exact X. }
  destruct (P eq_refl) as (PR & LN). destruct (update_printed p t PR) as (q & -> & S2 & _ & RD & r & B & B' & MQ). cbn [bind].
  destruct S2 as (_ & _ & _ & L2 & _). unfold lv in L2. rewrite <- B', B in L1. rewrite <- B', B in L2. rewrite MQ, B.
  destruct RD as ((r0 & B0 & O0 & L0 & _) & _). rewrite B in B0. injection B0 as B0. cbn [app] in L0. rewrite <- B0 in L0.
  destruct (pop (mem p)) as (ok & m2) eqn:PM2. destruct ok; cbn [negb].
  2:{ apply N; [lia|]. intros X _ _. destruct (PN X) as (_ & ->). destruct (pop_nil _ _ _ PM2 (M1 eq_refl)). discriminate. }
  pose proof (zlen_nonneg r). pose proof (zlen_nonneg t).
  assert (TK : ztake (off q + 1) (t ++ 0 :: r) = t ++ [0]).
  { rewrite O0, ztake_app_r by lia. replace (zlen t + 1 - zlen t) with 1 by lia. reflexivity. }
  exists (Some (t ++ [0])), 1. split; [|split; [auto|discriminate]].
  rewrite zlen_app, zlen_cons in L0. destruct re.
  - rewrite TK, zlen_app, zlen_cons, O0. rewrite zrepeat_none by lia. rewrite app_nil_r. f_equal. f_equal. lia.
  - rewrite Z.min_r by lia. rewrite zlen_app, zlen_cons.
    destruct (Z.ltb_spec (zlen t + (1 + zlen r)) (off q + 1)); [lia|]. rewrite TK, O0.
    rewrite zput_ok by (rewrite ?zlen_zrepeat, ?zlen_app by lia; change (zlen [0]) with 1; lia). cbn [of_opt bind].
    rewrite ztake_le0 by lia. rewrite Z.add_0_l. cbn [app].
    assert (Z0 : zdrop (zlen (t ++ [0])) (zrepeat UN (zlen t + 1)) = []).
    { apply zdrop_all. rewrite zlen_zrepeat, zlen_app by lia. change (zlen [0]) with 1. lia. }
    rewrite Z0, app_nil_r.
    rewrite zput_ok by (rewrite ?zlen_app; change (zlen [0]) with 1; lia). cbn [of_opt bind].
    rewrite ztake_app_l, ztake_all by lia. change (zlen [0]) with 1.
    rewrite zdrop_all by (rewrite zlen_app; change (zlen [0]) with 1; lia). rewrite app_nil_r.
    f_equal. f_equal. lia.
Qed.

Lemma printed_holds p : printed p t -> exists b, buf p = Some b /\ holds b t /\ zlen b = len p.
Proof.
  intros (X & Y & r & _ & _ & B & _ & L). exists (t ++ 0 :: r). split; [exact B|]. split; [apply clean_holds, t_clean|auto].
Qed.
Lemma buffered_ok re m pre : 0 < pre \/ re = true -> exists r l, print_buffered dp re fmt m pre j = Ok (r, l) /\
  match r with None => l = 0 | Some b => l = 1 /\ holds b t end /\
  (m = [] -> full j -> zlen t + 2 <= INT_MAX -> 0 <= pre -> r <> None).
Proof.
  intros PRE. unfold print_buffered. destruct (Z.ltb_spec pre 0).
  { exists None, 0. split; [reflexivity|]. split; [reflexivity|]. lia. }
  destruct (pop m) as (ok & m1) eqn:PM. pose proof (pop_nil _ _ _ PM) as PN.
  destruct ok; cbn [negb].
  2:{ exists None, 0. split; [reflexivity|]. split; [reflexivity|]. intros X. destruct (PN X). discriminate. }
  fold (start fmt re pre m1). destruct (run (start fmt re pre m1)) as (ok & p & -> & S1 & P & Y);
    [apply start_ready; [lia|exact PRE]|reflexivity|reflexivity|]. cbn [bind fst snd].
  destruct S1 as (_ & _ & _ & L1 & _). cbn in L1. unfold lv in L1. destruct ok.
  - destruct (P eq_refl) as (PR & _). destruct (printed_holds p PR) as (b & B & HB & _). rewrite B in *.
    exists (Some b), (live p). split; [reflexivity|]. split; [split; [lia|exact HB]|discriminate].
  - exists None, 0. split; [f_equal; f_equal; destruct (buf p); lia|]. split; [reflexivity|]. intros X FJ LE _.
    enough (false = true) by discriminate. apply Y. split; [|exact FJ]. split; [exact LE|]. right. split; [reflexivity|]. cbn. apply PN. exact X.
Qed.
Lemma prealloc_ok b : exists ok b', print_prealloc dp fmt b j = Ok (ok, Some b') /\ zlen b' = zlen b /\
  (ok = true -> holds b' t /\ zlen t + 2 <= zlen b) /\
  (full j -> zlen t + 2 <= zlen b <= INT_MAX -> ok = true).
Proof.
  unfold print_prealloc. set (p0 := PB (Some b) (zlen b) 0 0 true fmt true [] 0). pose proof (zlen_nonneg b).
  destruct (run p0) as (ok & p & -> & S1 & P & Y); [|reflexivity|reflexivity|].
  { split; [exists b; cbn; change (zlen []) with 0; auto|]. cbn. destruct (Z.eq_dec (zlen b) 0); [right; auto|left; lia]. }
  cbn [bind fst snd]. destruct S1 as (_ & _ & _ & _ & L1 & _ & L2). specialize (L1 eq_refl). specialize (L2 eq_refl). cbn in L1, L2.
  unfold blen in L2. destruct (buf p) as [b'|] eqn:B; [|lia]. exists ok, b'. split; [reflexivity|]. split; [exact L2|]. split.
  - intros O. destruct (P O) as (PR & LN). destruct (printed_holds p PR) as (b2 & B2 & H2 & _). rewrite B in B2. injection B2 as <-.
    split; [exact H2|lia].
  - intros FJ LE. apply Y. split; [|exact FJ]. split; [lia|]. left. split; [reflexivity|cbn; lia].
Qed.
End Calls.

(** ** C135: printing stays within its memory, whatever fails *)
(** cJSON_Print and cJSON_PrintUnformatted: no access outside of a block, none to bytes nobody
    wrote; NULL and nothing left behind, or exactly the block of a C string *)
Theorem C135_print_partial : forall dp re fmt m j, point dp -> proper j ->
  exists r l, print dp re fmt m j = Ok (r, l) /\
    match r with None => l = 0 | Some b => l = 1 /\ exists t, holds b t /\ zlen b = zlen t + 1 end.
Proof.
  intros dp re fmt m j DP P. apply (proj1 proper_wf) in P.
  destruct (print_ok dp DP fmt j P re m) as (r & l & E & H & _). exists r, l. split; [exact E|].
  destruct r as [b|]; [|exact H]. destruct H as (L & ->). split; [exact L|]. exists (render dp fmt 0 j).
  split; [apply clean_holds, t_clean; exact P|rewrite zlen_app; reflexivity].
Qed.
Print Assumptions C135_print_partial.
(** cJSON_PrintBuffered *)
Theorem C135_buffered_partial : forall dp re fmt m pre j, point dp -> proper j -> pre <> 0 \/ re = true ->
  exists r l, print_buffered dp re fmt m pre j = Ok (r, l) /\
    match r with None => l = 0 | Some b => l = 1 /\ exists t, holds b t end.
Proof.
  intros dp re fmt m pre j DP P PRE. apply (proj1 proper_wf) in P. destruct (Z.ltb_spec pre 0) as [NEG|NN].
  { unfold print_buffered. destruct (Z.ltb_spec pre 0); [|lia]. exists None, 0. auto. }
  destruct (buffered_ok dp DP fmt j P re m pre) as (r & l & E & H & _); [destruct PRE; [left; lia|auto]|].
  exists r, l. split; [exact E|]. destruct r as [b|]; [|exact H]. destruct H as (L & H). eauto.
Qed.
Print Assumptions C135_buffered_partial.
(** cJSON_PrintPreallocated: the buffer keeps its size, all of it that is written lies within *)
Theorem C135_prealloc_partial : forall dp fmt b j, point dp -> proper j ->
  exists ok b', print_prealloc dp fmt b j = Ok (ok, Some b') /\ zlen b' = zlen b /\ (ok = true -> exists t, holds b' t).
Proof.
  intros dp fmt b j DP P. apply (proj1 proper_wf) in P.
  destruct (prealloc_ok dp DP fmt j P b) as (ok & b' & E & L & H & _). exists ok, b'. split; [exact E|]. split; [exact L|].
  intros O. destruct (H O). eauto.
Qed.
Print Assumptions C135_prealloc_partial.

Definition sample : item :=
  PObj [(Some (str "a"), PArr [PNum (NInt (-7)); PNum (NDbl (str "0,5") true []); PBool true; PNull]);
        (None, PStr (Some [97; 34; 10; 1; 195; 169])); (Some (str "r"), PRaw (Some (str "{}"))); (Some (str "o"), PObj [])].
Lemma sample_proper : proper sample.
Proof. repeat constructor; try discriminate; vm_compute; try discriminate; reflexivity. Qed.
Example ex_C135 : proper sample /\
  print 44 false true [] sample = Ok (Some (str "{
	""a"":	[-7, 0.5, true, null],
	"""":	""a\""\n\u0001" ++ [195; 169] ++ str """,
	""r"":	{},
	""o"":	{
	}
}" ++ [0]), 1) /\
  print_buffered 46 false false [true; true; false] 1 sample = Ok (None, 0) /\
  (exists b, print_prealloc 46 false (zrepeat UN 40) sample = Ok (false, Some b) /\ zlen b = 40).
Proof.
  split; [exact sample_proper|]. split; [vm_compute; reflexivity|]. split; [vm_compute; reflexivity|].
  eexists. split; [vm_compute; reflexivity|reflexivity].
Qed.

(** without a realloc hook and with a first block of 0 bytes, a byte behind the block is read *)
Theorem C135_refuted : forall dp fmt m l, print_buffered dp false fmt (true :: true :: m) 0 (PArr l) = Fault FOverread.
Proof. reflexivity. Qed.
Print Assumptions C135_refuted.
Example ex_C135_refuted : proper (PArr []) /\ print_buffered 46 false false [true; true] 0 (PArr []) = Fault FOverread /\
  print_buffered 46 false false [] 1 (PArr []) = Ok (Some (str "[]" ++ [0; UN]), 1).
Proof. split; [repeat constructor|]. split; vm_compute; reflexivity. Qed.

(** ** C136: what is printed is read back as the same value *)
Lemma means_le : (forall n j v, means n j v -> forall m, n <= m -> means m j v) /\
  (forall n l v, means_all n l v -> forall m, n <= m -> means_all m l v) /\
  (forall n l v, means_mem n l v -> forall m, n <= m -> means_mem m l v).
Proof.
  apply means_ind3; intros; constructor; auto; try lia.
  - apply H1. lia.
  - apply H1. lia.
Qed.

Theorem C136_partial : forall dp fmt j v n, point dp -> means n j v -> exists t,
  docN integer n v t /\ (n <= 1000 -> json_parse t = Ok (Some v)) /\
  (forall re m, exists r l, print dp re fmt m j = Ok (r, l) /\ (r = None \/ r = Some (t ++ [0])) /\
     (m = [] -> zlen t + 2 <= INT_MAX -> r = Some (t ++ [0]))) /\
  (forall re m pre, 0 < pre -> exists r l, print_buffered dp re fmt m pre j = Ok (r, l) /\ (forall b, r = Some b -> holds b t) /\
     (m = [] -> zlen t + 2 <= INT_MAX -> r <> None)) /\
  (forall b ok b', print_prealloc dp fmt b j = Ok (ok, b') -> ok = true -> exists c, b' = Some c /\ holds c t).
Proof.
  intros dp fmt j v n DP M. destruct (proj1 means_wf _ _ _ M) as (W & F). exists (render dp fmt 0 j).
  pose proof (proj1 (text_doc dp DP fmt) n j v M 0) as D. split; [exact D|]. split; [|split; [|split]].
  - intros N. apply C96_integers_exact_partial. rewrite <- (app_nil_r (render dp fmt 0 j)).
    apply (text_intro [] [] v _ []); [auto|constructor| |constructor].
    exact (proj1 (text_doc dp DP fmt) 1000 j v (proj1 means_le _ _ _ M _ N) 0).
  - intros re m. destruct (print_ok dp DP fmt j W re m) as (r & l & E & H & H'). exists r, l. split; [exact E|].
    destruct r as [b|]; [destruct H as (_ & ->); auto|]. split; [auto|]. intros A B. destruct (H' A F B). reflexivity.
  - intros re m pre PRE. destruct (buffered_ok dp DP fmt j W re m pre) as (r & l & E & H & H'); [auto|]. exists r, l. split; [exact E|].
    split; [intros b ->; apply H|]. intros A B. apply H'; auto. lia.
  - intros b ok b' E O. destruct (prealloc_ok dp DP fmt j W b) as (ok2 & c & E2 & _ & H & _). rewrite E2 in E. injection E as <- <-.
    exists c. split; [reflexivity|]. apply H. exact O.
Qed.
Print Assumptions C136_partial.

Definition value1 : item := PObj [(Some (str "k"), PArr [PNum (NInt (-2147483647)); PBool false; PStr (Some [92; 7; 200])]); (Some [], PNull)].
Example ex_C136 : means 2 value1 (JObj [(str "k", JArr [JNum (-2147483647); JBool false; JStr [92; 7; 200]]); ([], JNull)]) /\
  print 46 true false [] value1 = Ok (Some (str "{""k"":[-2147483647,false,""\\\u0007" ++ [200] ++ str """],"""":null}" ++ [0]), 1).
Proof.
  split; [|vm_compute; reflexivity].
  repeat (constructor; try (vm_compute; reflexivity); try (vm_compute; discriminate)).
Qed.

(** values with more than 1000 levels are printed but not read back *)
Fixpoint pdeep (n : nat) : item := match n with O => PArr [] | S m => PArr [pdeep m] end.
Lemma pdeep_means : forall n, means (Z.of_nat (S n)) (pdeep n) (deep n).
Proof.
  induction n as [|n IH]; [constructor; [lia|constructor]|]. constructor; [lia|]. constructor; [|constructor].
  replace (Z.of_nat (S (S n)) - 1) with (Z.of_nat (S n)) by lia. exact IH.
Qed.
Lemma pdeep_text dp : forall n d, render dp false d (pdeep n) = repeat 91 (S n) ++ repeat 93 (S n).
Proof.
  induction n as [|n IH]; intros d; [reflexivity|]. cbn [pdeep]. rewrite render_arr. cbn [relems]. rewrite IH, app_nil_r.
  replace (repeat 93 (S (S n))) with (repeat 93 (S n) ++ [93]) by (rewrite <- repeat_cons; reflexivity).
  change (repeat 91 (S (S n))) with ([91] ++ repeat 91 (S n)). rewrite <- !app_assoc. reflexivity.
Qed.
Theorem C136_refuted_deep : forall dp re n, point dp -> (1000 <= n)%nat -> 2 * Z.of_nat n + 4 <= INT_MAX ->
  exists j v t, means (Z.of_nat (S n)) j v /\ print dp re false [] j = Ok (Some (t ++ [0]), 1) /\ json_parse t = Ok None.
Proof.
  intros dp re n DP N LE. exists (pdeep n), (deep n), (repeat 91 (S n) ++ repeat 93 (S n)). split; [apply pdeep_means|].
  destruct (proj1 means_wf _ _ _ (pdeep_means n)) as (W & F). split.
  - destruct (print_ok dp DP false (pdeep n) W re []) as (r & l & E & H & H'). rewrite pdeep_text in H, H'.
    assert (L : zlen (repeat 91 (S n) ++ repeat 93 (S n)) = 2 * Z.of_nat n + 2).
    { unfold zlen. rewrite app_length, !repeat_length. lia. }
    specialize (H' eq_refl F). rewrite L in H'. destruct r as [b|]; [|destruct H'; [lia|reflexivity]].
    destruct H as (-> & ->). exact E.
  - pose proof (C95_nesting_refused (Z.of_nat (S n)) (repeat 93 (S n))) as R. unfold zrepeat in R. rewrite Nat2Z.id in R.
    apply R; [lia|]. intros H. apply repeat_spec in H. discriminate.
Qed.
Print Assumptions C136_refuted_deep.
Example ex_C136_deep : print 46 true false [] (pdeep 2) = Ok (Some (str "[[[]]]" ++ [0]), 1).
Proof. vm_compute. reflexivity. Qed.
(** a number that is not one comes back as null *)
Theorem C136_refuted_nan : forall dp re fmt, point dp ->
  print dp re fmt [] (PNum NNan) = Ok (Some (str "null" ++ [0]), 1) /\ json_parse (str "null") = Ok (Some JNull).
Proof.
  intros dp re fmt DP. split; [|vm_compute; reflexivity].
  destruct (print_ok dp DP fmt (PNum NNan) I re []) as (r & l & E & H & H').
  assert (T : render dp fmt 0 (PNum NNan) = str "null") by (destruct DP as [-> | ->]; reflexivity). rewrite T in *.
  destruct r as [b|]; [destruct H as (-> & ->); exact E|]. destruct H'; [reflexivity|exact I|vm_compute; discriminate|reflexivity].
Qed.
Print Assumptions C136_refuted_nan.

(** ** C137: cJSON_PrintPreallocated works exactly if the buffer has room for the text and two
    more bytes *)
Theorem C137_partial : forall dp fmt j v n, point dp -> means n j v -> exists t, docN integer n v t /\
  forall b, zlen b <= INT_MAX -> exists b',
    print_prealloc dp fmt b j = Ok (zlen t + 2 <=? zlen b, Some b') /\ zlen b' = zlen b /\ (zlen t + 2 <= zlen b -> holds b' t).
Proof.
  intros dp fmt j v n DP M. destruct (proj1 means_wf _ _ _ M) as (W & F). exists (render dp fmt 0 j).
  split; [exact (proj1 (text_doc dp DP fmt) n j v M 0)|]. intros b L.
  destruct (prealloc_ok dp DP fmt j W b) as (ok & b' & E & Z1 & H & H'). exists b'. rewrite E.
  destruct (Z.leb_spec (zlen (render dp fmt 0 j) + 2) (zlen b)) as [LE|GT].
  - rewrite H' by (auto; lia). split; [reflexivity|]. split; [exact Z1|]. intros _. apply H. apply H'; [exact F|lia].
  - destruct ok; [destruct (H eq_refl); lia|]. split; [reflexivity|]. split; [exact Z1|lia].
Qed.
Print Assumptions C137_partial.
Example ex_C137 : means 2 value1 (JObj [(str "k", JArr [JNum (-2147483647); JBool false; JStr [92; 7; 200]]); ([], JNull)]) /\
  (exists b, print_prealloc 46 false (zrepeat UN 46) value1 = Ok (false, Some b)) /\
  (exists b, print_prealloc 46 false (zrepeat UN 47) value1 = Ok (true, Some b)).
Proof.
  split; [exact (proj1 ex_C136)|]. split; eexists; vm_compute; reflexivity.
Qed.
(** a buffer of exactly the size of the C string is refused *)
Theorem C137_refuted : forall dp fmt j v n, point dp -> means n j v -> exists t, docN integer n v t /\
  forall b, zlen b = zlen (t ++ [0]) -> zlen b <= INT_MAX -> exists b', print_prealloc dp fmt b j = Ok (false, b').
Proof.
  intros dp fmt j v n DP M. destruct (C137_partial dp fmt j v n DP M) as (t & D & H). exists t. split; [exact D|].
  intros b L LE. destruct (H b LE) as (b' & E & _). exists (Some b'). rewrite E, L, zlen_app. change (zlen [0]) with 1.
  destruct (Z.leb_spec (zlen t + 2) (zlen t + 1)); [lia|reflexivity].
Qed.
Print Assumptions C137_refuted.
Example ex_C137_refuted : (exists b, print_prealloc 46 false (zrepeat UN 5) PNull = Ok (false, Some b)) /\ zlen (str "null" ++ [0]) = 5.
Proof. split; [eexists; vm_compute|]; reflexivity. Qed.
