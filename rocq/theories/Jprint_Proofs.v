(** * The JSON printer: what it writes, and where. *)
From Coq Require Import String.
From Verif Require Import Base Str_Spec Web_Model Jprint_Model.
Open Scope Z_scope.
Local Arguments Z.add : simpl never.
Local Arguments Z.sub : simpl never.
Local Arguments Z.mul : simpl never.
Local Arguments Z.div : simpl never.
Local Arguments Z.modulo : simpl never.
Local Arguments zlen : simpl never.

(** ** The text of an item *)
Definition esc (b : Z) : list Z :=
  if b =? 92 then [92; 92] else if b =? 34 then [92; 34] else if b =? 8 then [92; 98]
  else if b =? 12 then [92; 102] else if b =? 10 then [92; 110] else if b =? 13 then [92; 114]
  else if b =? 9 then [92; 116]
  else if b <? 32 then [92; 117; hexc (b / 4096 mod 16); hexc (b / 256 mod 16); hexc (b / 16 mod 16); hexc (b mod 16)]
  else [b].
Definition rstr (s : option (list Z)) : list Z :=
  [34] ++ flat_map esc (match s with None => [] | Some s => s end) ++ [34].
Definition rnum (dp : Z) (n : num) : list Z :=
  map (fun c => if c =? dp then 46 else c)
    (match n with NNan => str "null" | NInt v => fmt_d v | NDbl a true _ => a | NDbl _ false b => b end).

Section Render.
Context (dp : Z) (fmt : bool).
Fixpoint render (d : Z) (j : item) : list Z :=
  match j with
  | PNull => str "null"
  | PBool b => if b then str "true" else str "false"
  | PNum n => rnum dp n
  | PRaw s => match s with None => [] | Some s => s end
  | PStr s => rstr s
  | PArr l =>
      [91] ++ (fix go l := match l with
                           | [] => []
                           | x :: t => render (d + 1) x ++
                               match t with [] => [] | _ => [44] ++ (if fmt then [32] else []) ++ go t end
                           end) l ++ [93]
  | PObj l =>
      [123] ++ (if fmt then [10] else []) ++
      (fix go l := match l with
                   | [] => []
                   | (k, x) :: t =>
                       (if fmt then zrepeat 9 (d + 1) else []) ++ rstr k ++ [58] ++ (if fmt then [9] else []) ++
                       render (d + 1) x ++ (match t with [] => [] | _ => [44] end) ++ (if fmt then [10] else []) ++ go t
                   end) l ++ (if fmt then zrepeat 9 d else []) ++ [125]
  | PBad => []
  end.
Definition relems (d : Z) : list item -> list Z :=
  fix go l := match l with
              | [] => []
              | x :: t => render d x ++ match t with [] => [] | _ => [44] ++ (if fmt then [32] else []) ++ go t end
              end.
Definition rmems (d : Z) : list (option (list Z) * item) -> list Z :=
  fix go l := match l with
              | [] => []
              | (k, x) :: t =>
                  (if fmt then zrepeat 9 d else []) ++ rstr k ++ [58] ++ (if fmt then [9] else []) ++
                  render d x ++ (match t with [] => [] | _ => [44] end) ++ (if fmt then [10] else []) ++ go t
              end.
Lemma render_arr d l : render d (PArr l) = [91] ++ relems (d + 1) l ++ [93].
Proof. reflexivity. Qed.
Lemma render_obj d l : render d (PObj l) =
  [123] ++ (if fmt then [10] else []) ++ rmems (d + 1) l ++ (if fmt then zrepeat 9 d else []) ++ [125].
Proof. reflexivity. Qed.
End Render.

(** ** Well-formed items: strings without NUL, number texts that fit *)
Definition clean (l : list Z) : Prop := Forall (fun b => 0 < b) l.
Definition wf_num (n : num) : Prop :=
  match n with
  | NInt v => - 2 ^ 31 <= v < 2 ^ 31
  | NNan => True
  | NDbl a close b => clean a /\ clean b /\ zlen a <= 25 /\ (close = false -> zlen b <= 25)
  end.
Definition wf_str (s : option (list Z)) : Prop := match s with None => True | Some s => clean s end.
Fixpoint wf (j : item) : Prop :=
  match j with
  | PNull | PBool _ | PBad => True
  | PNum n => wf_num n
  | PRaw s | PStr s => wf_str s
  | PArr l => (fix go l := match l with [] => True | x :: t => wf x /\ go t end) l
  | PObj l => (fix go l := match l with [] => True | (k, x) :: t => wf_str k /\ wf x /\ go t end) l
  end.
Fixpoint wfs (l : list item) : Prop := match l with [] => True | x :: t => wf x /\ wfs t end.
Fixpoint wfm (l : list (option (list Z) * item)) : Prop :=
  match l with [] => True | (k, x) :: t => wf_str k /\ wf x /\ wfm t end.

(** items that have a text *)
Fixpoint full (j : item) : Prop :=
  match j with
  | PBad | PRaw None => False
  | PArr l => (fix go l := match l with [] => True | x :: t => full x /\ go t end) l
  | PObj l => (fix go (l : list (option (list Z) * item)) := match l with [] => True | (k, x) :: t => full x /\ go t end) l
  | _ => True
  end.
Fixpoint fulls (l : list item) : Prop := match l with [] => True | x :: t => full x /\ fulls t end.
Fixpoint fullm (l : list (option (list Z) * item)) : Prop := match l with [] => True | (k, x) :: t => full x /\ fullm t end.

(** induction over items *)
Section Ind.
Context (P : item -> Prop) (H0 : P PNull) (H1 : forall b, P (PBool b)) (H2 : forall n, P (PNum n))
  (H3 : forall s, P (PRaw s)) (H4 : forall s, P (PStr s)) (H5 : forall l, Forall P l -> P (PArr l))
  (H6 : forall l, Forall (fun x => P (snd x)) l -> P (PObj l)) (H7 : P PBad).
Fixpoint item_ind' (j : item) : P j :=
  match j with
  | PNull => H0 | PBool b => H1 b | PNum n => H2 n | PRaw s => H3 s | PStr s => H4 s
  | PArr l => H5 l ((fix go l : Forall P l := match l with [] => Forall_nil _ | x :: t => Forall_cons x (item_ind' x) (go t) end) l)
  | PObj l => H6 l ((fix go l : Forall (fun x => P (snd x)) l :=
                      match l with [] => Forall_nil _ | x :: t => Forall_cons x (item_ind' (snd x)) (go t) end) l)
  | PBad => H7
  end.
End Ind.

(** ** States of the buffer *)
(** [T] is printed and the offset is behind it; [U] is being written; there are [m] bytes of
    room for [U] *)
Definition room (p : pb) (T U : list Z) (m : Z) : Prop :=
  exists r, buf p = Some (T ++ U ++ r) /\ off p = zlen T /\ len p = zlen (T ++ U ++ r) /\
    m <= zlen U + zlen r.
Definition ready (p : pb) (T : list Z) : Prop :=
  room p T [] 0 /\ (off p < len p \/ len p = 0 /\ (re p = true \/ noalloc p = true)).
(** [T] is printed and terminated; the offset is somewhere in it *)
Definition printed (p : pb) (T : list Z) : Prop :=
  exists X Y r, T = X ++ Y /\ clean Y /\ buf p = Some (T ++ 0 :: r) /\ off p = zlen X /\ len p = zlen (T ++ 0 :: r).
(** blocks not released apart from the buffer *)
Definition lv (p : pb) : Z := match buf p with Some _ => live p - 1 | None => live p end.
(** size of the block *)
Definition blen (p : pb) : Z := match buf p with Some b => zlen b | None => -1 end.
Definition same (p q : pb) : Prop :=
  noalloc q = noalloc p /\ fmtd q = fmtd p /\ re q = re p /\ lv q = lv p /\
  (noalloc p = true -> len q = len p) /\ (mem p = [] -> mem q = []) /\ (noalloc p = true -> blen q = blen p).
Lemma same_refl p : same p p. Proof. repeat split; auto. Qed.
Lemma same_trans p q r : same p q -> same q r -> same p r.
Proof.
  intros (A1 & A2 & A3 & A4 & A5 & A6 & A7) (B1 & B2 & B3 & B4 & B5 & B6 & B7).
  repeat split; try congruence; [intros H; rewrite <- (A5 H); apply B5; congruence|auto|].
  intros H. rewrite <- (A7 H). apply B7. congruence.
Qed.
(** there is memory for [n] bytes *)
Definition enough (p : pb) (n : Z) : Prop :=
  n <= INT_MAX /\ (noalloc p = true /\ n <= len p \/ noalloc p = false /\ mem p = []).
Lemma enough_same p q m n : same p q -> m <= n -> enough p n -> enough q m.
Proof.
  intros (A1 & A2 & A3 & A4 & A5 & A6 & A7) L (B & [(N & H)|(N & M)]); (split; [lia|]); [left|right].
  - rewrite A1, (A5 N). split; [exact N|lia].
  - rewrite A1. auto.
Qed.

(** the call ends; it ends well if [E] *)
Definition out (p : pb) (r : res (bool * pb)) (Q : pb -> Prop) (E : Prop) : Prop :=
  exists ok p', r = Ok (ok, p') /\ same p p' /\ (ok = true -> Q p') /\ (E -> ok = true).

Lemma out_ret p q (Q : pb -> Prop) E : same p q -> Q q -> out p (Ok (true, q)) Q E.
Proof. intros S1 H. exists true, q. auto. Qed.
Lemma out_fail p q (Q : pb -> Prop) (E : Prop) : same p q -> (E -> False) -> out p (Ok (false, q)) Q E.
Proof. intros S1 N. exists false, q. split; [reflexivity|]. split; [exact S1|]. split; [discriminate|contradiction]. Qed.
Lemma out_same p q r Q E : same p q -> out q r Q E -> out p r Q E.
Proof. intros S1 (ok & p' & H & S2 & X). exists ok, p'. split; [exact H|]. split; [eapply same_trans; eassumption|exact X]. Qed.
Lemma out_then p r k Q R E : out p r Q E -> (forall q, same p q -> Q q -> out q (k q) R E) -> out p (andthen r k) R E.
Proof.
  intros (ok & p' & -> & S1 & H & HE) K. unfold andthen. cbn [bind fst snd]. destruct ok.
  - apply (out_same p p'); [exact S1|]. apply K; auto.
  - apply out_fail; [exact S1|]. intros X. specialize (HE X). discriminate.
Qed.
Lemma out_weaken p r (Q : pb -> Prop) (E E' : Prop) : out p r Q E' -> (E -> E') -> out p r Q E.
Proof. intros (ok & p' & H & S1 & X & Y) I1. exists ok, p'. auto 6. Qed.

Lemma ready_dep p T d : ready p T -> ready (set_dep p d) T.
Proof. intros ((r & H) & X). split; [exists r; exact H|exact X]. Qed.

Lemma ensure_room p T n : ready p T -> 0 <= n ->
  out p (ensure p n) (fun q => room q T [] (n + 1) /\ dep q = dep p) (enough p (zlen T + n + 1)).
Proof.
  intros ((r & B & O & L & _) & SD) N. cbn [app] in *. unfold ensure. rewrite B.
  assert (ZT := zlen_nonneg T). assert (ZR := zlen_nonneg r). rewrite zlen_app in L.
  destruct ((0 <? len p) && (len p <=? off p)) eqn:C.
  { apply andb_true_iff in C as (C1 & C2). lia. }
  destruct (Z.ltb_spec INT_MAX n).
  { apply out_fail; [apply same_refl|]. intros (X & _). lia. }
  cbn zeta. destruct (Z.leb_spec (n + off p + 1) (len p)).
  { apply out_ret; [apply same_refl|]. split; [|reflexivity]. exists r. cbn [app]. rewrite zlen_app. change (zlen []) with 0.
    repeat split; auto; lia. }
  destruct (noalloc p) eqn:NA.
  { apply out_fail; [apply same_refl|]. intros (_ & [(_ & X)|(X & _)]); [lia|congruence]. }
  destruct (Z.ltb_spec INT_MAX (n + off p + 1)).
  { apply out_fail; [apply same_refl|]. intros (X & _). lia. }
  set (sz := if INT_MAX / 2 <? n + off p + 1 then INT_MAX else (n + off p + 1) * 2).
  assert (SZ : n + off p + 1 <= sz).
  { unfold sz. destruct (Z.ltb_spec (INT_MAX / 2) (n + off p + 1)); lia. }
  clearbody sz. destruct (pop (mem p)) as (ok & m) eqn:PM.
  assert (MM : mem p = [] -> m = []) by (intros X; rewrite X in PM; injection PM as _ <-; reflexivity).
  destruct ok.
  - destruct (re p) eqn:RE.
    + apply out_ret; [unfold same, lv; cbn; rewrite B; repeat split; first [congruence|exact MM]|]. split; [|reflexivity].
      exists (r ++ zrepeat UN (sz - zlen (T ++ r))). cbn [app buf off len set_buf].
      rewrite (ztake_all sz) by (rewrite zlen_app; lia). rewrite <- app_assoc, !zlen_app, zlen_zrepeat by lia.
      change (zlen []) with 0. repeat split; auto; lia.
    + destruct (Z.ltb_spec (zlen (T ++ r)) (off p + 1)) as [BAD|OK2].
      { exfalso. rewrite zlen_app in BAD. destruct SD as [SD|(SD & [X|X])]; [lia|congruence|congruence]. }
      rewrite zlen_app in OK2. apply out_ret; [unfold same, lv; cbn; rewrite B; repeat split; first [congruence|exact MM]|]. split; [|reflexivity].
      assert (E1 : ztake (off p + 1) (T ++ r) = T ++ ztake 1 r).
      { rewrite ztake_app_r by lia. f_equal. f_equal. lia. }
      assert (E2 : zlen (ztake 1 r) = 1) by (rewrite zlen_ztake by lia; lia).
      exists (ztake 1 r ++ zrepeat UN (sz - (off p + 1))). cbn [app buf off len set_buf noalloc re].
      rewrite E1, <- app_assoc, !zlen_app, zlen_zrepeat, E2 by lia. change (zlen []) with 0.
      repeat split; auto; lia.
  - apply out_fail; [unfold same, lv; cbn; rewrite B; repeat split; first [congruence|exact MM]|].
    intros (_ & [(X & _)|(_ & X)]); [congruence|]. rewrite X in PM. discriminate.
Qed.

(** "let* e := ensure …" as it appears everywhere *)
Lemma reserve p T n K Q (E : Prop) : ready p T -> 0 <= n -> (E -> enough p (zlen T + n + 1)) ->
  (forall q, same p q -> room q T [] (n + 1) -> dep q = dep p -> out q (K q) Q E) ->
  out p (let* e := ensure p n in if negb (fst e) then Ok (false, snd e) else K (snd e)) Q E.
Proof.
  intros R N EN H. destruct (ensure_room p T n R N) as (ok & q & -> & S1 & X & Y). cbn [bind fst snd]. destruct ok; cbn [negb].
  - destruct (X eq_refl) as (A & B). apply (out_same p q _ _ _ S1). apply H; assumption.
  - apply out_fail; [exact S1|]. intros Z1. specialize (Y (EN Z1)). discriminate.
Qed.

Lemma put_room p T U m bs : room p T U m -> zlen U + zlen bs <= m ->
  exists q, put p (zlen U) bs = Ok q /\ same p q /\ dep q = dep p /\ room q T (U ++ bs) m.
Proof.
  intros (r & B & O & L & M) LE. unfold put. rewrite B, O.
  assert (Z1 := zlen_nonneg T). assert (Z2 := zlen_nonneg U). assert (Z3 := zlen_nonneg bs).
  assert (E : zput (T ++ U ++ r) (zlen T + zlen U) bs = Some (T ++ (U ++ bs) ++ zdrop (zlen bs) r)).
  { rewrite zput_ok by (rewrite ?zlen_app; lia).
    replace (zlen T + zlen U) with (zlen (T ++ U)) by apply zlen_app. rewrite (app_assoc T U r).
    rewrite ztake_app_l, ztake_all by lia. rewrite zdrop_app_r by lia.
    replace (zlen (T ++ U) + zlen bs - zlen (T ++ U)) with (zlen bs) by lia. rewrite <- !app_assoc. reflexivity. }
  rewrite E. cbn [of_opt bind]. eexists. split; [reflexivity|]. split.
  { unfold same, lv, blen. cbn. rewrite B. repeat split; auto. intros _. rewrite !zlen_app, zlen_zdrop by lia. rewrite !zlen_app in L. lia. }
  split; [reflexivity|]. exists (zdrop (zlen bs) r). cbn [buf off len set_buf re noalloc].
  assert (ZD : zlen (zdrop (zlen bs) r) = zlen r - zlen bs).
  { rewrite zlen_zdrop by lia. lia. }
  rewrite !zlen_app in *. rewrite ZD. repeat split; auto; lia.
Qed.
Lemma put_first p T m bs : room p T [] m -> zlen bs <= m ->
  exists q, put p 0 bs = Ok q /\ same p q /\ dep q = dep p /\ room q T bs m.
Proof. intros R L. exact (put_room p T [] m bs R L). Qed.

(** what a room becomes *)
Lemma room_len p T U m : room p T U m -> zlen T + m <= len p.
Proof. intros (r & B & O & L & M). rewrite !zlen_app in L. lia. Qed.
Lemma room_printed p T U m : room p T (U ++ [0]) m -> clean U -> printed p (T ++ U).
Proof.
  intros (r & B & O & L & _) C. exists T, U, r. split; [reflexivity|]. split; [exact C|].
  replace ((T ++ U) ++ 0 :: r) with (T ++ (U ++ [0]) ++ r) by (rewrite <- !app_assoc; reflexivity). auto.
Qed.
Lemma room_ready p T U V m : room p T (U ++ V) m -> zlen U < m -> ready (set_off p (off p + zlen U)) (T ++ U).
Proof.
  intros (r & B & O & L & M) LT. split.
  - exists (V ++ r). cbn [app buf off len set_off re noalloc].
    replace ((T ++ U) ++ V ++ r) with (T ++ (U ++ V) ++ r) by (rewrite <- !app_assoc; reflexivity).
    rewrite zlen_app, O. change (zlen []) with 0. pose proof (zlen_nonneg (V ++ r)). repeat split; auto; lia.
  - left. cbn [off len set_off]. rewrite !zlen_app in *. lia.
Qed.

Lemma strlen_clean : forall Y r, clean Y -> strlen (Y ++ 0 :: r) = Ok (zlen Y).
Proof.
  induction Y as [|y Y IH]; intros r C; [reflexivity|]. cbn [strlen app]. pose proof (Forall_inv C) as P. cbn in P.
  unfold UN. destruct (Z.eqb_spec y (-1)); [lia|]. destruct (Z.eqb_spec y 0); [lia|].
  rewrite IH by exact (Forall_inv_tail C). cbn [bind]. rewrite zlen_cons. f_equal. lia.
Qed.
Lemma update_printed p T : printed p T -> exists q, update_offset p = Ok q /\ same p q /\ dep q = dep p /\ ready q T /\
  exists r, buf q = Some (T ++ 0 :: r) /\ buf q = buf p /\ mem q = mem p.
Proof.
  intros (X & Y & r & -> & C & B & O & L). assert (E : update_offset p = Ok (set_off p (zlen X + zlen Y))).
  { unfold update_offset. rewrite B, O, <- app_assoc, zdrop_app_r, Z.sub_diag by lia.
    change (zdrop 0 (Y ++ 0 :: r)) with (Y ++ 0 :: r). rewrite strlen_clean by exact C. reflexivity. }
  rewrite E. eexists. split; [reflexivity|].
  split; [unfold same, lv; cbn; auto 8|]. split; [reflexivity|]. split.
  - split.
    + exists (0 :: r). cbn [app buf off len set_off re noalloc]. rewrite zlen_app. change (zlen []) with 0.
      pose proof (zlen_nonneg (0 :: r)). repeat split; auto; lia.
    + left. cbn [off len set_off]. rewrite L, zlen_app, zlen_cons, zlen_app. pose proof (zlen_nonneg r). lia.
  - exists r. cbn [buf set_off mem]. auto.
Qed.

(** ** The parts *)
(** printed, and there were at least two bytes more than the text needs *)
Definition prints (p : pb) (T U : list Z) (q : pb) : Prop :=
  printed q (T ++ U) /\ dep q = dep p /\ zlen (T ++ U) + 2 <= len q.

Lemma constant_out p T n t : ready p T -> n = zlen t + 1 -> clean t ->
  out p (constant p n t) (prints p T t) (enough p (zlen (T ++ t) + 2)).
Proof.
  intros R L C. unfold constant. pose proof (zlen_nonneg t).
  apply (reserve p T n (fun q => let* p1 := put q 0 (t ++ [0]) in Ok (true, p1))); [exact R|lia|rewrite zlen_app; intros X; eapply enough_same; [apply same_refl| |exact X]; lia|].
  intros q S1 RM D. destruct (put_first q T (n + 1) (t ++ [0]) RM) as (q1 & -> & S2 & D2 & R2); [rewrite zlen_app; change (zlen [0]) with 1; lia|].
  cbn [bind]. apply out_ret; [exact S2|]. split; [eapply room_printed; eassumption|]. split; [congruence|].
  apply room_len in R2. rewrite zlen_app. lia.
Qed.

Lemma fmt_clean n : clean (fmt_d n).
Proof.
  assert (D : forall f v, 0 <= v -> clean (digits_of f v)).
  { induction f as [|f IH]; intros v V; cbn [digits_of]; [constructor|]. destruct (Z.ltb_spec v 10).
    - constructor; [lia|constructor].
    - apply Forall_app. split; [apply IH; apply Z.div_pos; lia|]. pose proof (Z.mod_pos_bound v 10). constructor; [lia|constructor]. }
  unfold fmt_d. destruct (Z.ltb_spec n 0); [constructor; [lia|]|]; apply D; lia.
Qed.
Lemma fmt_short n : zlen (fmt_d n) <= 21.
Proof.
  assert (D : forall f v, zlen (digits_of f v) <= Z.of_nat f).
  { induction f as [|f IH]; intros v; [vm_compute; discriminate|]. cbn [digits_of]. destruct (v <? 10).
    - change (zlen [48 + v]) with 1. lia.
    - rewrite zlen_app. change (zlen [48 + v mod 10]) with 1. specialize (IH (v / 10)). lia. }
  unfold fmt_d. destruct (n <? 0); [rewrite zlen_cons|]; [pose proof (D 20%nat (- n))|pose proof (D 20%nat n)]; lia.
Qed.

Lemma number_text_ok n : wf_num n -> exists t, number_text n = Ok t /\ zlen t <= 25 /\ clean t /\
  forall dp, rnum dp n = map (fun c => if c =? dp then 46 else c) t.
Proof.
  destruct n as [v| |a close b]; cbn [wf_num]; intros W; unfold number_text; cbn zeta.
  - pose proof (fmt_short v). destruct (Z.leb_spec 26 (zlen (fmt_d v))); [lia|]. exists (fmt_d v).
    split; [reflexivity|]. split; [lia|]. split; [apply fmt_clean|reflexivity].
  - exists (str "null"). split; [reflexivity|]. split; [vm_compute; discriminate|]. split; [repeat constructor|reflexivity].
  - destruct W as (Ca & Cb & La & Lb). destruct (Z.leb_spec 26 (zlen a)); [lia|]. cbn [bind]. destruct close.
    + exists a. auto.
    + specialize (Lb eq_refl). destruct (Z.leb_spec 26 (zlen b)); [lia|]. exists b. auto.
Qed.

Lemma number_out dp n p T : wf_num n -> ready p T -> 0 <> dp -> out p (print_number dp n p) (prints p T (rnum dp n)) (enough p (zlen (T ++ rnum dp n) + 2)).
Proof.
  intros W R ND. destruct (number_text_ok n W) as (t & E & L & C & V). unfold print_number. rewrite E. cbn [bind].
  destruct (Z.ltb_spec 25 (zlen t)); [lia|]. rewrite V. pose proof (zlen_nonneg t).
  set (u := map _ t) in *. assert (LU : zlen u = zlen t) by (unfold u, zlen; rewrite map_length; reflexivity).
  assert (CU : clean u).
  { unfold u, clean in *. apply Forall_map. eapply Forall_impl; [|exact C]. intros c X. cbn beta in *. destruct (c =? dp); lia. }
  apply (reserve p T (zlen t + 1) (fun q => let* p1 := put q 0 (u ++ [0]) in Ok (true, set_off p1 (off p1 + zlen t)))); [exact R|lia|rewrite zlen_app; intros X; eapply enough_same; [apply same_refl| |exact X]; lia|].
  intros q S1 RM D. destruct (put_first q T (zlen t + 1 + 1) (u ++ [0]) RM) as (q1 & -> & S2 & D2 & R2); [rewrite zlen_app; change (zlen [0]) with 1; lia|].
  cbn [bind]. apply out_ret; [exact S2|]. pose proof (room_len _ _ _ _ R2) as RL.
  split; [|split; [cbn; congruence|cbn [len set_off]; rewrite zlen_app; lia]].
  destruct R2 as (r & B & O & LN & _). exists (T ++ u), [], r. rewrite app_nil_r. split; [reflexivity|]. split; [constructor|].
  cbn [buf off len set_off].
  replace ((T ++ u) ++ 0 :: r) with (T ++ (u ++ [0]) ++ r) by (rewrite <- !app_assoc; reflexivity).
  rewrite zlen_app, O, LU. auto.
Qed.

Lemma extra_nonneg s : 0 <= extra s.
Proof. induction s as [|b s IH]; cbn [extra]; [lia|]. destruct (short_escape b), (b <? 32); lia. Qed.
Lemma esc_len b : clean [b] -> zlen (esc b) = 1 + (if short_escape b then 1 else if b <? 32 then 5 else 0).
Proof.
  intros C. apply Forall_inv in C. unfold esc, short_escape.
  destruct (Z.eqb_spec b 92) as [->|]; [reflexivity|]. destruct (Z.eqb_spec b 34) as [->|]; [reflexivity|].
  destruct (Z.eqb_spec b 8) as [->|]; [reflexivity|]. destruct (Z.eqb_spec b 12) as [->|]; [reflexivity|].
  destruct (Z.eqb_spec b 10) as [->|]; [reflexivity|]. destruct (Z.eqb_spec b 13) as [->|]; [reflexivity|].
  destruct (Z.eqb_spec b 9) as [->|]; [reflexivity|]. cbn [orb]. destruct (b <? 32); reflexivity.
Qed.
Lemma escs_len s : clean s -> zlen (flat_map esc s) = zlen s + extra s.
Proof.
  induction s as [|b s IH]; intros C; [reflexivity|]. cbn [flat_map extra].
  rewrite zlen_app, zlen_cons, IH, esc_len by (first [exact (Forall_inv_tail C)|constructor; [exact (Forall_inv C)|constructor]]). lia.
Qed.
Lemma escs_none s : clean s -> extra s = 0 -> flat_map esc s = s.
Proof.
  induction s as [|b s IH]; intros C E; [reflexivity|]. cbn [flat_map extra] in *.
  pose proof (extra_nonneg s). destruct (short_escape b) eqn:S1; [lia|]. destruct (b <? 32) eqn:B; [lia|].
  rewrite IH by (first [exact (Forall_inv_tail C)|lia]). unfold esc. unfold short_escape in S1. rewrite !orb_false_iff in S1.
  destruct S1 as ((((((A1 & A2) & A3) & A4) & A5) & A6) & A7). rewrite A1, A2, A3, A4, A5, A6, A7, B. reflexivity.
Qed.
Lemma hexc_pos v : 0 <= v < 16 -> 0 < hexc v.
Proof. unfold hexc. destruct (v <? 10); lia. Qed.
Lemma escs_clean s : clean s -> clean (flat_map esc s).
Proof.
  intros C. induction C as [|b s B C IH]; [constructor|]. cbn [flat_map]. apply Forall_app. split; [|exact IH].
  unfold esc. repeat (match goal with |- context [if ?c then _ else _] => destruct c end);
    repeat constructor; try lia; apply hexc_pos; apply Z.mod_pos_bound; lia.
Qed.

Lemma copy_room : forall s p T U m, clean s -> room p T U m -> zlen U + zlen (flat_map esc s) < m ->
  exists q, copy s (zlen U) p = Ok q /\ same p q /\ dep q = dep p /\ room q T (U ++ flat_map esc s) m.
Proof.
  induction s as [|b s IH]; intros p T U m C R L.
  - exists p. split; [reflexivity|]. rewrite app_nil_r. split; [apply same_refl|]. auto.
  - cbn [flat_map] in *. rewrite zlen_app in L. pose proof (zlen_nonneg (flat_map esc s)) as ZF.
    pose proof (Forall_inv C) as B. cbn in B. pose proof (Forall_inv_tail C) as Cs. cbn [copy].
    (* write [w], go on behind it *)
    assert (STEP : forall p1 w, zlen U + zlen w + zlen (flat_map esc s) < m -> room p1 T (U ++ w) m -> same p p1 -> dep p1 = dep p ->
      exists q, copy s (zlen U + zlen w) p1 = Ok q /\ same p q /\ dep q = dep p /\ room q T (U ++ w ++ flat_map esc s) m).
    { intros p1 w LW R1 S1 D1. destruct (IH p1 T (U ++ w) m Cs R1) as (q & E & S2 & D2 & R2); [rewrite zlen_app; lia|].
      exists q. rewrite zlen_app in E. split; [exact E|]. split; [eapply same_trans; eassumption|]. split; [congruence|].
      rewrite <- app_assoc in R2. exact R2. }
    (* backslash and one character *)
    assert (ONE : forall c, zlen U + 2 + zlen (flat_map esc s) < m ->
      exists q, (let* p1 := put p (zlen U) [92] in let* p2 := put p1 (zlen U + 1) [c] in copy s (zlen U + 2) p2) = Ok q /\
        same p q /\ dep q = dep p /\ room q T (U ++ [92; c] ++ flat_map esc s) m).
    { intros c LC. destruct (put_room p T U m [92] R) as (p1 & -> & S1 & D1 & R1); [change (zlen [92]) with 1; lia|]. cbn [bind].
      destruct (put_room p1 T (U ++ [92]) m [c] R1) as (p2 & E2 & S2 & D2 & R2); [rewrite zlen_app; change (zlen [92]) with 1; change (zlen [c]) with 1; lia|].
      rewrite zlen_app in E2. change (zlen [92]) with 1 in E2. rewrite E2. cbn [bind]. rewrite <- app_assoc in R2. cbn [app] in R2.
      apply (STEP p2 [92; c]); [change (zlen [92; c]) with 2; lia|exact R2|eapply same_trans; eassumption|congruence]. }
    unfold esc in L |- *. fold esc in *.
    destruct (Z.eqb_spec b 92) as [->|N1]; [cbn [Z.ltb Z.compare Pos.compare Pos.compare_cont andb negb Z.eqb Pos.eqb] ; apply ONE; change (zlen [92; 92]) with 2 in L; lia|].
    destruct (Z.eqb_spec b 34) as [->|N2]; [cbn [Z.ltb Z.compare Pos.compare Pos.compare_cont andb negb Z.eqb Pos.eqb]; apply ONE; change (zlen [92; 34]) with 2 in L; lia|].
    destruct (Z.eqb_spec b 8) as [->|N3]; [apply ONE; change (zlen [92; 98]) with 2 in L; lia|].
    destruct (Z.eqb_spec b 12) as [->|N4]; [apply ONE; change (zlen [92; 102]) with 2 in L; lia|].
    destruct (Z.eqb_spec b 10) as [->|N5]; [apply ONE; change (zlen [92; 110]) with 2 in L; lia|].
    destruct (Z.eqb_spec b 13) as [->|N6]; [apply ONE; change (zlen [92; 114]) with 2 in L; lia|].
    destruct (Z.eqb_spec b 9) as [->|N7]; [apply ONE; change (zlen [92; 116]) with 2 in L; lia|].
    destruct (Z.ltb_spec b 32), (Z.ltb_spec 31 b); try lia; cbn [andb negb].
    + (* \u00xx *)
      set (w := [117; hexc (b / 4096 mod 16); hexc (b / 256 mod 16); hexc (b / 16 mod 16); hexc (b mod 16)]) in *.
      change [92; 117; hexc (b / 4096 mod 16); hexc (b / 256 mod 16); hexc (b / 16 mod 16); hexc (b mod 16)] with (92 :: w) in *.
      change (zlen (92 :: w)) with 6 in L.
      destruct (put_room p T U m [92] R) as (p1 & -> & S1 & D1 & R1); [change (zlen [92]) with 1; lia|]. cbn [bind].
      change [117; hexc (b / 4096 mod 16); hexc (b / 256 mod 16); hexc (b / 16 mod 16); hexc (b mod 16); 0] with (w ++ [0]).
      destruct (put_room p1 T (U ++ [92]) m (w ++ [0]) R1) as (p2 & E2 & S2 & D2 & R2);
        [rewrite zlen_app; change (zlen [92]) with 1; change (zlen (w ++ [0])) with 6; lia|].
      rewrite zlen_app in E2. change (zlen [92]) with 1 in E2. rewrite E2. cbn [bind].
      apply (STEP p2 (92 :: w)); [change (zlen (92 :: w)) with 6; lia| |eapply same_trans; eassumption|congruence].
      destruct R2 as (r & B2 & O2 & L2 & M2). exists (0 :: r).
      replace (T ++ (U ++ 92 :: w) ++ 0 :: r) with (T ++ ((U ++ [92]) ++ w ++ [0]) ++ r) by (repeat (rewrite <- ?app_assoc; cbn [app]); reflexivity).
      split; [exact B2|]. split; [exact O2|]. split; [exact L2|].
      rewrite !zlen_app in M2. rewrite zlen_app, !zlen_cons. change (zlen [92]) with 1 in M2. change (zlen [0]) with 1 in M2.
      lia.
    + change (zlen [b]) with 1 in L.
      destruct (put_room p T U m [b] R) as (p1 & -> & S1 & D1 & R1); [change (zlen [b]) with 1; lia|]. cbn [bind].
      apply (STEP p1 [b]); [change (zlen [b]) with 1; lia|exact R1|exact S1|exact D1].
Qed.

Lemma string_out s p T : wf_str s -> ready p T -> out p (print_string s p) (prints p T (rstr s)) (enough p (zlen (T ++ rstr s) + 2)).
Proof.
  intros W R. destruct s as [s|]; cbn [print_string wf_str] in *.
  2:{ apply constant_out; [exact R|reflexivity|repeat constructor]. }
  pose proof (zlen_nonneg s). pose proof (extra_nonneg s). cbn zeta.
  set (n := zlen s + extra s) in *.
  assert (LR : zlen (T ++ rstr (Some s)) = zlen T + n + 2).
  { unfold rstr. rewrite !zlen_app, escs_len by exact W. change (zlen [34]) with 1. lia. }
  set (K := fun q : pb => if extra s =? 0
     then let* p1 := put q 0 [34] in let* p2 := put p1 1 s in let* p3 := put p2 (n + 1) [34; 0] in Ok (true, p3)
     else let* p1 := put q 0 [34] in let* p2 := copy s 1 p1 in let* p3 := put p2 (n + 1) [34; 0] in Ok (true, p3)).
  apply (reserve p T (n + 3) K); [exact R|lia|rewrite LR; intros X; eapply enough_same; [apply same_refl| |exact X]; lia|]. intros q S1 RM D. unfold K.
  destruct (put_first q T (n + 3 + 1) [34] RM) as (p1 & E1 & S2 & D2 & R2); [change (zlen [34]) with 1; lia|].
  assert (MID : exists p2, (if extra s =? 0 then put p1 1 s else copy s 1 p1) = Ok p2 /\ same p1 p2 /\ dep p2 = dep p1 /\
            room p2 T ([34] ++ flat_map esc s) (n + 3 + 1)).
  { destruct (Z.eqb_spec (extra s) 0) as [E0|E0].
    - rewrite escs_none by assumption. destruct (put_room p1 T [34] (n + 3 + 1) s R2) as (p2 & H2); [change (zlen [34]) with 1; lia|].
      exists p2. exact H2.
    - destruct (copy_room s p1 T [34] (n + 3 + 1) W R2) as (p2 & H2); [rewrite escs_len by exact W; change (zlen [34]) with 1; lia|].
      exists p2. exact H2. }
  destruct MID as (p2 & E2 & S3 & D3 & R3).
  destruct (put_room p2 T ([34] ++ flat_map esc s) (n + 3 + 1) [34; 0] R3) as (p3 & E3 & S4 & D4 & R4);
    [rewrite zlen_app, escs_len by exact W; change (zlen [34]) with 1; change (zlen [34; 0]) with 2; lia|].
  rewrite zlen_app, escs_len in E3 by exact W. change (zlen [34] + (zlen s + extra s)) with (1 + n) in E3. rewrite (Z.add_comm 1 n) in E3.
  assert (FIN : (if extra s =? 0
     then let* p1 := put q 0 [34] in let* p2 := put p1 1 s in let* p3 := put p2 (n + 1) [34; 0] in Ok (true, p3)
     else let* p1 := put q 0 [34] in let* p2 := copy s 1 p1 in let* p3 := put p2 (n + 1) [34; 0] in Ok (true, p3)) = Ok (true, p3)).
  { destruct (extra s =? 0); rewrite E1; cbn [bind]; rewrite E2; cbn [bind]; rewrite E3; reflexivity. }
  rewrite FIN. apply out_ret; [eapply same_trans; [exact S2|eapply same_trans; eassumption]|].
  split; [|split; [congruence|rewrite LR; apply room_len in R4; lia]]. unfold rstr.
  apply (room_printed p3 T ([34] ++ flat_map esc s ++ [34]) (n + 3 + 1)).
  - repeat (rewrite <- ?app_assoc in *; cbn [app] in *). exact R4.
  - cbn [app]. constructor; [lia|]. apply Forall_app. split; [apply escs_clean; exact W|repeat constructor].
Qed.

(** ** Between the parts; these move the offset themselves *)
Definition moves (p : pb) (T U : list Z) (q : pb) : Prop := ready q (T ++ U) /\ dep q = dep p.

Lemma piece_out p T n U V : ready p T -> 0 <= n -> zlen U + zlen V <= n + 1 -> zlen U <= n ->
  out p (let* e := ensure p n in if negb (fst e) then Ok (false, snd e)
         else let* p1 := put (snd e) 0 (U ++ V) in Ok (true, set_off p1 (off p1 + zlen U))) (moves p T U) (enough p (zlen T + n + 1)).
Proof.
  intros R N L L2. apply (reserve p T n (fun q => let* p1 := put q 0 (U ++ V) in Ok (true, set_off p1 (off p1 + zlen U)))); [exact R|exact N|auto|].
  intros q S1 RM D. destruct (put_first q T (n + 1) (U ++ V) RM) as (q1 & -> & S2 & D2 & R2); [rewrite zlen_app; lia|].
  cbn [bind]. apply out_ret; [exact S2|]. split; [|cbn; congruence]. eapply room_ready; [exact R2|lia].
Qed.

Definition rcomma (fmt : bool) : list Z := [44] ++ (if fmt then [32] else []).
Lemma comma_out p T : ready p T -> out p (comma p) (moves p T (rcomma (fmtd p))) (enough p (zlen (T ++ rcomma (fmtd p)) + 2)).
Proof.
  intros R. unfold comma, rcomma. rewrite zlen_app. destruct (fmtd p).
  - eapply out_weaken; [apply (piece_out p T 3 [44; 32] [0] R); [lia|vm_compute; discriminate..]|].
    apply enough_same; [apply same_refl|]. change (zlen ([44] ++ [32])) with 2. lia.
  - eapply out_weaken; [apply (piece_out p T 2 [44] [0] R); [lia|vm_compute; discriminate..]|].
    apply enough_same; [apply same_refl|]. change (zlen ([44] ++ [])) with 1. lia.
Qed.
Definition rcolon (fmt : bool) : list Z := [58] ++ (if fmt then [9] else []).
Lemma colon_out p T : ready p T -> out p (colon p) (moves p T (rcolon (fmtd p))) (enough p (zlen (T ++ rcolon (fmtd p)) + 2)).
Proof.
  intros R. unfold colon, rcolon. rewrite zlen_app. destruct (fmtd p).
  - eapply out_weaken; [apply (piece_out p T 2 [58; 9] [] R); [lia|vm_compute; discriminate..]|].
    apply enough_same; [apply same_refl|]. change (zlen ([58] ++ [9])) with 2. lia.
  - eapply out_weaken; [apply (piece_out p T 1 [58] [] R); [lia|vm_compute; discriminate..]|].
    apply enough_same; [apply same_refl|]. change (zlen ([58] ++ [])) with 1. lia.
Qed.
Definition rend (last fmt : bool) : list Z := (if last then [] else [44]) ++ (if fmt then [10] else []).
Lemma member_end_out last p T : ready p T ->
  out p (member_end last p) (moves p T (rend last (fmtd p))) (enough p (zlen (T ++ rend last (fmtd p)) + 2)).
Proof.
  intros R. unfold member_end, rend. rewrite zlen_app. destruct last, (fmtd p).
  - eapply out_weaken; [apply (piece_out p T 2 [10] [0] R); [lia|vm_compute; discriminate..]|].
    apply enough_same; [apply same_refl|]. change (zlen ([] ++ [10])) with 1. lia.
  - eapply out_weaken; [apply (piece_out p T 1 [] [0] R); [lia|vm_compute; discriminate..]|].
    apply enough_same; [apply same_refl|]. change (zlen ([] ++ [])) with 0. lia.
  - eapply out_weaken; [apply (piece_out p T 3 [44; 10] [0] R); [lia|vm_compute; discriminate..]|].
    apply enough_same; [apply same_refl|]. change (zlen ([44] ++ [10])) with 2. lia.
  - eapply out_weaken; [apply (piece_out p T 2 [44] [0] R); [lia|vm_compute; discriminate..]|].
    apply enough_same; [apply same_refl|]. change (zlen ([44] ++ [])) with 1. lia.
Qed.
Definition rtabs (fmt : bool) (d : Z) : list Z := if fmt then zrepeat 9 d else [].
Lemma tabs_out p T : ready p T -> 0 <= dep p ->
  out p (tabs p) (moves p T (rtabs (fmtd p) (dep p))) (enough p (zlen (T ++ rtabs (fmtd p) (dep p)) + 2)).
Proof.
  intros R D. unfold tabs, rtabs. rewrite zlen_app. destruct (fmtd p) eqn:F.
  - rewrite zlen_zrepeat by exact D.
    apply (reserve p T (dep p) (fun q => let* p1 := put q 0 (zrepeat 9 (dep p)) in Ok (true, set_off p1 (off p1 + dep p1)))); [exact R|exact D| |].
    { apply enough_same; [apply same_refl|]. lia. }
    intros q S1 RM Dq. destruct (put_first q T (dep p + 1) (zrepeat 9 (dep p)) RM) as (q1 & -> & S2 & D2 & R2); [rewrite zlen_zrepeat; lia|].
    cbn [bind]. apply out_ret; [exact S2|]. split; [|cbn; congruence].
    rewrite <- (app_nil_r (zrepeat 9 (dep p))) in R2. apply room_ready in R2; [|rewrite zlen_zrepeat; lia].
    rewrite zlen_zrepeat in R2 by exact D. replace (dep q1) with (dep p) by congruence. exact R2.
  - apply out_ret; [apply same_refl|]. split; [rewrite app_nil_r; exact R|reflexivity].
Qed.

(** ** Arrays and objects *)
Definition elems (dp : Z) : list item -> pb -> res (bool * pb) :=
  fix elems (l : list item) (p : pb) {struct l} : res (bool * pb) :=
    match l with
    | [] => Ok (true, p)
    | x :: t =>
        andthen (print_value dp x p) (fun p =>
        let* p := update_offset p in
        match t with
        | [] => Ok (true, p)
        | _ => andthen (comma p) (elems t)
        end)
    end.
Definition mems (dp : Z) : list (option (list Z) * item) -> pb -> res (bool * pb) :=
  fix mems (l : list (option (list Z) * item)) (p : pb) {struct l} : res (bool * pb) :=
    match l with
    | [] => Ok (true, p)
    | (k, x) :: t =>
        andthen (tabs p) (fun p =>
        andthen (print_string k p) (fun p =>
        let* p := update_offset p in
        andthen (colon p) (fun p =>
        andthen (print_value dp x p) (fun p =>
        let* p := update_offset p in
        andthen (member_end (match t with [] => true | _ => false end) p) (mems t)))))
    end.
Lemma print_arr dp l p : print_value dp (PArr l) p =
  andthen (let* e := ensure p 1 in
           if negb (fst e) then Ok (false, snd e)
           else let* p := put (snd e) 0 [91] in Ok (true, set_dep (set_off p (off p + 1)) (dep p + 1))) (fun p =>
  andthen (elems dp l p) (fun p =>
  andthen (constant p 2 [93]) (fun p => Ok (true, set_dep p (dep p - 1))))).
Proof. reflexivity. Qed.
Lemma print_obj dp l p : print_value dp (PObj l) p =
  andthen (let n := if fmtd p then 2 else 1 in
           let* e := ensure p (n + 1) in
           if negb (fst e) then Ok (false, snd e)
           else let* p := put (snd e) 0 ([123] ++ (if fmtd p then [10] else [])) in
                Ok (true, set_dep (set_off p (off p + n)) (dep p + 1))) (fun p =>
  andthen (mems dp l p) (fun p =>
  andthen (let* e := ensure p (if fmtd p then dep p + 1 else 2) in
           if negb (fst e) then Ok (false, snd e)
           else let* p := put (snd e) 0 ((if fmtd p then zrepeat 9 (dep p - 1) else []) ++ [125; 0]) in
                Ok (true, p)) (fun p => Ok (true, set_dep p (dep p - 1))))).
Proof. reflexivity. Qed.

Section Value.
Context (dp : Z) (DP : 0 <> dp).
Definition vok (j : item) : Prop := forall p T, ready p T -> 0 <= dep p -> wf j ->
  out p (print_value dp j p) (prints p T (render dp (fmtd p) (dep p) j))
    (enough p (zlen (T ++ render dp (fmtd p) (dep p) j) + 2) /\ full j).

Lemma same_fmt p q : same p q -> fmtd q = fmtd p. Proof. intros (_ & H & _). exact H. Qed.

Ltac lens := repeat rewrite zlen_app in *.

Lemma elems_out l : Forall vok l -> wfs l -> forall p T, ready p T -> 0 <= dep p ->
  out p (elems dp l p) (moves p T (relems dp (fmtd p) (dep p) l))
    (enough p (zlen (T ++ relems dp (fmtd p) (dep p) l) + 3) /\ fulls l).
Proof.
  induction 1 as [|x t V F IH]; intros W p T R D.
  - apply out_ret; [apply same_refl|]. split; [cbn; rewrite app_nil_r; exact R|reflexivity].
  - destruct W as (Wx & Wt). cbn [elems relems fulls].
    set (rest := match t with [] => [] | _ => _ end).
    assert (ZR := zlen_nonneg rest).
    eapply out_then; [eapply out_weaken; [apply (V p T R D Wx)|]|].
    { intros (EN & Fx & _). split; [|exact Fx]. eapply enough_same; [apply same_refl| |exact EN]. lens. lia. }
    cbn beta. intros q Sq (PR & Dq & _).
    destruct (update_printed q _ PR) as (q1 & -> & S1 & D1 & R1 & _). cbn [bind].
    assert (F1 : fmtd q1 = fmtd p) by (rewrite (same_fmt _ _ S1), (same_fmt _ _ Sq); reflexivity).
    assert (G1 : dep q1 = dep p) by congruence.
    assert (Sp1 : same p q1) by (eapply same_trans; eassumption).
    destruct t as [|y t].
    + apply out_ret; [exact S1|]. unfold rest. split; [rewrite app_nil_r; exact R1|exact G1].
    + apply (out_same q q1 _ _ _ S1).
      assert (RE : rest = rcomma (fmtd p) ++ relems dp (fmtd p) (dep p) (y :: t)).
      { unfold rest, rcomma. rewrite <- app_assoc. reflexivity. }
      clearbody rest. subst rest. assert (ZC := zlen_nonneg (relems dp (fmtd p) (dep p) (y :: t))).
      eapply out_then; [eapply out_weaken; [apply comma_out; exact R1|]|].
      { intros (EN & _). eapply enough_same; [exact Sp1| |exact EN]. rewrite F1. lens. lia. }
      cbn beta. intros q2 S2 (R2 & D2).
      assert (F2 : fmtd q2 = fmtd p) by (rewrite (same_fmt _ _ S2); exact F1).
      assert (G2 : dep q2 = dep p) by congruence.
      destruct (IH Wt q2 _ R2) as (ok & q3 & E & S3 & H & H'); [lia|].
      rewrite F2, F1, G2 in H, H'.
      exists ok, q3. split; [exact E|]. split; [exact S3|]. split.
      * intros O. destruct (H O) as (H1 & H2). split; [|congruence]. rewrite <- !app_assoc in *. exact H1.
      * intros (EN & _ & Ft). apply H'. split; [|exact Ft]. eapply enough_same; [eapply same_trans; [exact Sp1|exact S2]| |exact EN]. lens. lia.
Qed.

Lemma mems_out l : Forall (fun x => vok (snd x)) l -> wfm l -> forall p T, ready p T -> 0 <= dep p ->
  out p (mems dp l p) (moves p T (rmems dp (fmtd p) (dep p) l))
    (enough p (zlen (T ++ rmems dp (fmtd p) (dep p) l) + 3) /\ fullm l).
Proof.
  induction 1 as [|(k, x) t V F IH]; intros W p T R D.
  - apply out_ret; [apply same_refl|]. split; [cbn; rewrite app_nil_r; exact R|reflexivity].
  - destruct W as (Wk & Wx & Wt). cbn [mems snd fullm] in *.
    assert (RE : rmems dp (fmtd p) (dep p) ((k, x) :: t) =
      rtabs (fmtd p) (dep p) ++ rstr k ++ rcolon (fmtd p) ++ render dp (fmtd p) (dep p) x ++
      rend (match t with [] => true | _ => false end) (fmtd p) ++ rmems dp (fmtd p) (dep p) t).
    { unfold rtabs, rcolon, rend. cbn [rmems]. rewrite <- !app_assoc. destruct t; reflexivity. }
    rewrite RE. clear RE. set (last := match t with [] => true | _ => false end).
    set (a1 := rtabs (fmtd p) (dep p)). set (a2 := rstr k). set (a3 := rcolon (fmtd p)).
    set (a4 := render dp (fmtd p) (dep p) x). set (a5 := rend last (fmtd p)). set (a6 := rmems dp (fmtd p) (dep p) t).
    pose proof (zlen_nonneg a1). pose proof (zlen_nonneg a2). pose proof (zlen_nonneg a3).
    pose proof (zlen_nonneg a4). pose proof (zlen_nonneg a5). pose proof (zlen_nonneg a6).
    eapply out_then; [eapply out_weaken; [apply (tabs_out p T R D)|]|].
    { fold a1. intros (EN & _). eapply enough_same; [apply same_refl| |exact EN]. lens. lia. }
    cbn beta. intros q1 S1 (R1 & D1). fold a1 in R1.
    eapply out_then; [eapply out_weaken; [apply (string_out k q1 _ Wk R1)|]|].
    { fold a2. intros (EN & _). eapply enough_same; [exact S1| |exact EN]. lens. lia. }
    cbn beta. intros q2 S2 (P2 & D2 & _). fold a2 in P2.
    destruct (update_printed q2 _ P2) as (q3 & -> & S3 & D3 & R3 & _). cbn [bind].
    apply (out_same q2 q3 _ _ _ S3).
    assert (Sp3 : same p q3) by (eapply same_trans; [exact S1|eapply same_trans; eassumption]).
    assert (F3 : fmtd q3 = fmtd p) by exact (same_fmt _ _ Sp3).
    eapply out_then; [eapply out_weaken; [apply (colon_out q3 _ R3)|]|].
    { rewrite F3. fold a3. intros (EN & _). eapply enough_same; [exact Sp3| |exact EN]. lens. lia. }
    cbn beta. intros q4 S4 (R4 & D4). rewrite F3 in R4. fold a3 in R4.
    assert (G4 : dep q4 = dep p) by congruence.
    assert (Sp4 : same p q4) by (eapply same_trans; eassumption).
    assert (F4 : fmtd q4 = fmtd p) by exact (same_fmt _ _ Sp4).
    eapply out_then; [eapply out_weaken; [apply (V q4 _ R4); [lia|exact Wx]|]|].
    { rewrite F4, G4. fold a4. intros (EN & Fx & _). split; [|exact Fx]. eapply enough_same; [exact Sp4| |exact EN]. lens. lia. }
    cbn beta. intros q5 S5 (P5 & D5 & _). rewrite F4, G4 in P5. fold a4 in P5.
    destruct (update_printed q5 _ P5) as (q6 & -> & S6 & D6 & R6 & _). cbn [bind].
    apply (out_same q5 q6 _ _ _ S6).
    assert (Sp6 : same p q6) by (eapply same_trans; [exact Sp4|eapply same_trans; eassumption]).
    assert (F6 : fmtd q6 = fmtd p) by exact (same_fmt _ _ Sp6).
    eapply out_then; [eapply out_weaken; [apply (member_end_out last q6 _ R6)|]|].
    { rewrite F6. fold a5. intros (EN & _). eapply enough_same; [exact Sp6| |exact EN]. lens. lia. }
    cbn beta. intros q7 S7 (R7 & D7). rewrite F6 in R7. fold a5 in R7.
    assert (Sp7 : same p q7) by (eapply same_trans; eassumption).
    assert (F7 : fmtd q7 = fmtd p) by exact (same_fmt _ _ Sp7).
    assert (G7 : dep q7 = dep p) by congruence.
    destruct (IH Wt q7 _ R7) as (ok & q8 & E & S8 & H' & H''); [lia|].
    rewrite F7, G7 in H', H''. fold a6 in H', H''.
    exists ok, q8. split; [exact E|]. split; [exact S8|]. split.
    + intros O. destruct (H' O) as (HA & HB). split; [|congruence]. rewrite <- !app_assoc in *. exact HA.
    + intros (EN & _ & Ft). apply H''. split; [|exact Ft]. eapply enough_same; [exact Sp7| |exact EN]. lens. lia.
Qed.

Lemma value_out : forall j, vok j.
Proof.
  apply item_ind'; try (intros; intros p T R D W).
  - eapply out_weaken; [apply constant_out; [exact R|reflexivity|repeat constructor]|tauto].
  - destruct b; (eapply out_weaken; [apply constant_out; [exact R|reflexivity|repeat constructor]|tauto]).
  - eapply out_weaken; [apply number_out; assumption|tauto].
  - destruct s as [s|]; [|apply out_fail; [apply same_refl|cbn; tauto]]. cbn [print_value render].
    eapply out_weaken; [apply constant_out; [exact R|reflexivity|exact W]|tauto].
  - eapply out_weaken; [apply string_out; assumption|tauto].
  - rewrite print_arr, render_arr. change (full (PArr l)) with (fulls l).
    set (u := relems dp (fmtd p) (dep p + 1) l). pose proof (zlen_nonneg u).
    eapply out_then.
    { apply (reserve p T 1 (fun q => let* p := put q 0 [91] in Ok (true, set_dep (set_off p (off p + 1)) (dep p + 1)))
        (fun q => ready q (T ++ [91]) /\ dep q = dep p + 1)); [exact R|lia| |].
      { intros (EN & _). eapply enough_same; [apply same_refl| |exact EN]. lens. change (zlen [91]) with 1. change (zlen [93]) with 1. lia. }
      intros q S1 RM Dq. destruct (put_first q T (1 + 1) [91] RM) as (q1 & -> & S2 & D2 & R2); [vm_compute; discriminate|].
      cbn [bind]. apply out_ret; [exact S2|]. split; [|cbn; congruence]. apply ready_dep.
      change 1 with (zlen [91]). eapply (room_ready q1 T [91] []); [exact R2|vm_compute; reflexivity]. }
    cbn beta. intros q1 S1 (R1 & D1).
    assert (F1 : fmtd q1 = fmtd p) by exact (same_fmt _ _ S1).
    eapply out_then; [eapply out_weaken; [apply (elems_out l H W q1 _ R1); lia|]|].
    { rewrite F1, D1. fold u. intros (EN & Fl). split; [|exact Fl]. eapply enough_same; [exact S1| |exact EN].
      lens. change (zlen [91]) with 1. change (zlen [93]) with 1. lia. }
    cbn beta. intros q2 S2 (R2 & D2). rewrite F1, D1 in R2. fold u in R2.
    eapply out_then; [eapply out_weaken; [apply (constant_out q2 _ 2 [93] R2); [reflexivity|repeat constructor]|]|].
    { intros (EN & _). eapply enough_same; [eapply same_trans; [exact S1|exact S2]| |exact EN].
      lens. change (zlen [91]) with 1. change (zlen [93]) with 1. lia. }
    cbn beta. intros q3 S3 (P3 & D3 & L3). rewrite <- !app_assoc in P3, L3. apply out_ret; [repeat split; auto|].
    split; [|split; [cbn; lia|exact L3]].
    destruct P3 as (X & Y & r & P3). exists X, Y, r. cbn [buf off len set_dep]. exact P3.
  - rewrite print_obj, render_obj. change (full (PObj l)) with (fullm l).
    set (u := rmems dp (fmtd p) (dep p + 1) l). pose proof (zlen_nonneg u).
    set (a := if fmtd p then [10] else []). set (b := if fmtd p then zrepeat 9 (dep p) else []).
    pose proof (zlen_nonneg a). pose proof (zlen_nonneg b).
    set (n := if fmtd p then 2 else 1).
    assert (LA : zlen ([123] ++ a) = n) by (unfold a, n; destruct (fmtd p); reflexivity).
    assert (LA' : 1 + zlen a = n) by (rewrite zlen_app in LA; exact LA).
    eapply out_then.
    { cbn zeta.
      apply (reserve p T (n + 1) (fun q => let* p := put q 0 ([123] ++ a) in Ok (true, set_dep (set_off p (off p + n)) (dep p + 1)))
        (fun q => ready q (T ++ [123] ++ a) /\ dep q = dep p + 1)); [exact R|lia| |].
      { intros (EN & _). eapply enough_same; [apply same_refl| |exact EN]. lens. change (zlen [123]) with 1. change (zlen [125]) with 1. lia. }
      intros q S1 RM Dq. destruct (put_first q T (n + 1 + 1) ([123] ++ a) RM) as (q1 & -> & S2 & D2 & R2); [lia|].
      cbn [bind]. apply out_ret; [exact S2|]. split; [|cbn; congruence]. apply ready_dep. rewrite <- LA at 1.
      rewrite <- (app_nil_r ([123] ++ a)) in R2. eapply room_ready; [exact R2|lia]. }
    cbn beta. intros q1 S1 (R1 & D1).
    assert (F1 : fmtd q1 = fmtd p) by exact (same_fmt _ _ S1).
    eapply out_then; [eapply out_weaken; [apply (mems_out l H W q1 _ R1); lia|]|].
    { rewrite F1, D1. fold u. intros (EN & Fl). split; [|exact Fl]. eapply enough_same; [exact S1| |exact EN].
      lens. change (zlen [123]) with 1. change (zlen [125]) with 1. lia. }
    cbn beta. intros q2 S2 (R2 & D2). rewrite F1, D1 in R2. fold u in R2.
    assert (Sp2 : same p q2) by (eapply same_trans; eassumption).
    assert (F2 : fmtd q2 = fmtd p) by exact (same_fmt _ _ Sp2).
    assert (G2 : dep q2 = dep p + 1) by congruence.
    set (T2 := (T ++ [123] ++ a) ++ u) in *.
    set (m := if fmtd q2 then dep q2 + 1 else 2).
    assert (LB : zlen (b ++ [125]) + 1 = m).
    { unfold m, b. rewrite F2, G2, zlen_app. change (zlen [125]) with 1.
      destruct (fmtd p); [rewrite zlen_zrepeat by lia|change (zlen []) with 0]; lia. }
    assert (LB' : zlen b + 2 = m) by (rewrite zlen_app in LB; change (zlen [125]) with 1 in LB; lia).
    eapply out_then.
    { apply (reserve q2 T2 m
        (fun q => let* p := put q 0 ((if fmtd q2 then zrepeat 9 (dep q2 - 1) else []) ++ [125; 0]) in Ok (true, p))
        (prints q2 T2 (b ++ [125]))); [exact R2|lia| |].
      { intros (EN & _). eapply enough_same; [exact Sp2| |exact EN]. unfold T2. lens.
        change (zlen [123]) with 1. change (zlen [125]) with 1. lia. }
      intros q S3 RM Dq.
      replace ((if fmtd q2 then zrepeat 9 (dep q2 - 1) else []) ++ [125; 0]) with ((b ++ [125]) ++ [0])
        by (unfold b; rewrite F2, G2, <- app_assoc; replace (dep p + 1 - 1) with (dep p) by lia; reflexivity).
      destruct (put_first q T2 _ ((b ++ [125]) ++ [0]) RM) as (q3 & -> & S4 & D4 & R4).
      { rewrite (zlen_app (b ++ [125])). change (zlen [0]) with 1. lia. }
      cbn [bind]. apply out_ret; [exact S4|]. pose proof (room_len _ _ _ _ R4) as RL.
      split; [|split; [congruence|rewrite (zlen_app T2); lia]]. apply (room_printed q3 T2 (b ++ [125]) _ R4).
      apply Forall_app. split; [|repeat constructor]. unfold b. destruct (fmtd p); [|constructor].
      apply Forall_forall. intros z Z1. apply repeat_spec in Z1. lia. }
    cbn beta. intros q3 S3 (P3 & D3 & L3). apply out_ret; [repeat split; auto|].
    assert (TE : T2 ++ b ++ [125] = T ++ [123] ++ a ++ u ++ b ++ [125]) by (unfold T2; rewrite <- !app_assoc; reflexivity).
    rewrite TE in P3, L3. split; [|split; [cbn; lia|exact L3]].
    destruct P3 as (X & Y & r & P3). exists X, Y, r. cbn [buf off len set_dep]. exact P3.
  - apply out_fail; [apply same_refl|cbn; tauto].
Qed.
End Value.
