(** C162: the program turns to the servers that are named in its configuration *)
From Coq Require Import String.
From Verif Require S5_Model S5_Req_Props.
From Verif Require Import Base Str_Spec Conf_Model Conf_Props Peer_Model.
Open Scope Z_scope.
Local Arguments Z.add : simpl never.
Local Arguments Z.sub : simpl never.
Local Arguments Z.mul : simpl never.
Local Arguments Z.pow : simpl never.
Local Arguments zlen : simpl never.

(** ** Specification *)
Definition dec_digit (c : Z) : Prop := 48 <= c <= 57.
(** the number a row of decimal digits stands for *)
Definition value (ds : list Z) : Z := fold_left (fun a c => 10 * a + (c - 48)) ds 0.
(** a decimal numeral: digits, without needless zeros in front *)
Definition numeral (ds : list Z) (v : Z) : Prop :=
  ds <> [] /\ Forall dec_digit ds /\ value ds = v /\ (hd 0 ds = 48 -> ds = [48]).
(** a text that is an address: four numerals below 256 with dots between them *)
Definition quad (s ip : list Z) : Prop :=
  exists a b c d x y z w, s = a ++ [46] ++ b ++ [46] ++ c ++ [46] ++ d /\ ip = [x; y; z; w] /\
    numeral a x /\ numeral b y /\ numeral c z /\ numeral d w /\ x < 256 /\ y < 256 /\ z < 256 /\ w < 256.
(** 255.255.255.255 *)
Definition everyone : list Z := [255; 255; 255; 255].
(** a configuration is used only if the texts in it that should be addresses are *)
Definition C162_property : Prop := forall d c, within d -> config_take conf0 d = Ok c ->
  (forall s, member d "s5_serv_gw" = Some (JStr s) -> s <> [] -> exists ip, quad s ip /\ name_server c = (ip, 53)) /\
  (forall s, member d "s5_local_serv_ip" = Some (JStr s) -> exists ip, quad s ip /\ fst (tunnel_server c) = ip).

(** ** Proofs *)
Definition no_digit (r : list Z) : Prop := match r with [] => True | c :: _ => digit_val c >= 16 end.

Lemma dig_val c : dec_digit c -> digit_val c = c - 48 /\ is_dig c = true.
Proof.
  unfold dec_digit, digit_val, is_dig. intros H.
  destruct (Z.leb_spec 48 c); [|lia]. destruct (Z.leb_spec c 57); [|lia]. split; reflexivity.
Qed.

Lemma strtoul_dec : forall ds acc r, Forall dec_digit ds -> no_digit r ->
  strtoul_in 10 acc (ds ++ r) = (fold_left (fun a c => 10 * a + (c - 48)) ds acc, r).
Proof.
  induction ds as [|c ds IH]; intros acc r F N; cbn [app fold_left].
  - destruct r as [|x r]; [reflexivity|]. cbn [strtoul_in]. unfold no_digit in N.
    destruct (Z.ltb_spec (digit_val x) 10); [lia|reflexivity].
  - cbn [strtoul_in]. pose proof (Forall_inv F) as D. pose proof (dig_val c D) as (E & _). rewrite E.
    unfold dec_digit in D. destruct (Z.ltb_spec (c - 48) 10); [|lia].
    rewrite IH; [|exact (Forall_inv_tail F)|exact N]. do 2 f_equal. lia.
Qed.

(** a text that starts with a digit other than 0 is decimal *)
Lemma strtoul0_nonzero c s : c <> 48 -> strtoul0 (c :: s) = strtoul_in 10 0 (c :: s).
Proof.
  intros NZ. unfold strtoul0. destruct s as [|x [|h r]].
  - destruct (Z.eqb_spec c 48); [contradiction|reflexivity].
  - destruct (Z.eqb_spec c 48); [contradiction|reflexivity].
  - destruct (Z.eqb_spec c 48); [contradiction|reflexivity].
Qed.
(** a 0 with no x behind it starts an octal number *)
Lemma strtoul0_octal s : match s with x :: _ => x <> 120 /\ x <> 88 | [] => True end ->
  strtoul0 (48 :: s) = strtoul_in 8 0 (48 :: s).
Proof.
  intros NX. unfold strtoul0. destruct s as [|x [|h r]]; [reflexivity|reflexivity|].
  destruct NX. destruct (Z.eqb_spec x 120); [contradiction|]. destruct (Z.eqb_spec x 88); [contradiction|]. reflexivity.
Qed.

Lemma numeral_read ds v r : numeral ds v -> no_digit r -> match r with x :: _ => x <> 120 /\ x <> 88 | [] => True end ->
  strtoul0 (ds ++ r) = (v, r) /\ exists c t, ds ++ r = c :: t /\ is_dig c = true.
Proof.
  intros (NE & F & V & Z0) N NX. destruct ds as [|c ds]; [contradiction|].
  split; [|exists c, (ds ++ r); split; [reflexivity|apply dig_val; exact (Forall_inv F)]].
  destruct (Z.eq_dec c 48) as [->|NZ].
  - specialize (Z0 eq_refl). injection Z0 as ->. cbn [app]. rewrite strtoul0_octal by exact NX.
    cbn [strtoul_in]. change (digit_val 48 <? 8) with true. cbn iota. change (0 * 8 + digit_val 48) with 0.
    rewrite <- V. change (value [48]) with 0. destruct r as [|x r]; [reflexivity|]. cbn [strtoul_in]. unfold no_digit in N.
    destruct (Z.ltb_spec (digit_val x) 8); [lia|reflexivity].
  - cbn [app]. rewrite strtoul0_nonzero by exact NZ. change (c :: ds ++ r) with ((c :: ds) ++ r).
    rewrite strtoul_dec by assumption. unfold value in V. now rewrite V.
Qed.
Lemma value_nonneg ds v : numeral ds v -> 0 <= v.
Proof.
  intros (_ & F & <- & _). unfold value.
  assert (G : forall l a, 0 <= a -> Forall dec_digit l -> 0 <= fold_left (fun a c => 10 * a + (c - 48)) l a).
  { induction l as [|c l IH]; intros a A FL; [exact A|]. cbn [fold_left]. pose proof (Forall_inv FL) as D. unfold dec_digit in D.
    apply IH; [lia|exact (Forall_inv_tail FL)]. }
  apply G; [lia|exact F].
Qed.

(** one part with a dot behind it *)
Lemma aton_dot k acc ds v r : numeral ds v -> v < 256 -> aton (S k) acc (ds ++ 46 :: r) = aton k (acc ++ [v]) r.
Proof.
  intros N V. destruct (numeral_read ds v (46 :: r) N) as (E & c & t & ET & D); [vm_compute; discriminate|split; discriminate|].
  rewrite ET in *. cbn [aton]. rewrite D, E. cbn [negb fst snd].
  destruct (Z.ltb_spec 4294967295 v); [lia|]. change (46 =? 46) with true. cbn iota.
  destruct (Z.ltb_spec 255 v); [lia|reflexivity].
Qed.
(** what may follow the last part *)
Definition ends (t : list Z) : Prop := match t with [] => True | c :: _ => is_space c = true end.
Lemma ends_no t : ends t -> no_digit t /\ match t with x :: _ => x <> 120 /\ x <> 88 | [] => True end /\
  match t with x :: _ => (x =? 46) = false | [] => True end.
Proof.
  destruct t as [|c t]; [intros _; repeat split; exact I|]. cbn [ends no_digit]. unfold is_space. intros E.
  assert (B : c = 32 \/ 9 <= c <= 13).
  { apply orb_true_iff in E as [E|E]; [left; lia|right]. apply andb_true_iff in E as (E1 & E2). lia. }
  repeat split; try lia.
  assert (C : c = 32 \/ c = 9 \/ c = 10 \/ c = 11 \/ c = 12 \/ c = 13) by lia.
  repeat (destruct C as [->|C]; [vm_compute; discriminate|]). subst c. vm_compute; discriminate.
Qed.
Lemma aton_last acc k ds v t : numeral ds v -> v < 256 -> ends t -> zlen acc = 3 -> aton k acc (ds ++ t) = Some (acc ++ [v]).
Proof.
  intros N V T L. destruct (ends_no t T) as (T1 & T2 & T3). pose proof (value_nonneg ds v N).
  destruct (numeral_read ds v t N T1 T2) as (E & c & u & ET & D).
  assert (K : (if 256 ^ (4 - zlen acc) - 1 <? v then None else Some (acc ++ be_bytes (Z.to_nat (4 - zlen acc)) v)) = Some (acc ++ [v])).
  { rewrite L. change (256 ^ (4 - 3) - 1) with 255. change (Z.to_nat (4 - 3)) with 1%nat. cbn [be_bytes app].
    destruct (Z.ltb_spec 255 v); [lia|]. rewrite Z.mod_small by lia. reflexivity. }
  rewrite ET in *. destruct k; cbn [aton]; rewrite D, E; cbn [negb fst snd]; cbv zeta;
    (destruct (Z.ltb_spec 4294967295 v); [lia|]); (destruct t as [|x t]; [exact K|]); rewrite T3; cbn [ends] in T; rewrite T; exact K.
Qed.
(** an address, and anything behind white space *)
Lemma inet_quad s ip t : quad s ip -> ends t -> inet_text (s ++ t) = ip.
Proof.
  intros (a & b & c & d & x & y & z & w & -> & -> & A & B & C & D & X & Y & Zz & W) T. unfold inet_text.
  repeat (rewrite <- !app_assoc; cbn [app]).
  rewrite (aton_dot 2 [] a x) by assumption. rewrite (aton_dot 1 _ b y) by assumption. rewrite (aton_dot 0 _ c z) by assumption.
  cbn [app]. rewrite (aton_last [x; y; z] 0 d w t) by (assumption || reflexivity). reflexivity.
Qed.
Lemma inet_quad_only s ip : quad s ip -> inet_text s = ip.
Proof. intros Q. rewrite <- (app_nil_r s). apply inet_quad; [exact Q|exact I]. Qed.
Lemma quad_nonempty s ip : quad s ip -> s <> [].
Proof.
  intros (a & b & c & d & x & y & z & w & -> & _) E. destruct a; discriminate E.
Qed.
Lemma not_digit s : match s with c :: _ => is_dig c = false | [] => True end -> inet_text s = everyone.
Proof. destruct s as [|c s]; [reflexivity|]. intros E. unfold inet_text. cbn [aton]. rewrite E. reflexivity. Qed.

Lemma taken_gw d s : within d -> member d "s5_serv_gw" = Some (JStr s) -> s <> [] ->
  exists c, config_take conf0 d = Ok c /\ name_server c = (inet_text s, 53).
Proof.
  intros W M NE. destruct (C72_partial d W) as (c & E & Sa). exists c. split; [exact E|].
  pose proof (s_gw d c Sa) as G. unfold str_of in G. rewrite M in G. unfold name_server. rewrite G.
  assert (0 < zlen s) by (destruct s; [contradiction|rewrite zlen_cons; pose proof (zlen_nonneg s); lia]).
  destruct (Z.ltb_spec 0 (zlen s)); [reflexivity|lia].
Qed.
Lemma taken_ip d s : within d -> member d "s5_local_serv_ip" = Some (JStr s) ->
  exists c, config_take conf0 d = Ok c /\ fst (tunnel_server c) = inet_text s.
Proof.
  intros W M. destruct (C72_partial d W) as (c & E & Sa). exists c. split; [exact E|].
  pose proof (s_ip d c Sa) as G. unfold str_of in G. rewrite M in G. unfold tunnel_server. now rewrite G.
Qed.

(** ** Theorems *)
(** Lookups go to port 53 of the configured address, or of 8.8.8.8 if none is
    configured; the tunnel goes to the configured address and port. *)
Theorem C162_partial : forall d, within d -> exists c, config_take conf0 d = Ok c /\
  (forall s ip, member d "s5_serv_gw" = Some (JStr s) -> quad s ip -> name_server c = (ip, 53)) /\
  (member d "s5_serv_gw" = None \/ member d "s5_serv_gw" = Some (JStr []) -> name_server c = ([8; 8; 8; 8], 53)) /\
  (forall s ip p, member d "s5_local_serv_ip" = Some (JStr s) -> quad s ip -> member d "s5_local_serv_port" = Some (JNum p) ->
     tunnel_server c = (ip, p)).
Proof.
  intros d W. destruct (C72_partial d W) as (c & E & Sa). exists c. split; [exact E|]. split; [|split].
  - intros s ip M Q. destruct (taken_gw d s W M (quad_nonempty s ip Q)) as (c' & E' & N').
    rewrite E in E'. injection E' as <-. rewrite N'. now rewrite (inet_quad_only s ip Q).
  - intros M. pose proof (s_gw d c Sa) as G. unfold str_of in G. unfold name_server.
    assert (s5_serv_gw c = []) as -> by (destruct M as [M|M]; rewrite M in G; exact G). reflexivity.
  - intros s ip p M Q MP. pose proof (s_ip d c Sa) as G. unfold str_of in G. rewrite M in G.
    pose proof (s_lsp d c Sa) as GP. unfold num_of in GP. rewrite MP in GP.
    unfold tunnel_server. rewrite G, GP, (inet_quad_only s ip Q). reflexivity.
Qed.

(** False: a text that is no address at all, as the name of a host, is taken without a
    word, and what should go to that host goes to 255.255.255.255. *)
Theorem C162_refuted_name : forall d h s, within d -> is_dig h = false -> h <> 0 ->
  (member d "s5_serv_gw" = Some (JStr (h :: s)) -> exists c, config_take conf0 d = Ok c /\ name_server c = (everyone, 53)) /\
  (member d "s5_local_serv_ip" = Some (JStr (h :: s)) -> exists c, config_take conf0 d = Ok c /\ fst (tunnel_server c) = everyone).
Proof.
  intros d h s W D NZ. pose proof (not_digit (h :: s) D) as E. split; intros M.
  - destruct (taken_gw d _ W M ltac:(discriminate)) as (c & C & N). exists c. split; [exact C|]. now rewrite N, E.
  - destruct (taken_ip d _ W M) as (c & C & N). exists c. split; [exact C|]. now rewrite N, E.
Qed.
(** False: a client with no server configured dials 255.255.255.255. *)
Theorem C162_refuted_absent : forall d, within d -> member d "s5_local_serv_ip" = None ->
  exists c, config_take conf0 d = Ok c /\ fst (tunnel_server c) = everyone.
Proof.
  intros d W M. destruct (C72_partial d W) as (c & E & Sa). exists c. split; [exact E|].
  pose proof (s_ip d c Sa) as G. unfold str_of in G. rewrite M in G. unfold tunnel_server. rewrite G. reflexivity.
Qed.
(** False: of a list of addresses with white space between them, the first is used and
    the others are dropped. *)
Theorem C162_refuted_list : forall d s ip sp rest, within d -> quad s ip -> is_space sp = true ->
  member d "s5_serv_gw" = Some (JStr (s ++ sp :: rest)) -> exists c, config_take conf0 d = Ok c /\ name_server c = (ip, 53).
Proof.
  intros d s ip sp rest W Q SP M. destruct (taken_gw d _ W M) as (c & E & N).
  { intros X. apply app_eq_nil in X as (X & _). exact (quad_nonempty s ip Q X). }
  exists c. split; [exact E|]. rewrite N, (inet_quad s ip (sp :: rest) Q SP). reflexivity.
Qed.
(** False: a part with a zero in front is read as octal, so an address padded to three
    digits names another host. *)
Theorem C162_refuted_octal : forall d a b c x y z p q, within d -> numeral a x -> numeral b y -> numeral c z ->
  x < 256 -> y < 256 -> z < 256 -> 48 <= p <= 55 -> 48 <= q <= 55 ->
  member d "s5_local_serv_ip" = Some (JStr (a ++ [46] ++ b ++ [46] ++ c ++ [46] ++ [48; p; q])) ->
  exists g, config_take conf0 d = Ok g /\ fst (tunnel_server g) = [x; y; z; 8 * (p - 48) + (q - 48)] /\
    value [48; p; q] = 10 * (p - 48) + (q - 48).
Proof.
  intros d a b c x y z p q W A B C X Y Zz P Q M. destruct (taken_ip d _ W M) as (g & E & N). exists g. split; [exact E|].
  split; [|unfold value; cbn [fold_left]; lia]. rewrite N. unfold inet_text. cbn [app].
  rewrite (aton_dot 2 [] a x) by assumption. rewrite (aton_dot 1 _ b y) by assumption. rewrite (aton_dot 0 _ c z) by assumption.
  cbn [app].
  assert (EP : strtoul0 [48; p; q] = (8 * (p - 48) + (q - 48), [])).
  { rewrite strtoul0_octal by (split; lia). cbn [strtoul_in].
    change (digit_val 48) with 0. change (0 <? 8) with true. cbn iota.
    rewrite !(proj1 (dig_val p ltac:(unfold dec_digit; lia))), !(proj1 (dig_val q ltac:(unfold dec_digit; lia))).
    destruct (Z.ltb_spec (p - 48) 8); [|lia]. cbn [strtoul_in].
    destruct (Z.ltb_spec (q - 48) 8); [|lia]. f_equal. lia. }
  cbn [aton]. rewrite EP. change (is_dig 48) with true. cbn [negb fst snd]. cbv zeta.
  change (zlen [x; y; z]) with 3. change (256 ^ (4 - 3) - 1) with 255. change (Z.to_nat (4 - 3)) with 1%nat. cbn [be_bytes app].
  destruct (Z.ltb_spec 4294967295 (8 * (p - 48) + (q - 48))); [lia|].
  destruct (Z.ltb_spec 255 (8 * (p - 48) + (q - 48))); [lia|]. rewrite Z.mod_small by lia. reflexivity.
Qed.
(** False: a text with parts missing is taken for the address of another host: zeros
    are put in the middle. *)
Theorem C162_refuted_short : forall d a b x y, within d -> numeral a x -> numeral b y -> x < 256 -> y < 256 ->
  member d "s5_serv_gw" = Some (JStr (a ++ [46] ++ b)) ->
  exists c, config_take conf0 d = Ok c /\ name_server c = ([x; 0; 0; y], 53).
Proof.
  intros d a b x y W A B X Y M. destruct (taken_gw d _ W M) as (c & E & N).
  { intros Q. destruct a; discriminate Q. }
  exists c. split; [exact E|]. rewrite N. f_equal. unfold inet_text. cbn [app]. rewrite (aton_dot 2 [] a x) by assumption. cbn [app].
  pose proof (value_nonneg b y B). destruct (numeral_read b y [] B I I) as (R & h & t & ET & D). rewrite app_nil_r in *.
  rewrite ET in *. cbn [aton]. rewrite R, D. cbn [negb fst snd]. cbv zeta.
  change (zlen [x]) with 1. change (256 ^ (4 - 1) - 1) with 16777215. change (Z.to_nat (4 - 1)) with 3%nat. cbn [be_bytes app].
  destruct (Z.ltb_spec 4294967295 y); [lia|]. destruct (Z.ltb_spec 16777215 y); [lia|].
  rewrite (Z.div_small y 256) by lia. change (0 / 256) with 0. change (0 mod 256) with 0. rewrite Z.mod_small by lia. reflexivity.
Qed.

(** False: a number above 255 is not noticed either. *)
Lemma dot_big k acc ds v r : numeral ds v -> 256 <= v -> aton (S k) acc (ds ++ 46 :: r) = None.
Proof.
  intros N V. destruct (numeral_read ds v (46 :: r) N) as (E & c & t & ET & D); [vm_compute; discriminate|split; discriminate|].
  rewrite ET in *. cbn [aton]. rewrite D, E. cbn [negb fst snd]. cbv zeta.
  destruct (4294967295 <? v); [reflexivity|]. change (46 =? 46) with true. cbn iota.
  destruct (Z.ltb_spec 255 v); [reflexivity|lia].
Qed.
Lemma last_big acc ds v : numeral ds v -> 256 <= v -> zlen acc = 3 -> aton 0 acc ds = None.
Proof.
  intros N V L. destruct (numeral_read ds v [] N Logic.I Logic.I) as (E & c & u & ET & D). rewrite app_nil_r in *.
  rewrite ET in *. cbn [aton]. rewrite D, E. cbn [negb fst snd]. cbv zeta. rewrite L. change (256 ^ (4 - 3) - 1) with 255.
  destruct (4294967295 <? v); [reflexivity|]. destruct (Z.ltb_spec 255 v); [reflexivity|lia].
Qed.
Theorem C162_refuted_range : forall d a b c e x y z w, within d -> numeral a x -> numeral b y -> numeral c z -> numeral e w ->
  256 <= x \/ 256 <= y \/ 256 <= z \/ 256 <= w -> member d "s5_local_serv_ip" = Some (JStr (a ++ [46] ++ b ++ [46] ++ c ++ [46] ++ e)) ->
  exists g, config_take conf0 d = Ok g /\ fst (tunnel_server g) = everyone.
Proof.
  intros d a b c e x y z w W A B C E R M. destruct (taken_ip d _ W M) as (g & T & N). exists g. split; [exact T|].
  rewrite N. unfold inet_text. cbn [app].
  destruct (Z_lt_le_dec x 256) as [X|X]; [|now rewrite (dot_big 2 [] a x _ A X)]. rewrite (aton_dot 2 [] a x) by assumption. cbn [app].
  destruct (Z_lt_le_dec y 256) as [Y|Y]; [|now rewrite (dot_big 1 _ b y _ B Y)]. rewrite (aton_dot 1 _ b y) by assumption. cbn [app].
  destruct (Z_lt_le_dec z 256) as [Zz|Zz]; [|now rewrite (dot_big 0 _ c z _ C Zz)]. rewrite (aton_dot 0 _ c z) by assumption. cbn [app].
  rewrite (last_big _ e w) by (assumption || reflexivity || lia). reflexivity.
Qed.
(** False: a part that starts with 0x or 0X is hexadecimal. *)
Theorem C162_refuted_hex : forall d a b c x y z o p q, within d -> numeral a x -> numeral b y -> numeral c z ->
  x < 256 -> y < 256 -> z < 256 -> o = 120 \/ o = 88 -> dec_digit p -> dec_digit q ->
  member d "s5_local_serv_ip" = Some (JStr (a ++ [46] ++ b ++ [46] ++ c ++ [46] ++ [48; o; p; q])) ->
  exists g, config_take conf0 d = Ok g /\ fst (tunnel_server g) = [x; y; z; 16 * (p - 48) + (q - 48)].
Proof.
  intros d a b c x y z o p q W A B C X Y Zz O P Q M. destruct (taken_ip d _ W M) as (g & E & N). exists g. split; [exact E|].
  rewrite N. unfold inet_text. cbn [app].
  rewrite (aton_dot 2 [] a x) by assumption. rewrite (aton_dot 1 _ b y) by assumption. rewrite (aton_dot 0 _ c z) by assumption.
  cbn [app]. destruct (dig_val p P) as (DP & _). destruct (dig_val q Q) as (DQ & _). unfold dec_digit in P, Q.
  assert (EP : strtoul0 [48; o; p; q] = (16 * (p - 48) + (q - 48), [])).
  { unfold strtoul0. change (48 =? 48) with true.
    assert ((o =? 120) || (o =? 88) = true) as -> by (destruct O as [-> | ->]; reflexivity). cbn [andb]. rewrite DP.
    destruct (Z.ltb_spec (p - 48) 16); [|lia]. cbn [strtoul_in]. rewrite DP. destruct (Z.ltb_spec (p - 48) 16); [|lia]. cbn [strtoul_in].
    rewrite DQ. destruct (Z.ltb_spec (q - 48) 16); [|lia]. f_equal. lia. }
  cbn [aton]. rewrite EP. change (is_dig 48) with true. cbn [negb fst snd]. cbv zeta.
  change (zlen [x; y; z]) with 3. change (256 ^ (4 - 3) - 1) with 255. change (Z.to_nat (4 - 3)) with 1%nat. cbn [be_bytes app].
  destruct (Z.ltb_spec 4294967295 (16 * (p - 48) + (q - 48))); [lia|].
  destruct (Z.ltb_spec 255 (16 * (p - 48) + (q - 48))); [lia|]. rewrite Z.mod_small by lia. reflexivity.
Qed.

(** ** Examples *)
Ltac num := match goal with |- numeral ?l ?v => let r := eval vm_compute in l in change (numeral r v) end; split; [discriminate|split; [repeat (apply Forall_cons; [unfold dec_digit; lia|]); apply Forall_nil|split; [vm_compute; reflexivity|
  first [intros H; exact eq_refl|intros H; discriminate H]]]].
Ltac inside := constructor; unfold int_ok, port_ok, strmax, ports_ok;
    match goal with |- context [member ?d ?k] =>
      let r := eval vm_compute in (member d k) in change (member d k) with r end; cbv iota;
    try exact Logic.I; try (vm_compute; discriminate); try (unfold INT_MIN, INT_MAX; lia).
Definition doc (gw ip : list Z) : json := JObj [(str "s5_serv_gw", JStr gw); (str "s5_local_serv_ip", JStr ip); (str "s5_local_serv_port", JNum 12345)].
Example quad_example : quad (str "192.168.1.10") [192; 168; 1; 10].
Proof.
  exists (str "192"), (str "168"), (str "1"), (str "10"), 192, 168, 1, 10.
  split; [reflexivity|]. split; [reflexivity|]. split; [num|]. split; [num|]. split; [num|]. split; [num|]. lia.
Qed.
Example C162_example : within (doc (str "192.168.1.10") (str "192.168.1.10")) /\
  exists c, config_take conf0 (doc (str "192.168.1.10") (str "192.168.1.10")) = Ok c /\
    name_server c = ([192; 168; 1; 10], 53) /\ tunnel_server c = ([192; 168; 1; 10], 12345).
Proof. split; [inside|]. eexists. split; [vm_compute; reflexivity|]. vm_compute. repeat split; reflexivity. Qed.
Example C162_name_example : within (doc (str "dns.example.org") (str "example.org")) /\
  exists c, config_take conf0 (doc (str "dns.example.org") (str "example.org")) = Ok c /\
    name_server c = (everyone, 53) /\ tunnel_server c = (everyone, 12345).
Proof. split; [inside|]. eexists. split; [vm_compute; reflexivity|]. vm_compute. repeat split; reflexivity. Qed.
Example C162_list_example : within (doc (str "8.8.4.4 1.1.1.1") (str "10.0.0.010")) /\
  exists c, config_take conf0 (doc (str "8.8.4.4 1.1.1.1") (str "10.0.0.010")) = Ok c /\
    name_server c = ([8; 8; 4; 4], 53) /\ tunnel_server c = ([10; 0; 0; 8], 12345).
Proof. split; [inside|]. eexists. split; [vm_compute; reflexivity|]. vm_compute. repeat split; reflexivity. Qed.
Example C162_short_example : within (doc (str "10.1") (str "0x0a.1")) /\
  exists c, config_take conf0 (doc (str "10.1") (str "0x0a.1")) = Ok c /\
    name_server c = ([10; 0; 0; 1], 53) /\ tunnel_server c = ([10; 0; 0; 1], 12345).
Proof. split; [inside|]. eexists. split; [vm_compute; reflexivity|]. vm_compute. repeat split; reflexivity. Qed.

Example C162_range_example : within (doc [] (str "10.0.0.256")) /\
  exists c, config_take conf0 (doc [] (str "10.0.0.256")) = Ok c /\ name_server c = ([8; 8; 8; 8], 53) /\ tunnel_server c = (everyone, 12345).
Proof. split; [inside|]. eexists. split; [vm_compute; reflexivity|]. vm_compute. repeat split; reflexivity. Qed.
Example C162_hex_example : within (doc [] (str "10.0.0.0X10")) /\
  exists c, config_take conf0 (doc [] (str "10.0.0.0X10")) = Ok c /\ tunnel_server c = ([10; 0; 0; 16], 12345).
Proof. split; [inside|]. eexists. split; [vm_compute; reflexivity|]. vm_compute. repeat split; reflexivity. Qed.

Theorem C162_property_refuted : ~ C162_property.
Proof.
  intros P. destruct C162_name_example as (W & c & E & N & _).
  destruct (P _ c W E) as (G & _). destruct (G (str "dns.example.org") eq_refl ltac:(discriminate)) as (ip & (a & b & c' & d & x & y & z & w & Q & _ & (NE & F & _) & _) & _).
  destruct a as [|h a]; [contradiction|]. pose proof (Forall_inv F) as D. injection Q as Q _. unfold dec_digit in D. lia.
Qed.
Print Assumptions C162_partial.
Print Assumptions C162_refuted_name.
Print Assumptions C162_refuted_absent.
Print Assumptions C162_refuted_list.
Print Assumptions C162_refuted_octal.
Print Assumptions C162_refuted_short.
Print Assumptions C162_refuted_range.
Print Assumptions C162_refuted_hex.
Print Assumptions C162_property_refuted.

(** ** The texts the program makes itself (src/app/socks5.c:106-117, 151-159, 169-177)
    [S5_Model.inet_addr] leaves out what those texts cannot hold; on them it is the same
    as the function here, so the addresses dialled (C33) are those of all of inet_addr. *)
Lemma octet_numeral b : 0 <= b < 256 -> numeral (S5_Model.dec_octet b) b.
Proof.
  intros B.
  assert (A : forallb (fun b => let ds := S5_Model.dec_octet b in
    negb (bseq ds []) && forallb is_dig ds && (value ds =? b) && (negb (hd 0 ds =? 48) || bseq ds [48])) (map Z.of_nat (seq 0 256)) = true)
    by (vm_compute; reflexivity).
  rewrite forallb_forall in A. specialize (A b).
  rewrite !andb_true_iff in A. destruct A as (((A1 & A2) & A3) & A4).
  { apply in_map_iff. exists (Z.to_nat b). split; [lia|]. apply in_seq. lia. }
  split; [intros E; rewrite E in A1; discriminate A1|]. split; [|split; [lia|]].
  - rewrite forallb_forall in A2. apply Forall_forall. intros c C. specialize (A2 c C). unfold is_dig in A2. unfold dec_digit. lia.
  - intros H. rewrite H in A4. change (48 =? 48) with true in A4. cbn [negb orb] in A4. apply bseq_spec. exact A4.
Qed.
Theorem C33_inet_addr : forall ip, zlen ip = 4 -> Forall is_byte ip ->
  inet_text (S5_Model.fmt_ip ip) = ip /\ S5_Model.inet_addr (S5_Model.fmt_ip ip) = ip.
Proof.
  intros ip L B. split; [|apply S5_Req_Props.inet_addr_fmt; split; assumption].
  destruct ip as [|a [|b [|c [|d [|e l]]]]]; try discriminate L.
  2:{ exfalso. rewrite !zlen_cons in L. pose proof (zlen_nonneg l). lia. }
  pose proof (Forall_inv B) as Ba. apply Forall_inv_tail in B. pose proof (Forall_inv B) as Bb.
  apply Forall_inv_tail in B. pose proof (Forall_inv B) as Bc. apply Forall_inv_tail in B. pose proof (Forall_inv B) as Bd.
  unfold is_byte in *. apply inet_quad_only. exists (S5_Model.dec_octet a), (S5_Model.dec_octet b), (S5_Model.dec_octet c), (S5_Model.dec_octet d), a, b, c, d.
  split; [reflexivity|]. split; [reflexivity|].
  do 4 (split; [apply octet_numeral; assumption|]). lia.
Qed.
Print Assumptions C33_inet_addr.
Example C33_inet_example : S5_Model.fmt_ip [10; 0; 100; 255] = str "10.0.100.255" /\ inet_text (str "10.0.100.255") = [10; 0; 100; 255].
Proof. split; vm_compute; reflexivity. Qed.
