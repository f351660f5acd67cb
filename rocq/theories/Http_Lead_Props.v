(** C49: blank lines and blanks before a request (Http_Model.v; http_req.c:60-67). *)
From Coq Require Import ZArith List Bool Lia.
From Verif Require Import Base Str_Spec Meta_Model Meta_Proofs S5_Model Http_Model Http_Spec Http_Proofs Http_Props.
Import ListNotations.
Local Open Scope Z_scope.

(** CR, LF or a blank *)
Definition blank (b : Z) : Prop := b = 13 \/ b = 10 \/ b = 32.

Lemma scan_lead lead r p bs : q_ph r = PLine LMethodInit -> Forall blank lead ->
  scan r p (lead ++ bs) = scan r (p + zlen lead) bs.
Proof.
  intros E. revert p. induction lead as [|b lead IH]; intros p F.
  - rewrite zlen_nil, Z.add_0_r. reflexivity.
  - assert (B : byte_step r p b = BNext r).
    { unfold byte_step. rewrite E. destruct (Forall_inv F) as [->|[->| ->]]; reflexivity. }
    cbn [app scan]. rewrite B. rewrite IH by exact (Forall_inv_tail F). rewrite zlen_cons. f_equal. lia.
Qed.

(** The same request is understood, and the same bytes are left, with any number
    of them before it, if all of it fits the buffer. *)
Theorem C49_leading : forall lead q rest ins fuel, Forall blank lead -> small q ->
  zlen lead + zlen (print_req q) <= 4096 -> Forall not_clen (rq_headers q) -> (3 <= fuel)%nat ->
  exists r m ins', http_start fuel (RxData (lead ++ print_req q ++ rest) :: ins) = Ok (HComplete r m ins') /\
    view (mbuf m) r = meaning_of q /\
    mdata m ++ flat ins' = rest ++ flat ins.
Proof.
  intros lead q rest ins fuel LD SM FITL NC FU. destruct fuel as [|[|[|k]]]; try lia.
  pose proof SM as (W & H15 & FIT).
  pose proof (zlen_nonneg lead) as NL. pose proof (zlen_nonneg (print_req q)) as NQ.
  assert (EX : exists b t, lead ++ print_req q ++ rest = b :: t).
  { destruct (print_req_cons q SM) as (b & t & EQ). rewrite EQ. destruct lead; cbn [app]; eexists _, _; reflexivity. }
  destruct EX as (b & t & EQ).
  destruct (new_run (Datatypes.S (Datatypes.S k)) b t ins) as (m & R & Wm & Cm & Pm & Dm).
  rewrite <- EQ in *. rewrite R. clear R.
  rewrite (ztake_app_r _ lead) in Dm by lia. rewrite (ztake_app_r _ (print_req q)) in Dm by lia.
  set (rest' := ztake (4096 - zlen lead - zlen (print_req q)) rest) in *.
  set (ins' := unread (lead ++ print_req q ++ rest) 4096 ins) in *.
  pose proof Dm as Dm0.
  unfold print_req in Dm. rewrite <- app_assoc in Dm.
  (* the request line *)
  destruct (scan_line req_new (mpos m + zlen lead) q (print_hdrs (rq_headers q) ++ rest') eq_refl W)
    as (r1 & S1 & P1 & F1 & L1).
  assert (DL := mdata_len m Wm). rewrite Dm, !zlen_app in DL.
  pose proof (zlen_nonneg (print_line q)) as N1. pose proof (zlen_nonneg rest') as N2.
  pose proof (zlen_nonneg (print_hdrs (rq_headers q))) as N3.
  assert (NQL : 1 <= zlen (print_line q)).
  { unfold print_line, crlf. rewrite !zlen_app. change (zlen [13; 10]) with 2.
    pose proof (zlen_nonneg (rq_method q)). pose proof (zlen_nonneg (print_target (rq_target q))).
    pose proof (zlen_nonneg (rq_version q)). change (zlen [32]) with 1. lia. }
  assert (R1 : forall kk, http_run (Datatypes.S kk) req_new m ins' =
    http_run kk r1 (mkMeta (mbuf m) (mpos m + zlen (lead ++ print_line q)) (mlast m)) ins').
  { intros kk. cbn [http_run]. change (q_ph req_new) with (PLine LMethodInit). cbn iota.
    destruct (Z.ltb_spec (meta_getlen m) 1); [lia|]. cbn [bind].
    rewrite Dm, scan_lead by (assumption || reflexivity). rewrite S1, P1.
    rewrite zlen_app. f_equal. f_equal. lia. }
  rewrite R1. clear R1.
  destruct (meta_consume_ok m (zlen (lead ++ print_line q)) Wm) as (W2 & D2).
  { rewrite zlen_app. lia. }
  unfold meta_consume in W2, D2. rewrite Dm, (app_assoc lead), zdrop_app_r, Z.sub_diag, zdrop_le0 in D2 by lia.
  assert (AT : at_off (mbuf m) (zlen lead) (print_line q)).
  { pose proof (at_off_mdata m _ _ Wm (eq_trans Dm (eq_sym (app_nil_r _)) : mdata m = (lead ++ print_line q ++ print_hdrs (rq_headers q) ++ rest') ++ [])) as A.
    rewrite Pm in A. apply at_off_sub in A. exact A. }
  rewrite Pm, Z.add_0_l in L1.
  pose proof F1 as (G1 & G2 & G3 & G4 & G5 & G6).
  match goal with |- context[http_run _ r1 ?mm _] => set (m2 := mm) in * end.
  destruct (run_hdrs (Datatypes.S k) r1 m2 ins' q (zlen lead) rest' P1 W W2 D2) as (r' & R' & P & L & N & T & F & K & M & Y & Y'); auto.
  { rewrite G2. reflexivity. }
  { eapply at_off_sub0. exact AT. }
  rewrite R'. clear R'. subst m2. cbn [mbuf mpos mlast] in *.
  (* the body *)
  cbn [http_run]. rewrite P. rewrite Y', G6. change (q_pay req_new) with (@None meta). cbn iota. cbn [mbuf].
  rewrite (clen_none _ _ (rq_headers q)).
  2:{ rewrite T. exact F. }
  2:{ destruct W as (_ & _ & _ & _ & Wh). exact Wh. }
  2:{ eapply Forall_impl; [|exact NC]. apply not_clen_ipre. }
  cbn [bind]. rewrite Y, G5. change (q_payn req_new) with 0. change (0 <? 0) with false. cbn iota.
  eexists _, _, _. split; [reflexivity|]. cbn [mbuf].
  destruct (line_view (mbuf m) (zlen lead) q r' L AT) as (V1 & V2 & V3 & _).
  split.
  - unfold view, meaning_of. cbn [q_method q_uri q_ver q_kvn q_kvs set_pay] in *. rewrite V1, V2, V3, T.
    f_equal. apply hdrs_view. exact F.
  - pose proof (meta_consume_ok _ (zlen (print_hdrs (rq_headers q))) W2) as C3. cbn [mpos mlast mbuf] in C3.
    unfold meta_consume in C3. cbn [mpos mlast mbuf] in C3. destruct C3 as (_ & D3).
    { rewrite <- (mdata_len _ W2), D2, zlen_app. lia. }
    rewrite D3, D2, zdrop_app_r, Z.sub_diag, zdrop_le0 by lia.
    subst ins' rest'. rewrite flat_unread by lia.
    rewrite (zdrop_app_r _ lead) by lia. rewrite (zdrop_app_r _ (print_req q)) by lia.
    rewrite app_assoc, ztake_zdrop. reflexivity.
Qed.
Print Assumptions C49_leading.

(** two empty lines and a blank before a request *)
Example ex_C49_leading : Forall blank [13; 10; 13; 10; 32] /\ small ex_q /\
  zlen [13; 10; 13; 10; 32] + zlen (print_req ex_q) <= 4096 /\ Forall not_clen (rq_headers ex_q).
Proof.
  split; [repeat (apply Forall_cons; [unfold blank; lia|]); apply Forall_nil|].
  split; [exact ex_q_small|]. split; [vm_compute; discriminate|].
  repeat (apply Forall_cons; [apply not_clen_b; reflexivity|]). apply Forall_nil.
Qed.
