(** * What a well-formed HTTP request is (independent of the parser). *)
From Verif Require Import Base Str_Spec.

(** visible characters (and DEL, which the server also lets through), and text
    which may contain spaces *)
Definition visible (b : Z) : Prop := 32 < b <= 127.
Definition text (b : Z) : Prop := 32 <= b <= 127.
Definition word (w : list Z) : Prop := w <> [] /\ Forall visible w.

(** request target: a path, or the absolute form scheme://host[:port]/path *)
Inductive target :=
| TPath (uri : list Z)
| TAbs (scheme host : list Z) (port : option (list Z)) (uri : list Z).

(** a header line: name, number of spaces after the colon, value *)
Record header := mkHdr { h_name : list Z; h_sp : Z; h_value : list Z }.

Record request := mkRequest {
  rq_method : list Z; rq_target : target; rq_version : list Z; rq_headers : list header }.

Definition target_uri (t : target) : list Z :=
  match t with TPath u => u | TAbs _ _ _ u => u end.

Definition crlf := [13; 10].
Definition print_target (t : target) : list Z :=
  match t with
  | TPath u => u
  | TAbs s h None u => s ++ [58; 47; 47] ++ h ++ u
  | TAbs s h (Some p) u => s ++ [58; 47; 47] ++ h ++ [58] ++ p ++ u
  end.
Definition print_line (q : request) : list Z :=
  rq_method q ++ [32] ++ print_target (rq_target q) ++ [32] ++ rq_version q ++ crlf.
Definition print_hdr (h : header) : list Z :=
  h_name h ++ [58] ++ zrepeat 32 (h_sp h) ++ h_value h ++ crlf.
Definition print_hdrs (hs : list header) : list Z := concat (map print_hdr hs) ++ crlf.
Definition print_req (q : request) : list Z := print_line q ++ print_hdrs (rq_headers q).

Definition wf_path (u : list Z) : Prop := Forall visible u /\ exists t, u = 47 :: t.
Definition wf_target (t : target) : Prop :=
  match t with
  | TPath u => wf_path u
  | TAbs s h p u =>
      word s /\ (forall x, hd_error s = Some x -> x <> 47) /\ ~ In 58 s /\
      word h /\ ~ In 58 h /\ ~ In 47 h /\
      match p with Some p => word p /\ ~ In 47 p | None => True end /\ wf_path u
  end.
(** names without colon; a value is not empty and does not start with a space *)
Definition wf_hdr (h : header) : Prop :=
  h_name h <> [] /\ Forall text (h_name h) /\ ~ In 58 (h_name h) /\ 0 <= h_sp h /\
  Forall text (h_value h) /\ (exists b t, h_value h = b :: t /\ b <> 32).
Definition wf_req (q : request) : Prop :=
  word (rq_method q) /\ zlen (rq_method q) <= 16 /\ wf_target (rq_target q) /\
  word (rq_version q) /\ Forall wf_hdr (rq_headers q).

(** equality up to ASCII case, and being a non-empty prefix up to case *)
Definition up (b : Z) : Z := if (97 <=? b) && (b <=? 122) then b - 32 else b.
Definition ieq (a b : list Z) : Prop := map up a = map up b.
Definition iprefix (a b : list Z) : Prop := exists c, ieq (a ++ c) b.

(** decimal numeral *)
Fixpoint dec_from (acc : Z) (l : list Z) : Z :=
  match l with [] => acc | b :: t => dec_from (acc * 10 + (b - 48)) t end.
Definition numeral (l : list Z) (n : Z) : Prop :=
  l <> [] /\ Forall (fun b => 48 <= b <= 57) l /\ dec_from 0 l = n.

(** HTTP also allows an empty header value *)
Definition wf_hdr_rfc (h : header) : Prop :=
  h_name h <> [] /\ Forall text (h_name h) /\ ~ In 58 (h_name h) /\ 0 <= h_sp h /\
  Forall text (h_value h) /\ (forall b, hd_error (h_value h) = Some b -> b <> 32).
Definition wf_req_rfc (q : request) : Prop :=
  word (rq_method q) /\ zlen (rq_method q) <= 16 /\ wf_target (rq_target q) /\
  word (rq_version q) /\ Forall wf_hdr_rfc (rq_headers q).

(** what a client means by its request *)
Record meaning := mkMeaning {
  mn_method : list Z; mn_uri : list Z; mn_version : list Z; mn_headers : list (list Z * list Z) }.
Definition meaning_of (q : request) : meaning :=
  mkMeaning (rq_method q) (target_uri (rq_target q)) (rq_version q)
            (map (fun h => (h_name h, h_value h)) (rq_headers q)).
