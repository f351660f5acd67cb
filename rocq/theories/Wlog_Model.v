(** Model of the log record about a file that was asked for and is not there:
    src/app/webser.c:340-384, on top of [Web_Model] (routing and path), [Http_Model] (the
    request) and [Conf_Model.log_print] (src/common/log.c:58-84). No proofs here.

    [errno] after stat or open is an input, and so are the function name, the line and
    the time in front of the text ([fls], [flo]). Other records (of [schk], which have
    constant texts and a number) are left out. *)
From Coq Require Import String.
From Verif Require Import Base Str_Spec Meta_Model S5_Model Http_Model Web_Model Conf_Model.
Open Scope Z_scope.

(** webser.c:361, 368 *)
Definition not_there (what : string) (p : list Z) (en : Z) : list Z :=
  str "webser " ++ str what ++ str " reqfile [" ++ p ++ str "] err, [" ++ fmt_d en ++ str "]" ++ [10].

(** webser.c:345-379: what stat and open of the path make the server log *)
Definition file_log (thr : Z) (fls flo : list Z) (en : Z) (e : env) (buf : list Z) (uri : slot)
  : res (option (list Z)) :=
  let* p := req_path (e_home e) (e_index e) buf uri in
  match e_fs e p with
  | NoNode => log_print thr 0 fls (not_there "stat" p en)
  | Node true _ false => log_print thr 0 flo (not_there "open" p en)
  | Node _ _ _ => Ok None
  end.

(** webser.c:391-415 *)
Definition web_log (thr : Z) (fls flo : list Z) (en : Z) (apis : list api) (e : env) (r : hreq) (m : meta)
  : res (option (list Z)) :=
  let* rt := router apis (mbuf m) (q_uri r) (q_mtyp r) (e_stack e) in
  match fst rt with
  | RFile => file_log thr fls flo en e (mbuf m) (q_uri r)
  | RApi _ | RClose => Ok None
  end.

(** what is logged about the request in the bytes that arrive, if it is complete *)
Definition logged (thr : Z) (fls flo : list Z) (en : Z) (e : env) (fuel : nat) (ins : list rx)
  : res (option (list Z)) :=
  let* o := http_start fuel ins in
  match o with
  | HComplete r m _ => web_log thr fls flo en web_apis e r m
  | HWait _ _ | HFail => Ok None
  end.
