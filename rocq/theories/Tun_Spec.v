(** * What the statements about the whole tunnel speak about *)
From Verif Require Import Base S5_Spec S5_Model Relay_Model Tun_Model.

(** a CONNECT request for an IPv4 address or for a name of 1 to 254 bytes *)
Definition connect_to (q : list Z) : Prop :=
  (exists rsv ip port, q = request_v4 5 1 rsv ip port /\ zlen ip = 4 /\ zlen port = 2) \/
  (exists rsv name port, q = request_dom 5 1 rsv name port /\ 1 <= zlen name <= 254 /\ zlen port = 2).
Definition hello (g : list Z) : Prop := exists ms, g = greeting 5 ms /\ 1 <= zlen ms <= 255.

(** an application that follows RFC 1928 and waits for the answers: it sends the greeting [g];
    the request [q] after two bytes of answer; anything after ten more *)
Definition may_write (g q sofar got : list Z) : Prop :=
  prefix sofar g \/ (2 <= zlen got /\ prefix sofar (g ++ q)) \/ (12 <= zlen got /\ prefix (g ++ q) sofar).
Definition polite (g q : list Z) (t : tun) (a : tact) : Prop :=
  tun_ok t a /\ match a with TApp bs => may_write g q (t_app t ++ bs) (t_got t) | _ => True end.

(** the answer to a CONNECT request: ten bytes, success *)
Definition reply_ok (r : list Z) : Prop := zlen r = 10 /\ prefix [5; 0; 0; 1] r.


(** the events that end a session: a call that fails, the end of a stream, a timer, a name that
    is not found *)
Definition fails_relay (x : ain) : Prop :=
  match x with AIn (RRecv RxErr) | AIn (RSend TxErr) | AIn RTimer => True | _ => False end.
Definition fails (a : tact) : Prop :=
  match a with
  | TCli (CRecv RxErr) | TCli (CConn false) | TCli (CShake ConErr) | TCli (CSend TxErr) | TCli CTimer => True
  | TSrv (SHsIn (InRecv RxErr)) | TSrv (SHsIn (InSend TxErr)) | TSrv (SHsIn (InAlloc false)) | TSrv (SHsIn (InDns None))
  | TSrv (SHsIn (InConnect ConErr)) | TSrv (SHsIn (InSockUp false)) | TSrv (SHsIn (InTryRead false)) | TSrv (SHsIn InTimeout) => True
  | TCli (CRelay x) | TSrv (SRelay x) => fails_relay x
  | _ => False
  end.
