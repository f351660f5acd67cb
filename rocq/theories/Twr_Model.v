(** * Model of writing over TLS (src/common/ssl.c:230-293) under the relay
    (src/app/tls_tunnel_s.c:57-191) and for a chain of buffers. No proofs here.

    [SSL_write] is the library's (trusted, as documented, with the modes the program leaves at
    their defaults, ssl.c:317-360): it returns when all bytes are taken, or it has to wait.
    When it waits, part of the bytes may already be encrypted and on their way; the call must
    then be repeated with the same buffer and at least as many bytes, else it fails for good
    ("bad write retry"). What it has encrypted cannot be changed any more. *)
From Verif Require Import Base Meta_Model S5_Model Send_Model Relay_Model.
Open Scope Z_scope.

(** the address of bytes: a buffer and the offset in it *)
Definition place := (Z * Z)%type.
Definition place_eqb (a b : place) : bool := (fst a =? fst b) && (snd a =? snd b).
(** [w_wait]: the call that has to be repeated: where its bytes are and how many of them are
    encrypted; [w_plain]: everything encrypted so far, which is what the peer reads;
    [w_bad]: a call was not repeated as it must be *)
Record tlsw := Tw { w_wait : option (place * Z); w_plain : list Z; w_bad : bool }.
Definition tlsw0 : tlsw := Tw None [] false.
(** what the network lets the library do: finish, encrypt [j] more bytes and wait, fail *)
Inductive wres := WAll | WWait (j : Z) | WErr.

(** ssl.c:230-268; callbacks and interest are in Ssl_Model.v. The result is that of [ssl_write]. *)
Definition tls_write (t : tlsw) (p : place) (data : list Z) (w : wres) : tx * tlsw :=
  let go (k : Z) :=
    match w with
    | WAll => (TxSent (zlen data), Tw None (w_plain t ++ zdrop k data) (w_bad t))
    | WWait j => let j := Z.max 0 (Z.min j (zlen data - k)) in
                 (TxAgain, Tw (Some (p, k + j)) (w_plain t ++ ztake j (zdrop k data)) (w_bad t))
    | WErr => (TxErr, t)
    end in
  match w_wait t with
  | None => go 0
  | Some (p0, k) => if place_eqb p p0 && (k <=? zlen data) then go k else (TxErr, Tw (w_wait t) (w_plain t) true)
  end.

(** ** The relay; the sink of direction [b] is a TLS connection
    tls_tunnel_s.c:97-110, 165-178: [send] is [ssl_write] for that direction. *)
Inductive tin := TIn (x : ain) | TWrite (w : wres).
Definition tstep (b : bool) (r : relay) (t : tlsw) (i : tin) : res (relay * tlsw) :=
  match i with
  | TIn x => let* r' := any_step r x in Ok (r', t)
  | TWrite w =>
      let m := d_buf (get r b) in
      let q := tls_write t (0, mpos m) (mdata m) w in
      let* r' := relay_step r (RSend (fst q)) in Ok (r', snd q)
  end.
Fixpoint trun (b : bool) (r : relay) (t : tlsw) (l : list tin) : res (relay * tlsw) :=
  match l with
  | [] => Ok (r, t)
  | i :: l => let* p := tstep b r t i in trun b (fst p) (snd p) l
  end.
(** what can happen: results that recv and send can have; the TLS sink is written to when the
    relay has got there, and not by a plain send *)
Definition t_enabled (b : bool) (r : relay) (i : tin) : Prop :=
  match i with
  | TIn (AIn (RSend x)) => r_enabled r (RSend x) /\ r_pc r <> PSend b
  | TIn (AIn i) => r_enabled r i
  | TIn (ASet _ _ _) => True
  | TWrite _ => r_pc r = PSend b
  end.
Fixpoint t_valid (b : bool) (r : relay) (t : tlsw) (l : list tin) : Prop :=
  match l with
  | [] => True
  | i :: l => t_enabled b r i /\ forall r' t', tstep b r t i = Ok (r', t') -> t_valid b r' t' l
  end.

(** ** A chain of buffers
    ssl.c:274-281: the first buffer with bytes left, with its number in the chain *)
Fixpoint first_left (n : Z) (c : list meta) : option (Z * meta) :=
  match c with
  | [] => None
  | m :: t => if meta_getlen m =? 0 then first_left (n + 1) t else Some (n, m)
  end.
Fixpoint use (c : list meta) (n : Z) : list meta :=
  match c with
  | [] => []
  | m :: t => if meta_getlen m =? 0 then m :: use t n else meta_consume m n :: t
  end.
(** ssl.c:270-293; [ws]: what the library does, call by call *)
Fixpoint tls_chain (c : list meta) (t : tlsw) (ws : list wres) : rcode * list meta * tlsw * list wres :=
  match first_left 0 c with
  | None => (RAll, c, t, ws)
  | Some (n, m) =>
      match ws with
      | [] => (ROpen, c, t, [])
      | w :: ws =>
          let q := tls_write t (n, mpos m) (mdata m) w in
          match fst q with
          | TxSent k => tls_chain (use c k) (snd q) ws
          | TxAgain => (RAgain, c, snd q, ws)
          | TxErr => (RFail, c, snd q, ws)
          end
      end
  end.
(** the caller calls again after would-block, e.g. webser.c:142-165, 231-245,
    tls_tunnel_c.c:44-66 *)
Fixpoint tls_all (fuel : nat) (c : list meta) (t : tlsw) (ws : list wres) : rcode * list meta * tlsw * list wres :=
  match fuel with
  | O => (ROpen, c, t, ws)
  | S f => match tls_chain c t ws with
           | (RAgain, c', t', ws') => tls_all f c' t' ws'
           | x => x
           end
  end.
