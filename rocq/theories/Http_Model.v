(** * Model of the HTTP request parser (src/http/http_req.c). No proofs here.

    Pointers into the connection's receive buffer are offsets into [mbuf] (-1
    for NULL). The buffer is the 4096-byte one of [webser_start]
    (webser.c:441). The callback pointer [req->cb] together with the integer
    [req->state] is the type [phase_http].

    Not modelled: the text of log messages; failure of [mem_pool_alloc] because
    the pool is exhausted (a size above the largest block class does fail). *)
From Verif Require Import Base Meta_Model S5_Model.

(** common.h [string_t]: { int len; uchar *data } *)
Record slot := mkSlot { s_off : Z; s_len : Z }.
Definition slot0 : slot := mkSlot (-1) 0.
(** assignments to one of the two fields *)
Definition set_off (s : slot) (p : Z) : slot := mkSlot p (s_len s).
Definition set_end (s : slot) (p : Z) : slot := mkSlot (s_off s) (p - s_off s).

(** http_req.c:24-39 *)
Inductive lstate :=
| LMethodInit | LMethod | LSchemeInit | LScheme | LSlash | LSlashSlash
| LHostInit | LHost | LPortInit | LPort | LUri | LVerInit | LVer | LEnd.
(** http_req.c:201-208 *)
Inductive hstate := HKeyInit | HKey | HValInit | HVal | HEnd | HDoneSt.
(** which function [req->cb] points to *)
Inductive phase_http := PLine (s : lstate) | PHdrs (s : hstate) | PBody.

(** http_req.h:19-37; [q_mtyp] 1 = GET, 2 = HEAD, 3 = POST, 0 = not set *)
Record hreq := mkReq {
  q_ph : phase_http;
  q_method : slot; q_scheme : slot; q_host : slot; q_uri : slot; q_port : slot; q_ver : slot;
  q_kvn : Z; q_kvs : list (slot * slot);
  q_mtyp : Z; q_keep : bool; q_payn : Z; q_pay : option meta }.

(** http_req.c:8-13 [web_req_alloc]: zero-filled memory, cb = web_req_line *)
Definition req_new : hreq :=
  mkReq (PLine LMethodInit) slot0 slot0 slot0 slot0 slot0 slot0 0 (repeat (slot0, slot0) 16) 0 false 0 None.

Definition set_ph (r : hreq) (s : phase_http) : hreq :=
  mkReq s (q_method r) (q_scheme r) (q_host r) (q_uri r) (q_port r) (q_ver r)
    (q_kvn r) (q_kvs r) (q_mtyp r) (q_keep r) (q_payn r) (q_pay r).
Definition set_method r v := mkReq (q_ph r) v (q_scheme r) (q_host r) (q_uri r) (q_port r) (q_ver r)
    (q_kvn r) (q_kvs r) (q_mtyp r) (q_keep r) (q_payn r) (q_pay r).
Definition set_scheme r v := mkReq (q_ph r) (q_method r) v (q_host r) (q_uri r) (q_port r) (q_ver r)
    (q_kvn r) (q_kvs r) (q_mtyp r) (q_keep r) (q_payn r) (q_pay r).
Definition set_host r v := mkReq (q_ph r) (q_method r) (q_scheme r) v (q_uri r) (q_port r) (q_ver r)
    (q_kvn r) (q_kvs r) (q_mtyp r) (q_keep r) (q_payn r) (q_pay r).
Definition set_uri r v := mkReq (q_ph r) (q_method r) (q_scheme r) (q_host r) v (q_port r) (q_ver r)
    (q_kvn r) (q_kvs r) (q_mtyp r) (q_keep r) (q_payn r) (q_pay r).
Definition set_port r v := mkReq (q_ph r) (q_method r) (q_scheme r) (q_host r) (q_uri r) v (q_ver r)
    (q_kvn r) (q_kvs r) (q_mtyp r) (q_keep r) (q_payn r) (q_pay r).
Definition set_ver r v := mkReq (q_ph r) (q_method r) (q_scheme r) (q_host r) (q_uri r) (q_port r) v
    (q_kvn r) (q_kvs r) (q_mtyp r) (q_keep r) (q_payn r) (q_pay r).
Definition set_kvn r v := mkReq (q_ph r) (q_method r) (q_scheme r) (q_host r) (q_uri r) (q_port r) (q_ver r)
    v (q_kvs r) (q_mtyp r) (q_keep r) (q_payn r) (q_pay r).
Definition set_kvs r v := mkReq (q_ph r) (q_method r) (q_scheme r) (q_host r) (q_uri r) (q_port r) (q_ver r)
    (q_kvn r) v (q_mtyp r) (q_keep r) (q_payn r) (q_pay r).
Definition set_mtyp r v := mkReq (q_ph r) (q_method r) (q_scheme r) (q_host r) (q_uri r) (q_port r) (q_ver r)
    (q_kvn r) (q_kvs r) v (q_keep r) (q_payn r) (q_pay r).
Definition set_keep r v := mkReq (q_ph r) (q_method r) (q_scheme r) (q_host r) (q_uri r) (q_port r) (q_ver r)
    (q_kvn r) (q_kvs r) (q_mtyp r) v (q_payn r) (q_pay r).
Definition set_pay r n v := mkReq (q_ph r) (q_method r) (q_scheme r) (q_host r) (q_uri r) (q_port r) (q_ver r)
    (q_kvn r) (q_kvs r) (q_mtyp r) (q_keep r) n v.

Definition CR := 13.  Definition LF := 10.  Definition SP := 32.
Definition COLON := 58.  Definition SLASH := 47.

(** http_req.c:56 and 226: characters that end the request with an error *)
Definition bad_byte (b : Z) : bool :=
  ((b <? 32) || (127 <? b)) && negb (b =? CR) && negb (b =? LF).

(** what one iteration of the inner loop does: go on, leave with the function's
    last statement (request line / header block complete), return -1, or access
    the header table out of range *)
Inductive bres := BNext (r : hreq) | BDone (r : hreq) | BErr | BFault (f : fault).

(** http_req.c:60-188: the byte [b] at offset [p] *)
Definition line_byte (s : lstate) (r : hreq) (p b : Z) : bres :=
  match s with
  | LMethodInit => (* 60-67 *)
      if (b =? CR) || (b =? LF) || (b =? SP) then BNext r
      else BNext (set_ph (set_method r (set_off (q_method r) p)) (PLine LMethod))
  | LMethod => (* 69-78; on SP control reaches 80-82 with the same byte *)
      if b =? SP then
        let m := set_end (q_method r) p in
        if (s_len m <? 1) || (16 <? s_len m) then BErr
        else BNext (set_ph (set_method r m) (PLine LSchemeInit))
      else BNext r
  | LSchemeInit => (* 80-91 *)
      if b =? SP then BNext r
      else if b =? SLASH then BNext (set_ph (set_uri r (set_off (q_uri r) p)) (PLine LUri))
      else BNext (set_ph (set_scheme r (set_off (q_scheme r) p)) (PLine LScheme))
  | LScheme => (* 93-99 *)
      if b =? COLON then BNext (set_ph (set_scheme r (set_end (q_scheme r) p)) (PLine LSlash))
      else BNext r
  | LSlash => (* 101-109 *)
      if b =? SLASH then BNext (set_ph r (PLine LSlashSlash)) else BErr
  | LSlashSlash => (* 111-119 *)
      if b =? SLASH then BNext (set_ph r (PLine LHostInit)) else BErr
  | LHostInit => (* 121-125 *)
      BNext (set_ph (set_host r (set_off (q_host r) p)) (PLine LHost))
  | LHost => (* 127-138 *)
      if b =? COLON then BNext (set_ph (set_host r (set_end (q_host r) p)) (PLine LPortInit))
      else if b =? SLASH then
        BNext (set_ph (set_uri (set_host r (set_end (q_host r) p)) (set_off (q_uri r) p)) (PLine LUri))
      else BNext r
  | LPortInit => (* 140-144 *)
      BNext (set_ph (set_port r (set_off (q_port r) p)) (PLine LPort))
  | LPort => (* 146-153 *)
      if b =? SLASH then
        BNext (set_ph (set_uri (set_port r (set_end (q_port r) p)) (set_off (q_uri r) p)) (PLine LUri))
      else BNext r
  | LUri => (* 155-161 *)
      if b =? SP then BNext (set_ph (set_uri r (set_end (q_uri r) p)) (PLine LVerInit))
      else BNext r
  | LVerInit => (* 163-167 *)
      BNext (set_ph (set_ver r (set_off (q_ver r) p)) (PLine LVer))
  | LVer => (* 169-175 *)
      if b =? CR then BNext (set_ph (set_ver r (set_end (q_ver r) p)) (PLine LEnd))
      else BNext r
  | LEnd => (* 177-188 *)
      if b =? LF then BDone (set_ph r (PHdrs HKeyInit)) else BErr
  end.

(** http_req.c:9 REQ_KV_MAX *)
Definition KV_MAX := 16.

(** read / write of kvs[kvn]; the table has 16 entries *)
Definition with_kv (r : hreq) (f : slot * slot -> slot * slot) (s : hstate) : bres :=
  match zget (q_kvs r) (q_kvn r) with
  | Some e => match zput (q_kvs r) (q_kvn r) [f e] with
              | Some l => BNext (set_ph (set_kvs r l) (PHdrs s))
              | None => BFault FOob
              end
  | None => BFault FOob
  end.

(** http_req.c:231-305 *)
Definition hdr_byte (s : hstate) (r : hreq) (p b : Z) : bres :=
  match s with
  | HKeyInit => (* 231-240 *)
      if b =? CR then BNext (set_ph r (PHdrs HDoneSt))
      else with_kv r (fun e => (set_off (fst e) p, snd e)) HKey
  | HKey => (* 242-248 *)
      if b =? COLON then with_kv r (fun e => (set_end (fst e) p, snd e)) HValInit
      else BNext r
  | HValInit => (* 250-258 *)
      if b =? SP then BNext r
      else with_kv r (fun e => (fst e, set_off (snd e) p)) HVal
  | HVal => (* 260-266 *)
      if b =? CR then with_kv r (fun e => (fst e, set_end (snd e) p)) HEnd
      else BNext r
  | HEnd => (* 268-279 *)
      if b =? LF then
        let n := q_kvn r + 1 in
        BNext (set_ph (set_kvn r (if KV_MAX - 1 <? n then KV_MAX - 1 else n)) (PHdrs HKeyInit))
      else BErr
  | HDoneSt => (* 281-305, without the evaluation of the headers *)
      if b =? LF then BDone (set_ph r PBody) else BErr
  end.

(** one iteration of the inner loops 55-189 and 225-306 *)
Definition byte_step (r : hreq) (p b : Z) : bres :=
  if bad_byte b then BErr
  else match q_ph r with
       | PLine s => line_byte s r p b
       | PHdrs s => hdr_byte s r p b
       | PBody => BErr (* not reached: web_req_payload does not scan *)
       end.

Inductive sres := SEnd (r : hreq) | SDone (r : hreq) (p : Z) | SErr | SFault (f : fault).

(** the inner loop over [p .. last) *)
Fixpoint scan (r : hreq) (p : Z) (bs : list Z) : sres :=
  match bs with
  | [] => SEnd r
  | b :: t => match byte_step r p b with
              | BNext r' => scan r' (p + 1) t
              | BDone r' => SDone r' p
              | BErr => SErr
              | BFault f => SFault f
              end
  end.

(** ASCII tolower, as used by strncasecmp in the C locale *)
Definition lower (b : Z) : Z := if (65 <=? b) && (b <=? 90) then b + 32 else b.

(** [strncasecmp(buf + o, lit, n) == 0]; [lit] is the literal without its NUL.
    A negative [int] length becomes a huge [size_t], i.e. it is never used up.
    Reading outside the buffer is a fault. *)
Fixpoint ncaseeq (buf : list Z) (o : Z) (lit : list Z) (n : Z) : res bool :=
  if n =? 0 then Ok true
  else let* c := of_opt FOverread (zget buf o) in
       match lit with
       | [] => Ok (c =? 0)
       | l :: lit' => if lower c =? lower l then ncaseeq buf (o + 1) lit' (n - 1) else Ok false
       end.

Definition lit_connection := [67;111;110;110;101;99;116;105;111;110].
Definition lit_keepalive := [75;101;101;112;45;65;108;105;118;101].
Definition lit_clen := [67;111;110;116;101;110;116;45;76;101;110;103;116;104].
Definition lit_get := [71;69;84].
Definition lit_post := [80;79;83;84].

Definition slot_is (buf : list Z) (s : slot) (lit : list Z) : res bool :=
  ncaseeq buf (s_off s) lit (s_len s).

(** http_req.c:286-293 *)
Fixpoint keep_loop (buf : list Z) (kvs : list (slot * slot)) (k : bool) : res bool :=
  match kvs with
  | [] => Ok k
  | e :: t =>
      let* a := slot_is buf (fst e) lit_connection in
      if a then let* b := slot_is buf (snd e) lit_keepalive in keep_loop buf t (k || b)
      else keep_loop buf t k
  end.

(** http_req.c:286-299 *)
Definition hdr_finish (buf : list Z) (r : hreq) : res hreq :=
  let* k := keep_loop buf (ztake (q_kvn r) (q_kvs r)) (q_keep r) in
  let* g := slot_is buf (q_method r) lit_get in
  if g then Ok (set_mtyp (set_keep r k) 1)
  else let* p := slot_is buf (q_method r) lit_post in
       Ok (if p then set_mtyp (set_keep r k) 3 else set_keep r k).

(** C library [strtol(.., 10)] reading from offset [o] (white space, sign,
    digits; clamped to the range of a 64-bit long); reads outside the buffer
    are faults. [fuel] is the number of bytes of the buffer. *)
Definition is_space (b : Z) : bool := (b =? 32) || ((9 <=? b) && (b <=? 13)).
Definition is_digit (b : Z) : bool := (48 <=? b) && (b <=? 57).
Fixpoint skip_space (buf : list Z) (fuel : nat) (o : Z) : res Z :=
  let* c := of_opt FOverread (zget buf o) in
  match fuel with
  | O => NoFuel
  | S k => if is_space c then skip_space buf k (o + 1) else Ok o
  end.
Fixpoint digits (buf : list Z) (fuel : nat) (o acc : Z) : res Z :=
  let* c := of_opt FOverread (zget buf o) in
  match fuel with
  | O => NoFuel
  | S k => if is_digit c then digits buf k (o + 1) (acc * 10 + (c - 48)) else Ok acc
  end.
Definition clamp64 (v : Z) : Z := Z.max (- 2 ^ 63) (Z.min v (2 ^ 63 - 1)).
Definition strtol (buf : list Z) (o : Z) : res Z :=
  let fuel := S (length buf) in
  let* o1 := skip_space buf fuel o in
  let* c := of_opt FOverread (zget buf o1) in
  if c =? 45 then let* v := digits buf fuel (o1 + 1) 0 in Ok (clamp64 (- v))
  else if c =? 43 then let* v := digits buf fuel (o1 + 1) 0 in Ok (clamp64 v)
  else let* v := digits buf fuel o1 0 in Ok (clamp64 v).

(** assignment of a [long] to an [int] *)
Definition to_int (v : Z) : Z := (v + 2 ^ 31) mod 2 ^ 32 - 2 ^ 31.

Definition MAX_BODY := 10 * 1024 * 1024.
(** http_req.c:318-330; [None] is the return value -1 *)
Fixpoint clen_loop (buf : list Z) (kvs : list (slot * slot)) (n : Z) : res (option Z) :=
  match kvs with
  | [] => Ok (Some n)
  | e :: t =>
      let* a := slot_is buf (fst e) lit_clen in
      if a then
        let* v := strtol buf (s_off (snd e)) in
        let n' := to_int v in
        if n' <? 0 then Ok None
        else if MAX_BODY <? n' then Ok None
        else clen_loop buf t n'
      else clen_loop buf t n
  end.

(** [c->recv(c, last, getfree)] of net_send.c:3-28 followed by [last += n]. The
    peer's bytes arrive as the chunks of [ins]; a call takes what fits from the
    first one. No input left: nothing more happens for now. An empty chunk is a
    closed connection (recv returns 0, recvs returns -1). [recvs] asserts that
    the buffer has space. *)
Inductive fill := FGot (m : meta) (ins : list rx) | FAgain (ins : list rx) | FErr | FNone.
Definition do_recv (m : meta) (ins : list rx) : res fill :=
  if meta_getfree m <? 1 then Fault FAbort
  else match ins with
       | [] => Ok FNone
       | RxAgain :: t => Ok (FAgain t)
       | RxErr :: _ => Ok FErr
       | RxData [] :: _ => Ok FErr
       | RxData bs :: t =>
           let* m' := meta_store m (ztake (meta_getfree m) bs) in
           Ok (FGot m' (if zlen bs <=? meta_getfree m then t
                        else RxData (zdrop (meta_getfree m) bs) :: t))
       end.

(** what happened so far: still waiting for input, return value -1, or the
    request is complete (return value 0; [ins] is what was not received yet) *)
Inductive hout := HWait (r : hreq) (m : meta) | HFail | HComplete (r : hreq) (m : meta) (ins : list rx).

(** mem.c: blocks above 16384 bytes do not exist; meta.c adds a 40-byte header *)
Definition meta_fits (n : Z) : bool := 40 + n <=? 16384.

(** The three callbacks http_req.c:41-196, 210-313, 315-355 run to the next
    return; when they return -11 webser_req_proc (webser.c:417-427) calls them
    again on the next readable event. Every iteration of an outer loop costs one
    unit of fuel: [NoFuel] for every fuel means the loop never ends. *)
Fixpoint http_run (fuel : nat) (r : hreq) (m : meta) (ins : list rx) : res hout :=
  match fuel with
  | O => NoFuel
  | S k =>
    match q_ph r with
    | PBody =>
        match q_pay r with
        | None => (* 316-341 *)
            let* o := clen_loop (mbuf m) (ztake (q_kvn r) (q_kvs r)) (q_payn r) in
            match o with
            | None => Ok HFail
            | Some n =>
                if 0 <? n then
                  if meta_fits n then
                    if meta_getlen m =? 0 then http_run k (set_pay r n (Some (meta_new n))) m ins
                    else let* q := meta_pdata (meta_new n) (mdata m) in
                         if fst q then http_run k (set_pay r n (Some (snd q))) m ins
                         else Ok HFail
                  else Ok HFail
                else Ok (HComplete (set_pay r n None) m ins)
            end
        | Some py => (* 343-354 *)
            if meta_getlen py <? q_payn r then
              let* f := do_recv py ins in
              match f with
              | FGot py' ins' => http_run k (set_pay r (q_payn r) (Some py')) m ins'
              | FAgain ins' => http_run k r m ins'
              | FErr => Ok HFail
              | FNone => Ok (HWait r m)
              end
            else Ok (HComplete r m ins)
        end
    | _ => (* 41-52 / 210-222 *)
        let* f := (if meta_getlen m <? 1 then do_recv m ins else Ok (FGot m ins)) in
        match f with
        | FNone => Ok (HWait r m)
        | FErr => Ok HFail
        | FAgain ins' => http_run k r m ins'
        | FGot m' ins' =>
            match scan r (mpos m') (mdata m') with
            | SErr => Ok HFail
            | SFault f => Fault f
            | SDone r' p =>
                let m2 := mkMeta (mbuf m') (p + 1) (mlast m') in
                match q_ph r' with
                | PBody => let* r2 := hdr_finish (mbuf m') r' in http_run k r2 m2 ins'
                | _ => http_run k r' m2 ins'
                end
            | SEnd r' => (* 191-195 / 308-312 *)
                if meta_getfree m' <? 1 then Ok HFail else http_run k r' m' ins'
            end
        end
    end
  end.

(** webser.c:438-463: a fresh request on a fresh 4096-byte buffer *)
Definition http_start (fuel : nat) (ins : list rx) : res hout :=
  http_run fuel req_new (meta_new 4096) ins.
