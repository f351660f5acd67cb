(** Model of what requests to the web server take from the memory pool and give
    back: src/app/webser.c:62-80, 108-133, 206-221, 262-338, 438-463;
    src/http/http_req.c:8-25, 315-340; src/common/net.c:175-208. The pool is that
    of [Pool_Model]. No proofs here.

    The requests are answered one after the other, on one connection or on many;
    the connection itself (con_t, ev_t) is taken as given. *)
From Verif Require Import Base Pool_Model.

(** One request. [u_body]: the length of its body, 0 for none; [u_file]: a file is
    asked for; [u_pay]: the bytes of the answer that are taken from the pool, 0
    for none: for an API the length of the answer (29 for GET /echo, the length of
    the body for POST /echo; web_api.c:5-13), for a file that is not empty
    WEB_PAYLOAD_LEN - sizeof(meta_t) (webser.c:215-220; webser.h:10); [u_keep]: it
    asks for the connection to be kept. *)
Record use := mkUse { u_body : Z; u_file : bool; u_pay : Z; u_keep : bool }.

(** sizeof(meta_t) = 40 (meta.h), so a buffer of 4096 bytes asks for 4136;
    sizeof(webser_t) = 72 (webser.h:20-36), sizeof(web_req_t) = 648
    (http_req.h:19-37) *)
Definition BUF : Z := 4136.
Definition WEBC : Z := 72.
Definition REQ : Z := 648.

(** mem_pool_free of several blocks; its result is not looked at *)
Fixpoint frees (L : layout) (s : pool) (ps : list Z) : res pool :=
  match ps with
  | [] => Ok s
  | p :: r => let* a := pool_free L s p in frees L (snd a) r
  end.
(** an allocation; when it is refused the connection is given up and the blocks
    [held] are released (net.c:175-208, webser.c:70-80), and the answer is [false].
    [stale]: c->data still is the webser_t of the request before, which was
    released (webser.c:118): it is used again. *)
Definition ask (L : layout) (stale : bool) (s : pool) (n : Z) (held : list Z)
  (k : Z -> pool -> res (bool * pool)) : res (bool * pool) :=
  let* a := pool_alloc L s n in
  match fst a with
  | Some p => k p (snd a)
  | None => if stale then Fault FUaf else let* s := frees L (snd a) held in Ok (false, s)
  end.
(** the same for a block that is asked for only when [n] is not 0 *)
Definition askz (L : layout) (s : pool) (n : Z) (held : list Z)
  (k : list Z -> pool -> res (bool * pool)) : res (bool * pool) :=
  if n =? 0 then k [] s else ask L false s (40 + n) held (fun p s => k [p] s).
(** the head of the answer: when its block is refused, webser_rsp_hdrp (278) and
    webser_rsp (329-332) both release the connection (simplification: a TLS
    shutdown that has to wait is left out) *)
Definition ask_head (L : layout) (s : pool) (k : Z -> pool -> res (bool * pool)) : res (bool * pool) :=
  let* a := pool_alloc L s BUF in
  match fst a with
  | Some p => k p (snd a)
  | None => Fault FUaf
  end.

(** One request, answered completely. [old]: the connection was kept after the
    request before. The body is not released with the request (http_req.c:20-25),
    the buffer not when the connection is kept (webser.c:108-133, 441). *)
Definition serve_one (L : layout) (old : bool) (s : pool) (u : use) : res (bool * pool) :=
  ask L old s BUF [] (fun m s =>                         (* webser.c:441 *)
  ask L old s WEBC [m] (fun w s =>                       (* 446 *)
  ask L false s REQ [m; w] (fun r s =>                   (* 455 *)
  askz L s (u_body u) [m; r; w] (fun _ s =>              (* http_req.c:333 *)
  askz L s (if u_file u then 0 else u_pay u) [m; r; w] (fun y s => (* 302 *)
  ask_head L s (fun h s =>                               (* 278 *)
  askz L s (if u_file u then u_pay u else 0) [m; r; h; w] (fun z s => (* 216 *)
  let own := [r; h] ++ (y ++ z) ++ [w] in                (* 113-118 / 72-79 *)
  let* s := frees L s (if u_keep u then own else m :: own) in
  Ok (true, s)))))))).

(** the requests in turn; which were answered, and the pool *)
Fixpoint serve_all (L : layout) (old : bool) (s : pool) (us : list use) : res (list bool * pool) :=
  match us with
  | [] => Ok ([], s)
  | u :: r =>
      let* a := serve_one L old s u in
      let* b := serve_all L (fst a && u_keep u) (snd a) r in
      Ok (fst a :: fst b, snd b)
  end.
