(** Model of the memory of one connection of the web server when an allocation
    may be refused: src/app/webser.c:70-80, 108-133, 142-338, 391-463, 468-506;
    src/http/http_req.c:8-18, 315-355; src/common/net.c:175-240;
    src/common/meta.c:3-25. A block of the pool is a number; the answers of
    mem_pool_alloc and the way a TLS shutdown goes are inputs. *)
From Coq Require Import ZArith List Bool.
From Verif Require Import Base.
Import ListNotations.
Local Open Scope Z_scope.

(** What is asked and what happens to it. [q_head]: the head of the request
    arrives and is accepted (webser.c:420-429 otherwise); [q_body]: it announces
    a body of more than 0 bytes (http_req.c:332); [q_got]: the body arrives
    (343-353); [q_kind]: how it is routed (webser.c:391-415); [q_sent1],
    [q_sent2]: the head and the body of the answer are sent (235-244, 146-155,
    173-200) rather than the peer going away or a deadline passing (82-106);
    [q_keep]: the request asks for keep-alive. *)
Inductive kind :=
  | KGet            (** GET /echo: web_api.c:11-13 *)
  | KPost           (** POST /echo: web_api.c:5-9 *)
  | KFile (n : Z)   (** a file of [n] bytes, or 0 when it is not found *)
  | KNone.          (** neither GET nor a path without "../": 401-409 *)
Record wreq := mkReq {
  q_head : bool; q_body : bool; q_got : bool; q_kind : kind;
  q_sent1 : bool; q_sent2 : bool; q_keep : bool }.

(** The connection and its webser_t. [w_mem]: the coming answers of the
    allocator, [true] for a block (granted once the list is used up); [w_sd]:
    for each coming ssl_shutdown whether it has to wait (ssl.c:80-95; a plain
    connection has the empty list); [w_live]: blocks allocated and not freed;
    [w_con]: the con_t is allocated; [w_closing]: a shutdown is waiting;
    [w_closes]: how often the socket was closed; [w_meta], [w_data]: c->meta and
    c->data; [w_req], [w_hdr], [w_pay]: webreq, rsp_hdr and rsp_payload of the
    webser_t allocated last; [w_body]: webreq->payload. Files are left out. *)
Record wm := mkWm {
  w_mem : list bool; w_sd : list bool; w_next : Z; w_live : list Z;
  w_con : bool; w_closing : bool; w_closes : Z;
  w_meta : option Z; w_data : option Z;
  w_req : option Z; w_body : option Z; w_hdr : option Z; w_pay : option Z }.

(** the connection as net_accept leaves it (net.c:150-165) *)
Definition wm0 (mem sd : list bool) : wm :=
  mkWm mem sd 0 [] true false 0 None None None None None None.

(** removes a block from those allocated *)
Fixpoint take_blk (x : Z) (l : list Z) : option (list Z) :=
  match l with
  | [] => None
  | y :: r => if y =? x then Some r else match take_blk x r with Some r' => Some (y :: r') | None => None end
  end.
(** mem_pool_free(b), b possibly NULL (meta.c:15-25, webser.c:75-79): a block
    that is not allocated any more is touched *)
Definition free_b (b : option Z) (s : wm) : res wm :=
  match b with
  | None => Ok s
  | Some x =>
      match take_blk x (w_live s) with
      | Some l => Ok (mkWm (w_mem s) (w_sd s) (w_next s) l (w_con s) (w_closing s) (w_closes s)
                        (w_meta s) (w_data s) (w_req s) (w_body s) (w_hdr s) (w_pay s))
      | None => Fault FUaf
      end
  end.
(** mem_pool_alloc *)
Definition granted (s : wm) : bool := hd true (w_mem s).
Definition took (s : wm) : wm :=
  if granted s
  then mkWm (tl (w_mem s)) (w_sd s) (w_next s + 1) (w_next s :: w_live s) (w_con s) (w_closing s) (w_closes s)
         (w_meta s) (w_data s) (w_req s) (w_body s) (w_hdr s) (w_pay s)
  else mkWm (tl (w_mem s)) (w_sd s) (w_next s) (w_live s) (w_con s) (w_closing s) (w_closes s)
         (w_meta s) (w_data s) (w_req s) (w_body s) (w_hdr s) (w_pay s).

(** the frees of web_release_c (webser.c:70-80) and of webser_keepalive
    (111-118), which are the same; the webser_t is read before anything is freed *)
Definition release (s : wm) : res wm :=
  match w_data s with
  | None => Fault FNull
  | Some d =>
      let* _ := of_opt FUaf (take_blk d (w_live s)) in
      let* s := free_b (w_req s) s in
      let* s := free_b (w_hdr s) s in
      let* s := free_b (w_pay s) s in
      free_b (Some d) s
  end.

(** net_free_direct (net.c:175-208); the SSL object is left out *)
Definition free_direct (s : wm) : res wm :=
  if negb (w_con s) then Fault FUaf else
  let* s := free_b (w_meta s) s in
  let* s := match w_data s with None => Ok s | Some _ => release s end in
  Ok (mkWm (w_mem s) (w_sd s) (w_next s) (w_live s) false false (w_closes s + 1)
        None None None None None None).
(** net_free (net.c:210-242) *)
Definition nfree (s : wm) : res wm :=
  if negb (w_con s) then Fault FUaf else
  match w_sd s with
  | true :: r => Ok (mkWm (w_mem s) r (w_next s) (w_live s) true true (w_closes s)
                       (w_meta s) (w_data s) (w_req s) (w_body s) (w_hdr s) (w_pay s))
  | _ => free_direct (mkWm (w_mem s) (tl (w_sd s)) (w_next s) (w_live s) true (w_closing s) (w_closes s)
                        (w_meta s) (w_data s) (w_req s) (w_body s) (w_hdr s) (w_pay s))
  end.
(** the end of a shutdown that waits, by its event or by its timer (ssl.c:44-56,
    net.c:233) *)
Definition settle (s : wm) : res wm := if w_closing s then free_direct s else Ok s.

(** runs the next step when the connection is still served ([inl]) *)
Definition andthen (r : res (wm + wm)) (k : wm -> res (wm + wm)) : res (wm + wm) :=
  let* x := r in match x with inl s => k s | inr e => Ok (inr e) end.

(** webser_start (webser.c:438-463) up to the parsing: the buffer (441-444; a
    refused allocation leaves c->meta as it is, meta.c:6), the webser_t (446-452)
    and the web_req_t (455-458) *)
Definition get_buf (s : wm) : res (wm + wm) :=
  let s1 := took s in
  if negb (granted s) then let* e := nfree s1 in Ok (inr e) else
  Ok (inl (mkWm (w_mem s1) (w_sd s1) (w_next s1) (w_live s1) (w_con s1) (w_closing s1) (w_closes s1)
             (Some (w_next s)) (w_data s1) (w_req s1) (w_body s1) (w_hdr s1) (w_pay s1))).
Definition get_web (s : wm) : res (wm + wm) :=
  let s1 := took s in
  if negb (granted s) then let* e := nfree s1 in Ok (inr e) else
  Ok (inl (mkWm (w_mem s1) (w_sd s1) (w_next s1) (w_live s1) (w_con s1) (w_closing s1) (w_closes s1)
             (w_meta s1) (Some (w_next s)) None None None None)).
Definition get_req (s : wm) : res (wm + wm) :=
  let s1 := took s in
  if negb (granted s) then let* e := nfree s1 in Ok (inr e) else
  Ok (inl (mkWm (w_mem s1) (w_sd s1) (w_next s1) (w_live s1) (w_con s1) (w_closing s1) (w_closes s1)
             (w_meta s1) (w_data s1) (Some (w_next s)) None (w_hdr s1) (w_pay s1))).
Definition wstart (s : wm) : res (wm + wm) := andthen (andthen (get_buf s) get_web) get_req.

(** the body of the request (http_req.c:315-355) *)
Definition wbody (q : wreq) (s : wm) : res (wm + wm) :=
  if negb (q_head q) then let* e := nfree s in Ok (inr e) else
  if negb (q_body q) then Ok (inl s) else
  let s1 := took s in
  if negb (granted s) then let* e := nfree s1 in Ok (inr e) else
  let s2 := mkWm (w_mem s1) (w_sd s1) (w_next s1) (w_live s1) (w_con s1) (w_closing s1) (w_closes s1)
              (w_meta s1) (w_data s1) (w_req s1) (Some (w_next s)) (w_hdr s1) (w_pay s1) in
  if negb (q_got q) then let* e := nfree s2 in Ok (inr e) else Ok (inl s2).

(** rsp_payload of an API answer (webser.c:301-304): the time has 29 bytes and a
    posted body has more than 0; wapi_echo_post reads webreq->payload, NULL
    without a body (web_api.c:8) *)
Definition api_pay (s : wm) : res (wm + wm) :=
  let s1 := took s in
  if negb (granted s) then let* e := nfree s1 in Ok (inr e) else
  Ok (inl (mkWm (w_mem s1) (w_sd s1) (w_next s1) (w_live s1) (w_con s1) (w_closing s1) (w_closes s1)
             (w_meta s1) (w_data s1) (w_req s1) (w_body s1) (w_hdr s1) (Some (w_next s)))).
Definition wroute (q : wreq) (s : wm) : res (wm + wm) :=
  match q_kind q with
  | KNone => let* e := nfree s in Ok (inr e)
  | KFile _ => Ok (inl s)
  | KGet => api_pay s
  | KPost => match w_body s with None => Fault FNull | Some _ => api_pay s end
  end.

(** the head of the answer (webser_rsp_hdrp, 277-279, and webser_rsp, 306-337):
    when the block is refused the connection is given up in webser_rsp_hdrp and
    again in webser_rsp. The lines of the head fit into one block of 4096. *)
Definition whead (q : wreq) (s : wm) : res (wm + wm) :=
  let s1 := took s in
  if negb (granted s) then let* e := nfree s1 in let* e := nfree e in Ok (inr e) else
  let s2 := mkWm (w_mem s1) (w_sd s1) (w_next s1) (w_live s1) (w_con s1) (w_closing s1) (w_closes s1)
              (w_meta s1) (w_data s1) (w_req s1) (w_body s1) (Some (w_next s)) (w_pay s1) in
  if negb (q_sent1 q) then let* e := nfree s2 in Ok (inr e) else Ok (inl s2).

(** the body of the answer (247-253, 142-229); for a file a block is asked for *)
Definition wpay (q : wreq) (s : wm) : res (wm + wm) :=
  match q_kind q with
  | KFile n =>
      if negb (0 <? n) then Ok (inl s) else
      let s1 := took s in
      if negb (granted s) then let* e := nfree s1 in Ok (inr e) else
      let s2 := mkWm (w_mem s1) (w_sd s1) (w_next s1) (w_live s1) (w_con s1) (w_closing s1) (w_closes s1)
                  (w_meta s1) (w_data s1) (w_req s1) (w_body s1) (w_hdr s1) (Some (w_next s)) in
      if negb (q_sent2 q) then let* e := nfree s2 in Ok (inr e) else Ok (inl s2)
  | _ => if negb (q_sent2 q) then let* e := nfree s in Ok (inr e) else Ok (inl s)
  end.

(** one request; [inl]: webser_keepalive (108-133) released the webser_t and
    goes to webser_start. c->data keeps its value. *)
Definition wone (q : wreq) (s : wm) : res (wm + wm) :=
  andthen (wstart s) (fun s =>
  andthen (wbody q s) (fun s =>
  andthen (wroute q s) (fun s =>
  andthen (whead q s) (fun s =>
  andthen (wpay q s) (fun s =>
  if q_keep q then let* s := release s in Ok (inl s) else let* e := nfree s in Ok (inr e)))))).

(** the connection; after the last request that is kept alive nothing more
    comes and the connection is given up (peer or deadline) *)
Fixpoint wloop (qs : list wreq) (s : wm) : res wm :=
  match qs with
  | [] => let* x := wstart s in match x with inl s => nfree s | inr e => Ok e end
  | q :: r => let* x := wone q s in match x with inl s => wloop r s | inr e => Ok e end
  end.
(** [tun]: the connection came through webser_transfer_to_tlstunnel (468-506),
    whose first bytes were those of a request *)
Definition wcon (tun : bool) (qs : list wreq) (mem sd : list bool) : res wm :=
  let s := wm0 mem sd in
  let* e :=
    (if tun then
       let s1 := took s in
       if negb (granted s) then nfree s1 else
       wloop qs (mkWm (w_mem s1) (w_sd s1) (w_next s1) (w_live s1) (w_con s1) (w_closing s1) (w_closes s1)
                   (Some (w_next s)) (w_data s1) (w_req s1) (w_body s1) (w_hdr s1) (w_pay s1))
     else wloop qs s) in
  settle e.
