(** * Model of the web server (src/app/webser.c, web_api.c). No proofs here.

    Not modelled: log messages; timers (WEB_TMOUT closes an idle connection);
    exhaustion of the memory pool. The file system, the kernel's send and read
    results and the current date are inputs. *)
From Verif Require Import Base Meta_Model S5_Model Hash_Model Http_Model Send_Model.
From Verif Require Import Str_Spec.
From Coq Require Import String.
Open Scope Z_scope.

(** read [n] bytes at offset [o] of the receive buffer *)
Definition rdbuf (buf : list Z) (o n : Z) : res (list Z) :=
  if n =? 0 then Ok []
  else if (0 <=? o) && (0 <? n) && (o + n <=? zlen buf) then Ok (zslice o (o + n) buf)
  else Fault FOverread.

(** ** Registered APIs *)
(** webser.h:12-18. [a_key] is the C string in the zero-filled [key[32]] *)
Record api := mkApi { a_key : list Z; a_mtyp : Z; a_handler : Z }.

(** webser.c:47-61: [key] is a C string; a long one is cut to sizeof(char * )-1
    bytes. [ok] is the outcome of mem_arr_push (Arr_Model). *)
Definition api_reg (ok : bool) (l : list api) (key : list Z) (h m : Z) : list api :=
  if ok then l ++ [mkApi (if 31 <? zlen key then ztake 7 key else key) m h] else l.

(** webser.c:17-45. strlen(key) != uri.len compares size_t with a converted int;
    strncmp(key, uri, uri.len) with equal lengths and a key without NUL *)
Fixpoint api_find (buf : list Z) (uri : slot) (mtyp : Z) (l : list api) : res (option api) :=
  match l with
  | [] => Ok None
  | a :: t =>
      if negb (zlen (a_key a) =? s_len uri) then api_find buf uri mtyp t
      else let* u := rdbuf buf (s_off uri) (s_len uri) in
           if negb (bseq (a_key a) u) then api_find buf uri mtyp t
           else if negb (mtyp =? a_mtyp a) then api_find buf uri mtyp t
           else Ok (Some a)
  end.

(** web_api.c:15-19; handler 1 is wapi_echo_get, 2 is wapi_echo_post *)
Definition web_apis : list api :=
  api_reg true (api_reg true [] (str "/echo") 1 1) (str "/echo") 2 3.

(** ** Routing: webser.c:391-415 *)
Inductive route := RApi (a : api) | RClose | RFile.

(** [stack] are the bytes behind the array [uri[1024]]: strstr goes on reading
    there when the array holds no NUL. The flag tells that it did. *)
Definition router (apis : list api) (buf : list Z) (uri : slot) (mtyp : Z) (stack : list Z)
  : res (route * bool) :=
  let* f := api_find buf uri mtyp apis in
  match f with
  | Some a => Ok (RApi a, false)
  | None =>
      if negb (mtyp =? 1) then Ok (RClose, false)
      else if s_len uri <? 0 then Fault FOob (* memcpy of almost 2^64 bytes *)
      else let n := if 1024 <? s_len uri then 1024 else s_len uri in
           if 1024 <? n then Fault FOob (* memcpy into uri[1024] *)
           else
           let* u := rdbuf buf (s_off uri) n in
           let arr := u ++ zrepeat 0 (1024 - n) in
           let over := match cstr arr with Some _ => false | None => true end in
           let* s := of_opt FOverread (cstr (arr ++ stack)) in
           Ok (if occursb (str "../") s then RClose else RFile, over)
  end.

(** ** The path: webser.c:345-359 *)
(** snprintf(p + s, 2048 - s, "%s", txt): the size is a size_t; the result is the
    buffer and the new offset s + strlen(txt) *)
Definition snput (p : list Z) (s : Z) (txt : list Z) : res (list Z * Z) :=
  let size := (2048 - s) mod 2 ^ 64 in
  if size =? 0 then Ok (p, s + zlen txt)
  else let* p' := of_opt FOob (zput p s (ztake (Z.min (size - 1) (zlen txt)) txt ++ [0])) in
       Ok (p', s + zlen txt).

(** "%.*s" of the request path: at most [s_len] bytes, up to a NUL *)
Definition prec_str (bs : list Z) : list Z :=
  match cstr bs with Some s => s | None => bs end.

(** [home] and [index] are the C strings of the configuration *)
Definition req_path (home index : list Z) (buf : list Z) (uri : slot) : res (list Z) :=
  let* a := snput (zrepeat 0 2048) 0 home in
  let* b := (if 0 <? s_len uri then
               let* u := rdbuf buf (s_off uri) (s_len uri) in
               let* b := snput (fst a) (snd a) (prec_str u) in
               let* c := of_opt FOverread (zget buf (s_off uri + s_len uri - 1)) in
               if c =? SLASH then snput (fst b) (snd b) index else Ok b
             else snput (fst a) (snd a) (SLASH :: index)) in
  of_opt FOverread (cstr (fst b)).

(** ** Content type: webser.c:135-140, 558-603 *)
Definition mime_list : list (list Z * list Z) :=
  [(str ".html", str "text/html"); (str ".js", str "application/x-javascript");
   (str ".json", str "application/json"); (str ".png", str "image/png");
   (str ".jpg", str "image/jpeg"); (str ".jpeg", str "image/jpeg");
   (str ".gif", str "image/gif"); (str ".ico", str "image/x-icon");
   (str ".css", str "text/css"); (str ".txt", str "text/plain");
   (str ".htm", str "text/html"); (str ".mp3", str "audio/mpeg");
   (str ".m3u8", str "application/x-mpegURL"); (str ".ts", str "video/MP2T")].

(** ezhash_create(97) and the ezhash_add calls, all allocations successful *)
Fixpoint mime_fill (t : table (list Z)) (l : list (list Z * list Z)) : res (table (list Z)) :=
  match l with
  | [] => Ok t
  | e :: r => let* p := hash_add (mkAllocs true true true) t (fst e) (snd e) (zlen (snd e)) in
              mime_fill (snd p) r
  end.
Definition mime_table : res (table (list Z)) := mime_fill (zrepeat [] 97) mime_list.

(** strrchr(p, '.') *)
Fixpoint strrchr_dot (p : list Z) : option (list Z) :=
  match p with
  | [] => None
  | b :: t => match strrchr_dot t with
              | Some s => Some s
              | None => if b =? 46 then Some p else None
              end
  end.

(** webser.c:135-140: strlen of a NULL pointer is a fault. The stored value has no
    terminator of its own; pool blocks are zero-filled and none of the values
    fills its block (the smallest has 512 bytes, mem.c:89-106), so it reads back as a C string *)
Definition rsp_mime (postfix : option (list Z)) : res (list Z) :=
  match postfix with
  | None => Fault FNull
  | Some k => let* t := mime_table in
              let* r := hash_find t k in
              Ok (match r with Some v => v | None => str "text/plain" end)
  end.

(** ** The file: webser.c:360-384 *)
(** what stat and open say about a path: no such file; a node with its permission
    bit S_IRUSR, its size, and whether open succeeds *)
Inductive node := NoNode | Node (rusr : bool) (size : Z) (opens : bool).

Record filersp := mkFileRsp { f_code : Z; f_size : Z; f_open : bool; f_ext : list Z }.

Definition file_rsp (fs : list Z -> node) (p : list Z) : res filersp :=
  let* m := rsp_mime (strrchr_dot p) in
  let ext := str "Content-type: " ++ m ++ [13; 10] in
  if 127 <? zlen ext then Fault FOob (* sprintf into exthdr[128] *)
  else Ok match fs p with
          | NoNode => mkFileRsp 400 0 false ext
          | Node true size op => mkFileRsp 200 (to_int size) op ext
          | Node false _ _ => mkFileRsp 403 0 false ext
          end.

(** ** Response head: webser.c:265-338 *)
(** printf "%d" *)
Fixpoint digits_of (fuel : nat) (n : Z) : list Z :=
  match fuel with
  | O => []
  | S k => if n <? 10 then [48 + n] else digits_of k (n / 10) ++ [48 + n mod 10]
  end.
Definition fmt_d (n : Z) : list Z :=
  if n <? 0 then 45 :: digits_of 20 (- n) else digits_of 20 n.

(** webser.c:276-293: into the first buffer of the chain with more free bytes than
    the text is long, or into a new one at the end. All metas have 4096 bytes. *)
Fixpoint chain_put (c : list meta) (t : list Z) : res (list meta) :=
  match c with
  | [] => let* q := meta_pdata (meta_new 4096) t in
          if fst q then Ok [snd q] else Fault FAbort (* not reached: t is shorter *)
  | m :: r => if zlen t <? meta_getfree m
              then let* q := meta_pdata m t in Ok (snd q :: r)
              else let* r' := chain_put r t in Ok (m :: r')
  end.
(** webser.c:265-294: vsnprintf keeps at most 1022 bytes *)
Definition hdrp (c : list meta) (t : list Z) : res (list meta) :=
  chain_put c (ztake 1022 t).

Definition crlf2 := [13; 10].
(** webser.c:304-317 *)
Definition status_text (code : Z) : list Z :=
  if code =? 200 then str "HTTP/1.1 200 OK" ++ crlf2
  else if code =? 400 then str "HTTP/1.1 400 Bad Request"
  else if code =? 403 then str "HTTP/1.1 403 Forbidden" ++ crlf2
  else if code =? 404 then str "HTTP/1.1 404 Not Found" ++ crlf2
  else if code =? 500 then str "HTTP/1.1 500 Internal Server Error" ++ crlf2
  else str "HTTP/1.1 400 Bad Request".

Fixpoint hdrps (c : list meta) (ts : list (list Z)) : res (list meta) :=
  match ts with
  | [] => Ok c
  | t :: r => let* c' := hdrp c t in hdrps c' r
  end.

(** webser.c:304-326; [len] is the announced length *)
Definition rsp_head (code : Z) (date : list Z) (keep : bool) (len : Z) (ext : option (list Z))
  : res (list meta) :=
  hdrps [] ([status_text code; str "Server: s5" ++ crlf2; str "Date: " ++ date ++ crlf2;
             str "Connection: " ++ (if keep then str "keep-alive" else str "close") ++ crlf2;
             str "Content-Length: " ++ fmt_d len ++ crlf2]
            ++ match ext with Some e => [e] | None => [] end ++ [crlf2]).

(** ** Sending a file: webser.c:167-210 *)
(** results of read(ffd, .., n): at most [k] bytes of what is left of the file
    (0 bytes at its end), or an error *)
Inductive rres := GetUp (k : Z) | GetErr.

(** where the loop stands: finished, connection closed, waiting for the socket or
    for the result of a system call *)
Inductive ffst := FFDone | FFClosed | FFWait.

(** [rest]: bytes of the file not yet read; [wire]: bytes taken by the kernel.
    After EAGAIN the loop starts over on the next writable event; on a plain connection none
    is ever reported (C122), so there only what is sent up to the first EAGAIN applies. *)
Fixpoint ff_loop (fuel : nat) (m : meta) (fsize fsend : Z) (rest : list Z)
  (ks : list kres) (rs : list rres) (wire : list Z) : res (ffst * list Z) :=
  match fuel with
  | O => NoFuel
  | S f =>
      let after m fsend ks wire := (* 183-199 *)
        if fsize <=? fsend then Ok (FFDone, wire)
        else
          let m := if meta_getlen m =? 0 then meta_clr m else m in
          if 0 <? meta_getfree m then
            match rs with
            | [] => Ok (FFWait, wire)
            | GetErr :: _ => Ok (FFClosed, wire)
            | GetUp k :: rs' =>
                let got := ztake (Z.min (Z.max 1 k) (meta_getfree m)) rest in
                match got with
                | [] => Ok (FFClosed, wire)
                | _ => let* m' := meta_store m got in
                       ff_loop f m' fsize fsend (zdrop (zlen got) rest) ks rs' wire
                end
            end
          else ff_loop f m fsize fsend rest ks rs wire in
      if 0 <? meta_getlen m then (* 172-182 *)
        match ks with
        | [] => Ok (FFWait, wire)
        | KAgain :: t => ff_loop f m fsize fsend rest t rs wire
        | KIntr :: t => ff_loop f m fsize fsend rest t rs wire
        | KErr :: _ => Ok (FFClosed, wire)
        | KSent k :: t =>
            let n := Z.max 0 (Z.min k (meta_getlen m)) in
            after (meta_consume m n) (fsend + n) t (wire ++ ztake n (mdata m))
        end
      else after m fsend ks wire
  end.

(** webser.c:212-222: 16384 - sizeof(meta_t) = 16344 bytes *)
Definition ff_start (fuel : nat) (fsize : Z) (file : list Z) (ks : list kres) (rs : list rres) :=
  ff_loop fuel (meta_new 16344) fsize 0 file ks rs [].

(** ** One request: webser.c:391-436 after the request has been parsed *)
Inductive body := BNone | BFile (size : Z) (path : list Z) (opened : bool) | BApi (bs : list Z).
Inductive action := AClose | ARespond (head : list meta) (b : body).

Record env := mkEnv {
  e_home : list Z; e_index : list Z; e_fs : list Z -> node; e_date : list Z; e_stack : list Z }.

(** webser_rsp of an API: webser.c:300-303; an empty payload stores nothing *)
Definition api_respond (e : env) (keep : bool) (code : Z) (payload : list Z) : res action :=
  if 16344 <? zlen payload then Ok AClose
  else let* h := rsp_head code (e_date e) keep (zlen payload) None in
       Ok (ARespond h (match payload with [] => BNone | _ => BApi payload end)).

(** web_api.c:5-13 *)
Definition api_call (e : env) (r : hreq) (h : Z) : res action :=
  if h =? 1 then api_respond e (q_keep r) 200 (e_date e)
  else match q_pay r with
       | None => Fault FNull
       | Some py => api_respond e (q_keep r) 200 (mdata py)
       end.

Definition handle (apis : list api) (e : env) (r : hreq) (m : meta) : res action :=
  let* rt := router apis (mbuf m) (q_uri r) (q_mtyp r) (e_stack e) in
  match fst rt with
  | RClose => Ok AClose
  | RApi a => api_call e r (a_handler a)
  | RFile =>
      let* p := req_path (e_home e) (e_index e) (mbuf m) (q_uri r) in
      let* f := file_rsp (e_fs e) p in
      let* h := rsp_head (f_code f) (e_date e) (q_keep r) (f_size f) (Some (f_ext f)) in
      Ok (ARespond h (if 0 <? f_size f then BFile (f_size f) p (f_open f) else BNone))
  end.

(** ** A keep-alive connection: webser.c:108-133, 438-463
    The responses of one connection, in order; every response is assumed to be
    sent completely. [webser_keepalive] moves the bytes received behind the
    request to the start of the buffer, then webser_start allocates a new buffer:
    the old one, with those bytes, is not referred to any more. [n] bounds the
    number of requests; the flag says how the connection ends. *)
Inductive cend := CClosed | CWaiting | CMore.
Fixpoint session (n fuel : nat) (apis : list api) (e : env) (ins : list rx)
  : res (list action * cend) :=
  match n with
  | O => Ok ([], CMore)
  | S k =>
      let* o := http_start fuel ins in
      match o with
      | HWait _ _ => Ok ([], CWaiting)
      | HFail => Ok ([], CClosed)
      | HComplete r m ins' =>
          let* a := handle apis e r m in
          match a with
          | AClose => Ok ([], CClosed)
          | ARespond _ _ =>
              if q_keep r then
                let* q := session k fuel apis e ins' in
                Ok (a :: fst q, snd q)
              else Ok ([a], CClosed)
          end
      end
  end.

(** ** Secret mode: webser.c:468-502
    On a TLS port in mode TLS_TUNNEL_S_SCRECT the first 36 bytes decide between
    tunnel and web server. *)
Inductive tout := TWait | TClosed | TTunnel (m : meta) (ins : list rx) | THttp (o : hout).
Fixpoint transfer_loop (fuel : nat) (m : meta) (ins : list rx) : res tout :=
  match fuel with
  | O => NoFuel
  | S k =>
      if meta_getlen m <? 36 then
        let* f := do_recv m ins in
        match f with
        | FGot m' ins' => transfer_loop k m' ins'
        | FAgain ins' => transfer_loop k m ins'
        | FErr => Ok TClosed
        | FNone => Ok TWait
        end
      else if bseq (zslice (mpos m) (mpos m + 4) (mbuf m)) MAGIC then Ok (TTunnel m ins)
      else let* o := http_start k ins in Ok (THttp o)
  end.
Definition transfer (fuel : nat) (ins : list rx) : res tout := transfer_loop fuel (meta_new 8192) ins.

(** ** Memory blocks held by a connection
    A pool block is a number. [k_*] are the pointers of the connection and of its
    [webser_t]; [k_live] the blocks allocated and not yet freed. *)
Record blocks := mkBlocks {
  k_next : Z; k_live : list Z;
  k_meta : option Z; k_webc : option Z; k_req : option Z; k_pay : option Z;
  k_hdr : option Z; k_rsp : option Z }.
Definition blocks0 : blocks := mkBlocks 0 [] None None None None None None.
Definition free_blk (b : option Z) (l : list Z) : list Z :=
  match b with Some x => filter (fun y => negb (y =? x)) l | None => l end.

(** what a request makes the server allocate besides the buffer, the webser_t and
    the web_req_t: a body (http_req.c:333), a response head (webser.c:277), a
    response body (webser.c:212, 301) *)
Record usage := mkUse { u_body : bool; u_rsp : bool }.

(** webser_start (438-463), parse, respond; all allocations succeed *)
Definition req_alloc (k : blocks) (u : usage) : blocks :=
  let n := k_next k in
  mkBlocks (n + 6)
    (k_live k ++ [n; n + 1; n + 2] ++ (if u_body u then [n + 3] else []) ++ [n + 4]
       ++ (if u_rsp u then [n + 5] else []))
    (Some n) (Some (n + 1)) (Some (n + 2)) (if u_body u then Some (n + 3) else None)
    (Some (n + 4)) (if u_rsp u then Some (n + 5) else None).
(** webser_keepalive (108-118): web_req_free (http_req.c:15-18) frees the
    web_req_t only *)
Definition req_next (k : blocks) : blocks :=
  mkBlocks (k_next k)
    (free_blk (k_webc k) (free_blk (k_rsp k) (free_blk (k_hdr k) (free_blk (k_req k) (k_live k)))))
    (k_meta k) None None None None None.
(** net_free_direct (net.c:175-208): meta_free(c->meta) and web_release_c *)
Definition con_close (k : blocks) : blocks :=
  mkBlocks (k_next k)
    (free_blk (k_webc k) (free_blk (k_rsp k) (free_blk (k_hdr k) (free_blk (k_req k)
       (free_blk (k_meta k) (k_live k))))))
    None None None None None None.
(** a connection that serves these requests, the last one not kept alive *)
Fixpoint con_blocks (k : blocks) (us : list usage) : blocks :=
  match us with
  | [] => con_close k
  | [u] => con_close (req_alloc k u)
  | u :: r => con_blocks (req_next (req_alloc k u)) r
  end.
