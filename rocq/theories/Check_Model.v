(** * Checks that fail while the head of an answer is written *)
From Coq Require Import String.
From Verif Require Import Base Str_Spec Meta_Model Web_Model.
Open Scope Z_scope.

(** vsnprintf of log.c:26 as far as checks use it: the arguments are numbers of type
    [int]. "%d" prints the next one, "%%" a percent sign. "%s" would take a number for
    the address of a text, and any conversion without an argument left reads what was
    not passed: both are faults. Simplified: the other conversions do not occur in
    the texts and count as the latter; the limit on the length of a record is left out. *)
Fixpoint format (fmt : list Z) (args : list Z) : res (list Z) :=
  match fmt with
  | [] => Ok []
  | b :: t =>
      if b =? 37 then
        match t with
        | [] => Fault FUninit
        | k :: u =>
            if k =? 37 then let* r := format u args in Ok (37 :: r)
            else match args with
                 | [] => Fault FUninit
                 | a :: args' =>
                     if k =? 100 then let* r := format u args' in Ok (fmt_d a ++ r)
                     else if k =? 115 then Fault FNull
                     else Fault FUninit
                 end
        end
      else let* r := format t args in Ok (b :: r)
  end.

(** macro.h:92 [schk]: the text of the condition, as written in the source, is made a
    part of the format; the only argument is errno. *)
Definition record (src : list Z) (errno : Z) : res (list Z) :=
  format (str "schk assert failed. -> """ ++ src ++ str """. [%d]" ++ [10]) [errno].

(** answers of the allocator, in order; when none are left it grants *)
Definition granted (al : list bool) : bool := match al with [] => true | b :: _ => b end.

(** buffers and remaining answers of the allocator, or what was recorded when a check failed *)
Inductive hp := HPok (c : list meta) (al : list bool) | HPno (log : list (list Z)).

(** webser.c:265-294 [webser_rsp_hdrp] with an allocator that may refuse (278, 290).
    Left out: closing the connection (Wmem_Model). *)
Definition hdrp_a (al : list bool) (c : list meta) (t : list Z) (errno : Z) : res hp :=
  match c with
  | [] => if granted al then let* c' := hdrp [] t in Ok (HPok c' (tl al))
          else let* l := record (str "0 == meta_alloc(&webc->rsp_hdr, 4096)") errno in Ok (HPno [l])
  | _ :: _ =>
      if existsb (fun m => zlen (ztake 1022 t) <? meta_getfree m) c
      then let* c' := hdrp c t in Ok (HPok c' al)
      else if granted al then let* c' := hdrp c t in Ok (HPok c' (tl al))
      else let* l := record (str "0 == meta_alloc(&n, 4096)") errno in Ok (HPno [l])
  end.

(** a sequence of checks of the form [schk(0 == webser_rsp_hdrp(...), break)]: the text
    of each in the source and what it stores *)
Fixpoint puts (al : list bool) (c : list meta) (ts : list (list Z * list Z)) (errno : Z) : res hp :=
  match ts with
  | [] => Ok (HPok c al)
  | (src, t) :: r =>
      let* o := hdrp_a al c t errno in
      match o with
      | HPok c' al' => puts al' c' r errno
      | HPno l => let* l2 := record src errno in Ok (HPno (l ++ [l2]))
      end
  end.

(** webser.c:306-318: the texts of the checks as the macro makes them a part of the format *)
Definition status_src (code : Z) : list Z :=
  if code =? 200 then str "0 == webser_rsp_hdrp(c, ""HTTP/1.1 200 OK\r\n"")"
  else if code =? 400 then str "0 == webser_rsp_hdrp(c, ""HTTP/1.1 400 Bad Request"")"
  else if code =? 403 then str "0 == webser_rsp_hdrp(c, ""HTTP/1.1 403 Forbidden\r\n"")"
  else if code =? 404 then str "0 == webser_rsp_hdrp(c, ""HTTP/1.1 404 Not Found\r\n"")"
  else if code =? 500 then str "0 == webser_rsp_hdrp(c, ""HTTP/1.1 500 Internal Server Error\r\n"")"
  else str "0 == webser_rsp_hdrp(c, ""HTTP/1.1 400 Bad Request"")".
(** webser.c:319-326 *)
Definition src_server : list Z := str "0 == webser_rsp_hdrp(c, ""Server: s5\r\n"")".
Definition src_date : list Z := str "0 == webser_rsp_hdrp(c, ""Date: %s\r\n"", systime_gmt())".
Definition src_conn : list Z :=
  str "0 == webser_rsp_hdrp(c, ""Connection: %s\r\n"", webc->webreq->fkeepalive ? ""keep-alive"" : ""close"")".
Definition src_len : list Z :=
  str "0 == webser_rsp_hdrp(c, ""Content-Length: %d\r\n"", (webc->type == WEBSER_FILE) ? webc->fsize : meta_getlens(webc->rsp_payload))".
Definition src_ext : list Z := str "0 == webser_rsp_hdrp(c, ""%s"", exthdr)".
Definition src_end : list Z := str "0 == webser_rsp_hdrp(c, ""\r\n"")".

(** webser.c:306-326 *)
Definition head_lines (code : Z) (date : list Z) (keep : bool) (len : Z) (ext : option (list Z)) : list (list Z * list Z) :=
  [(status_src code, status_text code); (src_server, str "Server: s5" ++ crlf2); (src_date, str "Date: " ++ date ++ crlf2);
   (src_conn, str "Connection: " ++ (if keep then str "keep-alive" else str "close") ++ crlf2);
   (src_len, str "Content-Length: " ++ fmt_d len ++ crlf2)]
  ++ match ext with Some e => [(src_ext, e)] | None => [] end ++ [(src_end, crlf2)].

(** webser.c:296-331: an answer with a payload takes a buffer for it first *)
Definition rsp_a (al : list bool) (code : Z) (date : list Z) (keep : bool) (len : Z) (ext : option (list Z))
  (payload : bool) (errno : Z) : res hp :=
  if payload && negb (granted al)
  then let* l := record (str "0 == meta_alloc(&webc->rsp_payload, payloadn)") errno in Ok (HPno [l])
  else puts (if payload then tl al else al) [] (head_lines code date keep len ext) errno.
