(** * Model of the DNS client (src/dns/dns.c, dns.h). No proofs here. *)
From Verif Require Import Base Meta_Model S5_Model Hash_Model.

(** ** Building the query *)

(** dns.c:334 copies at most 256 bytes of the domain (a C string, given without its
    terminator) into the zero-filled array query[256] (dns.h:49) *)
Definition dns_query_array (domain : list Z) : list Z :=
  let n := Z.min 256 (zlen domain) in ztake n domain ++ zrepeat 0 (256 - n).

(** strlen on the array: reading on behind it is a fault *)
Fixpoint cstrlen (l : list Z) : option Z :=
  match l with
  | [] => None
  | b :: r => if b =? 0 then Some 0 else option_map Z.succ (cstrlen r)
  end.
Definition cstring (arr : list Z) : res (list Z) :=
  let* n := of_opt FOob (cstrlen arr) in Ok (ztake n arr).

(** dns.c:266-280: the loop over the host; [stack] has 256 bytes, a label length is
    stored in one byte. The bytes written to qname are accumulated in [out] and
    stored (with the bounds check) by the caller. *)
Fixpoint qname_loop (host stack out : list Z) : res (list Z * list Z) :=
  match host with
  | [] => Ok (stack, out)
  | b :: r =>
      if b =? 46 then qname_loop r [] (out ++ [zlen stack mod 256] ++ stack)
      else if 256 <=? zlen stack then Fault FOob
      else qname_loop r (stack ++ [b]) out
  end.

(** dns.c:260-289 [dns_request_host2qname] *)
Definition host2qname (host : list Z) : res (list Z) :=
  let* p := qname_loop host [] [] in
  let (stack, out) := p in
  Ok ((if 0 <? zlen stack then out ++ [zlen stack mod 256] ++ stack else out) ++ [0]).

(** dns.c:302-309 (packed, network order) and 316-319 *)
Definition dns_header_bytes : list Z := [190; 239; 1; 0; 0; 1; 0; 0; 0; 0; 0; 0].
Definition dns_qinfo_bytes : list Z := [0; 1; 0; 1].

(** dns.c:291-326 [dns_request_packet] on a fresh buffer of DNS_METAN bytes;
    returns the buffer and qname_len *)
Definition dns_packet (domain : list Z) : res (meta * Z) :=
  let* host := cstring (dns_query_array domain) in
  let* m1 := meta_store (meta_new 1500) dns_header_bytes in
  let* q := host2qname host in
  let* m2 := meta_store m1 q in
  let* m3 := meta_store m2 dns_qinfo_bytes in
  Ok (m3, zlen q).

(** ** Analysing the response *)
Inductive ast := ADom | ADom2 | ACommonStart | ACommon | AAddrStart | AAddr.
Record an := mkAn { an_st : ast; an_cur : Z; an_len : Z; an_rdata : Z; an_addr : Z }.

(** network-order fields, dns.h:32-37 *)
Definition rd16 (mem : list Z) (i : Z) : res Z :=
  let* a := of_opt FOob (zget mem i) in let* b := of_opt FOob (zget mem (i + 1)) in Ok (256 * a + b).
Definition rd32 (mem : list Z) (i : Z) : res Z :=
  let* a := rd16 mem i in let* b := rd16 mem (i + 2) in Ok (65536 * a + b).
Definition rd4 (mem : list Z) (i : Z) : res (list Z) :=
  if (0 <=? i) && (i + 4 <=? zlen mem) then Ok (zslice i (i + 4) mem) else Fault FOob.

Record answer := mkAnswer { ans_addr : list Z; ans_ttl : Z; ans_rdlen : Z }.

(** one iteration of the loop of dns.c:117-188 at offset [p] with byte [b];
    [inl] continues, [inr] is an A record (lines 157-176). [mem] is the memory
    that may be read: the received packet and possibly bytes behind it. *)
Definition an_step (mem : list Z) (p b : Z) (s : an) : res (an + answer) :=
  match an_st s with
  | ADom =>
      if negb (Z.land b 192 =? 0) then Ok (inl (mkAn ADom2 (an_cur s) (an_len s) (an_rdata s) (an_addr s)))
      else if b =? 0 then Ok (inl (mkAn ACommonStart 0 10 (an_rdata s) (an_addr s)))
      else Ok (inl s)
  | ADom2 => Ok (inl (mkAn ACommonStart 0 10 (an_rdata s) (an_addr s)))
  | ACommonStart | ACommon =>
      let rdata := match an_st s with ACommonStart => p | _ => an_rdata s end in
      let cur := an_cur s + 1 in
      if an_len s <=? cur then
        let* dl := rd16 mem (rdata + 8) in
        Ok (inl (mkAn AAddrStart 0 dl rdata (an_addr s)))
      else Ok (inl (mkAn ACommon cur (an_len s) rdata (an_addr s)))
  | AAddrStart | AAddr =>
      let addr := match an_st s with AAddrStart => p | _ => an_addr s end in
      let cur := an_cur s + 1 in
      if an_len s <=? cur then
        let* ttl := rd32 mem (an_rdata s + 4) in
        let* typ := rd16 mem (an_rdata s) in
        let* dl := rd16 mem (an_rdata s + 8) in
        if typ =? 1 then
          let* a := rd4 mem addr in Ok (inr (mkAnswer a ttl dl))
        else Ok (inl (mkAn ADom 0 (an_len s) (an_rdata s) addr))
      else Ok (inl (mkAn AAddr cur (an_len s) (an_rdata s) addr))
  end.

Fixpoint an_loop (mem l : list Z) (p : Z) (s : an) : res (option answer) :=
  match l with
  | [] => Ok None
  | b :: r =>
      let* x := an_step mem p b s in
      match x with inl s' => an_loop mem r (p + 1) s' | inr a => Ok (Some a) end
  end.

Definition an0 : an := mkAn ADom 0 0 0 0.

(** dns.c:97-191 [dns_response_analyze] on a packet followed by [slack] in memory *)
Definition dns_analyze (pkt slack : list Z) (qlen : Z) : res (option answer) :=
  let start := 12 + qlen + 4 in
  an_loop (pkt ++ slack) (zdrop start pkt) start an0.

(** ** Receiving, dns.c:193-232 *)
Inductive dns_res :=
| DWait                    (* would block: waits with a timer *)
| DFail                    (* the callback is called with -1 *)
| DAnswer (a : answer).    (* the callback is called with 0 and the address *)

(** lines 201-213, one datagram (or result) per element; a datagram shorter than the
    expected length is kept and the next one is appended. [None]: not enough yet. *)
Fixpoint dns_collect (m : meta) (want : Z) (rs : list rx) : res (dns_res + meta) :=
  if want <=? meta_getlen m then Ok (inr m)
  else match rs with
       | [] => Ok (inl DWait)
       | RxAgain :: _ => Ok (inl DWait)
       | RxErr :: _ => Ok (inl DFail)
       | RxData bs :: r =>
           if meta_getfree m <? 1 then Fault FAbort
           else let* m' := meta_store m bs in dns_collect m' want r
       end.

(** lines 216-231; an answer count or question count of zero is refused. The memory
    behind the packet inside the buffer is [slack]. *)
Definition dns_response (qlen : Z) (rs : list rx) : res dns_res :=
  let* c := dns_collect (meta_new 1500) (12 + qlen + 4) rs in
  match c with
  | inl d => Ok d
  | inr m =>
      let pkt := mdata m in
      let slack := zdrop (mlast m) (mbuf m) in
      let* qd := rd16 pkt 4 in
      let* an := rd16 pkt 6 in
      if qd <? 1 then Ok DFail
      else if an <? 1 then Ok DFail
      else let* r := dns_analyze pkt slack qlen in
           match r with Some a => Ok (DAnswer a) | None => Ok DFail end
  end.

(** ** The cache *)
Record centry := mkC { ce_expire : Z; ce_addr : list Z }.
Definition cache := table centry.

(** conversion of an unsigned 32-bit value to int (dns.c:166 passes 1000*rttl) *)
Definition to_int32 (x : Z) : Z :=
  let y := x mod 4294967296 in if y <? 2147483648 then y else y - 4294967296.

(** dns.c:31-46 [dns_rec_add]; the return value is ignored by its caller *)
Definition rec_add (al : allocs) (now : Z) (c : cache) (q addr : list Z) (msec : Z) : res cache :=
  let msec := if 10800000 <? msec then 10800000 else msec in
  let* p := hash_add al c q (mkC (now + msec) addr) 288 in Ok (snd p).

(** dns.c:48-55 [dns_rec_find] *)
Definition rec_find (c : cache) (q : list Z) : res (option (list Z)) :=
  let* r := hash_find c q in Ok (option_map ce_addr r).

(** dns.c:57-86 [dns_rec_chk] *)
Definition rec_chk (now : Z) (c : cache) : cache :=
  map (filter (fun e => negb (now <? ce_expire (snd e)))) c.

(** dns.c:160-171: what is done with the cache when an answer is found *)
Definition rec_store (al : allocs) (now : Z) (c : cache) (q : list Z) (a : answer) : res cache :=
  let* old := rec_find c q in
  match old with
  | Some _ => Ok c
  | None => if (0 <? ans_ttl a) && (0 <? ans_rdlen a)
            then rec_add al now c q (ans_addr a) (to_int32 (1000 * ans_ttl a)) else Ok c
  end.
