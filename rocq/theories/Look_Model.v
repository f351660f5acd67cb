(** * Model of name lookups: cache, query and the datagrams that arrive
    (src/dns/dns.c, src/app/socks5.c:98-200, src/common/net_send.c:80-105). No proofs here.

    The packet functions and the cache are those of Dns_Model.v. A lookup is taken as one
    step: what other lookups do to the cache while this one waits is left out, and so are
    failures to send. *)
From Verif Require Import Base Meta_Model S5_Model Hash_Model Dns_Model.
Open Scope Z_scope.

(** a datagram that reaches the socket of the query: who sent it, and its bytes. The socket
    is not connected (dns.c:345), so anybody's datagrams are taken. *)
Definition dgram := (Z * list Z)%type.

(** net_send.c:80-105 [udp_recvs] for one datagram after the other into a buffer with
    [room] free bytes: the rest of a datagram that does not fit is lost, an empty one counts
    as an error. The sender is stored in the connection and never looked at. *)
Fixpoint received (room : Z) (ds : list dgram) : list rx :=
  match ds with
  | [] => []
  | (_, b) :: r =>
      match ztake room b with
      | [] => [RxErr]
      | x => RxData x :: received (room - zlen x) r
      end
  end.

(** socks5.c:157-176: the cache first; dns.c:328-358 and 193-232 else. [name] is the C string
    in the request. When no (more) datagram arrives the timer ends the lookup (dns.c:25-29).
    [None]: no address, the session ends (socks5.c:122-127). *)
Definition lookup (al : allocs) (now : Z) (c : cache) (name : list Z) (ds : list dgram)
  : res (option (list Z) * cache) :=
  let* old := rec_find c name in
  match old with
  | Some a => Ok (Some a, c)
  | None =>
      let* p := dns_packet name in
      let* d := dns_response (snd p) (received 1500 ds) in
      match d with
      | DAnswer a => let* c' := rec_store al now c name a in Ok (Some (ans_addr a), c')
      | DFail | DWait => Ok (None, c)
      end
  end.

(** a lookup, or the pass over the cache that runs every 30 seconds (dns.c:57-86) *)
Inductive lop :=
| LLook (al : allocs) (now : Z) (name : list Z) (ds : list dgram)
| LChk (now : Z).
Definition lstep (c : cache) (o : lop) : res (option (list Z) * cache) :=
  match o with
  | LLook al now name ds => lookup al now c name ds
  | LChk now => Ok (None, rec_chk now c)
  end.
(** the addresses found, in order ([None] also for passes) *)
Fixpoint lrun (c : cache) (l : list lop) : res (list (option (list Z)) * cache) :=
  match l with
  | [] => Ok ([], c)
  | o :: r => let* p := lstep c o in let* q := lrun (snd p) r in Ok (fst p :: fst q, snd q)
  end.
