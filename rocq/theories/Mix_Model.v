(** * Model of sessions and their lookups in one worker, with the memory they live in
    (src/app/socks5.c:6-16, 98-193, src/app/tls_tunnel_s.c:24-54, src/dns/dns.c:18-29, 97-232,
    328-368, src/common/net.c:175-242). No proofs here.

    Kept of a session are its block of memory and, in it, what a lookup touches: the pointer to
    the query, the port asked for and how far the session is. A query holds a pointer to the
    block ([user_data]). Which free block an allocation gets is an input (the pool hands out
    blocks that were freed before, mem.c:124-180). Left out: allocation failures, the cache, TLS
    connections that take their time to close. *)
From Verif Require Import Base.
Open Scope Z_scope.

(** a session (tls_tunnel_s.h:23-34): whose it is (ghost), [dns], the port of the request *)
Inductive phase := PNew | PWait | PDial.
Record ses := Ses { s_who : Z; s_dns : option Z; s_port : Z; s_ph : phase }.
(** a block of memory: free, or a session *)
Inductive blk := BFree | BSes (s : ses).
(** [m_blk]: memory; [m_home]: the session block that a client's connection points to;
    [m_qry]: the live queries (dns.h) with the block each one points to *)
Record mem := Mem { m_blk : Z -> blk; m_home : Z -> option Z; m_qry : Z -> option Z }.
Definition mem0 : mem := Mem (fun _ => BFree) (fun _ => None) (fun _ => None).
Definition upd {A} (f : Z -> A) (p : Z) (v : A) : Z -> A := fun q => if q =? p then v else f q.

Inductive ev :=
| New (w b : Z)          (* tls_tunnel_s.c:269-298 client [w] is served; its session gets block [b] *)
| Ip (w port : Z) (addr : list Z)         (* socks5.c:145-161, 162-180 it asks for an address, or for a
                                             name in the cache: nothing to look up *)
| Ask (w q port : Z)     (* socks5.c:181-186, dns.c:328-358 it asks for a name; [q]: the block of the query *)
| Answer (q : Z) (addr : list Z)          (* dns.c:157-176 an address arrives for a query *)
| Fail (q : Z)           (* dns.c:25-29, 206, 219-226, 189 the query fails or its timer ends it *)
| Gone (w : Z).          (* socks5.c:9-14, tls_tunnel_s.c:47-54 and others: the session is given up *)

(** a connection is opened for client [w] to [addr] and [port]; a session ends *)
Inductive out := Dial (w : Z) (addr : list Z) (port : Z) | End (w : Z).

(** reading a session through a pointer *)
Definition look (m : mem) (b : Z) : res ses :=
  match m_blk m b with BSes s => Ok s | BFree => Fault FUaf end.
(** dns.c:360-364 [dns_free] *)
Definition qfree (m : mem) (q : option Z) : res mem :=
  match q with
  | None => Fault FNull
  | Some q => match m_qry m q with
              | None => Fault FUaf
              | Some _ => Ok (Mem (m_blk m) (m_home m) (upd (m_qry m) q None))
              end
  end.
(** net.c:175-208 with tls_tunnel_s.c:31-45: both connections are closed and the block is given
    back; a lookup that is running is not ended *)
Definition drop (m : mem) (w b : Z) : mem :=
  Mem (upd (m_blk m) b BFree) (upd (m_home m) w None) (m_qry m).

(** one event; [Ok None]: it cannot happen now *)
Definition step (m : mem) (e : ev) : res (option (list out * mem)) :=
  match e with
  | New w b =>
      match m_blk m b, m_home m w with
      | BFree, None => Ok (Some ([], Mem (upd (m_blk m) b (BSes (Ses w None 0 PNew))) (upd (m_home m) w (Some b)) (m_qry m)))
      | _, _ => Ok None
      end
  | Ip w port addr =>
      match m_home m w with
      | None => Ok None
      | Some b =>
          let* s := look m b in
          match s_ph s with
          | PNew => Ok (Some ([Dial (s_who s) addr port], Mem (upd (m_blk m) b (BSes (Ses (s_who s) (s_dns s) port PDial))) (m_home m) (m_qry m)))
          | _ => Ok None
          end
      end
  | Ask w q port =>
      match m_home m w, m_qry m q with
      | Some b, None =>
          let* s := look m b in
          match s_ph s with
          | PNew => Ok (Some ([], Mem (upd (m_blk m) b (BSes (Ses (s_who s) (Some q) port PWait))) (m_home m) (upd (m_qry m) q (Some b))))
          | _ => Ok None
          end
      | _, _ => Ok None
      end
  (* socks5.c:98-121: all of this goes through the session the query points to; the port and
     the connection to open are that session's. A session without an upstream connection has
     no query either. *)
  | Answer q addr =>
      match m_qry m q with
      | None => Ok None
      | Some b =>
          let* s := look m b in
          let* m1 := qfree m (s_dns s) in
          Ok (Some ([Dial (s_who s) addr (s_port s)],
                    Mem (upd (m_blk m1) b (BSes (Ses (s_who s) (s_dns s) (s_port s) PDial))) (m_home m1) (m_qry m1)))
      end
  (* socks5.c:122-127 *)
  | Fail q =>
      match m_qry m q with
      | None => Ok None
      | Some b =>
          let* s := look m b in
          let* m1 := qfree m (s_dns s) in
          Ok (Some ([End (s_who s)], drop m1 (s_who s) b))
      end
  | Gone w =>
      match m_home m w with
      | None => Ok None
      | Some b => let* s := look m b in Ok (Some ([End (s_who s)], drop m (s_who s) b))
      end
  end.
Fixpoint run (m : mem) (l : list ev) : res (option (list out * mem)) :=
  match l with
  | [] => Ok (Some ([], m))
  | e :: r =>
      let* x := step m e in
      match x with
      | None => Ok None
      | Some p => let* y := run (snd p) r in
                  match y with None => Ok None | Some q => Ok (Some (fst p ++ fst q, snd q)) end
      end
  end.
