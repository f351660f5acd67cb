(** * Model of name lookups of several sessions at the same time (src/dns/dns.c:193-232, 291-358,
    src/app/socks5.c:98-193). No proofs here.

    Each lookup has its own query ([dnsc_t]) with its own socket; the cache is shared. The parts
    of a lookup are those of Look_Model.v. Failures to send, and sessions that end before their
    lookup (C101), are left out. *)
From Verif Require Import Base Meta_Model S5_Model Hash_Model Dns_Model Look_Model.
Open Scope Z_scope.

(** a query that waits: its session, the name, the length of the encoded name, and the datagrams
    that have reached its socket. Simplification: the datagrams are kept, not the buffer; what is
    in the buffer is worked out from them. *)
Record query := Qy { q_id : Z; q_name : list Z; q_len : Z; q_ds : list dgram }.
Record st := St { s_cache : cache; s_wait : list query }.
(** dns.c:370-377 the cache has 279 rows *)
Definition st0 : st := St (zrepeat [] 279) [].

Inductive cop :=
| Start (id : Z) (name : list Z)                        (* socks5.c:157-193 a session asks *)
| Data (id : Z) (d : dgram) (al : allocs) (now : Z)     (* a datagram reaches a query's socket *)
| Late (id : Z)                                         (* dns.c:25-29 the timer of a query *)
| Chk (now : Z).                                        (* dns.c:57-86 *)

Definition others (id : Z) (l : list query) : list query := filter (fun q => negb (q_id q =? id)) l.
Definition waiting (id : Z) (l : list query) : option query := find (fun q => q_id q =? id) l.

(** a session gets its result: an address or none *)
Definition outcome := (Z * option (list Z))%type.
(** one event; with it what a session got, if it ends a lookup *)
Definition cstep (s : st) (o : cop) : res (option outcome * st) :=
  match o with
  | Start id name =>
      let* old := rec_find (s_cache s) name in
      match old with
      | Some a => Ok (Some (id, Some a), s)
      | None => let* p := dns_packet name in Ok (None, St (s_cache s) (s_wait s ++ [Qy id name (snd p) []]))
      end
  | Data id d al now =>
      match waiting id (s_wait s) with
      | None => Ok (None, s)      (* the socket is closed *)
      | Some q =>
          let ds := q_ds q ++ [d] in
          let* r := dns_response (q_len q) (received 1500 ds) in
          match r with
          | DAnswer a => let* c := rec_store al now (s_cache s) (q_name q) a in
                         Ok (Some (id, Some (ans_addr a)), St c (others id (s_wait s)))
          | DFail => Ok (Some (id, None), St (s_cache s) (others id (s_wait s)))
          | DWait => Ok (None, St (s_cache s) (others id (s_wait s) ++ [Qy id (q_name q) (q_len q) ds]))
          end
      end
  | Late id =>
      match waiting id (s_wait s) with
      | None => Ok (None, s)
      | Some _ => Ok (Some (id, None), St (s_cache s) (others id (s_wait s)))
      end
  | Chk now => Ok (None, St (rec_chk now (s_cache s)) (s_wait s))
  end.
(** a history; with it what each of its events ended *)
Fixpoint crun (s : st) (l : list cop) : res (list (option outcome) * st) :=
  match l with
  | [] => Ok ([], s)
  | o :: r => let* p := cstep s o in let* q := crun (snd p) r in Ok (fst p :: fst q, snd q)
  end.
