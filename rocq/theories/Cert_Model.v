(** * Model of making a TLS connection (src/common/ssl.c:295-427): the two contexts that are
    kept for all connections, and what a new connection takes from them. No proofs here.

    The TLS library is an input: every call that can fail has its result in [env]. What the
    library does with settings and certificates (copied from the context to the connection
    by SSL_new; one pair of certificate and key per type of key) follows its documentation. *)
From Verif Require Import Base.
Open Scope Z_scope.

(** a certificate: the type of its key (RSA, EC, ...), the key, and what is certified; a
    private key: its type and the public key that belongs to it *)
Record cert := Cert { c_ty : Z; c_pub : Z; c_name : Z }.
Record pkey := Pkey { k_ty : Z; k_pub : Z }.
Definition matches (c : cert) (k : pkey) : bool := (c_ty c =? k_ty k) && (c_pub c =? k_pub k).

(** one place for every type of key; [cur]: the place last written to *)
Record store := Store { slot : Z -> option cert * option pkey; cur : option Z }.
Definition store0 : store := Store (fun _ => (None, None)) None.
Definition put (s : store) (t : Z) (x : option cert * option pkey) : store :=
  Store (fun u => if u =? t then x else slot s u) (Some t).

(** the settings of a context or connection. [s_min]: TLS 1.2 at least; [s_max]: at most
    1.3; [s_ciph], [s_suite]: only the ciphers listed; [s_verify]: the peer's certificate is
    checked. All off in a new context. *)
Record settings := Settings { s_min : bool; s_max : bool; s_ciph : bool; s_suite : bool; s_verify : bool }.
Definition settings0 : settings := Settings false false false false false.
Definition set_min (s : settings) := Settings true (s_max s) (s_ciph s) (s_suite s) (s_verify s).
Definition set_max (s : settings) := Settings (s_min s) true (s_ciph s) (s_suite s) (s_verify s).
Definition set_ciph (s : settings) := Settings (s_min s) (s_max s) true (s_suite s) (s_verify s).
Definition set_suite (s : settings) := Settings (s_min s) (s_max s) (s_ciph s) true (s_verify s).
Definition no_verify (s : settings) := Settings (s_min s) (s_max s) (s_ciph s) (s_suite s) false.

(** an SSL_CTX or an SSL *)
Record obj := Obj { sets : settings; certs : store }.
Definition obj0 : obj := Obj settings0 store0.

Inductive role := Client | Server.
Definition role_eqb (a b : role) : bool :=
  match a, b with Client, Client | Server, Server => true | _, _ => false end.

(** the calls whose results are noted in the trace *)
Inductive lcall := LMin (r : role) | LMax (r : role) | LCiph | LSuite.

(** what the outside answers during one call of [ssl_create_connection]: the allocator,
    SSL_CTX_new, the four settings, the two files as they are when the context is loaded,
    SSL_new, the two files as they are when the connection is loaded ([None]: missing or
    not readable as certificate or key), SSL_set_fd, SSL_set_ex_data *)
Record env := Env {
  e_alloc : bool; e_ctxnew : bool; e_min : bool; e_max : bool; e_ciph : bool; e_suite : bool;
  e_crt1 : option cert; e_key1 : option pkey;
  e_new : bool; e_crt2 : option cert; e_key2 : option pkey; e_fd : bool; e_ex : bool }.

(** the process: [up]: [g_ssl_ctx] is there (ssl.c:399-407); the two contexts; how many
    contexts, connections (SSL) and blocks of the allocator are live; the trace *)
Record st := St { up : bool; ctx_c : option obj; ctx_s : option obj;
  n_ctx : Z; n_ssl : Z; n_blk : Z; trace : list (lcall * bool) }.
Definition st0 : st := St true None None 0 0 0 [].
Definition set_c s o := St (up s) o (ctx_s s) (n_ctx s) (n_ssl s) (n_blk s) (trace s).
Definition set_s s o := St (up s) (ctx_c s) o (n_ctx s) (n_ssl s) (n_blk s) (trace s).
Definition add_ctx s d := St (up s) (ctx_c s) (ctx_s s) (n_ctx s + d) (n_ssl s) (n_blk s) (trace s).
Definition add_ssl s d := St (up s) (ctx_c s) (ctx_s s) (n_ctx s) (n_ssl s + d) (n_blk s) (trace s).
Definition add_blk s d := St (up s) (ctx_c s) (ctx_s s) (n_ctx s) (n_ssl s) (n_blk s + d) (trace s).
Definition note s l b := St (up s) (ctx_c s) (ctx_s s) (n_ctx s) (n_ssl s) (n_blk s) (trace s ++ [(l, b)]).

(** SSL_use_certificate_file and the like: a key of the same type that does not belong to
    the certificate is thrown away *)
Definition use_cert (s : store) (f : option cert) : option store :=
  match f with
  | None => None
  | Some c =>
      let k := match snd (slot s (c_ty c)) with
               | Some k => if matches c k then Some k else None
               | None => None end in
      Some (put s (c_ty c) (Some c, k))
  end.
(** SSL_use_PrivateKey_file: refused if there is a certificate of that type to which it
    does not belong *)
Definition use_key (s : store) (f : option pkey) : option store :=
  match f with
  | None => None
  | Some k =>
      match fst (slot s (k_ty k)) with
      | Some c => if matches c k then Some (put s (k_ty k) (Some c, Some k)) else None
      | None => Some (put s (k_ty k) (None, Some k))
      end
  end.
(** SSL_check_private_key: the place last written to holds a pair *)
Definition check_key (s : store) : bool :=
  match cur s with
  | None => false
  | Some t => match slot s t with (Some c, Some k) => matches c k | _ => false end
  end.
(** ssl.c:302-304 and ssl.c:355-357 *)
Definition load_pair (s : store) (fc : option cert) (fk : option pkey) : option store :=
  match use_cert s fc with
  | None => None
  | Some s1 => match use_key s1 fk with
               | None => None
               | Some s2 => if check_key s2 then Some s2 else None
               end
  end.

(** the settings of ssl.c:321-322 (client) and 332-345 (server) in turn, on the context that
    is already in its place in [g_ssl_ctx]; the first that fails ends the call, and the
    context stays where it is *)
Definition try_set (r : role) (l : lcall) (ok : bool) (f : settings -> settings) (s : st) : st * bool :=
  let s := note s l ok in
  if ok then
    match r with
    | Client => (match ctx_c s with Some o => set_c s (Some (Obj (f (sets o)) (certs o))) | None => s end, true)
    | Server => (match ctx_s s with Some o => set_s s (Some (Obj (f (sets o)) (certs o))) | None => s end, true)
    end
  else (s, false).
Fixpoint try_sets (r : role) (l : list (lcall * bool * (settings -> settings))) (s : st) : st * bool :=
  match l with
  | [] => (s, true)
  | (c, ok, f) :: t => let '(s', b) := try_set r c ok f s in if b then try_sets r t s' else (s', false)
  end.
Definition client_sets (e : env) :=
  [(LMin Client, e_min e, set_min); (LMax Client, e_max e, set_max)].
Definition server_sets (e : env) :=
  [(LMin Server, e_min e, set_min); (LMax Server, e_max e, set_max);
   (LCiph, e_ciph e, set_ciph); (LSuite, e_suite e, set_suite)].

(** ssl.c:317-370 [ssl_load_ctx_certificate]; the context, or None for -1. The session cache
    modes (323, 352) are left out. *)
Definition load_ctx (r : role) (e : env) (s : st) : st * option obj :=
  match r with
  | Client =>
      match ctx_c s with
      | Some o => (s, Some o)
      | None =>
          if e_ctxnew e then
            let s := add_ctx (set_c s (Some obj0)) 1 in
            let '(s, ok) := try_sets Client (client_sets e) s in
            if ok then (s, ctx_c s) else (s, None)
          else (s, None)
      end
  | Server =>
      match ctx_s s with
      | Some o => (s, Some o)
      | None =>
          if e_ctxnew e then
            let s := add_ctx (set_s s (Some obj0)) 1 in
            let '(s, ok) := try_sets Server (server_sets e) s in
            if ok then
              match ctx_s s with
              | None => (s, None)
              | Some o =>
                  match load_pair (certs o) (e_crt1 e) (e_key1 e) with
                  | Some cs => let o' := Obj (no_verify (sets o)) cs in (set_s s (Some o'), Some o')
                  | None => (add_ctx (set_s s None) (-1), None)       (* ssl.c:361-365 *)
                  end
              end
            else (s, None)
          else (s, None)
      end
  end.

(** ssl.c:295-315 [ssl_load_con_certificate]: SSL_new copies the context *)
Definition load_con (o : obj) (r : role) (e : env) (s : st) : st * option obj :=
  if e_new e then
    let s := add_ssl s 1 in
    match r with
    | Client => (s, Some o)
    | Server =>
        match load_pair (certs o) (e_crt2 e) (e_key2 e) with
        | Some cs => (s, Some (Obj (sets o) cs))
        | None => (add_ssl s (-1), None)                              (* ssl.c:308-311 *)
        end
    end
  else (s, None).

(** ssl.c:372-397 [ssl_create_connection] *)
Definition create (r : role) (e : env) (s : st) : res (st * option obj) :=
  if e_alloc e then
    let s := add_blk s 1 in
    if up s then
      match load_ctx r e s with
      | (s, None) => Ok (add_blk s (-1), None)
      | (s, Some o) =>
          match load_con o r e s with
          | (s, None) => Ok (add_blk s (-1), None)
          | (s, Some c) =>
              if e_fd e && e_ex e then Ok (s, Some c)
              else Ok (add_blk (add_ssl s (-1)) (-1), None)            (* ssl.c:390-395 *)
          end
      end
    else Fault FNull                                                   (* ssl.c:319, 327 *)
  else Ok (s, None).

(** a history: one creation after the other, and connections that are released (net.c:200-204:
    one SSL, one block). The connections handed out, oldest first. *)
Inductive ev := New (r : role) (e : env) | Free.
Definition step (s : st) (x : ev) : res (st * list (role * obj)) :=
  match x with
  | New r e => let* p := create r e s in
               Ok (fst p, match snd p with Some o => [(r, o)] | None => [] end)
  | Free => Ok (add_blk (add_ssl s (-1)) (-1), [])
  end.
Fixpoint run (s : st) (l : list ev) : res (st * list (role * obj)) :=
  match l with
  | [] => Ok (s, [])
  | x :: t => let* p := step s x in let* q := run (fst p) t in Ok (fst q, snd p ++ snd q)
  end.

(** ssl.c:409-425 [ssl_end] *)
Definition ssl_end (s : st) : st :=
  let s := match ctx_c s with Some _ => add_ctx (set_c s None) (-1) | None => s end in
  let s := match ctx_s s with Some _ => add_ctx (set_s s None) (-1) | None => s end in
  St false (ctx_c s) (ctx_s s) (n_ctx s) (n_ssl s) (n_blk s) (trace s).

(** what the handshake (SSL_do_handshake) does with the certificate the peer presents;
    [trusted]: its chain ends in a certificate this machine trusts. ssl.c never sets a
    verify mode for the client (ssl.c:319-324), and sets SSL_VERIFY_NONE for the server
    (ssl.c:354). tls_tunnel_c.c:107-129, 68-86: after the handshake the client sends its key. *)
Definition accepts_peer (o : obj) (trusted : bool) : bool := if s_verify (sets o) then trusted else true.
