(** * Model of the start of a worker (src/common/modules.c:50-62, process.c:49-65). No proofs
    here.

    What is kept of a module is whether its global pointer is set; what the worker does with
    it afterwards is reduced to the pointers it follows. *)
From Verif Require Import Base Ac_Model Auth_Model.
Open Scope Z_scope.

(** results of the calls made by the module initialisations; [key_file]: see [auth_init] *)
Record env := Env {
  ok_mem : bool;            (* mem.c:86, 107 malloc *)
  ok_ssl : bool;            (* ssl.c:399-407 *)
  ok_heap : bool;           (* bheap.c:14 *)
  ok_ev : bool;             (* event.c:257 and the connections of the listeners, 283 *)
  ok_ses : bool;            (* tls_tunnel_s.c:385 *)
  key_file : option (list Z);
  ok_web : bool;            (* webser.c:613-622 *)
  ok_dns : bool;            (* dns.c:372 *)
  ok_hash : bool }.         (* dns.c:374 *)

(** the global pointers: pool, TLS context, timer heap, event table, tunnel context and its
    matcher, web context, DNS context and its table *)
Record globals := Globals {
  g_mem : bool; g_ssl : bool; g_heap : bool; g_ev : bool; g_ses : bool; g_ac : option ac;
  g_web : bool; g_dns : bool; g_hash : bool }.
Definition none : globals := Globals false false false false false None false false false.

(** modules.c:50-62 [modules_process_init]: the modules in order up to the first failure.
    timer.c:59 ignores the result of [heap_create]; tls_tunnel_s.c:386: the keys are read in
    server mode only. [net_init] and [tls_tunnel_c_init] do nothing. *)
Definition modules_init (server : bool) (e : env) : res (Z * globals) :=
  if negb (ok_mem e) then Ok (-1, none) else
  let g := Globals true false false false false None false false false in
  if negb (ok_ssl e) then Ok (-1, g) else
  let g := Globals true true (ok_heap e) false false None false false false in
  if negb (ok_ev e) then Ok (-1, g) else
  let g := Globals true true (ok_heap e) true false None false false false in
  if negb (ok_ses e) then Ok (-1, g) else
  let* a := (if server then let* p := auth_init (key_file e) in Ok (fst p, Some (snd p)) else Ok (0, None)) in
  let g := Globals true true (ok_heap e) true true (snd a) false false false in
  if negb (fst a =? 0) then Ok (-1, g) else
  if negb (ok_web e) then Ok (-1, g) else
  let g := Globals true true (ok_heap e) true true (snd a) true false false in
  if negb (ok_dns e) then Ok (-1, g) else
  let g := Globals true true (ok_heap e) true true (snd a) true true (ok_hash e) in
  if negb (ok_hash e) then Ok (-1, g) else Ok (0, g).

(** what a worker does: one round of the loop (process.c:61-62), checking a key
    (tls_tunnel_s.c:254), looking for the handler of a web request (webser.c:20), looking up a
    name (dns.c:49) *)
Inductive work := Round | Key (k : list Z) | Web | Name.

(** following a global pointer *)
Definition deref (b : bool) : res unit := if b then Ok tt else Fault FNull.
Definition do_work (g : globals) (w : work) : res globals :=
  match w with
  | Round => let* _ := deref (g_heap g) in let* _ := deref (g_ev g) in Ok g
  | Key k =>
      let* _ := deref (g_ses g) in
      let* a := of_opt FNull (g_ac g) in
      let* p := ezac_find a k in
      Ok (Globals (g_mem g) (g_ssl g) (g_heap g) (g_ev g) (g_ses g) (Some (snd p)) (g_web g) (g_dns g) (g_hash g))
  | Web => let* _ := deref (g_web g) in Ok g
  | Name => let* _ := deref (g_dns g) in let* _ := deref (g_hash g) in Ok g
  end.
Fixpoint works (g : globals) (ws : list work) : res globals :=
  match ws with [] => Ok g | w :: r => let* g' := do_work g w in works g' r end.

(** process.c:49-65 [proc_worker_run]: the result of the initialisation is not looked at *)
Definition worker (server : bool) (e : env) (ws : list work) : res globals :=
  let* p := modules_init server e in works (snd p) ws.
