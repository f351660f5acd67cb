(** * Model of the TLS layer (src/common/ssl.c): callbacks and interest of a connection
    while the library waits, and the library's error queue. No proofs here.

    The library is an input: each call's result (done, wait for readable, wait for
    writable, failed) and the errors it leaves in the queue are arguments. *)
From Verif Require Import Base.

(** a callback: NULL, one of the application's, or one of ssl.c *)
Inductive cbk := Nul | App (n : Z) | KHandshake | KRead | KWrite.
(** EV_R, EV_W, both, none (event.h) *)
Inductive intr := INo | IR | IW | IRW.

(** event.h:20-34 (callbacks, interest), ssl.h:15-30 (cc_ev_typ, cc_ev_cbr, cc_ev_cbw) *)
Record con := Con { rcb : cbk; wcb : cbk; opt : intr; typ : intr; cbr : cbk; cbw : cbk }.
Definition set_rcb (k : cbk) (c : con) := Con k (wcb c) (opt c) (typ c) (cbr c) (cbw c).
Definition set_wcb (k : cbk) (c : con) := Con (rcb c) k (opt c) (typ c) (cbr c) (cbw c).
Definition set_opt (o : intr) (c : con) := Con (rcb c) (wcb c) o (typ c) (cbr c) (cbw c).
Definition set_typ (o : intr) (c : con) := Con (rcb c) (wcb c) (opt c) o (cbr c) (cbw c).
Definition set_cbr (k : cbk) (c : con) := Con (rcb c) (wcb c) (opt c) (typ c) k (cbw c).
Definition set_cbw (k : cbk) (c : con) := Con (rcb c) (wcb c) (opt c) (typ c) (cbr c) k.

Inductive result := Done | WantR | WantW | Failed.

(** ssl.c:157-166 (and the same in read, 204-211, and write, 249-256) *)
Definition save (c : con) : con :=
  let c := match typ c with INo => set_typ (opt c) c | _ => c end in
  let c := match cbr c with Nul => match rcb c with Nul => c | k => set_cbr k c end | _ => c end in
  match cbw c with Nul => match wcb c with Nul => c | k => set_cbw k c end | _ => c end.
(** ssl.c:144-180 *)
Definition handshake (r : result) (c : con) : con :=
  match r with
  | WantR => set_opt IR (set_rcb KHandshake (save c))
  | WantW => set_opt IW (set_wcb KHandshake (save c))
  | _ => c
  end.
(** ssl.c:108-122: the rest of [ssl_handshake_cb] when the handshake has ended *)
Definition handshake_end (c : con) : con :=
  let c := match typ c with INo => c | t => set_opt t c end in
  let c := match cbw c with Nul => c | k => set_cbw Nul (set_wcb k c) end in
  match cbr c with Nul => c | k => set_cbr Nul (set_rcb k c) end.
(** ssl.c:124-126: the callback that goes on *)
Definition handshake_next (c : con) : cbk := match wcb c with Nul => rcb c | k => k end.

(** ssl.c:184-226 *)
Definition restore_typ (c : con) : con := match typ c with INo => c | t => set_typ INo (set_opt t c) end.
Definition read (r : result) (c : con) : con :=
  match r with
  | Done =>
      let c := restore_typ c in
      match cbw c with Nul => c | k => set_cbw Nul (set_wcb k c) end
  | WantR => set_opt IR (save c)
  | WantW => set_opt IW (set_wcb KRead (save c))
  | Failed => c
  end.
(** ssl.c:230-268 *)
Definition write (r : result) (c : con) : con :=
  match r with
  | Done =>
      let c := restore_typ c in
      match cbr c with Nul => c | k => set_cbr Nul (set_rcb k c) end
  | WantR => set_opt IR (set_rcb KWrite (save c))
  | WantW => set_opt IW (save c)
  | Failed => c
  end.

(** ** The error queue *)
(** the library's queue of error codes, oldest first; 0 is never a code *)
Definition queue := list Z.
Definition peek (q : queue) : Z := match q with [] => 0 | e :: _ => e end.
(** ssl.c:11-18 [ssl_clear_error]: [do rc = ERR_peek_error(); while (rc); ERR_clear_error();] *)
Fixpoint clear_error (fuel : nat) (q : queue) : res queue :=
  match fuel with
  | O => NoFuel
  | S f => if peek q =? 0 then Ok [] else clear_error f q
  end.
(** ssl.c:20-34 [ssl_dump_error]; the text is left out *)
Fixpoint dump_error (fuel : nat) (q : queue) : res queue :=
  match fuel with
  | O => NoFuel
  | S f => if peek q =? 0 then Ok q else dump_error f (tl q)
  end.

(** calls into the TLS layer. [Io r es]: handshake, read or write with result [r], leaving
    errors [es]. [Shutdown i r1 r2 es1 es2]: ssl.c:58-99; [i]: the handshake has not
    ended; [r1], [r2]: the results of the (at most two) calls of SSL_shutdown; [es1], [es2]
    what they leave.
    [Create r es]: ssl.c:295-315, 372-397: SSL_new and loading certificate and key. *)
Inductive call :=
| Io (r : result) (es : queue)
| Shutdown (i : bool) (r1 r2 : result) (es1 es2 : queue)
| Create (r : result) (es : queue).

(** what the call returns: 0, -11 or -1 *)
Definition code (r : result) : Z := match r with Done => 0 | Failed => -1 | _ => -11 end.
Definition do_call (fuel : nat) (q : queue) (c : call) : res (queue * Z) :=
  match c with
  | Io r es =>
      let* q := clear_error fuel q in
      let q := q ++ es in
      match r with
      | Failed => let* q := dump_error fuel q in Ok (q, -1)
      | _ => Ok (q, code r)
      end
  | Shutdown i r1 r2 es1 es2 =>
      let* q := clear_error fuel q in
      if i then Ok (q, 0)
      else
        let q := q ++ es1 in
        match r1 with
        | Failed =>
            let q := q ++ es2 in
            match r2 with
            | Failed => let* q := dump_error fuel q in Ok (q, -1)
            | _ => Ok (q, code r2)
            end
        | _ => Ok (q, code r1)
        end
  | Create r es => Ok (q ++ es, code r)
  end.
Fixpoint calls (fuel : nat) (q : queue) (l : list call) : res (queue * list Z) :=
  match l with
  | [] => Ok (q, [])
  | c :: t => let* p := do_call fuel q c in let* r := calls fuel (fst p) t in Ok (fst r, snd p :: snd r)
  end.
