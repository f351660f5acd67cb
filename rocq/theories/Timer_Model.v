(** * Model of the timers (src/common/timer.c) on top of the heap. No proofs here.

    A timer is identified with its heap node. The expiry run (timer.c:35-56) is a
    machine whose every iteration is one input, so that callbacks are arbitrary
    sequences of arming and cancelling in between. The clock is the cached one of
    sys_time.c:14, which changes only in ev_loop (event.c:211), never during an
    expiry run. *)
From Verif Require Import Base Heap_Model.

(** conversion of long long to int, timer.c:47 *)
Definition cast_int (x : Z) : Z := (x + 2147483648) mod 4294967296 - 2147483648.

Record tst := mkT { t_heap : heap; t_set : Z -> bool; t_now : Z; t_running : bool }.

(** timer.c:58-61, capacity MAX_NET_CON * 2 = 1536 there *)
Definition timers0 (space : Z) : tst := mkT (heap_create space) (fun _ => false) 0 false.

(** timer.c:5-11; the result (0 or -1) is ignored by every caller *)
Definition tm_del (s : tst) (x : Z) : res tst :=
  if t_set s x then
    let* p := heap_del (t_heap s) (hidx (t_heap s) x) in
    Ok (mkT (snd p) (upd (t_set s) x false) (t_now s) (t_running s))
  else Ok s.

(** timer.c:13-24 *)
Definition tm_add (s : tst) (x delay : Z) : res (bool * tst) :=
  let* s := tm_del s x in
  let* p := heap_add (set_key (t_heap s) x (t_now s + delay)) x in
  Ok (fst p, mkT (snd p) (upd (t_set s) x true) (t_now s) (t_running s)).

Inductive tin :=
| TTick (t : Z)          (* ev_loop updates the clock *)
| TArm (x delay : Z)     (* tm_add, from anywhere, callbacks included *)
| TDel (x : Z)           (* tm_del *)
| TExpire                (* timer_expire is called *)
| TIter.                 (* one iteration of its loop *)
Inductive tev :=
| ETick (t : Z)
| EArm (x delay now : Z) (ok : bool)
| EDel (x : Z)
| EExpire
| EFire (x now : Z)      (* the callback of the timer is called *)
| EDone (wait now : Z).  (* timer_expire returns *)

(** timer.c:38-55 *)
Definition timer_iter (s : tst) : res (tev * tst) :=
  let* m := heap_min (t_heap s) in
  match m with
  | None => Ok (EDone 200 (t_now s), mkT (t_heap s) (t_set s) (t_now s) false)
  | Some x =>
      if t_now s <? hkey (t_heap s) x
      then Ok (EDone (cast_int (hkey (t_heap s) x - t_now s)) (t_now s), mkT (t_heap s) (t_set s) (t_now s) false)
      else let* s' := tm_del s x in Ok (EFire x (t_now s), s')
  end.

Definition tstep (s : tst) (i : tin) : res (tev * tst) :=
  match i with
  | TTick t => Ok (ETick t, mkT (t_heap s) (t_set s) t (t_running s))
  | TArm x d => let* p := tm_add s x d in Ok (EArm x d (t_now s) (fst p), snd p)
  | TDel x => let* s' := tm_del s x in Ok (EDel x, s')
  | TExpire => Ok (EExpire, mkT (t_heap s) (t_set s) (t_now s) true)
  | TIter => timer_iter s
  end.
Fixpoint trun (s : tst) (is : list tin) : res (list tev * tst) :=
  match is with
  | [] => Ok ([], s)
  | i :: r => let* p := tstep s i in let* q := trun (snd p) r in Ok (fst p :: fst q, snd q)
  end.

(** inputs the program can produce: the clock does not move and no second run starts
    during an expiry run *)
Fixpoint tvalid (running : bool) (is : list tin) (es : list tev) : Prop :=
  match is, es with
  | TTick _ :: r, _ :: e => running = false /\ tvalid running r e
  | TExpire :: r, _ :: e => running = false /\ tvalid true r e
  | TIter :: r, EFire _ _ :: e => running = true /\ tvalid true r e
  | TIter :: r, _ :: e => running = true /\ tvalid false r e
  | _ :: r, _ :: e => tvalid running r e
  | _, _ => True
  end.
