(** * Model of the event table (src/common/event.c, event.h) and of the interest kept
    with the kernel. No proofs here. *)
From Verif Require Import Base.

(** event.c:7, net.h:11 *)
Definition BATCH : Z := 768.
Definition TABLE : Z := BATCH * 2.

(** event.h:20-34, one per connection. [live]: allocated; [gen] is a ghost that counts
    the allocations of this address, so that a connection can be told from an earlier
    one whose memory it got. [rcb]/[wcb]: the callback is set. *)
Record ev := Ev {
  live : bool; gen : Z;
  idxr : Z; idxw : Z;
  fread : bool; fwrite : bool;
  rcb : bool; wcb : bool }.

(** [tab]: the array [evs], an entry is an address and the ghost generation of the
    connection it was entered for. [hit] is a ghost: some [ev_free] has cleared an entry
    of another connection. *)
Record st := St { tab : list (option (Z * Z)); evn : Z; evm : Z -> ev; hit : bool }.

Definition dead : ev := Ev false 0 0 0 false false false false.
(** event.c:256-259: the context is zeroed *)
Definition st0 : st := St (zrepeat None TABLE) 0 (fun _ => dead) false.

Definition upd {A} (m : Z -> A) (i : Z) (v : A) : Z -> A := fun j => if j =? i then v else m j.
Definition set_ev (s : st) (e : Z) (v : ev) : st := St (tab s) (evn s) (upd (evm s) e v) (hit s).

Definition same (x : option (Z * Z)) (e g : Z) : bool :=
  match x with None => true | Some (a, b) => (a =? e) && (b =? g) end.

(** event.c:244-247: one of the two index tests of [ev_free] *)
Definition clear (s : st) (e g i : Z) : res st :=
  if i =? 0 then Ok s
  else match zget (tab s) i, zput (tab s) i [None] with
       | Some x, Some t =>
           Ok (St t (evn s) (evm s) (hit s || ((i <? evn s) && negb (same x e g))))
       | _, _ => Fault FOob
       end.

(** event.c:242-253 *)
Definition ev_free (s : st) (e : Z) : res st :=
  let v := evm s e in
  let* s1 := clear s e (gen v) (idxr v) in
  let* s2 := clear s1 e (gen v) (idxw v) in
  Ok (set_ev s2 e (Ev false (gen v) (idxr v) (idxw v) (fread v) (fwrite v) (rcb v) (wcb v))).

(** event.c:234-240: memory from the pool is zeroed (mem.c:175) *)
Definition ev_alloc (s : st) (e : Z) : st :=
  set_ev s e (Ev true (gen (evm s e) + 1) 0 0 false false false false).

(** What a callback (or a timer) may do: release a connection, get a new one at some
    address the pool hands out, set callbacks. Releasing or changing a connection that
    is not allocated, or being handed an address in use, is a mistake outside the event
    table ([FAbort]). *)
Inductive act := AFree (e : Z) | ANew (e : Z) | ASet (e : Z) (r w : bool).
Definition do_act (s : st) (a : act) : res st :=
  match a with
  | AFree e => if live (evm s e) then ev_free s e else Fault FAbort
  | ANew e => if live (evm s e) then Fault FAbort else Ok (ev_alloc s e)
  | ASet e r w =>
      let v := evm s e in
      if live v then Ok (set_ev s e (Ev true (gen v) (idxr v) (idxw v) (fread v) (fwrite v) r w))
      else Fault FAbort
  end.
Fixpoint do_acts (s : st) (l : list act) : res st :=
  match l with [] => Ok s | a :: t => let* s1 := do_act s a in do_acts s1 t end.

(** one record of [epoll_wait]: the pointer, readable, writable *)
Definition report : Type := Z * (bool * bool).

Definition push (s : st) (e : Z) : res st :=
  match zput (tab s) (evn s) [Some (e, gen (evm s e))] with
  | Some t => Ok (St t (evn s + 1) (evm s) (hit s))
  | None => Fault FOob
  end.

(** event.c:73-88: the body of the loop over the kernel's batch. A pointer to released
    memory is a fault. *)
Definition enter (s : st) (x : report) : res st :=
  let '(e, (r, w)) := x in
  if live (evm s e) then
    let v := evm s e in
    let s1 := set_ev s e (Ev (live v) (gen v) 0 0 (fread v) (fwrite v) (rcb v) (wcb v)) in
    let* s2 := (if r then
        let v := evm s1 e in
        push (set_ev s1 e (Ev (live v) (gen v) (evn s1) (idxw v) true (fwrite v) (rcb v) (wcb v))) e
      else Ok s1) in
    if w then
      let v := evm s2 e in
      push (set_ev s2 e (Ev (live v) (gen v) (idxr v) (evn s2) (fread v) true (rcb v) (wcb v))) e
    else Ok s2
  else Fault FUaf.
Fixpoint enter_all (s : st) (b : list report) : res st :=
  match b with [] => Ok s | x :: t => let* s1 := enter s x in enter_all s1 t end.

(** What the dispatch loop does, for the log: a callback of the connection at address
    [e] runs; [g] is the generation the entry was made for and [now] the one found. *)
Inductive what := Called (e g now : Z) (write : bool) | NoCb (e g now : Z) (write : bool) | Idle (e : Z).

(** event.c:213-230: the dispatch loop from slot [i], [n] slots to go; [progs] are the
    actions of the callbacks, in the order in which callbacks run *)
Fixpoint dispatch (n : nat) (s : st) (i : Z) (progs : list (list act)) : res (st * list what) :=
  match n with
  | O => Ok (s, [])
  | S n' =>
      match zget (tab s) i with
      | None => Fault FOob
      | Some None => dispatch n' s (i + 1) progs
      | Some (Some (e, g)) =>
          let v := evm s e in
          if live v then
            if fread v then
              let s1 := set_ev s e (Ev (live v) (gen v) (idxr v) (idxw v) false (fwrite v) (rcb v) (wcb v)) in
              if rcb v then
                let* s2 := do_acts s1 (hd [] progs) in
                let* r := dispatch n' s2 (i + 1) (tl progs) in
                Ok (fst r, Called e g (gen v) false :: snd r)
              else
                let* r := dispatch n' s1 (i + 1) progs in
                Ok (fst r, NoCb e g (gen v) false :: snd r)
            else if fwrite v then
              let s1 := set_ev s e (Ev (live v) (gen v) (idxr v) (idxw v) (fread v) false (rcb v) (wcb v)) in
              if wcb v then
                let* s2 := do_acts s1 (hd [] progs) in
                let* r := dispatch n' s2 (i + 1) (tl progs) in
                Ok (fst r, Called e g (gen v) true :: snd r)
              else
                let* r := dispatch n' s1 (i + 1) progs in
                Ok (fst r, NoCb e g (gen v) true :: snd r)
            else
              let* r := dispatch n' s (i + 1) progs in
              Ok (fst r, Idle e :: snd r)
          else Fault FUaf
      end
  end.

(** event.c:204-232 [ev_loop] with the batch [b]. The counter is put back to 0 at the
    end instead of at the beginning (209): nothing reads it in between. *)
Definition ev_loop (s : st) (b : list report) (progs : list (list act)) : res (st * list what) :=
  let* s1 := enter_all s b in
  let* r := dispatch (Z.to_nat (evn s1)) s1 0 progs in
  Ok (St (tab (fst r)) 0 (evm (fst r)) (hit (fst r)), snd r).

(** ** Interest kept with the kernel, event.c:40-55 *)
Definition EV_R : Z := 1.
Definition EV_W : Z := 4.

(** a connection: its descriptor (0: none) and the cached interest ([opt]) *)
Record con := Con { fd : Z; opt : Z; asked : Z }.
(** [reg]: the kernel's table, descriptor to interest; [conm]: the connections.
    [asked] is a ghost: the interest last asked for. *)
Record kst := Kst { reg : Z -> option Z; conm : Z -> con }.
Definition kst0 : kst := Kst (fun _ => None) (fun _ => Con 0 0 0).

Inductive kop :=
| KOpen (c d : Z)          (* accept, socket: connection [c] gets descriptor [d] *)
| KOpt (c want : Z) (ok : bool)   (* ev_opt; [ok]: the kernel has no reason of its own to refuse *)
| KClose (c : Z).          (* net_free_direct: close the descriptor, forget the connection *)

(** the kernel: ADD needs an unregistered descriptor, MOD and DEL a registered one *)
Definition ev_opt (s : kst) (c want : Z) (ok : bool) : kst * Z :=
  let v := conm s c in
  let ask := Con (fd v) (opt v) want in
  if opt v =? want then (Kst (reg s) (upd (conm s) c ask), 0)
  else
    let registered := match reg s (fd v) with Some _ => true | None => false end in
    let add := (opt v =? 0) && negb (want =? 0) in
    if ok && Bool.eqb registered (negb add) then
      (Kst (upd (reg s) (fd v) (if want =? 0 then None else Some want))
           (upd (conm s) c (Con (fd v) want want)), 0)
    else (Kst (reg s) (upd (conm s) c ask), -1).

Definition kstep (s : kst) (o : kop) : kst :=
  match o with
  | KOpen c d => Kst (reg s) (upd (conm s) c (Con d (opt (conm s c)) (asked (conm s c))))
  | KOpt c want ok => fst (ev_opt s c want ok)
  | KClose c => Kst (upd (reg s) (fd (conm s c)) None) (upd (conm s) c (Con 0 0 0))
  end.
Definition krun (s : kst) (l : list kop) : kst := fold_left kstep l s.
