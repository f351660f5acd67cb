(** * Model of the key matcher (src/common/aho_corasick.c). No proofs here. *)
From Verif Require Import Base.

(** aho_corasick.h:11-15. A node. [arr[128]] of pointers is an association list
    from index to node number (absent = NULL); [pfail] NULL is [None]; a bit
    field [fendup] holding -1 or 0 is a boolean. *)
Record node := mkNode { n_arr : list (Z * nat); n_fail : option nat; n_end : bool }.

(** aho_corasick.h:16-19. Nodes are numbered in allocation order, 0 is the root
    that is embedded in the context. *)
Record ac := mkAc { ac_nodes : list node; ac_cur : nat }.

Definition EZAC_MAX : Z := 128.
Definition AC_STACK : Z := 4096.

(** aho_corasick.c:42-43 and 94-95. [int idx = data[i]] sign-extends a [char];
    negative values become 0. The test [idx > EZAC_MAX] can never hold for a
    [char]. Bytes are 0..255 here, so 128..255 are the negative ones. *)
Definition idx_of (b : Z) : Z :=
  let s := if b <? 128 then b else b - 256 in
  if (s <? 0) || (EZAC_MAX <? s) then 0 else s.

Fixpoint lookup (i : Z) (a : list (Z * nat)) : option nat :=
  match a with
  | [] => None
  | (j, m) :: r => if i =? j then Some m else lookup i r
  end.

Fixpoint upd {A} (l : list A) (n : nat) (f : A -> A) : list A :=
  match l, n with
  | [], _ => []
  | a :: r, O => f a :: r
  | a :: r, S k => a :: upd r k f
  end.

Definition empty_node : node := mkNode [] None false.
Definition add_edge (i : Z) (m : nat) (n : node) : node :=
  mkNode (n_arr n ++ [(i, m)]) (n_fail n) (n_end n).
Definition set_end (n : node) : node := mkNode (n_arr n) (n_fail n) true.
Definition set_fail (x : nat) (n : node) : node := mkNode (n_arr n) (Some x) (n_end n).

(** aho_corasick.c:29-35 [ezac_init]; sys_alloc zero-fills. Allocation failure is
    not modelled. *)
Definition ezac_init : ac := mkAc [mkNode [] (Some 0%nat) false] 0%nat.

(** aho_corasick.c:37-51 [ezac_add]; the loop over [data] from node [n]. *)
Fixpoint add_walk (h : list node) (n : nat) (data : list Z) : res (list node) :=
  match data with
  | [] => Ok (upd h n set_end)
  | b :: r =>
      let* nd := of_opt FOob (nth_error h n) in
      match lookup (idx_of b) (n_arr nd) with
      | Some m => add_walk h m r
      | None =>
          let m := length h in
          add_walk (upd h n (add_edge (idx_of b) m) ++ [empty_node]) m r
      end
  end.

Definition ezac_add (c : ac) (data : list Z) : res ac :=
  let* h := add_walk (ac_nodes c) 0%nat data in
  Ok (mkAc h (ac_cur c)).

(** registering a list of keys, tls_tunnel_s.c:344-349 *)
Fixpoint ezac_adds (c : ac) (keys : list (list Z)) : res ac :=
  match keys with
  | [] => Ok c
  | k :: r => let* c' := ezac_add c k in ezac_adds c' r
  end.

(** aho_corasick.c:69-78: the do-while loop searching the failure target of the
    child [i]; [x] NULL is dereferenced at the next round. *)
Fixpoint fail_search (fuel : nat) (h : list node) (x : nat) (i : Z) : res nat :=
  match fuel with
  | O => NoFuel
  | S f =>
      let* nx := of_opt FOob (nth_error h x) in
      match lookup i (n_arr nx) with
      | Some y => Ok y
      | None =>
          match n_fail nx with
          | None => Fault FNull
          | Some x' => if Nat.eqb x' 0 then Ok 0%nat else fail_search f h x' i
          end
      end
  end.

(** aho_corasick.c:79 (and 61): push, with the bound of [stack[4096]]. *)
Definition push (st : list nat) (n : nat) : res (list nat) :=
  if AC_STACK <=? zlen st then Fault FOob else Ok (n :: st).

(** indices tried by the loops [for (i = 0; i < EZAC_MAX; i++)] *)
Definition indices : list Z := map Z.of_nat (seq 0 128).

(** aho_corasick.c:58-63: children of the root. *)
Fixpoint comp_root (is : list Z) (h : list node) (st : list nat) : res (list node * list nat) :=
  match is with
  | [] => Ok (h, st)
  | i :: r =>
      let* root := of_opt FOob (nth_error h 0) in
      match lookup i (n_arr root) with
      | None => comp_root r h st
      | Some m =>
          let* st' := push st m in
          comp_root r (upd h m (set_fail 0%nat)) st'
      end
  end.

(** aho_corasick.c:67-81: children of the popped node [n]. *)
Fixpoint comp_children (is : list Z) (n : nat) (h : list node) (st : list nat)
  : res (list node * list nat) :=
  match is with
  | [] => Ok (h, st)
  | i :: r =>
      let* nd := of_opt FOob (nth_error h n) in
      match lookup i (n_arr nd) with
      | None => comp_children r n h st
      | Some m =>
          let* x := of_opt FNull (n_fail nd) in
          let* y := fail_search (S (length h)) h x i in
          let* st' := push st m in
          comp_children r n (upd h m (set_fail y)) st'
      end
  end.

(** aho_corasick.c:65-82: the main loop. *)
Fixpoint comp_loop (fuel : nat) (h : list node) (st : list nat) : res (list node) :=
  match st with
  | [] => Ok h
  | n :: st' =>
      match fuel with
      | O => NoFuel
      | S f =>
          let* hs := comp_children indices n h st' in
          comp_loop f (fst hs) (snd hs)
      end
  end.

(** aho_corasick.c:53-84 [ezac_compiler]; every node is pushed at most once, so
    the number of nodes is used as fuel. *)
Definition ezac_compiler (c : ac) : res ac :=
  let* hs := comp_root indices (ac_nodes c) [] in
  let* h := comp_loop (length (ac_nodes c)) (fst hs) (snd hs) in
  Ok (mkAc h (ac_cur c)).

(** aho_corasick.c:91-109 [ezac_find]: result [true] is the return value 0
    (accepted), [false] is -1; the matcher state [cur] is kept between calls. *)
Fixpoint find_walk (h : list node) (cur : nat) (data : list Z) : res (bool * nat) :=
  match data with
  | [] => Ok (false, cur)
  | b :: r =>
      let* nc := of_opt FOob (nth_error h cur) in
      let* cur1 := match lookup (idx_of b) (n_arr nc) with
                   | Some _ => Ok cur
                   | None => of_opt FNull (n_fail nc)
                   end in
      let* nc1 := of_opt FOob (nth_error h cur1) in
      match lookup (idx_of b) (n_arr nc1) with
      | Some m =>
          let* nm := of_opt FOob (nth_error h m) in
          if n_end nm then Ok (true, 0%nat) else find_walk h m r
      | None => find_walk h cur1 r
      end
  end.

Definition ezac_find (c : ac) (data : list Z) : res (bool * ac) :=
  let* r := find_walk (ac_nodes c) (ac_cur c) data in
  Ok (fst r, mkAc (ac_nodes c) (snd r)).

(** tls_tunnel_s.c:366-381 without the file access: register and compile. *)
Definition ac_build (keys : list (list Z)) : res ac :=
  let* c := ezac_adds ezac_init keys in
  ezac_compiler c.

(** A series of attempts, one per connection (tls_tunnel_s.c:254). *)
Fixpoint ac_attempts (c : ac) (ts : list (list Z)) : res (list bool * ac) :=
  match ts with
  | [] => Ok ([], c)
  | t :: r =>
      let* p := ezac_find c t in
      let* q := ac_attempts (snd p) r in
      Ok (fst p :: fst q, snd q)
  end.

(** aho_corasick.c:11-14: the children of the popped node [p] are pushed. *)
Fixpoint free_push (is : list Z) (nd : node) (st : list nat) : res (list nat) :=
  match is with
  | [] => Ok st
  | i :: r =>
      match lookup i (n_arr nd) with
      | None => free_push r nd st
      | Some m => let* st' := push st m in free_push r nd st'
      end
  end.

(** aho_corasick.c:9-17: [freed] lists the nodes released so far, last first. A
    node that is read or released after its release is [Fault FUaf]. The root is
    part of the context and is not released here. *)
Fixpoint free_loop (fuel : nat) (h : list node) (freed st : list nat) : res (list nat) :=
  match st with
  | [] => Ok freed
  | p :: st' =>
      match fuel with
      | O => NoFuel
      | S f =>
          if existsb (Nat.eqb p) freed then Fault FUaf else
          let* nd := of_opt FOob (nth_error h p) in
          let* st2 := free_push indices nd st' in
          free_loop f h (if Nat.eqb p 0 then freed else p :: freed) st2
      end
  end.

(** aho_corasick.c:3-19 [ezac_node_free], called by [ezac_free] on the root; the
    result is the list of released nodes. The fuel is one more than the number of
    nodes: each is popped once. *)
Definition ezac_node_free (c : ac) : res (list nat) :=
  free_loop (S (length (ac_nodes c))) (ac_nodes c) [] [0%nat].
