(** * Model of the memory pool (src/common/mem.c:17-178). No proofs here.

    Byte addresses are integers. [mem_pool_init] obtains the block table and one region per
    class from malloc; where they lie is the [layout]. The links of the objects and of the
    block table live in the pointer memory of [Queue_Model]; magic and block index of the
    object headers in maps keyed by the address of the header; all other bytes in [pby].
    Keeping headers out of [pby] is sound as long as nobody writes outside a payload, which
    is what the theorems establish for the pool itself. The mutex is a flag: taking it twice
    never returns (PTHREAD_MUTEX_INITIALIZER is a normal mutex). *)
From Verif Require Import Base Queue_Model.

Record layout := mkLay { lblk : Z; lbase : Z -> Z }.

(** mem.c:92-104 *)
Definition csize (k : Z) : Z :=
  if k =? 0 then 512 else if k =? 1 then 1024 else if k =? 2 then 2048 else if k =? 3 then 4096 else if k =? 4 then 8192 else 16384.
Definition cnum (k : Z) : Z := if k =? 0 then 2048 else 1024.
Definition classes : list Z := [0; 1; 2; 3; 4; 5].

(** sizeof(mem_obj_t) = 24, sizeof(mem_block_t) = 48: usable at 0, inuse at 16 (mem.c:25-37) *)
Definition stride (k : Z) : Z := 24 + csize k.
Definition usableq (L : layout) (k : Z) : Z := lblk L + 48 * k.
Definition inuseq (L : layout) (k : Z) : Z := lblk L + 48 * k + 16.
Definition obj (L : layout) (k j : Z) : Z := lbase L k + j * stride k.
Definition objs (L : layout) (k : Z) : list Z := map (fun j => obj L k (Z.of_nat j)) (seq 0 (Z.to_nat (cnum k))).

Definition MAGIC : Z := 0xa100beef.

Record pool := mkPool { pq : qmem; pmagic : Z -> Z; pblk : Z -> Z; pby : Z -> Z; plock : bool }.

(** is [a, a+n) inside memory the pool obtained from malloc *)
Definition in_region (L : layout) (a n : Z) : bool :=
  ((lblk L <=? a) && (a + n <=? lblk L + 288)) ||
  existsb (fun k => (lbase L k <=? a) && (a + n <=? lbase L k + cnum k * stride k)) classes.
(** memset; outside the regions it is a buffer overflow *)
Definition pmemset (L : layout) (f : Z -> Z) (a n : Z) : res (Z -> Z) :=
  if in_region L a n then Ok (fun i => if (a <=? i) && (i <? a + n) then 0 else f i) else Fault FOob.

(** mem.c:112-118: one class *)
Fixpoint init_objs (L : layout) (k : Z) (os : list Z) (s : pool) : res pool :=
  match os with
  | [] => Ok s
  | o :: r =>
      let* m := queue_insert_tail (pq s) (usableq L k) o in
      init_objs L k r (mkPool m (upd (pmagic s) o MAGIC) (upd (pblk s) o k) (pby s) (plock s))
  end.
(** mem.c:82-122; malloc succeeds (its failure makes initialisation report an error and
    the program stop) *)
Fixpoint init_classes (L : layout) (ks : list Z) (s : pool) : res pool :=
  match ks with
  | [] => Ok s
  | k :: r =>
      let* m := queue_init (pq s) (usableq L k) in
      let* m := queue_init m (inuseq L k) in
      let* s := init_objs L k (objs L k) (mkPool m (pmagic s) (pblk s) (pby s) (plock s)) in
      init_classes L r s
  end.
Definition pool_init (L : layout) (m0 : qmem) (by0 : Z -> Z) : res pool :=
  init_classes L classes (mkPool m0 (fun _ => 0) (fun _ => 0) by0 false).

(** mem.c:145-170 *)
Definition class_of (n : Z) : Z :=
  if n <=? 512 then 0
  else if (512 <? n) && (n <=? 1024) then 1
  else if (1024 <? n) && (n <=? 2048) then 2
  else if (2048 <? n) && (n <=? 4096) then 3
  else if (4096 <? n) && (n <=? 8192) then 4
  else if (8192 <? n) && (n <=? 16384) then 5
  else 6.

(** mem.c:134-178 *)
Definition pool_alloc (L : layout) (s : pool) (size : Z) : res (option Z * pool) :=
  if size <=? 0 then Fault FAbort                       (* assert(size > 0) *)
  else if plock s then Fault FDeadlock
  else
    let* e := queue_empty (pq s) (usableq L 0) in
    if e then Ok (None, s)
    else
      let k := class_of size in
      if k =? 6 then Ok (None, s)
      else
        let* q := queue_head (pq s) (usableq L k) in
        let* m := queue_remove (pq s) q in
        let* m := queue_insert_tail m (inuseq L k) q in
        let* b := pmemset L (pby s) (q + 24) (csize k) in
        Ok (Some (q + 24), mkPool m (pmagic s) (pblk s) b (plock s)).

(** the int at offset 16 of whatever lies at [a]: a header of an object, or bytes *)
Definition is_obj (L : layout) (a : Z) : bool :=
  existsb (fun k => (lbase L k <=? a) && (a <? lbase L k + cnum k * stride k) && ((a - lbase L k) mod stride k =? 0)) classes.
Definition le32 (f : Z -> Z) (a : Z) : Z := f a + 256 * f (a + 1) + 65536 * f (a + 2) + 16777216 * f (a + 3).
Definition magic_at (L : layout) (s : pool) (a : Z) : Z := if is_obj L a then pmagic s a else le32 (pby s) (a + 16).
Definition blk_at (L : layout) (s : pool) (a : Z) : Z := if is_obj L a then pblk s a else le32 (pby s) (a + 20).

(** mem.c:124-132; the rejecting path returns with the lock held *)
Definition pool_free (L : layout) (s : pool) (p : Z) : res (Z * pool) :=
  if plock s then Fault FDeadlock
  else
    let o := p - 24 in
    if negb (magic_at L s o =? MAGIC) then Ok (-1, mkPool (pq s) (pmagic s) (pblk s) (pby s) true)
    else
      let* m := queue_remove (pq s) o in
      let* m := queue_insert_tail m (usableq L (blk_at L s o)) o in
      Ok (0, mkPool m (pmagic s) (pblk s) (pby s) false).

(** a store through a pointer the caller holds *)
Definition pool_write (s : pool) (a v : Z) : pool :=
  mkPool (pq s) (pmagic s) (pblk s) (upd (pby s) a v) (plock s).
