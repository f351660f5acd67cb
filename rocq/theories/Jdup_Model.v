(** * Model of copying and deleting cJSON items (src/common/cJSON.c:188-208, 241-275,
    2706-2787). No proofs here.

    Memory is a map from addresses to blocks; 0 is NULL. A block is an item or a string.
    Following NULL is [FNull], using a block that is not allocated, or releasing one, is
    [FUaf]. What malloc answers is an input. The type without its two flags, valueint and
    valuedouble are one number (they are only copied). Recursion is not limited by the program
    (as deep as the tree); the stack is not modelled. *)
From Verif Require Import Base.
Open Scope Z_scope.

(** cJSON.h:103-123 *)
Record item := It { i_val : Z; i_ref : bool; i_const : bool; i_vs : Z; i_name : Z; i_nx : Z; i_pv : Z; i_ch : Z }.
Inductive blk := Free | BI (i : item) | BS (s : list Z).
Definition mem := Z -> blk.
Definition set (h : mem) (a : Z) (b : blk) : mem := fun x => if x =? a then b else h x.

(** [ms_os]: the answers of malloc to come (none left: NULL); [ms_no]: NULL was answered *)
Record st := Ms { ms_h : mem; ms_os : list (option Z); ms_no : bool }.
Definition hs (s : st) (h : mem) : st := Ms h (ms_os s) (ms_no s).

(** malloc; an answer that it cannot give (NULL or memory in use) counts as NULL *)
Definition alloc (s : st) (b : blk) : Z * st :=
  match ms_os s with
  | Some p :: os => match p =? 0, ms_h s p with
                    | false, Free => (p, Ms (set (ms_h s) p b) os (ms_no s))
                    | _, _ => (0, Ms (ms_h s) os true)
                    end
  | None :: os => (0, Ms (ms_h s) os true)
  | [] => (0, Ms (ms_h s) [] true)
  end.

Definition rd_item (h : mem) (p : Z) : res item :=
  if p =? 0 then Fault FNull else match h p with BI i => Ok i | _ => Fault FUaf end.
Definition rd_str (h : mem) (p : Z) : res (list Z) :=
  if p =? 0 then Fault FNull else match h p with BS s => Ok s | _ => Fault FUaf end.
Definition free (h : mem) (p : Z) : res mem :=
  match h p with Free => Fault FUaf | _ => Ok (set h p Free) end.

(** cJSON.c:252-275 *)
Fixpoint delete (fuel : nat) (h : mem) (x : Z) : res mem :=
  match fuel with
  | O => NoFuel
  | S f =>
      if x =? 0 then Ok h
      else
        let* it := rd_item h x in
        let* h := (if negb (i_ref it) && negb (i_ch it =? 0) then delete f h (i_ch it) else Ok h) in
        let* h := (if negb (i_ref it) && negb (i_vs it =? 0) then free h (i_vs it) else Ok h) in
        let* h := (if negb (i_const it) && negb (i_name it =? 0) then free h (i_name it) else Ok h) in
        let* h := free h x in
        delete f h (i_nx it)
  end.

(** cJSON.c:188-208 *)
Definition strdup (s : st) (p : Z) : res (Z * st) :=
  if p =? 0 then Ok (0, s) else let* t := rd_str (ms_h s) p in Ok (alloc s (BS t)).

(** writes to fields of an item *)
Definition w_nx (h : mem) (p v : Z) : res mem :=
  let* i := rd_item h p in
  Ok (set h p (BI (It (i_val i) (i_ref i) (i_const i) (i_vs i) (i_name i) v (i_pv i) (i_ch i)))).
Definition w_pv (h : mem) (p v : Z) : res mem :=
  let* i := rd_item h p in
  Ok (set h p (BI (It (i_val i) (i_ref i) (i_const i) (i_vs i) (i_name i) (i_nx i) v (i_ch i)))).
Definition w_ch (h : mem) (p v : Z) : res mem :=
  let* i := rd_item h p in
  Ok (set h p (BI (It (i_val i) (i_ref i) (i_const i) (i_vs i) (i_name i) (i_nx i) (i_pv i) v))).
Definition w_vs (h : mem) (p v : Z) : res mem :=
  let* i := rd_item h p in
  Ok (set h p (BI (It (i_val i) (i_ref i) (i_const i) v (i_name i) (i_nx i) (i_pv i) (i_ch i)))).
Definition w_name (h : mem) (p v : Z) : res mem :=
  let* i := rd_item h p in
  Ok (set h p (BI (It (i_val i) (i_ref i) (i_const i) (i_vs i) v (i_nx i) (i_pv i) (i_ch i)))).

(** cJSON.c:2780-2786 *)
Definition dup_fail (fuel : nat) (s : st) (new : Z) : res (Z * st) :=
  let* h := delete fuel (ms_h s) new in Ok (0, hs s h).

(** cJSON.c:2706-2787; the loop of lines 2751-2772 is [dup_kids], which has the number of the
    last new child or 0 ([next]); it answers whether all went well, and the last new child *)
Fixpoint dup (fuel : nat) (s : st) (x : Z) (recurse : bool) : res (Z * st) :=
  match fuel with
  | O => NoFuel
  | S f =>
      if x =? 0 then Ok (0, s)
      else
        let* it := rd_item (ms_h s) x in
        let a := alloc s (BI (It 0 false false 0 0 0 0 0)) in
        let new := fst a in
        let s := snd a in
        if new =? 0 then Ok (0, s)
        else
          let s := hs s (set (ms_h s) new (BI (It (i_val it) false (i_const it) 0 0 0 0 0))) in
          let* v := strdup s (i_vs it) in
          if negb (i_vs it =? 0) && (fst v =? 0) then dup_fail fuel (snd v) new
          else
            let* h := w_vs (ms_h (snd v)) new (fst v) in
            let s := hs (snd v) h in
            let* n := (if i_const it then Ok (i_name it, s) else strdup s (i_name it)) in
            if negb (i_name it =? 0) && (fst n =? 0) then dup_fail fuel (snd n) new
            else
              let* h := w_name (ms_h (snd n)) new (fst n) in
              let s := hs (snd n) h in
              if negb recurse then Ok (new, s)
              else
                let* r := dup_kids f s new (i_ch it) 0 in
                let s := snd r in
                if negb (fst (fst r)) then dup_fail fuel s new
                else
                  let* i := rd_item (ms_h s) new in
                  if i_ch i =? 0 then Ok (new, s)
                  else let* h := w_pv (ms_h s) (i_ch i) (snd (fst r)) in Ok (new, hs s h)
  end
with dup_kids (fuel : nat) (s : st) (new child next : Z) : res (bool * Z * st) :=
  match fuel with
  | O => NoFuel
  | S f =>
      if child =? 0 then Ok (true, next, s)
      else
        let* c := dup f s child true in
        let s := snd c in
        if fst c =? 0 then Ok (false, next, s)
        else
          let* h := (if negb (next =? 0)
                     then let* h := w_nx (ms_h s) next (fst c) in w_pv h (fst c) next
                     else w_ch (ms_h s) new (fst c)) in
          let* i := rd_item h child in
          dup_kids f (hs s h) new (i_nx i) (fst c)
  end.
