(** * Model of the lists of cJSON items (src/common/cJSON.c:252-275, 1827-1878, 1927-1993,
    2187-2236, 2262-2349). No proofs here.

    An item is a number, 0 is NULL. Kept are the three links of an item and whether it is
    allocated; following NULL is [FNull], using a released item [FUaf]. Values and names
    are left out, and with them everything that looks for a name; items that are references
    are left out too. *)
From Verif Require Import Base.
Open Scope Z_scope.

Record heap := Hp { live : Z -> bool; nx : Z -> Z; pv : Z -> Z; ch : Z -> Z }.
Definition empty : heap := Hp (fun _ => false) (fun _ => 0) (fun _ => 0) (fun _ => 0).
Definition upd {A} (f : Z -> A) (p : Z) (v : A) : Z -> A := fun q => if q =? p then v else f q.

Definition check (h : heap) (p : Z) : res unit :=
  if p =? 0 then Fault FNull else if live h p then Ok tt else Fault FUaf.
Definition rd (f : heap -> Z -> Z) (h : heap) (p : Z) : res Z := let* _ := check h p in Ok (f h p).
Definition wr_nx (h : heap) (p v : Z) : res heap := let* _ := check h p in Ok (Hp (live h) (upd (nx h) p v) (pv h) (ch h)).
Definition wr_pv (h : heap) (p v : Z) : res heap := let* _ := check h p in Ok (Hp (live h) (nx h) (upd (pv h) p v) (ch h)).
Definition wr_ch (h : heap) (p v : Z) : res heap := let* _ := check h p in Ok (Hp (live h) (nx h) (pv h) (upd (ch h) p v)).

(** cJSON.c:241-250 with the functions from 2385 on that create an item: all links are NULL;
    [p] is the address that malloc returns *)
Definition new_item (h : heap) (p : Z) : heap :=
  Hp (upd (live h) p true) (upd (nx h) p 0) (upd (pv h) p 0) (upd (ch h) p 0).
Definition release (h : heap) (p : Z) : res heap :=
  let* _ := check h p in Ok (Hp (upd (live h) p false) (nx h) (pv h) (ch h)).

(** cJSON.c:252-275 *)
Fixpoint delete (fuel : nat) (h : heap) (x : Z) : res heap :=
  match fuel with
  | O => NoFuel
  | S f =>
      if x =? 0 then Ok h
      else
        let* next := rd nx h x in
        let* c := rd ch h x in
        let* h := (if c =? 0 then Ok h else delete f h c) in
        let* h := release h x in
        delete f h next
  end.

(** cJSON.c:1838-1842 *)
Fixpoint count (fuel : nat) (h : heap) (c : Z) : res Z :=
  match fuel with
  | O => NoFuel
  | S f => if c =? 0 then Ok 0 else let* n := rd nx h c in let* k := count f h n in Ok (k + 1)
  end.
(** cJSON.c:1827-1847; the result is taken as a mathematical integer *)
Definition get_size (fuel : nat) (h : heap) (a : Z) : res Z :=
  if a =? 0 then Ok 0 else let* c := rd ch h a in count fuel h c.
(** cJSON.c:1859-1863 *)
Fixpoint walk (fuel : nat) (h : heap) (c i : Z) : res Z :=
  match fuel with
  | O => NoFuel
  | S f => if (c =? 0) || (i <=? 0) then Ok c else let* n := rd nx h c in walk f h n (i - 1)
  end.
(** cJSON.c:1849-1866 *)
Definition get_item (fuel : nat) (h : heap) (a i : Z) : res Z :=
  if a =? 0 then Ok 0 else let* c := rd ch h a in walk fuel h c i.

(** cJSON.c:1956-1987 with 1928-1932 *)
Definition add_item (h : heap) (a x : Z) : res (heap * bool) :=
  if (x =? 0) || (a =? 0) || (a =? x) then Ok (h, false)
  else
    let* c := rd ch h a in
    if c =? 0 then
      let* h := wr_ch h a x in let* h := wr_pv h x x in let* h := wr_nx h x 0 in Ok (h, true)
    else
      let* p := rd pv h c in
      if p =? 0 then Ok (h, true)
      else
        let* h := wr_nx h p x in
        let* h := wr_pv h x p in
        let* c := rd ch h a in
        let* h := wr_pv h c x in Ok (h, true).

(** cJSON.c:2187-2221 *)
Definition detach_via (h : heap) (a x : Z) : res (heap * Z) :=
  if (a =? 0) || (x =? 0) then Ok (h, 0)
  else
    let* c := rd ch h a in
    let* h := (if x =? c then Ok h
               else let* p := rd pv h x in let* n := rd nx h x in wr_nx h p n) in
    let* n := rd nx h x in
    let* h := (if n =? 0 then Ok h else let* p := rd pv h x in wr_pv h n p) in
    let* c := rd ch h a in
    let* h := (if x =? c then let* n := rd nx h x in wr_ch h a n
               else let* n := rd nx h x in
                    if n =? 0 then let* p := rd pv h x in wr_pv h c p else Ok h) in
    let* h := wr_pv h x 0 in
    let* h := wr_nx h x 0 in
    Ok (h, x).
(** cJSON.c:2223-2231 *)
Definition detach (fuel : nat) (h : heap) (a i : Z) : res (heap * Z) :=
  if i <? 0 then Ok (h, 0) else let* x := get_item fuel h a i in detach_via h a x.

(** cJSON.c:2263-2290 *)
Definition insert (fuel : nat) (h : heap) (a i x : Z) : res (heap * bool) :=
  if i <? 0 then Ok (h, false)
  else
    let* b := get_item fuel h a i in
    if b =? 0 then add_item h a x
    else
      let* h := wr_nx h x b in
      let* p := rd pv h b in
      let* h := wr_pv h x p in
      let* h := wr_pv h b x in
      let* c := rd ch h a in
      if b =? c then let* h := wr_ch h a x in Ok (h, true)
      else let* p := rd pv h x in let* h := wr_nx h p x in Ok (h, true).

(** cJSON.c:2292-2339 *)
Definition replace_via (fuel : nat) (h : heap) (a o x : Z) : res (heap * bool) :=
  if (a =? 0) || (x =? 0) || (o =? 0) then Ok (h, false)
  else if x =? o then Ok (h, true)
  else
    let* n := rd nx h o in
    let* h := wr_nx h x n in
    let* p := rd pv h o in
    let* h := wr_pv h x p in
    let* n := rd nx h x in
    let* h := (if n =? 0 then Ok h else wr_pv h n x) in
    let* c := rd ch h a in
    let* h := (if c =? o then
                 let* p := rd pv h c in
                 let* h := (if p =? c then wr_pv h x x else Ok h) in
                 wr_ch h a x
               else
                 let* p := rd pv h x in
                 let* h := (if p =? 0 then Ok h else wr_nx h p x) in
                 let* n := rd nx h x in
                 if n =? 0 then let* c := rd ch h a in wr_pv h c x else Ok h) in
    let* h := wr_nx h o 0 in
    let* h := wr_pv h o 0 in
    let* h := delete fuel h o in
    Ok (h, true).
(** cJSON.c:2341-2349 *)
Definition replace (fuel : nat) (h : heap) (a i x : Z) : res (heap * bool) :=
  if i <? 0 then Ok (h, false) else let* o := get_item fuel h a i in replace_via fuel h a o x.

(** ** Histories *)
Inductive op :=
| New (p : Z) | Add (a x : Z) | Insert (a i x : Z) | Detach (a i : Z) | DetachVia (a x : Z)
| Replace (a i x : Z) | Delete (x : Z) | Size (a : Z) | Item (a i : Z).
(** result of a call: an item or a number; true is 1, NULL and false are 0 *)
Definition step (fuel : nat) (h : heap) (o : op) : res (heap * Z) :=
  let b (r : res (heap * bool)) := let* x := r in Ok (fst x, if snd x then 1 else 0) in
  match o with
  | New p => Ok (new_item h p, p)
  | Add a x => b (add_item h a x)
  | Insert a i x => b (insert fuel h a i x)
  | Detach a i => detach fuel h a i
  | DetachVia a x => detach_via h a x
  | Replace a i x => b (replace fuel h a i x)
  | Delete x => let* h := delete fuel h x in Ok (h, 0)
  | Size a => let* n := get_size fuel h a in Ok (h, n)
  | Item a i => if i <? 0 then Ok (h, 0) else let* x := get_item fuel h a i in Ok (h, x)
  end.
Fixpoint run (fuel : nat) (h : heap) (l : list op) : res (heap * list Z) :=
  match l with
  | [] => Ok (h, [])
  | o :: t => let* r := step fuel h o in let* q := run fuel (fst r) t in Ok (fst q, snd r :: snd q)
  end.
