(** * Model of the ring buffer (src/common/ringbuffer.c, ringbuffer.h). No proofs here. *)
From Verif Require Import Base.

(** ringbuffer.h:9-19. Pointers are offsets from [start]; [end] is [space]; [mem] is
    [data]. The lock is left out (it is released on every path). *)
Record rb := Rb { space : Z; pos : Z; last : Z; datan : Z; mem : list Z }.
(** ringbuffer.c:7-21; the memory comes zeroed or not: any contents *)
Definition rb_alloc (contents : list Z) : rb := Rb (zlen contents) 0 0 0 contents.

(** memcpy into and out of [data] *)
Definition store (m : list Z) (o : Z) (d : list Z) : res (list Z) :=
  if (0 <=? o) && (o + zlen d <=? zlen m) then Ok (ztake o m ++ d ++ zdrop (o + zlen d) m) else Fault FOob.
Definition fetch (m : list Z) (o n : Z) : res (list Z) :=
  if (0 <=? o) && (0 <=? n) && (o + n <=? zlen m) then Ok (ztake n (zdrop o m)) else Fault FOob.

(** ringbuffer.c:40-83; the result is the return value *)
Definition push (b : rb) (d : list Z) : res (rb * Z) :=
  if space b =? datan b then Ok (b, -1)
  else if space b - datan b <? zlen d then Ok (b, -1)
  else if pos b <=? last b then
    let tailn := space b - last b in
    if zlen d <=? tailn then
      let* m := store (mem b) (last b) d in
      Ok (Rb (space b) (pos b) (last b + zlen d) (datan b + zlen d) m, 0)
    else
      let* b1 :=
        (if tailn =? 0 then Ok b
         else
           if tailn <? 0 then Fault FOob (* memcpy with a negative length *)
           else let* m := store (mem b) (last b) (ztake tailn d) in
                Ok (Rb (space b) (pos b) 0 (datan b + tailn) m)) in
      let headn := zlen d - tailn in
      let* m := store (mem b1) 0 (zdrop tailn d) in
      Ok (Rb (space b) (pos b) (last b1 + headn) (datan b1 + headn) m, 0)
  else
    let freen := pos b - last b in
    let* m := store (mem b) (last b) d in
    Ok (Rb (space b) (pos b) (last b + freen) (datan b + freen) m, 0).

(** ringbuffer.c:85-129; [n] >= 0 bytes wanted; the result is the return value and the bytes
    written to the caller's buffer *)
Definition pull (b : rb) (n : Z) : res (rb * Z * list Z) :=
  if datan b =? 0 then Ok (b, -1, [])
  else if pos b <? last b then
    let pulln := if last b - pos b <=? n then last b - pos b else n in
    let* d := fetch (mem b) (pos b) pulln in
    Ok (Rb (space b) (pos b + pulln) (last b) (datan b - pulln) (mem b), 0, d)
  else
    let tailn := space b - pos b in
    if n <=? tailn then
      let* d := fetch (mem b) (pos b) n in
      Ok (Rb (space b) (pos b + n) (last b) (datan b - n) (mem b), 0, d)
    else
      let* p :=
        (if tailn =? 0 then Ok (b, [])
         else
           let* d := fetch (mem b) (pos b) tailn in
           Ok (Rb (space b) 0 (last b) (datan b - tailn) (mem b), d)) in
      let b1 := fst p in
      let headn := last b in
      let pulln := if headn <=? n - tailn then headn else n - tailn in
      let* d2 := fetch (mem b1) 0 pulln in
      Ok (Rb (space b) (pos b1 + pulln) (last b) (datan b1 - pulln) (mem b1), 0, snd p ++ d2).

(** ringbuffer.c:131-139 *)
Definition getlen (b : rb) : Z := datan b.
Definition getfree (b : rb) : Z := space b - datan b.

(** a history of calls and what the caller sees: the return value, the bytes pulled, and
    the length afterwards *)
Inductive op := Push (d : list Z) | Pull (n : Z).
Definition step (b : rb) (o : op) : res (rb * (Z * list Z * Z)) :=
  match o with
  | Push d => let* p := push b d in Ok (fst p, (snd p, [], getlen (fst p)))
  | Pull n => let* p := pull b n in Ok (fst (fst p), (snd (fst p), snd p, getlen (fst (fst p))))
  end.
Fixpoint run (b : rb) (os : list op) : res (list (Z * list Z * Z)) :=
  match os with
  | [] => Ok []
  | o :: t => let* p := step b o in let* r := run (fst p) t in Ok (snd p :: r)
  end.
