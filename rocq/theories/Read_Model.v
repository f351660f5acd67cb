(** * Model of reading the configuration file into memory (src/common/config.c:109-143).
    No proofs here. What is done with the text is Conf_Model.v. *)
From Verif Require Import Base Conf_Model.
Open Scope Z_scope.

(** conversion to int, config.c:123 *)
Definition to_int (x : Z) : Z := (x + 2147483648) mod 4294967296 - 2147483648.

(** the answer of one read(): an error or some bytes (none: end of the file) *)
Inductive answer := RErr | RData (d : list Z).

(** what the system calls answer: the size stat reports, the descriptor open returns
    (negative: failure), the answers of the reads (when they run out: end of the file) *)
Record world := World { st_size : option Z; fd_ : Z; reads : list answer }.

(** config.c:129-133: [freadn] bytes are in [buf]. A read never delivers more than was asked
    for. *)
Fixpoint fread (fsz freadn : Z) (buf : list Z) (l : list answer) : res (list Z) :=
  if freadn <? fsz then
    match l with
    | [] | RErr :: _ => Ok buf
    | RData d :: r =>
        let d := ztake (fsz + 1 - freadn) d in
        if zlen d <? 1 then Ok buf
        else let* buf' := of_opt FOob (zput buf freadn d) in fread fsz (freadn + zlen d) buf' r
    end
  else Ok buf.

(** the C string in a buffer (config.c:136 prints it, config.c:137 takes its length);
    without a NUL byte the reading goes on behind the buffer *)
Fixpoint ctext (l : list Z) : res (list Z) :=
  match l with
  | [] => Fault FOverread
  | b :: r => if b =? 0 then Ok [] else let* t := ctext r in Ok (b :: t)
  end.

(** config.c:121-137, mem.c:51-59: the size goes through an int; the allocator insists on a
    positive size and zeroes the block. Descriptor 0 is taken for a failure (config.c:128). *)
Definition read_config (w : world) : res cfile :=
  match st_size w with
  | None => Ok NoFile
  | Some sz =>
      let fsz := to_int sz in
      let n := to_int (fsz + 1) in
      if n <=? 0 then Fault FAbort
      else if fd_ w <=? 0 then Ok NoOpen
      else let* buf := fread fsz 0 (zrepeat 0 n) (reads w) in
           let* t := ctext buf in Ok (Bytes t)
  end.
(** config.c:109-143 as a whole *)
Definition load_config (parse : list Z -> option json) (w : world) : res (Z * conf) :=
  let* f := read_config w in config_init parse f.
