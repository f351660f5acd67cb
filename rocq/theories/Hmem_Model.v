(** * Model of the memory of a hash table (src/common/util/ezhash.c) and of the walk of the
    name cache over it (src/dns/dns.c:57-86). No proofs here.

    Hash_Model.v says what a table contains; here every entry has the three blocks it is made
    of, and the set of live blocks of the pool is kept. Releasing a block that is not live,
    or reading one, is the fault [FUaf]. The queues are sequences (Queue_Model.v). *)
From Verif Require Import Base Hash_Model.
Open Scope Z_scope.

Section Mem.
Context {A : Type}.

(** ezhash.h:9-17: the block of the object, of its key and of its value, and what is in them *)
Record hobj := mkObj { o_obj : Z; o_key : Z; o_val : Z; o_k : list Z; o_v : A }.
(** ezhash.h:19-22: the block of the table and of the bucket array; the live blocks of the
    pool, those of others included *)
Record hmem := mkHm { h_hdr : Z; h_arr : Z; h_bk : list (list hobj); h_live : list Z }.

(** reading a block *)
Definition use (live : list Z) (a : Z) : res unit :=
  if existsb (Z.eqb a) live then Ok tt else Fault FUaf.
(** mem.c:124-132 *)
Definition rel (live : list Z) (a : Z) : res (list Z) :=
  if existsb (Z.eqb a) live then Ok (remove Z.eq_dec a live) else Fault FUaf.

(** ezhash.c:17-36; [a1], [a2]: the blocks given by the pool, [None] is NULL *)
Definition hm_create (live : list Z) (a1 a2 : option Z) (space : Z) : res (option hmem * list Z) :=
  match a1 with
  | None => Ok (None, live)
  | Some h =>
      if space * 16 <=? 0 then Fault FAbort else
      match a2 with
      | None => let* l := rel (h :: live) h in Ok (None, l)
      | Some a => Ok (Some (mkHm h a (zrepeat [] space) (a :: h :: live)), a :: h :: live)
      end
  end.

Definition hm_idx (m : hmem) (k : list Z) : Z := fnv1a k mod zlen (h_bk m).

(** ezhash.c:81-82, 110-111: the key is read if the lengths agree *)
Definition match_key (live : list Z) (k : list Z) (o : hobj) : res bool :=
  let* _ := use live (o_obj o) in
  if zlen (o_k o) =? zlen k then let* _ := use live (o_key o) in Ok (bseq (o_k o) k) else Ok false.

(** ezhash.c:106-116 *)
Fixpoint bk_find (live : list Z) (k : list Z) (b : list hobj) : res (option A) :=
  match b with
  | [] => Ok None
  | o :: r => let* y := match_key live k o in
              if y then let* _ := use live (o_val o) in Ok (Some (o_v o)) else bk_find live k r
  end.
(** ezhash.c:97-119; the table and the array are read first *)
Definition hm_find (m : hmem) (k : list Z) : res (option A) :=
  let* _ := use (h_live m) (h_hdr m) in
  let* _ := use (h_live m) (h_arr m) in
  let* b := of_opt FOob (zget (h_bk m) (hm_idx m k)) in bk_find (h_live m) k b.

(** ezhash.c:50-55, 83-88, dns.c:71-76: key, value and object of an entry are released *)
Definition rel_obj (live : list Z) (o : hobj) : res (list Z) :=
  let* l := rel live (o_key o) in
  let* l := rel l (o_val o) in
  let* _ := use l (o_obj o) in
  rel l (o_obj o).

(** the walks over a bucket: [test] decides what is released; the result is what stays *)
Fixpoint bk_walk (test : list Z -> hobj -> res bool) (live : list Z) (b : list hobj) : res (list hobj * list Z) :=
  match b with
  | [] => Ok ([], live)
  | o :: r =>
      let* y := test live o in
      if y then let* l := rel_obj live o in bk_walk test l r
      else let* q := bk_walk test live r in Ok (o :: fst q, snd q)
  end.
Fixpoint bks_walk (test : list Z -> hobj -> res bool) (live : list Z) (bs : list (list hobj)) : res (list (list hobj) * list Z) :=
  match bs with
  | [] => Ok ([], live)
  | b :: r => let* p := bk_walk test live b in
              let* q := bks_walk test (snd p) r in Ok (fst p :: fst q, snd q)
  end.

(** ezhash.c:68-95 *)
Definition hm_del (m : hmem) (k : list Z) : res hmem :=
  let* _ := use (h_live m) (h_hdr m) in
  let* _ := use (h_live m) (h_arr m) in
  let* b := of_opt FOob (zget (h_bk m) (hm_idx m k)) in
  let* q := bk_walk (fun l o => match_key l k o) (h_live m) b in
  let* bs := of_opt FOob (zput (h_bk m) (hm_idx m k) [fst q]) in
  Ok (mkHm (h_hdr m) (h_arr m) bs (snd q)).

(** dns.c:57-83: in all buckets the entries whose value is [dead] are released; the value is
    read *)
Definition hm_chk (dead : A -> bool) (m : hmem) : res hmem :=
  let* _ := use (h_live m) (h_hdr m) in
  let* _ := use (h_live m) (h_arr m) in
  let* q := bks_walk (fun l o => let* _ := use l (o_obj o) in let* _ := use l (o_val o) in Ok (dead (o_v o))) (h_live m) (h_bk m) in
  Ok (mkHm (h_hdr m) (h_arr m) (fst q) (snd q)).

(** ezhash.c:39-66: all entries, the array, the table; the live blocks that are left *)
Definition hm_free (m : hmem) : res (list Z) :=
  let* _ := use (h_live m) (h_hdr m) in
  let* _ := use (h_live m) (h_arr m) in
  let* q := bks_walk (fun l o => let* _ := use l (o_obj o) in Ok true) (h_live m) (h_bk m) in
  let* _ := use (snd q) (h_hdr m) in
  let* l := rel (snd q) (h_arr m) in
  rel l (h_hdr m).

(** ezhash.c:121-159; [a1], [a2], [a3]: the blocks given by the pool *)
Definition hm_add (m : hmem) (a1 a2 a3 : option Z) (k : list Z) (v : A) (valn : Z) : res (bool * hmem) :=
  let* old := hm_find m k in
  match old with
  | Some _ => Ok (true, m)
  | None =>
      match a1 with
      | None => Ok (false, m)
      | Some o =>
          let l1 := o :: h_live m in
          if zlen k <=? 0 then Fault FAbort else
          match a2 with
          | None => let* l := rel l1 o in Ok (false, mkHm (h_hdr m) (h_arr m) (h_bk m) l)
          | Some ka =>
              let l2 := ka :: l1 in
              if valn <=? 0 then Fault FAbort else
              match a3 with
              | None => let* l := rel l2 ka in let* l := rel l o in Ok (false, mkHm (h_hdr m) (h_arr m) (h_bk m) l)
              | Some va =>
                  let* b := of_opt FOob (zget (h_bk m) (hm_idx m k)) in
                  let* bs := of_opt FOob (zput (h_bk m) (hm_idx m k) [b ++ [mkObj o ka va k v]]) in
                  Ok (true, mkHm (h_hdr m) (h_arr m) bs (va :: l2))
              end
          end
      end
  end.

(** uses of a table; [MOther]: the rest of the program takes or returns a block of its own *)
Inductive mop :=
| MAdd (a1 a2 a3 : option Z) (k : list Z) (v : A) (valn : Z)
| MDel (k : list Z)
| MFind (k : list Z)
| MChk (dead : A -> bool)
| MTake (a : Z)
| MGive (a : Z).
Definition mstep (m : hmem) (o : mop) : res hmem :=
  match o with
  | MAdd a1 a2 a3 k v n => let* p := hm_add m a1 a2 a3 k v n in Ok (snd p)
  | MDel k => hm_del m k
  | MFind k => let* _ := hm_find m k in Ok m
  | MChk d => hm_chk d m
  | MTake a => Ok (mkHm (h_hdr m) (h_arr m) (h_bk m) (a :: h_live m))
  | MGive a => let* l := rel (h_live m) a in Ok (mkHm (h_hdr m) (h_arr m) (h_bk m) l)
  end.
Fixpoint mrun (m : hmem) (os : list mop) : res hmem :=
  match os with [] => Ok m | o :: r => let* m' := mstep m o in mrun m' r end.
End Mem.
Arguments hobj : clear implicits.
Arguments hmem : clear implicits.
Arguments mop : clear implicits.
