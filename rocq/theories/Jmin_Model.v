(** * Model of cJSON_Minify (src/common/cJSON.c:2788-2883). No proofs here.

    The text is rewritten in place: [b] is the buffer, [i] the position that is read, [o] the
    one that is written. Reading behind the buffer is [FOverread], writing there [FOob]. *)
From Verif Require Import Base.
Open Scope Z_scope.

Definition rd (b : list Z) (i : Z) : res Z := of_opt FOverread (zget b i).
Definition wr (b : list Z) (o c : Z) : res (list Z) := of_opt FOob (zput b o [c]).

(** cJSON.c:2788-2799, from behind "//" *)
Fixpoint skip_oneline (fuel : nat) (b : list Z) (i : Z) : res Z :=
  match fuel with
  | O => NoFuel
  | S f => let* c := rd b i in
           if c =? 0 then Ok i else if c =? 10 then Ok (i + 1) else skip_oneline f b (i + 1)
  end.
(** cJSON.c:2801-2813, from behind the opening mark *)
Fixpoint skip_multiline (fuel : nat) (b : list Z) (i : Z) : res Z :=
  match fuel with
  | O => NoFuel
  | S f => let* c := rd b i in
           if c =? 0 then Ok i
           else if c =? 42 then let* d := rd b (i + 1) in if d =? 47 then Ok (i + 2) else skip_multiline f b (i + 1)
           else skip_multiline f b (i + 1)
  end.
(** cJSON.c:2820-2835, behind the opening quote *)
Fixpoint minify_str (fuel : nat) (b : list Z) (i o : Z) : res (list Z * (Z * Z)) :=
  match fuel with
  | O => NoFuel
  | S f =>
      let* c := rd b i in
      if c =? 0 then Ok (b, (i, o))
      else
        let* b := wr b o c in
        let* c := rd b i in
        if c =? 34 then let* b := wr b o 34 in Ok (b, (i + 1, o + 1))
        else
          let* e := (if c =? 92 then let* d := rd b (i + 1) in Ok (d =? 34) else Ok false) in
          if (e : bool) then let* d := rd b (i + 1) in let* b := wr b (o + 1) d in minify_str f b (i + 2) (o + 2)
          else minify_str f b (i + 1) (o + 1)
  end.
(** cJSON.c:2837-2883 *)
Fixpoint minify_loop (fuel : nat) (b : list Z) (i o : Z) : res (list Z) :=
  match fuel with
  | O => NoFuel
  | S f =>
      let* c := rd b i in
      if c =? 0 then wr b o 0
      else if (c =? 32) || (c =? 9) || (c =? 13) || (c =? 10) then minify_loop f b (i + 1) o
      else if c =? 47 then
        let* d := rd b (i + 1) in
        if d =? 47 then let* i := skip_oneline f b (i + 2) in minify_loop f b i o
        else if d =? 42 then let* i := skip_multiline f b (i + 2) in minify_loop f b i o
        else minify_loop f b (i + 1) o
      else if c =? 34 then
        let* b := wr b o c in
        let* r := minify_str f b (i + 1) (o + 1) in
        minify_loop f (fst r) (fst (snd r)) (snd (snd r))
      else let* b := wr b o c in minify_loop f b (i + 1) (o + 1)
  end.
Definition minify (b : list Z) : res (list Z) := minify_loop (S (length b)) b 0 0.
