(** * What is expected of the web server (independent of its model). *)
From Verif Require Import Base Str_Spec Http_Spec.
From Coq Require Import String.
Open Scope Z_scope.

(** ** Paths *)
(** the segments between slashes *)
Fixpoint segs (p : list Z) : list (list Z) :=
  match p with
  | [] => [[]]
  | b :: t => if b =? 47 then [] :: segs t
              else match segs t with s :: r => (b :: s) :: r | [] => [[b]] end
  end.

(** walking a path from a directory (innermost name first), without symbolic
    links: empty segments and "." stay, ".." goes up *)
Fixpoint walk (dir : list (list Z)) (l : list (list Z)) : list (list Z) :=
  match l with
  | [] => dir
  | s :: r => walk (if bseq s [] || bseq s (str ".") then dir
                    else if bseq s (str "..") then tl dir
                    else s :: dir) r
  end.
(** the place a path denotes for a process working in [cwd] *)
Definition place (cwd : list (list Z)) (p : list Z) : list (list Z) :=
  walk (match p with b :: _ => if b =? 47 then [] else cwd | [] => cwd end) (segs p).
Definition below (cwd : list (list Z)) (home p : list Z) : Prop :=
  exists l, place cwd p = l ++ place cwd home.

Definition no_nul (l : list Z) : Prop := ~ In 0 l.

(** ** Content types by extension of the file name *)
Definition types : list (list Z * list Z) :=
  map (fun e => (str (fst e), str (snd e)))
   [(".html", "text/html"); (".htm", "text/html"); (".js", "application/x-javascript");
    (".json", "application/json"); (".css", "text/css"); (".txt", "text/plain");
    (".png", "image/png"); (".jpg", "image/jpeg"); (".jpeg", "image/jpeg"); (".gif", "image/gif");
    (".ico", "image/x-icon"); (".mp3", "audio/mpeg"); (".m3u8", "application/x-mpegURL");
    (".ts", "video/MP2T")]%string.
Fixpoint assoc (l : list (list Z * list Z)) (k : list Z) : option (list Z) :=
  match l with [] => None | (k', v) :: r => if bseq k' k then Some v else assoc r k end.
Definition default_type := str "text/plain".

(** [e] is the extension of the name [n]: from its last dot *)
Definition ext_of (n e : list Z) : Prop := exists a b, n = a ++ e /\ e = 46 :: b /\ ~ In 46 b.
(** [t] is the type of the file at path [p], whose last segment is the name *)
Definition has_type (p t : list Z) : Prop :=
  let n := last (segs p) [] in
  (exists e, ext_of n e /\ t = match assoc types e with Some t => t | None => default_type end) \/
  (~ In 46 n /\ t = default_type).

(** ** Response heads *)
Definition reason (code : Z) : list Z :=
  if code =? 200 then str "OK" else if code =? 403 then str "Forbidden"
  else if code =? 404 then str "Not Found" else if code =? 500 then str "Internal Server Error"
  else str "Bad Request".
Definition no_crlf (l : list Z) : Prop := ~ In 13 l /\ ~ In 10 l.
(** header lines "name: value" *)
Definition hline (h : list Z * list Z) : list Z := fst h ++ str ": " ++ snd h ++ crlf.
Definition wf_hline (h : list Z * list Z) : Prop :=
  fst h <> [] /\ no_crlf (fst h) /\ ~ In 58 (fst h) /\ no_crlf (snd h).
(** status line, header lines, empty line; [code] in three decimal digits *)
Definition head_bytes (code hs_rest : list Z) (why : list Z) : list Z :=
  str "HTTP/1.1 " ++ code ++ [32] ++ why ++ crlf ++ hs_rest ++ crlf.
Definition response_head (code : Z) (bs : list Z) (hs : list (list Z * list Z)) : Prop :=
  exists c3, numeral c3 code /\ zlen c3 = 3 /\ Forall wf_hline hs /\
    bs = head_bytes c3 (List.concat (map hline hs)) (reason code).
