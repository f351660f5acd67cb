(** * Model of reading the key file of the tunnel server (src/app/tls_tunnel_s.c:340-389).
    No proofs here. *)
From Verif Require Import Base Ac_Model Conf_Model Json_Model.
Open Scope Z_scope.

(** tls_tunnel_s.c:8 *)
Definition AUTH_FILE_MAX : Z := 4096.

(** tls_tunnel_s.c:344-349: the entries are added one after the other; for an entry that is
    not a string [cJSON_GetStringValue] gives NULL, which [strlen] reads. [ezac_add] fails only
    if there is no memory, which is not modelled. *)
Fixpoint auth_add (c : ac) (l : list json) : res ac :=
  match l with
  | [] => Ok c
  | j :: t => match string_value j with
              | None => Fault FNull
              | Some s => let* c' := ezac_add c s in auth_add c' t
              end
  end.

(** tls_tunnel_s.c:340-353 [tls_tunnel_s_auth_fparse]: the buffer is taken for a C string, a
    buffer without a NUL is read beyond its end. A text that is no JSON adds no key and is no
    error. *)
Definition auth_fparse (c : ac) (buf : list Z) : res ac :=
  if existsb (Z.eqb 0) buf then
    let* o := json_parse buf in
    match o with None => Ok c | Some root => auth_add c (children root) end
  else Fault FOverread.

(** tls_tunnel_s.c:355-364 [tls_tunnel_s_auth_fread]: one [read] of at most the size of the
    buffer, which is zero-filled (meta.c:6). [None]: the file cannot be opened or read. *)
Definition auth_fread (file : option (list Z)) : option (list Z) :=
  match file with
  | None => None
  | Some b => let d := ztake AUTH_FILE_MAX b in Some (d ++ zrepeat 0 (AUTH_FILE_MAX - zlen d))
  end.

(** tls_tunnel_s.c:366-381 [tls_tunnel_s_auth_init]: return value and matcher *)
Definition auth_init (file : option (list Z)) : res (Z * ac) :=
  match auth_fread file with
  | None => Ok (-1, ezac_init)
  | Some buf =>
      let* c := auth_fparse ezac_init buf in
      let* c' := ezac_compiler c in
      Ok (0, c')
  end.
