(** * Wire formats used in the statements (RFC 1928; tunnel header). Independent
      of the model. *)
From Verif Require Import Base.

(** RFC 1928 section 3: VER NMETHODS METHODS *)
Definition greeting (ver : Z) (methods : list Z) : list Z := ver :: zlen methods :: methods.

(** RFC 1928 section 4: VER CMD RSV ATYP DST.ADDR DST.PORT *)
Definition request_v4 (ver cmd rsv : Z) (ip port : list Z) : list Z :=
  [ver; cmd; rsv; 1] ++ ip ++ port.
Definition request_dom (ver cmd rsv : Z) (name port : list Z) : list Z :=
  [ver; cmd; rsv; 3; zlen name] ++ name ++ port.
Definition request_v6 (ver cmd rsv : Z) (ip port : list Z) : list Z :=
  [ver; cmd; rsv; 4] ++ ip ++ port.

(** RFC 1928 section 6: success, BND.ADDR of type IPv4 *)
Definition success_reply (ip port : list Z) : list Z := [5; 0; 0; 1] ++ ip ++ port.

(** tunnel header: magic number, key padded with zeros, secret of zeros *)
Definition header_of (key : list Z) : list Z :=
  [160; 1; 190; 239] ++ key ++ zrepeat 0 (16 - zlen key) ++ zrepeat 0 16.

Definition no_nul (l : list Z) : Prop := Forall (fun b => b <> 0) l.
