(** Model of the servers the program itself turns to: the name server of
    src/dns/dns.c:88-95, 336-339 and the tunnel server of src/app/tls_tunnel_c.c:37-42,
    both named in the configuration ([Conf_Model], src/common/config.c:36-44, 52-62) as a
    text that goes through libc's inet_addr. No proofs here.

    [S5_Model.inet_addr] is inet_addr on the texts the program makes itself; here the
    text is the user's, so all of what glibc accepts is modelled. *)
From Coq Require Import String.
From Verif Require Import Base Str_Spec Conf_Model.
Open Scope Z_scope.

(** isdigit, isspace in the C locale *)
Definition is_dig (c : Z) : bool := (48 <=? c) && (c <=? 57).
Definition is_space (c : Z) : bool := (c =? 32) || (9 <=? c) && (c <=? 13).

(** the value of a digit of any base, as strtoul takes it *)
Definition digit_val (c : Z) : Z :=
  if is_dig c then c - 48
  else if (97 <=? c) && (c <=? 102) then c - 87
  else if (65 <=? c) && (c <=? 70) then c - 55
  else 99.
Fixpoint strtoul_in (base acc : Z) (s : list Z) : Z * list Z :=
  match s with
  | c :: r => if digit_val c <? base then strtoul_in base (acc * base + digit_val c) r else (acc, s)
  | [] => (acc, [])
  end.
(** strtoul(s, &endp, 0) on a text that starts with a digit; the value is not cut at
    ULONG_MAX, the caller refuses everything above 0xffffffff *)
Definition strtoul0 (s : list Z) : Z * list Z :=
  match s with
  | z :: x :: h :: r =>
      if (z =? 48) && ((x =? 120) || (x =? 88)) && (digit_val h <? 16) then strtoul_in 16 0 (h :: r)
      else strtoul_in (if z =? 48 then 8 else 10) 0 s
  | z :: _ => strtoul_in (if z =? 48 then 8 else 10) 0 s
  | [] => (0, [])
  end.

(** the [k] lower bytes of [v], the highest first (htonl) *)
Fixpoint be_bytes (k : nat) (v : Z) : list Z :=
  match k with O => [] | S k' => be_bytes k' (v / 256) ++ [v mod 256] end.

(** glibc inet_aton_end: [dots] more dots are allowed, [acc] are the parts so far. The last
    part fills the bytes that are left; white space ends the text. *)
Fixpoint aton (dots : nat) (acc : list Z) (s : list Z) : option (list Z) :=
  match s with
  | [] => None
  | c :: _ =>
      if negb (is_dig c) then None
      else
        let v := fst (strtoul0 s) in
        let last := if 256 ^ (4 - zlen acc) - 1 <? v then None
                    else Some (acc ++ be_bytes (Z.to_nat (4 - zlen acc)) v) in
        if 4294967295 <? v then None
        else match snd (strtoul0 s) with
             | [] => last
             | e :: r =>
                 if e =? 46 then match dots with
                                 | O => None
                                 | S k => if 255 <? v then None else aton k (acc ++ [v]) r
                                 end
                 else if is_space e then last else None
             end
  end.
(** inet_addr: INADDR_NONE is 255.255.255.255 *)
Definition inet_text (s : list Z) : list Z :=
  match aton 3 [] s with Some a => a | None => [255; 255; 255; 255] end.

(** dns.c:88-95 [dns_get_serv], 336-339: address and port *)
Definition name_server (c : conf) : list Z * Z :=
  (inet_text (if 0 <? zlen (s5_serv_gw c) then s5_serv_gw c else str "8.8.8.8"), 53).
(** tls_tunnel_c.c:37-42 [tls_tunnel_s_addr] *)
Definition tunnel_server (c : conf) : list Z * Z :=
  (inet_text (s5_local_serv_ip c), s5_local_serv_port c).
