(** * Model of the cipher functions (src/common/sys_cipher.c). No proofs here.

    The library (OpenSSL) is described by what its modes of operation are: [blk] is the AES
    block function under the fixed key (sys_cipher.c:5), [ks] the key stream and [mac] the tag
    of GCM under the fixed key and IV (sys_cipher.c:3-5). Nothing is assumed about these three
    functions. Whether a call of the library fails is an input. Input and output buffers are
    different ones. *)
From Coq Require Import String.
From Verif Require Import Base Str_Spec.
Open Scope Z_scope.

(** sys_cipher.c:3: the initialisation vector of every message and every context *)
Definition the_iv : list Z := str "tanxaes_deadbeef".

(** memory written by the library at [off] of a buffer *)
Definition put (off : Z) (d buf : list Z) : res (list Z) :=
  if (0 <=? off) && (off + zlen d <=? zlen buf)
  then Ok (ztake off buf ++ d ++ zdrop (off + zlen d) buf)
  else Fault FOob.

(** EVP_aes_256_cfb8: the register starts as the IV; every byte is xored with the first byte of
    the block computed from the register; the byte of the ciphertext enters the register. *)
Fixpoint cfb8_enc (blk : list Z -> list Z) (r m : list Z) : list Z :=
  match m with
  | [] => []
  | p :: m' => let c := Z.lxor p (hd 0 (blk r)) in c :: cfb8_enc blk (tl r ++ [c]) m'
  end.
Fixpoint cfb8_dec (blk : list Z -> list Z) (r m : list Z) : list Z :=
  match m with
  | [] => []
  | c :: m' => Z.lxor c (hd 0 (blk r)) :: cfb8_dec blk (tl r ++ [c]) m'
  end.

(** results of EVP_CIPHER_CTX_new, EVP_..Update and EVP_..Final_ex (the result of
    EVP_..Init_ex is not looked at, sys_cipher.c:117, 152: if it fails the update fails too) *)
Record evp := { e_new : bool; e_upd : bool; e_fin : bool }.

(** sys_cipher.c:103-137 [aes_cfb_encrypt] and 139-172 [aes_cfb_decrypt]: the same code around
    different library calls ([f]). Result: return value, output buffer. Final adds nothing
    with a stream mode. *)
Definition cfb_run (f : list Z -> list Z) (e : evp) (m out : list Z) : res (Z * list Z) :=
  if zlen m <? 1 then Ok (0, out)
  else if e_new e then
    if e_upd e then
      let* out1 := put 0 (f m) out in
      let enc_len := zlen m in
      if e_fin e then
        let* out2 := put enc_len [] out1 in
        Ok (enc_len + 0, out2)
      else Ok (enc_len, out1)
    else Ok (0, out)
  else Ok (0, out).
Definition aes_cfb_encrypt (blk : list Z -> list Z) (e : evp) (m out : list Z) :=
  cfb_run (cfb8_enc blk the_iv) e m out.
Definition aes_cfb_decrypt (blk : list Z -> list Z) (e : evp) (m out : list Z) :=
  cfb_run (cfb8_dec blk the_iv) e m out.

(** a GCM context (sys_cipher.h:14-18): direction, whether the library will still take data
    (after a final call it wants a new IV, which nothing in sys_cipher.c sets), how many bytes
    it has taken, the ciphertext so far (what the tag is computed from), and the expected tag *)
Record gctx := {
  g_enc : bool; g_ready : bool; g_pos : Z; g_ct : list Z; g_tag : option (list Z)
}.

(** sys_cipher.c:57-90 [sys_aesgcm_ctx_init]: the results of sys_alloc, EVP_CIPHER_CTX_new and
    the three set-up calls; type 0 encrypts, all others decrypt. Key and IV are the same
    constants for every context, hence not part of it. *)
Record ginit := { i_alloc : bool; i_new : bool; i_1 : bool; i_2 : bool; i_3 : bool }.
Definition ctx_init (i : ginit) (typ : Z) : option gctx :=
  if i_alloc i && i_new i && i_1 i && i_2 i && i_3 i
  then Some {| g_enc := typ =? 0; g_ready := true; g_pos := 0; g_ct := []; g_tag := None |}
  else None.

(** the key stream, from position [p] on *)
Fixpoint xors (ks : Z -> Z) (p : Z) (m : list Z) : list Z :=
  match m with [] => [] | b :: m' => Z.lxor b (ks p) :: xors ks (p + 1) m' end.

(** failures of the library not due to the state of the context: update, setting or reading
    the tag, final *)
Record gok := { o_upd : bool; o_tag : bool; o_fin : bool }.

(** sys_cipher.c:26-38 [sys_aesgcm_enc]. Result: return value, context, output buffer, buffer of
    the tag. *)
Definition gcm_enc (ks : Z -> Z) (mac : list Z -> list Z) (o : gok) (c : option gctx)
    (m out tag : list Z) : res (Z * gctx * list Z * list Z) :=
  match c with
  | None => Fault FAbort
  | Some c =>
      if g_enc c && g_ready c && o_upd o then
        let ct := xors ks (g_pos c) m in
        let* out1 := put 0 ct out in
        let c1 := {| g_enc := true; g_ready := true; g_pos := g_pos c + zlen m;
                     g_ct := g_ct c ++ ct; g_tag := g_tag c |} in
        let len := zlen m in
        if o_fin o then
          let* out2 := put len [] out1 in
          let c2 := {| g_enc := true; g_ready := false; g_pos := g_pos c1;
                       g_ct := g_ct c1; g_tag := g_tag c |} in
          if o_tag o then
            let* tag1 := put 0 (mac (g_ct c2)) tag in
            Ok (len + 0, c2, out2, tag1)
          else Ok (-1, c2, out2, tag)
        else Ok (-1, c1, out1, tag)
      else Ok (-1, c, out, tag)
  end.

(** sys_cipher.c:40-55 [sys_aesgcm_dec]: the plaintext is written to the output buffer (line 46)
    before the tag is compared (line 49). A context whose comparison failed takes no more data
    here; what the library really does then is left out. *)
Definition gcm_dec (ks : Z -> Z) (mac : list Z -> list Z) (o : gok) (c : option gctx)
    (m out tag : list Z) : res (Z * gctx * list Z) :=
  match c with
  | None => Fault FAbort
  | Some c =>
      if negb (g_enc c) && g_ready c && o_upd o then
        let* out1 := put 0 (xors ks (g_pos c) m) out in
        let c1 := {| g_enc := false; g_ready := true; g_pos := g_pos c + zlen m;
                     g_ct := g_ct c ++ m; g_tag := g_tag c |} in
        let len := zlen m in
        if o_tag o then
          if zlen tag <? 16 then Fault FOverread
          else
            let c2 := {| g_enc := false; g_ready := false; g_pos := g_pos c1;
                         g_ct := g_ct c1; g_tag := Some (ztake 16 tag) |} in
            if o_fin o && bseq (mac (g_ct c2)) (ztake 16 tag) then
              let* out2 := put len [] out1 in
              Ok (len + 0, c2, out2)
            else Ok (-1, c2, out1)
        else Ok (-1, c1, out1)
      else Ok (-1, c, out)
  end.

(** what read() of /dev/urandom does: fails, or delivers at most 16 bytes *)
Inductive rnd := RndErr | RndGot (b : list Z).

(** sys_cipher.c:7-24 [sys_genrand_16byte]. [dev]: whether the device can be opened and what
    reading it gives; [libc] is the sequence random() gives in a process that has never called
    srandom() (nobody in /repo/src does), from position [pos] on: the same in every process. *)
Fixpoint libc_bytes (libc : Z -> Z) (pos : Z) (n : nat) : list Z :=
  match n with O => [] | S n' => libc pos mod 256 :: libc_bytes libc (pos + 1) n' end.
Definition genrand (libc : Z -> Z) (pos : Z) (dev : option rnd) (buf : list Z)
  : res (Z * list Z) :=
  match dev with
  | Some RndErr => Ok (-1, buf)
  | Some (RndGot b) => let* buf' := put 0 (ztake 16 b) buf in Ok (0, buf')
  | None => let* buf' := put 0 (libc_bytes libc pos 16) buf in Ok (0, buf')
  end.
