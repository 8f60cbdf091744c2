(** Model of src/crypto/crypto_boringssl.cpp, part 2: key objects and handles, kdf, sign, key_get_public_key, key_free and make_secret. *)
From Coq Require Import List NArith ZArith Bool Strings.Byte.
From Verif Require Import Base Res SpecDigits Crypto Bssl.
Import ListNotations.
Open Scope N_scope.

(** include/nat20/crypto.h:66-99 n20_crypto_key_type_t; other values are out of range. *)
Definition key_type_none_e : N := 0.
Definition key_type_secp256r1_e : N := 1.
Definition key_type_secp384r1_e : N := 2.
Definition key_type_ed25519_e : N := 3.
Definition key_type_cdi_e : N := 4.

(** The contents of an EVP_PKEY: an Ed25519 private key or an EC private key. *)
Inductive pkey := Ed25519 (seed : list byte) | EC (c : curve) (d : N).

(** src/crypto/crypto_boringssl.cpp:59-72: the [type] member of the base class, and the members of the derived class. *)
Inductive key_body := Cdi (bits : list byte) | Evp (key : pkey).
Record key_obj := mkKey { k_type : N; k_body : key_body }.

(** The heap: the key objects by address. A handle is an address; 0 is NULL. Memory safety of the key objects is all that is
    modelled: an access through an address that is not allocated is undefined. *)
Definition heap := list (N * key_obj).
Definition find_key (h : heap) (a : N) : option key_obj := option_map snd (find (fun p => fst p =? a) h).
Definition load_key (h : heap) (a : N) : res key_obj :=
  match find_key h a with Some k => Ret k | None => Undef UBReadOob end.
Definition remove_key (h : heap) (a : N) : heap := filter (fun p => negb (fst p =? a)) h.

(** [new]: the address the allocator picks. *)
Class Allocator := { fresh : heap -> N }.
Definition allocator_ok (A : Allocator) : Prop := forall h, fresh h <> 0 /\ find_key h (fresh h) = None.

(** static_cast to a derived class; if the object is of another class this is undefined. *)
Definition as_cdi (k : key_obj) : res (list byte) := match k_body k with Cdi b => Ret b | Evp _ => Undef UBReadOob end.
Definition as_evp (k : key_obj) : res pkey := match k_body k with Evp p => Ret p | Cdi _ => Undef UBReadOob end.

(** Copying [n] bytes out of or into an array at an offset. *)
Definition read_at (d : list byte) (off n : N) : res (list byte) :=
  if off + n <=? len d then Ret (takeN n (dropN off d)) else Undef UBReadOob.
Definition write_at (d : list byte) (off : N) (src : list byte) : res (list byte) :=
  if off + len src <=? len d then Ret (takeN off d ++ src ++ dropN (off + len src) d) else Undef UBWriteOob.

Section WithBssl.
Context `{B : Bssl} `{A : Allocator}.

(** What an operation that creates a key leaves: the heap and the contents of [*key_out] ([None]: [key_out] is NULL). *)
Definition create (h : heap) (k : key_obj) : error * heap * option N := let a := fresh h in (ok_e, (a, k) :: h, Some a).

(** src/crypto/crypto_boringssl.cpp:664-728: the EC key for the given curve. *)
Definition kdf_ec (fuel : nat) (key_type : N) (c : curve) (derived : list byte) : res (variant key_obj) :=
  need negb (fails c_get_order) else implementation_specific_e;
  try k <- rfc6979_k_generation fuel derived None sha2_512_e (curve_order c);
  need negb (fails c_point_new) else no_resources_e;
  need negb (fails c_point_mul) else implementation_specific_e;
  need negb (fails c_ec_key_new) else no_resources_e;
  need negb (fails c_set_group) else implementation_specific_e;
  need negb (fails c_set_private) else implementation_specific_e;
  need negb (fails c_set_public) else implementation_specific_e;
  need negb (fails c_pkey_new) else no_resources_e;
  Ret (inr (mkKey key_type (Evp (EC c k)))).

(** src/crypto/crypto_boringssl.cpp:641-733: the switch over the key type. *)
Definition kdf_key (fuel : nat) (key_type : N) (derived : list byte) : res (variant key_obj) :=
  if key_type =? key_type_ed25519_e then
    need negb (fails c_new_ed_key) else implementation_specific_e;
    Ret (inr (mkKey key_type (Evp (Ed25519 derived))))
  else if key_type =? key_type_cdi_e then Ret (inr (mkKey key_type (Cdi derived)))
  else if (key_type =? key_type_secp256r1_e) || (key_type =? key_type_secp384r1_e) then
    kdf_ec fuel key_type (if key_type =? key_type_secp256r1_e then P256 else P384) derived
  else fail invalid_key_type_e.

(** src/crypto/crypto_boringssl.cpp:597-734. [key_out] is the previous contents of [*key_out]. *)
Definition n20_crypto_boringssl_kdf (fuel : nat) (ctx : bool) (h : heap) (key_in key_type : N) (context_in : option gather) (key_out : option N)
  : res (error * heap * option N) :=
  if negb ctx then Ret (invalid_context_e, h, key_out) else
  if key_in =? 0 then Ret (unexpected_null_key_in_e, h, key_out) else
  do k <- load_key h key_in;
  if negb (k_type k =? key_type_cdi_e) then Ret (invalid_key_e, h, key_out) else
  do bits <- as_cdi k;
  match key_out with
  | None => Ret (unexpected_null_key_out_e, h, key_out)
  | Some _ =>
  do (rc, context) <- gather_list_to_vector context_in;
  match rc with
  | ok_e =>
      match fails c_hkdf_expand, bssl_hkdf_expand sha2_512_e bits context 32 with
      | false, Some derived =>
          do r <- kdf_key fuel key_type derived;
          match r with
          | inl e => Ret (e, h, key_out)
          | inr new => Ret (create h new)
          end
      | _, _ => Ret (implementation_specific_e, h, key_out)
      end
  | _ => Ret (rc, h, key_out)
  end
  end.

(** src/crypto/crypto_boringssl.cpp:767-786: signature size and digest algorithm by key type. *)
Definition sign_params (type_ : N) : option (N * option N) :=
  if type_ =? key_type_ed25519_e then Some (64, None)
  else if type_ =? key_type_secp256r1_e then Some (64, Some sha2_256_e)
  else if type_ =? key_type_secp384r1_e then Some (96, Some sha2_384_e)
  else None.

(** src/crypto/crypto_boringssl.cpp:856-897: the integers of the DER signature in [buf] are written to [out]. Bytes of [signature_buffer] behind the
    signature are not initialised; reading them is reported as undefined. *)
Definition unwrap_signature (buf out : list byte) (signature_size : N) : res (list byte) :=
  let integer_size := signature_size / 2 in
  do r_size <- get buf 3;
  let r_size := b2n r_size in
  do s_size <- get buf (5 + r_size);
  let s_size := b2n s_size in
  let r_offset := 4 in
  let s_offset := 6 + r_size in
  let '(r_offset, r_size) := if r_size =? integer_size + 1 then (r_offset + 1, r_size - 1) else (r_offset, r_size) in
  let '(s_offset, s_size) := if s_size =? integer_size + 1 then (s_offset + 1, s_size - 1) else (s_offset, s_size) in
  do out <- write_at out 0 (repeat x00 (N.to_nat signature_size));
  if (integer_size <? r_size) || (integer_size + integer_size <? s_size) then Undef UBPtrArith else
  do r <- read_at buf r_offset r_size;
  do out <- write_at out (integer_size - r_size) r;
  do s <- read_at buf s_offset s_size;
  write_at out (integer_size + integer_size - s_size) s.

(** src/crypto/crypto_boringssl.cpp:794-813: Ed25519 *)
Definition sign_ed25519 (p : pkey) (msg_in : option gather) (out : list byte) (size : option N) : res outcome :=
  if fails c_sign_init then Ret (implementation_specific_e, Some out, size) else
  do (rc, msg) <- gather_list_to_vector msg_in;
  match rc with
  | ok_e =>
      match p with
      | Ed25519 seed =>
          let sig := ed25519_sign seed msg in
          if fails c_sign then Ret (implementation_specific_e, Some out, size) else
          do out <- write_at out 0 sig;
          Ret (ok_e, Some out, Some (len sig))
      | EC _ _ => Ret (implementation_specific_e, Some out, size)  (* EVP_DigestSign without a digest fails for an EC key *)
      end
  | _ => Ret (rc, Some out, size)
  end.

(** src/crypto/crypto_boringssl.cpp:815-901: ECDSA. From line 847 on the size parameter has been overwritten with the size of the local buffer. *)
Definition sign_ecdsa (p : pkey) (md signature_size : N) (msg_in : option gather) (out : list byte) (size : option N) : res outcome :=
  match msg_in with
  | None => Ret (unexpected_null_data_e, Some out, size)
  | Some msg =>
  if negb (g_count msg =? 0) && null (g_list msg) then Ret (unexpected_null_list_e, Some out, size) else
  if fails c_sign_init then Ret (implementation_specific_e, Some out, size) else
  do (rc, m) <- match g_list msg with
                | None => Ret (ok_e, [])
                | Some l => bssl_slices (fun i => fails (c_sign_update i)) (N.to_nat (g_count msg)) 0 l []
                end;
  match rc with
  | ok_e =>
      match p with
      | EC c d =>
          let der := ecdsa_sign c d md m in
          if fails c_sign_final then Ret (implementation_specific_e, Some out, Some 104)
          else if 104 <? len der then Undef UBWriteOob
          else
            do out <- unwrap_signature der out signature_size;
            Ret (ok_e, Some out, Some signature_size)
      | Ed25519 _ => Ret (implementation_specific_e, Some out, size)  (* EVP_DigestSignInit with a digest fails for an Ed25519 key *)
      end
  | _ => Ret (rc, Some out, size)
  end
  end.

(** src/crypto/crypto_boringssl.cpp:736-906 *)
Definition n20_crypto_boringssl_sign (ctx : bool) (h : heap) (key_in : N) (msg_in : option gather) (signature_out : ptr) (size_in_out : option N)
  : res outcome :=
  if negb ctx then Ret (invalid_context_e, signature_out, size_in_out) else
  if key_in =? 0 then Ret (unexpected_null_key_in_e, signature_out, size_in_out) else
  match size_in_out with
  | None => Ret (unexpected_null_size_e, signature_out, size_in_out)
  | Some size =>
  do k <- load_key h key_in;
  if k_type k =? key_type_cdi_e then Ret (invalid_key_e, signature_out, size_in_out) else
  do p <- as_evp k;
  if fails c_md_ctx_new then Ret (no_resources_e, signature_out, size_in_out) else
  match sign_params (k_type k) with
  | None => Ret (invalid_key_e, signature_out, size_in_out)
  | Some (signature_size, md) =>
      match signature_out with
      | None => Ret (insufficient_buffer_size_e, signature_out, Some signature_size)
      | Some out =>
          if size <? signature_size then Ret (insufficient_buffer_size_e, signature_out, Some signature_size)
          else match md with
               | None => sign_ed25519 p msg_in out size_in_out
               | Some md => sign_ecdsa p md signature_size msg_in out size_in_out
               end
      end
  end
  end.

(** src/crypto/crypto_boringssl.cpp:929-943 *)
Definition public_key_size (type_ : N) : option N :=
  if type_ =? key_type_ed25519_e then Some 32
  else if type_ =? key_type_secp256r1_e then Some 64
  else if type_ =? key_type_secp384r1_e then Some 96
  else None.

(** src/crypto/crypto_boringssl.cpp:912-1001 *)
Definition n20_crypto_boringssl_key_get_public_key (ctx : bool) (h : heap) (key_in : N) (public_key_out : ptr) (size_in_out : option N) : res outcome :=
  if negb ctx then Ret (invalid_context_e, public_key_out, size_in_out) else
  if key_in =? 0 then Ret (unexpected_null_key_in_e, public_key_out, size_in_out) else
  match size_in_out with
  | None => Ret (unexpected_null_size_e, public_key_out, size_in_out)
  | Some size =>
  do k <- load_key h key_in;
  match public_key_size (k_type k) with
  | None => Ret (invalid_key_e, public_key_out, size_in_out)
  | Some required_size =>
  match public_key_out with
  | None => Ret (insufficient_buffer_size_e, public_key_out, Some required_size)
  | Some out =>
  if size <? required_size then Ret (insufficient_buffer_size_e, public_key_out, Some required_size) else
  do p <- as_evp k;
  match p with
  | EC c d =>
      if negb (k_type k =? key_type_secp256r1_e) && negb (k_type k =? key_type_secp384r1_e)
      then Ret (implementation_specific_e, public_key_out, size_in_out) else
      if fails c_i2d then Ret (no_resources_e, public_key_out, size_in_out) else
      let info := ec_public c d in
      if negb (len info =? required_size + 1) then Ret (implementation_specific_e, public_key_out, Some required_size) else
      do first <- get info 0;
      if negb (b2n first =? 4) then Ret (implementation_specific_e, public_key_out, Some required_size) else
      do xy <- read_at info 1 required_size;
      do out <- write_at out 0 xy;
      Ret (ok_e, Some out, Some required_size)
  | Ed25519 seed =>
      if negb (k_type k =? key_type_ed25519_e) then Ret (implementation_specific_e, public_key_out, size_in_out) else
      if fails c_raw_public then Ret (implementation_specific_e, public_key_out, size_in_out) else
      let pk := ed25519_public seed in
      do out <- write_at out 0 pk;
      if negb (len pk =? 32) then Ret (implementation_specific_e, Some out, Some (len pk)) else
      Ret (ok_e, Some out, Some (len pk))
  end
  end
  end
  end.

(** src/crypto/crypto_boringssl.cpp:1003-1018 *)
Definition n20_crypto_boringssl_key_free (ctx : bool) (h : heap) (key_in : N) : res (error * heap) :=
  if negb ctx then Ret (invalid_context_e, h) else
  if key_in =? 0 then Ret (ok_e, h) else
  do _ <- load_key h key_in;
  Ret (ok_e, remove_key h key_in).

(** src/crypto/crypto_boringssl.cpp:1048-1073 *)
Definition n20_crypto_boringssl_make_secret (ctx : bool) (h : heap) (secret_in : option slice) (key_out : option N) : res (error * heap * option N) :=
  if negb ctx then Ret (invalid_context_e, h, key_out) else
  match secret_in with
  | None => Ret (unexpected_null_data_e, h, key_out)
  | Some s =>
  if null (sl_buf s) || (sl_size s =? 0) then Ret (unexpected_null_data_e, h, key_out) else
  match key_out with
  | None => Ret (unexpected_null_key_out_e, h, key_out)
  | Some _ =>
  do b <- input s;
  Ret (create h (mkKey key_type_cdi_e (Cdi b)))
  end
  end.

(** src/crypto/crypto_boringssl.cpp:1020-1028: the table of functions. The members of n20_crypto_context_t (include/nat20/crypto.h:488-740), without the
    context argument; the embedded digest context is [digest_context]. *)
Record crypto_context := mkCryptoContext {
  cc_digest_ctx : digest_context;
  cc_kdf : nat -> heap -> N -> N -> option gather -> option N -> res (error * heap * option N);
  cc_sign : heap -> N -> option gather -> ptr -> option N -> res outcome;
  cc_key_get_public_key : heap -> N -> ptr -> option N -> res outcome;
  cc_key_free : heap -> N -> res (error * heap)
}.
Definition bssl_ctx : crypto_context :=
  mkCryptoContext
    (mkContext (n20_crypto_boringssl_digest true) (n20_crypto_boringssl_hmac true) (n20_crypto_boringssl_hkdf true)
               (n20_crypto_boringssl_hkdf_extract true) (n20_crypto_boringssl_hkdf_expand true))
    (fun fuel => n20_crypto_boringssl_kdf fuel true) (n20_crypto_boringssl_sign true) (n20_crypto_boringssl_key_get_public_key true)
    (n20_crypto_boringssl_key_free true).

(** src/crypto/crypto_boringssl.cpp:1030-1046: NULL or not; opening stores the address of the table above. *)
Definition n20_crypto_boringssl_open (ctx_out : bool) : error * option crypto_context :=
  if ctx_out then (ok_e, Some bssl_ctx) else (unexpected_null_e, None).
Definition n20_crypto_boringssl_close (ctx : bool) : error := if ctx then ok_e else unexpected_null_e.

End WithBssl.
