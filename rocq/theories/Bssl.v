(** Model of src/crypto/crypto_boringssl.cpp, part 1: digest, HMAC, HKDF and RFC 6979 generation of the BoringSSL back end.

    BoringSSL itself is not modelled. Its functions are parameters ([Bssl]): what they compute, and for each call whether it reports a
    failure. Statements quantify over all of these. The conventions for buffers, sizes and contexts are those of Crypto.v. *)
From Coq Require Import List NArith ZArith Bool Strings.Byte.
From Verif Require Import Base Res SpecDigits Crypto.
Import ListNotations.
Open Scope N_scope.

(** The calls that can report a failure. Calls within loops carry the iteration. [EVP_DigestUpdate], [EVP_DigestFinal] and [HMAC_Update] never fail
    in BoringSSL (their result is ignored by the code). *)
Inductive call :=
| c_md_ctx_new | c_digest_init | c_hmac_ctx_new | c_hmac_init | c_hmac_final
| c_hkdf | c_hkdf_extract | c_hkdf_expand
| c_evp_digest | c_bin2bn | c_rshift | c_bn_new | c_bn_sub | c_bn2bin          (* RFC 6979: the message *)
| c_warm_init (i : N) | c_warm_final (i : N) | c_warm_hmac (i : N)              (* the two warm-up rounds *)
| c_try_hmac (n : nat) (i : N) | c_try_bin2bn (n : nat) | c_try_rshift (n : nat)  (* the n-th candidate *)
| c_try_init (n : nat) | c_try_final (n : nat) | c_try_update (n : nat)
| c_new_ed_key | c_get_order | c_point_new | c_point_mul | c_ec_key_new | c_set_group | c_set_private | c_set_public | c_pkey_new
| c_sign_init | c_sign | c_sign_update (i : N) | c_sign_final
| c_i2d | c_raw_public.

(** The curves of EC_group_p256 and EC_group_p384. *)
Inductive curve := P256 | P384.

(** What BoringSSL computes. Algorithms are given by the library's enumeration value, for EVP_sha224 etc. *)
Class Bssl := {
  fails : call -> bool;
  evp_digest : N -> list byte -> list byte;                       (* message *)
  bssl_hmac : N -> list byte -> list byte -> list byte;           (* key, message *)
  bssl_hkdf_extract : N -> list byte -> list byte -> list byte;   (* salt, input key *)
  bssl_hkdf_expand : N -> list byte -> list byte -> N -> option (list byte);  (* key, info, length; None: the call reports an error *)
  ed25519_public : list byte -> list byte;                        (* private key *)
  ed25519_sign : list byte -> list byte -> list byte;             (* private key, message *)
  curve_order : curve -> N;
  ec_public : curve -> N -> list byte;                            (* private key; the X9.62 encoding i2d_PublicKey gives *)
  ecdsa_sign : curve -> N -> N -> list byte -> list byte          (* private key, digest algorithm, message; the DER encoding *)
}.

(** Reading [n] bytes of input from a pointer. NULL is accepted with length 0. *)
Definition input (s : slice) : res (list byte) :=
  match sl_buf s with
  | None => if sl_size s =? 0 then Ret [] else Undef UBNullDeref
  | Some d => if len d <? sl_size s then Undef UBReadOob else Ret (takeN (sl_size s) d)
  end.

(** src/crypto/crypto_boringssl.cpp:74-87: whether there is an EVP_MD for the value; the value itself stands for it. *)
Definition digest_enum_to_bssl_evp_md (alg : N) : bool :=
  (alg =? sha2_224_e) || (alg =? sha2_256_e) || (alg =? sha2_384_e) || (alg =? sha2_512_e).

(** src/crypto/crypto_boringssl.cpp:89-102 *)
Definition bssl_digest_enum_to_size (alg : N) : N :=
  if alg =? sha2_224_e then 28
  else if alg =? sha2_256_e then 32
  else if alg =? sha2_384_e then 48
  else if alg =? sha2_512_e then 64
  else 0.

(** [buffer == nullptr && size != 0] *)
Definition bssl_null_slice (s : slice) : bool := match sl_buf s with None => negb (sl_size s =? 0) | Some _ => false end.
Definition null {A} (p : option A) : bool := match p with None => true | Some _ => false end.

(** The result of a function returning std::variant<n20_error_t, T>. *)
Definition variant (A : Type) : Type := error + A.
Definition fail {A} (e : error) : res (variant A) := Ret (inl e).
Notation "'need' b 'else' e ; f" := (if b then f else fail e) (at level 200, b at level 100, e at level 100, f at level 200, right associativity).
Notation "'try' x <- e ; f" :=
  (bind e (fun r => match r with inl err => fail err | inr x => f end)) (at level 200, x pattern, e at level 100, f at level 200, right associativity).

Section WithBssl.
Context `{B : Bssl}.

(** src/crypto/crypto_boringssl.cpp:153-162 (and 221-227, 372-379, 829-841): slices [i], [i+1], ..., [n] of them. [acc] is what the context has
    absorbed, or the contents of the vector. [upd i] tells whether taking in slice [i] fails. *)
Fixpoint bssl_slices (upd : N -> bool) (n : nat) (i : N) (l : list slice) (acc : list byte) : res (error * list byte) :=
  match n with
  | O => Ret (ok_e, acc)
  | S n =>
      do s <- get l i;
      if sl_size s =? 0 then bssl_slices upd n (i + 1) l acc
      else if null (sl_buf s) then Ret (unexpected_null_slice_e, acc)
      else
        do b <- input s;
        if upd i then Ret (implementation_specific_e, acc) else bssl_slices upd n (i + 1) l (acc ++ b)
  end.
Definition never (_ : N) : bool := false.

(** src/crypto/crypto_boringssl.cpp:149-163 *)
Fixpoint bssl_lists (n : nat) (j : N) (msgs : list gather) (acc : list byte) : res (error * list byte) :=
  match n with
  | O => Ret (ok_e, acc)
  | S n =>
      do g <- get msgs j;
      match g_list g with
      | None => bssl_lists n (j + 1) msgs acc
      | Some l =>
          if g_count g =? 0 then bssl_lists n (j + 1) msgs acc
          else
            do (rc, acc) <- bssl_slices never (N.to_nat (g_count g)) 0 l acc;
            match rc with
            | ok_e => bssl_lists n (j + 1) msgs acc
            | _ => Ret (rc, acc)
            end
      end
  end.

(** src/crypto/crypto_boringssl.cpp:104-171. The result of EVP_MD_CTX_new is not checked before it is used. *)
Definition n20_crypto_boringssl_digest (ctx : bool) : digest_fn := fun alg msg_in msg_count digest_out size_in_out =>
  if negb ctx then Ret (invalid_context_e, digest_out, size_in_out) else
  if negb (digest_enum_to_bssl_evp_md alg) then Ret (unknown_algorithm_e, digest_out, size_in_out) else
  let digest_size := bssl_digest_enum_to_size alg in
  match size_in_out with
  | None => Ret (unexpected_null_size_e, digest_out, size_in_out)
  | Some size =>
  if (size <? digest_size) || null digest_out then Ret (insufficient_buffer_size_e, digest_out, Some digest_size) else
  match msg_in with
  | None => Ret (unexpected_null_data_e, digest_out, size_in_out)
  | Some msgs =>
  do first <- get msgs 0;
  if negb (g_count first =? 0) && null (g_list first) then Ret (unexpected_null_list_e, digest_out, size_in_out) else
  if fails c_md_ctx_new then Undef UBNullDeref else
  if fails c_digest_init then Ret (no_resources_e, digest_out, size_in_out) else
  do (rc, acc) <- bssl_lists (N.to_nat msg_count) 0 msgs [];
  match rc with
  | ok_e =>
      let md := evp_digest alg acc in
      do out <- store digest_out md;
      Ret (ok_e, out, Some (len md))
  | _ => Ret (rc, digest_out, size_in_out)
  end
  end
  end.

(** src/crypto/crypto_boringssl.cpp:173-235 *)
Definition n20_crypto_boringssl_hmac (ctx : bool) : hmac_fn := fun alg key msg_in mac_out size_in_out =>
  if negb ctx then Ret (invalid_context_e, mac_out, size_in_out) else
  match size_in_out with
  | None => Ret (unexpected_null_size_e, mac_out, size_in_out)
  | Some size =>
  if fails c_hmac_ctx_new then Ret (no_resources_e, mac_out, size_in_out) else
  if negb (digest_enum_to_bssl_evp_md alg) then Ret (unknown_algorithm_e, mac_out, size_in_out) else
  if bssl_null_slice key then Ret (unexpected_null_slice_key_e, mac_out, size_in_out) else
  let digest_size := bssl_digest_enum_to_size alg in
  if (size <? digest_size) || null mac_out then Ret (insufficient_buffer_size_e, mac_out, Some digest_size) else
  match msg_in with
  | None => Ret (unexpected_null_data_e, mac_out, size_in_out)
  | Some msg =>
  if negb (g_count msg =? 0) && null (g_list msg) then Ret (unexpected_null_list_e, mac_out, size_in_out) else
  do k <- input key;
  if fails c_hmac_init then Ret (no_resources_e, mac_out, size_in_out) else
  do (rc, acc) <- match g_list msg with
                  | None => Ret (ok_e, [])
                  | Some l => bssl_slices never (N.to_nat (g_count msg)) 0 l []
                  end;
  match rc with
  | ok_e =>
      if fails c_hmac_final then Ret (implementation_specific_e, mac_out, size_in_out) else
      let mac := bssl_hmac alg k acc in
      do out <- store mac_out mac;
      Ret (ok_e, out, Some (len mac))
  | _ => Ret (rc, mac_out, size_in_out)
  end
  end
  end.

(** src/crypto/crypto_boringssl.cpp:237-282. [HKDF] of BoringSSL is its HKDF_extract followed by its HKDF_expand; it writes nothing when it fails. *)
Definition n20_crypto_boringssl_hkdf (ctx : bool) : hkdf_fn := fun alg ikm salt info key_octets out =>
  if negb ctx then Ret (invalid_context_e, out) else
  if negb (digest_enum_to_bssl_evp_md alg) then Ret (unknown_algorithm_e, out) else
  if bssl_null_slice ikm then Ret (unexpected_null_slice_ikm_e, out) else
  if bssl_null_slice salt then Ret (unexpected_null_slice_salt_e, out) else
  if bssl_null_slice info then Ret (unexpected_null_slice_info_e, out) else
  if negb (key_octets =? 0) && null out then Ret (insufficient_buffer_size_e, out) else
  do i <- input ikm;
  do s <- input salt;
  do f <- input info;
  if fails c_hkdf then Ret (implementation_specific_e, out) else
  match bssl_hkdf_expand alg (bssl_hkdf_extract alg s i) f key_octets with
  | None => Ret (implementation_specific_e, out)
  | Some okm => do out <- store out okm; Ret (ok_e, out)
  end.

(** src/crypto/crypto_boringssl.cpp:284-322 *)
Definition n20_crypto_boringssl_hkdf_extract (ctx : bool) : extract_fn := fun alg ikm salt prk size_in_out =>
  if negb ctx then Ret (invalid_context_e, prk, size_in_out) else
  if negb (digest_enum_to_bssl_evp_md alg) then Ret (unknown_algorithm_e, prk, size_in_out) else
  if bssl_null_slice ikm then Ret (unexpected_null_slice_ikm_e, prk, size_in_out) else
  if bssl_null_slice salt then Ret (unexpected_null_slice_salt_e, prk, size_in_out) else
  match size_in_out with
  | None => Ret (unexpected_null_size_e, prk, size_in_out)
  | Some size =>
  let digest_size := bssl_digest_enum_to_size alg in
  if (size <? digest_size) || null prk then Ret (insufficient_buffer_size_e, prk, Some digest_size) else
  do i <- input ikm;
  do s <- input salt;
  if fails c_hkdf_extract then Ret (implementation_specific_e, prk, size_in_out) else
  let k := bssl_hkdf_extract alg s i in
  do out <- store prk k;
  Ret (ok_e, out, Some (len k))
  end.

(** src/crypto/crypto_boringssl.cpp:324-359 *)
Definition n20_crypto_boringssl_hkdf_expand (ctx : bool) : expand_fn := fun alg prk info key_octets out =>
  if negb ctx then Ret (invalid_context_e, out) else
  if negb (digest_enum_to_bssl_evp_md alg) then Ret (unknown_algorithm_e, out) else
  if bssl_null_slice prk then Ret (unexpected_null_slice_prk_e, out) else
  if bssl_null_slice info then Ret (unexpected_null_slice_info_e, out) else
  if key_octets =? 0 then Ret (ok_e, out) else
  if null out then Ret (insufficient_buffer_size_e, out) else
  do p <- input prk;
  do f <- input info;
  if fails c_hkdf_expand then Ret (implementation_specific_e, out) else
  match bssl_hkdf_expand alg p f key_octets with
  | None => Ret (implementation_specific_e, out)
  | Some okm => do out <- store out okm; Ret (ok_e, out)
  end.

(** src/crypto/crypto_boringssl.cpp:361-382 *)
Definition gather_list_to_vector (list_ : option gather) : res (error * list byte) :=
  match list_ with
  | None => Ret (unexpected_null_data_e, [])
  | Some g =>
      match g_list g with
      | None => if g_count g =? 0 then Ret (ok_e, []) else Ret (unexpected_null_list_e, [])
      | Some l => bssl_slices never (N.to_nat (g_count g)) 0 l []
      end
  end.

(** ** RFC 6979: src/crypto/crypto_boringssl.cpp:405-587

    A BIGNUM is a number (the code only makes non-negative ones, except for the difference [h1_bn2], whose sign is tested). The bit
    counts are far below the limits of [unsigned int] and [size_t] (BoringSSL bounds the size of a BIGNUM), so their arithmetic is exact here. *)

(** [BN_bn2bin_padded]: fails if the number does not fit. *)
Definition BN_bn2bin_padded (n rlen : N) : option (list byte) :=
  if n <? 256 ^ rlen then Some (be_bytes (N.to_nat rlen) n) else None.

(** src/crypto/crypto_boringssl.cpp:422-477 *)
Definition k_message (m : option (list byte)) (alg digest_size qlen rlen q : N) : res (variant (list byte)) :=
  match m with
  | None => Ret (inr [])
  | Some m =>
      let h1_digest := evp_digest alg m in
      need negb (fails c_evp_digest) && (len h1_digest =? digest_size) else implementation_specific_e;
      need negb (fails c_bin2bn) else no_resources_e;
      let h1_bn := be_val h1_digest in
      try h1_bn <- (if qlen <? len h1_digest * 8
                    then need negb (fails c_rshift) else no_resources_e; Ret (inr (N.shiftr h1_bn (len h1_digest * 8 - qlen)))
                    else Ret (inr h1_bn));
      need negb (fails c_bn_new) else no_resources_e;
      need negb (fails c_bn_sub) else no_resources_e;
      let h1_bn2 := (Z.of_N h1_bn - Z.of_N q)%Z in
      match fails c_bn2bin, BN_bn2bin_padded (if (h1_bn2 <? 0)%Z then h1_bn else Z.to_N h1_bn2) rlen with
      | false, Some h1 => Ret (inr h1)
      | _, _ => fail no_resources_e
      end
  end.

(** src/crypto/crypto_boringssl.cpp:499-522: one warm-up round with the given octet. *)
Definition k_warm_up (alg digest_size : N) (x h1 : list byte) (octet : N) (K V : list byte) : res (variant (list byte * list byte)) :=
  need negb (fails (c_warm_init octet)) else no_resources_e;
  let K := bssl_hmac alg K (V ++ [n2b octet] ++ x ++ h1) in
  need negb (fails (c_warm_final octet)) && (len K =? digest_size) else implementation_specific_e;
  let V := bssl_hmac alg K V in
  need negb (fails (c_warm_hmac octet)) && (len V =? digest_size) else implementation_specific_e;
  Ret (inr (K, V)).

(** src/crypto/crypto_boringssl.cpp:541-549: [i] counts up, [k] iterations are left. Writing V at offset [i * digest_size] of the zeroed T appends it. *)
Fixpoint k_fill (n : nat) (alg digest_size : N) (k : nat) (i : N) (K V T : list byte) : res (variant (list byte * list byte)) :=
  match k with
  | O => Ret (inr (V, T))
  | S k =>
      let V := bssl_hmac alg K V in
      need negb (fails (c_try_hmac n i)) && (len V =? digest_size) else implementation_specific_e;
      k_fill n alg digest_size k (i + 1) K V (T ++ V)
  end.

(** src/crypto/crypto_boringssl.cpp:536-586: the loop, from the [n]-th candidate on. [fuel] bounds the number of candidates; the loop has no bound. *)
Fixpoint k_loop (fuel : nat) (n : nat) (alg digest_size qlen q : N) (K V : list byte) : res (variant N) :=
  match fuel with
  | O => OutOfFuel
  | S fuel =>
      let iterations := (qlen + digest_size * 8 - 1) / (digest_size * 8) in
      try (V, T) <- k_fill n alg digest_size (N.to_nat iterations) 0 K V [];
      need negb (fails (c_try_bin2bn n)) else no_resources_e;
      need negb (fails (c_try_rshift n)) else no_resources_e;
      let k := N.shiftr (be_val T) (len T * 8 - qlen) in
      if negb (k =? 0) && (k <? q) then Ret (inr k)
      else
        need negb (fails (c_try_init n)) else no_resources_e;
        let K := bssl_hmac alg K (V ++ [x00]) in
        need negb (fails (c_try_final n)) && (len K =? digest_size) else implementation_specific_e;
        let V := bssl_hmac alg K V in
        need negb (fails (c_try_update n)) && (len V =? digest_size) else implementation_specific_e;
        k_loop fuel (S n) alg digest_size qlen q K V
  end.

(** src/crypto/crypto_boringssl.cpp:405-587 (and 589-595, which exports it for testing) *)
Definition rfc6979_k_generation (fuel : nat) (x : list byte) (m : option (list byte)) (alg q : N) : res (variant N) :=
  need digest_enum_to_bssl_evp_md alg else unknown_algorithm_e;
  let digest_size := bssl_digest_enum_to_size alg in
  let qlen := N.size q in
  let rlen := (qlen + 7) / 8 in
  try h1 <- k_message m alg digest_size qlen rlen q;
  let V := repeat x01 (N.to_nat digest_size) in
  let K := repeat x00 (N.to_nat digest_size) in
  need negb (fails c_hmac_ctx_new) else no_resources_e;
  try (K, V) <- k_warm_up alg digest_size x h1 0 K V;
  try (K, V) <- k_warm_up alg digest_size x h1 1 K V;
  k_loop fuel 0 alg digest_size qlen q K V.

End WithBssl.
