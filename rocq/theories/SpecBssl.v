(** Specifications for the BoringSSL back end: what is assumed of BoringSSL, RFC 6979, the signature formats, the derived keys and the
    contracts of include/nat20/crypto.h for keys. *)
From Coq Require Import List NArith ZArith Bool Strings.Byte.
From Verif Require Import Base Res SpecDigits SpecDer SpecSha2 SpecMac Crypto SpecCrypto Bssl BsslKeys.
Import ListNotations.
Open Scope N_scope.

(** ** Assumptions about BoringSSL *)

(** No call fails. *)
Definition no_failure (B : Bssl) : Prop := forall c, fails c = false.
(** BoringSSL's functions compute the standard ones. HKDF_expand reports an error for more than 255 blocks, as RFC 5869 demands. *)
Definition computes_sha2 (B : Bssl) : Prop := forall alg A, algorithm alg = Some A ->
  (forall m, evp_digest alg m = hash A m) /\
  (forall k m, bssl_hmac alg k m = HMAC A k m) /\
  (forall s i, bssl_hkdf_extract alg s i = HKDF_extract A s i) /\
  (forall p f L, bssl_hkdf_expand alg p f L = if L <=? 255 * out_bytes A then Some (HKDF_expand A p f L) else None).

(** ** Digest, HMAC, HKDF: the contract of SpecCrypto.v, under weaker preconditions *)

(** As [digest_pre], but any gather list may have a NULL list, and there is no limit on the number of bytes. *)
Definition bssl_gather_ok `{Env} (g : gather) : Prop := gather_ok g \/ g_list g = None.
Definition bssl_digest_pre `{Env} (ms : option (list gather)) (count : N) (out : ptr) (size : option N) : Prop :=
  out_ok out size /\
  match ms with None => True | Some [] => False | Some ms => count <= len ms /\ Forall bssl_gather_ok (takeN count ms) end.
Definition bssl_hmac_pre `{Env} (key : slice) (m : option gather) (out : ptr) (size : option N) : Prop :=
  slice_ok key /\ out_ok out size /\ match m with None => True | Some g => bssl_gather_ok g end.
(** The order of the first two checks is exchanged. *)
Definition bssl_hmac_errors (ctx : bool) alg key m out size : list (bool * error) :=
  [ (negb ctx, invalid_context_e);
    (is_none size, unexpected_null_size_e);
    (is_none (algorithm alg), unknown_algorithm_e);
    (missing key, unexpected_null_slice_key_e);
    (too_small out size (required alg), insufficient_buffer_size_e);
    (is_none m, unexpected_null_data_e);
    (head_null_list (one m), unexpected_null_list_e);
    (has_missing (one m) 1, unexpected_null_slice_e) ].
Definition bssl_hmac_report ctx alg key m out size : outcome :=
  report (bssl_hmac_errors ctx alg key m out size) (required alg)
    (result alg (fun A => HMAC A (slice_bytes key) (message_bytes (one m) 1))) out size.
Definition bssl_extract_pre `{Env} (ikm salt : slice) (out : ptr) (size : option N) : Prop :=
  slice_ok ikm /\ slice_ok salt /\ out_ok out size.
(** More output than RFC 5869 allows. *)
Definition too_long (alg L : N) : bool := 255 * required alg <? L.
Definition bssl_expand_errors (ctx : bool) alg prk info L out : list (bool * error) :=
  expand_errors ctx alg prk info L out ++ [(too_long alg L, implementation_specific_e)].
Definition bssl_expand_report ctx alg prk info L out : error * ptr :=
  report_key (bssl_expand_errors ctx alg prk info L out) L
    (result alg (fun A => HKDF_expand A (slice_bytes prk) (slice_bytes info) L)) out.
Definition bssl_expand_pre `{Env} (prk info : slice) (L : N) (out : ptr) : Prop := slice_ok prk /\ slice_ok info /\ okm_ok L out.
Definition bssl_hkdf_errors (ctx : bool) alg ikm salt info L out : list (bool * error) :=
  hkdf_errors ctx alg ikm salt info L out ++ [(too_long alg L, implementation_specific_e)].
Definition bssl_hkdf_report ctx alg ikm salt info L out : error * ptr :=
  report_key (bssl_hkdf_errors ctx alg ikm salt info L out) L
    (result alg (fun A => HKDF A (slice_bytes salt) (slice_bytes ikm) (slice_bytes info) L)) out.
Definition bssl_hkdf_pre `{Env} (ikm salt info : slice) (L : N) (out : ptr) : Prop :=
  slice_ok ikm /\ slice_ok salt /\ slice_ok info /\ okm_ok L out.

(** ** RFC 6979, for any HMAC and hash function with [hlen] octets of output *)
Section Rfc6979.
Variable H : list byte -> list byte -> list byte.    (* HMAC: key, data *)
Variable hlen : nat.
Variable q : N.

(** Section 2.1 *)
Definition qlen : N := N.size q.
Definition rlen : N := (qlen + 7) / 8.
(** Section 2.3.2: the leftmost [qlen] bits as a number. *)
Definition bits2int (b : list byte) : N :=
  if qlen <? 8 * len b then be_val b / 2 ^ (8 * len b - qlen) else be_val b.
(** Section 2.3.3, 2.3.4 *)
Definition int2octets (n : N) : list byte := be_bytes (N.to_nat rlen) n.
Definition bits2octets (b : list byte) : list byte := int2octets (bits2int b mod q).

(** What is hashed for private key octets [x] and message digest [h1]; deriving keys from seeds leaves out the digest. *)
Definition k_data (x : list byte) (h1 : option (list byte)) : list byte :=
  x ++ match h1 with Some h1 => bits2octets h1 | None => [] end.

(** Section 3.2 b-g. [data] is what follows the internal octet: int2octets(x) || bits2octets(h1). *)
Definition warmed_up (data : list byte) : list byte * list byte :=
  let V := repeat x01 hlen in
  let K := repeat x00 hlen in
  let K := H K (V ++ [x00] ++ data) in
  let V := H K V in
  let K := H K (V ++ [x01] ++ data) in
  let V := H K V in
  (K, V).
(** Section 3.2 h.2: append V = HMAC_K(V) to T while T has less than [qlen] bits. *)
Fixpoint grow (fuel : nat) (K V T : list byte) : list byte * list byte :=
  match fuel with
  | O => (V, T)
  | S fuel => if qlen <=? 8 * len T then (V, T) else let V := H K V in grow fuel K V (T ++ V)
  end.
Definition attempt (KV : list byte * list byte) : list byte * list byte := grow (N.to_nat qlen) (fst KV) (snd KV) [].
(** Section 3.2 h.3: after an unsuitable candidate. *)
Definition next (KV : list byte * list byte) : list byte * list byte :=
  let K := fst KV in
  let V := fst (attempt KV) in
  let K := H K (V ++ [x00]) in
  let V := H K V in
  (K, V).
Definition candidate (data : list byte) (i : nat) : N :=
  bits2int (snd (attempt (Nat.iter i next (warmed_up data)))).
Definition suitable (k : N) : bool := (1 <=? k) && (k <? q).
(** [k] is the first suitable candidate. *)
Definition is_rfc6979_k (data : list byte) (k : N) : Prop :=
  exists i, k = candidate data i /\ suitable k = true /\ forall j, (j < i)%nat -> suitable (candidate data j) = false.
(** The same among the first [fuel] candidates. *)
Definition first_suitable (data : list byte) (fuel : nat) : option N :=
  option_map (candidate data) (find (fun i => suitable (candidate data i)) (seq 0 fuel)).
End Rfc6979.

(** ** Signatures *)

(** The DER encoding of ECDSA-Sig-Value (RFC 3279 section 2.2.3). *)
Definition ecdsa_der (r s : N) : list byte :=
  enc_tlv (tlv_sequence (enc_tlv (tlv_integer (enc_int (Z.of_N r))) ++ enc_tlv (tlv_integer (enc_int (Z.of_N s))))).
Definition coordinate (c : curve) : N := match c with P256 => 32 | P384 => 48 end.
(** The format of include/nat20/crypto.h:571-580. *)
Definition raw_signature (c : curve) (r s : N) : list byte :=
  be_bytes (N.to_nat (coordinate c)) r ++ be_bytes (N.to_nat (coordinate c)) s.
Definition in_field (c : curve) (n : N) : Prop := n < 256 ^ coordinate c.

(** BoringSSL's signatures and keys have the documented formats. *)
Definition signs (B : Bssl) : Prop :=
  (forall seed m, len (ed25519_sign seed m) = 64) /\
  (forall c d alg m, exists r s, in_field c r /\ in_field c s /\ ecdsa_sign c d alg m = ecdsa_der r s).
Definition publishes (B : Bssl) : Prop :=
  (forall seed, len (ed25519_public seed) = 32) /\
  (forall c d, exists x y, in_field c x /\ in_field c y /\
     ec_public c d = x04 :: be_bytes (N.to_nat (coordinate c)) x ++ be_bytes (N.to_nat (coordinate c)) y).

(** ** Keys *)

(** The values of n20_crypto_key_type_t (include/nat20/crypto.h:66-99) for which there are keys: secrets and signing keys (no curve:
    Ed25519). *)
Inductive kind := Secret | Signing (c : option curve).
Definition kind_of (key_type : N) : option kind :=
  match key_type with
  | 1 => Some (Signing (Some P256))
  | 2 => Some (Signing (Some P384))
  | 3 => Some (Signing None)
  | 4 => Some Secret
  | _ => None
  end.

(** What a key handle stands for. *)
Inductive key := SecretKey (bits : list byte) | SigningKey (p : pkey).
Definition is_secret (k : key) : bool := match k with SecretKey _ => true | SigningKey _ => false end.
(** How the implementation represents it. *)
Definition object (k : key) : key_obj :=
  match k with
  | SecretKey bits => mkKey 4 (Cdi bits)
  | SigningKey (Ed25519 seed) => mkKey 3 (Evp (Ed25519 seed))
  | SigningKey (EC P256 d) => mkKey 1 (Evp (EC P256 d))
  | SigningKey (EC P384 d) => mkKey 2 (Evp (EC P384 d))
  end.

(** The key derived from a secret: include/nat20/crypto.h:495-516 leaves the function open. This one expands the secret to 32 octets
    with HKDF and SHA-512; they are the new secret or the Ed25519 key, or RFC 6979 makes a number below the order of the curve from them. *)
Definition derived (B : Bssl) (secret context : list byte) (ty : N) (k : key) : Prop :=
  let seed := HKDF_expand SHA512 secret context 32 in
  match kind_of ty with
  | Some Secret => k = SecretKey seed
  | Some (Signing None) => k = SigningKey (Ed25519 seed)
  | Some (Signing (Some c)) => exists d, is_rfc6979_k (HMAC SHA512) 64 (curve_order c) seed d /\ k = SigningKey (EC c d)
  | None => False
  end.

(** The signature and the public key of a key, in the formats of include/nat20/crypto.h:571-580 and 634-645. *)
Definition signature_octets (k : option key) : N :=
  match k with Some (SigningKey (EC P384 _)) => 96 | _ => 64 end.
Definition signature_of (B : Bssl) (k : option key) (m sig : list byte) : Prop :=
  match k with
  | Some (SigningKey (Ed25519 seed)) => sig = ed25519_sign seed m
  | Some (SigningKey (EC c d)) => exists r s, in_field c r /\ in_field c s /\
      ecdsa_sign c d (match c with P256 => 1 | P384 => 2 end) m = ecdsa_der r s /\ sig = raw_signature c r s
  | _ => True
  end.
Definition public_octets (k : option key) : N :=
  match k with Some (SigningKey (EC P384 _)) => 96 | Some (SigningKey (EC P256 _)) => 64 | _ => 32 end.
Definition public_of (B : Bssl) (k : option key) (pub : list byte) : Prop :=
  match k with
  | Some (SigningKey (Ed25519 seed)) => pub = ed25519_public seed
  | Some (SigningKey (EC c d)) => ec_public c d = x04 :: pub
  | _ => True
  end.

(** ** The contracts: include/nat20/crypto.h:548-565, 582-610, 654-676, include/nat20/crypto_bssl/crypto.h *)

(** [k]: the key behind the handle; [None]: the handle is NULL. *)
Definition wrong_kind (secret : bool) (k : option key) : bool :=
  match k with Some k => negb (Bool.eqb (is_secret k) secret) | None => false end.
Definition kdf_errors (ctx : bool) (k : option key) (ty : N) (context : option gather) (key_out : option N) : list (bool * error) :=
  [ (negb ctx, invalid_context_e);
    (is_none k, unexpected_null_key_in_e);
    (wrong_kind true k, invalid_key_e);
    (is_none key_out, unexpected_null_key_out_e);
    (is_none context, unexpected_null_data_e);
    (head_null_list (one context), unexpected_null_list_e);
    (has_missing (one context) 1, unexpected_null_slice_e);
    (is_none (kind_of ty), invalid_key_type_e) ].
Definition sign_errors (ctx : bool) (k : option key) (msg : option gather) (out : ptr) (size : option N) : list (bool * error) :=
  [ (negb ctx, invalid_context_e);
    (is_none k, unexpected_null_key_in_e);
    (is_none size, unexpected_null_size_e);
    (wrong_kind false k, invalid_key_e);
    (too_small out size (signature_octets k), insufficient_buffer_size_e);
    (is_none msg, unexpected_null_data_e);
    (head_null_list (one msg), unexpected_null_list_e);
    (has_missing (one msg) 1, unexpected_null_slice_e) ].
Definition public_errors (ctx : bool) (k : option key) (out : ptr) (size : option N) : list (bool * error) :=
  [ (negb ctx, invalid_context_e);
    (is_none k, unexpected_null_key_in_e);
    (is_none size, unexpected_null_size_e);
    (wrong_kind false k, invalid_key_e);
    (too_small out size (public_octets k), insufficient_buffer_size_e) ].
Definition secret_errors (ctx : bool) (secret : option slice) (key_out : option N) : list (bool * error) :=
  [ (negb ctx, invalid_context_e);
    (match secret with None => true | Some s => is_none (sl_buf s) || (sl_size s =? 0) end, unexpected_null_data_e);
    (is_none key_out, unexpected_null_key_out_e) ].

(** ** Histories *)

(** The keys behind the live handles. *)
Definition table := list (N * key).
Definition lookup (t : table) (a : N) : option key := option_map snd (find (fun p => fst p =? a) t).
Definition heap_of (t : table) : heap := map (fun p => (fst p, object (snd p))) t.

Inductive op :=
| MakeSecret (ctx : bool) (secret : option slice) (key_out : option N)
| Kdf (ctx : bool) (key_in key_type : N) (context : option gather) (key_out : option N)
| Sign (ctx : bool) (key_in : N) (msg : option gather) (out : ptr) (size : option N)
| Public (ctx : bool) (key_in : N) (out : ptr) (size : option N)
| Free (ctx : bool) (key_in : N).
(** The error code, and either the new contents of [*key_out] or of the output buffer and size. *)
Inductive reply := RKey (rc : error) (key_out : option N) | ROut (o : outcome) | RFree (rc : error).

(** A caller must use NULL or live handles and real buffers. *)
Definition handle_ok (live : N -> bool) (a : N) : Prop := a = 0 \/ live a = true.
Definition op_ok `{Env} (live : N -> bool) (o : op) : Prop :=
  match o with
  | MakeSecret _ s _ => match s with None => True | Some s => slice_ok s end
  | Kdf _ a _ c _ => handle_ok live a /\ match c with None => True | Some g => bssl_gather_ok g end
  | Sign _ a m out size => handle_ok live a /\ match m with None => True | Some g => bssl_gather_ok g end /\ out_ok out size
  | Public _ a out size => handle_ok live a /\ out_ok out size
  | Free _ a => handle_ok live a
  end.

(** A resource or implementation specific error, which only occurs if a call to BoringSSL has failed. *)
Definition resource_error (B : Bssl) (rc : error) : Prop :=
  (rc = no_resources_e \/ rc = implementation_specific_e) /\ exists c, fails c = true.

(** One call, on the table of keys. *)
Definition creates (B : Bssl) (t : table) (errors : list (bool * error)) (what : key -> Prop) (key_out : option N) (rc : error) (h : option N)
  (t' : table) : Prop :=
  (rc = first_error errors \/ resource_error B rc) /\
  match rc with
  | ok_e => exists a k, h = Some a /\ a <> 0 /\ lookup t a = None /\ what k /\ t' = (a, k) :: t
  | _ => h = key_out /\ t' = t
  end.
Definition handle_key (t : table) (a : N) : option key := if a =? 0 then None else lookup t a.
Definition lawful (B : Bssl) (t : table) (o : op) (r : reply) (t' : table) : Prop :=
  match o, r with
  | MakeSecret ctx s ko, RKey rc h =>
      creates B t (secret_errors ctx s ko) (fun k => match s with Some s => k = SecretKey (slice_bytes s) | None => False end) ko rc h t'
  | Kdf ctx a ty c ko, RKey rc h =>
      creates B t (kdf_errors ctx (handle_key t a) ty c ko)
        (fun k => exists bits, handle_key t a = Some (SecretKey bits) /\ derived B bits (message_bytes (one c) 1) ty k) ko rc h t'
  | Sign ctx a m out size, ROut o =>
      t' = t /\
      ((exists sig, signature_of B (handle_key t a) (message_bytes (one m) 1) sig /\
          o = report (sign_errors ctx (handle_key t a) m out size) (signature_octets (handle_key t a)) sig out size) \/
       exists e n, resource_error B e /\ o = (e, out, Some n) /\ (size = Some n \/ n = 104))
  | Public ctx a out size, ROut o =>
      t' = t /\
      ((exists pub, public_of B (handle_key t a) pub /\
          o = report (public_errors ctx (handle_key t a) out size) (public_octets (handle_key t a)) pub out size) \/
       exists e, resource_error B e /\ o = (e, out, size))
  | Free ctx a, RFree rc =>
      if ctx then rc = ok_e /\ t' = filter (fun p => negb (fst p =? a)) t else rc = invalid_context_e /\ t' = t
  | _, _ => False
  end.
(** The same BoringSSL with other failures. *)
Definition with_fails (f : call -> bool) (B : Bssl) : Bssl :=
  {| fails := f; evp_digest := @evp_digest B; bssl_hmac := @bssl_hmac B; bssl_hkdf_extract := @bssl_hkdf_extract B;
     bssl_hkdf_expand := @bssl_hkdf_expand B; ed25519_public := @ed25519_public B; ed25519_sign := @ed25519_sign B;
     curve_order := @curve_order B; ec_public := @ec_public B; ecdsa_sign := @ecdsa_sign B |}.
(** A history: for each call the calls of BoringSSL that fail this time, the call and the answer. *)
Definition step : Type := (call -> bool) * op * reply.
Inductive lawful_history (B : Bssl) : table -> list step -> table -> Prop :=
| lawful_nil t : lawful_history B t [] t
| lawful_cons t f o r t1 tr t2 : lawful (with_fails f B) t o r t1 -> lawful_history B t1 tr t2 -> lawful_history B t ((f, o, r) :: tr) t2.

(** The same by the implementation: one call, and a history in which every call is allowed, and gets its memory from any allocator. *)
Definition call_op `{Bssl} `{Allocator} (fuel : nat) (h : heap) (o : op) : res (reply * heap) :=
  match o with
  | MakeSecret ctx s ko => do (rc, h, a) <- n20_crypto_boringssl_make_secret ctx h s ko; Ret (RKey rc a, h)
  | Kdf ctx a ty c ko => do (rc, h, a) <- n20_crypto_boringssl_kdf fuel ctx h a ty c ko; Ret (RKey rc a, h)
  | Sign ctx a m out size => do o <- n20_crypto_boringssl_sign ctx h a m out size; Ret (ROut o, h)
  | Public ctx a out size => do o <- n20_crypto_boringssl_key_get_public_key ctx h a out size; Ret (ROut o, h)
  | Free ctx a => do (rc, h) <- n20_crypto_boringssl_key_free ctx h a; Ret (RFree rc, h)
  end.
Definition live (h : heap) (a : N) : bool := existsb (fun p => fst p =? a) h.
Inductive history `{Env} (B : Bssl) : heap -> list step -> heap -> Prop :=
| history_nil h : history B h [] h
| history_cons (A : Allocator) fuel f h o r h1 tr h2 : allocator_ok A -> op_ok (live h) o ->
    call_op (H := with_fails f B) fuel h o = Ret (r, h1) -> history B h1 tr h2 -> history B h ((f, o, r) :: tr) h2.
