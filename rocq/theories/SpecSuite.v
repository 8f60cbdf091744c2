(** What the tests of the digest interface are about: implementations that keep the documented contract, and right test vectors. *)
From Coq Require Import List NArith Bool Strings.Byte.
From Verif Require Import Base Res SpecSha2 SpecMac Crypto SpecCrypto.
From Verif Require Import CryptoTest.
Import ListNotations.
Open Scope N_scope.

(** Function tables that keep the contract of include/nat20/crypto.h:155-475. It leaves open what hmac says of an unknown algorithm without a size, and what
    HKDF does when asked for more than 255 blocks. *)
Definition conforms `{Env} `{Libc} (c : digest_members) : Prop :=
  (forall ctx alg ms count out size, digest_pre ms count out size -> m_digest c ctx alg ms count out size = Ret (digest_report ctx alg ms count out size)) /\
  (forall ctx alg key m out size, hmac_pre key m out size -> ~ (ctx = true /\ algorithm alg = None /\ size = None) ->
     m_hmac c ctx alg key m out size = Ret (hmac_report ctx alg key m out size)) /\
  (forall ctx alg ikm salt out size, extract_pre ikm salt out size -> m_extract c ctx alg ikm salt out size = Ret (extract_report ctx alg ikm salt out size)) /\
  (forall ctx alg prk info L out, expand_pre prk info L out -> (algorithm alg <> None -> L <= 255 * required alg) ->
     m_expand c ctx alg prk info L out = Ret (expand_report ctx alg prk info L out)) /\
  (forall ctx alg ikm salt info L out, hkdf_pre ikm salt info L out -> (algorithm alg <> None -> L <= 255 * required alg) ->
     m_hkdf c ctx alg ikm salt info L out = Ret (hkdf_report ctx alg ikm salt info L out)).

(** Right vectors. *)
Definition sha2_right (v : N * list byte * list byte) : Prop :=
  let '(alg, msg, digest) := v in exists A, algorithm alg = Some A /\ digest = hash A msg.
(** The MAC may be cut off. *)
Definition hmac_right (v : N * list byte * list byte * list byte) : Prop :=
  let '(alg, key, msg, mac) := v in exists A rest, algorithm alg = Some A /\ HMAC A key msg = mac ++ rest.
(** The pseudorandom key may have zeros behind it. *)
Definition extract_right (v : hkdf_vector) : Prop :=
  let '(alg, ikm, salt, _, prk, _) := v in exists A n, algorithm alg = Some A /\ prk = HKDF_extract A salt ikm ++ repeat x00 n.
Definition expand_right (v : hkdf_vector) : Prop :=
  let '(alg, _, _, info, prk, key) := v in exists A, algorithm alg = Some A /\ key = HKDF_expand A prk info (len key).
Definition hkdf_right (v : hkdf_vector) : Prop :=
  let '(alg, ikm, salt, info, _, key) := v in exists A, algorithm alg = Some A /\ key = HKDF A salt ikm info (len key).

(** Vectors that fit the memory, with keys of at most 255 blocks. *)
Definition fits_memory `{Env} (b : list byte) : Prop := len b < SZ /\ 256 + len b < 2 ^ 61.
Definition sha2_fits `{Env} (v : N * list byte * list byte) : Prop := let '(_, msg, digest) := v in fits_memory msg /\ fits_memory digest.
Definition hmac_fits `{Env} (v : N * list byte * list byte * list byte) : Prop := let '(_, key, msg, mac) := v in fits_memory key /\ fits_memory msg /\ fits_memory mac.
Definition hkdf_fits `{Env} (v : hkdf_vector) : Prop :=
  let '(alg, ikm, salt, info, prk, key) := v in
  fits_memory ikm /\ fits_memory salt /\ fits_memory info /\ fits_memory prk /\ fits_memory key /\ (algorithm alg <> None -> len key <= 255 * required alg).
