(** The contract of the digest context (include/nat20/crypto.h:155-475), independent of any implementation: which error is reported,
    what the output buffer holds and what the size parameter says. *)
From Coq Require Import List NArith Bool Strings.Byte.
From Verif Require Import Base SpecSha2 SpecMac Crypto.
Import ListNotations.
Open Scope N_scope.

(** include/nat20/crypto.h:36-54, in order. *)
Definition algorithm (alg : N) : option sha2 := nth_error [SHA224; SHA256; SHA384; SHA512] (N.to_nat alg).

Definition is_none {A} (o : option A) : bool := match o with None => true | Some _ => false end.
(** A slice that claims bytes but has no buffer. *)
Definition missing (s : slice) : bool := is_none (sl_buf s) && negb (sl_size s =? 0).

(** The slices of a gather list, its bytes, and the bytes of an array of them. *)
Definition slices (g : gather) : list slice := match g_list g with None => [] | Some l => takeN (g_count g) l end.
Definition gather_bytes (g : gather) : list byte := flat_map slice_bytes (slices g).
Definition message_bytes (ms : option (list gather)) (count : N) : list byte :=
  match ms with None => [] | Some ms => flat_map gather_bytes (takeN count ms) end.
Definition null_list (g : gather) : bool := negb (g_count g =? 0) && is_none (g_list g).

(** A gather list that may be handed over: if it claims slices, they exist. *)
Definition gather_ok `{Env} (g : gather) : Prop := g_count g <= len (slices g) /\ Forall slice_ok (slices g).

(** Error tables: the first row whose condition holds decides. *)
Definition first_error (l : list (bool * error)) : error :=
  match find fst l with Some (_, e) => e | None => ok_e end.

(** What a call reports: on success the result at the start of the output buffer, the rest of it unchanged, and the size of the
    result; if the buffer is too small or missing the required size; in all other cases nothing. *)
Definition report (errors : list (bool * error)) (n : N) (result : list byte) (out : ptr) (size : option N) : outcome :=
  let rc := first_error errors in
  (rc,
   match rc, out with ok_e, Some d => Some (result ++ dropN n d) | _, _ => out end,
   match rc with ok_e | insufficient_buffer_size_e => Some n | _ => size end).

(** The output buffer really has the size it is said to have. *)
Definition out_ok (out : ptr) (size : option N) : Prop :=
  match out, size with Some d, Some n => n <= len d | _, _ => True end.
Definition too_small (out : ptr) (size : option N) (n : N) : bool :=
  is_none out || match size with Some s => s <? n | None => false end.

Definition required (alg : N) : N := match algorithm alg with Some A => out_bytes A | None => 0 end.
Definition result (alg : N) (f : sha2 -> list byte) : list byte := match algorithm alg with Some A => f A | None => [] end.

(** ** digest: include/nat20/crypto.h:184-210 *)
Definition head_null_list (ms : option (list gather)) : bool :=
  match ms with Some (g :: _) => null_list g | _ => false end.
Definition has_missing (ms : option (list gather)) (count : N) : bool :=
  match ms with None => false | Some ms => existsb missing (flat_map slices (takeN count ms)) end.
Definition digest_errors (ctx : bool) alg ms count out size : list (bool * error) :=
  [ (negb ctx, invalid_context_e);
    (is_none (algorithm alg), unknown_algorithm_e);
    (is_none size, unexpected_null_size_e);
    (too_small out size (required alg), insufficient_buffer_size_e);
    (is_none ms, unexpected_null_data_e);
    (head_null_list ms, unexpected_null_list_e);
    (has_missing ms count, unexpected_null_slice_e) ].
Definition digest_report ctx alg ms count out size : outcome :=
  report (digest_errors ctx alg ms count out size) (required alg) (result alg (fun A => hash A (message_bytes ms count))) out size.

(** What a caller must provide: an array of at least one and at least [count] gather lists that are all sound, except that the
    first may have a NULL list; less than 2^61 bytes altogether. *)
Definition digest_pre `{Env} (ms : option (list gather)) (count : N) (out : ptr) (size : option N) : Prop :=
  out_ok out size /\
  match ms with
  | None => True
  | Some [] => False
  | Some (g :: more) => count <= len (g :: more) /\ (gather_ok g \/ g_list g = None) /\ Forall gather_ok (takeN (count - 1) more)
  end /\
  len (message_bytes ms count) < 2 ^ 61.

(** ** hmac: include/nat20/crypto.h:280-308 *)
Definition one (m : option gather) : option (list gather) := match m with None => None | Some g => Some [g] end.
Definition hmac_errors (ctx : bool) alg key m out size : list (bool * error) :=
  [ (negb ctx, invalid_context_e);
    (is_none (algorithm alg), unknown_algorithm_e);
    (is_none size, unexpected_null_size_e);
    (missing key, unexpected_null_slice_key_e);
    (too_small out size (required alg), insufficient_buffer_size_e);
    (is_none m, unexpected_null_data_e);
    (head_null_list (one m), unexpected_null_list_e);
    (has_missing (one m) 1, unexpected_null_slice_e) ].
Definition hmac_report ctx alg key m out size : outcome :=
  report (hmac_errors ctx alg key m out size) (required alg)
    (result alg (fun A => HMAC A (slice_bytes key) (message_bytes (one m) 1))) out size.
(** The key is copied with [memcpy], for which a NULL pointer is only allowed if the C library says so. *)
Definition key_ok `{Env} `{Libc} (key : slice) : Prop :=
  slice_ok key /\ len (slice_bytes key) < 2 ^ 61 /\ (sl_buf key = None -> memcpy_null_ok = true).
Definition hmac_pre `{Env} `{Libc} (key : slice) (m : option gather) (out : ptr) (size : option N) : Prop :=
  key_ok key /\ out_ok out size /\
  match m with None => True | Some g => gather_ok g \/ g_list g = None end /\
  128 + len (message_bytes (one m) 1) < 2 ^ 61.

(** ** hkdf_extract: include/nat20/crypto.h:394-410 *)
Definition extract_errors (ctx : bool) alg ikm salt out size : list (bool * error) :=
  [ (negb ctx, invalid_context_e);
    (is_none (algorithm alg), unknown_algorithm_e);
    (missing ikm, unexpected_null_slice_ikm_e);
    (missing salt, unexpected_null_slice_salt_e);
    (is_none size, unexpected_null_size_e);
    (too_small out size (required alg), insufficient_buffer_size_e) ].
Definition extract_report ctx alg ikm salt out size : outcome :=
  report (extract_errors ctx alg ikm salt out size) (required alg)
    (result alg (fun A => HKDF_extract A (slice_bytes salt) (slice_bytes ikm))) out size.
Definition extract_pre `{Env} `{Libc} (ikm salt : slice) (out : ptr) (size : option N) : Prop :=
  key_ok salt /\ slice_ok ikm /\ 128 + len (slice_bytes ikm) < 2 ^ 61 /\ out_ok out size.

(** ** hkdf_expand: include/nat20/crypto.h:442-457 *)
Definition expand_errors (ctx : bool) alg prk info (L : N) (out : ptr) : list (bool * error) :=
  [ (negb ctx, invalid_context_e);
    (is_none (algorithm alg), unknown_algorithm_e);
    (missing prk, unexpected_null_slice_prk_e);
    (missing info, unexpected_null_slice_info_e);
    (is_none out && negb (L =? 0), insufficient_buffer_size_e) ].
(** Without a size parameter: the error and the output buffer. *)
Definition report_key (errors : list (bool * error)) (L : N) (key : list byte) (out : ptr) : error * ptr :=
  let '(rc, out, _) := report errors L key out None in (rc, out).
Definition expand_report ctx alg prk info L out : error * ptr :=
  report_key (expand_errors ctx alg prk info L out) L
    (result alg (fun A => HKDF_expand A (slice_bytes prk) (slice_bytes info) L)) out.
Definition okm_ok `{Env} (L : N) (out : ptr) : Prop := L < SZ /\ match out with Some d => L <= len d | None => True end.
Definition expand_pre `{Env} `{Libc} (prk info : slice) (L : N) (out : ptr) : Prop :=
  key_ok prk /\ slice_ok info /\ 193 + len (slice_bytes info) < 2 ^ 61 /\ okm_ok L out.

(** ** hkdf: include/nat20/crypto.h:341-358 *)
Definition hkdf_errors (ctx : bool) alg ikm salt info (L : N) (out : ptr) : list (bool * error) :=
  [ (negb ctx, invalid_context_e);
    (is_none (algorithm alg), unknown_algorithm_e);
    (missing ikm, unexpected_null_slice_ikm_e);
    (missing salt, unexpected_null_slice_salt_e);
    (missing info, unexpected_null_slice_info_e);
    (is_none out && negb (L =? 0), insufficient_buffer_size_e) ].
Definition hkdf_report ctx alg ikm salt info L out : error * ptr :=
  report_key (hkdf_errors ctx alg ikm salt info L out) L
    (result alg (fun A => HKDF A (slice_bytes salt) (slice_bytes ikm) (slice_bytes info) L)) out.
Definition hkdf_pre `{Env} `{Libc} (ikm salt info : slice) (L : N) (out : ptr) : Prop :=
  key_ok salt /\ slice_ok ikm /\ 128 + len (slice_bytes ikm) < 2 ^ 61 /\
  slice_ok info /\ 193 + len (slice_bytes info) < 2 ^ 61 /\ okm_ok L out.
