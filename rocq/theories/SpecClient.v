(** Programs that use the digest interface (include/nat20/crypto.h:155-475), and what they may rely on, independent of any implementation. *)
From Coq Require Import List NArith Bool Strings.Byte.
From Verif Require Import Base Res SpecSha2 SpecMac Crypto SpecCrypto.
Import ListNotations.
Open Scope N_scope.

(** A program is a sequence of calls, each depending on the answers to those before. It owns its buffers: a call hands over a buffer and the answer contains
    it as the call left it. *)
Inductive client (R : Type) : Type :=
| Done (r : R)
| Digest (alg : N) (ms : option (list gather)) (count : N) (out : ptr) (size : option N) (k : outcome -> client R)
| Hmac (alg : N) (key : slice) (m : option gather) (out : ptr) (size : option N) (k : outcome -> client R)
| Extract (alg : N) (ikm salt : slice) (out : ptr) (size : option N) (k : outcome -> client R)
| Expand (alg : N) (prk info : slice) (L : N) (out : ptr) (k : error * ptr -> client R)
| Hkdf (alg : N) (ikm salt info : slice) (L : N) (out : ptr) (k : error * ptr -> client R).
Arguments Done {R} r.
Arguments Digest {R}.
Arguments Hmac {R}.
Arguments Extract {R}.
Arguments Expand {R}.
Arguments Hkdf {R}.

(** Running it on a context. *)
Fixpoint run {R} (c : digest_context) (p : client R) : res R :=
  match p with
  | Done r => Ret r
  | Digest alg ms count out size k => bind (ctx_digest c alg ms count out size) (fun a => run c (k a))
  | Hmac alg key m out size k => bind (ctx_hmac c alg key m out size) (fun a => run c (k a))
  | Extract alg ikm salt out size k => bind (ctx_extract c alg ikm salt out size) (fun a => run c (k a))
  | Expand alg prk info L out k => bind (ctx_expand c alg prk info L out) (fun a => run c (k a))
  | Hkdf alg ikm salt info L out k => bind (ctx_hkdf c alg ikm salt info L out) (fun a => run c (k a))
  end.

(** The answers a program has to reckon with: the documented one and, with [faults], a resource error that leaves everything as it was. *)
Definition fault (e : error) : Prop := e = no_resources_e \/ e = implementation_specific_e.
Definition answers (faults : bool) (documented : outcome) (out : ptr) (size : option N) (a : outcome) : Prop :=
  a = documented \/ faults = true /\ exists e, fault e /\ a = (e, out, size).
Definition answers_key (faults : bool) (documented : error * ptr) (out : ptr) (a : error * ptr) : Prop :=
  a = documented \/ faults = true /\ exists e, fault e /\ a = (e, out).

(** The results it may end with. *)
Inductive yields {R} (faults : bool) : client R -> R -> Prop :=
| y_done r : yields faults (Done r) r
| y_digest alg ms count out size k a r : answers faults (digest_report true alg ms count out size) out size a -> yields faults (k a) r ->
    yields faults (Digest alg ms count out size k) r
| y_hmac alg key m out size k a r : answers faults (hmac_report true alg key m out size) out size a -> yields faults (k a) r ->
    yields faults (Hmac alg key m out size k) r
| y_extract alg ikm salt out size k a r : answers faults (extract_report true alg ikm salt out size) out size a -> yields faults (k a) r ->
    yields faults (Extract alg ikm salt out size k) r
| y_expand alg prk info L out k a r : answers_key faults (expand_report true alg prk info L out) out a -> yields faults (k a) r ->
    yields faults (Expand alg prk info L out k) r
| y_hkdf alg ikm salt info L out k a r : answers_key faults (hkdf_report true alg ikm salt info L out) out a -> yields faults (k a) r ->
    yields faults (Hkdf alg ikm salt info L out k) r.

(** Each call it can get to hands over sound arguments (they may still be in error: missing slices, small buffers, unknown algorithms), never asks HKDF for more
    than 255 blocks, and never calls hmac with an unknown algorithm and without a size at once. *)
Fixpoint careful `{Env} `{Libc} {R} (faults : bool) (p : client R) : Prop :=
  match p with
  | Done _ => True
  | Digest alg ms count out size k => digest_pre ms count out size /\
      forall a, answers faults (digest_report true alg ms count out size) out size a -> careful faults (k a)
  | Hmac alg key m out size k => hmac_pre key m out size /\ ~ (algorithm alg = None /\ size = None) /\
      forall a, answers faults (hmac_report true alg key m out size) out size a -> careful faults (k a)
  | Extract alg ikm salt out size k => extract_pre ikm salt out size /\
      forall a, answers faults (extract_report true alg ikm salt out size) out size a -> careful faults (k a)
  | Expand alg prk info L out k => expand_pre prk info L out /\ (algorithm alg <> None -> L <= 255 * required alg) /\
      forall a, answers_key faults (expand_report true alg prk info L out) out a -> careful faults (k a)
  | Hkdf alg ikm salt info L out k => hkdf_pre ikm salt info L out /\ (algorithm alg <> None -> L <= 255 * required alg) /\
      forall a, answers_key faults (hkdf_report true alg ikm salt info L out) out a -> careful faults (k a)
  end.

(** ** Two programs *)

(** Ask for the size with a NULL buffer, allocate, and ask again. *)
Definition two_pass (call : forall R, ptr -> option N -> (outcome -> client R) -> client R) : client (option (list byte)) :=
  call _ None (Some 0) (fun '(rc, _, size) =>
    match rc, size with
    | insufficient_buffer_size_e, Some n =>
        call _ (Some (repeat x00 (N.to_nat n))) (Some n) (fun '(rc, out, _) => match rc with ok_e => Done out | _ => Done None end)
    | _, _ => Done None
    end).

(** Extract to a 64 octet array, then expand (RFC 5869 section 2). *)
Definition extract_expand (alg : N) (ikm salt info : slice) (L : N) : client (option (list byte)) :=
  Extract alg ikm salt (Some (repeat x00 64)) (Some 64) (fun '(rc, out, size) =>
    match rc, size with
    | ok_e, Some n => Expand alg (mkSlice n out) info L (Some (repeat x00 (N.to_nat L))) (fun '(rc, out) => match rc with ok_e => Done out | _ => Done None end)
    | _, _ => Done None
    end).
