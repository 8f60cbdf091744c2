(** Programs that use the whole context of the BoringSSL back end, keys and digests, and what they may rely on. *)
From Coq Require Import List NArith Bool Strings.Byte.
From Verif Require Import Base Res SpecSha2 SpecMac Crypto SpecCrypto Bssl BsslKeys SpecBssl SpecClient.
Import ListNotations.
Open Scope N_scope.

(** The calls that concern keys. *)
Inductive key_call :=
| CSecret (secret : option slice) (key_out : option N)
| CKdf (key_in key_type : N) (context : option gather) (key_out : option N)
| CSign (key_in : N) (msg : option gather) (out : ptr) (size : option N)
| CPublic (key_in : N) (out : ptr) (size : option N)
| CFree (key_in : N).

(** A program: calls for keys, each depending on the answers to those before, and in between programs for the digest interface. *)
Inductive program (R : Type) : Type :=
| Stop (r : R)
| Ask (c : key_call) (k : reply -> program R)
| Use (p : client (list (error * ptr * option N))) (k : list (error * ptr * option N) -> program R).
Arguments Stop {R} r.
Arguments Ask {R} c k.
Arguments Use {R} p k.

(** Running it on a context: through the members of the table; make_secret is a function of its own (include/nat20/crypto_bssl/crypto.h). *)
Definition perform `{Bssl} `{Allocator} (x : crypto_context) (fuel : nat) (h : heap) (c : key_call) : res (reply * heap) :=
  match c with
  | CSecret s ko => do (rc, h, a) <- n20_crypto_boringssl_make_secret true h s ko; Ret (RKey rc a, h)
  | CKdf a ty g ko => do (rc, h, a) <- cc_kdf x fuel h a ty g ko; Ret (RKey rc a, h)
  | CSign a m out size => do o <- cc_sign x h a m out size; Ret (ROut o, h)
  | CPublic a out size => do o <- cc_key_get_public_key x h a out size; Ret (ROut o, h)
  | CFree a => do (rc, h) <- cc_key_free x h a; Ret (RFree rc, h)
  end.
(** In the [i]-th step the calls of BoringSSL given by [fs i] fail and memory comes from [As i]; [xs i] is the table with the functions as they are then. *)
Section Execute.
Context (B : Bssl) (fs : nat -> call -> bool) (As : nat -> Allocator) (xs : nat -> crypto_context) (fuel : nat) {R : Type}.
Fixpoint execute (i : nat) (h : heap) (p : program R) : res (R * heap) :=
  match p with
  | Stop r => Ret (r, h)
  | Ask c k => do (r, h) <- @perform (with_fails (fs i) B) (As i) (xs i) fuel h c; execute (S i) h (k r)
  | Use q k => do r <- run (cc_digest_ctx (xs i)) q; execute (S i) h (k r)
  end.
End Execute.
(** The tables that open hands out. *)
Definition opened (B : Bssl) (fs : nat -> call -> bool) (As : nat -> Allocator) (xs : nat -> crypto_context) : Prop :=
  forall i, @n20_crypto_boringssl_open (with_fails (fs i) B) (As i) true = (ok_e, Some (xs i)).

(** What the interface says of a call: that of SpecBssl.v, with a context. *)
Definition op_of (c : key_call) : op :=
  match c with
  | CSecret s ko => MakeSecret true s ko
  | CKdf a ty g ko => Kdf true a ty g ko
  | CSign a m out size => Sign true a m out size
  | CPublic a out size => Public true a out size
  | CFree a => Free true a
  end.
Definition known (t : table) (a : N) : bool := negb (is_none (lookup t a)).

(** An answer of the interface when the failures in one step are among [F]. *)
Definition lawfully (B : Bssl) (F : (call -> bool) -> Prop) (t : table) (c : key_call) (r : reply) (t' : table) : Prop :=
  exists f, F f /\ lawful (with_fails f B) t (op_of c) r t'.
(** Each call it can get to is allowed, whatever lawful answers it has got. *)
Fixpoint sound `{Env} `{Libc} (B : Bssl) (F : (call -> bool) -> Prop) {R} (t : table) (p : program R) : Prop :=
  match p with
  | Stop _ => True
  | Ask c k => op_ok (known t) (op_of c) /\ forall r t', lawfully B F t c r t' -> sound B F t' (k r)
  | Use q k => careful true q /\ forall r, yields true q r -> sound B F t (k r)
  end.
(** Its results, and the keys there are in the end. *)
Inductive ends (B : Bssl) (F : (call -> bool) -> Prop) {R} : table -> program R -> R -> table -> Prop :=
| e_stop t r : ends B F t (Stop r) r t
| e_ask t c k a t1 r t2 : lawfully B F t c a t1 -> ends B F t1 (k a) r t2 -> ends B F t (Ask c k) r t2
| e_use t q k a r t2 : yields true q a -> ends B F t (k a) r t2 -> ends B F t (Use q k) r t2.
(** It gets to the derivation of a key for an elliptic curve for which none of the first [fuel] candidates is suitable. *)
Definition no_candidate `{Bssl} (fuel : nat) (t : table) (c : key_call) : Prop :=
  exists a ty g ko cv bits, c = CKdf a ty g ko /\ kind_of ty = Some (Signing (Some cv)) /\ handle_key t a = Some (SecretKey bits) /\
    forall i, (i < fuel)%nat -> suitable (curve_order cv) (candidate (HMAC SHA512) 64 (curve_order cv) (HKDF_expand SHA512 bits (message_bytes (one g) 1) 32) i) = false.
Inductive starves (B : Bssl) (F : (call -> bool) -> Prop) {R} (fuel : nat) : table -> program R -> Prop :=
| s_here t c k : no_candidate fuel t c -> starves B F fuel t (Ask c k)
| s_ask t c k a t1 : lawfully B F t c a t1 -> starves B F fuel t1 (k a) -> starves B F fuel t (Ask c k)
| s_use t q k a : yields true q a -> starves B F fuel t (k a) -> starves B F fuel t (Use q k).

(** ** Two programs *)

(** Derive a key from the secret [a], ask for the size of a signature, sign, and free the key in every case. *)
Definition derive_and_sign (a ty : N) (label msg : gather) : program (option (list byte)) :=
  Ask (CKdf a ty (Some label) (Some 0)) (fun r =>
    match r with
    | RKey ok_e (Some k) =>
        Ask (CSign k (Some msg) None (Some 0)) (fun r =>
          match r with
          | ROut (insufficient_buffer_size_e, _, Some n) =>
              Ask (CSign k (Some msg) (Some (repeat x00 (N.to_nat n))) (Some n)) (fun r =>
                Ask (CFree k) (fun _ => Stop (match r with ROut (ok_e, out, _) => out | _ => None end)))
          | _ => Ask (CFree k) (fun _ => Stop None)
          end)
    | _ => Stop None
    end).

(** The chain of DICE secrets: the secret of each layer is derived from the one before and a label made from its inputs; the handle of a layer is freed
    once the next one is there. The last handle, or [None] if a derivation failed (then every key of the chain is freed). *)
Fixpoint chain (a : N) (labels : list gather) : program (option N) :=
  match labels with
  | [] => Stop (Some a)
  | l :: labels =>
      Ask (CKdf a 4 (Some l) (Some 0)) (fun r =>
        Ask (CFree a) (fun _ => match r with RKey ok_e (Some b) => chain b labels | _ => Stop None end))
  end.
(** The secret in the end. *)
Definition chained (secret : list byte) (labels : list gather) : list byte :=
  fold_left (fun s l => HKDF_expand SHA512 s (gather_bytes l) 32) labels secret.
