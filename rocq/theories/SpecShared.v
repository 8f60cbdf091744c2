(** Operations on buffers in one memory: what they should do when buffers overlap. *)
From Coq Require Import List NArith Bool Strings.Byte.
From Verif Require Import Base SpecSha2 SpecMac Crypto SpecCrypto.
From Verif Require Import Shared.
Import ListNotations.
Open Scope N_scope.

(** The bytes of a slice. *)
Definition bytes_at (mem : memory) (s : mslice) : list byte :=
  match ms_buf s with
  | Some (Shared o) => takeN (ms_size s) (dropN o mem)
  | Some (Own d) => takeN (ms_size s) d
  | None => []
  end.
(** [b] written at offset [o]. *)
Definition overwritten (mem : memory) (o : N) (b : list byte) : memory := takeN o mem ++ b ++ dropN (o + len b) mem.
(** The slice shares no byte with [n] bytes from offset [o]. *)
Definition apart (s : mslice) (o n : N) : Prop :=
  match ms_buf s with Some (Shared a) => a + ms_size s <= o \/ o + n <= a \/ ms_size s = 0 \/ n = 0 | _ => True end.

Section Expand.
Variable A : sha2.
(** What hkdf_expand does to the memory when nothing is known about overlaps: block by block, T(i) is made from what is then at [prk] and [info]; [n] blocks from the [i]-th
    on, the last of them cut to [last] bytes. *)
Fixpoint expand_blocks (prk info : mslice) (o : N) (i n : nat) (last : N) (mem : memory) : memory :=
  match n with
  | O => mem
  | S n' =>
      let at_i := o + N.of_nat i * out_bytes A in
      let previous := match i with O => [] | S i' => takeN (out_bytes A) (dropN (o + N.of_nat i' * out_bytes A) mem) end in
      let t := HMAC A (bytes_at mem prk) (previous ++ bytes_at mem info ++ [n2b (N.of_nat (S i))]) in
      expand_blocks prk info o (S i) n' last (overwritten mem at_i (match n' with O => takeN last t | _ => t end))
  end.
(** The size of the last block, and of all blocks before it. *)
Definition early (L : N) : N := (blocks A L - 1) * out_bytes A.
Definition expand_effect (prk info : mslice) (o L : N) (mem : memory) : memory :=
  expand_blocks prk info o 0 (N.to_nat (blocks A L)) (L - early L) mem.
End Expand.

(** The slice lies in the memory. *)
Definition lies_in `{Env} (mem : memory) (s : mslice) : Prop :=
  ms_size s < SZ /\
  match ms_buf s with
  | Some (Shared o) => o + ms_size s <= len mem
  | Some (Own d) => ms_size s <= len d
  | None => ms_size s = 0
  end.
(** All slices of the gather list do, and their bytes. *)
Definition list_in `{Env} (mem : memory) (g : mgather) : Prop :=
  match mg_list g with Some l => mg_count g = len l /\ Forall (lies_in mem) l | None => mg_count g = 0 end.
Definition list_bytes (mem : memory) (g : mgather) : list byte :=
  match mg_list g with Some l => flat_map (bytes_at mem) l | None => [] end.
(** The key is copied with [memcpy]. *)
Definition key_in `{Env} `{Libc} (mem : memory) (s : mslice) : Prop :=
  lies_in mem s /\ ms_size s < 2 ^ 61 /\ (ms_buf s = None -> memcpy_null_ok = true).

(** Expansion in place, over a pseudorandom key of the size of a block: from the second block on the first one takes the place of the key. *)
Fixpoint U (A : sha2) (prk info : list byte) (n : nat) : list byte :=
  match n with
  | O => []
  | S O => T A prk info 1
  | S n' => HMAC A (T A prk info 1) (U A prk info n' ++ info ++ [n2b (N.of_nat n)])
  end.
