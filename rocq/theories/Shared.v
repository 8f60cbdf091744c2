(** src/crypto/nat20/crypto.c once more, with the caller's buffers in one memory, in which they may overlap.

    The caller's inputs and outputs lie in one array [mem] and a pointer to it is an offset; what the library passes to itself are its own local objects ([Own],
    with their contents at the time of the call). Every function reads the memory as it is when the C code reads it, and returns it as it leaves it.
    As in Crypto.v, [res] is the result and errors are reported by a code. Simplified: gather lists, slices and size parameters are objects apart from [mem]; the hash state is
    local, so that [n20_sha256_update] and [n20_sha512_update] read the memory and write the state only, and the finalize functions read the state only. *)
From Coq Require Import List NArith Bool Strings.Byte.
From Verif Require Import Base Res Sha256 Sha512 Crypto.
Import ListNotations.
Open Scope N_scope.

Definition memory : Type := list byte.
Inductive place := Shared (o : N) | Own (d : list byte).
(** What a pointer sees now. *)
Definition view (mem : memory) (p : option place) : ptr :=
  match p with None => None | Some (Shared o) => Some (dropN o mem) | Some (Own d) => Some d end.
(** The memory when what [p] points to has become [new]. *)
Definition store (mem : memory) (p : option place) (new : ptr) : memory :=
  match p, new with Some (Shared o), Some d => takeN o mem ++ d | _, _ => mem end.
(** include/nat20/types.h: n20_slice_t, and include/nat20/crypto.h: n20_crypto_gather_list_t *)
Record mslice := mkM { ms_size : N; ms_buf : option place }.
Record mgather := mkMG { mg_count : N; mg_list : option (list mslice) }.
Definition seen (mem : memory) (s : mslice) : slice := mkSlice (ms_size s) (view mem (ms_buf s)).
Definition seen_list (mem : memory) (g : mgather) : gather := mkGather (mg_count g) (option_map (map (seen mem)) (mg_list g)).

(** The code, the memory, what the output pointer sees, and the size parameter. *)
Definition moutcome : Type := error * memory * ptr * option N.
Definition digest_at_fn := N -> option (list mgather) -> N -> option place -> option N -> memory -> res moutcome.
Definition hmac_at_fn := N -> mslice -> option mgather -> option place -> option N -> memory -> res moutcome.
Definition extract_at_fn := N -> mslice -> mslice -> option place -> option N -> memory -> res moutcome.
Definition expand_at_fn := N -> mslice -> mslice -> N -> option N -> memory -> res (error * memory).

Definition absent {A} (p : option A) : bool := match p with None => true | Some _ => false end.

Section WithEnv.
Context `{Env} `{Libc}.

(** src/crypto/nat20/crypto.c:108-124 *)
Fixpoint digest_slices_at (mem : memory) (alg : N) (n : nat) (i : N) (l : option (list mslice)) (st : digest_state) : res (error * digest_state) :=
  match n with
  | O => Ret (ok_e, st)
  | S n =>
      do s <- match l with None => Undef UBNullDeref | Some l => get l i end;
      if ms_size s =? 0 then digest_slices_at mem alg n (i + 1) l st
      else match ms_buf s with
           | None => Ret (unexpected_null_slice_e, st)
           | Some _ => do st <- digest_update alg st (seen mem s); digest_slices_at mem alg n (i + 1) l st
           end
  end.
(** src/crypto/nat20/crypto.c:107-125 *)
Fixpoint digest_lists_at (mem : memory) (alg : N) (n : nat) (j : N) (msgs : list mgather) (st : digest_state) : res (error * digest_state) :=
  match n with
  | O => Ret (ok_e, st)
  | S n =>
      do g <- get msgs j;
      do (rc, st) <- digest_slices_at mem alg (N.to_nat (mg_count g)) 0 (mg_list g) st;
      match rc with
      | ok_e => digest_lists_at mem alg n (j + 1) msgs st
      | _ => Ret (rc, st)
      end
  end.
(** src/crypto/nat20/crypto.c:59-166 *)
Definition n20_digest_at (ctx : bool) : digest_at_fn := fun alg msg_in msg_count digest_out size_in_out mem =>
  let fail rc size := Ret (rc, mem, view mem digest_out, size) in
  if negb ctx then fail invalid_context_e size_in_out else
  match digest_init alg with
  | None => fail unknown_algorithm_e size_in_out
  | Some state =>
      match size_in_out with
      | None => fail unexpected_null_size_e size_in_out
      | Some size =>
          let digest_size := digest_enum_to_size alg in
          if (size <? digest_size) || absent digest_out then fail insufficient_buffer_size_e (Some digest_size) else
          match msg_in with
          | None => fail unexpected_null_data_e size_in_out
          | Some msgs =>
              do first <- get msgs 0;
              if negb (mg_count first =? 0) && absent (mg_list first) then fail unexpected_null_list_e size_in_out else
              do (rc, state) <- digest_lists_at mem alg (N.to_nat msg_count) 0 msgs state;
              match rc with
              | ok_e =>
                  do (_, out) <- digest_final alg state (view mem digest_out);
                  Ret (ok_e, store mem digest_out out, out, Some digest_size)
              | _ => fail rc size_in_out
              end
          end
      end
  end.

(** src/crypto/nat20/crypto.c:170-300. [K] and [inner_digest] are local. *)
Definition n20_hmac_at (ctx : option digest_at_fn) : hmac_at_fn := fun alg key msg_in mac_out size_in_out mem =>
  let fail rc size mem := Ret (rc, mem, view mem mac_out, size) in
  match ctx with
  | None => fail invalid_context_e size_in_out mem
  | Some digest =>
  let digest_size := digest_enum_to_size alg in
  if digest_size =? 0 then fail unknown_algorithm_e size_in_out mem else
  match hmac_block_size alg with
  | None => fail unknown_algorithm_e size_in_out mem
  | Some block_size =>
  match size_in_out with
  | None => fail unexpected_null_size_e size_in_out mem
  | Some size =>
  if absent (ms_buf key) && negb (ms_size key =? 0) then fail unexpected_null_slice_key_e size_in_out mem else
  if absent mac_out || (size <? digest_size) then fail insufficient_buffer_size_e (Some digest_size) mem else
  let K := repeat x00 128 in
  let inner := repeat x00 64 in
  do (rc, mem, K, digest_size) <-
    (if block_size <? ms_size key then
       do (rc, mem, k, n) <- digest alg (Some [mkMG 1 (Some [key])]) 1 (Some (Own K)) (Some digest_size) mem;
       Ret (rc, mem, local_after K k, size_after digest_size n)
     else
       do K <- memcpy K (view mem (ms_buf key)) (ms_size key); Ret (ok_e, mem, K, digest_size));
  match rc with
  | ok_e =>
      do K <- xor_loop block_size 0x36 K;
      match msg_in with
      | None => fail unexpected_null_data_e size_in_out mem
      | Some msg =>
          if negb (mg_count msg =? 0) && absent (mg_list msg) then fail unexpected_null_list_e size_in_out mem else
          do (rc, mem, i, n) <- digest alg (Some [mkMG 1 (Some [mkM block_size (Some (Own K))]); msg]) 2 (Some (Own inner)) (Some digest_size) mem;
          let inner := local_after inner i in
          let digest_size := size_after digest_size n in
          match rc with
          | ok_e =>
              do K <- xor_loop block_size 0x6a K;
              digest alg (Some [mkMG 1 (Some [mkM block_size (Some (Own K))]); mkMG 1 (Some [mkM digest_size (Some (Own inner))])]) 2 mac_out size_in_out mem
          | _ => fail rc size_in_out mem
          end
      end
  | _ => fail rc size_in_out mem
  end
  end
  end
  end.

Definition null_mslice (s : mslice) : bool := absent (ms_buf s) && negb (ms_size s =? 0).
(** src/crypto/nat20/crypto.c:343-380 *)
Definition n20_hkdf_extract_at (ctx : option hmac_at_fn) : extract_at_fn := fun alg ikm salt prk size_in_out mem =>
  let fail rc size := Ret (rc, mem, view mem prk, size) in
  match ctx with
  | None => fail invalid_context_e size_in_out
  | Some hmac =>
      let digest_size := digest_enum_to_size alg in
      if digest_size =? 0 then fail unknown_algorithm_e size_in_out
      else if null_mslice ikm then fail unexpected_null_slice_ikm_e size_in_out
      else if null_mslice salt then fail unexpected_null_slice_salt_e size_in_out
      else match size_in_out with
           | None => fail unexpected_null_size_e size_in_out
           | Some size =>
               if (size <? digest_size) || absent prk then fail insufficient_buffer_size_e (Some digest_size)
               else hmac alg salt (Some (mkMG 1 (Some [ikm]))) prk size_in_out mem
           end
  end.

(** src/crypto/nat20/crypto.c:429-439. [o] is the offset of [out]. [fuel] must exceed [key_octets]. *)
Fixpoint expand_loop_at (hmac : hmac_at_fn) (fuel : nat) (alg : N) (prk info prev : mslice) (i digest_size key_octets o : N) (mem : memory)
  : res (mslice * N * N * N * N * memory) :=
  if digest_size <=? key_octets then
    match fuel with
    | O => OutOfFuel
    | S fuel =>
        do (_, mem, _, n) <- hmac alg prk (Some (mkMG 3 (Some [prev; info; mkM 1 (Some (Own [n2b i]))]))) (Some (Shared o)) (Some digest_size) mem;
        let digest_size := size_after digest_size n in
        if len mem <? o + digest_size then Undef UBPtrArith else
        expand_loop_at hmac fuel alg prk info (mkM digest_size (Some (Shared o))) (wrap8 (i + 1)) digest_size (sub_sz key_octets digest_size) (o + digest_size) mem
    end
  else Ret (prev, i, digest_size, key_octets, o, mem).
(** src/crypto/nat20/crypto.c:382-459. [T] is local. *)
Definition n20_hkdf_expand_at (ctx : option hmac_at_fn) : expand_at_fn := fun alg prk info key_octets out mem =>
  match ctx with
  | None => Ret (invalid_context_e, mem)
  | Some hmac =>
      let digest_size := digest_enum_to_size alg in
      if digest_size =? 0 then Ret (unknown_algorithm_e, mem)
      else if null_mslice prk then Ret (unexpected_null_slice_prk_e, mem)
      else if null_mslice info then Ret (unexpected_null_slice_info_e, mem)
      else if key_octets =? 0 then Ret (ok_e, mem)
      else match out with
           | None => Ret (insufficient_buffer_size_e, mem)
           | Some o =>
               do (prev, i, digest_size, key_octets, o, mem) <-
                 expand_loop_at hmac (S (N.to_nat key_octets)) alg prk info (mkM 0 None) 1 digest_size key_octets o mem;
               if 0 <? key_octets then
                 do (rc, mem, t, _) <- hmac alg prk (Some (mkMG 3 (Some [prev; info; mkM 1 (Some (Own [n2b i]))]))) (Some (Own (repeat x00 64))) (Some digest_size) mem;
                 match rc with
                 | ok_e =>
                     do new <- memcpy (dropN o mem) (Some (local_after (repeat x00 64) t)) key_octets;
                     Ret (ok_e, takeN o mem ++ new)
                 | _ => Ret (rc, mem)
                 end
               else Ret (ok_e, mem)
           end
  end.

(** src/crypto/nat20/crypto.c:302-341. [prk] is local. *)
Definition n20_hkdf_at (ctx : option (extract_at_fn * expand_at_fn)) (alg : N) (ikm salt info : mslice) (key_octets : N) (out : option N) (mem : memory) : res (error * memory) :=
  match ctx with
  | None => Ret (invalid_context_e, mem)
  | Some (extract, expand) =>
      let prk_size := digest_enum_to_size alg in
      if prk_size =? 0 then Ret (unknown_algorithm_e, mem)
      else if null_mslice ikm then Ret (unexpected_null_slice_ikm_e, mem)
      else if null_mslice salt then Ret (unexpected_null_slice_salt_e, mem)
      else if null_mslice info then Ret (unexpected_null_slice_info_e, mem)
      else
        do (rc, mem, p, n) <- extract alg ikm salt (Some (Own (repeat x00 64))) (Some prk_size) mem;
        match rc with
        | ok_e => expand alg (mkM (size_after prk_size n) (Some (Own (local_after (repeat x00 64) p)))) info key_octets out mem
        | _ => Ret (rc, mem)
        end
  end.

(** src/crypto/nat20/crypto.c:461-467 *)
Definition digest_at : digest_at_fn := n20_digest_at true.
Definition hmac_at : hmac_at_fn := n20_hmac_at (Some digest_at).
Definition extract_at : extract_at_fn := n20_hkdf_extract_at (Some hmac_at).
Definition expand_at : expand_at_fn := n20_hkdf_expand_at (Some hmac_at).
Definition hkdf_at := n20_hkdf_at (Some (extract_at, expand_at)).
End WithEnv.
