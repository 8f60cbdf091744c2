(** Model of src/crypto/nat20/crypto.c: digest, HMAC and HKDF of the nat20 back end.

    - A context is modelled by the function pointers a function loads from it; [None] is a NULL context.
    - An output buffer is a [ptr]: the bytes from the pointer to the end of its object. A call returns its new contents.
    - An in/out size parameter is an [option N]: [None] is a NULL pointer, and a call returns the new value.
    - Input and output buffers do not overlap; Shared.v models the same code with buffers that may.
    - Each function also returns the final contents of its local buffers, after the cleanup code has run. *)
From Coq Require Import List NArith ZArith Bool Strings.Byte.
From Verif Require Import Base Res Sha256 Sha512.
Import ListNotations.
Open Scope N_scope.

(** include/nat20/error.h:38-270 (the codes used by the crypto code) *)
Inductive error :=
| ok_e
| invalid_context_e
| unexpected_null_key_in_e
| unexpected_null_key_out_e
| unexpected_null_size_e
| unexpected_null_data_e
| unexpected_null_list_e
| unexpected_null_slice_e
| not_implemented_e
| unknown_algorithm_e
| invalid_key_e
| invalid_key_type_e
| insufficient_buffer_size_e
| unexpected_null_e
| no_resources_e
| implementation_specific_e
| unexpected_null_slice_key_e
| unexpected_null_slice_salt_e
| unexpected_null_slice_info_e
| unexpected_null_slice_ikm_e
| unexpected_null_slice_prk_e.

Definition error_eqb (a b : error) : bool :=
  match a, b with
  | ok_e, ok_e | invalid_context_e, invalid_context_e | unexpected_null_key_in_e, unexpected_null_key_in_e
  | unexpected_null_key_out_e, unexpected_null_key_out_e | unexpected_null_size_e, unexpected_null_size_e
  | unexpected_null_data_e, unexpected_null_data_e | unexpected_null_list_e, unexpected_null_list_e
  | unexpected_null_slice_e, unexpected_null_slice_e | not_implemented_e, not_implemented_e
  | unknown_algorithm_e, unknown_algorithm_e | invalid_key_e, invalid_key_e | invalid_key_type_e, invalid_key_type_e
  | insufficient_buffer_size_e, insufficient_buffer_size_e | unexpected_null_e, unexpected_null_e
  | no_resources_e, no_resources_e | implementation_specific_e, implementation_specific_e
  | unexpected_null_slice_key_e, unexpected_null_slice_key_e | unexpected_null_slice_salt_e, unexpected_null_slice_salt_e
  | unexpected_null_slice_info_e, unexpected_null_slice_info_e | unexpected_null_slice_ikm_e, unexpected_null_slice_ikm_e
  | unexpected_null_slice_prk_e, unexpected_null_slice_prk_e => true
  | _, _ => false
  end.

(** include/nat20/crypto.h:36-54: the enumeration, as its integer value; other values are out of range. *)
Definition sha2_224_e : N := 0.
Definition sha2_256_e : N := 1.
Definition sha2_384_e : N := 2.
Definition sha2_512_e : N := 3.

(** include/nat20/crypto.h: n20_crypto_gather_list_t *)
Record gather := mkGather { g_count : N; g_list : option (list slice) }.

(** Whether this platform's [memcpy] accepts a NULL source with size 0. C11 7.24.1p2 makes it undefined; common C libraries accept it. *)
Class Libc := { memcpy_null_ok : bool }.

(** [memcpy(dst, src, n)] for a destination array. *)
Definition memcpy `{Libc} (dst : list byte) (src : ptr) (n : N) : res (list byte) :=
  match src with
  | None => if n =? 0 then (if memcpy_null_ok then Ret dst else Undef UBMemcpyNull) else Undef UBNullDeref
  | Some d =>
      if len d <? n then Undef UBReadOob
      else if len dst <? n then Undef UBWriteOob
      else Ret (takeN n d ++ dropN n dst)
  end.

(** src/crypto/nat20/crypto.c:28-33. [DZero] is the all-zero union. *)
Inductive digest_state := DZero | D256 (st : sha256_state) | D512 (st : sha512_state).

(** src/crypto/nat20/crypto.c:40-53 *)
Definition digest_enum_to_size (alg : N) : N :=
  if alg =? sha2_224_e then 28
  else if alg =? sha2_256_e then 32
  else if alg =? sha2_384_e then 48
  else if alg =? sha2_512_e then 64
  else 0.

(** What an operation with an output buffer and size reports. *)
Definition outcome : Type := error * ptr * option N.

(** The function pointers of n20_crypto_digest_context_t (include/nat20/crypto.h), without the context argument. *)
Definition digest_fn := N -> option (list gather) -> N -> ptr -> option N -> res outcome.
Definition hmac_fn := N -> slice -> option gather -> ptr -> option N -> res outcome.
Definition extract_fn := N -> slice -> slice -> ptr -> option N -> res outcome.
Definition expand_fn := N -> slice -> slice -> N -> ptr -> res (error * ptr).
Definition hkdf_fn := N -> slice -> slice -> slice -> N -> ptr -> res (error * ptr).

Section WithEnv.
Context `{Env} `{Libc}.

(** src/crypto/nat20/crypto.c:65-80: the first switch. *)
Definition digest_init (alg : N) : option digest_state :=
  if alg =? sha2_224_e then Some (D256 n20_sha224_init)
  else if alg =? sha2_256_e then Some (D256 n20_sha256_init)
  else if alg =? sha2_384_e then Some (D512 n20_sha384_init)
  else if alg =? sha2_512_e then Some (D512 n20_sha512_init)
  else None.

(** src/crypto/nat20/crypto.c:114-123. Reading the member of the union that is not active is reported as undefined. *)
Definition digest_update (alg : N) (st : digest_state) (s : slice) : res digest_state :=
  if (alg =? sha2_224_e) || (alg =? sha2_256_e) then
    match st with
    | D256 st => do st <- n20_sha256_update (Some st) s; match st with Some st => Ret (D256 st) | None => Undef UBNullDeref end
    | _ => Undef UBReadOob
    end
  else
    match st with
    | D512 st => do st <- n20_sha512_update (Some st) s; match st with Some st => Ret (D512 st) | None => Undef UBNullDeref end
    | _ => Undef UBReadOob
    end.

(** src/crypto/nat20/crypto.c:127-142: the second switch. *)
Definition digest_final (alg : N) (st : digest_state) (out : ptr) : res (digest_state * ptr) :=
  match st with
  | D256 st =>
      if alg =? sha2_224_e then
        do (st, out) <- n20_sha224_finalize (Some st) out; Ret (match st with Some st => D256 st | None => DZero end, out)
      else if alg =? sha2_256_e then
        do (st, out) <- n20_sha256_finalize (Some st) out; Ret (match st with Some st => D256 st | None => DZero end, out)
      else Undef UBReadOob
  | D512 st =>
      if alg =? sha2_384_e then
        do (st, out) <- n20_sha384_finalize (Some st) out; Ret (match st with Some st => D512 st | None => DZero end, out)
      else if alg =? sha2_512_e then
        do (st, out) <- n20_sha512_finalize (Some st) out; Ret (match st with Some st => D512 st | None => DZero end, out)
      else Undef UBReadOob
  | DZero => Undef UBReadOob
  end.

(** src/crypto/nat20/crypto.c:108-124: the inner loop over the slices of one gather list, from index [i], [n] slices to go. A code
    other than [ok_e] leaves the function. *)
Fixpoint digest_slices (alg : N) (n : nat) (i : N) (l : option (list slice)) (st : digest_state) : res (error * digest_state) :=
  match n with
  | O => Ret (ok_e, st)
  | S n =>
      do s <- match l with None => Undef UBNullDeref | Some l => get l i end;
      if sl_size s =? 0 then digest_slices alg n (i + 1) l st
      else match sl_buf s with
           | None => Ret (unexpected_null_slice_e, st)
           | Some _ => do st <- digest_update alg st s; digest_slices alg n (i + 1) l st
           end
  end.

(** src/crypto/nat20/crypto.c:107-125: the outer loop. *)
Fixpoint digest_lists (alg : N) (n : nat) (j : N) (msgs : list gather) (st : digest_state) : res (error * digest_state) :=
  match n with
  | O => Ret (ok_e, st)
  | S n =>
      do g <- get msgs j;
      do (rc, st) <- digest_slices alg (N.to_nat (g_count g)) 0 (g_list g) st;
      match rc with
      | ok_e => digest_lists alg n (j + 1) msgs st
      | _ => Ret (rc, st)
      end
  end.

(** src/crypto/nat20/crypto.c:59-147 *)
Definition n20_digest_internal (state : digest_state) (alg : N) (msg_in : option (list gather)) (msg_count : N)
  (digest_out : ptr) (size_in_out : option N) : res (outcome * digest_state) :=
  match digest_init alg with
  | None => Ret (unknown_algorithm_e, digest_out, size_in_out, state)
  | Some state =>
      match size_in_out with
      | None => Ret (unexpected_null_size_e, digest_out, size_in_out, state)
      | Some size =>
          let digest_size := digest_enum_to_size alg in
          if (size <? digest_size) || match digest_out with None => true | Some _ => false end
          then Ret (insufficient_buffer_size_e, digest_out, Some digest_size, state)
          else
            match msg_in with
            | None => Ret (unexpected_null_data_e, digest_out, size_in_out, state)
            | Some msgs =>
                do first <- get msgs 0;
                if negb (g_count first =? 0) && match g_list first with None => true | Some _ => false end
                then Ret (unexpected_null_list_e, digest_out, size_in_out, state)
                else
                  do (rc, state) <- digest_lists alg (N.to_nat msg_count) 0 msgs state;
                  match rc with
                  | ok_e =>
                      do (state, digest_out) <- digest_final alg state digest_out;
                      Ret (ok_e, digest_out, Some digest_size, state)
                  | _ => Ret (rc, digest_out, size_in_out, state)
                  end
            end
      end
  end.

(** src/crypto/nat20/crypto.c:149-166; [ctx] tells whether the context pointer is non-NULL. The last component is the final content
    of the local [state]. *)
Definition n20_digest_locals (ctx : bool) (alg : N) (msg_in : option (list gather)) (msg_count : N)
  (digest_out : ptr) (size_in_out : option N) : res (outcome * digest_state) :=
  if ctx then
    do (r, state) <- n20_digest_internal DZero alg msg_in msg_count digest_out size_in_out;
    let state := DZero in (* n20_memzero(&state, sizeof(state)) *)
    Ret (r, state)
  else Ret (invalid_context_e, digest_out, size_in_out, DZero).
Definition n20_digest (ctx : bool) : digest_fn := fun alg msg_in msg_count digest_out size_in_out =>
  do (r, _) <- n20_digest_locals ctx alg msg_in msg_count digest_out size_in_out; Ret r.

(** The contents of a local array after a call that got a pointer to it. *)
Definition local_after (before : list byte) (p : ptr) : list byte := match p with Some d => d | None => before end.
Definition size_after (before : N) (s : option N) : N := match s with Some n => n | None => before end.

(** src/crypto/nat20/crypto.c:229-231, 260-265 *)
Definition xor_loop (block_size v : N) (K : list byte) : res (list byte) :=
  for_range 0 block_size (fun i K => do k <- get K i; set K i (n2b (N.lxor (b2n k) v))) K.

(** src/crypto/nat20/crypto.c:183-194 *)
Definition hmac_block_size (alg : N) : option N :=
  if (alg =? sha2_224_e) || (alg =? sha2_256_e) then Some (32 * 2)
  else if (alg =? sha2_384_e) || (alg =? sha2_512_e) then Some (64 * 2)
  else None.

(** src/crypto/nat20/crypto.c:170-277. [digest] is [ctx->digest]. Returns the outcome, [K] and [inner_digest]. *)
Definition n20_hmac_internal (digest : digest_fn) (K inner : list byte) (alg : N) (key : slice) (msg_in : option gather)
  (mac_out : ptr) (size_in_out : option N) : res (outcome * (list byte * list byte)) :=
  let digest_size := digest_enum_to_size alg in
  if digest_size =? 0 then Ret (unknown_algorithm_e, mac_out, size_in_out, (K, inner)) else
  match hmac_block_size alg with
  | None => Ret (unknown_algorithm_e, mac_out, size_in_out, (K, inner))
  | Some block_size =>
  match size_in_out with
  | None => Ret (unexpected_null_size_e, mac_out, size_in_out, (K, inner))
  | Some size =>
  if match sl_buf key with None => negb (sl_size key =? 0) | Some _ => false end
  then Ret (unexpected_null_slice_key_e, mac_out, size_in_out, (K, inner)) else
  if match mac_out with None => true | Some _ => false end || (size <? digest_size)
  then Ret (insufficient_buffer_size_e, mac_out, Some digest_size, (K, inner)) else
  do (rc, K, digest_size) <-
    (if block_size <? sl_size key then
       do (rc, k, n) <- digest alg (Some [mkGather 1 (Some [key])]) 1 (Some K) (Some digest_size);
       Ret (rc, local_after K k, size_after digest_size n)
     else
       do K <- memcpy K (sl_buf key) (sl_size key); Ret (ok_e, K, digest_size));
  match rc with
  | ok_e =>
      do K <- xor_loop block_size 0x36 K;
      match msg_in with
      | None => Ret (unexpected_null_data_e, mac_out, size_in_out, (K, inner))
      | Some msg =>
          if negb (g_count msg =? 0) && match g_list msg with None => true | Some _ => false end
          then Ret (unexpected_null_list_e, mac_out, size_in_out, (K, inner)) else
          let pad := mkSlice block_size (Some K) in
          do (rc, i, n) <- digest alg (Some [mkGather 1 (Some [pad]); msg]) 2 (Some inner) (Some digest_size);
          let inner := local_after inner i in
          let digest_size := size_after digest_size n in
          match rc with
          | ok_e =>
              do K <- xor_loop block_size 0x6a K;
              let pad := mkSlice block_size (Some K) in
              let inner_digest_slice := mkSlice digest_size (Some inner) in
              do r <- digest alg (Some [mkGather 1 (Some [pad]); mkGather 1 (Some [inner_digest_slice])]) 2 mac_out size_in_out;
              Ret (r, (K, inner))
          | _ => Ret (rc, mac_out, size_in_out, (K, inner))
          end
      end
  | _ => Ret (rc, mac_out, size_in_out, (K, inner))
  end
  end
  end.

(** src/crypto/nat20/crypto.c:279-300. [ctx] is [ctx->digest]. *)
Definition n20_hmac_locals (ctx : option digest_fn) (alg : N) (key : slice) (msg_in : option gather)
  (mac_out : ptr) (size_in_out : option N) : res (outcome * (list byte * list byte)) :=
  match ctx with
  | None => Ret (invalid_context_e, mac_out, size_in_out, (repeat x00 128, repeat x00 64))
  | Some digest =>
      do (r, (K, inner)) <- n20_hmac_internal digest (repeat x00 128) (repeat x00 64) alg key msg_in mac_out size_in_out;
      let K := map (fun _ => x00) K in          (* n20_memzero(K, sizeof(K)) *)
      let inner := map (fun _ => x00) inner in  (* n20_memzero(inner_digest, sizeof(inner_digest)) *)
      Ret (r, (K, inner))
  end.
Definition n20_hmac (ctx : option digest_fn) : hmac_fn := fun alg key msg_in mac_out size_in_out =>
  do (r, _) <- n20_hmac_locals ctx alg key msg_in mac_out size_in_out; Ret r.

(** [buffer == NULL && size != 0] *)
Definition null_slice (s : slice) : bool := match sl_buf s with None => negb (sl_size s =? 0) | Some _ => false end.

(** src/crypto/nat20/crypto.c:343-380. [ctx] is [ctx->hmac]. *)
Definition n20_hkdf_extract (ctx : option hmac_fn) : extract_fn := fun alg ikm salt prk size_in_out =>
  match ctx with
  | None => Ret (invalid_context_e, prk, size_in_out)
  | Some hmac =>
      let digest_size := digest_enum_to_size alg in
      if digest_size =? 0 then Ret (unknown_algorithm_e, prk, size_in_out)
      else if null_slice ikm then Ret (unexpected_null_slice_ikm_e, prk, size_in_out)
      else if null_slice salt then Ret (unexpected_null_slice_salt_e, prk, size_in_out)
      else match size_in_out with
           | None => Ret (unexpected_null_size_e, prk, size_in_out)
           | Some size =>
               if (size <? digest_size) || match prk with None => true | Some _ => false end
               then Ret (insufficient_buffer_size_e, prk, Some digest_size)
               else hmac alg salt (Some (mkGather 1 (Some [ikm]))) prk size_in_out
           end
  end.

(** src/crypto/nat20/crypto.c:429-439: the loop over full blocks. [prev] is hmac_inputs[0], [i] the counter, [done] the bytes already
    passed by [out], [rest] those from [out] on. The return code of [hmac] is ignored. Each iteration consumes [digest_size] octets;
    [fuel] bounds the number of iterations and must exceed [key_octets]. *)
Fixpoint expand_loop (hmac : hmac_fn) (fuel : nat) (alg : N) (prk info : slice) (prev : slice) (i digest_size key_octets : N)
  (done rest : list byte) : res (slice * N * N * N * list byte * list byte) :=
  if digest_size <=? key_octets then
    match fuel with
    | O => OutOfFuel
    | S fuel =>
        do (_, out, n) <- hmac alg prk (Some (mkGather 3 (Some [prev; info; mkSlice 1 (Some [n2b i])]))) (Some rest) (Some digest_size);
        let rest := local_after rest out in
        let digest_size := size_after digest_size n in
        let prev := mkSlice digest_size (Some rest) in
        if len rest <? digest_size then Undef UBPtrArith else
        expand_loop hmac fuel alg prk info prev (wrap8 (i + 1)) digest_size (sub_sz key_octets digest_size)
          (done ++ takeN digest_size rest) (dropN digest_size rest)
    end
  else Ret (prev, i, digest_size, key_octets, done, rest).

(** src/crypto/nat20/crypto.c:382-459. [ctx] is [ctx->hmac]. The last component is the final content of [T] if the block declaring it
    is entered. *)
Definition n20_hkdf_expand_locals (ctx : option hmac_fn) (alg : N) (prk info : slice) (key_octets : N) (out : ptr)
  : res (error * ptr * option (list byte)) :=
  match ctx with
  | None => Ret (invalid_context_e, out, None)
  | Some hmac =>
      let digest_size := digest_enum_to_size alg in
      if digest_size =? 0 then Ret (unknown_algorithm_e, out, None)
      else if null_slice prk then Ret (unexpected_null_slice_prk_e, out, None)
      else if null_slice info then Ret (unexpected_null_slice_info_e, out, None)
      else if key_octets =? 0 then Ret (ok_e, out, None)
      else match out with
           | None => Ret (insufficient_buffer_size_e, out, None)
           | Some buf =>
               do (prev, i, digest_size, key_octets, done, rest) <-
                 expand_loop hmac (S (N.to_nat key_octets)) alg prk info slice_null 1 digest_size key_octets [] buf;
               if 0 <? key_octets then
                 do (rc, t, n) <- hmac alg prk (Some (mkGather 3 (Some [prev; info; mkSlice 1 (Some [n2b i])])))
                                    (Some (repeat x00 64)) (Some digest_size);
                 let T := local_after (repeat x00 64) t in
                 match rc with
                 | ok_e =>
                     do rest <- memcpy rest (Some T) key_octets;
                     Ret (ok_e, Some (done ++ rest), Some (map (fun _ => x00) T)) (* n20_memzero(T, sizeof(T)) *)
                 | _ => Ret (rc, Some (done ++ rest), Some (map (fun _ => x00) T)) (* n20_memzero(T, sizeof(T)) *)
                 end
               else Ret (ok_e, Some (done ++ rest), None)
           end
  end.
Definition n20_hkdf_expand (ctx : option hmac_fn) : expand_fn := fun alg prk info key_octets out =>
  do (rc, out, _) <- n20_hkdf_expand_locals ctx alg prk info key_octets out; Ret (rc, out).

(** src/crypto/nat20/crypto.c:302-341. [ctx] is [ctx->hkdf_extract] and [ctx->hkdf_expand]. The last component is the final content of
    [prk] if the function gets that far. *)
Definition n20_hkdf_locals (ctx : option (extract_fn * expand_fn)) (alg : N) (ikm salt info : slice) (key_octets : N) (out : ptr)
  : res (error * ptr * option (list byte)) :=
  match ctx with
  | None => Ret (invalid_context_e, out, None)
  | Some (extract, expand) =>
      let prk_size := digest_enum_to_size alg in
      if prk_size =? 0 then Ret (unknown_algorithm_e, out, None)
      else if null_slice ikm then Ret (unexpected_null_slice_ikm_e, out, None)
      else if null_slice salt then Ret (unexpected_null_slice_salt_e, out, None)
      else if null_slice info then Ret (unexpected_null_slice_info_e, out, None)
      else
        do (rc, p, n) <- extract alg ikm salt (Some (repeat x00 64)) (Some prk_size);
        let prk := local_after (repeat x00 64) p in
        let prk_size := size_after prk_size n in
        match rc with
        | ok_e =>
            do (rc, out) <- expand alg (mkSlice prk_size (Some prk)) info key_octets out;
            Ret (rc, out, Some (map (fun _ => x00) prk)) (* n20_memzero(prk, sizeof(prk)) *)
        | _ => Ret (rc, out, Some (map (fun _ => x00) prk)) (* n20_memzero(prk, sizeof(prk)) *)
        end
  end.
Definition n20_hkdf (ctx : option (extract_fn * expand_fn)) : hkdf_fn := fun alg ikm salt info key_octets out =>
  do (rc, out, _) <- n20_hkdf_locals ctx alg ikm salt info key_octets out; Ret (rc, out).

(** src/crypto/nat20/crypto.c:461-467 *)
Record digest_context := mkContext {
  ctx_digest : digest_fn; ctx_hmac : hmac_fn; ctx_hkdf : hkdf_fn; ctx_extract : extract_fn; ctx_expand : expand_fn
}.
Definition n20_crypto_digest_context : digest_context :=
  let digest := n20_digest true in
  let hmac := n20_hmac (Some digest) in
  let extract := n20_hkdf_extract (Some hmac) in
  let expand := n20_hkdf_expand (Some hmac) in
  mkContext digest hmac (n20_hkdf (Some (extract, expand))) extract expand.

(** src/crypto/nat20/crypto.c:469-484: NULL or not; opening stores the context above. *)
Definition n20_crypto_nat20_open (ctx_out : bool) : error * option digest_context :=
  if ctx_out then (ok_e, Some n20_crypto_digest_context) else (unexpected_null_e, None).
Definition n20_crypto_nat20_close (ctx : bool) : error := if ctx then ok_e else unexpected_null_e.

End WithEnv.
