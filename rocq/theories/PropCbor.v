(** Properties C07-C10: CBOR. [read_head], [cbor_read] and [cbor_decodes] are the RFC 8949 reader of SpecCbor.v. *)
From Coq Require Import List NArith ZArith Bool Strings.Byte Lia Wf_nat.
From Verif Require Import Base BaseFacts Stream SpecStream StreamProofs SpecDigits SpecCbor CborFacts Cbor CborProofs.
Import ListNotations.
Open Scope N_scope.

#[local] Instance env64 : Env := {| size_width := W64; host_little_endian := true; stray := fun _ => x00 |}.

(** Runs a renderer on a fresh 64-byte buffer; used by the examples only. *)
Definition rendered (f : cmd) : list byte :=
  match w_stream (f (mkWorld (Some (n20_stream_init (Some (repeat x00 64)) 64)) [])) with
  | Some s => stream_contents s
  | None => []
  end.

(** ** C07 *)
Theorem C07_cbor_header_shortest : forall (E : Env) t n,
  t <= 7 -> n < 2 ^ 64 -> ~ (t = 7 /\ 24 <= n < 32) ->
  exists b w, renders clean (n20_cbor_write_header t n) b /\
    (forall rest, read_head (b ++ rest) = Some (t, n, w, rest)) /\
    (forall b' w', read_head b' = Some (t, n, w', []) -> len b <= len b').
Proof.
  intros E t n Ht Hn H7. exists (enc_head t n), (N.of_nat (head_width n)). splits.
  - apply cbor_header_renders. lia.
  - intro. apply read_enc_head; [lia|assumption|assumption].
  - intros b' w' Hb. apply read_head_shortest in Hb. rewrite len_nil in Hb. lia.
Qed.
Print Assumptions C07_cbor_header_shortest.
Example C07_shortest_case :
  map (fun n => rendered (n20_cbor_write_header 7 n)) [23; 32; 255; 256] = map bytes [[0xf7]; [0xf8; 32]; [0xf8; 255]; [0xf9; 1; 0]] /\
  read_head (bytes [0x1a; 0; 0; 0; 5]) = Some (0, 5, 4, []) /\ read_head (bytes [0x05; 9]) = Some (0, 5, 0, [n2b 9]).
Proof. splits; vm_compute; reflexivity. Qed.

Theorem C07_cbor_header_undefined : forall (E : Env) t n, 7 < t ->
  renders clean (n20_cbor_write_header t n) [xf7] /\ cbor_decodes [xf7] CUndefined.
Proof.
  intros E t n Ht. split; [now apply cbor_header_undefined_renders|].
  intro rest. apply (cbor_read_enc CUndefined rest). left. reflexivity.
Qed.
Print Assumptions C07_cbor_header_undefined.

(** For major type 7 the excluded arguments really fail: what is rendered is not well-formed. *)
Theorem C07_cbor_header_simple_24_to_31_refuted : forall (E : Env) n, 24 <= n < 32 ->
  exists b, renders clean (n20_cbor_write_header 7 n) b /\ forall rest, cbor_read (b ++ rest) = None.
Proof.
  intros E n Hn. exists (enc_head 7 n). split; [apply cbor_header_renders; lia|].
  intro rest.
  assert (n = 24 \/ n = 25 \/ n = 26 \/ n = 27 \/ n = 28 \/ n = 29 \/ n = 30 \/ n = 31) as HC by lia.
  unfold cbor_read. rewrite Nat.add_succ_r. cbn [read_item].
  replace (read_head (enc_head 7 n ++ rest)) with (@None (N * N * N * list byte)); [reflexivity|].
  unfold read_head, enc_head. cbn [app].
  destruct HC as [->|[->|[->|[->|[->|[->|[->| ->]]]]]]];
    (cbn - [len takeN dropN be_val N.ltb N.leb N.eqb]; change (be_bytes (head_width _) ?x) with [n2b x]; cbn [app];
     match goal with |- context [if ?c then _ else _] => change c with false; cbv iota end;
     match goal with |- context [if ?c then _ else _] => change c with true; cbv iota end;
     match goal with |- context [?a <=? len (?x :: ?y)] =>
       replace (a <=? len (x :: y)) with true by (symmetry; apply N.leb_le; rewrite len_cons; change a with 1; lia) end;
     reflexivity).
Qed.
Print Assumptions C07_cbor_header_simple_24_to_31_refuted.

Example C07_example :
  rendered (n20_cbor_write_header 5 65536) = bytes [0xba; 0; 1; 0; 0] /\
  rendered (n20_cbor_write_header n20_cbor_type_none_e 5) = [xf7] /\
  rendered (n20_cbor_write_header 7 24) = bytes [0xf8; 24].
Proof. repeat split. Qed.

(** ** C08 *)
Theorem C08_cbor_uint_round_trip : forall (E : Env) n, n < 2 ^ 64 ->
  exists b, renders clean (n20_cbor_write_uint n) b /\ cbor_decodes b (CInt (Z.of_N n)).
Proof.
  intros E n Hn. exists (enc_item (CInt (Z.of_N n))). split.
  - cbn [enc_item]. destruct (Z.leb_spec 0 (Z.of_N n)); [|lia]. rewrite N2Z.id. now apply cbor_header_renders.
  - intro rest. apply cbor_read_enc. cbn. change (2 ^ 64) with 18446744073709551616 in Hn. lia.
Qed.
Print Assumptions C08_cbor_uint_round_trip.

(** The only undefined behaviour is the signed overflow at INT64_MIN (where the wrapped result is still right). *)
Theorem C08_cbor_int_round_trip : forall (E : Env) z, (- 2 ^ 63 <= z < 2 ^ 63)%Z ->
  exists b, renders (fun u => z = (- 2 ^ 63)%Z /\ u = UBSignedOverflow) (n20_cbor_write_int z) b /\
            cbor_decodes b (CInt z).
Proof.
  intros E z Hz. exists (enc_item (CInt z)). split.
  - apply cbor_int_renders; auto.
  - intro rest. apply cbor_read_enc. cbn. lia.
Qed.
Print Assumptions C08_cbor_int_round_trip.

Theorem C08_cbor_int_min_overflows_refuted : exists z w, (- 2 ^ 63 <= z < 2 ^ 63)%Z /\ w_ub w = [] /\
  In UBSignedOverflow (w_ub (n20_cbor_write_int z w)).
Proof.
  exists (- 2 ^ 63)%Z, (mkWorld (Some (n20_stream_init None 0)) []). splits; [lia|lia|reflexivity|].
  vm_compute. auto.
Qed.
Print Assumptions C08_cbor_int_min_overflows_refuted.

Example C08_example :
  rendered (n20_cbor_write_int (-500)) = bytes [0x39; 0x01; 0xf3] /\
  rendered (n20_cbor_write_uint 18446744073709551615) = bytes [0x1b; 255; 255; 255; 255; 255; 255; 255; 255] /\
  rendered (n20_cbor_write_int (- 2 ^ 63)) = bytes [0x3b; 127; 255; 255; 255; 255; 255; 255; 255].
Proof. repeat split. Qed.

(** ** C09 *)

(** Writing an empty slice with a NULL buffer calls memcpy(dst, NULL, 0); nothing else is undefined. *)
Theorem C09_cbor_strings_verbatim : forall (E : Env) s, slice_ok s ->
  (0 < sl_size s -> sl_buf s <> None) ->
  let allowed := fun u => s = mkSlice 0 None /\ u = UBMemcpyNull in
  (exists b, renders allowed (n20_cbor_write_byte_string s) b /\ cbor_decodes b (CBytes (slice_bytes s))) /\
  (exists b, renders allowed (n20_cbor_write_text_string s) b /\ cbor_decodes b (CText (slice_bytes s))).
Proof.
  intros E s Hs HN allowed. pose proof SZ_hi.
  assert (len (slice_bytes s) < 2 ^ 64).
  { destruct Hs as [Hs _]. destruct s as [n [d|]]; cbn in *.
    - rewrite len_takeN. change (2 ^ 64) with 18446744073709551616. lia.
    - reflexivity. }
  assert (sl_size s = 0 -> sl_buf s = None -> allowed UBMemcpyNull).
  { destruct s as [n p]. cbn. intros -> ->. split; reflexivity. }
  split; eexists; split.
  - now apply cbor_string_renders.
  - intro. now apply (cbor_read_enc (CBytes (slice_bytes s))).
  - now apply cbor_string_renders.
  - intro. now apply (cbor_read_enc (CText (slice_bytes s))).
Qed.
Print Assumptions C09_cbor_strings_verbatim.

Theorem C09_cbor_null_string_is_null : forall (E : Env) n, 0 < n ->
  exists b, renders clean (n20_cbor_write_byte_string (mkSlice n None)) b /\
            renders clean (n20_cbor_write_text_string (mkSlice n None)) b /\ cbor_decodes b CNull.
Proof.
  intros E n Hn. exists (enc_item CNull).
  assert (HB : (0 <? n) = true) by now apply N.ltb_lt.
  splits.
  - unfold n20_cbor_write_byte_string, cbor_string. cbn [sl_size sl_buf]. rewrite HB. now apply cbor_header_renders.
  - unfold n20_cbor_write_text_string, cbor_string. cbn [sl_size sl_buf]. rewrite HB. now apply cbor_header_renders.
  - intro. apply cbor_read_enc. left. reflexivity.
Qed.
Print Assumptions C09_cbor_null_string_is_null.

Example C09_example :
  rendered (n20_cbor_write_text_string (slice_of (bytes [0x49; 0x45; 0x54; 0x46]))) = bytes [0x64; 0x49; 0x45; 0x54; 0x46]
  /\ rendered (n20_cbor_write_byte_string (mkSlice 3 None)) = [xf6].
Proof. repeat split. Qed.
Example C09_strings_case : forall s, In s [mkSlice 2 (Some (bytes [0x49; 0x45; 0x54])); mkSlice 0 None; slice_of (repeat x41 24)] ->
  slice_ok s /\ (0 < sl_size s -> sl_buf s <> None).
Proof. intros s [<-|[<-|[<-|[]]]]; repeat split; vm_compute; congruence. Qed.

(** ** C10 *)

(** How a caller renders a value: children last to first, then the header. Integers below the int64_t range and simple
    values other than booleans and null go through n20_cbor_write_header. *)
Fixpoint write_value (E : Env) (v : cval) : cmd :=
  match v with
  | CInt z => if (0 <=? z)%Z then n20_cbor_write_uint (Z.to_N z)
              else if (- 2 ^ 63 <? z)%Z then n20_cbor_write_int z
              else n20_cbor_write_header n20_cbor_type_nint_e (Z.to_N (-1 - z))
  | CBytes b => n20_cbor_write_byte_string (slice_of b)
  | CText b => n20_cbor_write_text_string (slice_of b)
  | CArray l => andthen (fold_right (fun x acc => andthen acc (write_value E x)) skip l)
                        (n20_cbor_write_array_header (len l))
  | CMap l => andthen (fold_right (fun kv acc => andthen (andthen acc (write_value E (snd kv))) (write_value E (fst kv)))
                                  skip l)
                      (n20_cbor_write_map_header (len l))
  | CTag t v => andthen (write_value E v) (n20_cbor_write_tag t)
  | CSimple n => if n =? 20 then n20_cbor_write_bool false else if n =? 21 then n20_cbor_write_bool true
                 else if n =? 22 then n20_cbor_write_null
                 else n20_cbor_write_header n20_cbor_type_simple_float_e n
  | CFloat _ _ => skip
  end.

(** Byte and text strings must be objects of the C program: shorter than 2^w. *)
Fixpoint strings_fit (E : Env) (v : cval) : Prop :=
  match v with
  | CBytes b | CText b => len b < SZ
  | CArray l => fold_right (fun x P => strings_fit E x /\ P) True l
  | CMap l => fold_right (fun kv P => strings_fit E (fst kv) /\ strings_fit E (snd kv) /\ P) True l
  | CTag _ v => strings_fit E v
  | _ => True
  end.

Lemma write_value_renders (E : Env) v : cval_ok v -> strings_fit E v -> renders clean (write_value E v) (enc_item v).
Proof.
  remember (csize v) as n eqn:Hn. revert v Hn.
  induction n as [n IH] using (well_founded_induction lt_wf). intros v Hn Hok Hfit.
  destruct v as [z|b|b|l|l|t v|k|w bits]; cbn [cval_ok strings_fit write_value] in *.
  - destruct (Z.leb_spec 0 z) as [H0|H0].
    + cbn [enc_item]. destruct (Z.leb_spec 0 z); [|lia]. now apply cbor_header_renders.
    + destruct (Z.ltb_spec (- 2 ^ 63) z).
      * apply cbor_int_renders; [lia|lia].
      * cbn [enc_item]. destruct (Z.leb_spec 0 z); [lia|]. now apply cbor_header_renders.
  - cbn [enc_item].
    assert (slice_bytes (slice_of b) = b) as HB by apply takeN_len. rewrite <- HB at 2 3.
    apply cbor_string_renders; [reflexivity|split; [assumption|cbn; lia]|discriminate|discriminate].
  - cbn [enc_item].
    assert (slice_bytes (slice_of b) = b) as HB by apply takeN_len. rewrite <- HB at 2 3.
    apply cbor_string_renders; [reflexivity|split; [assumption|cbn; lia]|discriminate|discriminate].
  - destruct Hok as [_ Hok]. cbn [enc_item]. apply renders_seq; [|now apply cbor_header_renders].
    assert (Hsz : (fold_right (fun x m => csize x + m)%nat 0%nat l < n)%nat) by (cbn in Hn; lia). clear Hn.
    induction l as [|x l IHl]; [apply renders_skip|]. cbn [fold_right flat_map] in *.
    apply renders_seq; [apply IHl; [apply Hok|apply Hfit|lia]|].
    apply (IH (csize x)); [lia|reflexivity|apply Hok|apply Hfit].
  - destruct Hok as [_ Hok]. cbn [enc_item]. apply renders_seq; [|now apply cbor_header_renders].
    assert (Hsz : (fold_right (fun kv m => csize (fst kv) + csize (snd kv) + m)%nat 0%nat l < n)%nat) by (cbn in Hn; lia).
    clear Hn.
    induction l as [|x l IHl]; [apply renders_skip|]. cbn [fold_right flat_map] in *.
    rewrite <- app_assoc.
    apply renders_seq; [apply renders_seq; [apply IHl; [apply Hok|apply Hfit|lia]|]|].
    + apply (IH (csize (snd x))); [lia|reflexivity|apply Hok|apply Hfit].
    + apply (IH (csize (fst x))); [lia|reflexivity|apply Hok|apply Hfit].
  - destruct Hok as [Ht Hok]. cbn [enc_item]. apply renders_seq; [|now apply cbor_header_renders].
    apply (IH (csize v)); [cbn in Hn; lia|reflexivity|assumption|assumption].
  - cbn [enc_item].
    destruct (N.eqb_spec k 20) as [->|]; [now apply cbor_header_renders|].
    destruct (N.eqb_spec k 21) as [->|]; [now apply cbor_header_renders|].
    destruct (N.eqb_spec k 22) as [->|]; now apply cbor_header_renders.
  - contradiction.
Qed.

Theorem C10_cbor_documents_round_trip : forall (E : Env) v, cval_ok v -> strings_fit E v ->
  exists b, renders clean (write_value E v) b /\ cbor_decodes b v /\
    (* whatever the fuel given to the reader *)
    (forall fuel rest, (2 * length (b ++ rest) + 2 <= fuel)%nat -> read_item fuel (b ++ rest) = Some (v, rest)).
Proof.
  intros E v Hok Hfit. exists (enc_item v). splits.
  - now apply write_value_renders.
  - intro. now apply cbor_read_enc.
  - intros fuel rest Hf. rewrite cbor_read_fuel by assumption. now apply cbor_read_enc.
Qed.
Print Assumptions C10_cbor_documents_round_trip.

(** Distinct values, distinct prefix-free encodings. *)
Theorem C10_cbor_documents_prefix_free : forall (E : Env) v1 v2 b1 b2 r1 r2,
  cval_ok v1 -> strings_fit E v1 -> cval_ok v2 -> strings_fit E v2 ->
  renders clean (write_value E v1) b1 -> len b1 < SZ ->
  renders clean (write_value E v2) b2 -> len b2 < SZ ->
  b1 ++ r1 = b2 ++ r2 -> v1 = v2 /\ r1 = r2.
Proof.
  intros E v1 v2 b1 b2 r1 r2 O1 F1 O2 F2 R1 L1 R2 L2 HE.
  pose proof (renders_det _ _ _ _ _ L1 R1 (write_value_renders E v1 O1 F1)) as ->.
  pose proof (renders_det _ _ _ _ _ L2 R2 (write_value_renders E v2 O2 F2)) as ->.
  now apply enc_item_inj in HE.
Qed.
Print Assumptions C10_cbor_documents_prefix_free.

(** RFC 8949 appendix A: {"a": 1, "b": [2, 3]} and a tagged byte string. *)
Example C10_example :
  let v := CMap [(CText (bytes [0x61]), CInt 1); (CText (bytes [0x62]), CArray [CInt 2; CInt 3])] in
  cval_ok v /\ strings_fit env64 v /\
  rendered (write_value env64 v) = bytes [0xa2; 0x61; 0x61; 0x01; 0x61; 0x62; 0x82; 0x02; 0x03] /\
  rendered (write_value env64 (CTag 23 (CArray [CBool true; CNull; CInt (-1)]))) = bytes [0xd7; 0x83; 0xf5; 0xf6; 0x20].
Proof. cbv zeta. splits; try reflexivity; cbn; repeat split; reflexivity || lia. Qed.
(** Two documents in a row are taken apart in one way only: here, by the reader. *)
Example C10_prefix_case :
  let v1 := CArray [CInt 1; CText (bytes [0x61])] in let v2 := CTag 24 (CBytes (bytes [0x83])) in
  cval_ok v1 /\ strings_fit env64 v1 /\ cval_ok v2 /\ strings_fit env64 v2 /\
  renders clean (write_value env64 v1) (bytes [0x82; 0x01; 0x61; 0x61]) /\ renders clean (write_value env64 v2) (bytes [0xd8; 0x18; 0x41; 0x83]) /\
  cbor_read (bytes [0x82; 0x01; 0x61; 0x61; 0xd8; 0x18; 0x41; 0x83]) = Some (v1, bytes [0xd8; 0x18; 0x41; 0x83]).
Proof.
  cbv zeta. splits; [cbn; repeat split; reflexivity || lia|cbn; repeat split; reflexivity || lia|cbn; repeat split; reflexivity || lia|cbn; repeat split; reflexivity || lia| | |vm_compute; reflexivity].
  - apply (write_value_renders env64 (CArray [CInt 1; CText (bytes [0x61])])); cbn; repeat split; reflexivity || lia.
  - apply (write_value_renders env64 (CTag 24 (CBytes (bytes [0x83])))); cbn; repeat split; reflexivity || lia.
Qed.
