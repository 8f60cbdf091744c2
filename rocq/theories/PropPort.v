(** Property C59: the bytes written and the digests computed do not depend on the platform. [agree], [alike] and [portable]
    are in SpecPort.v, the proofs for the single calls in PortProofs.v. *)
From Coq Require Import List NArith ZArith Bool Strings.Byte Lia.
From Coq Require Import ZifyBool ZifyNat ZifyN.
From Verif Require Import Base BaseFacts Res Stream SpecStream StreamProofs SpecDigits DigitsFacts SpecDer DerFacts Asn1 SpecAsn1 Asn1Proofs Cbor Oid X509 X509Ext SpecApi ApiProofs
  PropApi Crypto SpecCrypto SpecClient PropClient.
From Verif Require Import SpecPort PortProofs.
Import ListNotations.
Open Scope N_scope.

(** The same program, on one platform and on another, writes the same bytes; it can serve as a callback in turn. *)
Theorem C59_programs : forall (E1 E2 : Env) cs1 cs2,
  Forall (@call_ok E1) cs1 -> Forall (@call_ok E2) cs2 -> Forall2 (alike E1 E2) cs1 cs2 ->
  agree E1 E2 (@exec_calls E1 cs1) (@exec_calls E2 cs2).
Proof.
  intros E1 E2 cs1 cs2 H1 H2 HA. induction HA as [|c1 c2 cs1 cs2 Hc _ IH]; [apply agree_skip|].
  inversion H1; subst. inversion H2; subst. rewrite !exec_calls_cons. apply agree_seq; [now apply calls_agree|auto].
Qed.
Print Assumptions C59_programs.

(** Seen through the streams: the same size is reported (also by a sizing pass with a NULL buffer), and where the buffers
    suffice, the same contents. *)
Theorem C59_same_output : forall (E1 E2 : Env) cs1 cs2 buf1 size1 buf2 size2,
  Forall (@call_ok E1) cs1 -> Forall (@call_ok E2) cs2 -> Forall2 (alike E1 E2) cs1 cs2 ->
  @buffer_ok E1 buf1 size1 -> @buffer_ok E2 buf2 size2 ->
  exists s1 s2, w_stream (@run_calls E1 buf1 size1 cs1) = Some s1 /\ w_stream (@run_calls E2 buf2 size2 cs2) = Some s2 /\
    (n20_stream_has_write_position_overflow (Some s1) = false -> n20_stream_has_write_position_overflow (Some s2) = false ->
     n20_stream_byte_count (Some s1) = n20_stream_byte_count (Some s2) /\
     (n20_stream_has_buffer_overflow (Some s1) = false -> n20_stream_has_buffer_overflow (Some s2) = false ->
      @stream_contents E1 s1 = @stream_contents E2 s2)).
Proof.
  intros E1 E2 cs1 cs2 buf1 size1 buf2 size2 H1 H2 HA B1 B2.
  destruct (C59_programs E1 E2 cs1 cs2 H1 H2 HA) as (b1 & b2 & [_ R1] & [_ R2] & Hb).
  destruct (R1 _ [] _ _ [] B1 (shows_init _ _ B1)) as (s1 & v1 & W1 & S1 & _).
  destruct (R2 _ [] _ _ [] B2 (shows_init _ _ B2)) as (s2 & v2 & W2 & S2 & _).
  rewrite app_nil_r in S1, S2. exists s1, s2. splits; [exact W1|exact W2|].
  pose proof S1 as (C1 & P1 & F1 & _). pose proof S2 as (C2 & P2 & F2 & _). rewrite P1, P2. intros L1 L2.
  specialize (Hb ltac:(lia) ltac:(lia)). subst b2. rewrite C1, C2, !N.mod_small by lia. split; [reflexivity|].
  rewrite F1, F2. destruct buf1 as [m1|]; [|discriminate]. destruct buf2 as [m2|]; [|discriminate]. intros O1 O2.
  destruct B1, B2. rewrite (shows_contents E1 s1 m1 size1 b1), (shows_contents E2 s2 m2 size2 b1); try assumption; try lia. reflexivity.
Qed.
Print Assumptions C59_same_output.

(** The digest interface of the nat20 back end: a careful program ends with the same result, whatever the platform and
    whatever its memcpy does with NULL. *)
Theorem C59_digest : forall (E1 E2 : Env) (M1 M2 : Libc) R (p : client R) c1 c2,
  @n20_crypto_nat20_open E1 M1 true = (ok_e, Some c1) -> @n20_crypto_nat20_open E2 M2 true = (ok_e, Some c2) ->
  @careful E1 M1 R false p -> @careful E2 M2 R false p ->
  exists r, run c1 p = Ret r /\ run c2 p = Ret r /\ yields false p r.
Proof.
  intros E1 E2 M1 M2 R p c1 c2 O1 O2 K1 K2.
  destruct (C53_nat20 E1 M1 R p c1 O1 K1) as (r1 & Hr1 & Y1). destruct (C53_nat20 E2 M2 R p c2 O2 K2) as (r2 & Hr2 & Y2).
  exists r1. splits; try assumption. now rewrite (yields_det p r1 r2 Y1 Y2).
Qed.
Print Assumptions C59_digest.

(** ** What does depend on the platform *)
Definition pc : Env := {| size_width := W64; host_little_endian := true; stray := fun _ => x00 |}.
Definition mcu : Env := {| size_width := W32; host_little_endian := false; stray := fun _ => xff |}.

Lemma plain_bits (E : Env) d bits : bits <= 8 * len d -> bits + 7 < SZ -> len (enc_bits (takeN bits (bits_of_bytes d))) < SZ ->
  renders tolerable (n20_asn1_bitstring (Some d) bits n20_asn1_tag_info_no_override)
    (enc_tlv (tlv_bitstring (enc_bits (takeN bits (bits_of_bytes d))))).
Proof.
  intros H1 H2 H3. apply (bitstring_renders tolerable (Some d) bits n20_asn1_tag_info_no_override); [now split|exact H3].
Qed.
Lemma wrapped_bits (E : Env) d bits u : N.shiftr (wrap_sz (bits + 7)) 3 =? 0 = true -> n2b (N.land (8 - N.land bits 7) 7) = u ->
  renders tolerable (n20_asn1_bitstring (Some d) bits n20_asn1_tag_info_no_override) (enc_tlv (tlv_bitstring [u])).
Proof.
  intros H1 H2. pose proof SZ_lo.
  apply (hwc_renders tolerable 0 false 3 (Some (n20_asn1_bitstring_content (Some d) bits)) [u] n20_asn1_tag_info_no_override);
    [|lia|change (len [u] < SZ); lens; lia].
  unfold n20_asn1_bitstring_content. cbv zeta. rewrite H1. cbv iota.
  apply renders_skip_l; [reflexivity|]. rewrite H2. apply renders_prepend1.
Qed.

Lemma bits_differ (E1 E2 : Env) d bits : bits <= 8 * len d -> bits + 100 < @SZ E1 -> 100 < bits ->
  N.shiftr (@wrap_sz E2 (bits + 7)) 3 =? 0 = true ->
  ~ agree E1 E2 (@n20_asn1_bitstring E1 (Some d) bits n20_asn1_tag_info_no_override)
                (@n20_asn1_bitstring E2 (Some d) bits n20_asn1_tag_info_no_override).
Proof.
  intros H1 H2 H3 H4 (b1 & b2 & R1 & R2 & Hb). pose proof (@SZ_lo E2). pose proof (@SZ_hi E1).
  pose proof (wrapped_bits E2 d bits _ H4 eq_refl) as T2.
  assert (HL : 8 * len (enc_bits (takeN bits (bits_of_bytes d))) = 8 + bits + pad (takeN bits (bits_of_bytes d))).
  { unfold enc_bits. rewrite len_cons. pose proof (len_pack (takeN bits (bits_of_bytes d))) as HP.
    rewrite len_takeN, len_bits_of_bytes in HP. lia. }
  pose proof (pad_lt (takeN bits (bits_of_bytes d))) as HP.
  pose proof (plain_bits E1 d bits H1 ltac:(lia) ltac:(lia)) as T1.
  pose proof (len_enc_tlv (tlv_bitstring (enc_bits (takeN bits (bits_of_bytes d))))) as [_ HT].
  assert (HU : len (enc_tlv (tlv_bitstring (enc_bits (takeN bits (bits_of_bytes d))))) <=
               15 + len (enc_bits (takeN bits (bits_of_bytes d)))).
  { unfold enc_tlv, tlv_bitstring. cbn [t_class t_constructed t_tag t_content].
    pose proof (len_enc_ident_le 0 false 3 ltac:(reflexivity)).
    pose proof (len_enc_len_le (len (enc_bits (takeN bits (bits_of_bytes d)))) ltac:(lia)). lens. lia. }
  cbn [t_content tlv_bitstring] in HT. set (t := tlv_bitstring (enc_bits _)) in *. clearbody t.
  assert (B1 : enc_tlv t = b1) by (eapply (@renders_det E1); [|exact T1|exact R1]; lia).
  match type of T2 with renders _ _ ?x => assert (L2 : len x = 3) by reflexivity; assert (B2 : x = b2) end.
  { eapply (@renders_det E2); [|exact T2|exact R2]. lia. }
  rewrite B2 in L2. rewrite B1 in HT, HU. rewrite Hb in HT by lia. lia.
Qed.

(** A bit string of 2^32 - 1 bits (allowed in 32 bits: it is 512 MiB) loses its contents there. *)
Theorem C59_bitstring_refuted : forall d, len d = 2 ^ 29 ->
  let c := CBitstring (Some d) (2 ^ 32 - 1) n20_asn1_tag_info_no_override in
  @call_ok pc c /\ @call_ok mcu c /\ ~ agree pc mcu (@exec_call pc c) (@exec_call mcu c).
Proof.
  intros d Hd c. change (2 ^ 29) with 536870912 in Hd.
  splits; [split; [reflexivity|rewrite Hd; vm_compute; congruence]..|].
  apply bits_differ; [rewrite Hd; vm_compute; congruence|reflexivity|reflexivity|reflexivity].
Qed.
Print Assumptions C59_bitstring_refuted.

(** An empty signed integer: the byte next to it decides between 0 and -1 (see C17). *)
Theorem C59_integer_refuted :
  let c := CInteger (mkSlice 0 (Some [])) false true n20_asn1_tag_info_no_override in
  @call_ok pc c /\ @call_ok mcu c /\
  option_map (@stream_contents pc) (w_stream (@run_calls pc (Some (repeat x00 4)) 4 [c])) = Some (bytes [2; 1; 0]) /\
  option_map (@stream_contents mcu) (w_stream (@run_calls mcu (Some (repeat x00 4)) 4 [c])) = Some (bytes [2; 1; 255]).
Proof. intro c. splits; [split; [reflexivity|vm_compute; congruence]..|vm_compute; reflexivity|vm_compute; reflexivity]. Qed.
Print Assumptions C59_integer_refuted.

(** ** Examples *)

(** The extension of a certificate: its content is rendered by a callback, itself a program of calls. *)
Definition inner (E : Env) : list call :=
  [CUint64 300 n20_asn1_tag_info_no_override; CInt64 (-129) (n20_asn1_tag_info_implicit 1); CBitstring (Some (bytes [0xa5; 0x80])) 9 n20_asn1_tag_info_no_override].
Definition outer (E : Env) : list call :=
  [CCborInt (-5);
   CExtension (Some (mkExtensions 1 (Some [mkExtension (Some OID_BASIC_CONSTRAINTS) true (Some (@exec_calls E (inner E)))])));
   CSequence (Some (@exec_calls E (inner E))) (n20_asn1_tag_info_explicit 3)].
Lemma inner_ok (E : Env) : Forall (@call_ok E) (inner E).
Proof. pose proof SZ_lo. constructor; [exact I|]. constructor; [exact I|]. constructor; [|constructor]. split; [lia|vm_compute; congruence]. Qed.
Lemma inner_agree E1 E2 : agree E1 E2 (@exec_calls E1 (inner E1)) (@exec_calls E2 (inner E2)).
Proof.
  apply C59_programs; try apply inner_ok. pose proof (@SZ_lo E1). pose proof (@SZ_lo E2).
  constructor; [split; [reflexivity|exact I]|]. constructor; [split; [reflexivity|exact I]|].
  constructor; [|constructor]. split; [reflexivity|]. intros _. lia.
Qed.
Example C59_example : forall E1 E2,
  Forall (@call_ok E1) (outer E1) /\ Forall (@call_ok E2) (outer E2) /\ Forall2 (alike E1 E2) (outer E1) (outer E2) /\
  agree E1 E2 (@exec_calls E1 (outer E1)) (@exec_calls E2 (outer E2)).
Proof.
  intros E1 E2.
  assert (OK : forall E : Env, Forall (@call_ok E) (outer E)).
  { intro E. pose proof (C05_programs_render E _ (inner_ok E)).
    constructor; [cbn; lia|]. constructor; [|constructor; [assumption|constructor]].
    split; [vm_compute; congruence|]. constructor; [assumption|constructor]. }
  assert (AL : Forall2 (alike E1 E2) (outer E1) (outer E2)).
  { pose proof (inner_agree E1 E2). constructor; [split; reflexivity|]. constructor; [|constructor; [|constructor]].
    - split; [reflexivity|]. constructor; [|constructor].
      split; [reflexivity|]. split; [reflexivity|assumption].
    - split; [reflexivity|assumption]. }
  splits; auto. now apply C59_programs.
Qed.
(** What comes out, on two rather different platforms. *)
Definition shown (E : Env) (size : N) : option (list byte) * option N :=
  (option_map (@stream_contents E) (w_stream (@run_calls E (Some (repeat x00 60)) size (outer E))),
   option_map s_wp (w_stream (@run_calls E None 0 (outer E)))).
Example C59_output_case :
  shown pc 60 = shown mcu 47 /\ snd (shown mcu 47) = Some 47 /\
  fst (shown pc 60) = Some (bytes [163; 15; 48; 13; 3; 3; 7; 165; 128; 129; 2; 255; 127; 2; 2; 1; 44;
    163; 27; 48; 25; 48; 23; 6; 3; 85; 29; 19; 1; 1; 255; 4; 13; 3; 3; 7; 165; 128; 129; 2; 255; 127; 2; 2; 1; 44; 36]).
Proof. vm_compute. splits; reflexivity. Qed.

(** SHA-256 of "abc" in one call, on both. *)
Definition hash_abc : client outcome :=
  Digest sha2_256_e (Some abc) 1 (Some (repeat x00 32)) (Some 32) (fun a => Done a).
Lemma hash_abc_pre (E : Env) : digest_pre (Some abc) 1 (Some (repeat x00 32)) (Some 32).
Proof.
  pose proof SZ_lo. unfold digest_pre, abc. splits; [vm_compute; congruence|vm_compute; congruence|left; split; [vm_compute; congruence|]|constructor|reflexivity].
  constructor; [|constructor; [|constructor]]; (split; [cbn [sl_size slice_of]; vm_compute len; lia|vm_compute; congruence]).
Qed.
Example C59_digest_case : forall M1 M2 : Libc, @careful pc M1 _ false hash_abc /\ @careful mcu M2 _ false hash_abc /\
  (@n20_crypto_nat20_open pc M1 true, @n20_crypto_nat20_open mcu M2 true) =
    ((ok_e, Some (@n20_crypto_digest_context pc M1)), (ok_e, Some (@n20_crypto_digest_context mcu M2))).
Proof.
  intros M1 M2. splits; [| |reflexivity]; (split; [apply hash_abc_pre|intros a _; exact I]).
Qed.
