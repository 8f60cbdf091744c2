(** Properties C29-C31: the DICE extensions. The vocabulary is explained at the head of PropX509.v. The integer writer
    forms a pointer in front of the number on little-endian hosts and may read one byte outside of it (property C17), so
    the statements with integers allow [stray_reads]. *)
From Coq Require Import List NArith ZArith Bool Strings.Byte Lia.
From Coq Require Import ZifyBool ZifyNat ZifyN.
From Verif Require Import Base BaseFacts Stream SpecStream StreamProofs SpecDigits SpecDer DerFacts Asn1 SpecAsn1 Asn1Proofs
  Oid X509 X509Ext SpecX509 RendProofs X509Facts X509Proofs PropX509.
Import ListNotations.
Open Scope N_scope.

(** ** C29 *)
Theorem C29_open_dice_round_trip : forall (E : Env) o, open_dice_ok o ->
  sizing_succeeds (n20_x509_ext_open_dice_input_content (Some o)) ->
  exists b, renders stray_reads (n20_x509_ext_open_dice_input_content (Some o)) b /\ len b < SZ /\
    read_open_dice b = Some (open_dice_of o).
Proof.
  intros E o Ho Hs. destruct (rend_sized _ _ _ (rend_open_dice stray_reads o (fun u H => H) Ho) Hs) as [HR HL].
  eexists. splits; [exact HR|exact HL|]. apply read_open_dice_enc. now apply small_SZ.
Qed.
Print Assumptions C29_open_dice_round_trip.

Theorem C29_open_dice_null : forall (E : Env), renders clean (n20_x509_ext_open_dice_input_content None) [].
Proof. intros. apply renders_skip. Qed.
Print Assumptions C29_open_dice_null.

(** Distinct inputs, distinct bytes. *)
Theorem C29_open_dice_injective : forall (E : Env) o1 o2 b, open_dice_ok o1 -> open_dice_ok o2 -> len b < SZ ->
  renders stray_reads (n20_x509_ext_open_dice_input_content (Some o1)) b ->
  renders stray_reads (n20_x509_ext_open_dice_input_content (Some o2)) b -> open_dice_of o1 = open_dice_of o2.
Proof.
  intros E o1 o2 b H1 H2 Hb R1 R2.
  destruct (C29_open_dice_round_trip E o1 H1) as (b1 & R1' & _ & P1); [now apply (sizing_spec stray_reads _ b R1)|].
  destruct (C29_open_dice_round_trip E o2 H2) as (b2 & R2' & _ & P2); [now apply (sizing_spec stray_reads _ b R2)|].
  rewrite <- (renders_det _ _ _ _ _ Hb R1 R1') in P1. rewrite <- (renders_det _ _ _ _ _ Hb R2 R2') in P2. congruence.
Qed.
Print Assumptions C29_open_dice_injective.

Section Examples.
#[local] Existing Instance env64.
Lemma example_slice bs : len bs < 2 ^ 32 -> slice_ok (slice_of bs).
Proof.
  intro Hb. split; [cbn [slice_of sl_size]; eapply N.lt_le_trans; [exact Hb|vm_compute; congruence]|apply N.le_refl].
Qed.
Lemma null_slice : slice_ok slice_null.
Proof. split; [vm_compute; reflexivity|exact I]. Qed.

Definition example_open_dice : open_dice_input :=
  mkOpenDice (slice_of (bytes [1; 2])) slice_null (slice_of (bytes [3])) (slice_of []) slice_null slice_null 2 (slice_of (bytes [0x70])).
Example C29_example :
  open_dice_ok example_open_dice /\ sizing_succeeds (n20_x509_ext_open_dice_input_content (Some example_open_dice)) /\
  rendered (n20_x509_ext_open_dice_input_content (Some example_open_dice)) =
    bytes [0x30; 0x19; 0xa0; 0x04; 0x04; 0x02; 0x01; 0x02; 0xa2; 0x03; 0x04; 0x01; 0x03; 0xa3; 0x02; 0x04; 0x00;
           0xa6; 0x03; 0x02; 0x01; 0x02; 0xa7; 0x03; 0x0c; 0x01; 0x70] /\
  open_dice_of example_open_dice =
    OpenDiceFields (Some (bytes [1; 2])) None (Some (bytes [3])) (Some []) None None (Some 2%Z) (Some (bytes [0x70])).
Proof.
  splits; [|vm_compute; reflexivity..].
  unfold open_dice_ok. splits; try (apply example_slice; vm_compute; reflexivity); try apply null_slice; vm_compute; reflexivity.
Qed.
(** Different objects behind the same slices: the same bytes. Another mode: other bytes. *)
Example C29_injective_case :
  let o2 := mkOpenDice (mkSlice 2 (Some (bytes [1; 2; 3]))) (mkSlice 7 None) (slice_of (bytes [3])) (slice_of []) slice_null slice_null 2 (slice_of (bytes [0x70])) in
  open_dice_ok o2 /\ o2 <> example_open_dice /\ open_dice_of o2 = open_dice_of example_open_dice /\
  rendered (n20_x509_ext_open_dice_input_content (Some o2)) = rendered (n20_x509_ext_open_dice_input_content (Some example_open_dice)) /\
  rendered (n20_x509_ext_open_dice_input_content (Some (mkOpenDice (slice_of (bytes [1; 2])) slice_null (slice_of (bytes [3])) (slice_of []) slice_null slice_null 1
    (slice_of (bytes [0x70]))))) <> rendered (n20_x509_ext_open_dice_input_content (Some example_open_dice)).
Proof.
  cbv zeta. splits; [|discriminate|vm_compute; reflexivity|vm_compute; reflexivity|vm_compute; discriminate].
  unfold open_dice_ok. splits; try (apply example_slice; vm_compute; reflexivity); try apply null_slice; try (vm_compute; reflexivity);
    (split; [vm_compute; reflexivity|first [exact I|vm_compute; congruence]]).
Qed.
End Examples.

(** ** C30 *)
Theorem C30_tcb_info_round_trip : forall (E : Env) t, tcb_ok t ->
  sizing_succeeds (n20_x509_ext_tcg_dice_tcb_info_content (Some t)) ->
  exists b, renders stray_reads (n20_x509_ext_tcg_dice_tcb_info_content (Some t)) b /\ len b < SZ /\
    read_tcb b = Some (tcb_of t).
Proof.
  intros E t Ht Hs. destruct (rend_sized _ _ _ (rend_tcb stray_reads t (fun u H => H) Ht) Hs) as [HR HL].
  eexists. splits; [exact HR|exact HL|]. apply read_tcb_enc; [now apply tcb_of_ok|now apply small_SZ].
Qed.
Print Assumptions C30_tcb_info_round_trip.

Theorem C30_multi_tcb_info_round_trip : forall (E : Env) m l, mt_list m = Some l -> mt_count m <= len l ->
  Forall tcb_ok (takeN (mt_count m) l) ->
  sizing_succeeds (n20_x509_ext_tcg_dice_multi_tcb_info_content (Some m)) ->
  exists b, renders stray_reads (n20_x509_ext_tcg_dice_multi_tcb_info_content (Some m)) b /\ len b < SZ /\
    read_multi_tcb b = Some (map tcb_of (takeN (mt_count m) l)).
Proof.
  intros E m l Hm Hl Hok Hs.
  destruct (rend_sized _ _ _ (rend_multi_tcb stray_reads m l (fun u H => H) Hm Hl Hok) Hs) as [HR HL].
  eexists. splits; [exact HR|exact HL|]. apply read_multi_tcb_enc; [|now apply small_SZ].
  apply Forall_map. eapply Forall_impl; [|exact Hok]. exact tcb_of_ok.
Qed.
Print Assumptions C30_multi_tcb_info_round_trip.

Theorem C30_tcb_info_null : forall (E : Env),
  renders clean (n20_x509_ext_tcg_dice_tcb_info_content None) [] /\
  renders clean (n20_x509_ext_tcg_dice_multi_tcb_info_content None) [].
Proof. intros. split; apply renders_skip. Qed.
Print Assumptions C30_tcb_info_null.

(** A NULL list pointer is an empty list, whatever the count says. *)
Theorem C30_multi_tcb_info_null_list : forall (E : Env) n,
  renders clean (n20_x509_ext_tcg_dice_multi_tcb_info_content (Some (mkMulti n None))) [x30; x00].
Proof.
  intros E n. pose proof SZ_lo. apply (sequence_renders clean (Some skip) [] n20_asn1_tag_info_no_override);
    [apply renders_skip|change (len _) with 0; lia].
Qed.
Print Assumptions C30_multi_tcb_info_null_list.

(** The macros that set operational flags set exactly the named bits, in any order and multiplicity. *)
Lemma or_bit j m : m = 2 ^ (7 - N.of_nat j) -> (j < 8)%nat -> forall b i, (i < 8)%nat ->
  nth i (bits_of_byte (n2b (N.lor (b2n b) m))) false = (Nat.eqb i j || nth i (bits_of_byte b) false)%bool.
Proof.
  intros -> Hj b i Hi.
  assert (HC : forall b, forallb (fun j => forallb (fun i =>
      Bool.eqb (nth i (bits_of_byte (n2b (N.lor (b2n b) (2 ^ (7 - N.of_nat j))))) false)
        (Nat.eqb i j || nth i (bits_of_byte b) false)) (seq 0 8)) (seq 0 8) = true)
    by (apply byte_check; vm_compute; reflexivity).
  specialize (HC b). rewrite forallb_forall in HC. specialize (HC j ltac:(apply in_seq; lia)).
  rewrite forallb_forall in HC. apply Bool.eqb_prop, HC, in_seq. lia.
Qed.

Lemma nth_bits b0 b1 b2 b3 q r : (q < 4)%nat -> (r < 8)%nat ->
  nth (8 * q + r) (bits_of_bytes [b0; b1; b2; b3]) false = nth r (bits_of_byte (nth q [b0; b1; b2; b3] x00)) false.
Proof.
  intros Hq Hr. unfold bits_of_bytes. cbn [flat_map]. rewrite app_nil_r.
  pose proof (length_bits_of_byte b0). pose proof (length_bits_of_byte b1). pose proof (length_bits_of_byte b2).
  destruct q as [|[|[|[|]]]]; cbn [nth Nat.mul Nat.add]; try lia;
    repeat first [rewrite app_nth1 by lia | rewrite app_nth2 by lia]; f_equal; lia.
Qed.

Lemma operational_flag_set_bits f l : length l = 4%nat -> length (operational_flag_set f l) = 4%nat /\
  forall i, (i < 32)%nat -> nth i (bits_of_bytes (operational_flag_set f l)) false =
    (Nat.eqb i (operational_flag_bit f) || nth i (bits_of_bytes l) false)%bool.
Proof.
  destruct l as [|b0 [|b1 [|b2 [|b3 [|]]]]]; try discriminate. intros _. split; [destruct f; reflexivity|].
  intros i Hi. assert (Hqr : (i = 8 * (i / 8) + i mod 8)%nat) by (apply Nat.div_mod; lia).
  assert (Hr : (i mod 8 < 8)%nat) by (apply Nat.mod_upper_bound; lia).
  assert (Hq : (i / 8 < 4)%nat) by (apply Nat.div_lt_upper_bound; lia).
  set (q := (i / 8)%nat) in *. set (r := (i mod 8)%nat) in *. clearbody q r. subst i.
  assert (Heq : forall p s, (s < 8)%nat -> Nat.eqb (8 * q + r) (8 * p + s) = (Nat.eqb q p && Nat.eqb r s)%bool).
  { intros p s Hs. destruct (Nat.eqb_spec q p), (Nat.eqb_spec r s), (Nat.eqb_spec (8 * q + r) (8 * p + s)); cbn; lia. }
  destruct f; cbn [operational_flag_set operational_flag_bit or_nth firstn skipn app]; rewrite !nth_bits by assumption;
  match goal with
  | |- context [Nat.eqb (8 * q + r) ?n] => change n with (8 * (n / 8) + n mod 8)%nat; rewrite Heq by (cbv; lia)
  end;
  match goal with |- context [Nat.eqb r ?s] => let s' := eval cbv in s in change s with s' end;
  match goal with |- context [Nat.eqb q ?s] => let s' := eval cbv in s in change s with s' end;
  destruct q as [|[|[|[|]]]]; try lia; cbn [nth Nat.eqb andb]; try reflexivity;
  match goal with |- context [Nat.eqb r ?s] => apply (or_bit s) end; try lia; reflexivity.
Qed.

Lemma operational_flag_bit_lt f : (operational_flag_bit f < 32)%nat.
Proof. destruct f; cbn; lia. Qed.
Lemma operational_flag_bit_inj f g : operational_flag_bit f = operational_flag_bit g -> f = g.
Proof. destruct f, g; cbn; congruence. Qed.

Definition operational_flags_of (flags : list operational_flag) : list byte :=
  fold_left (fun l f => operational_flag_set f l) flags [x00; x00; x00; x00].

Theorem C30_operational_flags_exact : forall flags,
  len (operational_flags_of flags) = 4 /\
  forall f, nth (operational_flag_bit f) (bits_of_bytes (operational_flags_of flags)) false = true <-> In f flags.
Proof.
  intro flags. unfold operational_flags_of.
  assert (G : forall l k, length k = 4%nat ->
    length (fold_left (fun l f => operational_flag_set f l) l k) = 4%nat /\
    forall f, nth (operational_flag_bit f) (bits_of_bytes (fold_left (fun l f => operational_flag_set f l) l k)) false = true <->
      In f l \/ nth (operational_flag_bit f) (bits_of_bytes k) false = true).
  { induction l as [|g l IH]; intros k Hk; [cbn; intuition|]. cbn [fold_left].
    destruct (operational_flag_set_bits g k Hk) as [H1 H2]. destruct (IH _ H1) as [H3 H4]. split; [exact H3|].
    intro f. rewrite H4, H2 by apply operational_flag_bit_lt. cbn [In]. rewrite orb_true_iff, Nat.eqb_eq.
    split; [intros [H|[H|H]]; auto; left; left; symmetry; now apply operational_flag_bit_inj|intuition (subst; auto)]. }
  destruct (G flags [x00; x00; x00; x00] eq_refl) as [H1 H2]. split; [unfold len; rewrite H1; reflexivity|].
  intro f. rewrite H2. split; [intros [H|H]; [exact H|destruct f; discriminate H]|auto].
Qed.
Print Assumptions C30_operational_flags_exact.
Example C30_flags_case :
  operational_flags_of [OF_fixed_width; OF_debug; OF_fixed_width] = operational_flags_of [OF_debug; OF_fixed_width] /\
  map (fun f => nth (operational_flag_bit f) (bits_of_bytes (operational_flags_of [OF_fixed_width; OF_debug])) false) [OF_debug; OF_fixed_width; OF_not_secure] =
    [true; true; false].
Proof. split; vm_compute; reflexivity. Qed.

Section Examples2.
#[local] Existing Instance env64.
Definition example_tcb : tcb_info :=
  mkTcbInfo (slice_of (bytes [0x56])) slice_null slice_null (-2) 1 128
    2 (Some [mkFwid OID_SHA256 (slice_of (bytes [0xaa])); mkFwid OID_SHA384 (slice_of (bytes [0xbb]))])
    (operational_flags_of [OF_debug]) (operational_flags_of [OF_debug; OF_fixed_width]) slice_null (slice_of (bytes [0x01])).
Lemma example_tcb_ok : tcb_ok example_tcb.
Proof.
  assert (Z64 : forall z, (-256 <= z < 256)%Z -> int64_ok z) by (unfold int64_ok; lia).
  unfold tcb_ok, example_tcb. cbn [ti_vendor ti_model ti_version ti_svn ti_layer ti_index ti_fwids_count ti_fwids ti_flags
    ti_flags_mask ti_vendor_info ti_type_].
  splits; try (apply example_slice; reflexivity); try apply null_slice; try (apply Z64; lia); try apply C30_operational_flags_exact.
  1: vm_compute; congruence.
  match goal with |- Forall _ (takeN 2 ?l) => change (takeN 2 l) with l end.
  repeat (constructor; [split; [apply encodable_b_ok; vm_compute; reflexivity|apply example_slice; vm_compute; reflexivity]|]).
  constructor.
Qed.
Example C30_example :
  tcb_ok example_tcb /\ sizing_succeeds (n20_x509_ext_tcg_dice_tcb_info_content (Some example_tcb)) /\
  read_tcb (rendered (n20_x509_ext_tcg_dice_tcb_info_content (Some example_tcb))) = Some (tcb_of example_tcb) /\
  tcf_svn (tcb_of example_tcb) = Some (-2)%Z /\
  tcf_fwids (tcb_of example_tcb) = Some [([2; 16; 840; 1; 101; 3; 4; 2; 1], [xaa]); ([2; 16; 840; 1; 101; 3; 4; 2; 2], [xbb])] /\
  sizing_succeeds (n20_x509_ext_tcg_dice_multi_tcb_info_content (Some (mkMulti 2 (Some [example_tcb; example_tcb])))).
Proof. splits; [exact example_tcb_ok|vm_compute; reflexivity..]. Qed.
(** Two components of which the list holds three. *)
Example C30_multi_case : let m := mkMulti 2 (Some [example_tcb; example_tcb; mkTcbInfo slice_null slice_null slice_null 0 0 0 9 None [] [] slice_null slice_null]) in
  Forall tcb_ok [example_tcb; example_tcb] /\ sizing_succeeds (n20_x509_ext_tcg_dice_multi_tcb_info_content (Some m)) /\
  read_multi_tcb (rendered (n20_x509_ext_tcg_dice_multi_tcb_info_content (Some m))) = Some [tcb_of example_tcb; tcb_of example_tcb].
Proof. cbv zeta. splits; [repeat constructor; apply example_tcb_ok|vm_compute; reflexivity..]. Qed.
End Examples2.

(** ** C31 *)
Theorem C31_ueid_round_trip : forall (E : Env) s, slice_ok s ->
  sizing_succeeds (n20_x509_ext_tcg_dice_ueid_content (Some s)) ->
  exists b, renders clean (n20_x509_ext_tcg_dice_ueid_content (Some s)) b /\ len b < SZ /\
    read_octets_in_sequence b = Some (slice_bytes s).
Proof.
  intros E s Hk Hs. destruct (rend_sized _ _ _ (rend_octets_seq clean s Hk) Hs) as [HR HL].
  eexists. splits; [exact HR|exact HL|]. apply read_octets_in_sequence_enc. now apply small_SZ.
Qed.
Print Assumptions C31_ueid_round_trip.

Theorem C31_tcb_freshness_round_trip : forall (E : Env) s, slice_ok s ->
  sizing_succeeds (n20_x509_ext_tcg_dice_tcb_freshness_content (Some s)) ->
  exists b, renders clean (n20_x509_ext_tcg_dice_tcb_freshness_content (Some s)) b /\ len b < SZ /\
    read_octets_in_sequence b = Some (slice_bytes s).
Proof.
  intros E s Hk Hs. destruct (rend_sized _ _ _ (rend_octets_seq clean s Hk) Hs) as [HR HL].
  eexists. splits; [exact HR|exact HL|]. apply read_octets_in_sequence_enc. now apply small_SZ.
Qed.
Print Assumptions C31_tcb_freshness_round_trip.

Theorem C31_null : forall (E : Env),
  renders clean (n20_x509_ext_tcg_dice_ueid_content None) [] /\
  renders clean (n20_x509_ext_tcg_dice_tcb_freshness_content None) [].
Proof. intros. split; apply renders_skip. Qed.
Print Assumptions C31_null.

Section Examples3.
#[local] Existing Instance env64.
Example C31_example :
  slice_ok (slice_of (bytes [1; 2; 3])) /\ sizing_succeeds (n20_x509_ext_tcg_dice_ueid_content (Some (slice_of (bytes [1; 2; 3])))) /\
  rendered (n20_x509_ext_tcg_dice_ueid_content (Some (slice_of (bytes [1; 2; 3])))) = bytes [0x30; 5; 4; 3; 1; 2; 3].
Proof. splits; [apply example_slice; vm_compute; reflexivity|vm_compute; reflexivity..]. Qed.
Example C31_freshness_case :
  sizing_succeeds (n20_x509_ext_tcg_dice_tcb_freshness_content (Some (mkSlice 2 (Some (bytes [9; 8; 7]))))) /\
  rendered (n20_x509_ext_tcg_dice_tcb_freshness_content (Some (mkSlice 2 (Some (bytes [9; 8; 7]))))) = bytes [0x30; 4; 4; 2; 9; 8].
Proof. split; vm_compute; reflexivity. Qed.
End Examples3.
