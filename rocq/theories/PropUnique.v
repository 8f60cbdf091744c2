(** Property C63: there is one encoding. Whatever bytes a strict DER reader takes for the same value are the bytes the library writes; so any other encoder that
    keeps to DER, for instance the one of a party that checks a certificate by building it anew, arrives at the same bytes.

    The vocabulary is explained at the head of PropX509.v. *)
From Coq Require Import List Arith NArith ZArith Bool Strings.Byte Lia.
From Verif Require Import Base BaseFacts Stream SpecStream SpecDigits SpecDer DerFacts Asn1 SpecAsn1 Oid X509 X509Ext SpecX509 X509Facts Asn1Proofs X509Proofs PropX509 PropX509Ext PropX509Cert.
From Verif Require Import X509Unique.
Import ListNotations.
Open Scope N_scope.

(** [f] writes the one byte string that reads as [v]. *)
Definition writes_the_only {A} `{Env} (allowed : ub -> Prop) (f : cmd) (read : list byte -> option A) (v : A) : Prop :=
  exists b, renders allowed f b /\ len b < SZ /\ forall other, read other = Some v <-> other = b.

Lemma the_only {A} `{Env} allowed f (read : list byte -> option A) (enc : A -> list byte) v : (forall bs a, read bs = Some a -> bs = enc a) ->
  (exists b, renders allowed f b /\ len b < SZ /\ read b = Some v) -> writes_the_only allowed f read v.
Proof.
  intros HU (b & HR & HL & Hb). exists b. repeat split; [apply HR|apply HR|exact HL| |].
  - intros Ho. apply HU in Ho, Hb. congruence.
  - now intros ->.
Qed.

Theorem C63_name : forall (E : Env) n, name_ok n -> sizing_succeeds (n20_x509_name (Some n)) ->
  writes_the_only clean (n20_x509_name (Some n)) read_name (name_of n).
Proof. intros E n Hn Hs. apply (the_only _ _ _ (fun a => enc_tlv (tlv_name a))); [exact read_name_unique|now apply C22_name_round_trip]. Qed.
Print Assumptions C63_name.

Theorem C63_extensions : forall (E : Env) allowed x vs, exts_ok x -> callbacks allowed (used_exts x) vs -> used_exts x <> [] ->
  sizing_succeeds (n20_x509_extension (Some x)) -> writes_the_only allowed (n20_x509_extension (Some x)) read_exts (exts_of x vs).
Proof.
  intros E allowed x vs Hx Hv Hn Hs. apply (the_only _ _ _ (fun a => enc_tlv (tlv_exts a))); [|now apply C23_extensions_round_trip].
  unfold read_exts. intros bs a H. binds H. apply parse_exts_unique in H as [_ ->]. uniques. reflexivity.
Qed.
Print Assumptions C63_extensions.

Theorem C63_basic_constraints : forall (E : Env) bc, bc_path_length bc < 2 ^ 32 ->
  writes_the_only stray_reads (n20_x509_ext_basic_constraints_content (Some bc)) read_basic_constraints
    (bc_is_ca bc, if bc_is_ca bc && bc_has_path_length bc then Some (Z.of_N (bc_path_length bc)) else None).
Proof.
  intros E bc Hp. apply (the_only _ _ _ (fun a => enc_tlv (tlv_basic_constraints (fst a) (snd a)))).
  - intros bs [ca path]. apply read_basic_constraints_unique.
  - destruct (C24_basic_constraints_round_trip E bc Hp) as (b & HR & Hb). exists b. split; [exact HR|]. split; [|exact Hb].
    apply read_basic_constraints_unique in Hb. subst b. pose proof SZ_lo. eapply N.lt_trans with 32; [|lia].
    assert (HI : len (enc_int (Z.of_N (bc_path_length bc))) <= N.of_nat 5) by (apply enc_int_len_le; [lia|]; unfold fits; cbn; lia).
    unfold tlv_basic_constraints. destruct (bc_is_ca bc), (bc_has_path_length bc); cbn [andb fst snd]; [|vm_compute; reflexivity..].
    generalize dependent (enc_int (Z.of_N (bc_path_length bc))). intros l HI. unfold len in HI.
    do 6 (destruct l as [|? l]; [vm_compute; reflexivity|]). cbn [length] in HI. lia.
Qed.
Print Assumptions C63_basic_constraints.

(** Bit strings without a trailing zero bit that agree bit by bit. *)
Definition minimal (l : list bool) : Prop := match rev l with false :: _ => False | _ => True end.
Lemma minimal_app l b : minimal (l ++ [b]) <-> b = true.
Proof. unfold minimal. rewrite rev_app_distr. cbn. destruct b; intuition. Qed.
Lemma minimal_eq a b : minimal a -> minimal b -> (forall i, nth i a false = nth i b false) -> a = b.
Proof.
  intros Ha Hb HE. assert (HL : length a = length b).
  { assert (G : forall x y, minimal y -> (forall i, nth i x false = nth i y false) -> (length y <= length x)%nat).
    { intros x y Hy H. destruct y as [|y0 y1] using rev_ind; [cbn; lia|]. apply minimal_app in Hy as ->. rewrite app_length. cbn [length].
      destruct (Nat.le_gt_cases (length y1 + 1) (length x)); [assumption|]. specialize (H (length y1)). rewrite app_nth2, Nat.sub_diag in H by lia.
      rewrite nth_overflow in H by lia. discriminate. }
    pose proof (G a b Hb HE). pose proof (G b a Ha (fun i => eq_sym (HE i))). lia. }
  apply (nth_ext a b false false HL). intros i _. apply HE.
Qed.

(** The bits a reader of key usage is to find: the named ones, and no others. *)
Definition names_exactly (bits : list bool) (flags : list key_usage_flag) : Prop :=
  len bits <= 9 /\ forall f, nth (key_usage_bit f) bits false = true <-> In f flags.
Theorem C63_key_usage : forall (E : Env) flags,
  exists b, renders clean (n20_x509_ext_key_usage_content (Some (key_usage_of flags))) b /\
    forall other, (exists bits, read_key_usage other = Some bits /\ names_exactly bits flags) <-> other = b.
Proof.
  intros E flags. destruct (C25_key_usage_exact E flags) as (b & bits & HR & Hb & H9 & HF). exists b. split; [exact HR|]. intros other. split.
  - intros (l & Hl & [Hl9 HlF]). assert (HM : forall bs k, read_key_usage bs = Some k -> minimal k).
    { clear. unfold read_key_usage. intros bs k H. binds H. unfold minimal. destruct (rev x0) as [|[] r] eqn:ER; try discriminate; injection H as <-; now rewrite ER. }
    assert (l = bits); [|subst l; apply read_key_usage_unique in Hl, Hb; congruence].
    apply minimal_eq; [now apply (HM _ _ Hl)|now apply (HM _ _ Hb)|]. intros i. unfold len in *.
    destruct (Nat.lt_ge_cases i 9) as [Hi|Hi]; [|rewrite !nth_overflow by lia; reflexivity].
    assert (exists f, key_usage_bit f = i) as [f <-].
    { do 9 (destruct i as [|i]; [match goal with |- exists f, key_usage_bit f = ?n =>
          first [exists KU_digital_signature; reflexivity|exists KU_content_commitment; reflexivity|exists KU_key_encipherment; reflexivity
                |exists KU_data_encipherment; reflexivity|exists KU_key_agreement; reflexivity|exists KU_key_cert_sign; reflexivity
                |exists KU_crl_sign; reflexivity|exists KU_encipher_only; reflexivity|exists KU_decipher_only; reflexivity] end|]). lia. }
    specialize (HF f). specialize (HlF f). destruct (nth _ l _), (nth _ bits _); intuition congruence.
  - intros ->. exists bits. repeat split; [exact Hb|exact H9|apply HF..].
Qed.
Print Assumptions C63_key_usage.

Theorem C63_tbs : forall (E : Env) allowed t vs, tbs_ok t -> callbacks allowed (used_exts (tbs_exts t)) vs -> serial_allowed allowed t ->
  sizing_succeeds (n20_x509_cert_tbs (Some t)) -> writes_the_only allowed (n20_x509_cert_tbs (Some t)) read_tbs (tbs_of t vs).
Proof. intros. apply (the_only _ _ _ (fun a => enc_tlv (tlv_tbs a))); [exact read_tbs_unique|now apply C26_tbs_round_trip]. Qed.
Print Assumptions C63_tbs.

Theorem C63_cert : forall (E : Env) allowed t c vs, cert_ok t c -> callbacks allowed (used_exts (tbs_exts t)) vs -> serial_allowed allowed t ->
  sizing_succeeds (n20_x509_cert (Some c)) -> writes_the_only allowed (n20_x509_cert (Some c)) read_cert (cert_of t c vs).
Proof. intros. apply (the_only _ _ _ (fun a => enc_tlv (tlv_cert a))); [exact read_cert_unique|now apply C26_cert_round_trip]. Qed.
Print Assumptions C63_cert.

Theorem C63_open_dice : forall (E : Env) o, open_dice_ok o -> sizing_succeeds (n20_x509_ext_open_dice_input_content (Some o)) ->
  writes_the_only stray_reads (n20_x509_ext_open_dice_input_content (Some o)) read_open_dice (open_dice_of o).
Proof. intros. apply (the_only _ _ _ (fun a => enc_tlv (tlv_open_dice a))); [exact read_open_dice_unique|now apply C29_open_dice_round_trip]. Qed.
Print Assumptions C63_open_dice.

Theorem C63_tcb_info : forall (E : Env) t, tcb_ok t -> sizing_succeeds (n20_x509_ext_tcg_dice_tcb_info_content (Some t)) ->
  writes_the_only stray_reads (n20_x509_ext_tcg_dice_tcb_info_content (Some t)) read_tcb (tcb_of t).
Proof. intros. apply (the_only _ _ _ (fun a => enc_tlv (tlv_tcb a))); [exact read_tcb_unique|now apply C30_tcb_info_round_trip]. Qed.
Print Assumptions C63_tcb_info.

Theorem C63_multi_tcb_info : forall (E : Env) m l, mt_list m = Some l -> mt_count m <= len l -> Forall tcb_ok (takeN (mt_count m) l) ->
  sizing_succeeds (n20_x509_ext_tcg_dice_multi_tcb_info_content (Some m)) ->
  writes_the_only stray_reads (n20_x509_ext_tcg_dice_multi_tcb_info_content (Some m)) read_multi_tcb (map tcb_of (takeN (mt_count m) l)).
Proof.
  intros. apply (the_only _ _ _ (fun a => enc_tlv (tlv_sequence (enc_tlvs (map tlv_tcb a))))); [exact read_multi_tcb_unique|now apply C30_multi_tcb_info_round_trip].
Qed.
Print Assumptions C63_multi_tcb_info.

Theorem C63_ueid_and_freshness : forall (E : Env) s, slice_ok s ->
  (sizing_succeeds (n20_x509_ext_tcg_dice_ueid_content (Some s)) ->
   writes_the_only clean (n20_x509_ext_tcg_dice_ueid_content (Some s)) read_octets_in_sequence (slice_bytes s)) /\
  (sizing_succeeds (n20_x509_ext_tcg_dice_tcb_freshness_content (Some s)) ->
   writes_the_only clean (n20_x509_ext_tcg_dice_tcb_freshness_content (Some s)) read_octets_in_sequence (slice_bytes s)).
Proof.
  intros E s Hs. split; intros Hz; (apply (the_only _ _ _ (fun a => enc_tlv (tlv_sequence (enc_tlvs [tlv_octetstring a])))); [exact read_octets_in_sequence_unique|]).
  - now apply C31_ueid_round_trip.
  - now apply C31_tcb_freshness_round_trip.
Qed.
Print Assumptions C63_ueid_and_freshness.

(** Every byte string a reader takes for the certificate of C26 is the one the library writes. Near misses: a long form of a length, an integer with a
    superfluous byte, a default that is spelled out, a trailing byte. *)
Section Examples.
#[local] Existing Instance env64.
Example C63_example :
  writes_the_only clean (n20_x509_cert (Some example_cert)) read_cert (cert_of example_tbs example_cert example_values) /\
  read_name (bytes [0x30; 0x0d; 0x31; 0x0b; 0x30; 0x09; 0x06; 0x03; 0x55; 0x04; 0x06; 0x13; 0x02; 0x55; 0x53]) = Some [([2; 5; 4; 6], bytes [0x55; 0x53])] /\
  read_name (bytes [0x30; 0x81; 0x0d; 0x31; 0x0b; 0x30; 0x09; 0x06; 0x03; 0x55; 0x04; 0x06; 0x13; 0x02; 0x55; 0x53]) = None /\
  read_name (bytes [0x30; 0x0d; 0x31; 0x0b; 0x30; 0x09; 0x06; 0x03; 0x55; 0x04; 0x06; 0x13; 0x02; 0x55; 0x53; 0x00]) = None /\
  read_basic_constraints (bytes [0x30; 0x07; 0x01; 0x01; 0xff; 0x02; 0x02; 0x00; 0x01]) = None /\
  read_basic_constraints (bytes [0x30; 0x03; 0x01; 0x01; 0x00]) = None /\
  read_key_usage (bytes [0x03; 0x02; 0x02; 0x84]) <> None /\ read_key_usage (bytes [0x03; 0x02; 0x01; 0x84]) = None.
Proof.
  destruct C26_example as (H1 & H2 & H3 & H4 & _). split; [now apply C63_cert|]. repeat (split; [vm_compute; first [reflexivity|discriminate]|]). vm_compute. reflexivity.
Qed.
(** A name, extensions of which one has a callback, a path length, and the DICE extensions: each theorem on a structure of the sections before. *)
Example C63_parts_case :
  writes_the_only clean (n20_x509_name (Some example_name)) read_name (name_of example_name) /\
  writes_the_only clean (n20_x509_extension (Some example_exts)) read_exts [ExtFields [2; 5; 29; 19] true (bytes [0x30; 0x00]); ExtFields [2; 5; 29; 15] false []] /\
  writes_the_only stray_reads (n20_x509_ext_basic_constraints_content (Some (mkBasicConstraints true true 300))) read_basic_constraints (true, Some 300%Z) /\
  writes_the_only clean (n20_x509_cert_tbs (Some example_tbs)) read_tbs (tbs_of example_tbs example_values).
Proof.
  destruct C22_example as (N1 & N2 & _). destruct C23_example as (E1 & E2 & E3 & E4 & _). destruct C26_example as (H1 & H2 & H3 & _).
  split; [now apply C63_name|]. split; [now apply (C63_extensions _ clean example_exts [bytes [0x30; 0x00]; []])|].
  split; [now apply (C63_basic_constraints _ (mkBasicConstraints true true 300))|].
  apply C63_tbs; [exact (proj1 (proj2 H1))|exact H2|exact H3|vm_compute; reflexivity].
Qed.
Example C63_dice_case :
  writes_the_only stray_reads (n20_x509_ext_open_dice_input_content (Some example_open_dice)) read_open_dice
    (OpenDiceFields (Some (bytes [1; 2])) None (Some (bytes [3])) (Some []) None None (Some 2%Z) (Some (bytes [0x70]))) /\
  writes_the_only stray_reads (n20_x509_ext_tcg_dice_tcb_info_content (Some example_tcb)) read_tcb (tcb_of example_tcb) /\
  writes_the_only stray_reads (n20_x509_ext_tcg_dice_multi_tcb_info_content (Some (mkMulti 2 (Some [example_tcb; example_tcb])))) read_multi_tcb
    [tcb_of example_tcb; tcb_of example_tcb] /\
  writes_the_only clean (n20_x509_ext_tcg_dice_ueid_content (Some (slice_of (bytes [1; 2; 3])))) read_octets_in_sequence (bytes [1; 2; 3]).
Proof.
  destruct C29_example as (O1 & O2 & _). destruct C30_example as (T1 & T2 & _ & _ & _ & T3). destruct C31_example as (U1 & U2 & _).
  split; [now apply C63_open_dice|]. split; [now apply C63_tcb_info|]. split.
  - apply (C63_multi_tcb_info _ (mkMulti 2 (Some [example_tcb; example_tcb])) [example_tcb; example_tcb] eq_refl); [vm_compute; discriminate| |exact T3].
    change (takeN (mt_count _) _) with [example_tcb; example_tcb]. constructor; [exact T1|]. constructor; [exact T1|constructor].
  - now apply (C63_ueid_and_freshness _ (slice_of (bytes [1; 2; 3])) U1).
Qed.
End Examples.
