(** Property C51: what the extensions of a certificate claim. *)
From Coq Require Import List NArith ZArith Bool Strings.Byte Lia.
From Coq Require Import ZifyBool ZifyNat ZifyN.
From Verif Require Import Base BaseFacts Stream SpecStream StreamProofs SpecDigits SpecDer DerFacts Asn1 SpecAsn1 Asn1Proofs
  Oid X509 X509Ext SpecX509 RendProofs X509Facts X509Proofs PropX509 PropX509Cert PropX509Ext.
From Verif Require Import Res SpecSha2 Crypto SpecMac SpecCrypto PropCrypto Bssl BsslKeys SpecBssl BsslProofs Rfc6979Proofs KeyProofs PropBssl PropKeys Issue PropIssue.
From Verif Require Import SpecDice.
Import ListNotations.
Open Scope N_scope.

(** ** What is read is no longer than the input. *)
Lemma read_base128_from_len bs : forall acc n r, read_base128_from acc bs = Some (n, r) -> len r <= len bs.
Proof.
  induction bs as [|b bs IH]; intros acc n r H; [discriminate|]. cbn [read_base128_from] in H. cbv zeta in H. rewrite len_cons.
  destruct (b2n b <? 128); [injection H as _ <-; lia|]. apply IH in H. lia.
Qed.
Lemma read_ident_len bs c k t r : read_ident bs = Some (c, k, t, r) -> len r <= len bs.
Proof.
  destruct bs as [|b bs]; [discriminate|]. cbn [read_ident]. cbv zeta. rewrite len_cons.
  destruct (_ <? 31); [intro H; injection H as _ _ _ <-; lia|].
  destruct (read_base128 bs) as [[tag r']|] eqn:Eb; [|discriminate].
  destruct (tag <? 31); [discriminate|]. intro H. injection H as _ _ _ <-.
  unfold read_base128 in Eb. destruct bs as [|b' bs']; [discriminate|]. destruct (_ =? 128); [discriminate|].
  apply read_base128_from_len in Eb. lia.
Qed.
Lemma read_len_len bs n r : read_len bs = Some (n, r) -> len r <= len bs.
Proof.
  destruct bs as [|b bs]; [discriminate|]. cbn [read_len]. cbv zeta. rewrite len_cons.
  destruct (_ <? 128); [intro H; injection H as _ <-; lia|].
  destruct (_ || _); [discriminate|]. destruct (_ || _); [discriminate|].
  intro H. injection H as _ <-. rewrite len_dropN. lia.
Qed.
Lemma read_tlv_len bs t r : read_tlv bs = Some (t, r) -> len (t_content t) <= len bs /\ len r <= len bs.
Proof.
  unfold read_tlv. destruct (read_ident bs) as [[[[c k] tg] r1]|] eqn:E1; [|discriminate]. apply read_ident_len in E1.
  destruct (read_len r1) as [[n r2]|] eqn:E2; [|discriminate]. apply read_len_len in E2.
  destruct (_ <? n); [discriminate|]. intro H. injection H as <- <-. cbn [t_content]. rewrite len_takeN, len_dropN. lia.
Qed.
Lemma read_one_len bs t : read_one bs = Some t -> len (t_content t) <= len bs.
Proof.
  unfold read_one. destruct (read_tlv bs) as [[t' [|b r]]|] eqn:Et; try discriminate. intro H. injection H as <-. now apply read_tlv_len in Et.
Qed.
Lemma read_tlvs_len bs ts : read_tlvs bs = Some ts -> Forall (fun t => len (t_content t) <= len bs) ts.
Proof.
  unfold read_tlvs. generalize (length bs) as fuel. intro fuel. revert bs ts. induction fuel as [|fuel IH]; intros bs ts H.
  - destruct bs; [|discriminate]. injection H as <-. constructor.
  - destruct bs as [|b bs]; [injection H as <-; constructor|]. cbn [read_tlvs_fuel] in H.
    destruct (read_tlv (b :: bs)) as [[t r]|] eqn:Et; [|discriminate]. apply read_tlv_len in Et as [H1 H2].
    destruct (read_tlvs_fuel fuel r) as [ts'|] eqn:Er; [|discriminate]. injection H as <-. constructor; [assumption|].
    eapply Forall_impl; [|exact (IH _ _ Er)]. intros a Ha. cbv beta in *. lia.
Qed.
Lemma expect_len c k n t b : expect c k n t = Some b -> b = t_content t.
Proof. unfold expect. destruct (_ && _); [|discriminate]. congruence. Qed.
Lemma get_sequence_len t ts : get_sequence t = Some ts -> Forall (fun u => len (t_content u) <= len (t_content t)) ts.
Proof.
  unfold get_sequence. destruct (expect 0 true 16 t) as [c|] eqn:Ec; [|discriminate]. apply expect_len in Ec. subst c. cbn [SpecX509.bind]. apply read_tlvs_len.
Qed.
Lemma map_opt_forall {A B} (f : A -> option B) (P : A -> Prop) (Q : B -> Prop) l m :
  (forall a b, P a -> f a = Some b -> Q b) -> Forall P l -> map_opt f l = Some m -> Forall Q m.
Proof.
  intro HQ. revert m. induction l as [|a l IH]; intros m HP H; cbn [map_opt] in H.
  - injection H as <-. constructor.
  - inversion HP; subst. destruct (f a) as [b|] eqn:Ef; [|discriminate]. cbn [SpecX509.bind] in H.
    destruct (map_opt f l) as [m'|]; [|discriminate]. injection H as <-. constructor; [now apply (HQ a)|now apply IH].
Qed.
Ltac go H := match type of H with SpecX509.bind ?a _ = Some _ => let E := fresh "E" in destruct a as [?|] eqn:E; cbn [SpecX509.bind] in H; [|discriminate] end.
Lemma parse_ext_len t x : parse_ext t = Some x -> len (xf_value x) <= len (t_content t).
Proof.
  unfold parse_ext. intro H. go H. apply get_sequence_len in E.
  destruct l as [|o [|v [|w [|? ?]]]]; try discriminate.
  - go H. go H. injection H as <-. apply expect_len in E1. subst. cbn [xf_value]. inversion E as [|? ? ? Hv]; subst. now inversion Hv.
  - go H. go H. go H. go H. match type of H with context [if ?c then _ else _] => destruct c end; [|discriminate]. injection H as <-. apply expect_len in E3. subst. cbn [xf_value].
    inversion E as [|? ? ? Hv]; subst. inversion Hv as [|? ? ? Hw]; subst. now inversion Hw.
Qed.
Lemma parse_exts_len t l : parse_exts t = Some l -> Forall (fun x => len (xf_value x) <= len (t_content t)) l.
Proof.
  unfold parse_exts, get_explicit. intro H. go H. go E. apply expect_len in E0. subst. apply read_one_len in E.
  go H. apply get_sequence_len in E0.
  assert (HM : map_opt parse_ext l0 = Some l) by (destruct l0; [discriminate|exact H]).
  refine (map_opt_forall _ _ _ _ _ _ E0 HM). intros u x Hu Hx. cbv beta in Hu. apply parse_ext_len in Hx. lia.
Qed.
Lemma parse_tbs_len t f : parse_tbs t = Some f -> Forall (fun x => len (xf_value x) <= len (t_content t)) (tf_exts f).
Proof.
  unfold parse_tbs. intro H. go H. apply get_sequence_len in E.
  do 7 (destruct l as [|? l]; [discriminate|]).
  go H. go H. go H. go H. go H. go H. destruct p. go H. go H. destruct p. go H. injection H as <-. cbn [tf_exts].
  destruct l as [|e [|? ?]]; [injection E8 as <-; constructor| |discriminate].
  apply parse_exts_len in E8. do 7 (inversion E as [|? ? _ E']; subst; clear E; rename E' into E). inversion E; subst.
  eapply Forall_impl; [|exact E8]. intros x Hx. cbv beta in *. lia.
Qed.
Lemma read_cert_len b c : read_cert b = Some c -> Forall (fun x => len (xf_value x) <= len b) (tf_exts (cf_tbs c)).
Proof.
  unfold read_cert, parse_cert. intro H. go H. apply read_one_len in E. go H. apply get_sequence_len in E0.
  destruct l as [|? [|? [|? [|? ?]]]]; try discriminate. go H. go H. go H. injection H as <-. cbn [cf_tbs].
  apply parse_tbs_len in E1. inversion E0; subst. eapply Forall_impl; [|exact E1]. intros x Hx. cbv beta in *. lia.
Qed.

(** ** The claims *)
Lemma same_refl l : same l l = true.
Proof. unfold same. now destruct (list_eq_dec N.eq_dec l l). Qed.
Lemma same_false a b : a <> b -> same a b = false.
Proof. unfold same. now destruct (list_eq_dec N.eq_dec a b). Qed.

Lemma in_all_key_usages f : In f all_key_usages.
Proof. destruct f; cbn; tauto. Qed.

Ltac claim id :=
  match goal with Hl : len ?b < SZ, HS : len ?b < SZ -> ?b = _ |- _ => let H := fresh in assert (H := Hl); rewrite (HS Hl) in * end;
  unfold read_claim; cbn [ext_of xf_oid xf_value ext_oid arcs_of]; cbv zeta;
  match goal with |- context [same (oid_arcs ?o) _] => change (oid_arcs o) with id end;
  repeat (rewrite same_false by discriminate); rewrite same_refl.

(** The callback renders some [b0]; when short, the value has the claim. *)
Lemma claim_rendered (E : Env) (allowed : ub -> Prop) critical x : (forall u, stray_reads u -> allowed u) -> input_ok allowed x ->
  exists b0, match ext_content_cb (extension_for critical x) with Some f => renders allowed f b0 | None => b0 = [] end /\
    (len b0 < SZ -> read_claim (ext_of (extension_for critical x) b0) = Some (claim_of x)).
Proof.
  intros HA Hx. pose proof SZ_lo.
  assert (G : forall f b, rend allowed f b -> exists b0, renders allowed f b0 /\ (len b0 < SZ -> b0 = b)).
  { intros f b (b0 & H1 & H2). exists b0. split; [assumption|]. intro H3. apply H2. now left. }
  destruct x as [b|l|o|t|m|s|s|id f v]; cbn [extension_for ext_content_cb input_ok claim_of] in *.
  - destruct (G _ _ (rend_basic_constraints allowed b (or_introl HA) Hx)) as (b0 & R & HS). exists b0. split; [exact R|]. intro Hl.
    assert (Hl' := Hl). rewrite (HS Hl) in *. unfold read_claim. cbn [ext_of xf_oid xf_value ext_oid arcs_of]. cbv zeta.
    change (oid_arcs OID_BASIC_CONSTRAINTS) with id_ce_basicConstraints. rewrite same_refl.
    rewrite read_basic_constraints_enc; [reflexivity| |now apply small_SZ].
    unfold path_of. now intros ->.
  - destruct (C25_key_usage_exact E l) as (b & bits & HR & Hread & Hlen & Hbits). exists b. split; [eapply renders_weaken; [|exact HR]; intros u []|].
    intros _. unfold read_claim. cbn [ext_of xf_oid xf_value ext_oid arcs_of]. cbv zeta.
    change (oid_arcs OID_KEY_USAGE) with id_ce_keyUsage. rewrite same_false by discriminate. rewrite same_refl, Hread. cbn [SpecX509.bind].
    unfold named_bits. replace (len bits <=? 9) with true by lia. cbn [SpecX509.bind]. do 2 f_equal. apply filter_ext. intro f.
    specialize (Hbits f). destruct (in_dec flag_eq_dec f l) as [Hi|Hi].
    + now apply Hbits.
    + destruct (nth _ bits false); [|reflexivity]. elim Hi. now apply Hbits.
  - destruct (G _ _ (rend_open_dice allowed o HA Hx)) as (b0 & R & HS). exists b0. split; [exact R|]. intro Hl. claim id_open_dice_input.
    rewrite read_open_dice_enc; [reflexivity|now apply small_SZ].
  - destruct (G _ _ (rend_tcb allowed t HA Hx)) as (b0 & R & HS). exists b0. split; [exact R|]. intro Hl. claim id_tcg_dice_TcbInfo.
    rewrite read_tcb_enc; [reflexivity|now apply tcb_of_ok|now apply small_SZ].
  - destruct Hx as [Hc HF]. unfold used_tcbs in *. destruct (mt_list m) as [l|] eqn:Em.
    + destruct (G _ _ (rend_multi_tcb allowed m l HA Em Hc HF)) as (b0 & R & HS). exists b0. split; [exact R|]. intro Hl. claim id_tcg_dice_MultiTcbInfo.
      rewrite read_multi_tcb_enc; [reflexivity| |now apply small_SZ].
      apply Forall_map. eapply Forall_impl; [|exact HF]. intros a Ha. now apply tcb_of_ok.
    + exists [x30; x00]. split; [eapply renders_weaken; [|destruct m as [n ?]; cbn in Em; subst; apply C30_multi_tcb_info_null_list]; intros u []|].
      intros _. reflexivity.
  - destruct (G _ _ (rend_octets_seq allowed s Hx)) as (b0 & R & HS). exists b0. split; [exact R|]. intro Hl. claim id_tcg_dice_Ueid.
    rewrite read_octets_in_sequence_enc; [reflexivity|now apply small_SZ].
  - destruct (G _ _ (rend_octets_seq allowed s Hx)) as (b0 & R & HS). exists b0. split; [exact R|]. intro Hl. claim id_tcg_dice_TcbFreshness.
    rewrite read_octets_in_sequence_enc; [reflexivity|now apply small_SZ].
  - destruct Hx as (Hid & Hn & HR). exists v. split; [exact HR|]. intros _.
    unfold read_claim. cbn [ext_of xf_oid xf_value ext_oid arcs_of]. cbv zeta.
    rewrite !same_false; [reflexivity|..]; intros Heq; apply Hn; rewrite Heq; cbn; tauto.
Qed.

(** The extension inputs [xs], with their criticalities, are the array of extensions of [t]. *)
Definition extended_with `{Env} (t : tbs) (xs : list (bool * ext_input)) : Prop :=
  used_exts (tbs_exts t) = map (fun x => extension_for (fst x) (snd x)) xs.

Lemma claims_rendered (E : Env) (allowed : ub -> Prop) xs : (forall u, stray_reads u -> allowed u) -> Forall (fun x => input_ok allowed (snd x)) xs ->
  exists vs, callbacks allowed (map (fun x => extension_for (fst x) (snd x)) xs) vs /\
    (Forall (fun v => len v < SZ) vs ->
     map_opt (fun x => let? a := read_claim x in Some (xf_critical x, a))
       (map (fun p => ext_of (fst p) (snd p)) (combine (map (fun x => extension_for (fst x) (snd x)) xs) vs)) = Some (map (fun x => (fst x, claim_of (snd x))) xs)).
Proof.
  intros HA HF. induction HF as [|[critical x] xs Hx HF (vs & HV & HC)].
  - exists []. split; [constructor|reflexivity].
  - destruct (claim_rendered E allowed critical x HA Hx) as (b & Hb & Hc). exists (b :: vs). split; [constructor; assumption|].
    intro Hl. inversion Hl as [|? ? Hlb Hlv]; subst. cbn [map combine fst snd map_opt]. rewrite (Hc Hlb). cbn [SpecX509.bind]. rewrite (HC Hlv). cbn [SpecX509.bind].
    do 3 f_equal. destruct x; reflexivity.
Qed.

Lemma read_claims_cert (E : Env) (allowed : ub -> Prop) t xs vs b f : callbacks allowed (used_exts (tbs_exts t)) vs -> extended_with t xs ->
  (Forall (fun v => len v < SZ) vs ->
     map_opt (fun x => let? a := read_claim x in Some (xf_critical x, a))
       (map (fun p => ext_of (fst p) (snd p)) (combine (map (fun x => extension_for (fst x) (snd x)) xs) vs)) = Some (map (fun x => (fst x, claim_of (snd x))) xs)) ->
  read_cert b = Some f -> tf_exts (cf_tbs f) = exts_of (tbs_exts t) vs -> len b < SZ ->
  read_claims b = Some (map (fun x => (fst x, claim_of (snd x))) xs).
Proof.
  intros HV Hx HC HR Hf Hb. unfold read_claims. rewrite HR. cbn [SpecX509.bind]. pose proof (read_cert_len _ _ HR) as HL. rewrite Hf in *.
  unfold exts_of in *. rewrite Hx in *. apply HC.
  apply Forall2_length in HV. rewrite map_length in HV. apply Forall_map in HL. clear - HV HL Hb.
  revert vs HV HL. induction xs as [|x xs IH]; intros [|v vs] HV HL; try discriminate; [constructor|].
  cbn [map combine] in HL. inversion HL as [|? ? H1 H2]; subst. cbv beta in H1. cbn [snd fst ext_of xf_value] in H1. constructor; [exact (N.le_lt_trans _ _ _ H1 Hb)|].
  apply IH; [|assumption]. cbn in HV. congruence.
Qed.

(** A certificate whose extensions are made with the library's callbacks (and any others), in any number and order, each with the object identifier that goes
    with it: the reader finds exactly the claims that were put in, in order. *)
Theorem C51_claims_round_trip : forall (E : Env) (allowed : ub -> Prop) t c xs, (forall u, stray_reads u -> allowed u) ->
  cert_ok t c -> extended_with t xs -> Forall (fun x => input_ok allowed (snd x)) xs ->
  sizing_succeeds (n20_x509_cert (Some c)) ->
  exists b, renders allowed (n20_x509_cert (Some c)) b /\ len b < SZ /\
    read_claims b = Some (map (fun x => (fst x, claim_of (snd x))) xs).
Proof.
  intros E allowed t c xs HA Hc Hx HF Hs. destruct (claims_rendered E allowed xs HA HF) as (vs & HV & HC). rewrite <- Hx in HV.
  destruct (C26_cert_round_trip E allowed t c vs Hc HV (or_introl HA) Hs) as (b & HR & Hl & Hread).
  exists b. splits; [exact HR|exact Hl|]. now apply (read_claims_cert E allowed t xs vs b _ HV Hx HC Hread).
Qed.
Print Assumptions C51_claims_round_trip.

(** Nothing is lost: certificates with the same bytes make the same claims. *)
Theorem C51_claims_unambiguous : forall (E : Env) (allowed : ub -> Prop) t1 c1 xs1 t2 c2 xs2 b, (forall u, stray_reads u -> allowed u) ->
  cert_ok t1 c1 -> extended_with t1 xs1 -> Forall (fun x => input_ok allowed (snd x)) xs1 ->
  cert_ok t2 c2 -> extended_with t2 xs2 -> Forall (fun x => input_ok allowed (snd x)) xs2 ->
  len b < SZ -> renders allowed (n20_x509_cert (Some c1)) b -> renders allowed (n20_x509_cert (Some c2)) b ->
  map (fun x => (fst x, claim_of (snd x))) xs1 = map (fun x => (fst x, claim_of (snd x))) xs2.
Proof.
  intros E allowed t1 c1 xs1 t2 c2 xs2 b HA H1 X1 F1 H2 X2 F2 Hb R1 R2.
  destruct (C51_claims_round_trip E allowed t1 c1 xs1 HA H1 X1 F1) as (b1 & R1' & _ & P1); [now apply (sizing_spec allowed _ b R1)|].
  destruct (C51_claims_round_trip E allowed t2 c2 xs2 HA H2 X2 F2) as (b2 & R2' & _ & P2); [now apply (sizing_spec allowed _ b R2)|].
  rewrite <- (renders_det _ _ _ _ _ Hb R1 R1') in P1. rewrite <- (renders_det _ _ _ _ _ Hb R2 R2') in P2. congruence.
Qed.
Print Assumptions C51_claims_unambiguous.

(** From the secret to the claims: a certificate that is issued makes the claims of the template, and is signed with the key derived from the secret. *)
Theorem C51_issued_claims : forall (E : Env) (B : Bssl) (A : Allocator) (table : table) cdi ty label (allowed : ub -> Prop) t xs fuel
    public_key_buffer signature buffer u h cert,
  computes_sha2 B -> signs B -> publishes B -> allocator_ok A -> lookup table 0 = None -> handle_ok (live (heap_of table)) cdi -> len label < SZ ->
  (forall u, stray_reads u -> allowed u) -> tbs_ok t -> extended_with t xs -> Forall (fun x => input_ok allowed (snd x)) xs ->
  98 <= len public_key_buffer < SZ -> 104 <= len signature < SZ -> len buffer < SZ ->
  issue_from_cdi fuel (heap_of table) cdi ty label t public_key_buffer signature buffer = Ret (u, h, Some cert) ->
  Forall allowed u /\ h = heap_of table /\ read_claims cert = Some (map (fun x => (fst x, claim_of (snd x))) xs) /\
  exists secret p f signed, lookup table cdi = Some (SecretKey secret) /\ derived B secret label ty (SigningKey p) /\
    read_cert cert = Some f /\ tf_key (cf_tbs f) = bits_of_bytes (public_bytes B p) /\
    cert_signed_part cert = Some signed /\ cf_signature f = bits_of_bytes (signature_bytes B p signed).
Proof.
  intros E B A table cdi ty label allowed t xs fuel pk sg buf u h cert S1 S2 S3 HA0 H0 Hh Hlab HA Ht Hx HF Hp Hs Hb Hi.
  destruct (claims_rendered E allowed xs HA HF) as (vs & HV & HC). rewrite <- Hx in HV.
  pose proof (C50_from_cdi E B A table cdi ty label allowed t vs fuel pk sg buf S1 S2 S3 HA0 H0 Hh Hlab Ht HV (or_introl HA) Hp Hs Hb) as HI.
  rewrite Hi in HI. destruct HI as (HU & Hheap & Hcl & secret & p & signed & Hsec & Hder & Hsig & Hread).
  splits; [assumption|assumption| |].
  - refine (read_claims_cert E allowed t xs vs cert _ HV Hx HC Hread eq_refl _). lia.
  - exists secret, p. eexists. exists signed. splits; [assumption|assumption|exact Hread|reflexivity|assumption|reflexivity].
Qed.
Print Assumptions C51_issued_claims.

(** ** Examples: every kind of extension in one certificate; the two UEIDs have the same value, one under an identifier of its own. *)
Section Examples.
#[local] Existing Instance env64.
Definition tcb_with (svn : Z) : tcb_info :=
  mkTcbInfo (slice_of (bytes [0x41])) slice_null slice_null svn 0 (-1) 1 (Some [mkFwid OID_SHA256 (slice_of (bytes [7; 8]))])
    (bytes [0x10; 0; 0; 0]) (bytes [0xff; 0x80; 0; 1]) slice_null (slice_of []).
Definition example_other : ext_input :=
  In_other (N20_ASN1_OBJECT_ID [2; 23; 133; 5; 4; 400]) (n20_x509_ext_tcg_dice_ueid_content (Some (slice_of (bytes [1])))) (bytes [0x30; 3; 4; 1; 1]).
Definition example_inputs : list (bool * ext_input) :=
  [(true, In_basic_constraints (mkBasicConstraints true true 300)); (true, In_key_usage [KU_crl_sign; KU_key_cert_sign]);
   (false, In_open_dice example_open_dice); (false, In_tcb_info (tcb_with 5)); (true, In_multi_tcb_info (mkMulti 2 (Some [tcb_with 6; tcb_with 7])));
   (false, In_ueid (slice_of (bytes [1]))); (false, In_tcb_freshness (slice_of (bytes [2; 3]))); (false, example_other)].
Definition dice_tbs (xs : list (bool * ext_input)) : tbs :=
  mkTbs (tbs_serial example_tbs) (tbs_sig_alg example_tbs) (tbs_issuer example_tbs) (tbs_validity example_tbs) (tbs_subject example_tbs) (tbs_spki example_tbs)
    (mkExtensions (len xs) (Some (map (fun x => extension_for (fst x) (snd x)) xs))).
Definition dice_cert (xs : list (bool * ext_input)) : cert := mkCert (Some (dice_tbs xs)) (mkAlg (Some OID_ED25519) pv_null) 8 (Some (bytes [0x5a])).

Lemma dice_extended xs : extended_with (dice_tbs xs) xs.
Proof.
  unfold extended_with, used_exts, dice_tbs. cbn [tbs_exts exts_list exts_count]. apply takeN_all. unfold len. rewrite map_length. apply N.le_refl.
Qed.
Lemma dice_cert_ok xs : Forall (fun x => oid_given (ext_oid (extension_for (fst x) (snd x)))) xs -> cert_ok (dice_tbs xs) (dice_cert xs).
Proof.
  intro HF. destruct example_cert_ok as (_ & (H1 & H2 & H3 & H4 & H5 & H6 & H7 & H8 & H9 & H10) & H11 & H12).
  split; [reflexivity|]. split; [|now split]. unfold tbs_ok. splits; try assumption.
  split; [cbn; unfold len; rewrite map_length; apply N.le_refl|]. rewrite dice_extended. now apply Forall_map.
Qed.
Lemma tcb_with_ok z : (0 <= z < 100)%Z -> tcb_ok (tcb_with z).
Proof.
  intro Hz. assert (Z64 : forall z, (-256 <= z < 256)%Z -> int64_ok z) by (unfold int64_ok; lia).
  unfold tcb_ok, tcb_with. cbn [ti_vendor ti_model ti_version ti_svn ti_layer ti_index ti_fwids_count ti_fwids ti_flags
    ti_flags_mask ti_vendor_info ti_type_].
  splits; try (apply example_slice; reflexivity); try apply PropX509Ext.null_slice; try (apply Z64; lia); try reflexivity.
  match goal with |- Forall _ (takeN 1 ?l) => change (takeN 1 l) with l end.
    apply Forall_cons; [split; [apply encodable_b_ok; vm_compute; reflexivity|apply example_slice; vm_compute; reflexivity]|apply Forall_nil].
Qed.
Lemma example_inputs_ok : Forall (fun x => input_ok stray_reads (snd x)) example_inputs.
Proof.
  assert (HS : forall l, len (bytes l) < 2 ^ 32 -> slice_ok (slice_of (bytes l))) by (intros l Hl; now apply example_slice).
  unfold example_inputs. repeat (apply Forall_cons; [cbn [snd]|]); [| | | | | | | |apply Forall_nil].
  - cbn [input_ok bc_path_length]. reflexivity.
  - exact I.
  - apply C29_example.
  - now apply tcb_with_ok.
  - split; [cbn; apply N.le_refl|]. unfold used_tcbs. cbn [mt_list mt_count].
    change (takeN 2 [tcb_with 6; tcb_with 7]) with [tcb_with 6; tcb_with 7].
    apply Forall_cons; [now apply tcb_with_ok|]. apply Forall_cons; [now apply tcb_with_ok|apply Forall_nil].
  - now apply HS.
  - now apply HS.
  - unfold example_other. cbn [input_ok]. splits; [apply encodable_b_ok; vm_compute; reflexivity|vm_compute; intuition discriminate|].
    assert (H1 : slice_ok (slice_of (bytes [1]))) by now apply HS.
    apply (rend_small _ _ _ (rend_octets_seq stray_reads (slice_of (bytes [1])) H1)). vm_compute. reflexivity.
Qed.
Lemma example_oids : Forall (fun x => oid_given (ext_oid (extension_for (fst x) (snd x)))) example_inputs.
Proof.
  unfold example_inputs. repeat (apply Forall_cons; [cbn [fst snd extension_for ext_oid example_other]; apply oid_given_example; vm_compute; reflexivity|]).
  apply Forall_nil.
Qed.

Definition rendered_long (f : cmd) : list byte :=
  match w_stream (f (mkWorld (Some (n20_stream_init (Some (repeat x00 900)) 900)) [])) with Some s => stream_contents s | None => [] end.
Example C51_example :
  cert_ok (dice_tbs example_inputs) (dice_cert example_inputs) /\ extended_with (dice_tbs example_inputs) example_inputs /\
  Forall (fun x => input_ok stray_reads (snd x)) example_inputs /\ sizing_succeeds (n20_x509_cert (Some (dice_cert example_inputs))) /\
  read_claims (rendered_long (n20_x509_cert (Some (dice_cert example_inputs)))) =
    Some [(true, Basic_constraints true (Some 300%Z)); (true, Key_usage [KU_key_cert_sign; KU_crl_sign]); (false, Open_dice (open_dice_of example_open_dice));
          (false, Tcb_info (tcb_of (tcb_with 5))); (true, Multi_tcb_info [tcb_of (tcb_with 6); tcb_of (tcb_with 7)]);
          (false, Ueid (bytes [1])); (false, Tcb_freshness (bytes [2; 3])); (false, Unknown [2; 23; 133; 5; 4; 400] (bytes [0x30; 3; 4; 1; 1]))].
Proof.
  splits; [apply dice_cert_ok, example_oids|apply dice_extended|exact example_inputs_ok|vm_compute; reflexivity|vm_compute; reflexivity].
Qed.
(** Another SVN in one of the structures: other bytes. The order of the macros and the array behind the count do not matter. *)
Example C51_unambiguous_case :
  let with_svn z := [(false, In_tcb_info (tcb_with z)); (true, In_key_usage [KU_crl_sign])] in
  rendered (n20_x509_cert (Some (dice_cert (with_svn 5%Z)))) <> rendered (n20_x509_cert (Some (dice_cert (with_svn 6%Z)))) /\
  rendered (n20_x509_cert (Some (dice_cert [(true, In_key_usage [KU_key_cert_sign; KU_crl_sign])]))) =
    rendered (n20_x509_cert (Some (dice_cert [(true, In_key_usage [KU_crl_sign; KU_key_cert_sign])]))) /\
  rendered (n20_x509_cert (Some (dice_cert [(true, In_multi_tcb_info (mkMulti 1 (Some [tcb_with 5; tcb_with 6])))]))) =
    rendered (n20_x509_cert (Some (dice_cert [(true, In_multi_tcb_info (mkMulti 1 (Some [tcb_with 5])))]))).
Proof. cbv zeta. splits; [vm_compute; discriminate|vm_compute; reflexivity..]. Qed.

(** Issued from the secret behind handle 4, with the toy BoringSSL. *)
Example C51_issued_case : exists n cert,
  forall fuel buffer, (n <= fuel)%nat -> len cert <= len buffer < SZ ->
    exists u, @issue_from_cdi env64 (toy none_fails) bump fuel (heap_of issue_table) 4 3 (bytes [0x6b; 0x65; 0x79]) (dice_tbs example_inputs)
                (repeat x00 98) (repeat x00 104) buffer = Ret (u, heap_of issue_table, Some cert) /\ Forall stray_reads u /\
      read_claims cert = Some (map (fun x => (fst x, claim_of (snd x))) example_inputs).
Proof.
  destruct (claims_rendered env64 stray_reads example_inputs (fun u H => H) example_inputs_ok) as (vs & HV & _).
  pose proof (proj1 (proj2 (dice_cert_ok example_inputs example_oids))) as Ht.
  assert (Hc : handle_ok (live (heap_of issue_table)) 4) by (vm_compute; tauto).
  destruct (C50_from_cdi_complete env64 (toy none_fails) bump issue_table 4 3 (bytes [0x6b; 0x65; 0x79]) stray_reads (dice_tbs example_inputs) vs (bytes [6])
    (Ed25519 (HKDF_expand SHA512 (bytes [6]) (bytes [0x6b; 0x65; 0x79]) 32))) as (n & signed & cert & _ & H2);
    try (intros ?; reflexivity); try exact (toy_sha2 _); try exact (toy_signs _); try exact (toy_publishes _); try exact bump_ok; try exact Ht;
    try (rewrite dice_extended; exact HV); try (left; now intros u Hu); try reflexivity.
  exists n, cert. intros fuel buffer Hf Hb.
  assert (B1 : 98 <= len (repeat x00 98) < SZ) by (split; [vm_compute; congruence|reflexivity]).
  assert (B2 : 104 <= len (repeat x00 104) < SZ) by (split; [vm_compute; congruence|reflexivity]).
  destruct (H2 fuel (repeat x00 98) (repeat x00 104) buffer Hf B1 B2 Hb) as [u Hu].
  destruct (C51_issued_claims env64 (toy none_fails) bump issue_table 4 3 (bytes [0x6b; 0x65; 0x79]) stray_reads (dice_tbs example_inputs) example_inputs
    fuel _ _ _ _ _ _ (toy_sha2 _) (toy_signs _) (toy_publishes _) bump_ok eq_refl Hc eq_refl (fun u H => H) Ht (dice_extended _) example_inputs_ok B1 B2
    (proj2 Hb) Hu) as (H3 & _ & H4 & _).
  exists u. splits; assumption.
Qed.
End Examples.
