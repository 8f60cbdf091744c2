(** The specification's readers accept one encoding of each value: whatever they read is what the writer of [X509Facts] writes. *)
From Coq Require Import List NArith ZArith Bool Lia Strings.Byte.
From Verif Require Import Base BaseFacts Stream SpecStream SpecDigits SpecDer DerFacts Asn1 SpecAsn1 Oid X509 X509Ext SpecX509 X509Facts CoreTestProofs.
Import ListNotations.
Open Scope N_scope.

Lemma bind_some {A B} (a : option A) (f : A -> option B) b : bind a f = Some b -> exists x, a = Some x /\ f x = Some b.
Proof. destruct a; [eauto|discriminate]. Qed.
Ltac binds H :=
  repeat match type of H with
         | bind _ _ = Some _ => let x := fresh "x" in let E := fresh "E" in apply bind_some in H as (x & E & H)
         end.

Lemma read_one_unique bs t : read_one bs = Some t -> bs = enc_tlv t.
Proof.
  unfold read_one. destruct (read_tlv bs) as [[u [|]]|] eqn:E; try discriminate. intros H. injection H as <-.
  apply read_tlv_canonical in E. now rewrite app_nil_r in E.
Qed.
Lemma expect_unique c k n t b : expect c k n t = Some b -> t = Tlv c k n b.
Proof.
  unfold expect. destruct t as [c' k' n' b']. cbn [t_class t_constructed t_tag t_content].
  destruct (N.eqb_spec c' c), (Bool.eqb_spec k' k), (N.eqb_spec n' n); cbn [andb]; try discriminate. congruence.
Qed.
Lemma get_sequence_unique t ts : get_sequence t = Some ts -> t = tlv_sequence (enc_tlvs ts).
Proof. unfold get_sequence. intros H. binds H. apply expect_unique in E. apply read_tlvs_canonical in H. now subst. Qed.
Lemma get_set_unique t ts : get_set t = Some ts -> t = tlv_set (enc_tlvs ts).
Proof. unfold get_set. intros H. binds H. apply expect_unique in E. apply read_tlvs_canonical in H. now subst. Qed.
Lemma get_int_unique t z : get_int t = Some z -> t = tlv_integer (enc_int z).
Proof. unfold get_int. intros H. binds H. apply expect_unique in E. apply read_int_unique in H. now subst. Qed.
Lemma get_bits_unique t l : get_bits t = Some l -> t = tlv_bitstring (enc_bits l).
Proof. unfold get_bits. intros H. binds H. apply expect_unique in E. apply read_bits_canonical in H. now subst. Qed.
Lemma get_oid_unique t l : get_oid t = Some l -> t = tlv_oid (enc_oid l).
Proof. unfold get_oid. intros H. binds H. apply expect_unique in E. apply read_oid_canonical in H. now subst. Qed.
Lemma get_octets_unique t b : get_octets t = Some b -> t = tlv_octetstring b.
Proof. apply expect_unique. Qed.
Lemma get_utf8_unique t b : get_utf8 t = Some b -> t = tlv_utf8string b.
Proof. apply expect_unique. Qed.
Lemma get_printable_unique t b : get_printable t = Some b -> t = tlv_printablestring b.
Proof. apply expect_unique. Qed.
Lemma get_time_unique t b : get_time t = Some b -> t = tlv_generalizedtime b.
Proof. apply expect_unique. Qed.
Lemma get_explicit_unique n t u : get_explicit n t = Some u -> t = Tlv 2 true n (enc_tlv u).
Proof. unfold get_explicit. intros H. binds H. apply expect_unique in E. apply read_one_unique in H. now subst. Qed.
Lemma map_opt_unique {A B} (f : A -> option B) (g : B -> A) : (forall a b, f a = Some b -> a = g b) ->
  forall l r, map_opt f l = Some r -> l = map g r.
Proof.
  intros HF. induction l as [|a l IH]; intros r H; [now injection H as <-|]. cbn [map_opt] in H. binds H. injection H as <-.
  cbn [map]. f_equal; auto.
Qed.

(** Puts what every step of a reader has read in place of the data value. *)
Ltac uniques := repeat match goal with
  | H : get_sequence _ = Some _ |- _ => apply get_sequence_unique in H; subst
  | H : get_set _ = Some _ |- _ => apply get_set_unique in H; subst
  | H : get_int _ = Some _ |- _ => apply get_int_unique in H; subst
  | H : get_bits _ = Some _ |- _ => apply get_bits_unique in H; subst
  | H : get_oid _ = Some _ |- _ => apply get_oid_unique in H; subst
  | H : get_octets _ = Some _ |- _ => apply get_octets_unique in H; subst
  | H : get_utf8 _ = Some _ |- _ => apply get_utf8_unique in H; subst
  | H : get_printable _ = Some _ |- _ => apply get_printable_unique in H; subst
  | H : get_time _ = Some _ |- _ => apply get_time_unique in H; subst
  | H : get_explicit _ _ = Some _ |- _ => apply get_explicit_unique in H; subst
  | H : expect _ _ _ _ = Some _ |- _ => apply expect_unique in H; subst
  | H : read_one _ = Some _ |- _ => apply read_one_unique in H; subst
  | H : read_int _ = Some _ |- _ => apply read_int_unique in H; subst
  | H : read_bits _ = Some _ |- _ => apply read_bits_canonical in H; subst
  | H : read_tlvs _ = Some _ |- _ => apply read_tlvs_canonical in H; subst
  end.

Lemma read_bool_unique c b : read_bool c = Some b -> tlv_boolean b = Tlv 0 false 1 c.
Proof.
  unfold read_bool, tlv_boolean. destruct c as [|x [|]]; try discriminate; destruct x; try discriminate; intros H; injection H as <-; reflexivity.
Qed.

Lemma parse_alg_unique t a : parse_alg t = Some a -> t = tlv_alg a.
Proof.
  unfold parse_alg. intros H. binds H. destruct x as [|o [|p [|]]]; try discriminate.
  - binds H. injection H as <-. uniques. reflexivity.
  - binds H. destruct (t_tag p =? 5); binds H.
    + destruct x0; [|discriminate]. injection H as <-. uniques. reflexivity.
    + injection H as <-. uniques. reflexivity.
Qed.
Lemma parse_attribute_unique t a : parse_attribute t = Some a -> t = tlv_attribute a.
Proof.
  unfold parse_attribute. intros H. binds H. destruct x as [|s [|]]; try discriminate. binds H. destruct x as [|o [|p [|]]]; try discriminate.
  binds H. injection H as <-. uniques. reflexivity.
Qed.
Lemma parse_name_unique t n : parse_name t = Some n -> t = tlv_name n.
Proof. unfold parse_name. intros H. binds H. uniques. apply (map_opt_unique _ _ parse_attribute_unique) in H. now subst. Qed.
Lemma parse_validity_unique t nb na : parse_validity t = Some (nb, na) -> t = tlv_validity nb na.
Proof.
  unfold parse_validity. intros H. binds H. destruct x as [|o [|p [|]]]; try discriminate. binds H. injection H as -> ->. uniques. reflexivity.
Qed.
Lemma parse_spki_unique t a k : parse_spki t = Some (a, k) -> t = tlv_spki a k.
Proof.
  unfold parse_spki. intros H. binds H. destruct x as [|o [|p [|]]]; try discriminate. binds H. injection H as -> ->.
  apply parse_alg_unique in E0. uniques. reflexivity.
Qed.
Lemma parse_ext_unique t x : parse_ext t = Some x -> t = tlv_ext x.
Proof.
  unfold parse_ext. intros H. binds H. destruct x0 as [|o [|p [|q [|]]]]; try discriminate; binds H.
  - injection H as <-. uniques. reflexivity.
  - destruct x2; [|discriminate]. injection H as <-. apply read_bool_unique in E2. uniques. rewrite <- E2. reflexivity.
Qed.
Lemma parse_exts_unique t l : parse_exts t = Some l -> l <> [] /\ t = tlv_exts l.
Proof.
  unfold parse_exts. intros H. binds H. uniques. destruct x0 as [|y ys]; [discriminate|].
  apply (map_opt_unique _ _ parse_ext_unique) in H. rewrite H. split; [|reflexivity]. intros ->. discriminate.
Qed.
Lemma parse_tbs_unique t f : parse_tbs t = Some f -> t = tlv_tbs f.
Proof.
  unfold parse_tbs. intros H. binds H. destruct x as [|v [|n [|g [|i [|d [|s [|k es]]]]]]]; try discriminate.
  repeat (binds H; match type of H with (let (_, _) := ?p in _) = _ => destruct p end). binds H. injection H as <-.
  repeat match goal with
  | H : parse_alg _ = Some _ |- _ => apply parse_alg_unique in H
  | H : parse_name _ = Some _ |- _ => apply parse_name_unique in H
  | H : parse_validity _ = Some _ |- _ => apply parse_validity_unique in H
  | H : parse_spki _ = Some _ |- _ => apply parse_spki_unique in H
  end. uniques.
  unfold tlv_tbs. cbn [tf_version tf_serial tf_sig_alg tf_issuer tf_not_before tf_not_after tf_subject tf_key_alg tf_key tf_exts].
  rewrite Z.add_simpl_r. cbn [app]. repeat (f_equal; []).
  match goal with H : match es with _ => _ end = Some _ |- _ =>
    destruct es as [|e [|]]; [now injection H as <-| |discriminate]; apply parse_exts_unique in H as [HN ->] end.
  match goal with HN : ?l <> [] |- _ => now destruct l end.
Qed.
Lemma parse_cert_unique t c : parse_cert t = Some c -> t = tlv_cert c.
Proof.
  unfold parse_cert. intros H. binds H. destruct x as [|b [|a [|s [|]]]]; try discriminate. binds H. injection H as <-.
  apply parse_tbs_unique in E0. apply parse_alg_unique in E1. uniques. reflexivity.
Qed.
Lemma parse_basic_constraints_unique t ca path : parse_basic_constraints t = Some (ca, path) ->
  t = tlv_basic_constraints ca path.
Proof.
  unfold parse_basic_constraints. intros H. binds H. destruct x as [|c r]; [injection H as <- <-; now uniques|]. binds H.
  destruct x0; [|discriminate]. apply read_bool_unique in E1. destruct r as [|p [|]]; [|binds H|discriminate]; injection H as <- <-; uniques; rewrite <- E1; reflexivity.
Qed.

Lemma opt_field_unique {A} n (f : tlv -> option A) (g : A -> tlv) ts o r : (forall t a, f t = Some a -> t = g a) ->
  opt_field n f ts = Some (o, r) -> ts = match option_map g o with Some t => [t] | None => [] end ++ r.
Proof.
  intros HF. unfold opt_field. destruct ts as [|t ts]; [intros H; now injection H as <- <-|].
  destruct ((t_class t =? 2) && (t_tag t =? n)); intros H; [|now injection H as <- <-].
  binds H. injection H as <- <-. apply HF in E. now subst.
Qed.

Lemma parse_open_dice_unique t o : parse_open_dice t = Some o -> t = tlv_open_dice o.
Proof.
  unfold parse_open_dice. cbv zeta. intros H. apply bind_some in H as (ts & E & H). apply get_sequence_unique in E. subst t.
  assert (HO : forall n t b, (let? x := get_explicit n t in get_octets x) = Some b -> t = explicit_tlv n (tlv_octetstring b))
    by (intros n t b Hb; binds Hb; uniques; reflexivity).
  assert (HI : forall n t z, (let? x := get_explicit n t in get_int x) = Some z -> t = explicit_tlv n (tlv_integer (enc_int z)))
    by (intros n t z Hb; binds Hb; uniques; reflexivity).
  assert (HU : forall n t b, (let? x := get_explicit n t in get_utf8 x) = Some b -> t = explicit_tlv n (tlv_utf8string b))
    by (intros n t b Hb; binds Hb; uniques; reflexivity).
  do 6 (let p := fresh "p" in let E := fresh "E" in apply bind_some in H as (p & E & H); destruct p as [? ?];
        apply (opt_field_unique _ _ _ _ _ _ (HO _)) in E; subst).
  apply bind_some in H as ([? ?] & E & H). apply (opt_field_unique _ _ _ _ _ _ (HI _)) in E; subst.
  apply bind_some in H as ([? ?] & E & H). apply (opt_field_unique _ _ _ _ _ _ (HU _)) in E; subst.
  match type of H with match ?l with _ => _ end = _ => destruct l; [|discriminate] end. injection H as <-. reflexivity.
Qed.
Lemma parse_fwid_unique t f : parse_fwid t = Some f -> t = tlv_fwid f.
Proof.
  unfold parse_fwid. intros H. binds H. destruct x as [|o [|d [|]]]; try discriminate. binds H. injection H as <-. uniques. reflexivity.
Qed.
Lemma parse_tcb_unique t f : parse_tcb t = Some f -> t = tlv_tcb f.
Proof.
  unfold parse_tcb. intros H. apply bind_some in H as (ts & E & H). apply get_sequence_unique in E. subst t.
  assert (HI : forall n t z, (let? c := expect 2 false n t in read_int c) = Some z -> t = Tlv 2 false n (enc_int z))
    by (intros n t b Hb; binds Hb; uniques; reflexivity).
  assert (HB : forall n t z, (let? c := expect 2 false n t in read_bits c) = Some z -> t = Tlv 2 false n (enc_bits z))
    by (intros n t b Hb; binds Hb; uniques; reflexivity).
  assert (HW : forall n t l, (let? c := expect 2 true n t in let? l := read_tlvs c in map_opt parse_fwid l) = Some l ->
      t = Tlv 2 true n (enc_tlvs (map tlv_fwid l)))
    by (intros n t l Hb; binds Hb; apply (map_opt_unique _ _ parse_fwid_unique) in Hb; uniques; reflexivity).
  do 3 (let p := fresh "p" in let E := fresh "E" in apply bind_some in H as (p & E & H); destruct p as [? ?];
        apply (opt_field_unique _ _ _ _ _ _ (expect_unique _ _ _)) in E; subst).
  do 3 (let p := fresh "p" in let E := fresh "E" in apply bind_some in H as (p & E & H); destruct p as [? ?];
        apply (opt_field_unique _ _ _ _ _ _ (HI _)) in E; subst).
  apply bind_some in H as ([? ?] & E & H). apply (opt_field_unique _ _ _ _ _ _ (HW _)) in E; subst.
  apply bind_some in H as ([? ?] & E & H). apply (opt_field_unique _ _ _ _ _ _ (HB _)) in E; subst.
  do 2 (let p := fresh "p" in let E := fresh "E" in apply bind_some in H as (p & E & H); destruct p as [? ?];
        apply (opt_field_unique _ _ _ _ _ _ (expect_unique _ _ _)) in E; subst).
  apply bind_some in H as ([? ?] & E & H). apply (opt_field_unique _ _ _ _ _ _ (HB _)) in E; subst.
  match type of H with match ?l with _ => _ end = _ => destruct l; [|discriminate] end. injection H as <-. reflexivity.
Qed.

(** ** Whole byte strings *)
Lemma read_name_unique bs n : read_name bs = Some n -> bs = enc_tlv (tlv_name n).
Proof. unfold read_name. intros H. binds H. apply parse_name_unique in H. uniques. reflexivity. Qed.
Lemma read_tbs_unique bs f : read_tbs bs = Some f -> bs = enc_tlv (tlv_tbs f).
Proof. unfold read_tbs. intros H. binds H. apply parse_tbs_unique in H. uniques. reflexivity. Qed.
Lemma read_cert_unique bs f : read_cert bs = Some f -> bs = enc_tlv (tlv_cert f).
Proof. unfold read_cert. intros H. binds H. apply parse_cert_unique in H. uniques. reflexivity. Qed.
Lemma read_basic_constraints_unique bs ca path : read_basic_constraints bs = Some (ca, path) -> bs = enc_tlv (tlv_basic_constraints ca path).
Proof. unfold read_basic_constraints. intros H. binds H. apply parse_basic_constraints_unique in H. uniques. reflexivity. Qed.
Lemma read_key_usage_unique bs l : read_key_usage bs = Some l -> bs = enc_tlv (tlv_bitstring (enc_bits l)).
Proof.
  unfold read_key_usage. intros H. binds H. assert (x0 = l) by (destruct (rev x0) as [|[]]; congruence). uniques. reflexivity.
Qed.
Lemma read_open_dice_unique bs o : read_open_dice bs = Some o -> bs = enc_tlv (tlv_open_dice o).
Proof. unfold read_open_dice. intros H. binds H. apply parse_open_dice_unique in H. uniques. reflexivity. Qed.
Lemma read_tcb_unique bs o : read_tcb bs = Some o -> bs = enc_tlv (tlv_tcb o).
Proof. unfold read_tcb. intros H. binds H. apply parse_tcb_unique in H. uniques. reflexivity. Qed.
Lemma read_multi_tcb_unique bs l : read_multi_tcb bs = Some l -> bs = enc_tlv (tlv_sequence (enc_tlvs (map tlv_tcb l))).
Proof. unfold read_multi_tcb. intros H. binds H. apply (map_opt_unique _ _ parse_tcb_unique) in H. uniques. reflexivity. Qed.
Lemma read_octets_in_sequence_unique bs b : read_octets_in_sequence bs = Some b -> bs = enc_tlv (tlv_sequence (enc_tlvs [tlv_octetstring b])).
Proof. unfold read_octets_in_sequence. intros H. binds H. destruct x0 as [|o [|]]; try discriminate. uniques. reflexivity. Qed.
