(** A DER writer for the specification's certificate fields, and the fact that the specification's reader inverts it. *)
From Coq Require Import List NArith ZArith Bool Lia Strings.Byte.
From Coq Require Import ZifyBool ZifyNat ZifyN.
From Verif Require Import Base BaseFacts Stream SpecStream SpecDigits DigitsFacts SpecDer DerFacts Asn1 SpecAsn1 Oid X509
  X509Ext SpecX509.
Import ListNotations.
Open Scope N_scope.

Definition small (b : list byte) : Prop := len b < 2 ^ 64.
Lemma small_app a b : small (a ++ b) -> small a /\ small b.
Proof. unfold small. rewrite len_app. lia. Qed.
Lemma small_content t : small (enc_tlv t) -> small (t_content t).
Proof. unfold small. pose proof (len_enc_tlv t). lia. Qed.
Lemma small_cons t ts : small (enc_tlvs (t :: ts)) -> small (enc_tlv t) /\ small (enc_tlvs ts).
Proof. unfold enc_tlvs. cbn [map concat]. apply small_app. Qed.
Lemma small_tlvs_app ts us : small (enc_tlvs (ts ++ us)) -> small (enc_tlvs ts) /\ small (enc_tlvs us).
Proof. unfold enc_tlvs. rewrite map_app, concat_app. apply small_app. Qed.

Definition class_ok (t : tlv) : Prop := t_class t < 4.

Lemma read_small_tlvs ts : Forall class_ok ts -> small (enc_tlvs ts) -> read_tlvs (enc_tlvs ts) = Some ts.
Proof.
  intros HF Hs. apply read_enc_tlvs. induction HF as [|t ts Ht _ IH]; constructor.
  - apply small_cons in Hs as [Hs _]. split; [exact Ht|]. now apply small_content.
  - apply IH. apply small_cons in Hs as [_ Hs]. exact Hs.
Qed.
Lemma read_one_enc t : class_ok t -> small (enc_tlv t) -> read_one (enc_tlv t) = Some t.
Proof.
  intros Ht Hs. unfold read_one. rewrite <- (app_nil_r (enc_tlv t)), read_enc_tlv; [reflexivity|].
  split; [exact Ht|now apply small_content].
Qed.

Lemma expect_ok c k n b : expect c k n (Tlv c k n b) = Some b.
Proof. unfold expect. cbn. now rewrite !N.eqb_refl, Bool.eqb_reflx. Qed.

Lemma get_sequence_enc ts : Forall class_ok ts -> small (enc_tlvs ts) -> get_sequence (tlv_sequence (enc_tlvs ts)) = Some ts.
Proof. intros. unfold get_sequence, tlv_sequence. rewrite expect_ok. cbn [bind]. now apply read_small_tlvs. Qed.
Lemma get_set_enc ts : Forall class_ok ts -> small (enc_tlvs ts) -> get_set (tlv_set (enc_tlvs ts)) = Some ts.
Proof. intros. unfold get_set, tlv_set. rewrite expect_ok. cbn [bind]. now apply read_small_tlvs. Qed.
Lemma get_int_enc z : get_int (tlv_integer (enc_int z)) = Some z.
Proof. unfold get_int, tlv_integer. rewrite expect_ok. apply read_enc_int. Qed.
Lemma get_bits_enc l : get_bits (tlv_bitstring (enc_bits l)) = Some l.
Proof. unfold get_bits, tlv_bitstring. rewrite expect_ok. apply read_enc_bits. Qed.
Lemma get_oid_enc l : oid_valid l -> get_oid (tlv_oid (enc_oid l)) = Some l.
Proof. intro. unfold get_oid, tlv_oid. rewrite expect_ok. now apply read_enc_oid. Qed.
Lemma get_explicit_enc n t : class_ok t -> small (enc_tlv t) -> get_explicit n (Tlv 2 true n (enc_tlv t)) = Some t.
Proof. intros. unfold get_explicit. rewrite expect_ok. now apply read_one_enc. Qed.

Lemma map_opt_enc {A B} (f : B -> A) (g : A -> option B) (ok : B -> Prop) l :
  Forall ok l -> (forall x, In x l -> ok x -> g (f x) = Some x) -> map_opt g (map f l) = Some l.
Proof.
  induction 1 as [|x l Hx _ IH]; intro Hg; [reflexivity|]. cbn.
  rewrite Hg by (cbn; auto). cbn. rewrite IH; [reflexivity|]. intros y Hy. apply Hg. now right.
Qed.

Lemma small_in t ts : In t ts -> small (enc_tlvs ts) -> small (enc_tlv t).
Proof.
  induction ts as [|u ts IH]; [intros []|]. intros [->|H] Hs; apply small_cons in Hs; [tauto|]. now apply IH.
Qed.

Ltac smalls :=
  repeat match goal with
         | H : small (enc_tlvs (_ :: _)) |- _ => apply small_cons in H; destruct H
         | H : small (enc_tlvs (_ ++ _)) |- _ => apply small_tlvs_app in H; destruct H
         | H : small (_ ++ _) |- _ => apply small_app in H; destruct H
         | H : small (enc_tlv ?t) |- _ => apply small_content in H; cbn [t_content tlv_sequence tlv_set] in H
         end.
Ltac classes := repeat (constructor; [reflexivity|]); try constructor.

(** ** Writers *)
Definition params_ok (p : params) : Prop := match p with CurveParams c => oid_valid c | _ => True end.
Definition algf_ok (a : alg_fields) : Prop := oid_valid (af_oid a) /\ params_ok (af_params a).
Definition params_tlvs (p : params) : list tlv :=
  match p with NoParams => [] | NullParams => [tlv_null] | CurveParams c => [tlv_oid (enc_oid c)] end.
Definition tlv_alg (a : alg_fields) : tlv := tlv_sequence (enc_tlvs (tlv_oid (enc_oid (af_oid a)) :: params_tlvs (af_params a))).

Lemma parse_alg_enc a : algf_ok a -> small (enc_tlv (tlv_alg a)) -> parse_alg (tlv_alg a) = Some a.
Proof.
  intros [Ho Hp] Hs. apply small_content in Hs. unfold tlv_alg in *. cbn [t_content tlv_sequence] in Hs.
  destruct a as [o p]. cbn [af_oid af_params] in *.
  unfold parse_alg. rewrite get_sequence_enc; [|destruct p; classes|assumption]. cbn [bind].
  destruct p; cbn [params_tlvs].
  - now rewrite get_oid_enc.
  - rewrite get_oid_enc by assumption. reflexivity.
  - rewrite get_oid_enc by assumption. cbn [bind]. change (t_tag (tlv_oid (enc_oid curve)) =? 5) with false. cbv iota.
    now rewrite get_oid_enc.
Qed.

Definition tlv_attribute (a : attribute) : tlv :=
  tlv_set (enc_tlvs [tlv_sequence (enc_tlvs [tlv_oid (enc_oid (fst a)); tlv_printablestring (snd a)])]).
Lemma parse_attribute_enc a : oid_valid (fst a) -> small (enc_tlv (tlv_attribute a)) ->
  parse_attribute (tlv_attribute a) = Some a.
Proof.
  intros Ho Hs. unfold tlv_attribute in *. destruct a as [o v]. cbn [fst snd] in *.
  pose proof Hs as Hs1. apply small_content in Hs1. cbn [t_content tlv_set] in Hs1.
  pose proof Hs1 as Hs2. apply small_cons in Hs2 as [Hs2 _]. apply small_content in Hs2. cbn [t_content tlv_sequence] in Hs2.
  unfold parse_attribute. rewrite get_set_enc; [|classes|assumption]. cbn [bind].
  rewrite get_sequence_enc; [|classes|assumption]. cbn [bind].
  rewrite get_oid_enc by assumption. cbn [bind]. unfold get_printable, tlv_printablestring. now rewrite expect_ok.
Qed.

Definition tlv_name (n : list attribute) : tlv := tlv_sequence (enc_tlvs (map tlv_attribute n)).
Definition namef_ok (n : list attribute) : Prop := Forall (fun a => oid_valid (fst a)) n.
Lemma Forall_map_class {A} (f : A -> tlv) l : (forall x, class_ok (f x)) -> Forall class_ok (map f l).
Proof. intro. induction l; constructor; auto. Qed.
Lemma parse_name_enc n : namef_ok n -> small (enc_tlv (tlv_name n)) -> parse_name (tlv_name n) = Some n.
Proof.
  intros Ho Hs. apply small_content in Hs. unfold tlv_name in *. cbn [t_content tlv_sequence] in Hs.
  unfold parse_name. rewrite get_sequence_enc; [|apply Forall_map_class; intro; reflexivity|assumption]. cbn [bind].
  eapply map_opt_enc; [exact Ho|]. intros x Hx Hv. apply parse_attribute_enc; [assumption|].
  eapply small_in; [|exact Hs]. now apply in_map.
Qed.

Definition tlv_validity (nb na : list byte) : tlv := tlv_sequence (enc_tlvs [tlv_generalizedtime nb; tlv_generalizedtime na]).
Lemma parse_validity_enc nb na : small (enc_tlv (tlv_validity nb na)) -> parse_validity (tlv_validity nb na) = Some (nb, na).
Proof.
  intro Hs. apply small_content in Hs. unfold tlv_validity in *. cbn [t_content tlv_sequence] in Hs.
  unfold parse_validity. rewrite get_sequence_enc; [|classes|assumption]. cbn [bind].
  unfold get_time, tlv_generalizedtime. now rewrite !expect_ok.
Qed.

Definition tlv_spki (a : alg_fields) (k : list bool) : tlv := tlv_sequence (enc_tlvs [tlv_alg a; tlv_bitstring (enc_bits k)]).
Lemma parse_spki_enc a k : algf_ok a -> small (enc_tlv (tlv_spki a k)) -> parse_spki (tlv_spki a k) = Some (a, k).
Proof.
  intros Ha Hs. apply small_content in Hs. unfold tlv_spki in *. cbn [t_content tlv_sequence] in Hs.
  pose proof Hs as Hs1. apply small_cons in Hs1 as [Hs1 _].
  unfold parse_spki. rewrite get_sequence_enc; [|classes|assumption]. cbn [bind].
  rewrite parse_alg_enc by assumption. cbn [bind]. now rewrite get_bits_enc.
Qed.

Definition tlv_ext (x : ext_fields) : tlv :=
  tlv_sequence (enc_tlvs (tlv_oid (enc_oid (xf_oid x)) :: (if xf_critical x then [tlv_boolean true] else []) ++
                          [tlv_octetstring (xf_value x)])).
Lemma parse_ext_enc x : oid_valid (xf_oid x) -> small (enc_tlv (tlv_ext x)) -> parse_ext (tlv_ext x) = Some x.
Proof.
  intros Ho Hs. apply small_content in Hs. unfold tlv_ext in *. cbn [t_content tlv_sequence] in Hs.
  unfold parse_ext. rewrite get_sequence_enc; [|destruct (xf_critical x); classes|assumption]. cbn [bind].
  destruct x as [o [] v]; cbn [xf_critical xf_oid xf_value app] in *; rewrite get_oid_enc by assumption; reflexivity.
Qed.

Definition tlv_exts (l : list ext_fields) : tlv := Tlv 2 true 3 (enc_tlv (tlv_sequence (enc_tlvs (map tlv_ext l)))).
Definition extsf_ok (l : list ext_fields) : Prop := Forall (fun x => oid_valid (xf_oid x)) l.
Lemma parse_exts_enc l : l <> [] -> extsf_ok l -> small (enc_tlv (tlv_exts l)) -> parse_exts (tlv_exts l) = Some l.
Proof.
  intros Hn Ho Hs. apply small_content in Hs. unfold tlv_exts in *. cbn [t_content] in Hs.
  unfold parse_exts. rewrite get_explicit_enc; [|reflexivity|assumption]. cbn [bind].
  apply small_content in Hs. cbn [t_content tlv_sequence] in Hs.
  rewrite get_sequence_enc; [|apply Forall_map_class; intro; reflexivity|assumption]. cbn [bind].
  destruct (map tlv_ext l) as [|t ts] eqn:E; [destruct l; [easy|discriminate]|]. rewrite <- E in *.
  eapply map_opt_enc; [exact Ho|]. intros x Hx Hv. apply parse_ext_enc; [assumption|].
  eapply small_in; [|exact Hs]. now apply in_map.
Qed.

Definition exts_tlvs (l : list ext_fields) : list tlv := match l with [] => [] | _ => [tlv_exts l] end.
Definition tlv_tbs (t : tbs_fields) : tlv :=
  tlv_sequence (enc_tlvs
    ([Tlv 2 true 0 (enc_tlv (tlv_integer (enc_int (tf_version t - 1)))); tlv_integer (enc_int (tf_serial t));
      tlv_alg (tf_sig_alg t); tlv_name (tf_issuer t); tlv_validity (tf_not_before t) (tf_not_after t);
      tlv_name (tf_subject t); tlv_spki (tf_key_alg t) (tf_key t)] ++ exts_tlvs (tf_exts t))).
Definition tbsf_ok (t : tbs_fields) : Prop :=
  algf_ok (tf_sig_alg t) /\ namef_ok (tf_issuer t) /\ namef_ok (tf_subject t) /\ algf_ok (tf_key_alg t) /\ extsf_ok (tf_exts t).

Lemma parse_tbs_enc t : tbsf_ok t -> small (enc_tlv (tlv_tbs t)) -> parse_tbs (tlv_tbs t) = Some t.
Proof.
  intros (H1 & H2 & H3 & H4 & H5) Hs. apply small_content in Hs. unfold tlv_tbs in *. cbn [t_content tlv_sequence] in Hs.
  unfold parse_tbs. rewrite get_sequence_enc; [|destruct (tf_exts t); classes|assumption]. cbn [bind app].
  cbn [app] in Hs. do 7 (let H := fresh "S" in apply small_cons in Hs as [H Hs]).
  apply small_content in S. cbn [t_content] in S.
  rewrite get_explicit_enc; [|reflexivity|assumption]. cbn [bind].
  rewrite !get_int_enc. cbn [bind].
  rewrite parse_alg_enc by assumption. cbn [bind].
  rewrite parse_name_enc by assumption. cbn [bind].
  rewrite parse_validity_enc by assumption. cbn [bind].
  rewrite parse_name_enc by assumption. cbn [bind].
  rewrite parse_spki_enc by assumption. cbn [bind].
  replace (tf_version t - 1 + 1)%Z with (tf_version t) by lia.
  destruct (tf_exts t) as [|x l] eqn:E; cbn [exts_tlvs] in *.
  - cbn [bind]. rewrite <- E. now destruct t.
  - rewrite parse_exts_enc; [|discriminate|assumption|apply small_cons in Hs as [Hs _]; exact Hs]. cbn [bind]. rewrite <- E. now destruct t.
Qed.

Definition tlv_cert (c : cert_fields) : tlv :=
  tlv_sequence (enc_tlvs [tlv_tbs (cf_tbs c); tlv_alg (cf_sig_alg c); tlv_bitstring (enc_bits (cf_signature c))]).
Definition certf_ok (c : cert_fields) : Prop := tbsf_ok (cf_tbs c) /\ algf_ok (cf_sig_alg c).
Lemma parse_cert_enc c : certf_ok c -> small (enc_tlv (tlv_cert c)) -> parse_cert (tlv_cert c) = Some c.
Proof.
  intros [H1 H2] Hs. apply small_content in Hs. unfold tlv_cert in *. cbn [t_content tlv_sequence] in Hs.
  unfold parse_cert. rewrite get_sequence_enc; [|classes|assumption]. cbn [bind].
  apply small_cons in Hs as [Hs1 Hs]. apply small_cons in Hs as [Hs2 Hs].
  rewrite parse_tbs_enc by assumption. cbn [bind].
  rewrite parse_alg_enc by assumption. cbn [bind]. rewrite get_bits_enc. now destruct c.
Qed.

Lemma read_tbs_enc t : tbsf_ok t -> small (enc_tlv (tlv_tbs t)) -> read_tbs (enc_tlv (tlv_tbs t)) = Some t.
Proof. intros. unfold read_tbs. rewrite read_one_enc; [|reflexivity|assumption]. now apply parse_tbs_enc. Qed.
Lemma read_cert_enc c : certf_ok c -> small (enc_tlv (tlv_cert c)) -> read_cert (enc_tlv (tlv_cert c)) = Some c.
Proof. intros. unfold read_cert. rewrite read_one_enc; [|reflexivity|assumption]. now apply parse_cert_enc. Qed.
Lemma read_name_enc n : namef_ok n -> small (enc_tlv (tlv_name n)) -> read_name (enc_tlv (tlv_name n)) = Some n.
Proof. intros. unfold read_name. rewrite read_one_enc; [|reflexivity|assumption]. now apply parse_name_enc. Qed.

(** The signed part of a certificate is the encoding of its first element. *)
Lemma cert_signed_part_enc t ts : class_ok t -> small (enc_tlv (tlv_sequence (enc_tlvs (t :: ts)))) ->
  cert_signed_part (enc_tlv (tlv_sequence (enc_tlvs (t :: ts)))) = Some (enc_tlv t).
Proof.
  intros Ht Hs. unfold cert_signed_part.
  pose proof (read_one_enc _ (eq_refl : class_ok (tlv_sequence (enc_tlvs (t :: ts)))) Hs) as HR. unfold read_one in HR.
  destruct (read_tlv _) as [[u [|]]|]; try discriminate. injection HR as ->.
  unfold tlv_sequence at 1. rewrite expect_ok. cbn [bind].
  apply small_content in Hs. cbn [t_content tlv_sequence] in Hs. apply small_cons in Hs as [Hs _].
  unfold enc_tlvs. cbn [map concat]. rewrite read_enc_tlv by (split; [exact Ht|now apply small_content]). cbn [bind].
  rewrite len_app. replace (len (enc_tlv t) + len (concat (map enc_tlv ts)) - len (concat (map enc_tlv ts)))
    with (len (enc_tlv t)) by lia. now rewrite takeN_app_len.
Qed.

(** ** Hexadecimal text *)
Lemma hex_digit_inj a b : a < 16 -> b < 16 -> hex_digit a = hex_digit b -> a = b.
Proof.
  intros Ha Hb HE. unfold hex_digit in HE. apply (f_equal b2n) in HE. rewrite !b2n_n2b in HE.
  destruct (N.ltb_spec a 10), (N.ltb_spec b 10); rewrite !N.mod_small in HE by lia; lia.
Qed.
Lemma hex_lower_inj a : forall b, hex_lower a = hex_lower b -> a = b.
Proof.
  induction a as [|x a IH]; intros [|y b] HE; try discriminate; [reflexivity|].
  cbn [hex_lower flat_map app] in HE. injection HE as H1 H2 HE. pose proof (b2n_lt x). pose proof (b2n_lt y).
  apply hex_digit_inj in H1; [|apply N.div_lt_upper_bound; lia|apply N.div_lt_upper_bound; lia].
  apply hex_digit_inj in H2; [|apply N.mod_lt; lia|apply N.mod_lt; lia].
  f_equal; [|now apply IH]. apply b2n_inj. rewrite (N.div_mod (b2n x) 16), (N.div_mod (b2n y) 16) by lia. congruence.
Qed.

(** ** Extension contents *)
Definition tlv_basic_constraints (ca : bool) (path : option Z) : tlv :=
  tlv_sequence (enc_tlvs
    (if ca then tlv_boolean true :: match path with Some z => [tlv_integer (enc_int z)] | None => [] end else [])).
Lemma read_basic_constraints_enc ca path : (ca = false -> path = None) ->
  small (enc_tlv (tlv_basic_constraints ca path)) ->
  read_basic_constraints (enc_tlv (tlv_basic_constraints ca path)) = Some (ca, path).
Proof.
  intros Hp Hs. unfold read_basic_constraints. rewrite read_one_enc; [|reflexivity|assumption]. cbn [bind].
  apply small_content in Hs. unfold tlv_basic_constraints in *. cbn [t_content tlv_sequence] in Hs.
  unfold parse_basic_constraints. rewrite get_sequence_enc; [|destruct ca, path; classes|assumption]. cbn [bind].
  destruct ca; [|now rewrite Hp].
  unfold tlv_boolean. rewrite expect_ok. cbn [bind]. change (read_bool [xff]) with (Some true). cbn [bind].
  destruct path; [now rewrite get_int_enc|reflexivity].
Qed.

(** Context-tagged fields: present or absent, in ascending order. *)
Definition fields (l : list (option tlv)) : list tlv := flat_map (fun o => match o with Some t => [t] | None => [] end) l.
Lemma fields_cons o l : fields (o :: l) = match o with Some t => [t] | None => [] end ++ fields l.
Proof. reflexivity. Qed.

Definition above (n : N) (t : tlv) : Prop := t_class t = 2 /\ n < t_tag t.
Lemma opt_field_some {A} n (f : tlv -> option A) t a r :
  t_class t = 2 -> t_tag t = n -> f t = Some a -> opt_field n f (t :: r) = Some (Some a, r).
Proof. intros Hc Hn Hf. unfold opt_field. now rewrite Hc, Hn, !N.eqb_refl, Hf. Qed.
Lemma opt_field_none {A} n (f : tlv -> option A) ts :
  Forall (above n) ts -> opt_field n f ts = Some (None, ts).
Proof.
  intro H. destruct ts as [|t r]; [reflexivity|]. inversion H as [|? ? [Hc Ht] _]; subst.
  unfold opt_field. rewrite Hc. destruct (N.eqb_spec (t_tag t) n); [lia|]. reflexivity.
Qed.

Definition explicit_tlv (n : N) (t : tlv) : tlv := Tlv 2 true n (enc_tlv t).
Definition open_dice_tlvs (o : open_dice_fields) : list (option tlv) :=
  let oct n := option_map (fun b => explicit_tlv n (tlv_octetstring b)) in
  [oct 0 (odf_code_hash o); oct 1 (odf_code_descriptor o); oct 2 (odf_configuration_hash o);
   oct 3 (odf_configuration_descriptor o); oct 4 (odf_authority_hash o); oct 5 (odf_authority_descriptor o);
   option_map (fun z => explicit_tlv 6 (tlv_integer (enc_int z))) (odf_mode o);
   option_map (fun b => explicit_tlv 7 (tlv_utf8string b)) (odf_profile_name o)].
Definition tlv_open_dice (o : open_dice_fields) : tlv := tlv_sequence (enc_tlvs (fields (open_dice_tlvs o))).

Lemma Forall_app_intro {A} (P : A -> Prop) a b : Forall P a -> Forall P b -> Forall P (a ++ b).
Proof. intros. now apply Forall_app. Qed.

Ltac aboves := repeat (apply Forall_app_intro; [match goal with |- Forall _ (match ?o with _ => _ end) =>
    destruct o; repeat constructor end|]); try constructor.

(** One step of an optional-field reader over [match o with Some .. | None .. end ++ rest]. *)
Lemma opt_field_step {A} n (f : tlv -> option A) (g : A -> tlv) o rest :
  (forall a, o = Some a -> t_class (g a) = 2 /\ t_tag (g a) = n /\ f (g a) = Some a) ->
  Forall (above n) rest ->
  opt_field n f (match option_map g o with Some t => [t] | None => [] end ++ rest) = Some (o, rest).
Proof.
  intros Hg Hr. destruct o as [a|]; cbn.
  - destruct (Hg a eq_refl) as (H1 & H2 & H3). now apply opt_field_some.
  - now apply opt_field_none.
Qed.

Lemma above_fields n l :
  Forall (fun o => match o with Some t => above n t | None => True end) l -> Forall (above n) (fields l).
Proof.
  induction 1 as [|o l Ho _ IH]; [constructor|]. rewrite fields_cons. apply Forall_app_intro; [|exact IH].
  destruct o; repeat constructor; apply Ho.
Qed.
Lemma above_option_map {A} n (g : A -> tlv) o : (forall a, above n (g a)) ->
  match option_map g o with Some t => above n t | None => True end.
Proof. destruct o; cbn; auto. Qed.

Lemma class_fields l : Forall (fun o => match o with Some t => class_ok t | None => True end) l -> Forall class_ok (fields l).
Proof.
  induction 1 as [|o l Ho _ IH]; [constructor|]. rewrite fields_cons. apply Forall_app_intro; [|exact IH].
  destruct o; repeat constructor; apply Ho.
Qed.
Lemma class_option_map {A} (g : A -> tlv) o : (forall a, class_ok (g a)) ->
  match option_map g o with Some t => class_ok t | None => True end.
Proof. destruct o; cbn; auto. Qed.

Lemma small_fields_cons o l : small (enc_tlvs (fields (o :: l))) ->
  (forall t, o = Some t -> small (enc_tlv t)) /\ small (enc_tlvs (fields l)).
Proof.
  rewrite fields_cons. intro H. apply small_tlvs_app in H as [H1 H2]. split; [|assumption].
  intros t ->. apply small_cons in H1 as [H1 _]. exact H1.
Qed.

Ltac above_tac := apply above_fields; repeat (constructor; [apply above_option_map; intro; split; [reflexivity|cbn; lia]|]);
                  try constructor.

Lemma read_open_dice_enc o : small (enc_tlv (tlv_open_dice o)) -> read_open_dice (enc_tlv (tlv_open_dice o)) = Some o.
Proof.
  intro Hs. unfold read_open_dice. rewrite read_one_enc; [|reflexivity|assumption]. cbn [bind].
  apply small_content in Hs. unfold tlv_open_dice in *. cbn [t_content tlv_sequence] in Hs.
  unfold parse_open_dice.
  rewrite get_sequence_enc;
    [|apply class_fields; repeat (constructor; [apply class_option_map; intro; reflexivity|]); constructor|assumption].
  cbn [bind]. unfold open_dice_tlvs in *. cbv zeta in *.
  do 8 (match goal with
        | |- bind (opt_field _ _ (fields (option_map ?g ?o :: ?l))) _ = _ =>
            rewrite (fields_cons (option_map g o) l);
            rewrite opt_field_step;
            [cbn [bind]; apply small_fields_cons in Hs as [_ Hs]
            |intros a Ea; split; [reflexivity|]; split; [reflexivity|];
             apply small_fields_cons in Hs as [Hs _]; rewrite Ea in Hs; specialize (Hs _ eq_refl);
             apply small_content in Hs; cbn [t_content explicit_tlv] in Hs; unfold explicit_tlv;
             rewrite get_explicit_enc; [reflexivity || apply get_int_enc|reflexivity|assumption]
            |above_tac]
        end).
  now destruct o.
Qed.

(** TCB info *)
Definition tlv_fwid (f : list N * list byte) : tlv :=
  tlv_sequence (enc_tlvs [tlv_oid (enc_oid (fst f)); tlv_octetstring (snd f)]).
Lemma parse_fwid_enc f : oid_valid (fst f) -> small (enc_tlv (tlv_fwid f)) -> parse_fwid (tlv_fwid f) = Some f.
Proof.
  intros Ho Hs. apply small_content in Hs. unfold tlv_fwid in *. cbn [t_content tlv_sequence] in Hs.
  unfold parse_fwid. rewrite get_sequence_enc; [|classes|assumption]. cbn [bind].
  rewrite get_oid_enc by assumption. destruct f. reflexivity.
Qed.

Definition tcb_tlvs (t : tcb_fields) : list (option tlv) :=
  let prim n (b : list byte) := Tlv 2 false n b in
  [option_map (prim 0) (tcf_vendor t); option_map (prim 1) (tcf_model t); option_map (prim 2) (tcf_version t);
   option_map (fun z => prim 3 (enc_int z)) (tcf_svn t); option_map (fun z => prim 4 (enc_int z)) (tcf_layer t);
   option_map (fun z => prim 5 (enc_int z)) (tcf_index t);
   option_map (fun l => Tlv 2 true 6 (enc_tlvs (map tlv_fwid l))) (tcf_fwids t);
   option_map (fun l => prim 7 (enc_bits l)) (tcf_flags t);
   option_map (prim 8) (tcf_vendor_info t); option_map (prim 9) (tcf_type t);
   option_map (fun l => prim 10 (enc_bits l)) (tcf_flags_mask t)].
Definition tlv_tcb (t : tcb_fields) : tlv := tlv_sequence (enc_tlvs (fields (tcb_tlvs t))).
Definition tcbf_ok (t : tcb_fields) : Prop :=
  match tcf_fwids t with Some l => Forall (fun f => oid_valid (fst f)) l | None => True end.

Ltac fwids_tac Ea Hs Hok :=
  apply small_fields_cons in Hs as [Hs _]; rewrite Ea in Hs; specialize (Hs _ eq_refl);
  apply small_content in Hs; cbn [t_content] in Hs;
  rewrite read_small_tlvs; [|apply Forall_map_class; intro; reflexivity|assumption]; cbn [bind];
  unfold tcbf_ok in Hok; rewrite Ea in Hok; eapply map_opt_enc; [exact Hok|];
  let x := fresh in let Hx := fresh in let Hv := fresh in
  intros x Hx Hv; apply parse_fwid_enc; [assumption|]; eapply small_in; [|exact Hs]; now apply in_map.

Lemma parse_tcb_enc t : tcbf_ok t -> small (enc_tlv (tlv_tcb t)) -> parse_tcb (tlv_tcb t) = Some t.
Proof.
  intros Hok Hs. apply small_content in Hs. unfold tlv_tcb in *. cbn [t_content tlv_sequence] in Hs.
  unfold parse_tcb.
  rewrite get_sequence_enc;
    [|apply class_fields; repeat (constructor; [apply class_option_map; intro; reflexivity|]); constructor|assumption].
  cbn [bind]. unfold tcb_tlvs in *. cbv zeta in *.
  do 11 (match goal with
        | |- bind (opt_field _ _ (fields (option_map ?g ?o :: ?l))) _ = _ =>
            rewrite (fields_cons (option_map g o) l);
            rewrite opt_field_step;
            [cbn [bind]; apply small_fields_cons in Hs as [_ Hs]
            |intros a Ea; split; [reflexivity|]; split; [reflexivity|]; rewrite ?expect_ok; cbn [bind];
             first [reflexivity | apply read_enc_int | apply read_enc_bits | fwids_tac Ea Hs Hok]
            |above_tac]
        end).
  now destruct t.
Qed.

Lemma read_tcb_enc t : tcbf_ok t -> small (enc_tlv (tlv_tcb t)) -> read_tcb (enc_tlv (tlv_tcb t)) = Some t.
Proof. intros. unfold read_tcb. rewrite read_one_enc; [|reflexivity|assumption]. now apply parse_tcb_enc. Qed.

Lemma read_multi_tcb_enc l : Forall tcbf_ok l -> small (enc_tlv (tlv_sequence (enc_tlvs (map tlv_tcb l)))) ->
  read_multi_tcb (enc_tlv (tlv_sequence (enc_tlvs (map tlv_tcb l)))) = Some l.
Proof.
  intros Hok Hs. unfold read_multi_tcb. rewrite read_one_enc; [|reflexivity|assumption]. cbn [bind].
  apply small_content in Hs. cbn [t_content tlv_sequence] in Hs.
  rewrite get_sequence_enc; [|apply Forall_map_class; intro; reflexivity|assumption]. cbn [bind].
  eapply map_opt_enc; [exact Hok|]. intros x Hx Hv. apply parse_tcb_enc; [assumption|].
  eapply small_in; [|exact Hs]. now apply in_map.
Qed.

Lemma read_octets_in_sequence_enc b : small (enc_tlv (tlv_sequence (enc_tlvs [tlv_octetstring b]))) ->
  read_octets_in_sequence (enc_tlv (tlv_sequence (enc_tlvs [tlv_octetstring b]))) = Some b.
Proof.
  intro Hs. unfold read_octets_in_sequence. rewrite read_one_enc; [|reflexivity|assumption]. cbn [bind].
  apply small_content in Hs. cbn [t_content tlv_sequence] in Hs.
  rewrite get_sequence_enc; [|classes|assumption]. reflexivity.
Qed.
