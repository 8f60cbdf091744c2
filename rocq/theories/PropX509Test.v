(** Property C64: a test of the X.509 writers passes exactly if the expected bytes are right, that is, if a strict DER reader finds in them what the test asks the
    library to write. [decides] is in SpecCoreTest.v; readers and denotations are in SpecX509.v. *)
From Coq Require Import List NArith ZArith Bool Lia Strings.Byte.
From Verif Require Import Base BaseFacts Stream SpecStream StreamProofs SpecDigits SpecDer DerFacts Asn1 SpecAsn1 Asn1Proofs Cbor Oid X509 X509Ext SpecX509 RendProofs X509Facts
  X509Proofs PropX509 PropX509Ext PropX509Cert.
From Verif Require Import CryptoTest CoreTest SpecCoreTest CoreTestProofs.
From Verif Require Import ConformX509.
From Verif Require Import X509Unique PropUnique.
From Verif Require Import X509Test.
Import ListNotations.
Open Scope N_scope.

Section WithEnv.
Context `{E : Env} `{K : Stack} `{X : Cxx}.

(** ** The shared bodies *)
Lemma writes_expecting_decides P i size f b expected : size < SZ -> renders P f b ->
  decides (writes_expecting i size f expected) (b = expected /\ len b <= size) P.
Proof.
  intros Hs [_ HR]. destruct (HR _ [] _ _ _ (array_ok i size Hs) (shows_init _ _ (array_ok i size Hs))) as (s & v & E1 & S1 & E2 & F).
  rewrite !app_nil_r in *. unfold writes_expecting. cbv zeta. rewrite E1, E2.
  pose proof S1 as (HC & HW & HB & _). rewrite HB, HC.
  destruct (N.ltb_spec size (len b)) as [Ho|Ho].
  { split; [|exact F]. cbn. split; [discriminate|]. lia. }
  rewrite N.mod_small by lia. rewrite (got_shows s (array i size) size b Hs (len_array _ _) S1 Ho). split; [|exact F].
  cbn [fst]. rewrite andb_true_iff, same_spec, N.eqb_eq. intuition congruence.
Qed.

Lemma writes_twice_decides P f b expected : renders P f b -> decides (writes_twice f expected) (b = expected /\ len b <= 2000) P.
Proof.
  intros [_ HR]. pose proof SZ_lo as HZ. assert (Hs : 2000 < SZ) by lia.
  assert (H0 : buffer_ok None 0) by (split; [lia|exact I]).
  set (zeros := repeat x00 2000). assert (HL : len zeros = 2000) by (unfold len, zeros; rewrite repeat_length; reflexivity).
  assert (H1 : buffer_ok (Some zeros) 2000) by (split; [exact Hs|rewrite HL; lia]).
  destruct (HR _ [] _ _ _ H0 (shows_init _ _ H0)) as (s & v & E1 & S1 & E2 & F).
  destruct (HR _ [] _ _ _ H1 (shows_init _ _ H1)) as (s' & v' & E1' & S1' & E2' & F').
  rewrite !app_nil_r in *. unfold writes_twice. fold zeros. cbv zeta. rewrite E1, E2, E1', E2'.
  pose proof S1 as (HC & HW & HB & _). pose proof S1' as (HC' & HW' & HB' & _). rewrite HC, HW, HB, HW', HB'. cbn [andb].
  unfold and_then. cbn [fst snd]. destruct (N.leb_spec SZ (len b)) as [Ho|Ho]; cbn [negb andb].
  { split; [|exact F]. cbn [fst]. split; [discriminate|lia]. }
  rewrite N.mod_small by lia. destruct (N.eqb_spec (len expected) (len b)) as [He|He].
  2: { split; [|exact F]. cbn [fst]. split; [discriminate|]. intros [-> _]. congruence. }
  destruct (N.ltb_spec 2000 (len b)) as [Hb|Hb].
  { split; [|cbn [snd]; now apply Forall_app]. cbn [fst]. split; [discriminate|lia]. }
  rewrite (got_shows s' zeros 2000 b Hs HL S1' Hb). cbn [fst snd]. split; [|now apply Forall_app]. cbn [fst]. rewrite same_spec. intuition congruence.
Qed.

(** From the bytes to what a reader finds in them. *)
Lemma reads_instead {A} P f (read : list byte -> option A) (enc : A -> list byte) v (t : verdict) expected size :
  size < SZ -> rend P f (enc v) -> (forall bs a, read bs = Some a -> bs = enc a) -> (len (enc v) < SZ -> read (enc v) = Some v) ->
  (forall b, renders P f b -> decides t (b = expected /\ len b <= size) P) -> decides t (read expected = Some v /\ len expected <= size) P.
Proof.
  intros Hs (b & HR & HE) HU HV HD. apply (decides_iff _ _ _ _ (HD b HR)). split.
  - intros [-> HL]. split; [|exact HL]. rewrite HE by (left; lia). apply HV. rewrite <- HE by (left; lia). lia.
  - intros [Hr HL]. apply HU in Hr. assert (b = expected); [|now subst b]. rewrite Hr. apply HE. right. rewrite <- Hr. lia.
Qed.
End WithEnv.

(** ** src/core/test/x509.cpp *)
Theorem C64_name : forall (E : Env) (K : Stack) n expected, name_ok n ->
  decides (NameEncoding (Some n) expected) (read_name expected = Some (name_of n) /\ len expected <= 133) clean.
Proof.
  intros E K n expected Hn. pose proof SZ_lo.
  apply (reads_instead clean (n20_x509_name (Some n)) read_name (fun a => enc_tlv (tlv_name a))); [lia|now apply rend_name|exact read_name_unique| |].
  - intros HL. apply read_name_enc; [now apply name_of_ok|now apply small_SZ].
  - intros b Hb. apply writes_expecting_decides; [lia|exact Hb].
Qed.
Print Assumptions C64_name.

(** A missing name, and one with more elements than the library takes, are expected as a sequence of a NULL. *)
Theorem C64_name_fallback : forall (E : Env) (K : Stack) n expected, match n with None => True | Some n => 8 < name_count n end ->
  decides (NameEncoding n expected) (decodes expected (Tlv 0 true 16 [x05; x00])) clean.
Proof.
  intros E K n expected Hn. pose proof SZ_lo. assert (Ht : tlv_ok (Tlv 0 true 16 [x05; x00])) by (split; reflexivity).
  destruct (C22_name_fallback E n Hn) as (b & HR & Hb). apply (decodes_iff _ _ Ht) in Hb.
  eapply decides_iff; [apply writes_expecting_decides; [|exact HR]; lia|]. rewrite (decodes_iff _ _ Ht), Hb. split; [now intros [-> _]|].
  intros ->. split; [reflexivity|]. vm_compute. discriminate.
Qed.
Print Assumptions C64_name_fallback.

Lemma read_exts_unique bs l : read_exts bs = Some l -> bs = enc_tlv (tlv_exts l).
Proof. unfold read_exts. intros H. binds H. apply parse_exts_unique in H as [_ ->]. uniques. reflexivity. Qed.
Lemma read_exts_enc l : l <> [] -> extsf_ok l -> small (enc_tlv (tlv_exts l)) -> read_exts (enc_tlv (tlv_exts l)) = Some l.
Proof. intros. unfold read_exts. rewrite read_one_enc; [|reflexivity|assumption]. now apply parse_exts_enc. Qed.
Lemma rend_some_exts `{Env} (P : ub -> Prop) x vs : exts_ok x -> callbacks P (used_exts x) vs -> used_exts x <> [] ->
  exts_of x vs <> [] /\ rend P (n20_x509_extension (Some x)) (enc_tlv (tlv_exts (exts_of x vs))).
Proof.
  intros Hx Hv Hn. assert (HN : exts_of x vs <> []).
  { unfold exts_of. apply Forall2_length in Hv. destruct (used_exts x), vs; try discriminate; congruence. }
  split; [exact HN|]. pose proof (rend_extension P x vs Hx Hv) as HR. destruct (exts_of x vs) as [|e l]; [congruence|].
  cbn [exts_tlvs] in HR. now rewrite enc_tlvs_one in HR.
Qed.

(** The parameter of the test as a list of extensions. *)
Definition given_extensions (p : option extensions + list extension) : list extension :=
  match p with inl None => [] | inl (Some x) => used_exts x | inr v => v end.
Definition extension_parameter_ok (p : option extensions + list extension) : Prop :=
  match p with inl None => True | inl (Some x) => exts_ok x | inr v => Forall (fun e => oid_given (ext_oid e)) v end.
(** No extensions: no bytes. Otherwise each in turn, with the content its callback writes ([values]). *)
Definition expects_extensions (expected : list byte) (l : list extension) (values : list (list byte)) : Prop :=
  match l with [] => expected = [] | _ => read_exts expected = Some (map (fun p => ext_of (fst p) (snd p)) (combine l values)) end.
Lemma used_vector `{Cxx} v : used_exts (extensions_of v) = v.
Proof.
  unfold used_exts, extensions_of. cbn [exts_list exts_count]. destruct v as [|e v]; [now destruct empty_data_null|]. apply takeN_all. lia.
Qed.
Theorem C64_extensions : forall (E : Env) (K : Stack) (X : Cxx) allowed p values expected, extension_parameter_ok p -> callbacks allowed (given_extensions p) values ->
  decides (ExtensionEncoding p expected) (expects_extensions expected (given_extensions p) values /\ len expected <= 128) allowed.
Proof.
  intros E K X allowed p vs expected Hp Hv. pose proof SZ_lo.
  assert (HG : forall x, exts_ok x -> callbacks allowed (used_exts x) vs ->
    decides (writes 0 128 (n20_x509_extension (Some x)) expected) (expects_extensions expected (used_exts x) vs /\ len expected <= 128) allowed).
  { intros x Hx Hc. destruct (used_exts x) as [|e l] eqn:EU.
    - assert (HR : renders clean (n20_x509_extension (Some x)) []).
      { apply C23_no_extensions. unfold used_exts in EU. destruct (exts_list x) as [l|] eqn:EL; [right|now left].
        destruct Hx as [Hx _]. rewrite EL in Hx. apply (f_equal len) in EU. rewrite len_takeN, len_nil in EU. lia. }
      destruct (writes_decides clean 0 128 _ [] expected ltac:(lia) HR) as [HD HF]. split; [|revert HF; apply Forall_impl; intros ? []].
      rewrite HD. cbn [expects_extensions]. split; [intros [<- _]|intros [-> _]]; (split; [reflexivity|]); rewrite len_nil; lia.
    - rewrite <- EU in Hc. destruct (rend_some_exts allowed x vs Hx Hc ltac:(congruence)) as [HN HR].
      cbn [expects_extensions]. rewrite <- EU. fold (exts_of x vs).
      apply (reads_instead allowed (n20_x509_extension (Some x)) read_exts (fun a => enc_tlv (tlv_exts a))); [lia|exact HR|exact read_exts_unique| |].
      + intros HL. apply read_exts_enc; [exact HN|now apply exts_of_ok|now apply small_SZ].
      + intros b Hb. apply writes_decides; [lia|exact Hb]. }
  unfold ExtensionEncoding. destruct p as [[x|]|v]; cbn [given_extensions extension_parameter_ok] in *.
  - now apply HG.
  - destruct (writes_decides clean 0 128 _ [] expected ltac:(lia) (C23_no_extensions E None I)) as [HD HF]. split; [|revert HF; apply Forall_impl; intros ? []].
    rewrite HD. cbn [expects_extensions]. split; [intros [<- _]|intros [-> _]]; (split; [reflexivity|]); rewrite len_nil; lia.
  - pose proof (HG (extensions_of v)) as HV. rewrite used_vector in HV. apply HV; [|exact Hv]. split; [|now rewrite used_vector].
    unfold extensions_of. cbn [exts_list exts_count]. destruct v; [destruct empty_data_null; [exact I|lia]|lia].
Qed.
Print Assumptions C64_extensions.

Theorem C64_basic_constraints : forall (E : Env) (K : Stack) is_ca has_path_length path_length expected, path_length < 2 ^ 32 ->
  decides (BasicConstraintsEncoding is_ca has_path_length path_length expected)
    (read_basic_constraints expected = Some (is_ca, if is_ca && has_path_length then Some (Z.of_N path_length) else None)) stray_reads.
Proof.
  intros E K ca has n expected Hn. pose proof SZ_lo. destruct (C63_basic_constraints E (mkBasicConstraints ca has n) Hn) as (b & HR & _ & HU).
  cbn [bc_is_ca bc_has_path_length bc_path_length] in HU.
  eapply decides_iff; [apply writes_decides; [|exact HR]; lia|]. rewrite (HU expected). split; [now intros [-> _]|]. intros ->. split; [reflexivity|].
  pose proof (proj2 (HU b) eq_refl) as Hb. apply read_basic_constraints_unique in Hb. subst b.
  assert (HI : len (enc_int (Z.of_N n)) <= N.of_nat 5) by (apply enc_int_len_le; [lia|]; unfold fits; cbn; lia).
  unfold tlv_basic_constraints. destruct ca, has; cbn [andb]; [|vm_compute; discriminate..].
  clear HR HU. generalize dependent (enc_int (Z.of_N n)). intros l HI. unfold len in HI. do 6 (destruct l as [|? l]; [vm_compute; discriminate|]). cbn [length] in HI. lia.
Qed.
Print Assumptions C64_basic_constraints.

(** For any way to set flags; a set of flags has one encoding. *)
Theorem C64_key_usage : forall (E : Env) (K : Stack) flags expected,
  decides (key_usage_encoding (key_usage_with flags) expected) (exists bits, read_key_usage expected = Some bits /\ names_exactly bits flags) clean.
Proof.
  intros E K flags expected. pose proof SZ_lo. destruct (C63_key_usage E flags) as (b & HR & HU).
  eapply decides_iff; [apply writes_decides; [|exact HR]; lia|]. rewrite (HU expected). split; [now intros [-> _]|]. intros ->. split; [reflexivity|].
  destruct (proj2 (HU b) eq_refl) as (bits & Hb & H9 & _). apply read_key_usage_unique in Hb. subst b. clear HU HR. unfold len in H9.
  do 10 (destruct bits as [|? bits]; [vm_compute; discriminate|]). cbn [length] in H9. lia.
Qed.
Print Assumptions C64_key_usage.
