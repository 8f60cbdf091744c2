(** Property C65: chains of certificates made with the library, seen by a relying party. *)
From Coq Require Import List NArith ZArith Bool Strings.Byte Lia.
From Coq Require Import ZifyBool ZifyNat ZifyN.
From Verif Require Import Base BaseFacts Stream SpecStream StreamProofs SpecDigits DigitsFacts SpecDer DerFacts Asn1 SpecAsn1 Asn1Proofs
  Oid X509 X509Ext SpecX509 RendProofs X509Facts X509Proofs PropX509 PropX509Cert PropX509Ext.
From Verif Require Import Res SpecSha2 Crypto SpecMac SpecCrypto PropCrypto Bssl BsslKeys SpecBssl BsslProofs Rfc6979Proofs KeyProofs PropBssl PropKeys Issue PropIssue.
From Verif Require Import SpecDice PropDice SpecProfile.
From Verif Require Import SpecPath.
Import ListNotations.
Open Scope N_scope.

(** ** One certificate *)

(** Each extension read is the input at its place. *)
Definition matches (x : bool * ext_input) (e : ext_fields) : Prop :=
  xf_oid e = id_of (snd x) /\ xf_critical e = fst x /\ read_claim e = Some (claim_of (snd x)).

Lemma ext_id (E : Env) c x v : xf_oid (ext_of (extension_for c x) v) = id_of x.
Proof. now destruct x. Qed.
Lemma ext_critical_of (E : Env) c x v : xf_critical (ext_of (extension_for c x) v) = c.
Proof. now destruct x. Qed.

Lemma matches_all (E : Env) xs : forall vs, length (map (fun x => extension_for (fst x) (snd x)) xs) = length vs ->
  map_opt (fun x => let? a := read_claim x in Some (xf_critical x, a))
       (map (fun p => ext_of (fst p) (snd p)) (combine (map (fun x => extension_for (fst x) (snd x)) xs) vs)) = Some (map (fun x => (fst x, claim_of (snd x))) xs) ->
  Forall2 matches xs (map (fun p => ext_of (fst p) (snd p)) (combine (map (fun x => extension_for (fst x) (snd x)) xs) vs)).
Proof.
  induction xs as [|[c x] xs IH]; intros [|v vs] HL H; try discriminate; [constructor|].
  cbn [map combine fst snd map_opt] in *.
  destruct (read_claim (ext_of (extension_for c x) v)) as [cl|] eqn:Er; cbn [SpecX509.bind] in H; [|discriminate].
  destruct (map_opt _ _) as [m|] eqn:Em in H; cbn [SpecX509.bind] in H; [|discriminate]. injection H as Hc Hcl Hm.
  constructor.
  - split; [apply ext_id|]. split; [apply ext_critical_of|]. cbn [snd]. now rewrite Er, Hcl.
  - apply IH; [injection HL; auto|]. now rewrite Em, Hm.
Qed.

Lemma with_fails_signs f B : signs B -> signs (with_fails f B).
Proof. exact (fun H => H). Qed.
Lemma with_fails_publishes f B : publishes B -> publishes (with_fails f B).
Proof. exact (fun H => H). Qed.

(** What is in a certificate of the chain. *)
Lemma certified_reads (E : Env) (B : Bssl) (allowed : ub -> Prop) l : (forall u, stray_reads u -> allowed u) -> signs B -> publishes B -> certified B allowed l ->
  exists exts signed, Forall2 matches (lk_inputs l) exts /\ cert_signed_part (lk_cert l) = Some signed /\
    let t := lk_template l in
    read_cert (lk_cert l) =
      Some (CertFields (TbsFields 3 (Z.of_N (be_val (slice_bytes (tbs_serial t)))) (alg_of (tbs_sig_alg t)) (name_of (tbs_issuer t))
              (time_or (v_not_before (tbs_validity t)) text_epoch) (time_or (v_not_after (tbs_validity t)) text_no_expiration)
              (name_of (tbs_subject t)) (alg_of (spki_alg (tbs_spki t))) (bits_of_bytes (public_bytes B (lk_subject l))) exts)
            (alg_of (tbs_sig_alg t)) (bits_of_bytes (signature_bytes B (lk_signer l) signed))).
Proof.
  intros HA Hs Hp (Ht & Hx & HF & f & table & signer & subject & pkb & sg & buf & u & h & H1 & H2 & H0 & Hk & Hg & Hb & Hi).
  set (t := lk_template l) in *.
  destruct (claims_rendered E allowed (lk_inputs l) HA HF) as (vs & HV & HC). rewrite <- Hx in HV.
  destruct (@template_for_ok E (with_fails f B) table subject (lk_subject l) allowed t vs (with_fails_publishes f B Hp) H2 H0 Ht HV (or_introl HA) pkb Hk)
    as (t1 & R1 & Ht1 & Hf & HV1 & Hu1).
  unfold issue_for in Hi. rewrite R1 in Hi. clear R1.
  destruct (@fails (with_fails f B) (public_call (lk_subject l))); cbn [Res.bind] in Hi; [discriminate|].
  destruct (@issue_tbs_ok E (with_fails f B) table signer (lk_signer l) allowed t1 vs (with_fails_signs f B Hs) H1 H0 Ht1 HV1 Hu1 sg buf Hg Hb) as (u' & _ & R2).
  rewrite R2 in Hi. clear R2. injection Hi as _ _ Hc.
  destruct (N.ltb_spec (len buf) (len (@cert_under (with_fails f B) (lk_signer l) (tbs_of t1 vs)))) as [|Hl]; [rewrite orb_true_r in Hc; discriminate|].
  destruct (existsb _ _) in Hc; [discriminate|]. cbn [orb] in Hc. injection Hc as Hc.
  rewrite Hf in Hc, Hl. change (@cert_under (with_fails f B)) with (@cert_under B) in *. change (@public_bytes (with_fails f B)) with (@public_bytes B) in *.
  set (fs := with_public (tbs_of t vs) (public_bytes B (lk_subject l))) in *.
  assert (Hsz : len (cert_under B (lk_signer l) fs) < SZ) by lia.
  destruct (cert_under_reads E B (lk_signer l) t vs (public_bytes B (lk_subject l)) Ht Hsz) as [P1 P2]. fold fs in P1, P2. rewrite Hc in P1, P2.
  exists (exts_of (tbs_exts t) vs), (enc_tlv (tlv_tbs fs)). split; [|split; [exact P1|exact P2]].
  pose proof (read_claims_cert E allowed t (lk_inputs l) vs (lk_cert l) _ HV Hx HC P2 eq_refl ltac:(rewrite <- Hc; exact Hsz)) as HR.
  unfold read_claims in HR. rewrite P2 in HR. cbn [SpecX509.bind cf_tbs fs with_public tf_exts tbs_of] in HR.
  unfold exts_of in *. rewrite Hx in *. apply matches_all; [|exact HR]. now apply Forall2_length in HV.
Qed.

(** ** The comparisons *)
Lemma same_alg_iff a b : same_alg a b = true <-> a = b.
Proof. unfold same_alg. destruct (alg_eq_dec a b); split; auto; discriminate. Qed.
Lemma same_name_iff a b : same_name a b = true <-> a = b.
Proof. unfold same_name. destruct (list_eq_dec attribute_eq_dec a b); split; auto; discriminate. Qed.
Lemma same_iff a b : same a b = true <-> a = b.
Proof. unfold same. destruct (list_eq_dec N.eq_dec a b); split; auto; discriminate. Qed.
Lemma distinct_iff l : distinct l = true <-> NoDup l.
Proof.
  induction l as [|a l IH]; cbn [distinct]; [split; [constructor|reflexivity]|].
  rewrite andb_true_iff, negb_true_iff, IH, NoDup_cons_iff. split; intros [H1 H2]; split; auto.
  - intro H. rewrite <- not_true_iff_false in H1. apply H1. apply existsb_exists. exists a. split; [assumption|apply same_refl].
  - apply not_true_iff_false. intro H. apply existsb_exists in H as (b & Hb & He). apply same_iff in He. now subst.
Qed.
Lemma matches_ids xs es : Forall2 matches xs es -> map xf_oid es = map (fun x => id_of (snd x)) xs.
Proof. induction 1 as [|x e xs es [H1 _] _ IH]; [reflexivity|]. cbn [map]. now rewrite H1, IH. Qed.

Lemma extensions_accepted_iff recognised xs es : Forall2 matches xs es ->
  extensions_accepted recognised es = true <->
  NoDup (map (fun x => id_of (snd x)) xs) /\
  (forall x, In (true, x) xs -> id_of x = id_ce_basicConstraints \/ id_of x = id_ce_keyUsage \/ recognised (id_of x) = true).
Proof.
  intro HM. unfold extensions_accepted. rewrite andb_true_iff, distinct_iff, (matches_ids _ _ HM).
  assert (HE : forallb (fun x => negb (xf_critical x) || same (xf_oid x) id_ce_basicConstraints || same (xf_oid x) id_ce_keyUsage || recognised (xf_oid x)) es = true <->
    (forall x, In (true, x) xs -> id_of x = id_ce_basicConstraints \/ id_of x = id_ce_keyUsage \/ recognised (id_of x) = true)).
  { induction HM as [|[c x] e xs es (H1 & H2 & _) _ IH]; [split; [intros _ x []|reflexivity]|]. cbn [forallb fst snd] in *.
    rewrite andb_true_iff, IH, !orb_true_iff, !same_iff, negb_true_iff, H1, H2. split.
    - intros [Ha Hb] y [Hy|Hy]; [injection Hy as -> ->; intuition discriminate|auto].
    - intro HH. split; [|intros y Hy; apply HH; now right]. destruct c; [|tauto]. specialize (HH x (or_introl eq_refl)). tauto. }
  now rewrite HE.
Qed.

Lemma find_input xs es id : Forall2 matches xs es -> NoDup (map (fun x => id_of (snd x)) xs) ->
  match find (fun x => same (xf_oid x) id) es with
  | Some e => exists c x, In (c, x) xs /\ id_of x = id /\ read_claim e = Some (claim_of x)
  | None => forall c x, In (c, x) xs -> id_of x <> id
  end.
Proof.
  intros HM _. induction HM as [|[c x] e xs es (H1 & H2 & H3) _ IH]; [intros c x []|]. cbn [find fst snd] in *.
  destruct (same (xf_oid e) id) eqn:Es.
  - apply same_iff in Es. exists c, x. split; [now left|]. split; [congruence|assumption].
  - destruct (find _ es) as [e'|].
    + destruct IH as (c' & x' & Hi & Hr). exists c', x'. split; [now right|assumption].
    + intros c' x' [Hx|Hx]; [injection Hx as <- <-|now apply (IH c')]. intro Hid. rewrite H1, Hid, same_refl in Es. discriminate.
Qed.
Lemma input_unique xs c x c' x' : NoDup (map (fun x : bool * ext_input => id_of (snd x)) xs) -> In (c, x) xs -> In (c', x') xs -> id_of x = id_of x' -> (c, x) = (c', x').
Proof.
  induction xs as [|y xs IH]; intros HN H1 H2 HI; [destruct H1|]. cbn [map] in HN. apply NoDup_cons_iff in HN as [Hn HN].
  assert (G : forall z, In z xs -> In (id_of (snd z)) (map (fun x => id_of (snd x)) xs)) by (intros z Hz; apply in_map_iff; eauto).
  destruct H1 as [->|H1], H2 as [H2|H2].
  - assumption.
  - elim Hn. cbn [snd]. rewrite HI. exact (G _ H2).
  - subst y. elim Hn. cbn [snd]. rewrite <- HI. exact (G _ H1).
  - now apply IH.
Qed.
(** Inputs with the identifiers of the two extensions are those extensions. *)
Lemma id_basic (E : Env) allowed x : input_ok allowed x -> id_of x = id_ce_basicConstraints -> exists b, x = In_basic_constraints b.
Proof. destruct x; cbn [id_of input_ok]; intros Hx Hi; try discriminate Hi; [eauto|]. elim (proj1 (proj2 Hx)). rewrite Hi. cbn. tauto. Qed.
Lemma id_usage (E : Env) allowed x : input_ok allowed x -> id_of x = id_ce_keyUsage -> exists b, x = In_key_usage b.
Proof. destruct x; cbn [id_of input_ok]; intros Hx Hi; try discriminate Hi; [eauto|]. elim (proj1 (proj2 Hx)). rewrite Hi. cbn. tauto. Qed.

Lemma cert_sign_flag flags :
  existsb (fun f => if flag_eq_dec f KU_key_cert_sign then true else false) (filter (fun f => if in_dec flag_eq_dec f flags then true else false) all_key_usages) = true <->
  In KU_key_cert_sign flags.
Proof.
  rewrite existsb_exists. split.
  - intros (f & Hf & He). destruct (flag_eq_dec f KU_key_cert_sign) as [->|]; [|discriminate]. apply filter_In in Hf as [_ Hf].
    destruct (in_dec flag_eq_dec KU_key_cert_sign flags); [assumption|discriminate].
  - intro H. exists KU_key_cert_sign. split; [|now destruct (flag_eq_dec KU_key_cert_sign KU_key_cert_sign)].
    apply filter_In. split; [apply in_all_key_usages|]. now destruct (in_dec flag_eq_dec KU_key_cert_sign flags).
Qed.

Lemma certifies_spec (E : Env) allowed l t : Forall (fun x => input_ok allowed (snd x)) (lk_inputs l) -> Forall2 matches (lk_inputs l) (tf_exts t) -> tf_version t = 3%Z ->
  NoDup (map (fun x => id_of (snd x)) (lk_inputs l)) ->
  match certifies t with
  | Some path => may_certify l /\ match path with Some k => exists n, k = Z.of_N n /\ (forall m, limit l m <-> m = n) | None => forall m, ~ limit l m end
  | None => ~ may_certify l
  end.
Proof.
  intros HF HM Hv HN. rewrite Forall_forall in HF.
  pose proof (find_input _ _ id_ce_basicConstraints HM HN) as F1. pose proof (find_input _ _ id_ce_keyUsage HM HN) as F2.
  unfold certifies, claim_under.
  destruct (find (fun x => same (xf_oid x) id_ce_basicConstraints) (tf_exts t)) as [e1|].
  2:{ destruct (find (fun x => same (xf_oid x) id_ce_keyUsage) (tf_exts t)) as [e2|].
      - destruct F2 as (c2 & x2 & _ & _ & ->). cbn [SpecX509.bind]. intros ((c & b & Hi & _) & _). now elim (F1 _ _ Hi).
      - cbn [SpecX509.bind]. intros ((c & b & Hi & _) & _). now elim (F1 _ _ Hi). }
  destruct F1 as (c1 & x1 & I1 & D1 & ->). cbn [SpecX509.bind]. destruct (id_basic E allowed x1 (HF _ I1) D1) as [b ->].
  assert (U1 : forall c b', In (c, In_basic_constraints b') (lk_inputs l) -> b' = b).
  { intros c b' Hi. pose proof (input_unique _ _ _ _ _ HN Hi I1 eq_refl) as HU. congruence. }
  assert (HU2 : match (match find (fun x => same (xf_oid x) id_ce_keyUsage) (tf_exts t) with Some x => let? c := read_claim x in Some (Some c) | None => Some None end) with
    | Some None => forall c flags, ~ In (c, In_key_usage flags) (lk_inputs l)
    | Some (Some u) => exists flags, u = claim_of (In_key_usage flags) /\ forall c flags', In (c, In_key_usage flags') (lk_inputs l) -> flags' = flags
    | None => False
    end /\ exists r, (match find (fun x => same (xf_oid x) id_ce_keyUsage) (tf_exts t) with Some x => let? c := read_claim x in Some (Some c) | None => Some None end) = Some r /\
      (r <> None -> exists c flags, r = Some (claim_of (In_key_usage flags)) /\ In (c, In_key_usage flags) (lk_inputs l))).
  { destruct (find (fun x => same (xf_oid x) id_ce_keyUsage) (tf_exts t)) as [e2|].
    - destruct F2 as (c2 & x2 & I2 & D2 & ->). cbn [SpecX509.bind]. destruct (id_usage E allowed x2 (HF _ I2) D2) as [flags ->]. split.
      + exists flags. split; [reflexivity|]. intros c flags' Hi. pose proof (input_unique _ _ _ _ _ HN Hi I2 eq_refl) as HU. congruence.
      + eexists. split; [reflexivity|]. intros _. exists c2, flags. split; [reflexivity|assumption].
    - split; [intros c flags Hi; now elim (F2 _ _ Hi)|]. eexists. split; [reflexivity|]. congruence. }
  destruct HU2 as [HU2 (r & Er & Hr)]. rewrite Er in *. clear F2 Er. cbn [SpecX509.bind claim_of].
  assert (HL : forall m, limit l m <-> bc_is_ca b = true /\ bc_has_path_length b = true /\ bc_path_length b = m).
  { intro m. split; [intros (c & b' & Hi & H); rewrite (U1 _ _ Hi) in H; exact H|]. intro H. exists c1, b. now split. }
  assert (HMC : may_certify l <-> bc_is_ca b = true /\ forall c flags, In (c, In_key_usage flags) (lk_inputs l) -> In KU_key_cert_sign flags).
  { unfold may_certify. split; intros [H1 H2]; (split; [|exact H2]).
    - destruct H1 as (c & b' & Hi & H). now rewrite (U1 _ _ Hi) in H.
    - exists c1, b. now split. }
  rewrite Hv. cbn [Z.eqb Pos.eqb andb].
  destruct (bc_is_ca b) eqn:Eca; cbn [andb].
  2:{ assert (~ may_certify l) by (rewrite HMC; intros [? _]; discriminate). destruct r as [u|]; [|assumption]. now destruct u. }
  assert (HP : match (if bc_has_path_length b then Some (Z.of_N (bc_path_length b)) else None) with
    | Some k => exists n, k = Z.of_N n /\ (forall m, limit l m <-> m = n) | None => forall m, ~ limit l m end).
  { destruct (bc_has_path_length b) eqn:Eh.
    - exists (bc_path_length b). split; [reflexivity|]. intro m. rewrite HL. intuition congruence.
    - intros m. rewrite HL. intuition congruence. }
  destruct r as [u|].
  - destruct HU2 as (flags & -> & Huniq). destruct (Hr ltac:(discriminate)) as (c2 & flags2 & Hf & Hi). rewrite (Huniq _ _ Hi) in Hi.
    cbn [claim_of]. destruct (existsb _ _) eqn:Ee.
    + apply cert_sign_flag in Ee. split; [|exact HP]. apply HMC. split; [reflexivity|]. intros c fl Hin. now rewrite (Huniq _ _ Hin).
    + intro HC. apply HMC in HC as [_ HC]. apply not_true_iff_false in Ee. apply Ee, cert_sign_flag. now apply (HC c2).
  - split; [|exact HP]. apply HMC. split; [reflexivity|]. intros c fl Hin. now elim (HU2 c fl).
Qed.

(** ** Paths *)
Section Paths.
Context (E : Env) (B : Bssl) (allowed : ub -> Prop) (HA : forall u, stray_reads u -> allowed u) (Hs : signs B) (Hp : publishes B).
Context (verify : alg_fields -> alg_fields -> list bool -> list byte -> list bool -> bool) (recognised : list N -> bool) (now : N).

Definition subject_of (l : link) : authority :=
  mkAuthority (name_of (tbs_subject (lk_template l))) (alg_of (spki_alg (tbs_spki (lk_template l)))) (bits_of_bytes (public_bytes B (lk_subject l))).
Definition accepted (a : authority) (l : link) : Prop :=
  signature_accepted B verify a l /\ name_of (tbs_issuer (lk_template l)) = au_name a /\ usable recognised now l.

Lemma process_spec a l : certified B allowed l ->
  match process verify recognised now a (lk_cert l) with
  | Some t => accepted a l /\ Forall2 matches (lk_inputs l) (tf_exts t) /\ tf_version t = 3%Z /\ tf_issuer t = name_of (tbs_issuer (lk_template l)) /\
      mkAuthority (tf_subject t) (tf_key_alg t) (tf_key t) = subject_of l
  | None => ~ accepted a l
  end.
Proof.
  intro HC. destruct (certified_reads E B allowed l HA Hs Hp HC) as (exts & signed & HM & Hsp & HR). cbv zeta in HR.
  unfold process. rewrite HR, Hsp. cbn [SpecX509.bind cf_tbs cf_sig_alg cf_signature tf_sig_alg tf_issuer tf_exts].
  assert (HI : (same_alg (alg_of (tbs_sig_alg (lk_template l))) (alg_of (tbs_sig_alg (lk_template l))) &&
     verify (alg_of (tbs_sig_alg (lk_template l))) (au_alg a) (au_key a) signed (bits_of_bytes (signature_bytes B (lk_signer l) signed)) &&
     in_period now (cf_tbs (CertFields (TbsFields 3 (Z.of_N (be_val (slice_bytes (tbs_serial (lk_template l))))) (alg_of (tbs_sig_alg (lk_template l)))
       (name_of (tbs_issuer (lk_template l))) (time_or (v_not_before (tbs_validity (lk_template l))) text_epoch)
       (time_or (v_not_after (tbs_validity (lk_template l))) text_no_expiration) (name_of (tbs_subject (lk_template l))) (alg_of (spki_alg (tbs_spki (lk_template l))))
       (bits_of_bytes (public_bytes B (lk_subject l))) exts) (alg_of (tbs_sig_alg (lk_template l))) (bits_of_bytes (signature_bytes B (lk_signer l) signed)))) &&
     same_name (name_of (tbs_issuer (lk_template l))) (au_name a) && extensions_accepted recognised exts = true) <-> accepted a l).
  { rewrite !andb_true_iff, same_alg_iff, same_name_iff, (extensions_accepted_iff recognised _ _ HM).
    unfold accepted, usable, signature_accepted, in_period. cbn [cf_tbs tf_not_before tf_not_after]. rewrite Hsp.
    destruct (instant (time_or (v_not_before (tbs_validity (lk_template l))) text_epoch)) as [nb|];
      [destruct (instant (time_or (v_not_after (tbs_validity (lk_template l))) text_no_expiration)) as [na|]|].
    - rewrite andb_true_iff, !N.leb_le. split.
      + intros ((((_ & H2) & H3) & H4) & H5). splits; try assumption; [exists signed; now split|exists nb, na; now splits|apply H5|apply H5].
      + intros ((s & Hsg & H2) & H4 & (nb' & na' & E1 & E2 & H3) & H5 & H6). injection Hsg as <-. injection E1 as <-. injection E2 as <-. now splits.
    - split; [intros ((((_ & _) & H3) & _) & _); discriminate|]. intros (_ & _ & (nb' & na' & E1 & E2 & H3) & _). discriminate.
    - split; [intros ((((_ & _) & H3) & _) & _); discriminate|]. intros (_ & _ & (nb' & na' & E1 & E2 & H3) & _). discriminate. }
  cbn [cf_tbs] in HI. destruct (_ && extensions_accepted recognised exts) eqn:Eb.
  - splits; try reflexivity; [now apply HI|exact HM].
  - intro HH. apply HI in HH. discriminate.
Qed.

Definition issues (l : link) (n : N) : Prop := may_certify l /\ forall k, limit l k -> n <= k.
Fixpoint good_path (a : authority) (ls : list link) : Prop :=
  match ls with
  | [] => False
  | [l] => accepted a l
  | l :: rest => accepted a l /\ issues l (intermediates rest) /\ good_path (subject_of l) rest
  end.

Lemma intermediates_cons l m rest : intermediates (l :: m :: rest) = (if self_issued l then 0 else 1) + intermediates (m :: rest).
Proof.
  unfold intermediates. change (removelast (l :: m :: rest)) with (l :: removelast (m :: rest)). cbn [filter].
  destruct (self_issued l); cbn [negb]; [reflexivity|]. now rewrite len_cons.
Qed.

Lemma validate_from_spec ls : Forall (certified B allowed) ls -> forall a max, (0 <= max)%Z ->
  validate_from verify recognised now a max (map lk_cert ls) = true <-> good_path a ls /\ (Z.of_N (intermediates ls) <= max)%Z.
Proof.
  induction 1 as [|l ls Hl HF IH]; intros a max Hmax; [cbn; intuition discriminate|].
  pose proof (process_spec a l Hl) as HP. destruct ls as [|l2 rest].
  - cbn [map validate_from good_path]. change (intermediates [l]) with 0. destruct (process verify recognised now a (lk_cert l)).
    + split; [intros _; split; [apply HP|lia]|reflexivity].
    + split; [discriminate|]. intros [H _]. contradiction.
  - set (rest' := l2 :: rest) in *. change (good_path a (l :: rest')) with (accepted a l /\ issues l (intermediates rest') /\ good_path (subject_of l) rest').
    change (validate_from verify recognised now a max (map lk_cert (l :: rest'))) with
      (match process verify recognised now a (lk_cert l) with
       | Some t => match (let? path := certifies t in next_max max (same_name (tf_issuer t) (tf_subject t)) path) with
                   | Some max => validate_from verify recognised now (mkAuthority (tf_subject t) (tf_key_alg t) (tf_key t)) max (map lk_cert rest')
                   | None => false end
       | None => false end).
    assert (HI0 : intermediates (l :: rest') = (if self_issued l then 0 else 1) + intermediates rest') by apply intermediates_cons. rewrite HI0. clear HI0.
    destruct (process verify recognised now a (lk_cert l)) as [t|]; [|split; [discriminate|intros [[H _] _]; contradiction]].
    destruct HP as (Hacc & HM & Hv & Hiss & Hsub). pose proof Hacc as (_ & _ & _ & HN & _). pose proof Hl as (_ & _ & HI & _).
    pose proof (certifies_spec E allowed l t HI HM Hv HN) as HC. destruct (certifies t) as [path|]; cbn [SpecX509.bind].
    2:{ split; [discriminate|]. intros [(_ & (Hm & _) & _) _]. contradiction. }
    destruct HC as [Hm Hlim]. rewrite Hiss. assert (Hsubj : tf_subject t = name_of (tbs_subject (lk_template l))) by (unfold subject_of in Hsub; congruence).
    rewrite Hsub, Hsubj. fold (self_issued l). unfold next_max.
    set (n := intermediates rest') in *.
    assert (HG : forall m1, (0 <= m1)%Z -> (let max' := match path with Some k => if (k <? m1)%Z then k else m1 | None => m1 end in
      validate_from verify recognised now (subject_of l) max' (map lk_cert rest') = true) <->
      (accepted a l /\ issues l n /\ good_path (subject_of l) rest') /\ (Z.of_N n <= m1)%Z).
    { intros m1 Hm1. cbv zeta. unfold issues.
      destruct path as [k|].
      - destruct Hlim as (lim & -> & Hlim).
        assert (HK : (forall k, limit l k -> n <= k) <-> n <= lim) by (split; [intro H; apply H, Hlim; reflexivity|intros H k Hk; apply Hlim in Hk; lia]).
        rewrite HK. destruct (Z.ltb_spec (Z.of_N lim) m1); rewrite IH by lia; fold n; intuition lia.
      - assert (HK : forall k, limit l k -> n <= k) by (intros k Hk; now elim (Hlim k)). rewrite IH by lia. fold n. tauto. }
    destruct (self_issued l); cbn [SpecX509.bind].
    + etransitivity; [exact (HG max Hmax)|]. now rewrite N.add_0_l.
    + destruct (Z.ltb_spec 0 max); cbn [SpecX509.bind].
      * etransitivity; [exact (HG (max - 1)%Z ltac:(lia))|]. intuition lia.
      * split; [discriminate|]. intros [_ H']. lia.
Qed.

Lemma intermediates_le ls : intermediates ls <= N.of_nat (length ls).
Proof.
  induction ls as [|l [|m rest] IH]; [change (intermediates []) with 0; lia|change (intermediates [l]) with 0; lia|]. rewrite intermediates_cons. cbn [length] in *. destruct (self_issued l); lia.
Qed.

Lemma after_cons a l before : after B a (l :: before) = after B (subject_of l) before.
Proof. unfold after. cbn [rev]. destruct (rev before) as [|x r]; reflexivity. Qed.

Lemma good_path_iff ls : forall a, ls <> [] ->
  good_path a ls <->
  (forall before l rest, ls = before ++ l :: rest -> signature_accepted B verify (after B a before) l) /\ arranged B recognised now a ls.
Proof.
  induction ls as [|l ls IH]; intros a HN; [congruence|]. destruct ls as [|l2 rest].
  - cbn [good_path]. split.
    + intros (H1 & H2 & H3).
      assert (G : forall before l' rest', [l] = before ++ l' :: rest' -> before = [] /\ l' = l /\ rest' = []).
      { intros [|x before] l' rest' HE; [injection HE as <- <-; now splits|]. injection HE as _ HE. now destruct before. }
      split; [intros before l' rest' HE|intros before l' rest' HE]; apply G in HE as (-> & -> & ->); [exact H1|]. splits; [exact H2|exact H3|congruence].
    + intros [H1 H2]. destruct (H2 [] l [] eq_refl) as (H3 & H4 & _). split; [exact (H1 [] l [] eq_refl)|now split].
  - set (tl := l2 :: rest) in *. change (good_path a (l :: tl)) with (accepted a l /\ issues l (intermediates tl) /\ good_path (subject_of l) tl).
    rewrite IH by discriminate. split.
    + intros ((H1 & H2 & H3) & (H4 & H5) & H6 & H7). split.
      * intros [|x before] l' rest' HE; [injection HE as <- <-; exact H1|]. injection HE as <- HE. rewrite after_cons. exact (H6 _ _ _ HE).
      * intros [|x before] l' rest' HE; [injection HE as <- <-; splits; [exact H2|exact H3|now split]|]. injection HE as <- HE. rewrite after_cons. exact (H7 _ _ _ HE).
    + intros [H1 H2]. destruct (H2 [] l tl eq_refl) as (H3 & H4 & H5). destruct (H5 ltac:(discriminate)) as [H6 H7]. splits.
      * split; [exact (H1 [] l tl eq_refl)|now split].
      * now split.
      * intros before l' rest' HE. specialize (H1 (l :: before) l' rest'). cbn [app] in H1. rewrite after_cons in H1. apply H1. now rewrite HE.
      * intros before l' rest' HE. specialize (H2 (l :: before) l' rest'). cbn [app] in H2. rewrite after_cons in H2. apply H2. now rewrite HE.
Qed.
End Paths.

(** A relying party that follows RFC 5280 accepts a chain of certificates, each made with the library from any template, extensions and keys, exactly if each
    signature is accepted under the key in the certificate before, and the caller has arranged the rest: names that follow on, the current time within every
    validity period, no extension twice, no critical one that is not known, CA certificates with keyCertSign before the last one, and path lengths that suffice. *)
Theorem C65_path_exact : forall (E : Env) (B : Bssl) (allowed : ub -> Prop) verify recognised now a ls,
  (forall u, stray_reads u -> allowed u) -> signs B -> publishes B -> ls <> [] -> Forall (certified B allowed) ls ->
  (validate verify recognised now a (map lk_cert ls) = true <->
   (forall before l rest, ls = before ++ l :: rest -> signature_accepted B verify (after B a before) l) /\ arranged B recognised now a ls).
Proof.
  intros E B allowed verify recognised now a ls HA Hs Hp HN HF. unfold validate. rewrite map_length.
  rewrite (validate_from_spec E B allowed HA Hs Hp verify recognised now ls HF) by lia.
  rewrite (good_path_iff B verify recognised now ls a HN). pose proof (intermediates_le ls). intuition lia.
Qed.
Print Assumptions C65_path_exact.

(** Under one another's keys, with the right algorithms: accepted exactly if the caller has arranged the rest. *)
Theorem C65_linked : forall (E : Env) (B : Bssl) (allowed : ub -> Prop) verify recognised now name p ls,
  (forall u, stray_reads u -> allowed u) -> signs B -> publishes B -> accepts_own B verify -> ls <> [] -> Forall (certified B allowed) ls -> linked p ls ->
  (validate verify recognised now (root B name p) (map lk_cert ls) = true <-> arranged B recognised now (root B name p) ls).
Proof.
  intros E B allowed verify recognised now name p ls HA Hs Hp Hown HN HF HL.
  rewrite (C65_path_exact E B allowed verify recognised now _ ls HA Hs Hp HN HF).
  assert (G : forall a q, au_alg a = key_algorithm q -> au_key a = bits_of_bytes (public_bytes B q) -> linked q ls ->
    forall before l rest, ls = before ++ l :: rest -> signature_accepted B verify (after B a before) l).
  { clear HN HL. induction HF as [|l0 ls Hl HF IH]; intros a q Ha Hk HL before l rest HE; [now destruct before|].
    destruct HL as (L1 & L2 & L3 & L4). destruct before as [|x before].
    - injection HE as <- <-. unfold signature_accepted. cbn [after rev].
      destruct (certified_reads E B allowed l0 HA Hs Hp Hl) as (_ & signed & _ & Hsp & _). exists signed. split; [exact Hsp|].
      rewrite L1, L2, Ha, Hk. apply Hown.
    - injection HE as <- HE. rewrite after_cons. eapply IH; [| |exact L4|exact HE]; [exact L3|reflexivity]. }
  specialize (G (root B name p) p eq_refl eq_refl HL). tauto.
Qed.
Print Assumptions C65_linked.

(** A signature that is not accepted under the key of the certificate before: the path is rejected, whatever comes behind. *)
Theorem C65_wrong_signer : forall (E : Env) (B : Bssl) (allowed : ub -> Prop) verify recognised now a before l rest signed,
  (forall u, stray_reads u -> allowed u) -> signs B -> publishes B -> Forall (certified B allowed) (before ++ l :: rest) ->
  cert_signed_part (lk_cert l) = Some signed ->
  (forall alg, verify alg (au_alg (after B a before)) (au_key (after B a before)) signed (bits_of_bytes (signature_bytes B (lk_signer l) signed)) = false) ->
  validate verify recognised now a (map lk_cert (before ++ l :: rest)) = false.
Proof.
  intros E B allowed verify recognised now a before l rest signed HA Hs Hp HF Hsp Hv. apply not_true_iff_false.
  rewrite (C65_path_exact E B allowed verify recognised now a _ HA Hs Hp) by (assumption || now destruct before).
  intros [H _]. destruct (H before l rest eq_refl) as (signed' & Hs' & H'). rewrite Hsp in Hs'. injection Hs' as <-. now rewrite Hv in H'.
Qed.
Print Assumptions C65_wrong_signer.

(** Without dates a certificate is within its period from 1970 to the end of 9999. *)
Theorem C65_default_period : forall recognised now l,
  sl_buf (v_not_before (tbs_validity (lk_template l))) = None -> sl_buf (v_not_after (tbs_validity (lk_template l))) = None ->
  (usable recognised now l <->
   19700101000000 <= now <= 99991231235959 /\ NoDup (map (fun x => id_of (snd x)) (lk_inputs l)) /\
   (forall x, In (true, x) (lk_inputs l) -> id_of x = id_ce_basicConstraints \/ id_of x = id_ce_keyUsage \/ recognised (id_of x) = true)).
Proof.
  intros recognised now l H1 H2. unfold usable, time_or. rewrite H1, H2.
  assert (E1 : instant text_epoch = Some 19700101000000) by (vm_compute; reflexivity).
  assert (E2 : instant text_no_expiration = Some 99991231235959) by (vm_compute; reflexivity).
  rewrite E1, E2. split; intros (HP & HR); (split; [|exact HR]).
  - destruct HP as (nb & na & Ha & Hb & HH). congruence.
  - now exists 19700101000000, 99991231235959.
Qed.
Print Assumptions C65_default_period.

(** Making such a certificate, with any two keys: the exact outcome. *)
Theorem C65_issue_for : forall (E : Env) (B : Bssl) (table : table) signer subject p q allowed t vs, signs B -> publishes B ->
  lookup table signer = Some (SigningKey p) -> lookup table subject = Some (SigningKey q) -> lookup table 0 = None ->
  tbs_ok t -> callbacks allowed (used_exts (tbs_exts t)) vs -> serial_allowed allowed t ->
  exists signed cert,
    (len cert < SZ -> cert_signed_part cert = Some signed /\
       read_cert cert = Some (CertFields (with_public (tbs_of t vs) (public_bytes B q)) (alg_of (tbs_sig_alg t)) (bits_of_bytes (signature_bytes B p signed)))) /\
    len signed <= len cert /\
    forall public_key_buffer signature buffer,
      98 <= len public_key_buffer < SZ -> 104 <= len signature < SZ -> len buffer < SZ ->
      let failing := fails (public_call q) || existsb fails (sign_calls p) in
      exists u, Forall allowed u /\
        issue_for (heap_of table) signer (type_of p) subject (type_of q) t public_key_buffer signature buffer =
          Ret (u,
               if failing || (len buffer <? len signed) then heap_of table else heap_of (filter (fun x => negb (fst x =? signer)) table),
               if failing || (len buffer <? len cert) then None else Some cert).
Proof.
  intros E B table signer subject p q allowed t vs Hs Hp H1 H2 H0 Ht HV Hu.
  set (f := with_public (tbs_of t vs) (public_bytes B q)). exists (enc_tlv (tlv_tbs f)), (cert_under B p f). splits.
  - intro Hc. exact (cert_under_reads E B p t vs (public_bytes B q) Ht Hc).
  - apply cert_under_signed.
  - intros pkb sg buf Hk Hg Hb failing.
    destruct (template_for_ok E B table subject q allowed t vs Hp H2 H0 Ht HV Hu pkb Hk) as (t1 & R1 & Ht1 & Hf & HV1 & Hu1).
    unfold issue_for. rewrite R1. unfold failing. destruct (fails (public_call q)); cbn [orb Res.bind].
    { exists []. split; [constructor|reflexivity]. }
    destruct (issue_tbs_ok E B table signer p allowed t1 vs Hs H1 H0 Ht1 HV1 Hu1 sg buf Hg Hb) as (u & HPu & R2).
    rewrite Hf in R2. exists u. split; [exact HPu|exact R2].
Qed.
Print Assumptions C65_issue_for.

(** ** Examples: an Ed25519 authority, an intermediate one and a P-256 key under it; with the toy BoringSSL and a verification that goes with it *)
Section Examples.
#[local] Existing Instance PropX509.env64.
Definition same_bits (a b : list bool) : bool := if list_eq_dec bool_dec a b then true else false.
Definition toy_verify (sa ka : alg_fields) (key : list bool) (m : list byte) (sig : list bool) : bool :=
  let under p := same_alg sa (signature_algorithm p) && same_alg ka (key_algorithm p) in
  let d n := be_val (takeN n (dropN 1 (pack_bits key))) in
  if under (Ed25519 []) then same_bits sig (bits_of_bytes (be_bytes 32 (be_val m) ++ pack_bits key))
  else if under (EC P256 0) then same_bits sig (bits_of_bytes (ecdsa_der (be_val m mod 256 ^ 32) (d 32)))
  else if under (EC P384 0) then same_bits sig (bits_of_bytes (ecdsa_der (be_val m mod 256 ^ 48) (d 48)))
  else false.
Lemma toy_accepts f : accepts_own (toy f) toy_verify.
Proof.
  assert (S : forall l, same_bits l l = true) by (intro l; unfold same_bits; now destruct (list_eq_dec bool_dec l l)).
  assert (D : forall n d r, be_val (takeN (N.of_nat n) (dropN 1 (x04 :: be_bytes n (d mod 256 ^ N.of_nat n) ++ r))) = d mod 256 ^ N.of_nat n).
  { intros n d r. change (dropN 1 (x04 :: ?l)) with l.
    replace (N.of_nat n) with (len (be_bytes n (d mod 256 ^ N.of_nat n))) at 1 by (unfold len; now rewrite length_be_bytes).
    rewrite takeN_app_len, be_val_be_bytes. apply N.mod_small, N.mod_lt, N.pow_nonzero. discriminate. }
  intros [seed|[|] d] m; unfold toy_verify; rewrite pack_bits_of_bytes.
  - apply S.
  - enough (G : same_bits (bits_of_bytes (signature_bytes (toy f) (EC P256 d) m))
      (bits_of_bytes (ecdsa_der (be_val m mod 256 ^ 32) (be_val (takeN (N.of_nat 32) (dropN 1 (x04 :: be_bytes 32 (d mod 256 ^ N.of_nat 32) ++ be_bytes 32 1)))))) = true) by exact G.
    rewrite D. apply S.
  - enough (G : same_bits (bits_of_bytes (signature_bytes (toy f) (EC P384 d) m))
      (bits_of_bytes (ecdsa_der (be_val m mod 256 ^ 48) (be_val (takeN (N.of_nat 48) (dropN 1 (x04 :: be_bytes 48 (d mod 256 ^ N.of_nat 48) ++ be_bytes 48 1)))))) = true) by exact G.
    rewrite D. apply S.
Qed.

Definition chain_table : table := [(3, SigningKey (Ed25519 (bytes [5]))); (4, SigningKey (Ed25519 (bytes [6]))); (5, SigningKey (EC P256 7))].
Definition ed (k : N) : pkey := Ed25519 (bytes [k]).
Definition name_with (c : N) : name := mkName 1 [mkRdn (Some OID_COMMON_NAME) (slice_of (bytes [c]))].
Definition spki_algorithm (p : pkey) : algorithm_identifier :=
  match p with Ed25519 _ => mkAlg (Some OID_ED25519) pv_none | EC _ _ => mkAlg (Some OID_EC_PUBLIC_KEY) (pv_ec_curve (Some OID_SECP256R1)) end.
Definition chain_tbs (issuer subject : N) (q : pkey) (xs : list (bool * ext_input)) : tbs :=
  mkTbs (slice_of (bytes [0x07])) (mkAlg (Some OID_ED25519) pv_none) (name_with issuer) (mkValidity slice_null slice_null) (name_with subject)
    (mkSpki (spki_algorithm q) 0 None) (mkExtensions (len xs) (Some (map (fun x => extension_for (fst x) (snd x)) xs))).
Definition issue_link (signer subject : N) (p q : pkey) (t : tbs) : res issued :=
  @issue_for _ (toy none_fails) (heap_of chain_table) signer (type_of p) subject (type_of q) t (repeat x00 98) (repeat x00 104) (repeat x00 500).
Definition link_of (signer subject : N) (p q : pkey) (issuer_name subject_name : N) (xs : list (bool * ext_input)) : link :=
  let t := chain_tbs issuer_name subject_name q xs in
  mkLink p q t xs (match issue_link signer subject p q t with Ret (_, _, Some c) => c | _ => [] end).

(** The names are A, B and C; the keys 5 (the authority's), 6 and a P-256 key. *)
Definition ca_exts (path : N) : list (bool * ext_input) :=
  [(true, In_key_usage [KU_key_cert_sign]); (true, In_basic_constraints (mkBasicConstraints true true path))].
Definition ca_link : list (bool * ext_input) -> link := link_of 3 4 (ed 5) (ed 6) 0x41 0x42.
Definition second_link : link := link_of 4 3 (ed 6) (ed 5) 0x42 0x43 (ca_exts 0).
Definition leaf_link : list (bool * ext_input) -> link := link_of 4 5 (ed 6) (EC P256 7) 0x42 0x41.
Definition no_other (_ : list N) : bool := false.
Definition authority_A : authority := root (toy none_fails) (name_of (name_with 0x41)) (ed 5).
Definition path_accepted (now : N) (ls : list link) : bool := validate toy_verify no_other now authority_A (map lk_cert ls).
Definition today : N := 20240229120000.

Example C65_verdicts :
  let leaf := leaf_link [] in
  let ueid c := [(c, In_ueid (slice_of (bytes [1])))] in
  path_accepted today [ca_link (ca_exts 0); leaf] = true /\ path_accepted today [ca_link (ca_exts 0); leaf_link (ueid false)] = true /\
  (* one more authority in between: the path length decides *)
  path_accepted today [ca_link (ca_exts 1); second_link; link_of 3 5 (ed 5) (EC P256 7) 0x43 0x44 []] = true /\
  path_accepted today [ca_link (ca_exts 0); second_link; link_of 3 5 (ed 5) (EC P256 7) 0x43 0x44 []] = false /\
  (* signed with the authority's key instead of the one certified before *)
  path_accepted today [ca_link (ca_exts 0); link_of 3 5 (ed 5) (EC P256 7) 0x42 0x41 []] = false /\
  (* before the epoch; a critical extension nobody knows; no CA; a CA that may not sign certificates; the wrong order *)
  path_accepted 19691231235959 [ca_link (ca_exts 0); leaf] = false /\
  path_accepted today [ca_link (ca_exts 0); leaf_link (ueid true)] = false /\
  path_accepted today [ca_link [(true, In_key_usage [KU_key_cert_sign])]; leaf] = false /\
  path_accepted today [ca_link [(true, In_key_usage [KU_crl_sign]); (true, In_basic_constraints (mkBasicConstraints true false 0))]; leaf] = false /\
  path_accepted today [ca_link [(true, In_basic_constraints (mkBasicConstraints true false 0))]; leaf] = true /\
  path_accepted today [leaf; ca_link (ca_exts 0)] = false /\ path_accepted today [ca_link (ca_exts 0)] = true /\ path_accepted today [] = false.
Proof. cbv zeta. splits; vm_compute; reflexivity. Qed.

Lemma chain_tbs_ok issuer subject q xs : Forall (fun x => oid_given (ext_oid (extension_for (fst x) (snd x)))) xs -> tbs_ok (chain_tbs issuer subject q xs).
Proof.
  intro HF.
  assert (A : forall o, encodable_b o = true -> oid_given (Some o)) by apply oid_given_example.
  assert (N1 : forall c, name_ok (name_with c)).
  { intro c. split; [vm_compute; congruence|]. split; [vm_compute; congruence|].
    change (takeN _ _) with (name_elements (name_with c)). unfold name_with. cbn [name_elements].
    constructor; [split; [apply A; vm_compute; reflexivity|slices]|constructor]. }
  unfold tbs_ok, chain_tbs. cbn [tbs_serial tbs_sig_alg tbs_issuer tbs_validity tbs_subject tbs_spki tbs_exts v_not_before v_not_after spki_alg spki_key spki_bits].
  assert (V : forall bs, len bs < 2 ^ 32 -> slice_ok (slice_of bs)).
  { intros bs Hb. split; [cbn [slice_of sl_size]; eapply N.lt_le_trans; [exact Hb|vm_compute; congruence]|apply N.le_refl]. }
  split; [apply V; vm_compute; reflexivity|]. split; [right; discriminate|].
  split; [split; [apply A; vm_compute; reflexivity|exact I]|]. split; [apply N1|].
  split; [apply PropX509Ext.null_slice|]. split; [apply PropX509Ext.null_slice|]. split; [apply N1|].
  split; [destruct q; (split; [apply A; vm_compute; reflexivity|]); [exact I|]; apply A; vm_compute; reflexivity|].
  split; [vm_compute; try split; congruence|].
  split; [cbn; unfold len; rewrite map_length; apply N.le_refl|]. unfold used_exts. cbn [exts_list exts_count]. rewrite takeN_all; [now apply Forall_map|].
  unfold len. rewrite map_length. apply N.le_refl.
Qed.
Lemma link_certified signer subject p q a b xs :
  lookup chain_table signer = Some (SigningKey p) -> lookup chain_table subject = Some (SigningKey q) ->
  Forall (fun x => oid_given (ext_oid (extension_for (fst x) (snd x)))) xs -> Forall (fun x => input_ok stray_reads (snd x)) xs ->
  (exists u h c, issue_link signer subject p q (chain_tbs a b q xs) = Ret (u, h, Some c)) -> certified (toy none_fails) stray_reads (link_of signer subject p q a b xs).
Proof.
  intros H1 H2 H3 H4 (u & h & c & H5). split; [now apply chain_tbs_ok|]. split; [|split; [exact H4|]].
  - unfold extended_with, used_exts, link_of, chain_tbs. cbn [lk_template lk_inputs tbs_exts exts_list exts_count]. apply takeN_all. unfold len. rewrite map_length. apply N.le_refl.
  - exists none_fails, chain_table, signer, subject, (repeat x00 98), (repeat x00 104), (repeat x00 500), u, h. unfold link_of. rewrite H5. cbn [lk_signer lk_subject lk_template lk_cert].
    split; [exact H1|]. split; [exact H2|]. do 4 (split; [try split; vm_compute; congruence|]). exact H5.
Qed.
Example C65_linked_case :
  let ls := [ca_link (ca_exts 0); leaf_link []] in
  Forall (certified (toy none_fails) stray_reads) ls /\ linked (ed 5) ls /\ accepts_own (toy none_fails) toy_verify /\ arranged (toy none_fails) no_other today authority_A ls /\
  validate toy_verify no_other today authority_A (map lk_cert ls) = true.
Proof.
  intro ls.
  assert (HC : Forall (certified (toy none_fails) stray_reads) ls).
  { constructor; [|constructor; [|constructor]].
    - apply link_certified; try reflexivity.
      + repeat (constructor; [apply oid_given_example; vm_compute; reflexivity|]). constructor.
      + constructor; [exact I|]. constructor; [reflexivity|constructor].
      + vm_compute. do 3 eexists. reflexivity.
    - apply link_certified; try reflexivity; try constructor. vm_compute. do 3 eexists. reflexivity. }
  assert (HL : linked (ed 5) ls) by (unfold ls; cbn [linked]; splits; reflexivity || exact I).
  assert (HV : validate toy_verify no_other today authority_A (map lk_cert ls) = true) by (vm_compute; reflexivity).
  splits; try assumption; [apply toy_accepts|].
  apply (C65_linked env64 (toy none_fails) stray_reads toy_verify no_other today (name_of (name_with 0x41)) (ed 5) ls (fun u H => H) (toy_signs _) (toy_publishes _) (toy_accepts _)); try assumption.
  discriminate.
Qed.
(** The last certificate signed with another key: [C65_wrong_signer] applies. *)
Example C65_wrong_signer_case :
  let l := link_of 3 5 (ed 5) (EC P256 7) 0x42 0x41 [] in
  let a := after (toy none_fails) authority_A [ca_link (ca_exts 0)] in
  certified (toy none_fails) stray_reads l /\
  exists signed, cert_signed_part (lk_cert l) = Some signed /\
    forall alg, toy_verify alg (au_alg a) (au_key a) signed (bits_of_bytes (signature_bytes (toy none_fails) (lk_signer l) signed)) = false.
Proof.
  intros l a. split.
  - apply link_certified; try reflexivity; try constructor. vm_compute. do 3 eexists. reflexivity.
  - eexists. split; [vm_compute; reflexivity|]. intro alg. unfold toy_verify. destruct (same_alg alg (signature_algorithm (Ed25519 []))).
    + vm_compute. reflexivity.
    + change (au_alg a) with (key_algorithm (ed 6)). change (key_algorithm (ed 6)) with (key_algorithm (Ed25519 [])).
      replace (same_alg (key_algorithm (Ed25519 [])) (key_algorithm (EC P256 0))) with false by (vm_compute; reflexivity).
      replace (same_alg (key_algorithm (Ed25519 [])) (key_algorithm (EC P384 0))) with false by (vm_compute; reflexivity).
      rewrite !andb_false_r. reflexivity.
Qed.
(** The outcome with a buffer of 500 bytes, and with one too short for the certificate. *)
Example C65_issue_for_case :
  let t := chain_tbs 0x41 0x42 (ed 6) [] in
  let issue_in n := @issue_for _ (toy none_fails) (heap_of chain_table) 3 (type_of (ed 5)) 4 (type_of (ed 6)) t (repeat x00 98) (repeat x00 104) (repeat x00 n) in
  lookup chain_table 3 = Some (SigningKey (ed 5)) /\ lookup chain_table 4 = Some (SigningKey (ed 6)) /\ lookup chain_table 0 = None /\
  tbs_ok t /\ callbacks stray_reads (used_exts (tbs_exts t)) [] /\ serial_allowed stray_reads t /\
  (exists cert, len cert = 202 /\ issue_in 500%nat = Ret ([], heap_of [(4, SigningKey (ed 6)); (5, SigningKey (EC P256 7))], Some cert)) /\
  issue_in 201%nat = Ret ([], heap_of [(4, SigningKey (ed 6)); (5, SigningKey (EC P256 7))], None).
Proof.
  cbv zeta. split; [reflexivity|]. split; [reflexivity|]. split; [reflexivity|]. split; [apply chain_tbs_ok; apply Forall_nil|].
  split; [apply Forall2_nil|]. split; [left; now intros u Hu|]. split; [eexists; split; [|vm_compute; reflexivity]; vm_compute; reflexivity|vm_compute; reflexivity].
Qed.
Example C65_default_period_case :
  usable no_other today (leaf_link []) /\ ~ usable no_other 19691231235959 (leaf_link []).
Proof.
  rewrite !C65_default_period by reflexivity. split.
  - split; [vm_compute; split; discriminate|]. split; [constructor|]. intros x [].
  - intros [[H _] _]. revert H. vm_compute. congruence.
Qed.
End Examples.
