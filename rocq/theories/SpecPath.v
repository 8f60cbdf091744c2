(** Certification path validation (RFC 5280 section 6.1), independent of the model, and chains of certificates made with the library.

    Left out of the algorithm: revocation; certificate policies and name constraints (the library has no such extensions; others can be put in by the caller,
    and then a critical one is accepted only if it is among the recognised ones); the comparison of names is that of their octets, which is stricter than
    section 7.1. *)
From Coq Require Import List NArith ZArith Bool Strings.Byte.
From Verif Require Import Base Stream SpecStream SpecDigits SpecDer Asn1 SpecAsn1 Oid X509 X509Ext SpecX509 SpecProfile SpecDice.
From Verif Require Import Res Bssl BsslKeys SpecBssl Issue PropIssue PropDice.
Import ListNotations.
Open Scope N_scope.

(** ** The algorithm *)

(** 6.1.1 (d): the name, algorithm and public key of the trust anchor. *)
Record authority := mkAuthority { au_name : list attribute; au_alg : alg_fields; au_key : list bool }.

(** A point in time as the number YYYYMMDDHHMMSS. *)
Definition instant (s : list byte) : option N := let? _ := time_year s in number (takeN 14 s).

Definition params_eq_dec (a b : params) : {a = b} + {a <> b}.
Proof. decide equality. apply (list_eq_dec N.eq_dec). Defined.
Definition alg_eq_dec (a b : alg_fields) : {a = b} + {a <> b}.
Proof. decide equality; [apply params_eq_dec|apply (list_eq_dec N.eq_dec)]. Defined.
Definition attribute_eq_dec (a b : attribute) : {a = b} + {a <> b}.
Proof. decide equality; [apply (list_eq_dec byte_eq_dec)|apply (list_eq_dec N.eq_dec)]. Defined.
Definition same_alg (a b : alg_fields) : bool := if alg_eq_dec a b then true else false.
Definition same_name (a b : list attribute) : bool := if list_eq_dec attribute_eq_dec a b then true else false.

Fixpoint distinct (l : list (list N)) : bool := match l with [] => true | a :: r => negb (existsb (same a) r) && distinct r end.

Section Validate.
(** Signature verification: the algorithm of the signature, that of the key, the key, the message and the signature. The critical extensions that the relying
    party can process, other than the two of this algorithm. The current time. *)
Context (verify : alg_fields -> alg_fields -> list bool -> list byte -> list bool -> bool) (recognised : list N -> bool) (now : N).

Definition in_period (t : tbs_fields) : bool :=
  match instant (tf_not_before t), instant (tf_not_after t) with Some a, Some b => (a <=? now) && (now <=? b) | _, _ => false end.

(** 4.2: no extension twice; 6.1.4 (o) and 6.1.5 (f): every critical extension is processed. *)
Definition extensions_accepted (l : list ext_fields) : bool :=
  distinct (map xf_oid l) &&
  forallb (fun x => negb (xf_critical x) || same (xf_oid x) id_ce_basicConstraints || same (xf_oid x) id_ce_keyUsage || recognised (xf_oid x)) l.

(** 6.1.3 (a) with 4.1.1.2. *)
Definition process (a : authority) (cert : list byte) : option tbs_fields :=
  let? f := read_cert cert in
  let? signed := cert_signed_part cert in
  let t := cf_tbs f in
  if same_alg (tf_sig_alg t) (cf_sig_alg f) && verify (cf_sig_alg f) (au_alg a) (au_key a) signed (cf_signature f) && in_period t &&
     same_name (tf_issuer t) (au_name a) && extensions_accepted (tf_exts t)
  then Some t else None.

Definition claim_under (id : list N) (t : tbs_fields) : option (option claim) :=
  match find (fun x => same (xf_oid x) id) (tf_exts t) with
  | None => Some None
  | Some x => let? c := read_claim x in Some (Some c)
  end.
(** 6.1.4 (k) and (n): version 3, a CA that may sign certificates; its path length constraint. *)
Definition certifies (t : tbs_fields) : option (option Z) :=
  let? b := claim_under id_ce_basicConstraints t in
  let? u := claim_under id_ce_keyUsage t in
  match b, u with
  | Some (Basic_constraints true path), None => if (tf_version t =? 3)%Z then Some path else None
  | Some (Basic_constraints true path), Some (Key_usage flags) =>
      if (tf_version t =? 3)%Z && existsb (fun f => if flag_eq_dec f KU_key_cert_sign then true else false) flags then Some path else None
  | _, _ => None
  end.
(** 6.1.4 (l) and (m): max_path_length. *)
Definition next_max (max : Z) (self_issued : bool) (path : option Z) : option Z :=
  let? max := (if self_issued then Some max else if (0 <? max)%Z then Some (max - 1)%Z else None) in
  Some (match path with Some k => if (k <? max)%Z then k else max | None => max end).

Fixpoint validate_from (a : authority) (max : Z) (certs : list (list byte)) : bool :=
  match certs with
  | [] => false
  | [c] => match process a c with Some _ => true | None => false end
  | c :: certs =>
      match process a c with
      | Some t =>
          match (let? path := certifies t in next_max max (same_name (tf_issuer t) (tf_subject t)) path) with
          | Some max => validate_from (mkAuthority (tf_subject t) (tf_key_alg t) (tf_key t)) max certs
          | None => false
          end
      | None => false
      end
  end.
(** 6.1.2 (k): max_path_length is initialised to the length of the path. *)
Definition validate (a : authority) (certs : list (list byte)) : bool := validate_from a (Z.of_nat (length certs)) certs.
End Validate.

(** ** Certificates made with the library *)

(** One certificate of a chain: the two keys, what the caller fills in, and what comes out. *)
Record link := mkLink { lk_signer : pkey; lk_subject : pkey; lk_template : tbs; lk_inputs : list (bool * ext_input); lk_cert : list byte }.

(** It has come from these steps; whatever was in the buffers and whatever other keys there were. *)
Definition certified `{E : Env} (B : Bssl) (allowed : ub -> Prop) (l : link) : Prop :=
  tbs_ok (lk_template l) /\ extended_with (lk_template l) (lk_inputs l) /\ Forall (fun x => input_ok allowed (snd x)) (lk_inputs l) /\
  exists f (table : table) signer subject public_key_buffer signature buffer u h,
    lookup table signer = Some (SigningKey (lk_signer l)) /\ lookup table subject = Some (SigningKey (lk_subject l)) /\ lookup table 0 = None /\
    98 <= len public_key_buffer < SZ /\ 104 <= len signature < SZ /\ len buffer < SZ /\
    @issue_for E (with_fails f B) (heap_of table) signer (type_of (lk_signer l)) subject (type_of (lk_subject l)) (lk_template l)
      public_key_buffer signature buffer = Ret (u, h, Some (lk_cert l)).

(** ** What the caller has to see to *)

Definition id_of (x : ext_input) : list N :=
  match x with
  | In_basic_constraints _ => id_ce_basicConstraints
  | In_key_usage _ => id_ce_keyUsage
  | In_open_dice _ => id_open_dice_input
  | In_tcb_info _ => id_tcg_dice_TcbInfo
  | In_multi_tcb_info _ => id_tcg_dice_MultiTcbInfo
  | In_ueid _ => id_tcg_dice_Ueid
  | In_tcb_freshness _ => id_tcg_dice_TcbFreshness
  | In_other id _ _ => oid_arcs id
  end.

(** The name and the key that the next certificate has to be signed with. *)
Definition after (B : Bssl) (a : authority) (before : list link) : authority :=
  match rev before with
  | [] => a
  | l :: _ => mkAuthority (name_of (tbs_subject (lk_template l))) (alg_of (spki_alg (tbs_spki (lk_template l)))) (bits_of_bytes (public_bytes B (lk_subject l)))
  end.

Definition usable (recognised : list N -> bool) (now : N) (l : link) : Prop :=
  let v := tbs_validity (lk_template l) in
  (exists nb na, instant (time_or (v_not_before v) text_epoch) = Some nb /\ instant (time_or (v_not_after v) text_no_expiration) = Some na /\ nb <= now <= na) /\
  NoDup (map (fun x => id_of (snd x)) (lk_inputs l)) /\
  (forall x, In (true, x) (lk_inputs l) -> id_of x = id_ce_basicConstraints \/ id_of x = id_ce_keyUsage \/ recognised (id_of x) = true).
Definition may_certify (l : link) : Prop :=
  (exists c b, In (c, In_basic_constraints b) (lk_inputs l) /\ bc_is_ca b = true) /\
  (forall c flags, In (c, In_key_usage flags) (lk_inputs l) -> In KU_key_cert_sign flags).
Definition limit (l : link) (k : N) : Prop :=
  exists c b, In (c, In_basic_constraints b) (lk_inputs l) /\ bc_is_ca b = true /\ bc_has_path_length b = true /\ bc_path_length b = k.
(** 4.2.1.9: the number of certificates that are not self-issued, without the last one. *)
Definition self_issued (l : link) : bool := same_name (name_of (tbs_issuer (lk_template l))) (name_of (tbs_subject (lk_template l))).
Definition intermediates (ls : list link) : N := len (filter (fun l => negb (self_issued l)) (removelast ls)).

(** The signature on [l] is accepted with the key of [a]. *)
Definition signature_accepted (B : Bssl) (verify : alg_fields -> alg_fields -> list bool -> list byte -> list bool -> bool) (a : authority) (l : link) : Prop :=
  exists signed, cert_signed_part (lk_cert l) = Some signed /\
    verify (alg_of (tbs_sig_alg (lk_template l))) (au_alg a) (au_key a) signed (bits_of_bytes (signature_bytes B (lk_signer l) signed)) = true.

(** Everything but the signatures. *)
Definition arranged (B : Bssl) (recognised : list N -> bool) (now : N) (a : authority) (ls : list link) : Prop :=
  forall before l rest, ls = before ++ l :: rest ->
    name_of (tbs_issuer (lk_template l)) = au_name (after B a before) /\ usable recognised now l /\
    (rest <> [] -> may_certify l /\ forall k, limit l k -> intermediates rest <= k).

(** ** Chains of keys *)

(** The identifiers that go with a key: RFC 8410 3; RFC 5758 3.2 and RFC 5480 2.1.1. *)
Definition signature_algorithm (p : pkey) : alg_fields :=
  AlgFields (match p with Ed25519 _ => [1; 3; 101; 112] | EC P256 _ => [1; 2; 840; 10045; 4; 3; 2] | EC P384 _ => [1; 2; 840; 10045; 4; 3; 3] end) NoParams.
Definition key_algorithm (p : pkey) : alg_fields :=
  match p with
  | Ed25519 _ => AlgFields [1; 3; 101; 112] NoParams
  | EC P256 _ => AlgFields [1; 2; 840; 10045; 2; 1] (CurveParams [1; 2; 840; 10045; 3; 1; 7])
  | EC P384 _ => AlgFields [1; 2; 840; 10045; 2; 1] (CurveParams [1; 3; 132; 0; 34])
  end.
(** The verification accepts what the key has signed. *)
Definition accepts_own (B : Bssl) (verify : alg_fields -> alg_fields -> list bool -> list byte -> list bool -> bool) : Prop :=
  forall p m, verify (signature_algorithm p) (key_algorithm p) (bits_of_bytes (public_bytes B p)) m (bits_of_bytes (signature_bytes B p m)) = true.
(** The authority that has the key [p]. *)
Definition root (B : Bssl) (name : list attribute) (p : pkey) : authority := mkAuthority name (key_algorithm p) (bits_of_bytes (public_bytes B p)).
(** Each certificate is signed with the key of the one before, the first with [p], and says the right algorithms. *)
Fixpoint linked (p : pkey) (ls : list link) : Prop :=
  match ls with
  | [] => True
  | l :: ls =>
      lk_signer l = p /\ alg_of (tbs_sig_alg (lk_template l)) = signature_algorithm p /\
      alg_of (spki_alg (tbs_spki (lk_template l))) = key_algorithm (lk_subject l) /\ linked (lk_subject l) ls
  end.
