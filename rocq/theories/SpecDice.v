(** What the extensions of a certificate claim, independent of the model: a reader that dispatches on the registered object identifiers, and what the arguments of
    the library's extension callbacks denote. *)
From Coq Require Import List NArith ZArith Bool Strings.Byte.
From Verif Require Import Base Stream SpecStream SpecDigits SpecDer Asn1 SpecAsn1 Oid X509 X509Ext SpecX509.
Import ListNotations.
Open Scope N_scope.

(** ** Claims *)
Inductive claim :=
| Basic_constraints (ca : bool) (path_length : option Z)
| Key_usage (flags : list key_usage_flag)
| Open_dice (f : open_dice_fields)
| Tcb_info (f : tcb_fields)
| Multi_tcb_info (l : list tcb_fields)
| Ueid (b : list byte)
| Tcb_freshness (b : list byte)
| Unknown (id : list N) (value : list byte).

(** RFC 5280 4.2.1.9 and 4.2.1.3; Open Profile for DICE, "X.509 CDI certificates"; TCG DICE Attestation Architecture 1.1, section 4 (tcg-dice is 2.23.133.5.4). *)
Definition id_ce_basicConstraints : list N := [2; 5; 29; 19].
Definition id_ce_keyUsage : list N := [2; 5; 29; 15].
Definition id_open_dice_input : list N := [1; 3; 6; 1; 4; 1; 11129; 2; 1; 24].
Definition id_tcg_dice_TcbInfo : list N := [2; 23; 133; 5; 4; 1].
Definition id_tcg_dice_Ueid : list N := [2; 23; 133; 5; 4; 4].
Definition id_tcg_dice_MultiTcbInfo : list N := [2; 23; 133; 5; 4; 5].
Definition id_tcg_dice_TcbFreshness : list N := [2; 23; 133; 5; 4; 11].
Definition known_ids : list (list N) :=
  [id_ce_basicConstraints; id_ce_keyUsage; id_open_dice_input; id_tcg_dice_TcbInfo; id_tcg_dice_Ueid; id_tcg_dice_MultiTcbInfo; id_tcg_dice_TcbFreshness].

Definition all_key_usages : list key_usage_flag :=
  [KU_digital_signature; KU_content_commitment; KU_key_encipherment; KU_data_encipherment; KU_key_agreement; KU_key_cert_sign; KU_crl_sign; KU_encipher_only;
   KU_decipher_only].
(** The named bits that are set; there must be no others. *)
Definition named_bits (bits : list bool) : option (list key_usage_flag) :=
  if len bits <=? 9 then Some (filter (fun f => nth (key_usage_bit f) bits false) all_key_usages) else None.

Definition same (a b : list N) : bool := if list_eq_dec N.eq_dec a b then true else false.
Definition read_claim (x : ext_fields) : option claim :=
  let id := xf_oid x in
  let v := xf_value x in
  if same id id_ce_basicConstraints then let? (ca, p) := read_basic_constraints v in Some (Basic_constraints ca p)
  else if same id id_ce_keyUsage then let? bits := read_key_usage v in let? l := named_bits bits in Some (Key_usage l)
  else if same id id_open_dice_input then let? f := read_open_dice v in Some (Open_dice f)
  else if same id id_tcg_dice_TcbInfo then let? f := read_tcb v in Some (Tcb_info f)
  else if same id id_tcg_dice_Ueid then let? b := read_octets_in_sequence v in Some (Ueid b)
  else if same id id_tcg_dice_MultiTcbInfo then let? l := read_multi_tcb v in Some (Multi_tcb_info l)
  else if same id id_tcg_dice_TcbFreshness then let? b := read_octets_in_sequence v in Some (Tcb_freshness b)
  else Some (Unknown id v).

(** All the claims of a certificate, in order, each with its criticality. *)
Definition read_claims (cert : list byte) : option (list (bool * claim)) :=
  let? c := read_cert cert in
  map_opt (fun x => let? a := read_claim x in Some (xf_critical x, a)) (tf_exts (cf_tbs c)).

(** ** What a caller puts in *)
Section WithEnv.
Context `{E : Env}.

(** The library's callbacks with their contexts; and anything else, under another object identifier: code [f] that renders [v]. *)
Inductive ext_input :=
| In_basic_constraints (b : basic_constraints)
| In_key_usage (flags : list key_usage_flag)
| In_open_dice (o : open_dice_input)
| In_tcb_info (t : tcb_info)
| In_multi_tcb_info (m : multi_tcb_info)
| In_ueid (s : slice)
| In_tcb_freshness (s : slice)
| In_other (id : oid) (f : cmd) (v : list byte).

(** The masks after the macros have been applied in this order. *)
Definition masks_of (flags : list key_usage_flag) : key_usage := fold_left (fun k f => key_usage_set f k) flags (mkKeyUsage x00 x00).

(** The element of the array of extensions for it, as the headers tell the caller to fill it in: the object identifier that goes with the callback. *)
Definition extension_for (critical : bool) (x : ext_input) : extension :=
  match x with
  | In_basic_constraints b => mkExtension (Some OID_BASIC_CONSTRAINTS) critical (Some (n20_x509_ext_basic_constraints_content (Some b)))
  | In_key_usage l => mkExtension (Some OID_KEY_USAGE) critical (Some (n20_x509_ext_key_usage_content (Some (masks_of l))))
  | In_open_dice o => mkExtension (Some OID_OPEN_DICE_INPUT) critical (Some (n20_x509_ext_open_dice_input_content (Some o)))
  | In_tcb_info t => mkExtension (Some OID_TCG_DICE_TCB_INFO) critical (Some (n20_x509_ext_tcg_dice_tcb_info_content (Some t)))
  | In_multi_tcb_info m => mkExtension (Some OID_TCG_DICE_MULTI_TCB_INFO) critical (Some (n20_x509_ext_tcg_dice_multi_tcb_info_content (Some m)))
  | In_ueid s => mkExtension (Some OID_TCG_DICE_UEID) critical (Some (n20_x509_ext_tcg_dice_ueid_content (Some s)))
  | In_tcb_freshness s => mkExtension (Some OID_TCG_DICE_TCB_FRESHNESS) critical (Some (n20_x509_ext_tcg_dice_tcb_freshness_content (Some s)))
  | In_other id f _ => mkExtension (Some id) critical (Some f)
  end.

(** The structures in a multi TCB info: a NULL list is empty. *)
Definition used_tcbs (m : multi_tcb_info) : list tcb_info := match mt_list m with Some l => takeN (mt_count m) l | None => [] end.
Definition input_ok (allowed : ub -> Prop) (x : ext_input) : Prop :=
  match x with
  | In_basic_constraints b => bc_path_length b < 2 ^ 32
  | In_key_usage _ => True
  | In_open_dice o => open_dice_ok o
  | In_tcb_info t => tcb_ok t
  | In_multi_tcb_info m => match mt_list m with Some l => mt_count m <= len l | None => True end /\ Forall tcb_ok (used_tcbs m)
  | In_ueid s | In_tcb_freshness s => slice_ok s
  | In_other id f v => oid_encodable id /\ ~ In (oid_arcs id) known_ids /\ renders allowed f v
  end.

Definition flag_eq_dec (f g : key_usage_flag) : {f = g} + {f <> g}.
Proof. decide equality. Defined.
Definition claim_of (x : ext_input) : claim :=
  match x with
  | In_basic_constraints b =>
      Basic_constraints (bc_is_ca b) (if bc_is_ca b && bc_has_path_length b then Some (Z.of_N (bc_path_length b)) else None)
  | In_key_usage l => Key_usage (filter (fun f => if in_dec flag_eq_dec f l then true else false) all_key_usages)
  | In_open_dice o => Open_dice (open_dice_of o)
  | In_tcb_info t => Tcb_info (tcb_of t)
  | In_multi_tcb_info m => Multi_tcb_info (map tcb_of (used_tcbs m))
  | In_ueid s => Ueid (slice_bytes s)
  | In_tcb_freshness s => Tcb_freshness (slice_bytes s)
  | In_other id _ v => Unknown (oid_arcs id) v
  end.

End WithEnv.
