(** The rendering interface as a whole: every public rendering function as one data type, used to state properties of all
    of them at once (C05, C06). *)
From Coq Require Import List NArith ZArith Bool Strings.Byte.
From Verif Require Import Base Stream SpecStream Asn1 SpecAsn1 Cbor Oid X509 X509Ext.
Import ListNotations.
Open Scope N_scope.

(** Calls of the functions declared in include/nat20/stream.h, asn1.h, cbor.h, x509.h and x509_ext_*.h that take a stream.
    A callback argument is arbitrary code [cmd]. *)
Inductive call :=
| CPrepend (src : ptr) (n : N)
| CPut (c : byte)
| CBase128 (n : N)
| CHeader (class_ : N) (constructed : bool) (tag len_ : N)
| CNull (ti : tag_info)
| COid (o : option oid) (ti : tag_info)
| CInteger (s : slice) (little_endian two_complement : bool) (ti : tag_info)
| CUint64 (n : N) (ti : tag_info)
| CInt64 (z : Z) (ti : tag_info)
| CBitstring (b : ptr) (bits : N) (ti : tag_info)
| COctetstring (s : option slice) (ti : tag_info)
| CPrintable (s : option slice) (ti : tag_info)
| CUtf8 (s : option slice) (ti : tag_info)
| CTime (s : option slice) (ti : tag_info)
| CBoolean (b : bool) (ti : tag_info)
| CWithContent (class_ : N) (constructed : bool) (tag : N) (cb : option cmd) (ti : tag_info)
| CSequence (cb : option cmd) (ti : tag_info)
| CCborHeader (type_ n : N)
| CCborNull
| CCborBool (b : bool)
| CCborTag (n : N)
| CCborUint (n : N)
| CCborInt (z : Z)
| CCborBytes (s : slice)
| CCborText (s : slice)
| CCborArray (n : N)
| CCborMap (n : N)
| CName (n : option name)
| CExtension (x : option extensions)
| CBasicConstraints (b : option basic_constraints)
| CKeyUsage (k : option key_usage)
| CAlgorithm (a : option algorithm_identifier)
| CPublicKey (p : option public_key_info)
| CValidity (v : option validity)
| CTbs (t : option tbs)
| CCert (c : option cert)
| COpenDice (o : option open_dice_input)
| CFreshness (s : option slice)
| CUeid (s : option slice)
| CTcbInfo (t : option tcb_info)
| CMultiTcbInfo (m : option multi_tcb_info).

Section WithEnv.
Context `{E : Env}.

Definition exec_call (c : call) : cmd :=
  match c with
  | CPrepend src n => n20_stream_prepend src n
  | CPut c => n20_stream_put c
  | CBase128 n => n20_asn1_base128_int n
  | CHeader c k t n => n20_asn1_header c k t n
  | CNull ti => n20_asn1_null ti
  | COid o ti => n20_asn1_object_identifier o ti
  | CInteger s le tc ti => n20_asn1_integer s le tc ti
  | CUint64 n ti => n20_asn1_uint64 n ti
  | CInt64 z ti => n20_asn1_int64 z ti
  | CBitstring b n ti => n20_asn1_bitstring b n ti
  | COctetstring s ti => n20_asn1_octetstring s ti
  | CPrintable s ti => n20_asn1_printablestring s ti
  | CUtf8 s ti => n20_asn1_utf8_string s ti
  | CTime s ti => n20_asn1_generalized_time s ti
  | CBoolean b ti => n20_asn1_boolean b ti
  | CWithContent c k t cb ti => n20_asn1_header_with_content c k t cb ti
  | CSequence cb ti => n20_asn1_sequence cb ti
  | CCborHeader t n => n20_cbor_write_header t n
  | CCborNull => n20_cbor_write_null
  | CCborBool b => n20_cbor_write_bool b
  | CCborTag n => n20_cbor_write_tag n
  | CCborUint n => n20_cbor_write_uint n
  | CCborInt z => n20_cbor_write_int z
  | CCborBytes s => n20_cbor_write_byte_string s
  | CCborText s => n20_cbor_write_text_string s
  | CCborArray n => n20_cbor_write_array_header n
  | CCborMap n => n20_cbor_write_map_header n
  | CName n => n20_x509_name n
  | CExtension x => n20_x509_extension x
  | CBasicConstraints b => n20_x509_ext_basic_constraints_content b
  | CKeyUsage k => n20_x509_ext_key_usage_content k
  | CAlgorithm a => n20_x509_algorithm_identifier a
  | CPublicKey p => n20_x509_public_key_info p
  | CValidity v => n20_x509_validity v
  | CTbs t => n20_x509_cert_tbs t
  | CCert c => n20_x509_cert c
  | COpenDice o => n20_x509_ext_open_dice_input_content o
  | CFreshness s => n20_x509_ext_tcg_dice_tcb_freshness_content s
  | CUeid s => n20_x509_ext_tcg_dice_ueid_content s
  | CTcbInfo t => n20_x509_ext_tcg_dice_tcb_info_content t
  | CMultiTcbInfo m => n20_x509_ext_tcg_dice_multi_tcb_info_content m
  end.

(** Undefined behaviour known to occur on memory-safe arguments (findings of C08, C09 and C17): a byte read next to an
    integer, the pointer in front of a little-endian integer, memcpy from NULL of zero bytes, negating INT64_MIN.
    In particular no write outside the buffer and no NULL dereference. *)
Definition tolerable (u : ub) : Prop :=
  u = UBReadOob \/ u = UBPtrArith \/ u = UBMemcpyNull \/ u = UBSignedOverflow.

(** Arguments are memory-safe: sizes and counts do not exceed the memory behind the pointers, and callbacks render
    something. Nothing is assumed about the values. *)
Definition cb_ok (cb : option cmd) : Prop :=
  match cb with None => True | Some f => exists b, renders tolerable f b end.
Definition bits_readable (b : ptr) (bits : N) : Prop :=
  bits < SZ /\ match b with None => True | Some d => bits <= 8 * len d end.
Definition opt_ok {A} (ok : A -> Prop) (o : option A) : Prop := match o with None => True | Some a => ok a end.

Definition name_safe (n : name) : Prop :=
  len (name_elements n) = 8 /\ Forall (fun r => slice_ok (rdn_value r)) (name_elements n).
Definition exts_safe (x : extensions) : Prop :=
  match exts_list x with
  | None => True
  | Some l => exts_count x <= len l /\ Forall (fun e => cb_ok (ext_content_cb e)) (takeN (exts_count x) l)
  end.
Definition spki_safe (p : public_key_info) : Prop := bits_readable (spki_key p) (spki_bits p).
Definition validity_safe (v : validity) : Prop := slice_ok (v_not_before v) /\ slice_ok (v_not_after v).
Definition tbs_safe (t : tbs) : Prop :=
  slice_ok (tbs_serial t) /\ name_safe (tbs_issuer t) /\ validity_safe (tbs_validity t) /\ name_safe (tbs_subject t) /\
  spki_safe (tbs_spki t) /\ exts_safe (tbs_exts t).
Definition cert_safe (c : cert) : Prop := opt_ok tbs_safe (c_tbs c) /\ bits_readable (c_signature c) (c_sig_bits c).
Definition open_dice_safe (o : open_dice_input) : Prop :=
  slice_ok (od_code_hash o) /\ slice_ok (od_code_descriptor o) /\ slice_ok (od_configuration_hash o) /\
  slice_ok (od_configuration_descriptor o) /\ slice_ok (od_authority_hash o) /\ slice_ok (od_authority_descriptor o) /\
  slice_ok (od_profile_name o).
Definition tcb_safe (t : tcb_info) : Prop :=
  slice_ok (ti_vendor t) /\ slice_ok (ti_model t) /\ slice_ok (ti_version t) /\
  match ti_fwids t with
  | Some l => ti_fwids_count t <= len l /\ Forall (fun f => slice_ok (fw_digest f)) (takeN (ti_fwids_count t) l)
  | None => True
  end /\
  len (ti_flags t) = 4 /\ len (ti_flags_mask t) = 4 /\ slice_ok (ti_vendor_info t) /\ slice_ok (ti_type_ t).
Definition multi_safe (m : multi_tcb_info) : Prop :=
  match mt_list m with
  | Some l => mt_count m <= len l /\ Forall tcb_safe (takeN (mt_count m) l)
  | None => True
  end.

Definition call_ok (c : call) : Prop :=
  match c with
  | CPrepend src n => n < SZ /\ match src with Some d => n <= len d | None => n = 0 end
  | CHeader _ _ _ n => n < SZ
  | CInteger s _ _ _ => slice_ok s
  | CBitstring b n _ => bits_readable b n
  | COctetstring s _ | CPrintable s _ | CUtf8 s _ | CTime s _ => opt_ok slice_ok s
  | CWithContent _ _ _ cb _ | CSequence cb _ => cb_ok cb
  | CCborInt z => (- 2 ^ 63 <= z < 2 ^ 63)%Z
  | CCborBytes s | CCborText s => slice_ok s
  | CName n => opt_ok name_safe n
  | CExtension x => opt_ok exts_safe x
  | CPublicKey p => match p with None => False | Some p => spki_safe p end
  | CValidity v => match v with None => False | Some v => validity_safe v end
  | CTbs t => opt_ok tbs_safe t
  | CCert c => opt_ok cert_safe c
  | COpenDice o => opt_ok open_dice_safe o
  | CFreshness s | CUeid s => opt_ok slice_ok s
  | CTcbInfo t => opt_ok tcb_safe t
  | CMultiTcbInfo m => opt_ok multi_safe m
  | _ => True
  end.

(** A program: calls one after the other on the same stream. *)
Definition exec_calls (cs : list call) (w : world) : world := fold_left (fun w c => exec_call c w) cs w.
Definition run_calls (buf : option (list byte)) (size : N) (cs : list call) : world :=
  exec_calls cs (mkWorld (Some (n20_stream_init buf size)) []).

End WithEnv.
