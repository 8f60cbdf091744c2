(** Model of the DICE extensions: src/core/x509_ext_open_dice_input.c, src/core/x509_ext_tcg_dice_tcb_freshness.c,
    src/core/x509_ext_tcg_dice_tcb_info.c and src/core/x509_ext_tcg_dice_ueid.c. *)
From Coq Require Import List NArith ZArith Bool Strings.Byte.
From Verif Require Import Base Stream Asn1 Oid.
Import ListNotations.
Open Scope N_scope.
Open Scope cmd_scope.

(** include/nat20/x509_ext_open_dice_input.h:69-156. [mode] is the enumeration value converted to uint64_t. *)
Record open_dice_input := mkOpenDice {
  od_code_hash : slice;
  od_code_descriptor : slice;
  od_configuration_hash : slice;
  od_configuration_descriptor : slice;
  od_authority_hash : slice;
  od_authority_descriptor : slice;
  od_mode : N;
  od_profile_name : slice
}.

(** include/nat20/x509_ext_tcg_dice_tcb_info.h:53-104: the macros setting operational flags; the flags are four bytes. *)
Inductive operational_flag :=
| OF_not_configured | OF_not_secure | OF_recovery | OF_debug | OF_not_replay_protected | OF_not_integrity_protected
| OF_not_runtime_measured | OF_not_immutable | OF_not_tcb | OF_fixed_width.
Definition or_nth (i : nat) (m : N) (l : list byte) : list byte :=
  firstn i l ++ match skipn i l with [] => [] | b :: r => n2b (N.lor (b2n b) m) :: r end.
Definition operational_flag_set (f : operational_flag) (l : list byte) : list byte :=
  match f with
  | OF_not_configured => or_nth 0 0x80 l
  | OF_not_secure => or_nth 0 0x40 l
  | OF_recovery => or_nth 0 0x20 l
  | OF_debug => or_nth 0 0x10 l
  | OF_not_replay_protected => or_nth 0 0x08 l
  | OF_not_integrity_protected => or_nth 0 0x04 l
  | OF_not_runtime_measured => or_nth 0 0x02 l
  | OF_not_immutable => or_nth 0 0x01 l
  | OF_not_tcb => or_nth 1 0x80 l
  | OF_fixed_width => or_nth 3 0x01 l
  end.

(** include/nat20/x509_ext_tcg_dice_tcb_info.h:150-162 *)
Record fwid := mkFwid { fw_algo : oid; fw_digest : slice }.

(** include/nat20/x509_ext_tcg_dice_tcb_info.h:206-277. The FWID list is its count and array; the flags are four bytes. *)
Record tcb_info := mkTcbInfo {
  ti_vendor : slice;
  ti_model : slice;
  ti_version : slice;
  ti_svn : Z;
  ti_layer : Z;
  ti_index : Z;
  ti_fwids_count : N;
  ti_fwids : option (list fwid);
  ti_flags : list byte;
  ti_flags_mask : list byte;
  ti_vendor_info : slice;
  ti_type_ : slice
}.

(** include/nat20/x509_ext_tcg_dice_tcb_info.h:315-328 *)
Record multi_tcb_info := mkMulti { mt_count : N; mt_list : option (list tcb_info) }.

Section WithEnv.
Context `{E : Env}.

(** The pattern [if (x.buffer != NULL) f(s, &x, tag)]. *)
Definition if_present (s : slice) (f : cmd) : cmd := match sl_buf s with Some _ => f | None => skip end.

(** src/core/x509_ext_open_dice_input.c:22-69 *)
Definition open_dice_sequence_content (o : open_dice_input) : cmd :=
  if_present (od_profile_name o)
    (n20_asn1_utf8_string (Some (od_profile_name o)) (n20_asn1_tag_info_explicit 7)) ;;
  n20_asn1_uint64 (od_mode o) (n20_asn1_tag_info_explicit 6) ;;
  if_present (od_authority_descriptor o)
    (n20_asn1_octetstring (Some (od_authority_descriptor o)) (n20_asn1_tag_info_explicit 5)) ;;
  if_present (od_authority_hash o)
    (n20_asn1_octetstring (Some (od_authority_hash o)) (n20_asn1_tag_info_explicit 4)) ;;
  if_present (od_configuration_descriptor o)
    (n20_asn1_octetstring (Some (od_configuration_descriptor o)) (n20_asn1_tag_info_explicit 3)) ;;
  if_present (od_configuration_hash o)
    (n20_asn1_octetstring (Some (od_configuration_hash o)) (n20_asn1_tag_info_explicit 2)) ;;
  if_present (od_code_descriptor o)
    (n20_asn1_octetstring (Some (od_code_descriptor o)) (n20_asn1_tag_info_explicit 1)) ;;
  if_present (od_code_hash o)
    (n20_asn1_octetstring (Some (od_code_hash o)) (n20_asn1_tag_info_explicit 0)).

(** src/core/x509_ext_open_dice_input.c:71-78 *)
Definition n20_x509_ext_open_dice_input_content (o : option open_dice_input) : cmd :=
  match o with
  | None => skip
  | Some o => n20_asn1_sequence (Some (open_dice_sequence_content o)) n20_asn1_tag_info_no_override
  end.

(** src/core/x509_ext_tcg_dice_tcb_freshness.c:22-41. The context is a structure holding one slice, the nonce. *)
Definition n20_x509_ext_tcg_dice_tcb_freshness_content (nonce : option slice) : cmd :=
  match nonce with
  | None => skip
  | Some n => n20_asn1_sequence (Some (n20_asn1_octetstring (Some n) n20_asn1_tag_info_no_override))
                n20_asn1_tag_info_no_override
  end.

(** src/core/x509_ext_tcg_dice_ueid.c:22-37. The context is a structure holding one slice, the UEID. *)
Definition n20_x509_ext_tcg_dice_ueid_content (ueid : option slice) : cmd :=
  match ueid with
  | None => skip
  | Some n => n20_asn1_sequence (Some (n20_asn1_octetstring (Some n) n20_asn1_tag_info_no_override))
                n20_asn1_tag_info_no_override
  end.

(** src/core/x509_ext_tcg_dice_tcb_info.c:22-34 *)
Definition fwid_content (f : fwid) : cmd :=
  n20_asn1_octetstring (Some (fw_digest f)) n20_asn1_tag_info_no_override ;;
  n20_asn1_object_identifier (Some (fw_algo f)) n20_asn1_tag_info_no_override.

(** src/core/x509_ext_tcg_dice_tcb_info.c:36-50: elements count-1, ..., 0 *)
Fixpoint fwid_list_loop (k : nat) (l : list fwid) : cmd :=
  match k with
  | O => skip
  | S i =>
      (match nth_error l i with
       | Some f => n20_asn1_sequence (Some (fwid_content f)) n20_asn1_tag_info_no_override
       | None => log [UBReadOob]
       end) ;;
      fwid_list_loop i l
  end.

(** src/core/x509_ext_tcg_dice_tcb_info.c:52-110. 8 * sizeof(uint8_t[4]) is 32. *)
Definition tcb_info_sequence_content (t : tcb_info) : cmd :=
  n20_asn1_bitstring (Some (ti_flags_mask t)) 32 (n20_asn1_tag_info_implicit 10) ;;
  if_present (ti_type_ t) (n20_asn1_octetstring (Some (ti_type_ t)) (n20_asn1_tag_info_implicit 9)) ;;
  if_present (ti_vendor_info t) (n20_asn1_octetstring (Some (ti_vendor_info t)) (n20_asn1_tag_info_implicit 8)) ;;
  n20_asn1_bitstring (Some (ti_flags t)) 32 (n20_asn1_tag_info_implicit 7) ;;
  (match ti_fwids t with
   | None => skip
   | Some l => n20_asn1_sequence (Some (fwid_list_loop (N.to_nat (ti_fwids_count t)) l)) (n20_asn1_tag_info_implicit 6)
   end) ;;
  n20_asn1_int64 (ti_index t) (n20_asn1_tag_info_implicit 5) ;;
  n20_asn1_int64 (ti_layer t) (n20_asn1_tag_info_implicit 4) ;;
  n20_asn1_int64 (ti_svn t) (n20_asn1_tag_info_implicit 3) ;;
  if_present (ti_version t) (n20_asn1_utf8_string (Some (ti_version t)) (n20_asn1_tag_info_implicit 2)) ;;
  if_present (ti_model t) (n20_asn1_utf8_string (Some (ti_model t)) (n20_asn1_tag_info_implicit 1)) ;;
  if_present (ti_vendor t) (n20_asn1_utf8_string (Some (ti_vendor t)) (n20_asn1_tag_info_implicit 0)).

(** src/core/x509_ext_tcg_dice_tcb_info.c:112-121 *)
Definition n20_x509_ext_tcg_dice_tcb_info_content (t : option tcb_info) : cmd :=
  match t with
  | None => skip
  | Some t => n20_asn1_sequence (Some (tcb_info_sequence_content t)) n20_asn1_tag_info_no_override
  end.

(** src/core/x509_ext_tcg_dice_tcb_info.c:133-136: elements count-1, ..., 0 *)
Fixpoint multi_tcb_loop (k : nat) (l : list tcb_info) : cmd :=
  match k with
  | O => skip
  | S i =>
      (match nth_error l i with
       | Some t => n20_x509_ext_tcg_dice_tcb_info_content (Some t)
       | None => log [UBReadOob]
       end) ;;
      multi_tcb_loop i l
  end.

(** src/core/x509_ext_tcg_dice_tcb_info.c:139-148, with the callback 123-137. *)
Definition n20_x509_ext_tcg_dice_multi_tcb_info_content (m : option multi_tcb_info) : cmd :=
  match m with
  | None => skip
  | Some m =>
      n20_asn1_sequence
        (Some (match mt_list m with None => skip | Some l => multi_tcb_loop (N.to_nat (mt_count m)) l end))
        n20_asn1_tag_info_no_override
  end.

End WithEnv.
