(** Property C20, second part: the library's object identifiers are the registered ones. *)
From Coq Require Import List NArith ZArith Bool Strings.Byte.
From Verif Require Import Base Stream SpecStream Asn1 Oid.
Import ListNotations.
Open Scope N_scope.

(** ** The registration tree, top down; each node names the document that registers it *)
Definition under (parent : list N) (arc : N) : list N := parent ++ [arc].
Definition iso : list N := [1].
Definition joint_iso_itu_t : list N := [2].
Definition iso_us : list N := under (under iso 2) 840.                                       (* ISO member body, US *)
Definition rsadsi : list N := under iso_us 113549.
Definition pkcs_1 : list N := under (under rsadsi 1) 1.                                      (* RFC 8017, appendix C *)
Definition ansi_x9_62 : list N := under iso_us 10045.
Definition x9_62_key_type : list N := under ansi_x9_62 2.                                    (* RFC 5480, 2.1.1 *)
Definition x9_62_prime_curve : list N := under (under ansi_x9_62 3) 1.                       (* RFC 5480, 2.1.1.1 *)
Definition ecdsa_with_sha2 : list N := under (under ansi_x9_62 4) 3.                         (* RFC 5758, 3.2 *)
Definition iso_identified_organization : list N := under iso 3.
Definition certicom_curve : list N := under (under iso_identified_organization 132) 0.       (* RFC 5480, 2.1.1.1 *)
Definition thawte : list N := under iso_identified_organization 101.                         (* RFC 8410, 3 *)
Definition enterprise : list N := fold_left under [6; 1; 4; 1] iso_identified_organization.  (* IANA *)
Definition google : list N := under enterprise 11129.
Definition nist_hash_algs : list N := fold_left under [16; 840; 1; 101; 3; 4; 2] joint_iso_itu_t. (* RFC 5754, 2 *)
Definition ds : list N := under joint_iso_itu_t 5.
Definition attribute_type : list N := under ds 4.                                            (* RFC 5280, appendix A.1 *)
Definition certificate_extension : list N := under ds 29.                                    (* RFC 5280, 4.2.1 *)
Definition tcg_dice : list N := fold_left under [23; 133; 5; 4] joint_iso_itu_t.             (* TCG DICE Attestation Architecture *)

(** The constants of include/nat20/oid.h and what each name stands for. *)
Definition registered : list (oid * list N) :=
  [ (OID_RSA_ENCRYPTION, under pkcs_1 1); (OID_SHA256_WITH_RSA_ENC, under pkcs_1 11);
    (OID_ED25519, under thawte 112);
    (OID_EC_PUBLIC_KEY, under x9_62_key_type 1); (OID_SECP256R1, under x9_62_prime_curve 7); (OID_SECP384R1, under certicom_curve 34);
    (OID_SHA256, under nist_hash_algs 1); (OID_SHA384, under nist_hash_algs 2); (OID_SHA512, under nist_hash_algs 3); (OID_SHA224, under nist_hash_algs 4);
    (OID_ECDSA_WITH_SHA224, under ecdsa_with_sha2 1); (OID_ECDSA_WITH_SHA256, under ecdsa_with_sha2 2);
    (OID_ECDSA_WITH_SHA384, under ecdsa_with_sha2 3); (OID_ECDSA_WITH_SHA512, under ecdsa_with_sha2 4);
    (OID_COMMON_NAME, under attribute_type 3); (OID_SERIAL_NUMBER, under attribute_type 5); (OID_COUNTRY_NAME, under attribute_type 6);
    (OID_LOCALITY_NAME, under attribute_type 7); (OID_STATE_OR_PROVINCE_NAME, under attribute_type 8);
    (OID_ORGANIZATION_NAME, under attribute_type 10); (OID_ORGANIZATION_UNIT_NAME, under attribute_type 11);
    (OID_KEY_USAGE, under certificate_extension 15); (OID_BASIC_CONSTRAINTS, under certificate_extension 19);
    (OID_OPEN_DICE_INPUT, fold_left under [2; 1; 24] google);
    (OID_TCG_DICE_TCB_INFO, under tcg_dice 1); (OID_TCG_DICE_UEID, under tcg_dice 4); (OID_TCG_DICE_MULTI_TCB_INFO, under tcg_dice 5);
    (OID_TCG_DICE_TCB_FRESHNESS, under tcg_dice 11) ].

(** Every constant of the library is in the table, and has exactly the registered arcs (with zeros in the unused slots). *)
Theorem C20_library_oids_registered :
  (forall o, In o all_oids -> In o (map fst registered)) /\
  (forall o arcs, In (o, arcs) registered ->
     oid_elem_count o = len arcs /\ len arcs <= 10 /\ len (oid_elements o) = 10 /\
     takeN (oid_elem_count o) (oid_elements o) = arcs /\ Forall (eq 0) (dropN (oid_elem_count o) (oid_elements o))).
Proof.
  split.
  - intros o H. cbv [all_oids In] in H. cbv [registered map fst In].
    repeat (destruct H as [H|H]; [subst o; tauto|]). destruct H.
  - intros o arcs H. cbv [registered In] in H.
    repeat (destruct H as [H|H];
      [injection H as <- <-; repeat split; try (vm_compute; congruence); vm_compute; repeat constructor|]). destruct H.
Qed.
Print Assumptions C20_library_oids_registered.

(** Two of them rendered, against their usual DER encodings. *)
#[local] Instance env64 : Env := {| size_width := W64; host_little_endian := true; stray := fun _ => x00 |}.
Definition rendered_oid (o : oid) : list byte :=
  match w_stream (n20_asn1_object_identifier (Some o) n20_asn1_tag_info_no_override
                    (mkWorld (Some (n20_stream_init (Some (repeat x00 32)) 32)) [])) with
  | Some s => stream_contents s
  | None => []
  end.
Example C20_registered_example :
  rendered_oid OID_ECDSA_WITH_SHA384 = bytes [0x06; 0x08; 0x2a; 0x86; 0x48; 0xce; 0x3d; 0x04; 0x03; 0x03] /\
  rendered_oid OID_ED25519 = bytes [0x06; 0x03; 0x2b; 0x65; 0x70].
Proof. split; vm_compute; reflexivity. Qed.
