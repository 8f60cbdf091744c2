(** Properties C11-C19 and C21: ASN.1/DER rendering.

    [renders allowed f b] (SpecStream.v): on every stream, with every buffer and history, [f] writes exactly [b] in front
    of what is there, and the only undefined behaviour is [allowed] ([clean]: none; [stray_reads]: reads outside an object
    or out-of-range pointer values). [decodes b t] (SpecDer.v): a strict DER reader recovers [t] from [b]. *)
From Coq Require Import List NArith ZArith Bool Strings.Byte Lia.
From Verif Require Import Base BaseFacts Stream SpecStream StreamProofs SpecDigits SpecDer DerFacts Asn1 SpecAsn1 Asn1Proofs.
Import ListNotations.
Open Scope N_scope.

#[local] Instance env64 : Env := {| size_width := W64; host_little_endian := true; stray := fun _ => x00 |}.

(** Runs a renderer on a fresh 64-byte buffer; used by the examples only. *)
Definition rendered (f : cmd) : list byte :=
  match w_stream (f (mkWorld (Some (n20_stream_init (Some (repeat x00 64)) 64)) [])) with
  | Some s => stream_contents s
  | None => []
  end.

Ltac small := repeat split; cbn; try reflexivity; try exact I; pose proof SZ_lo; pose proof SZ_hi; try lia.

(** ** C11 *)
Theorem C11_asn1_header_is_der : forall (E : Env) class constructed tag n,
  class < 4 -> n < SZ ->
  exists b, renders clean (n20_asn1_header class constructed tag n) b /\
    (forall rest, read_header (b ++ rest) = Some (class, constructed, tag, n, rest)) /\
    (forall b', read_header b' = Some (class, constructed, tag, n, []) -> b' = b).
Proof.
  intros E c k t n Hc Hn. pose proof SZ_hi.
  assert (Hn' : n < 2 ^ 64) by (change (2 ^ 64) with 18446744073709551616; lia).
  exists (enc_ident c k t ++ enc_len n). splits.
  - eapply renders_eq; [|apply header_renders; exact Hn']. now rewrite N.mod_small.
  - intro rest. now apply read_header_enc.
  - intros b' Hb. apply read_header_canonical in Hb. now rewrite app_nil_r in Hb.
Qed.
Print Assumptions C11_asn1_header_is_der.

Example C11_example : rendered (n20_asn1_header 2 true 808 450) = bytes [0xbf; 0x86; 0x28; 0x82; 0x01; 0xc2].
Proof. reflexivity. Qed.

(** ** C12 *)
Theorem C12_asn1_base128_minimal_and_invertible : forall (E : Env) n,
  exists b, renders clean (n20_asn1_base128_int n) b /\
    (forall rest, read_base128 (b ++ rest) = Some (n, rest)) /\
    (forall b', read_base128 b' = Some (n, []) -> b' = b).
Proof.
  intros E n. exists (enc_base128 n). splits.
  - apply base128_renders.
  - intro. apply read_enc_base128.
  - intros b' Hb. apply read_base128_canonical in Hb. now rewrite app_nil_r in Hb.
Qed.
Print Assumptions C12_asn1_base128_minimal_and_invertible.

Example C12_example : rendered (n20_asn1_base128_int 113549) = bytes [0x86; 0xf7; 0x0d].
Proof. reflexivity. Qed.

(** ** C13: exactly one TLV around whatever the callback renders. *)
Theorem C13_asn1_length_matches_content : forall (E : Env) allowed class constructed tag f c,
  renders allowed f c -> len c < SZ -> class < 4 ->
  exists b, renders allowed
              (n20_asn1_header_with_content class constructed tag (Some f) n20_asn1_tag_info_no_override) b /\
            decodes b (Tlv class constructed tag c).
Proof.
  intros E P c k t f a Hf Hl Hc. exists (enc_tlv (Tlv c k t a)). split.
  - now apply (hwc_renders P c k t (Some f) a n20_asn1_tag_info_no_override).
  - apply enc_decodes. pose proof SZ_pow. split; cbn; lia.
Qed.
Print Assumptions C13_asn1_length_matches_content.
(** 300 octets of content, class application, a tag number above 30. *)
Example C13_length_case : let f := n20_stream_prepend (Some (repeat x07 300)) 300 in
  renders clean f (repeat x07 300) /\
  exists b, renders clean (n20_asn1_header_with_content 1 true 200 (Some f) n20_asn1_tag_info_no_override) b /\
            decodes b (Tlv 1 true 200 (repeat x07 300)).
Proof.
  cbv zeta. assert (R : renders clean (n20_stream_prepend (Some (repeat x07 300)) 300) (repeat x07 300)) by (apply (renders_prepend_all clean (repeat x07 300)); reflexivity).
  split; [exact R|]. destruct (C13_asn1_length_matches_content env64 clean 1 true 200 _ _ R) as (b & H1 & H2); [reflexivity|reflexivity|].
  exists b. now split.
Qed.

(** The same under every tag override ([retag]: X.680 tagging, SpecDer.v). *)
Theorem C13_asn1_length_matches_content_any_override : forall (E : Env) allowed class constructed tag f c ti,
  renders allowed f c -> len c + 32 <= SZ -> class < 4 -> tag < 2 ^ 32 -> ti_ok ti ->
  exists b, renders allowed (n20_asn1_header_with_content class constructed tag (Some f) ti) b /\
            decodes b (retag (tagging_of ti) (Tlv class constructed tag c)).
Proof.
  intros E P c k t f a ti Hf Hl Hc Ht Hti. pose proof SZ_pow.
  pose proof (retag_content_small ti c k t a Hti Ht Hl) as Hsm.
  exists (enc_tlv (retag (tagging_of ti) (Tlv c k t a))). split.
  - now apply (hwc_renders P c k t (Some f) a ti).
  - apply enc_decodes. split; [destruct ti as [[] ?]; cbn; lia|lia].
Qed.
Print Assumptions C13_asn1_length_matches_content_any_override.
Example C13_override_case : let ti := n20_asn1_tag_info_explicit 4294967295 in
  ti_ok ti /\ rendered (n20_asn1_header_with_content 0 false 4 (Some (n20_stream_put x07)) ti) = bytes [0xbf; 0x8f; 0xff; 0xff; 0xff; 0x7f; 3; 4; 1; 7] /\
  retag (tagging_of ti) (Tlv 0 false 4 [x07]) = Tlv 2 true 4294967295 (bytes [4; 1; 7]).
Proof. cbv zeta. splits; vm_compute; reflexivity. Qed.

Theorem C13_asn1_sequence_wraps_content : forall (E : Env) allowed f c,
  renders allowed f c -> len c < SZ ->
  exists b, renders allowed (n20_asn1_sequence (Some f) n20_asn1_tag_info_no_override) b /\
            decodes b (Tlv 0 true 16 c).
Proof.
  intros E P f c Hf Hl. exists (enc_tlv (tlv_sequence c)). split.
  - now apply (sequence_renders P (Some f) c n20_asn1_tag_info_no_override).
  - apply enc_decodes. pose proof SZ_pow. split; cbn; lia.
Qed.
Print Assumptions C13_asn1_sequence_wraps_content.
Example C13_sequence_case :
  exists b, renders clean (n20_asn1_sequence (Some (n20_stream_prepend (Some [x05; x00]) 2)) n20_asn1_tag_info_no_override) b /\ decodes b (Tlv 0 true 16 [x05; x00]).
Proof. apply C13_asn1_sequence_wraps_content; [apply (renders_prepend_all clean [x05; x00]); reflexivity|reflexivity]. Qed.

Theorem C13_asn1_null_callback_is_empty : forall (E : Env) class constructed tag,
  class < 4 ->
  exists b, renders clean
              (n20_asn1_header_with_content class constructed tag None n20_asn1_tag_info_no_override) b /\
            decodes b (Tlv class constructed tag []).
Proof.
  intros E c k t Hc. pose proof SZ_pos. exists (enc_tlv (Tlv c k t [])). split.
  - apply (hwc_renders clean c k t None [] n20_asn1_tag_info_no_override); [reflexivity|assumption|cbn; assumption].
  - apply enc_decodes. split; [assumption|reflexivity].
Qed.
Print Assumptions C13_asn1_null_callback_is_empty.
Example C13_null_callback_case : rendered (n20_asn1_header_with_content 3 false 31 None n20_asn1_tag_info_no_override) = bytes [0xdf; 0x1f; 0].
Proof. reflexivity. Qed.

(** Nesting: a tree of constructed values rendered through nested callbacks decodes level by level. *)
Inductive tree := Leaf (class tag : N) (c : list byte) | Node (class tag : N) (l : list tree).

(** The C pattern: a callback that renders its children, last to first. *)
Fixpoint render_tree (E : Env) (t : tree) : cmd :=
  match t with
  | Leaf class tag c =>
      n20_asn1_header_with_content class false tag (Some (n20_stream_prepend (Some c) (len c)))
        n20_asn1_tag_info_no_override
  | Node class tag l =>
      n20_asn1_header_with_content class true tag
        (Some (fold_right (fun t acc => andthen acc (render_tree E t)) skip l)) n20_asn1_tag_info_no_override
  end.
Fixpoint tree_bytes (t : tree) : list byte :=
  match t with
  | Leaf class tag c => enc_tlv (Tlv class false tag c)
  | Node class tag l => enc_tlv (Tlv class true tag (concat (map tree_bytes l)))
  end.
Fixpoint tree_ok (E : Env) (t : tree) : Prop :=
  match t with
  | Leaf class tag c => class < 4
  | Node class tag l => class < 4 /\ fold_right (fun t P => tree_ok E t /\ P) True l
  end.
(** Reading back: [matches b t] says the reader finds exactly [t] in [b]. *)
Fixpoint matches (b : list byte) (t : tree) : Prop :=
  match t with
  | Leaf class tag c => decodes b (Tlv class false tag c)
  | Node class tag l =>
      exists parts, decodes b (Tlv class true tag (concat parts)) /\
        (fix all parts l {struct l} := match parts, l with
                            | [], [] => True
                            | p :: ps, t :: ts => matches p t /\ all ps ts
                            | _, _ => False
                            end) parts l
  end.

Fixpoint tree_size (t : tree) : nat :=
  match t with Leaf _ _ _ => 1%nat | Node _ _ l => S (fold_right (fun t n => (tree_size t + n)%nat) 0%nat l) end.

Theorem C13_asn1_nesting : forall (E : Env) t,
  tree_ok E t -> len (tree_bytes t) < SZ ->
  renders clean (render_tree E t) (tree_bytes t) /\ matches (tree_bytes t) t.
Proof.
  intros E t. remember (tree_size t) as n eqn:Hn. revert t Hn.
  induction n as [n IH] using (well_founded_induction Wf_nat.lt_wf). intros t Hn Hok Hl.
  pose proof SZ_pow as HP. destruct t as [cl tg c|cl tg l].
  - cbn in *. pose proof (len_enc_tlv (Tlv cl false tg c)) as [_ Hc]. cbn in Hc. split.
    + apply (hwc_renders clean cl false tg (Some _) c n20_asn1_tag_info_no_override); [|assumption|cbn; lia].
      apply renders_prepend_all. lia.
    + apply enc_decodes. split; cbn; lia.
  - cbn [tree_ok tree_bytes render_tree] in *. destruct Hok as [Hcl Hok].
    pose proof (len_enc_tlv (Tlv cl true tg (concat (map tree_bytes l)))) as [_ Hc]. cbn [t_content] in Hc.
    assert (Hall : renders clean (fold_right (fun t acc => andthen acc (render_tree E t)) skip l)
                     (concat (map tree_bytes l)) /\
                   (fix all parts l {struct l} := match parts, l with
                            | [], [] => True
                            | p :: ps, t :: ts => matches p t /\ all ps ts
                            | _, _ => False
                            end) (map tree_bytes l) l).
    { assert (Hsz : (fold_right (fun t n => (tree_size t + n)%nat) 0%nat l < n)%nat) by (cbn in Hn; lia).
      assert (Hlen : len (concat (map tree_bytes l)) < SZ) by lia.
      clear Hn Hl Hc Hcl. induction l as [|t l IHl]; [split; [apply renders_skip|exact I]|].
      cbn [fold_right map concat] in *. destruct Hok as [Hok1 Hok2]. rewrite len_app in Hlen.
      destruct (IH (tree_size t) ltac:(lia) t eq_refl Hok1 ltac:(lia)) as [R1 M1].
      destruct (IHl Hok2 ltac:(lia) ltac:(lia)) as [R2 M2].
      split; [now apply renders_seq|]. now split. }
    destruct Hall as [HR HM]. split.
    + apply (hwc_renders clean cl true tg (Some _) _ n20_asn1_tag_info_no_override); [exact HR|assumption|cbn; lia].
    + cbn [matches]. exists (map tree_bytes l). split; [|exact HM].
      apply enc_decodes. split; cbn; lia.
Qed.
Print Assumptions C13_asn1_nesting.

Example C13_example :
  let t := Node 0 16 [Leaf 0 2 [x01]; Node 2 3 [Leaf 0 4 []; Leaf 0 5 []]] in
  tree_ok env64 t /\ rendered (render_tree env64 t) = bytes [0x30; 9; 2; 1; 1; 0xa3; 4; 4; 0; 5; 0].
Proof. split; [cbn; repeat split; reflexivity|reflexivity]. Qed.

(** ** C14 *)
Theorem C14_asn1_tag_overrides : forall (E : Env) allowed class constructed tag f c n,
  renders allowed f c -> class < 4 -> n < 2 ^ 31 -> len c + 32 <= SZ -> tag < 2 ^ 32 ->
  let run ti := n20_asn1_header_with_content class constructed tag (Some f) ti in
  exists plain implicit explicit,
    renders allowed (run n20_asn1_tag_info_no_override) plain /\
    decodes plain (Tlv class constructed tag c) /\
    renders allowed (run (n20_asn1_tag_info_implicit (Z.of_N n))) implicit /\
    decodes implicit (Tlv 2 constructed n c) /\
    renders allowed (run (n20_asn1_tag_info_explicit (Z.of_N n))) explicit /\
    decodes explicit (Tlv 2 true n plain).
Proof.
  intros E P c k t f a n Hf Hc Hn Hl Ht. cbv zeta. pose proof SZ_pow as HP.
  set (tlv0 := Tlv c k t a).
  assert (Hi : tagging_of (n20_asn1_tag_info_implicit (Z.of_N n)) = Implicit n).
  { unfold tagging_of. cbn. f_equal. rewrite Z.mod_small; [apply N2Z.id|]. change (2 ^ 31) with 2147483648 in Hn. lia. }
  assert (He : tagging_of (n20_asn1_tag_info_explicit (Z.of_N n)) = Explicit n).
  { unfold tagging_of. cbn. f_equal. rewrite Z.mod_small; [apply N2Z.id|]. change (2 ^ 31) with 2147483648 in Hn. lia. }
  assert (Hok : ti_ok (n20_asn1_tag_info_explicit (Z.of_N n))).
  { unfold ti_ok. cbn. change (2 ^ 32) with 4294967296. change (2 ^ 31) with 2147483648 in Hn.
    rewrite Z.mod_small by lia. lia. }
  pose proof (retag_content_small (n20_asn1_tag_info_explicit (Z.of_N n)) c k t a Hok Ht Hl) as Hsm.
  rewrite He in Hsm. cbn in Hsm.
  exists (enc_tlv tlv0), (enc_tlv (Tlv 2 k n a)), (enc_tlv (Tlv 2 true n (enc_tlv tlv0))). splits.
  - apply (hwc_renders P c k t (Some f) a n20_asn1_tag_info_no_override); [assumption|assumption|cbn; lia].
  - apply enc_decodes. split; cbn; lia.
  - pose proof (hwc_renders P c k t (Some f) a (n20_asn1_tag_info_implicit (Z.of_N n)) Hf Hc) as H. rewrite Hi in H.
    apply H. cbn. lia.
  - apply enc_decodes. split; cbn; lia.
  - pose proof (hwc_renders P c k t (Some f) a (n20_asn1_tag_info_explicit (Z.of_N n)) Hf Hc) as H. rewrite He in H.
    apply H. exact Hsm.
  - apply enc_decodes. split; cbn; unfold tlv0; lia.
Qed.
Print Assumptions C14_asn1_tag_overrides.
Example C14_overrides_case :
  let run ti := n20_asn1_header_with_content 0 true 16 (Some (n20_asn1_null n20_asn1_tag_info_no_override)) ti in
  renders clean (n20_asn1_null n20_asn1_tag_info_no_override) [x05; x00] /\
  rendered (run n20_asn1_tag_info_no_override) = bytes [0x30; 2; 5; 0] /\ rendered (run (n20_asn1_tag_info_implicit 1)) = bytes [0xa1; 2; 5; 0] /\
  rendered (run (n20_asn1_tag_info_explicit 1)) = bytes [0xa1; 4; 0x30; 2; 5; 0].
Proof. cbv zeta. split; [apply (null_renders clean n20_asn1_tag_info_no_override)|]. splits; vm_compute; reflexivity. Qed.

(** The fallbacks to ASN.1 NULL ignore the override. *)
Theorem C14_asn1_null_fallbacks_ignore_override : forall (E : Env) ti,
  (forall o, match o with None => True | Some o => 10 < oid_elem_count o end ->
     renders clean (n20_asn1_object_identifier o ti) [x05; x00]) /\
  (forall size le tc, renders clean (n20_asn1_integer (mkSlice size None) le tc ti) [x05; x00]) /\
  renders clean (n20_asn1_generalized_time None ti) [x05; x00].
Proof.
  intros E ti. splits.
  - intros o H. now apply object_identifier_null_renders.
  - intros. apply integer_null_renders.
  - apply generalized_time_null_renders.
Qed.
Print Assumptions C14_asn1_null_fallbacks_ignore_override.
Example C14_fallbacks_case : let ti := n20_asn1_tag_info_explicit 9 in
  rendered (n20_asn1_object_identifier (Some (mkOid 11 (repeat 1 10))) ti) = [x05; x00] /\ rendered (n20_asn1_object_identifier None ti) = [x05; x00] /\
  rendered (n20_asn1_integer (mkSlice 3 None) true true ti) = [x05; x00] /\ rendered (n20_asn1_generalized_time None ti) = [x05; x00].
Proof. cbv zeta. splits; vm_compute; reflexivity. Qed.

(** n20_asn1_null itself honours the override. *)
Theorem C14_asn1_null_override : forall (E : Env) ti,
  renders clean (n20_asn1_null ti) (enc_tlv (retag (tagging_of ti) tlv_null)).
Proof. intros E ti. apply null_renders. Qed.
Print Assumptions C14_asn1_null_override.

Example C14_example :
  rendered (n20_asn1_null (n20_asn1_tag_info_implicit 7)) = bytes [0x87; 0] /\
  rendered (n20_asn1_null (n20_asn1_tag_info_explicit 7)) = bytes [0xa7; 2; 5; 0] /\
  rendered (n20_asn1_octetstring (Some (slice_of [x07])) (n20_asn1_tag_info_explicit 31))
    = bytes [0xbf; 0x1f; 3; 4; 1; 7].
Proof. repeat split. Qed.

(** ** C15 *)
Theorem C15_asn1_integer_value : forall (E : Env) d size little_endian two_complement ti,
  0 < size -> size <= len d -> size + 40 <= SZ -> ti_ok ti ->
  exists b content, renders stray_reads (n20_asn1_integer (mkSlice size (Some d)) little_endian two_complement ti) b /\
    decodes b (retag (tagging_of ti) (tlv_integer content)) /\
    read_int content = Some (number_of (takeN size d) little_endian two_complement) /\
    (forall c', read_int c' = read_int content -> c' = content).
Proof.
  intros E d size le tc ti H0 Hs Hsz Hti. pose proof SZ_pow as HP.
  set (z := number_of (takeN size d) le tc).
  assert (Hlen : len (enc_int z) <= size + 1).
  { pose proof (int_octets_value d size le tc H0 Hs) as HV. apply read_int_unique in HV. fold z in HV. rewrite <- HV.
    unfold int_octets_of. cbv zeta. rewrite len_app.
    assert (forall x (v : list byte), len (skipn (lead x v) v) <= len v) as HK.
    { intros x v. unfold len. rewrite skipn_length. lia. }
    specialize (HK (if tc && high_bit (deref d (idx le size 0)) then xff else x00) (be_of le (takeN size d))).
    assert (len (be_of le (takeN size d)) = size) as HB.
    { unfold len. rewrite be_of_length. fold (len (takeN size d)). rewrite len_takeN. lia. }
    rewrite HB in HK.
    destruct (skipn _ _); [lens; lia|]. destruct (Bool.eqb _ _); lens; lia. }
  assert (Hsm : len (t_content (retag (tagging_of ti) (tlv_integer (enc_int z)))) < SZ).
  { apply retag_content_small; [assumption|reflexivity|lia]. }
  exists (enc_tlv (retag (tagging_of ti) (tlv_integer (enc_int z)))), (enc_int z). splits.
  - apply integer_renders_gen; [assumption|assumption|apply int_ub_stray|exact Hsm].
  - apply enc_decodes. split; [destruct ti as [[] ?]; reflexivity|lia].
  - apply read_enc_int.
  - intros c' Hc. rewrite read_enc_int in Hc. now apply read_int_unique.
Qed.
Print Assumptions C15_asn1_integer_value.
Example C15_value_case : exists b content,
  renders stray_reads (n20_asn1_integer (mkSlice 3 (Some (bytes [1; 2; 0x80; 9]))) true true (n20_asn1_tag_info_implicit 4)) b /\
  decodes b (Tlv 2 false 4 content) /\ read_int content = Some (-8388095)%Z.
Proof.
  destruct (C15_asn1_integer_value env64 (bytes [1; 2; 0x80; 9]) 3 true true (n20_asn1_tag_info_implicit 4)) as (b & c & H1 & H2 & H3 & _);
    [reflexivity|vm_compute; congruence|vm_compute; congruence|reflexivity|]. exists b, c. splits; [exact H1|exact H2|]. rewrite H3. reflexivity.
Qed.

(** Padding does not matter: equal numbers render identically. *)
Theorem C15_asn1_integer_canonical : forall (E : Env) d1 d2 n1 n2 le1 le2 tc1 tc2 ti b1 b2,
  0 < n1 -> n1 <= len d1 -> n1 + 40 <= SZ -> 0 < n2 -> n2 <= len d2 -> n2 + 40 <= SZ -> ti_ok ti ->
  number_of (takeN n1 d1) le1 tc1 = number_of (takeN n2 d2) le2 tc2 ->
  renders stray_reads (n20_asn1_integer (mkSlice n1 (Some d1)) le1 tc1 ti) b1 -> len b1 < SZ ->
  renders stray_reads (n20_asn1_integer (mkSlice n2 (Some d2)) le2 tc2 ti) b2 -> len b2 < SZ ->
  b1 = b2.
Proof.
  intros E d1 d2 n1 n2 le1 le2 tc1 tc2 ti b1 b2 H1 H2 H3 H4 H5 H6 Hti HN R1 L1 R2 L2.
  destruct (C15_asn1_integer_value E d1 n1 le1 tc1 ti H1 H2 H3 Hti) as (x & cx & RX & DX & IX & _).
  destruct (C15_asn1_integer_value E d2 n2 le2 tc2 ti H4 H5 H6 Hti) as (y & cy & RY & DY & IY & UY).
  pose proof (renders_det _ _ _ _ _ L1 R1 RX) as <-. pose proof (renders_det _ _ _ _ _ L2 R2 RY) as <-.
  assert (cx = cy) as -> by (apply UY; congruence).
  specialize (DX []). specialize (DY []).
  apply read_tlv_canonical in DX. apply read_tlv_canonical in DY. rewrite !app_nil_r in *. congruence.
Qed.
Print Assumptions C15_asn1_integer_canonical.
(** The number -129 in three ways. *)
Example C15_canonical_case :
  number_of (bytes [0xff; 0x7f]) false true = (-129)%Z /\ number_of (bytes [0xff; 0xff; 0x7f]) false true = (-129)%Z /\
  number_of (takeN 2 (bytes [0x7f; 0xff; 0x55])) true true = (-129)%Z /\
  rendered (n20_asn1_integer (slice_of (bytes [0xff; 0x7f])) false true n20_asn1_tag_info_no_override) = bytes [2; 2; 0xff; 0x7f] /\
  rendered (n20_asn1_integer (slice_of (bytes [0xff; 0xff; 0x7f])) false true n20_asn1_tag_info_no_override) = bytes [2; 2; 0xff; 0x7f] /\
  rendered (n20_asn1_integer (mkSlice 2 (Some (bytes [0x7f; 0xff; 0x55]))) true true n20_asn1_tag_info_no_override) = bytes [2; 2; 0xff; 0x7f].
Proof. cbv zeta. splits; vm_compute; reflexivity. Qed.

Example C15_example :
  rendered (n20_asn1_integer (slice_of (bytes [0; 0; 0x80; 1])) false false n20_asn1_tag_info_no_override)
    = bytes [2; 3; 0; 0x80; 1] /\
  rendered (n20_asn1_integer (slice_of (bytes [0x7f; 0xff; 0xff])) true true n20_asn1_tag_info_no_override)
    = bytes [2; 2; 0xff; 0x7f] /\
  number_of (bytes [0x7f; 0xff; 0xff]) true true = (-129)%Z.
Proof. repeat split. Qed.

(** ** C16 *)
Theorem C16_asn1_uint64 : forall (E : Env) n ti, n < 2 ^ 64 -> ti_ok ti ->
  exists b content, renders stray_reads (n20_asn1_uint64 n ti) b /\
    decodes b (retag (tagging_of ti) (tlv_integer content)) /\ read_int content = Some (Z.of_N n).
Proof.
  intros E n ti Hn Hti. pose proof SZ_lo as HL. pose proof SZ_pow as HP.
  exists (enc_tlv (retag (tagging_of ti) (tlv_integer (enc_int (Z.of_N n))))), (enc_int (Z.of_N n)). splits.
  - now apply uint64_renders.
  - apply enc_decodes.
    assert (len (enc_int (Z.of_N n)) <= N.of_nat 9).
    { apply enc_int_len_le; [lia|]. unfold fits. change (256 ^ (Z.of_nat 9 - 1))%Z with 18446744073709551616%Z.
      change (2 ^ 64) with 18446744073709551616 in Hn. lia. }
    split; [destruct ti as [[] ?]; reflexivity|].
    pose proof (retag_content_small ti 0 false 2 (enc_int (Z.of_N n)) Hti ltac:(reflexivity) ltac:(lia)). unfold tlv_integer. lia.
  - apply read_enc_int.
Qed.
Print Assumptions C16_asn1_uint64.
(** 2^63 needs a leading zero; an explicit tag around it. *)
Example C16_uint64_case :
  rendered (n20_asn1_uint64 9223372036854775808 (n20_asn1_tag_info_explicit 2)) = bytes [0xa2; 0x0b; 2; 9; 0; 0x80; 0; 0; 0; 0; 0; 0; 0] /\
  read_int (bytes [0; 0x80; 0; 0; 0; 0; 0; 0; 0]) = Some 9223372036854775808%Z.
Proof. split; vm_compute; reflexivity. Qed.

Theorem C16_asn1_int64 : forall (E : Env) z ti, (- 2 ^ 63 <= z < 2 ^ 63)%Z -> ti_ok ti ->
  exists b content, renders stray_reads (n20_asn1_int64 z ti) b /\
    decodes b (retag (tagging_of ti) (tlv_integer content)) /\ read_int content = Some z.
Proof.
  intros E z ti Hz Hti. pose proof SZ_lo as HL. pose proof SZ_pow as HP.
  exists (enc_tlv (retag (tagging_of ti) (tlv_integer (enc_int z)))), (enc_int z). splits.
  - now apply int64_renders.
  - apply enc_decodes.
    assert (len (enc_int z) <= N.of_nat 8).
    { apply enc_int_len_le; [lia|]. unfold fits. change (256 ^ (Z.of_nat 8 - 1))%Z with 72057594037927936%Z. lia. }
    split; [destruct ti as [[] ?]; reflexivity|].
    pose proof (retag_content_small ti 0 false 2 (enc_int z) Hti ltac:(reflexivity) ltac:(lia)). unfold tlv_integer. lia.
  - apply read_enc_int.
Qed.
Print Assumptions C16_asn1_int64.

(** The same bytes on a 32-bit big-endian host. *)
Definition env32be : Env := {| size_width := W32; host_little_endian := false; stray := fun _ => xff |}.
Example C16_example :
  rendered (n20_asn1_int64 (-128) n20_asn1_tag_info_no_override) = bytes [2; 1; 0x80] /\
  @n20_asn1_int64 env32be (-128) n20_asn1_tag_info_no_override
    (mkWorld (Some (n20_stream_init (Some [x00; x00; x00]) 3)) [])
  = mkWorld (Some (mkStream (Some (bytes [2; 1; 0x80])) 3 3 false false)) [].
Proof. split; vm_compute; reflexivity. Qed.

(** ** C17 *)

(** False as stated: rendering the big-endian one-byte number 0 reads the byte behind the slice, whatever that byte is
    and even when the stream only counts bytes. *)
Theorem C17_asn1_integer_reads_only_its_slice_refuted : forall adjacent : byte,
  let E := {| size_width := W64; host_little_endian := true; stray := fun _ => adjacent |} in
  exists sl, slice_ok sl /\
    In UBReadOob (w_ub (@n20_asn1_integer E sl false false n20_asn1_tag_info_no_override
                          (mkWorld (Some (n20_stream_init None 0)) []))).
Proof.
  intros adjacent E. exists (slice_of [x00]). split; [split; vm_compute; congruence|].
  subst E. destruct adjacent; vm_compute; auto.
Qed.
Print Assumptions C17_asn1_integer_reads_only_its_slice_refuted.

(** Worse, for an empty non-NULL slice the rendered value depends on the stray byte. *)
Theorem C17_asn1_integer_output_depends_on_stray_byte :
  let run stray := @n20_asn1_integer {| size_width := W64; host_little_endian := true; stray := stray |}
                     (mkSlice 0 (Some [])) false true n20_asn1_tag_info_no_override
                     (mkWorld (Some (n20_stream_init (Some [x00; x00; x00]) 3)) []) in
  match w_stream (run (fun _ => x00)), w_stream (run (fun _ => xff)) with
  | Some s, Some t => s_begin s = Some (bytes [2; 1; 0]) /\ s_begin t = Some (bytes [2; 1; 0xff])
  | _, _ => False
  end.
Proof. vm_compute. repeat split. Qed.
Print Assumptions C17_asn1_integer_output_depends_on_stray_byte.

(** What does hold: for big-endian input there is no undefined behaviour at all unless the value is 0 or -1 and nothing
    lies behind the slice in its object; and (C15) for non-empty slices the output never depends on stray bytes, and no
    other kind of undefined behaviour ever occurs. *)
Theorem C17_asn1_integer_clean : forall (E : Env) d size two_complement ti,
  0 < size -> size <= len d -> size + 40 <= SZ -> ti_ok ti ->
  (number_of (takeN size d) false two_complement <> 0%Z /\ number_of (takeN size d) false two_complement <> (-1)%Z)
    \/ size < len d ->
  exists b, renders clean (n20_asn1_integer (mkSlice size (Some d)) false two_complement ti) b.
Proof.
  intros E d size tc ti H0 Hs Hsz Hti Hor. pose proof SZ_pow as HP.
  destruct (C15_asn1_integer_value E d size false tc ti H0 Hs Hsz Hti) as (b & c & _ & HD & HI & _).
  exists b. pose proof HD as HD'. specialize (HD' []). apply read_tlv_canonical in HD'. rewrite !app_nil_r in HD'.
  apply read_int_unique in HI. subst b c.
  apply integer_renders_gen; [assumption|assumption| |].
  - rewrite int_ub_clean by assumption. constructor.
  - apply retag_content_small; [assumption|reflexivity|].
    pose proof (read_int_unique _ _ (int_octets_value d size false tc H0 Hs)) as HV. rewrite <- HV.
    unfold int_octets_of. cbv zeta. rewrite len_app.
    assert (forall x (v : list byte), len (skipn (lead x v) v) <= len v) as HK.
    { intros x v. unfold len. rewrite skipn_length. lia. }
    specialize (HK (if tc && high_bit (deref d (idx false size 0)) then xff else x00) (be_of false (takeN size d))).
    assert (len (be_of false (takeN size d)) = size) as HB.
    { unfold len. rewrite be_of_length. fold (len (takeN size d)). rewrite len_takeN. lia. }
    rewrite HB in HK.
    destruct (skipn _ _); [lens; lia|]. destruct (Bool.eqb _ _); lens; lia.
Qed.
Print Assumptions C17_asn1_integer_clean.

Example C17_example :
  w_ub (n20_asn1_integer (slice_of (bytes [0; 5])) false true n20_asn1_tag_info_no_override
          (mkWorld (Some (n20_stream_init None 0)) [])) = [] /\
  number_of (bytes [0; 5]) false true = 5%Z.
Proof. split; vm_compute; reflexivity. Qed.

(** ** C18 *)
Theorem C18_asn1_bitstring_bits : forall (E : Env) d bits ti,
  bits <= 8 * len d -> bits + 7 < SZ -> ti_ok ti ->
  exists b content, renders clean (n20_asn1_bitstring (Some d) bits ti) b /\
    decodes b (retag (tagging_of ti) (tlv_bitstring content)) /\
    read_bits content = Some (takeN bits (bits_of_bytes d)).
Proof.
  intros E d bits ti Hb Hs Hti. pose proof SZ_pow as HP. pose proof SZ_lo as HL.
  set (l := takeN bits (bits_of_bytes d)).
  assert (Hlen : len l = bits) by (unfold l; rewrite len_takeN, len_bits_of_bytes; lia).
  assert (Hc : len (enc_bits l) + 32 <= SZ).
  { unfold enc_bits. rewrite len_cons. pose proof (len_pack l). pose proof (pad_lt l). lia. }
  pose proof (retag_content_small ti 0 false 3 (enc_bits l) Hti ltac:(reflexivity) Hc) as Hsm.
  exists (enc_tlv (retag (tagging_of ti) (tlv_bitstring (enc_bits l)))), (enc_bits l). splits.
  - apply (bitstring_renders clean (Some d) bits ti); [split; assumption|exact Hsm].
  - apply enc_decodes. split; [destruct ti as [[] ?]; reflexivity|]. unfold tlv_bitstring. lia.
  - apply read_enc_bits.
Qed.
Print Assumptions C18_asn1_bitstring_bits.

Theorem C18_asn1_bitstring_null_is_empty : forall (E : Env) bits ti, ti_ok ti ->
  exists b content, renders clean (n20_asn1_bitstring None bits ti) b /\
    decodes b (retag (tagging_of ti) (tlv_bitstring content)) /\ read_bits content = Some [].
Proof.
  intros E bits ti Hti. pose proof SZ_pow as HP. pose proof SZ_lo as HL.
  assert (Hc : len (enc_bits []) + 32 <= SZ) by (change (len (enc_bits [])) with 1; lia).
  pose proof (retag_content_small ti 0 false 3 (enc_bits []) Hti ltac:(reflexivity) Hc) as Hsm.
  exists (enc_tlv (retag (tagging_of ti) (tlv_bitstring (enc_bits [])))), (enc_bits []). splits.
  - apply (bitstring_renders clean None bits ti); [exact I|exact Hsm].
  - apply enc_decodes. split; [destruct ti as [[] ?]; reflexivity|]. unfold tlv_bitstring. lia.
  - apply read_enc_bits.
Qed.
Print Assumptions C18_asn1_bitstring_null_is_empty.
Example C18_null_case :
  rendered (n20_asn1_bitstring None 11 (n20_asn1_tag_info_implicit 3)) = bytes [0x83; 1; 0] /\ read_bits [x00] = Some [].
Proof. split; vm_compute; reflexivity. Qed.

Example C18_example :
  rendered (n20_asn1_bitstring (Some (bytes [0xa5; 0xff])) 11 n20_asn1_tag_info_no_override)
    = bytes [3; 3; 5; 0xa5; 0xe0] /\
  takeN 11 (bits_of_bytes (bytes [0xa5; 0xff]))
    = [true; false; true; false; false; true; false; true; true; true; true].
Proof. split; vm_compute; reflexivity. Qed.

(** ** C19 *)
Lemma oid_octets_small `{E : Env} o : oid_ok o -> oid_elem_count o <= 10 -> len (oid_octets o) <= 64.
Proof.
  intros Hok Hc.
  unfold oid_octets. cbv zeta. rewrite len_cons.
    assert (HF : forall l, Forall (fun a => a < 4294967296) l -> len (flat_map enc_base128 l) <= 5 * len l).
    { induction 1 as [|a l Ha _ IH]; [apply N.le_0_l|]. cbn [flat_map]. rewrite len_app, len_cons.
      rewrite len_enc_base128. assert (len (SpecDigits.digits 128 a) <= 5); [|lia].
      apply DigitsFacts.len_digits_le; [lia|lia|]. change (128 ^ 5) with 34359738368. lia. }
    destruct Hok as [Hn Hu].
    assert (HF' : Forall (fun a => a < 4294967296) (skipn 2 (oid_arcs o))).
    { unfold oid_arcs, takeN. rewrite <- (firstn_skipn 2 (firstn (N.to_nat (oid_elem_count o)) (oid_elements o))) in *.
      rewrite <- (firstn_skipn (N.to_nat (oid_elem_count o)) (oid_elements o)) in Hu.
      apply Forall_app in Hu as [Hu _].
      rewrite <- (firstn_skipn 2 (firstn (N.to_nat (oid_elem_count o)) (oid_elements o))) in Hu.
      apply Forall_app in Hu as [_ Hu]. rewrite firstn_skipn. exact Hu. }
    specialize (HF _ HF').
    assert (len (skipn 2 (oid_arcs o)) <= 8).
    { unfold len at 1. rewrite skipn_length. unfold oid_arcs, takeN. rewrite firstn_length. lia. }
    lia.
Qed.

Theorem C19_asn1_oid_round_trip : forall (E : Env) o ti,
  oid_ok o -> ti_ok ti -> 2 <= oid_elem_count o <= 10 -> oid_valid (oid_arcs o) ->
  40 * oid_element o 0 + oid_element o 1 < 128 ->
  exists b content, renders clean (n20_asn1_object_identifier (Some o) ti) b /\
    decodes b (retag (tagging_of ti) (tlv_oid content)) /\ read_oid content = Some (oid_arcs o).
Proof.
  intros E o ti Hok Hti Hc Hv Hs. pose proof SZ_pow as HP. pose proof SZ_lo as HL.
  pose proof (oid_octets_enc o Hok Hc Hs) as HE.
  assert (Hlen : len (oid_octets o) + 32 <= SZ) by (pose proof (oid_octets_small o Hok ltac:(lia)); lia).
  pose proof (retag_content_small ti 0 false 6 (oid_octets o) Hti ltac:(reflexivity) Hlen) as Hsm.
  exists (enc_tlv (retag (tagging_of ti) (tlv_oid (oid_octets o)))), (oid_octets o). splits.
  - apply object_identifier_renders; [assumption|lia|exact Hsm].
  - apply enc_decodes. split; [destruct ti as [[] ?]; reflexivity|]. unfold tlv_oid. lia.
  - rewrite HE. now apply read_enc_oid.
Qed.
Print Assumptions C19_asn1_oid_round_trip.

(** Different arcs, different bytes. *)
Theorem C19_asn1_oid_injective : forall (E : Env) o1 o2 b,
  oid_ok o1 -> oid_ok o2 ->
  2 <= oid_elem_count o1 <= 10 -> oid_valid (oid_arcs o1) -> 40 * oid_element o1 0 + oid_element o1 1 < 128 ->
  2 <= oid_elem_count o2 <= 10 -> oid_valid (oid_arcs o2) -> 40 * oid_element o2 0 + oid_element o2 1 < 128 ->
  len b < SZ ->
  renders clean (n20_asn1_object_identifier (Some o1) n20_asn1_tag_info_no_override) b ->
  renders clean (n20_asn1_object_identifier (Some o2) n20_asn1_tag_info_no_override) b ->
  oid_arcs o1 = oid_arcs o2.
Proof.
  intros E o1 o2 b K1 K2 C1 V1 S1 C2 V2 S2 Hb R1 R2.
  destruct (C19_asn1_oid_round_trip E o1 n20_asn1_tag_info_no_override K1 ltac:(reflexivity) C1 V1 S1) as (b1 & c1 & R1' & D1 & I1).
  destruct (C19_asn1_oid_round_trip E o2 n20_asn1_tag_info_no_override K2 ltac:(reflexivity) C2 V2 S2) as (b2 & c2 & R2' & D2 & I2).
  pose proof (renders_det _ _ _ _ _ Hb R1 R1') as <-. pose proof (renders_det _ _ _ _ _ Hb R2 R2') as <-.
  specialize (D1 []). specialize (D2 []). rewrite D1 in D2. injection D2 as HE. congruence.
Qed.
Print Assumptions C19_asn1_oid_injective.
(** Trailing elements beyond the count do not matter, which is why the conclusion is about the arcs. *)
Example C19_injective_case :
  let o1 := mkOid 3 [1; 3; 101; 112; 0; 0; 0; 0; 0; 0] in let o2 := mkOid 3 [1; 3; 101; 7; 7; 7; 7; 7; 7; 7] in
  oid_ok o1 /\ oid_ok o2 /\ oid_valid (oid_arcs o1) /\ o1 <> o2 /\ oid_arcs o1 = oid_arcs o2 /\
  rendered (n20_asn1_object_identifier (Some o1) n20_asn1_tag_info_no_override) = bytes [6; 2; 0x2b; 0x65] /\
  rendered (n20_asn1_object_identifier (Some o2) n20_asn1_tag_info_no_override) = bytes [6; 2; 0x2b; 0x65].
Proof.
  cbv zeta. splits; [split; [reflexivity|repeat constructor]|split; [reflexivity|repeat constructor]|vm_compute; intuition congruence|discriminate|vm_compute; reflexivity..].
Qed.

Theorem C19_asn1_oid_null_cases : forall (E : Env) ti o, 10 < oid_elem_count o ->
  exists b, renders clean (n20_asn1_object_identifier None ti) b /\
            renders clean (n20_asn1_object_identifier (Some o) ti) b /\ decodes b (Tlv 0 false 5 []).
Proof.
  intros E ti o Ho. exists (enc_tlv tlv_null). splits.
  - now apply object_identifier_null_renders.
  - now apply object_identifier_null_renders.
  - apply enc_decodes. split; reflexivity.
Qed.
Print Assumptions C19_asn1_oid_null_cases.
Example C19_null_case : oid_elem_count (mkOid 11 (repeat 1 10)) = 11 /\
  rendered (n20_asn1_object_identifier (Some (mkOid 11 (repeat 1 10))) n20_asn1_tag_info_no_override) = bytes [5; 0].
Proof. split; vm_compute; reflexivity. Qed.

(** Without the bound on the first two arcs the claim is false: 2.999.1 is a valid OID, but what is rendered for it does
    not decode to it, and collides with the rendering of 1.15.1. *)
Theorem C19_asn1_oid_first_subidentifier_refuted : exists o1 o2,
  oid_ok o1 /\ oid_ok o2 /\ oid_valid (oid_arcs o1) /\ oid_valid (oid_arcs o2) /\
  oid_arcs o1 = [2; 999; 1] /\ oid_arcs o2 <> oid_arcs o1 /\
  forall E b, len b < 2 ^ 32 -> renders clean (@n20_asn1_object_identifier E (Some o1) n20_asn1_tag_info_no_override) b ->
    renders clean (@n20_asn1_object_identifier E (Some o2) n20_asn1_tag_info_no_override) b.
Proof.
  exists (mkOid 3 [2; 999; 1; 0; 0; 0; 0; 0; 0; 0]), (mkOid 3 [1; 15; 1; 0; 0; 0; 0; 0; 0; 0]).
  assert (K : forall a b, a < 4294967296 -> b < 4294967296 -> oid_ok (mkOid 3 [a; b; 1; 0; 0; 0; 0; 0; 0; 0])).
  { intros a b Ha Hb. split; [reflexivity|]. cbn. repeat constructor; assumption. }
  splits; [apply K; reflexivity|apply K; reflexivity|vm_compute; intuition congruence|vm_compute; intuition congruence
          |reflexivity|discriminate|].
  intros E b Hb R. pose proof SZ_lo.
  assert (len b < SZ) by (change (2 ^ 32) with 4294967296 in Hb; lia).
  assert (forall x y, x < 4294967296 -> y < 4294967296 ->
    renders clean (n20_asn1_object_identifier (Some (mkOid 3 [x; y; 1; 0; 0; 0; 0; 0; 0; 0])) n20_asn1_tag_info_no_override)
      (enc_tlv (tlv_oid (oid_octets (mkOid 3 [x; y; 1; 0; 0; 0; 0; 0; 0; 0]))))) as HR.
  { intros x y Hx Hy.
    apply (object_identifier_renders clean _ n20_asn1_tag_info_no_override); [now apply K|cbn; lia|].
    change (len (t_content _)) with 2. lia. }
  pose proof (renders_det _ _ _ _ _ ltac:(eassumption) R (HR 2 999 ltac:(reflexivity) ltac:(reflexivity))) as ->.
  exact (HR 1 15 ltac:(reflexivity) ltac:(reflexivity)).
Qed.
Print Assumptions C19_asn1_oid_first_subidentifier_refuted.

Example C19_example :
  let o := mkOid 7 [1; 2; 840; 113549; 1; 1; 11; 0; 0; 0] in
  oid_ok o /\ oid_valid (oid_arcs o) /\ 40 * oid_element o 0 + oid_element o 1 < 128 /\
  rendered (n20_asn1_object_identifier (Some o) n20_asn1_tag_info_no_override)
    = bytes [6; 9; 0x2a; 0x86; 0x48; 0x86; 0xf7; 0x0d; 1; 1; 0x0b].
Proof.
  cbv zeta. splits; [|vm_compute; intuition congruence|vm_compute; reflexivity|vm_compute; reflexivity].
  split; [reflexivity|]. cbn. repeat constructor.
Qed.

(** ** C21 *)
Theorem C21_asn1_strings_verbatim : forall (E : Env) s ti,
  opt_slice_ok s -> len (opt_slice_bytes s) + 32 <= SZ -> ti_ok ti ->
  (exists b, renders clean (n20_asn1_octetstring s ti) b /\
     decodes b (retag (tagging_of ti) (Tlv 0 false 4 (opt_slice_bytes s)))) /\
  (exists b, renders clean (n20_asn1_printablestring s ti) b /\
     decodes b (retag (tagging_of ti) (Tlv 0 false 19 (opt_slice_bytes s)))) /\
  (exists b, renders clean (n20_asn1_utf8_string s ti) b /\
     decodes b (retag (tagging_of ti) (Tlv 0 false 12 (opt_slice_bytes s)))) /\
  (exists b, renders clean (n20_asn1_generalized_time s ti) b /\
     decodes b (match s with
                | Some s => retag (tagging_of ti) (Tlv 0 false 24 (slice_bytes s))
                | None => Tlv 0 false 5 []
                end)).
Proof.
  intros E s ti Hs Hl Hti. pose proof SZ_pow as HP.
  assert (forall t, t < 2 ^ 32 -> len (t_content (retag (tagging_of ti) (Tlv 0 false t (opt_slice_bytes s)))) < SZ /\
                    decodes (enc_tlv (retag (tagging_of ti) (Tlv 0 false t (opt_slice_bytes s))))
                      (retag (tagging_of ti) (Tlv 0 false t (opt_slice_bytes s)))) as HT.
  { intros t Ht. pose proof (retag_content_small ti 0 false t (opt_slice_bytes s) Hti Ht Hl). split; [assumption|].
    apply enc_decodes. split; [destruct ti as [[] ?]; reflexivity|lia]. }
  splits.
  - destruct (HT 4 ltac:(reflexivity)). eexists. split; [now apply octetstring_renders|assumption].
  - destruct (HT 19 ltac:(reflexivity)). eexists. split; [now apply printablestring_renders|assumption].
  - destruct (HT 12 ltac:(reflexivity)). eexists. split; [now apply utf8_string_renders|assumption].
  - destruct s as [s|].
    + destruct (HT 24 ltac:(reflexivity)). eexists. split; [now apply generalized_time_renders|assumption].
    + eexists. split; [apply generalized_time_null_renders|]. apply enc_decodes. split; reflexivity.
Qed.
Print Assumptions C21_asn1_strings_verbatim.

Theorem C21_asn1_boolean_and_null : forall (E : Env) v ti, ti_ok ti ->
  (exists b, renders clean (n20_asn1_boolean v ti) b /\
     decodes b (retag (tagging_of ti) (Tlv 0 false 1 [if v then xff else x00]))) /\
  (exists b, renders clean (n20_asn1_null ti) b /\ decodes b (retag (tagging_of ti) (Tlv 0 false 5 []))).
Proof.
  intros E v ti Hti. pose proof SZ_pow as HP. pose proof SZ_lo.
  assert (forall t c, t < 2 ^ 32 -> len c <= 1 ->
            decodes (enc_tlv (retag (tagging_of ti) (Tlv 0 false t c))) (retag (tagging_of ti) (Tlv 0 false t c))) as HT.
  { intros t c Ht Hc. pose proof (retag_content_small ti 0 false t c Hti Ht ltac:(lia)).
    apply enc_decodes. split; [destruct ti as [[] ?]; reflexivity|lia]. }
  split; eexists; (split; [|apply HT; [reflexivity|vm_compute; congruence]]).
  - now apply boolean_renders.
  - apply null_renders.
Qed.
Print Assumptions C21_asn1_boolean_and_null.
Example C21_boolean_case :
  rendered (n20_asn1_boolean false (n20_asn1_tag_info_explicit 0)) = bytes [0xa0; 3; 1; 1; 0] /\
  retag (tagging_of (n20_asn1_tag_info_explicit 0)) (Tlv 0 false 1 [x00]) = Tlv 2 true 0 (bytes [1; 1; 0]).
Proof. split; vm_compute; reflexivity. Qed.

Example C21_example :
  rendered (n20_asn1_utf8_string (Some (slice_of (bytes [0x68; 0x69]))) (n20_asn1_tag_info_implicit 5))
    = bytes [0x85; 2; 0x68; 0x69] /\
  rendered (n20_asn1_generalized_time None (n20_asn1_tag_info_implicit 5)) = bytes [5; 0] /\
  rendered (n20_asn1_boolean true n20_asn1_tag_info_no_override) = bytes [1; 1; 0xff].
Proof. repeat split. Qed.
