(** C17: exactly when rendering an integer reads outside of its object. *)
From Coq Require Import List NArith ZArith Bool Lia Strings.Byte.
From Verif Require Import Base BaseFacts Stream SpecStream StreamProofs SpecDigits SpecDer Asn1 SpecAsn1 Asn1Proofs PropAsn1.
Import ListNotations.
Open Scope N_scope.
Open Scope cmd_scope.

(** ** The log only grows *)
Definition grows (f : cmd) : Prop := forall w, exists v, w_ub (f w) = v ++ w_ub w.
Definition emits (f : cmd) (l : list ub) : Prop := forall w, exists v, w_ub (f w) = v ++ w_ub w /\ incl l v.
Section WithEnv.
Context `{E : Env}.
Lemma grows_skip : grows skip.
Proof. intros w. now exists []. Qed.
Lemma grows_seq f g : grows f -> grows g -> grows (f ;; g).
Proof. intros F G w. destruct (F w) as (v & Hv). destruct (G (f w)) as (v' & Hv'). exists (v' ++ v). unfold andthen. now rewrite Hv', Hv, app_assoc. Qed.
Lemma emits_seq f g l : emits f l -> grows g -> emits (f ;; g) l.
Proof. intros F G w. destruct (F w) as (v & Hv & I). destruct (G (f w)) as (v' & Hv'). exists (v' ++ v). unfold andthen. rewrite Hv', Hv, app_assoc.
  split; [reflexivity|]. now apply incl_appr. Qed.
Lemma emits_log l : emits (log l) l.
Proof. intros w. exists l. split; [reflexivity|apply incl_refl]. Qed.
Lemma grows_prepend p n : grows (n20_stream_prepend p n).
Proof. intros w. unfold n20_stream_prepend. destruct (w_stream w); [|now exists []]. cbv zeta. destruct (_ || _); [now exists []|].
  destruct (memcpy_into _ _ _ _) as [m u]. now exists u. Qed.
Lemma grows_when b f : grows f -> grows (when b f).
Proof. destruct b; [auto|intros _; apply grows_skip]. Qed.
Lemma grows_base128 fuel : forall t n, grows (base128_loop fuel t n).
Proof. induction fuel as [|fuel IH]; intros t n; cbn [base128_loop]; [apply grows_skip|]. apply grows_seq; [apply grows_prepend|]. cbv zeta.
  destruct (_ =? 0); [apply grows_skip|apply IH]. Qed.
Lemma grows_header_len fuel : forall l n k, grows (header_len_loop fuel l n k).
Proof. induction fuel as [|fuel IH]; intros l n k; cbn [header_len_loop]; [apply grows_skip|]. apply grows_seq; [apply grows_prepend|]. cbv zeta.
  destruct (_ =? 0); [apply grows_prepend|apply IH]. Qed.
Lemma grows_header c k t n : grows (n20_asn1_header c k t n).
Proof. unfold n20_asn1_header. apply grows_seq; [apply grows_seq|].
  - destruct (_ <=? _); [apply grows_prepend|apply grows_header_len].
  - destruct (_ <? _); [apply grows_base128|apply grows_skip].
  - apply grows_prepend. Qed.
Lemma grows_copy fuel : forall d a b c, grows (copy_loop fuel d a b c).
Proof. induction fuel as [|fuel IH]; intros; cbn [copy_loop]; [apply grows_skip|]. destruct (_ =? _)%Z; [apply grows_skip|].
  apply grows_seq; [apply grows_prepend|apply IH]. Qed.
Lemma emits_with_length f g l : emits f l -> (forall n, grows (g n)) -> emits (with_length f g) l.
Proof. intros F G w. unfold with_length. destruct (F w) as (v & Hv & I).
  destruct (G (sub_sz (n20_stream_byte_count (w_stream (f w))) (n20_stream_byte_count (w_stream w))) (f w)) as (v' & Hv').
  exists (v' ++ v). rewrite Hv', Hv, app_assoc. split; [reflexivity|now apply incl_appr]. Qed.
Lemma emits_hwc c k t f ti l : emits f l -> emits (n20_asn1_header_with_content c k t (Some f) ti) l.
Proof. intros F. unfold n20_asn1_header_with_content. cbv zeta. destruct (ti_type ti); repeat (apply emits_with_length; [|intros; apply grows_header]); exact F. Qed.

Lemma integer_content_emits d size le tc : size <= len d -> emits (n20_asn1_integer_internal_content d size le tc) (int_ub d size le tc).
Proof.
  intros Hs. unfold n20_asn1_integer_internal_content. cbv zeta.
  replace (if le then Z.of_N size - 1 else 0)%Z with (idx le size 0) by (unfold idx; destruct le; lia).
  replace (if le then -1 else Z.of_N size)%Z with (idx le size (N.to_nat size)) by (unfold idx; destruct le; lia).
  fold (step le). unfold int_ub. cbv zeta.
  set (neg := tc && high_bit (deref d (idx le size 0))).
  set (x := if neg then xff else x00). set (v := be_of le (takeN size d)).
  pose proof (strip_loop_spec le d size x Hs (S (N.to_nat size)) 0 ltac:(lia) ltac:(lia)) as HS. cbv zeta in HS.
  fold v in HS. cbn [Nat.add skipn] in HS. rewrite HS. clear HS.
  apply emits_seq; [apply emits_seq; [|apply grows_copy]|apply grows_when, grows_prepend].
  intros w. eexists. split; [reflexivity|]. apply incl_appr, incl_refl.
Qed.

(** ** The bytes that are read *)
Lemma lead_all x v : lead x v = length v <-> Forall (eq x) v.
Proof. induction v as [|b v IH]; cbn [lead length]; [split; constructor|]. destruct (byte_eqb b x) eqn:Eb.
  - apply byte_eqb_eq in Eb. subst. rewrite Forall_cons_iff, <- IH. split; [intros H; split; [reflexivity|congruence]|intros [_ H]; congruence].
  - apply byte_eqb_neq in Eb. split; [discriminate|]. intros H. inversion H. congruence. Qed.
Lemma be_of_forall le x v : Forall (eq x) (be_of le v) <-> Forall (eq x) v.
Proof. destruct le; [|reflexivity]. cbn. split; intros H; [rewrite <- rev_involutive|]; now apply Forall_rev. Qed.

(** All the bytes are zero, or [two_complement] and all are ff: the number is 0 or -1 (or the slice is empty). *)
Definition all_sign (bs : list byte) (tc : bool) : Prop := Forall (eq x00) bs \/ tc = true /\ Forall (eq xff) bs.

Lemma int_ub_read d size le tc : size <= len d ->
  In UBReadOob (int_ub d size le tc) <-> all_sign (takeN size d) tc /\ (le = true \/ size = len d).
Proof.
  intros Hs. unfold int_ub. cbv zeta.
  assert (HL : length (be_of le (takeN size d)) = N.to_nat size).
  { rewrite be_of_length. unfold takeN. rewrite firstn_length. unfold len in *. lia. }
  assert (HE : In UBReadOob (deref_ub d (idx le size (N.to_nat size))) <-> le = true \/ size = len d).
  { unfold deref_ub, idx. destruct (_ && _)%Z eqn:B; destruct le; simpl; intuition (try discriminate; try lia). }
  assert (HP : In UBReadOob (if le then [UBPtrArith] else []) <-> False) by (destruct le; simpl; intuition discriminate).
  rewrite !in_app_iff, HP.
  destruct (N.eq_dec size 0) as [->|Hn].
  - change (takeN 0 d) with (@nil byte). replace (be_of le []) with (@nil byte) by now destruct le. cbn [lead].
    change (Nat.eqb 0 (N.to_nat 0)) with true. cbv iota. change (idx le 0 0) with (idx le 0 (N.to_nat 0)).
    assert (A : all_sign [] tc) by (left; constructor). destruct tc; simpl In; intuition.
  - destruct (deref_idx le d size 0 Hs ltac:(lia)) as [Hd0 Hu0].
    assert (HT : In UBReadOob (if tc then deref_ub d (idx le size 0) else []) <-> False) by (rewrite Hu0; destruct tc; simpl; tauto).
    rewrite HT, Hd0. set (x := if tc && high_bit (nth 0 (be_of le (takeN size d)) x00) then xff else x00).
    assert (HX : Nat.eqb (lead x (be_of le (takeN size d))) (N.to_nat size) = true <-> all_sign (takeN size d) tc).
    { rewrite <- HL, Nat.eqb_eq, lead_all. unfold all_sign. rewrite <- (be_of_forall le x00), <- (be_of_forall le xff).
      destruct (be_of le (takeN size d)) as [|b r] eqn:Eb; [simpl in HL; lia|]. subst x. cbn [nth].
      split.
      - destruct tc; cbn [andb]; [|now left]. destruct (high_bit b); [now right|now left].
      - intros [H|[-> H]]; inversion H; subst; cbn [andb]; [|exact H]. replace (tc && high_bit x00) with false by now destruct tc. exact H. }
    destruct (Nat.eqb _ _).
    + rewrite HE. intuition.
    + simpl In. assert (~ all_sign (takeN size d) tc) by (intros A; apply HX in A; discriminate). tauto.
Qed.
Lemma int_ub_arith d size le tc : In UBPtrArith (int_ub d size le tc) <-> le = true.
Proof.
  unfold int_ub. cbv zeta. assert (D : forall i, ~ In UBPtrArith (deref_ub d i)) by (intros i; unfold deref_ub; destruct (_ && _)%Z; simpl; intuition discriminate).
  rewrite !in_app_iff. split.
  - intros [H|[H|H]]; [destruct (Nat.eqb _ _)|destruct tc|]; try (now apply D in H); try contradiction. destruct le; [reflexivity|contradiction].
  - intros ->. right; right; now left.
Qed.
End WithEnv.

(** A stream as the library maintains it, or none. *)
Definition stream_ready `{Env} (w : world) : Prop :=
  match w_stream w with None => True | Some s => exists buf size out, buffer_ok buf size /\ shows s buf size out end.

(** For every slice (also an empty one), with or without a stream: the call reads outside of the object exactly if the number is 0 or -1 and the slice
    ends with the object, or the input is little-endian (the byte before the slice is then read). For little-endian input the pointer before the
    slice is formed in any case. No other undefined behaviour occurs. *)
Theorem C17_asn1_integer_stray_read_exact : forall (E : Env) d size little_endian two_complement ti w,
  size <= len d -> size + 40 <= SZ -> ti_ok ti -> stream_ready w ->
  exists v, w_ub (n20_asn1_integer (mkSlice size (Some d)) little_endian two_complement ti w) = v ++ w_ub w /\
    (In UBReadOob v <-> all_sign (takeN size d) two_complement /\ (little_endian = true \/ size = len d)) /\
    (In UBPtrArith v <-> little_endian = true) /\
    Forall stray_reads v.
Proof.
  intros E d size le tc ti w Hs Hsz Hti Hw.
  assert (HO : len (int_octets_of d size le tc) <= size + 1).
  { unfold int_octets_of. cbv zeta. rewrite len_app.
    set (x := if tc && high_bit (deref d (idx le size 0)) then xff else x00).
    assert (len (skipn (lead x (be_of le (takeN size d))) (be_of le (takeN size d))) <= size).
    { unfold len. rewrite skipn_length, be_of_length. fold (len (takeN size d)). pose proof (len_takeN size d). unfold len in *. lia. }
    destruct (skipn _ _); [lens; lia|]. destruct (Bool.eqb _ _); lens; lia. }
  assert (HR : renders (fun u => In u (int_ub d size le tc)) (n20_asn1_integer (mkSlice size (Some d)) le tc ti)
                 (enc_tlv (retag (tagging_of ti) (Tlv 0 false 2 (int_octets_of d size le tc))))).
  { unfold n20_asn1_integer. cbn [sl_buf sl_size]. apply hwc_renders; [apply integer_content_renders; [assumption|]|reflexivity|].
    - apply Forall_forall. auto.
    - apply retag_content_small; [assumption|reflexivity|]. lia. }
  assert (HM : emits (n20_asn1_integer (mkSlice size (Some d)) le tc ti) (int_ub d size le tc)).
  { unfold n20_asn1_integer. cbn [sl_buf sl_size]. apply emits_hwc. now apply integer_content_emits. }
  destruct (HM w) as (v & Hv & HI). exists v. split; [exact Hv|].
  assert (HU : Forall (fun u => In u (int_ub d size le tc)) v).
  { destruct HR as [HN HS]. destruct w as [[s|] u]; cbn [w_stream w_ub] in *.
    - destruct Hw as (buf & sz & out & B & Sh). cbn in *. destruct (HS s u buf sz out B Sh) as (s' & v' & _ & _ & Hv' & F).
      rewrite Hv' in Hv. apply app_inv_tail in Hv. now subst.
    - destruct (HN u) as (v' & _ & Hv' & F). rewrite Hv' in Hv. apply app_inv_tail in Hv. now subst. }
  rewrite Forall_forall in HU.
  rewrite <- int_ub_read by assumption. rewrite <- (int_ub_arith d size le tc). splits.
  - split; [apply HU|apply HI].
  - split; [apply HU|apply HI].
  - apply Forall_forall. intros u I. pose proof (int_ub_stray d size le tc) as F. rewrite Forall_forall in F. auto.
Qed.
Print Assumptions C17_asn1_integer_stray_read_exact.

(** The number 0 in one byte, -1 in two, 1 in two; big- and little-endian, at the end of the object or not. *)
Example C17_exact_example :
  all_sign [x00] false /\ all_sign [xff; xff] true /\ ~ all_sign [xff; xff] false /\ ~ all_sign [x00; x01] true /\
  (let E := {| size_width := W64; host_little_endian := true; stray := fun _ => x00 |} in
   let run d n le tc := w_ub (@n20_asn1_integer E (mkSlice n (Some d)) le tc n20_asn1_tag_info_no_override (mkWorld None [])) in
   run [x00] 1 false false = [UBReadOob] /\ run [x00; x05] 1 false false = [] /\ run [x00; x01] 2 false true = [] /\
   run [xff; xff] 2 true true = [UBReadOob; UBPtrArith] /\ run [x01] 1 true true = [UBPtrArith]).
Proof.
  splits.
  - left. repeat constructor.
  - right. split; [reflexivity|]. repeat constructor.
  - intros [H|[H _]]; [inversion H|]; discriminate.
  - intros [H|[_ H]]; inversion H as [|? ? A B]; subst; [|discriminate]. inversion B. discriminate.
  - vm_compute. repeat split.
Qed.
