(** What the bodies the core tests share decide. *)
From Coq Require Import List NArith ZArith Bool Lia Strings.Byte.
From Verif Require Import Base BaseFacts Stream SpecStream StreamProofs SpecDigits DigitsFacts SpecDer DerFacts Asn1 SpecAsn1 Asn1Proofs SpecCbor CborFacts Cbor CborProofs.
From Verif Require Import Oid ConformCore CryptoTest.
From Verif Require Import CoreTest SpecCoreTest.
Import ListNotations.
Open Scope N_scope.

Lemma same_spec a b : same a b = true <-> a = b.
Proof. unfold same. destruct (list_eq_dec _ _ _); split; congruence. Qed.

(** ** Readers that accept one encoding only *)
Lemma decodes_iff b t : tlv_ok t -> decodes b t <-> b = enc_tlv t.
Proof.
  intros Ht. split; [|intros ->; now apply enc_decodes].
  intros H. specialize (H []). apply read_tlv_canonical in H. now rewrite !app_nil_r in H.
Qed.
Lemma read_subids_canonical f : forall bs ns, read_subids f bs = Some ns -> bs = flat_map enc_base128 ns.
Proof.
  induction f as [|f IH]; intros bs ns H.
  - destruct bs; [|discriminate]. now injection H as <-.
  - destruct bs as [|b r]; [now injection H as <-|]. cbn [read_subids] in H.
    destruct (read_base128 (b :: r)) as [[n r']|] eqn:E1; [|discriminate]. destruct (read_subids f r') as [l|] eqn:E2; [|discriminate].
    injection H as <-. apply read_base128_canonical in E1. cbn [flat_map]. now rewrite E1, (IH _ _ E2).
Qed.
Lemma read_oid_canonical bs arcs : read_oid bs = Some arcs -> bs = enc_oid arcs.
Proof.
  unfold read_oid. destruct (read_subids _ bs) as [[|s r]|] eqn:ES; [discriminate| |discriminate]. apply read_subids_canonical in ES. intros H. subst bs.
  destruct (N.ltb_spec s 40); [|destruct (N.ltb_spec s 80)]; injection H as <-; cbn [enc_oid flat_map]; repeat f_equal; lia.
Qed.
Lemma read_head_unique bs m n w : read_head bs = Some (m, n, w, []) -> len bs <= len (enc_head m n) -> bs = enc_head m n.
Proof.
  intros H HL. pose proof (read_head_len _ _ _ _ _ H) as (Hm & Hn & Hlen & H0 & HW). rewrite len_enc_head in HL. rewrite len_nil in Hlen.
  destruct bs as [|b r]; [discriminate|]. cbn [read_head] in H. cbv zeta in H. rewrite len_cons in *.
  pose proof (b2n_lt b) as Hb. pose proof (N.div_mod (b2n b) 32 ltac:(lia)) as HD. pose proof (N.mod_lt (b2n b) 32 ltac:(lia)) as HM.
  set (q := b2n b / 32) in *. set (i := b2n b mod 32) in *.
  assert (HB : b = n2b (32 * q + i)) by (rewrite <- HD; now rewrite n2b_b2n).
  destruct (N.ltb_spec i 24) as [Hi|Hi].
  - injection H as <- <- <- ->. unfold enc_head, head_info, head_width. destruct (N.ltb_spec i 24); [|lia]. cbn [be_bytes]. now rewrite HB.
  - destruct (N.ltb_spec i 28) as [Hi'|]; [|discriminate]. destruct (N.leb_spec (2 ^ (i - 24)) (len r)) as [Hw|]; [|discriminate].
    destruct (_ && _ && _); [discriminate|]. injection H as <- HV HW' HR.
    assert (HT : takeN (2 ^ (i - 24)) r = r).
    { rewrite <- (takeN_dropN (2 ^ (i - 24)) r) at 2. rewrite HR. now rewrite app_nil_r. }
    rewrite HT in HV.
    assert (HRL : len r = 2 ^ (i - 24)) by lia. clear HR HT Hw.
    assert (HI : i = 24 \/ i = 25 \/ i = 26 \/ i = 27) by lia.
    assert (HN : head_info n = i /\ head_width n = length r).
    { unfold head_info, head_width in *. rewrite HRL in HL. rewrite <- HW' in Hn. clear - Hn HL HI HRL. unfold len in HRL.
      destruct HI as [->|[->|[->| ->]]];
        match type of Hn with _ < ?k => let v := eval vm_compute in k in change k with v in Hn end;
        match type of HRL with _ = ?k => let v := eval vm_compute in k in change k with v in HRL, HL end;
        repeat match goal with |- context [?a <? ?b] => destruct (N.ltb_spec a b) | H : context [?a <? ?b] |- _ => destruct (N.ltb_spec a b) end; lia. }
    destruct HN as [HN1 HN2]. unfold enc_head. rewrite HN1, HN2, <- HV, be_bytes_be_val. now rewrite HB.
Qed.
Lemma shortest_head_iff b m n : m < 8 -> n < 2 ^ 64 -> ~ (m = 7 /\ 24 <= n < 32) -> shortest_head b m n <-> b = enc_head m n.
Proof.
  intros Hm Hn H7. pose proof (read_enc_head m n [] Hm Hn H7) as HE. rewrite app_nil_r in HE. split.
  - intros [[w Hw] HS]. apply (read_head_unique _ _ _ _ Hw). exact (HS _ _ HE).
  - intros ->. split; [eauto|]. intros other w Ho. pose proof (read_head_shortest _ _ _ _ _ Ho). lia.
Qed.

Section WithEnv.
Context `{E : Env} `{K : Stack} `{X : Cxx}.

Lemma len_array i n : len (array i n) = n.
Proof. unfold array, len. rewrite map_length, seq_length. lia. Qed.
Lemma array_ok i n : n < SZ -> buffer_ok (Some (array i n)) n.
Proof. intros. split; [assumption|]. rewrite len_array. lia. Qed.

(** What a stream that shows [b] over its whole array hands out. *)
Lemma got_shows s m size b : size < SZ -> len m = size -> shows s (Some m) size b -> len b <= size -> got (Some s) = (b, []).
Proof.
  intros Hs Hm (HC & HW & HB & HZ & lost & kept & HO & HK & HF & HM) HL.
  specialize (HF HL). subst lost. cbn [app] in HO. subst kept.
  unfold got, n20_stream_data. rewrite HC, HZ, N.mod_small by lia. unfold n20_stream_byte_count in HC. rewrite HC, N.mod_small by lia.
  rewrite sub_sz_le by lia. rewrite HM.
  assert (HT : len (takeN (size - len b) m) = size - len b) by (rewrite len_takeN; lia).
  rewrite <- HT at 1. rewrite dropN_app_len, takeN_app_len.
  destruct (N.leb_spec (size - len b + len b) (len (takeN (size - len b) m ++ b ++ dropN size m))) as [|Hc]; [reflexivity|].
  exfalso. rewrite !len_app, HT, len_dropN in Hc. lia.
Qed.

Lemma writes_decides P i size f b expected : size < SZ -> renders P f b -> decides (writes i size f expected) (b = expected /\ len b <= size) P.
Proof.
  intros Hs [_ HR]. destruct (HR _ [] _ _ _ (array_ok i size Hs) (shows_init _ _ (array_ok i size Hs))) as (s & v & E1 & S1 & E2 & F).
  rewrite !app_nil_r in *. unfold writes. cbv zeta. rewrite E1, E2.
  pose proof S1 as (HC & HW & HB & _). rewrite HB, HC.
  destruct (N.ltb_spec size (len b)) as [Ho|Ho].
  { split; [|exact F]. cbn. split; [discriminate|]. lia. }
  rewrite N.mod_small by lia. destruct (N.eqb_spec (len b) (len expected)) as [Hl|Hl]; cbn [negb].
  - rewrite (got_shows s (array i size) size b Hs (len_array _ _) S1 Ho). split; [|exact F]. cbn [fst]. rewrite same_spec. intuition congruence.
  - split; [|exact F]. cbn. split; [discriminate|]. intros [-> _]. congruence.
Qed.
Lemma writes_cbor_decides P i f b expected : renders P f b -> decides (writes_cbor i f expected) (b = expected /\ len b <= 20) P.
Proof.
  intros [_ HR]. assert (Hs : 20 < SZ) by (pose proof SZ_lo; lia).
  destruct (HR _ [] _ _ _ (array_ok i 20 Hs) (shows_init _ _ (array_ok i 20 Hs))) as (s & v & E1 & S1 & E2 & F).
  rewrite !app_nil_r in *. unfold writes_cbor. cbv zeta. rewrite E1, E2.
  pose proof S1 as (HC & HW & HB & _). rewrite HB.
  destruct (N.ltb_spec 20 (len b)) as [Ho|Ho].
  { split; [|exact F]. cbn. split; [discriminate|]. lia. }
  rewrite (got_shows s (array i 20) 20 b Hs (len_array _ _) S1 Ho). split; [|exact F]. cbn [fst]. rewrite same_spec. intuition congruence.
Qed.
Lemma writes_cbor_sized_decides P i f n b expected : renders P f b ->
  decides (writes_cbor_sized i f n expected) (b = expected /\ n = len b /\ len b <= 20) P.
Proof.
  intros [_ HR]. assert (Hs : 20 < SZ) by (pose proof SZ_lo; lia).
  destruct (HR _ [] _ _ _ (array_ok i 20 Hs) (shows_init _ _ (array_ok i 20 Hs))) as (s & v & E1 & S1 & E2 & F).
  rewrite !app_nil_r in *. unfold writes_cbor_sized. cbv zeta. rewrite E1, E2.
  pose proof S1 as (HC & HW & HB & _). rewrite HB.
  destruct (N.ltb_spec 20 (len b)) as [Ho|Ho].
  { split; [|exact F]. cbn. split; [discriminate|]. lia. }
  rewrite (got_shows s (array i 20) 20 b Hs (len_array _ _) S1 Ho), HC, N.mod_small by lia.
  destruct (N.eqb_spec (len b) n) as [Hl|Hl]; cbn [negb].
  - split; [|exact F]. cbn [fst]. rewrite same_spec. intuition congruence.
  - split; [|exact F]. cbn. split; [discriminate|]. intuition congruence.
Qed.

Lemma decides_and_then a b p q P : decides a p P -> decides b q P -> decides (and_then a b) (p /\ q) P.
Proof.
  intros [A FA] [B FB]. unfold and_then. destruct (fst a) eqn:Ea.
  - split; [|now apply Forall_app]. cbn. intuition.
  - split; [|assumption]. rewrite Ea. intuition congruence.
Qed.
Lemma decides_iff v p q P : decides v p P -> (p <-> q) -> decides v q P.
Proof. intros [H F] HQ. split; [|assumption]. now rewrite H. Qed.
Lemma and_then_true b : and_then (true, []) b = b.
Proof. unfold and_then. cbn. destruct b. now rewrite app_nil_r. Qed.

(** The patched tags agree with the ones the library writes. *)
Lemma implicit_patch : forallb (fun k : bool => forallb (fun t => byte_eqb
    (n2b (N.lor (N.lor (N.land (b2n (n2b (0 * 64 + (if k then 32 else 0) + N.of_nat t))) 0x20) 7) 0x80)) (n2b (2 * 64 + (if k then 32 else 0) + 7)))
  (seq 0 31)) [true; false] = true.
Proof. vm_compute. reflexivity. Qed.
Lemma implicit_byte (k : bool) t : t < 31 ->
  n2b (N.lor (N.lor (N.land (b2n (n2b (0 * 64 + (if k then 32 else 0) + t))) 0x20) 7) 0x80) = n2b (2 * 64 + (if k then 32 else 0) + 7).
Proof.
  intros Ht. pose proof implicit_patch as HA. rewrite forallb_forall in HA. specialize (HA k ltac:(destruct k; simpl; auto)).
  rewrite forallb_forall in HA. specialize (HA (N.to_nat t)). rewrite N2Nat.id in HA. apply byte_eqb_eq, HA, in_seq. lia.
Qed.
Lemma ident_not_5 (k : bool) t : t < 31 -> t <> 5 -> b2n (n2b (0 * 64 + (if k then 32 else 0) + t)) <> 5.
Proof. intros Ht H5. rewrite b2n_n2b_small by (destruct k; lia). destruct k; lia. Qed.

Definition three : list tag_info := [n20_asn1_tag_info_no_override; n20_asn1_tag_info_explicit 7; n20_asn1_tag_info_implicit 7].

Lemma patched_decides P i f expected ti b : renders P (f ti) b -> snd (tag_patch_encoded ti expected) = [] ->
  decides (patched i f expected ti) (b = fst (tag_patch_encoded ti expected) /\ len b <= 128) P.
Proof.
  intros HR HU. unfold patched. destruct (tag_patch_encoded ti expected) as [e u]. cbn [fst snd] in *. subst u. rewrite and_then_true.
  apply writes_decides; [pose proof SZ_lo; lia|exact HR].
Qed.
(** If the first round fails, nothing else happens. *)
Lemma first_round P (v w : verdict) p q : decides v p P -> (p -> decides w q P) -> decides (and_then v w) (p /\ q) P.
Proof.
  intros [A FA] HW. unfold and_then. destruct (fst v) eqn:Ea.
  - destruct HW as [B FB]; [now apply A|]. split; [|now apply Forall_app]. cbn. intuition.
  - split; [|assumption]. rewrite Ea. intuition congruence.
Qed.

Lemma enc_first t : t_class t = 0 -> t_tag t < 31 ->
  enc_tlv t = n2b (0 * 64 + (if t_constructed t then 32 else 0) + t_tag t) :: enc_len (len (t_content t)) ++ t_content t.
Proof. intros Hc Ht. unfold enc_tlv, enc_ident. rewrite Hc. apply N.ltb_lt in Ht. now rewrite Ht. Qed.
Lemma patch_explicit t : t_class t = 0 -> t_tag t < 31 -> t_tag t <> 5 ->
  tag_patch_encoded (n20_asn1_tag_info_explicit 7) (enc_tlv t) = (xa7 :: n2b (len (enc_tlv t)) :: enc_tlv t, []).
Proof.
  intros Hc Ht H5. rewrite (enc_first t Hc Ht). unfold tag_patch_encoded. cbn [ti_type n20_asn1_tag_info_explicit].
  pose proof (ident_not_5 (t_constructed t) (t_tag t) Ht H5) as HN. apply N.eqb_neq in HN. rewrite HN. reflexivity.
Qed.
Lemma patch_implicit t : t_class t = 0 -> t_tag t < 31 -> t_tag t <> 5 ->
  tag_patch_encoded (n20_asn1_tag_info_implicit 7) (enc_tlv t) = (enc_tlv (retag (Implicit 7) t), []).
Proof.
  intros Hc Ht H5. rewrite (enc_first t Hc Ht). unfold tag_patch_encoded. cbn [ti_type n20_asn1_tag_info_implicit].
  pose proof (ident_not_5 (t_constructed t) (t_tag t) Ht H5) as HN. apply N.eqb_neq in HN. rewrite HN.
  change (ti_tag (mkTagInfo TI_implicit (Z.to_N (7 mod 4294967296)))) with 7. rewrite implicit_byte by assumption. reflexivity.
Qed.
Lemma len_enc_implicit t : t_class t = 0 -> t_tag t < 31 -> len (enc_tlv (retag (Implicit 7) t)) = len (enc_tlv t).
Proof.
  intros Hc Ht. rewrite (enc_first t Hc Ht). unfold retag, enc_tlv, enc_ident. cbn [t_class t_constructed t_tag t_content].
  change (7 <? 31) with true. cbv iota. cbn [app]. now rewrite !len_cons.
Qed.
Lemma enc_explicit e : enc_tlv (Tlv 2 true 7 e) = xa7 :: enc_len (len e) ++ e.
Proof. reflexivity. Qed.

Lemma under_each_tag_decides P f t expected :
  (forall ti, In ti three -> renders P (f ti) (enc_tlv (retag (tagging_of ti) t))) ->
  t_class t = 0 -> t_tag t < 31 -> t_tag t <> 5 -> tlv_ok t ->
  decides (under_each_tag f expected) (decodes expected t /\ len expected <= 126) P.
Proof.
  intros HR Hc Ht H5 Hok. unfold under_each_tag.
  assert (H1 : decides (patched 0 f expected n20_asn1_tag_info_no_override) (enc_tlv t = expected /\ len (enc_tlv t) <= 128) P)
    by (apply (patched_decides P); [apply (HR n20_asn1_tag_info_no_override); simpl; auto|reflexivity]).
  set (e := enc_tlv t) in *.
  apply (decides_iff _ ((e = expected /\ len e <= 128) /\ ((xa7 :: enc_len (len e) ++ e = xa7 :: n2b (len e) :: e /\ len (xa7 :: enc_len (len e) ++ e) <= 128) /\ len e <= 128))).
  - apply first_round; [exact H1|]. intros [<- HL]. apply decides_and_then.
    + pose proof (patched_decides P 1 f e (n20_asn1_tag_info_explicit 7) _ (HR (n20_asn1_tag_info_explicit 7) ltac:(simpl; auto))) as HD.
      pose proof (patch_explicit t Hc Ht H5) as HP. fold e in HP. rewrite HP in HD. apply HD. reflexivity.
    + pose proof (patched_decides P 2 f e (n20_asn1_tag_info_implicit 7) _ (HR (n20_asn1_tag_info_implicit 7) ltac:(simpl; auto))) as HD.
      pose proof (patch_implicit t Hc Ht H5) as HP. fold e in HP. rewrite HP in HD. cbn [snd fst] in HD.
      change (tagging_of (n20_asn1_tag_info_implicit 7)) with (Implicit 7) in HD. rewrite (len_enc_implicit t Hc Ht) in HD. fold e in HD.
      apply (decides_iff _ _ _ _ (HD eq_refl)). intuition.
  - rewrite (decodes_iff _ _ Hok). fold e. split.
    + intros ((<- & _) & (HE & HL) & _). split; [reflexivity|]. injection HE as HE. apply (f_equal (@length byte)) in HE.
      rewrite app_length in HE. cbn [length] in HE. rewrite len_cons, len_app in HL. unfold len in *. lia.
    + intros [-> HL]. assert (HN : enc_len (len e) = [n2b (len e)]) by (unfold enc_len; destruct (N.ltb_spec (len e) 128); [reflexivity|lia]).
      rewrite HN. cbn [app]. rewrite !len_cons. intuition lia.
Qed.
Lemma under_each_tag_null P f expected : (forall ti, renders P (f ti) (enc_tlv tlv_null)) ->
  decides (under_each_tag f expected) (decodes expected tlv_null) P.
Proof.
  intros HR. unfold under_each_tag. pose proof (decodes_iff expected tlv_null ltac:(split; reflexivity)) as HD.
  assert (H1 : decides (patched 0 f expected n20_asn1_tag_info_no_override) (enc_tlv tlv_null = expected /\ len (enc_tlv tlv_null) <= 128) P)
    by (apply (patched_decides P); [apply HR|reflexivity]).
  apply (decides_iff _ ((enc_tlv tlv_null = expected /\ len (enc_tlv tlv_null) <= 128) /\ (True /\ True))).
  - apply first_round; [exact H1|]. intros [<- _].
    apply decides_and_then; (eapply decides_iff; [apply (patched_decides P); [apply HR|reflexivity]|]); (split; [auto|intros _; split; [reflexivity|vm_compute; discriminate]]).
  - rewrite HD. split; [intros ((<- & _) & _); reflexivity|intros ->]. repeat split. vm_compute. discriminate.
Qed.
Lemma value_decides {A} P f k tag (read : list byte -> option A) v enc expected :
  (forall ti, In ti three -> renders P (f ti) (enc_tlv (retag (tagging_of ti) (Tlv 0 k tag enc)))) ->
  tag < 31 -> tag <> 5 -> len enc < 2 ^ 64 -> (forall c, read c = Some v <-> c = enc) ->
  decides (under_each_tag f expected) (expects_value expected k tag read v) P.
Proof.
  intros HR Ht H5 HL HC. eapply decides_iff; [apply (under_each_tag_decides P f (Tlv 0 k tag enc)); [exact HR|reflexivity|exact Ht|exact H5|split; [reflexivity|exact HL]]|].
  unfold expects_value. split.
  - intros [HD H]. split; [|exact H]. exists enc. split; [exact HD|now apply HC].
  - intros [(c & HD & Hc) H]. apply HC in Hc. subst c. now split.
Qed.
Lemma three_ok ti : In ti three -> ti_ok ti.
Proof. intros [<-|[<-|[<-|[]]]]; reflexivity. Qed.
End WithEnv.
