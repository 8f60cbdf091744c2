(** rfc6979_k_generation of the BoringSSL back end is RFC 6979 section 3.2. *)
From Coq Require Import List NArith ZArith Bool Strings.Byte Lia.
From Coq Require Import ZifyBool ZifyNat ZifyN.
From Verif Require Import Base BaseFacts Res SpecDigits DigitsFacts SpecSha2 ShaFacts Crypto SpecMac SpecCrypto CryptoProofs Bssl BsslKeys SpecBssl BsslProofs.
Import ListNotations.
Open Scope N_scope.

Lemma iter_succ {A} (f : A -> A) n x : Nat.iter n f (f x) = Nat.iter (S n) f x.
Proof. induction n as [|n IH]; [reflexivity|]. change (f (Nat.iter n f (f x)) = f (Nat.iter (S n) f x)). now rewrite IH. Qed.
Lemma find_seq (f : nat -> bool) n : forall a, find f (seq (S a) n) = option_map S (find (fun i => f (S i)) (seq a n)).
Proof. induction n as [|n IH]; intro a; [reflexivity|]. cbn [seq find]. destruct (f (S a)); [reflexivity|]. apply IH. Qed.
Lemma size_gt q : q < 2 ^ N.size q.
Proof. apply N.size_gt. Qed.
Lemma size_le q : 0 < q -> 2 ^ N.size q <= 2 * q.
Proof. intro Hq. rewrite N.size_log2 by lia. rewrite N.pow_succ_r'. pose proof (N.log2_spec q Hq). lia. Qed.
Lemma pow_le a b : a <= b -> 2 ^ a <= 2 ^ b.
Proof. intro. apply N.pow_le_mono_r; lia. Qed.
Lemma pow256 n : 256 ^ n = 2 ^ (8 * n).
Proof. rewrite N.pow_mul_r. reflexivity. Qed.

Lemma mod0 b : b mod 0 = b.
Proof. now destruct b. Qed.

(** ** The loops *)
Section Loops.
Context {B : Bssl}.
Variables (alg ds q : N).
Hypothesis Hf : no_failure B.
Hypothesis Hds : 0 < ds.
Hypothesis Hhmac : forall k m, len (bssl_hmac alg k m) = ds.
Let H := bssl_hmac alg.
Let it := (qlen q + ds * 8 - 1) / (ds * 8).

Lemma it_ok : qlen q <= 8 * ds * it /\ forall i, i < it -> 8 * ds * i < qlen q.
Proof.
  unfold it. pose proof (N.div_mod (qlen q + ds * 8 - 1) (ds * 8) ltac:(lia)). pose proof (N.mod_lt (qlen q + ds * 8 - 1) (ds * 8) ltac:(lia)).
  set (k := (qlen q + ds * 8 - 1) / (ds * 8)) in *. split; [nia|]. intros i Hi. assert (ds * 8 * (i + 1) <= ds * 8 * k) by (apply N.mul_le_mono_l; lia). nia.
Qed.
Lemma it_le : it <= qlen q.
Proof. destruct (N.eq_dec it 0) as [->|]; [lia|]. pose proof (proj2 it_ok (it - 1) ltac:(lia)). nia. Qed.

Lemma k_fill_ok n K : forall k i fuel V T, N.of_nat k + i = it -> len T = ds * i -> (k <= fuel)%nat ->
  k_fill n alg ds k i K V T = Ret (inr (grow H q fuel K V T)) /\ len (snd (grow H q fuel K V T)) = ds * it.
Proof.
  induction k; intros i fuel V T Hk HT Hl; cbn [k_fill].
  - assert (i = it) by lia. subst i. pose proof (proj1 it_ok) as Hi.
    assert (Hg : grow H q fuel K V T = (V, T)). { destruct fuel; [reflexivity|]. cbn [grow]. destruct (N.leb_spec (qlen q) (8 * len T)); [reflexivity|lia]. }
    rewrite Hg. now split.
  - destruct fuel as [|fuel]; [lia|]. cbn [grow]. pose proof (proj2 it_ok i ltac:(lia)) as Hi.
    destruct (N.leb_spec (qlen q) (8 * len T)); [lia|]. rewrite Hf, Hhmac, N.eqb_refl. cbn [negb andb].
    apply IHk; [lia| |lia]. rewrite len_app, HT, Hhmac. lia.
Qed.

Lemma attempt_ok n K V : k_fill n alg ds (N.to_nat it) 0 K V [] = Ret (inr (attempt H q (K, V))) /\
  len (snd (attempt H q (K, V))) = ds * it.
Proof.
  unfold attempt. cbn [fst snd]. pose proof it_le. apply k_fill_ok; [lia|change (len []) with 0; lia|lia].
Qed.

Lemma bits2int_ok T : N.shiftr (be_val T) (len T * 8 - qlen q) = bits2int q T.
Proof.
  unfold bits2int. rewrite N.shiftr_div_pow2, (N.mul_comm (len T) 8). destruct (N.ltb_spec (qlen q) (8 * len T)); [reflexivity|].
  replace (8 * len T - qlen q) with 0 by lia. apply N.div_1_r.
Qed.

Definition cand (s : list byte * list byte) (i : nat) : N := bits2int q (snd (attempt H q (Nat.iter i (next H q) s))).

Lemma k_loop_ok : forall fuel n K V,
  k_loop fuel n alg ds (qlen q) q K V =
  match find (fun i => suitable q (cand (K, V) i)) (seq 0 fuel) with Some i => Ret (inr (cand (K, V) i)) | None => OutOfFuel end.
Proof.
  induction fuel as [|fuel IH]; intros n K V; [reflexivity|]. cbn [k_loop seq find].
  change ((qlen q + ds * 8 - 1) / (ds * 8)) with it. destruct (attempt_ok n K V) as [E1 E2]. rewrite E1. cbn [bind].
  destruct (attempt H q (K, V)) as [V1 T1] eqn:Ea. rewrite !Hf. cbn [negb]. rewrite bits2int_ok.
  assert (Ec : cand (K, V) 0 = bits2int q T1). { unfold cand. cbn [Nat.iter nat_rect]. now rewrite Ea. }
  rewrite Ec. replace (negb (bits2int q T1 =? 0) && (bits2int q T1 <? q)) with (suitable q (bits2int q T1)) by (unfold suitable; lia).
  destruct (suitable q (bits2int q T1)). { now rewrite Ec. }
  rewrite !Hhmac, N.eqb_refl. cbn [negb andb]. rewrite IH, find_seq.
  assert (En : next H q (K, V) = (bssl_hmac alg K (V1 ++ [x00]), bssl_hmac alg (bssl_hmac alg K (V1 ++ [x00])) V1)).
  { unfold next. now rewrite Ea. }
  rewrite <- En. assert (Es : forall i, cand (next H q (K, V)) i = cand (K, V) (S i)). { intro i. unfold cand. now rewrite iter_succ. }
  assert (Ef : forall l, find (fun i => suitable q (cand (next H q (K, V)) i)) l = find (fun i => suitable q (cand (K, V) (S i))) l).
  { induction l as [|a l IHl]; [reflexivity|]. cbn [find]. rewrite Es. destruct (suitable _ _); [reflexivity|]. exact IHl. }
  rewrite Ef. destruct (find _ (seq 0 fuel)); cbn [option_map]; [|reflexivity]. now rewrite Es.
Qed.

(** ** The message digest *)
Lemma bits2int_lt h : bits2int q h < 2 ^ qlen q.
Proof.
  unfold bits2int. pose proof (be_val_lt h) as Hb. rewrite pow256 in Hb. destruct (N.ltb_spec (qlen q) (8 * len h)).
  - apply N.div_lt_upper_bound; [apply N.pow_nonzero; lia|]. rewrite <- N.pow_add_r. now replace (8 * len h - qlen q + qlen q) with (8 * len h) by lia.
  - eapply N.lt_le_trans; [exact Hb|]. now apply pow_le.
Qed.
Lemma fits n : n < 2 ^ qlen q -> n < 256 ^ rlen q.
Proof.
  intro Hn. eapply N.lt_le_trans; [exact Hn|]. rewrite pow256. apply pow_le. unfold rlen.
  pose proof (N.div_mod (qlen q + 7) 8 ltac:(lia)). pose proof (N.mod_lt (qlen q + 7) 8 ltac:(lia)). lia.
Qed.

Lemma k_message_ok m : (forall m, len (evp_digest alg m) = ds) ->
  k_message m alg ds (qlen q) (rlen q) q = Ret (inr (match option_map (evp_digest alg) m with Some h1 => bits2octets q h1 | None => [] end)).
Proof.
  intro Hd. destruct m as [m|]; [|reflexivity]. cbn [k_message option_map]. rewrite !Hf. cbn [negb andb].
  set (h := evp_digest alg m). assert (Hh : len h = ds) by apply Hd. rewrite Hh, N.eqb_refl.
  match goal with |- bind ?x _ = _ => replace x with (@Ret (variant N) (inr (bits2int q h))) end; cycle 1.
  { rewrite <- bits2int_ok, Hh. destruct (N.ltb_spec (qlen q) (ds * 8)); [reflexivity|]. now replace (ds * 8 - qlen q) with 0 by lia. }
  cbn [bind]. pose proof (bits2int_lt h) as Hb. unfold bits2octets, int2octets. set (b := bits2int q h) in *.
  assert (Hm : (if (Z.of_N b - Z.of_N q <? 0)%Z then b else Z.to_N (Z.of_N b - Z.of_N q)) = b mod q).
  { destruct (N.eq_dec q 0) as [Ez|Hz].
    - rewrite Ez, mod0. destruct (Z.ltb_spec (Z.of_N b - Z.of_N 0) 0); lia.
    - pose proof (size_le q ltac:(lia)) as H2. fold (qlen q) in H2. destruct (Z.ltb_spec (Z.of_N b - Z.of_N q) 0).
      + symmetry. apply N.mod_small. lia.
      + apply (N.mod_unique _ _ 1); lia. }
  rewrite Hm. assert (Hlt : b mod q < 256 ^ rlen q).
  { apply fits. destruct (N.eq_dec q 0) as [Ez|Hz]; [rewrite Ez, mod0; rewrite Ez in Hb; exact Hb|].
    pose proof (N.mod_lt b q Hz). pose proof (size_gt q). unfold qlen. lia. }
  unfold BN_bn2bin_padded. destruct (N.ltb_spec (b mod q) (256 ^ rlen q)); [reflexivity|lia].
Qed.

Theorem k_generation_ok fuel x m : digest_enum_to_bssl_evp_md alg = true -> bssl_digest_enum_to_size alg = ds ->
  (forall m, len (evp_digest alg m) = ds) ->
  rfc6979_k_generation fuel x m alg q =
  match first_suitable H (N.to_nat ds) q (k_data q x (option_map (evp_digest alg) m)) fuel with Some k => Ret (inr k) | None => OutOfFuel end.
Proof.
  intros Ha Hs Hd. unfold rfc6979_k_generation. rewrite Ha, Hs. fold (qlen q). fold (rlen q). rewrite k_message_ok by assumption. cbn [bind].
  rewrite Hf. cbn [negb]. unfold k_warm_up at 1. rewrite !Hf, !Hhmac, N.eqb_refl. cbn [negb andb bind].
  unfold k_warm_up at 1. rewrite !Hf, !Hhmac, N.eqb_refl. cbn [negb andb bind].
  rewrite k_loop_ok. unfold first_suitable, candidate. set (data := k_data q x (option_map (evp_digest alg) m)).
  match goal with |- context [cand ?s] => change s with (warmed_up H (N.to_nat ds) data); set (st := s) end.
  unfold cand. now destruct (find _ (seq 0 fuel)).
Qed.
End Loops.

Lemma first_suitable_spec H hl q data fuel k : first_suitable H hl q data fuel = Some k -> is_rfc6979_k H hl q data k.
Proof.
  unfold first_suitable, is_rfc6979_k. set (f := fun i => suitable q (candidate H hl q data i)).
  assert (P : forall n a i, find f (seq a n) = Some i -> f i = true /\ forall j, (a <= j < i)%nat -> f j = false).
  { induction n as [|n IH]; intros a i Hi; cbn [seq find] in Hi; [discriminate|]. destruct (f a) eqn:Ef.
    - injection Hi as <-. split; [assumption|lia].
    - destruct (IH _ _ Hi) as [H1 H2]. split; [assumption|]. intros j Hj. destruct (Nat.eq_dec j a) as [->|]; [assumption|]. apply H2. lia. }
  destruct (find f (seq 0 fuel)) as [i|] eqn:Ei; [|discriminate]. cbn [option_map]. intro Hk. injection Hk as <-.
  destruct (P _ _ _ Ei) as [H1 H2]. exists i. split; [reflexivity|]. split; [assumption|]. intros j Hj. apply H2. lia.
Qed.
Lemma first_suitable_none H hl q data fuel : first_suitable H hl q data fuel = None <-> forall i, (i < fuel)%nat -> suitable q (candidate H hl q data i) = false.
Proof.
  unfold first_suitable. set (f := fun i => suitable q (candidate H hl q data i)). split.
  - intros Hn i Hi. destruct (find f (seq 0 fuel)) eqn:Ef; [discriminate|]. apply (find_none f _ Ef). apply in_seq. lia.
  - intro Hi. destruct (find f (seq 0 fuel)) eqn:Ef; [|reflexivity]. apply find_some in Ef. destruct Ef as [H1 H2]. apply in_seq in H1.
    unfold f in H2. rewrite Hi in H2 by lia. discriminate.
Qed.
Lemma rfc6979_unique H hl q data k1 k2 : is_rfc6979_k H hl q data k1 -> is_rfc6979_k H hl q data k2 -> k1 = k2.
Proof.
  intros (i & -> & Si & Hi) (j & -> & Sj & Hj). destruct (Nat.lt_trichotomy i j) as [Hlt|[->|Hgt]]; [|reflexivity|].
  - rewrite (Hj i Hlt) in Si. discriminate.
  - rewrite (Hi j Hgt) in Sj. discriminate.
Qed.
Lemma first_suitable_complete H hl q data k : is_rfc6979_k H hl q data k -> exists n, forall fuel, (n <= fuel)%nat -> first_suitable H hl q data fuel = Some k.
Proof.
  intros Hk. pose proof Hk as (i & Ek & Si & _). exists (S i). intros fuel Hfu.
  destruct (first_suitable H hl q data fuel) as [k'|] eqn:Ef.
  - f_equal. eapply rfc6979_unique; [|exact Hk]. eapply first_suitable_spec. exact Ef.
  - rewrite first_suitable_none in Ef. rewrite Ek, (Ef i) in Si by lia. discriminate.
Qed.

(** ** Whatever BoringSSL does, the result is in range *)
Lemma k_loop_range (B : Bssl) alg ds q : forall fuel n K V k, k_loop fuel n alg ds (N.size q) q K V = Ret (inr k) -> suitable q k = true.
Proof.
  induction fuel as [|fuel IH]; intros n K V k; cbn [k_loop]; [discriminate|].
  destruct (k_fill _ _ _ _ _ _ _ _) as [[?|[V1 T1]]| |]; cbn [bind]; try discriminate.
  repeat (match goal with |- context [if negb (fails ?c) then _ else _] => destruct (fails c); cbn [negb]; [discriminate|] end).
  set (c := N.shiftr _ _). destruct (negb (c =? 0) && (c <? q)) eqn:Ec.
  - intro E. injection E as <-. unfold suitable. lia.
  - destruct (fails (c_try_init n)); cbn [negb]; [discriminate|].
    do 2 (match goal with |- context [if ?b then _ else _] => destruct b end; [|discriminate]). apply IH.
Qed.
Theorem k_range (B : Bssl) fuel x m alg q k : rfc6979_k_generation fuel x m alg q = Ret (inr k) -> suitable q k = true.
Proof.
  unfold rfc6979_k_generation. destruct (digest_enum_to_bssl_evp_md alg); [|discriminate].
  destruct (k_message _ _ _ _ _ _) as [[?|h1]| |]; cbn [bind]; try discriminate.
  destruct (fails c_hmac_ctx_new); cbn [negb]; [discriminate|].
  destruct (k_warm_up _ _ _ _ 0 _ _) as [[?|[K V]]| |]; cbn [bind]; try discriminate.
  destruct (k_warm_up _ _ _ _ 1 _ _) as [[?|[K1 V1]]| |]; cbn [bind]; try discriminate.
  apply k_loop_range.
Qed.

(** ** Failures *)
Definition inl_of {A} (e : error) : variant A := inl e.
Lemma failing_try {A C} B (x y : res (variant A)) (f g : A -> res (variant C)) : failing B x y inl_of -> (forall a, failing B (f a) (g a) inl_of) ->
  failing B (try a <- x; f a) (try a <- y; g a) inl_of.
Proof.
  intros [->|(e & He & ->)] Hfg.
  - destruct y as [[e|a]| |]; cbn [bind]; try (left; reflexivity). apply Hfg.
  - right. exists e. now split.
Qed.
Lemma failing_refl {A} B (x : res (variant A)) : failing B x x inl_of.
Proof. now left. Qed.
Lemma failing_need {A} (B : Bssl) c b (e : error) (x y : res (variant A)) : e = no_resources_e \/ e = implementation_specific_e -> failing B x y inl_of ->
  failing B (need negb (@fails B c) && b else e; x) (need b else e; y) inl_of.
Proof.
  intros He Hxy. destruct (@fails B c) eqn:Ec; cbn [negb andb].
  - right. exists e. split; [|reflexivity]. split; [assumption|now exists c].
  - now destruct b; [|left].
Qed.
Lemma failing_need1 {A} (B : Bssl) c (e : error) (x y : res (variant A)) : e = no_resources_e \/ e = implementation_specific_e -> failing B x y inl_of ->
  failing B (need negb (@fails B c) else e; x) y inl_of.
Proof.
  intros He Hxy. destruct (@fails B c) eqn:Ec; cbn [negb]; [|assumption].
  right. exists e. split; [|reflexivity]. split; [assumption|now exists c].
Qed.
Ltac chase :=
  repeat first
    [ apply failing_refl
    | apply failing_need; [tauto|]
    | apply failing_need1; [tauto|]
    | apply failing_try; [|intros] ].

Lemma k_fill_failing B n alg ds K : forall k i V T, failing B (@k_fill B n alg ds k i K V T) (@k_fill (reliable B) n alg ds k i K V T) inl_of.
Proof.
  induction k as [|k IH]; intros i V T; cbn [k_fill]; [apply failing_refl|]. cbn [reliable fails bssl_hmac negb andb].
  apply failing_need; [tauto|]. apply IH.
Qed.
Lemma k_loop_failing B alg ds ql q : forall fuel n K V, failing B (@k_loop B fuel n alg ds ql q K V) (@k_loop (reliable B) fuel n alg ds ql q K V) inl_of.
Proof.
  induction fuel as [|fuel IH]; intros n K V; cbn [k_loop]; [now left|]. apply failing_try; [apply k_fill_failing|]. intros [V1 T1].
  cbn [reliable fails bssl_hmac negb andb]. chase. destruct (negb _ && _); [apply failing_refl|]. chase. apply IH.
Qed.
Lemma k_generation_failing B fuel x m alg q :
  failing B (@rfc6979_k_generation B fuel x m alg q) (@rfc6979_k_generation (reliable B) fuel x m alg q) inl_of.
Proof.
  unfold rfc6979_k_generation. destruct (digest_enum_to_bssl_evp_md alg); [|apply failing_refl]. apply failing_try.
  - destruct m as [m|]; [|apply failing_refl]. cbn [k_message reliable fails evp_digest negb andb]. chase.
    + destruct (_ <? _); chase.
    + destruct (@fails B c_bn2bin) eqn:Ec; [|apply failing_refl]. right. exists no_resources_e. split; [|reflexivity].
      eapply no_res. eassumption.
  - intros h1. cbn [reliable fails negb]. chase.
    1,2: unfold k_warm_up; cbn [reliable fails bssl_hmac negb andb]; chase.
    destruct a as [K V]. apply failing_try; [chase|]. intros [K1 V1]. apply k_loop_failing.
Qed.

(** ** The specification depends on HMAC only through its values *)
Section Ext.
Variables (H1 H2 : list byte -> list byte -> list byte) (hl : nat) (q : N).
Hypothesis Heq : forall k m, H1 k m = H2 k m.
Lemma grow_ext fuel : forall K V T, grow H1 q fuel K V T = grow H2 q fuel K V T.
Proof. induction fuel as [|fuel IH]; intros K V T; [reflexivity|]. cbn [grow]. rewrite Heq. now destruct (_ <=? _). Qed.
Lemma next_ext s : next H1 q s = next H2 q s.
Proof. unfold next, attempt. now rewrite grow_ext, !Heq. Qed.
Lemma candidate_ext data i : candidate H1 hl q data i = candidate H2 hl q data i.
Proof.
  unfold candidate, attempt. rewrite grow_ext. replace (warmed_up H1 hl data) with (warmed_up H2 hl data) by (unfold warmed_up; now rewrite !Heq).
  assert (Ei : forall n s, Nat.iter n (next H1 q) s = Nat.iter n (next H2 q) s).
  { induction n as [|n IH]; intro s; [reflexivity|]. change (next H1 q (Nat.iter n (next H1 q) s) = next H2 q (Nat.iter n (next H2 q) s)). now rewrite IH, next_ext. }
  now rewrite !Ei.
Qed.
Lemma first_suitable_ext data fuel : first_suitable H1 hl q data fuel = first_suitable H2 hl q data fuel.
Proof.
  unfold first_suitable.
  assert (Ef : forall l, find (fun i => suitable q (candidate H1 hl q data i)) l = find (fun i => suitable q (candidate H2 hl q data i)) l).
  { induction l as [|a l IH]; [reflexivity|]. cbn [find]. rewrite candidate_ext. destruct (suitable _ _); [reflexivity|exact IH]. }
  rewrite Ef. destruct (find _ _); cbn [option_map]; [now rewrite candidate_ext|reflexivity].
Qed.
End Ext.

(** With BoringSSL computing SHA-2. *)
Theorem k_generation_sha2 (B : Bssl) fuel x m alg A q : no_failure B -> computes_sha2 B -> algorithm alg = Some A ->
  rfc6979_k_generation fuel x m alg q =
  match first_suitable (HMAC A) (N.to_nat (out_bytes A)) q (k_data q x (option_map (hash A) m)) fuel with
  | Some k => Ret (inr k)
  | None => OutOfFuel
  end.
Proof.
  intros Hf Hc HA. destruct (Hc _ _ HA) as (Hh & Hm & _). pose proof (algorithm_known _ _ HA) as Kn. pose proof (known_out A Kn).
  rewrite (k_generation_ok alg (out_bytes A) q Hf).
  - rewrite (first_suitable_ext (bssl_hmac alg) (HMAC A) _ _ Hm).
    replace (option_map (evp_digest alg) m) with (option_map (hash A) m) by (destruct m; cbn [option_map]; now rewrite ?Hh). reflexivity.
  - lia.
  - intros k d. rewrite Hm. now apply HMAC_len.
  - rewrite md_known, HA. reflexivity.
  - rewrite bssl_size. unfold required. now rewrite HA.
  - intro d. rewrite Hh. now apply known_len.
Qed.
