(** Properties C33-C41: digest, HMAC and HKDF of the nat20 back end (src/crypto/nat20/crypto.c). *)
From Coq Require Import List NArith ZArith Bool Strings.Byte Lia.
From Coq Require Import ZifyBool ZifyNat ZifyN.
From Verif Require Import Base BaseFacts Res SpecSha2 ShaFacts Sha256 Sha512 Crypto SpecMac SpecCrypto CryptoProofs.
Import ListNotations.
Open Scope N_scope.

(** The functions of the context that n20_crypto_nat20_open hands out. *)
Definition the_digest `{Env} `{Libc} : digest_fn := n20_digest true.
Definition the_hmac `{Env} `{Libc} : hmac_fn := n20_hmac (Some the_digest).
Definition the_extract `{Env} `{Libc} : extract_fn := n20_hkdf_extract (Some the_hmac).
Definition the_expand `{Env} `{Libc} : expand_fn := n20_hkdf_expand (Some the_hmac).
Definition the_hkdf `{Env} `{Libc} : hkdf_fn := n20_hkdf (Some (the_extract, the_expand)).
Theorem C33_context : forall (E : Env) (M : Libc),
  n20_crypto_nat20_open true = (ok_e, Some (mkContext the_digest the_hmac the_hkdf the_extract the_expand)).
Proof. reflexivity. Qed.
Print Assumptions C33_context.

Lemma the_digest_meets (E : Env) (M : Libc) : meets_digest the_digest.
Proof. intros alg ms count out size Hp. exact (digest_ok true alg ms count out size Hp). Qed.
Lemma the_hmac_meets (E : Env) (M : Libc) : meets_hmac the_hmac.
Proof. intros alg key m out size Hp. exact (hmac_ok (Some the_digest) alg key m out size (the_digest_meets E M) Hp). Qed.
Lemma the_extract_meets (E : Env) (M : Libc) : meets_extract the_extract.
Proof. intros alg ikm salt out size Hp. exact (extract_ok (Some the_hmac) alg ikm salt out size (the_hmac_meets E M) Hp). Qed.
Lemma the_expand_meets (E : Env) (M : Libc) : meets_expand the_expand.
Proof. intros alg prk info L out Hp. exact (expand_ok (Some the_hmac) alg prk info L out (the_hmac_meets E M) Hp). Qed.
Lemma the_hkdf_meets (E : Env) (M : Libc) alg ikm salt info L out : hkdf_pre ikm salt info L out ->
  the_hkdf alg ikm salt info L out = Ret (hkdf_report true alg ikm salt info L out).
Proof.
  intro Hp.
  exact (hkdf_ok (Some (the_extract, the_expand)) alg ikm salt info L out (conj (the_extract_meets E M) (the_expand_meets E M)) Hp).
Qed.

(** Facts about reports. *)
Lemma first_error_ok l : ~ In ok_e (map snd l) -> (first_error l = ok_e <-> forall b e, In (b, e) l -> b = false).
Proof.
  unfold first_error. induction l as [|[b e] l IH]; intro Hn; cbn [find fst].
  - split; [|reflexivity]. intros _ b e [].
  - cbn [map snd] in Hn. destruct b.
    + split; [intro; subst; exfalso; apply Hn; now left|]. intro Hb. discriminate (Hb true e (or_introl eq_refl)).
    + rewrite IH by (intro; apply Hn; now right). split.
      * intros Hb b' e' [E|Hi]; [now injection E as <- _|now apply (Hb b' e')].
      * intros Hb b' e' Hi. apply (Hb b' e'). now right.
Qed.
Lemma first_error_in l e : first_error l = e -> e <> ok_e -> In (true, e) l.
Proof.
  unfold first_error. destruct (find fst l) as [[b x]|] eqn:Ef; intros H1 H2; [|congruence]. subst x.
  destruct (find_some _ _ Ef) as [Hi Hb]. cbn in Hb. now subst b.
Qed.

(** ** C33 *)

(** A successful digest is the FIPS 180-4 hash of all slices of all lists in order, and reports the digest size. *)
Theorem C33_digest_is_hash : forall (E : Env) (M : Libc) alg A ms count d size out' size',
  algorithm alg = Some A -> digest_pre ms count (Some d) (Some size) ->
  the_digest alg ms count (Some d) (Some size) = Ret (ok_e, out', size') ->
  out' = Some (hash A (message_bytes ms count) ++ dropN (out_bytes A) d) /\ size' = Some (out_bytes A) /\
  len (hash A (message_bytes ms count)) = out_bytes A.
Proof.
  intros E M alg A ms count d size out' size' HA Hp Hr. rewrite the_digest_meets in Hr by assumption.
  unfold digest_report, report, result, required in Hr. rewrite HA in Hr. destruct (first_error _); try discriminate.
  injection Hr as <- <-. splits; try reflexivity. apply known_len. eapply algorithm_known. eassumption.
Qed.
Print Assumptions C33_digest_is_hash.

(** Regrouping the same bytes never changes the result. *)
Theorem C33_regrouping : forall (E : Env) (M : Libc) alg ms1 count1 ms2 count2 out size r1 r2,
  digest_pre ms1 count1 out size -> digest_pre ms2 count2 out size ->
  message_bytes ms1 count1 = message_bytes ms2 count2 ->
  the_digest alg ms1 count1 out size = Ret r1 -> the_digest alg ms2 count2 out size = Ret r2 ->
  fst (fst r1) = ok_e -> fst (fst r2) = ok_e -> r1 = r2.
Proof.
  intros E M alg ms1 c1 ms2 c2 out size r1 r2 P1 P2 Hm H1 H2 O1 O2. rewrite the_digest_meets in H1, H2 by assumption.
  injection H1 as <-. injection H2 as <-. unfold digest_report, report in *. cbn [fst] in O1, O2. rewrite O1, O2, Hm. reflexivity.
Qed.
Print Assumptions C33_regrouping.

#[local] Instance env64 : Env := {| size_width := W64; host_little_endian := true; stray := fun _ => x00 |}.
#[local] Instance libc : Libc := {| memcpy_null_ok := true |}.

(** The four bytes 01 02 03 04 as one list with an empty and a NULL slice, and as two lists. *)
Definition split1 : list gather := [mkGather 3 (Some [mkSlice 0 None; slice_of (bytes [1; 2; 3]); slice_of (bytes [4])])].
Definition split2 : list gather := [mkGather 1 (Some [slice_of (bytes [1])]); mkGather 0 None; mkGather 1 (Some [slice_of (bytes [2; 3; 4])])].

(** Boolean versions of the preconditions, to check concrete cases by computation. *)
Definition slice_okb (s : slice) : bool := (sl_size s <? SZ) && match sl_buf s with None => true | Some d => sl_size s <=? len d end.
Lemma slice_okb_ok s : slice_okb s = true -> slice_ok s.
Proof.
  unfold slice_okb, slice_ok. intro Hb. apply andb_prop in Hb. destruct Hb as [H1 H2]. split; [now apply N.ltb_lt|].
  destruct (sl_buf s); [now apply N.leb_le|exact I].
Qed.
Definition gather_okb (g : gather) : bool := (g_count g <=? len (slices g)) && forallb slice_okb (slices g).
Lemma gather_okb_ok g : gather_okb g = true -> gather_ok g.
Proof.
  unfold gather_okb. intro Hb. apply andb_prop in Hb. destruct Hb as [H1 H2]. split; [now apply N.leb_le|].
  apply Forall_forall. intros s Hs. apply slice_okb_ok. rewrite forallb_forall in H2. now apply H2.
Qed.
Definition out_okb (out : ptr) (size : option N) : bool := match out, size with Some d, Some n => n <=? len d | _, _ => true end.
Lemma out_okb_ok out size : out_okb out size = true -> out_ok out size.
Proof. destruct out, size; cbn; try exact (fun _ => I). apply N.leb_le. Qed.
Definition digest_preb (ms : option (list gather)) (count : N) (out : ptr) (size : option N) : bool :=
  out_okb out size &&
  match ms with
  | None => true
  | Some [] => false
  | Some (g :: more) => (count <=? len (g :: more)) && (gather_okb g || is_none (g_list g)) && forallb gather_okb (takeN (count - 1) more)
  end && (len (message_bytes ms count) <? 2305843009213693952).
Lemma digest_preb_ok ms count out size : digest_preb ms count out size = true -> digest_pre ms count out size.
Proof.
  unfold digest_preb, digest_pre. intro Hb. apply andb_prop in Hb. destruct Hb as [Hb H3]. apply andb_prop in Hb. destruct Hb as [H1 H2]. splits.
  - now apply out_okb_ok.
  - destruct ms as [[|g more]|]; [discriminate| |exact I]. apply andb_prop in H2. destruct H2 as [H2 H5]. apply andb_prop in H2. destruct H2 as [H2 H4].
    splits.
    + now apply N.leb_le.
    + apply orb_prop in H4. destruct H4 as [H4|H4]; [left; now apply gather_okb_ok|right]. destruct (g_list g); [discriminate|reflexivity].
    + apply Forall_forall. intros x Hx. apply gather_okb_ok. rewrite forallb_forall in H5. now apply H5.
  - now apply N.ltb_lt.
Qed.
Definition key_okb (key : slice) : bool :=
  slice_okb key && (len (slice_bytes key) <? 2305843009213693952) && (negb (is_none (sl_buf key)) || memcpy_null_ok).
Lemma key_okb_ok key : key_okb key = true -> key_ok key.
Proof.
  unfold key_okb, key_ok. intro Hb. apply andb_prop in Hb. destruct Hb as [Hb H3]. apply andb_prop in Hb. destruct Hb as [H1 H2]. splits.
  - now apply slice_okb_ok.
  - now apply N.ltb_lt.
  - intro Hn. rewrite Hn in H3. exact H3.
Qed.
Definition hmac_preb key m out size : bool :=
  key_okb key && out_okb out size && match m with None => true | Some g => gather_okb g || is_none (g_list g) end &&
  (128 + len (message_bytes (one m) 1) <? 2305843009213693952).
Lemma hmac_preb_ok key m out size : hmac_preb key m out size = true -> hmac_pre key m out size.
Proof.
  unfold hmac_preb, hmac_pre. intro Hb. apply andb_prop in Hb. destruct Hb as [Hb H4]. apply andb_prop in Hb. destruct Hb as [Hb H3].
  apply andb_prop in Hb. destruct Hb as [H1 H2]. splits.
  - now apply key_okb_ok.
  - now apply out_okb_ok.
  - destruct m as [g|]; [|exact I]. apply orb_prop in H3. destruct H3 as [H3|H3]; [left; now apply gather_okb_ok|right].
    destruct (g_list g); [discriminate|reflexivity].
  - now apply N.ltb_lt.
Qed.
Definition okm_okb (L : N) (out : ptr) : bool := (L <? SZ) && match out with Some d => L <=? len d | None => true end.
Lemma okm_okb_ok L out : okm_okb L out = true -> okm_ok L out.
Proof.
  unfold okm_okb, okm_ok. intro Hb. apply andb_prop in Hb. destruct Hb as [H1 H2]. split; [now apply N.ltb_lt|].
  destruct out; [now apply N.leb_le|exact I].
Qed.
Definition expand_preb prk info L out : bool :=
  key_okb prk && slice_okb info && (193 + len (slice_bytes info) <? 2305843009213693952) && okm_okb L out.
Lemma expand_preb_ok prk info L out : expand_preb prk info L out = true -> expand_pre prk info L out.
Proof.
  unfold expand_preb, expand_pre. intro Hb. apply andb_prop in Hb. destruct Hb as [Hb H4]. apply andb_prop in Hb. destruct Hb as [Hb H3].
  apply andb_prop in Hb. destruct Hb as [H1 H2]. splits.
  - now apply key_okb_ok.
  - now apply slice_okb_ok.
  - now apply N.ltb_lt.
  - now apply okm_okb_ok.
Qed.
Definition hkdf_preb ikm salt info L out : bool :=
  expand_preb salt info L out && slice_okb ikm && (128 + len (slice_bytes ikm) <? 2305843009213693952).
Lemma hkdf_preb_ok ikm salt info L out : hkdf_preb ikm salt info L out = true -> hkdf_pre ikm salt info L out.
Proof.
  unfold hkdf_preb, hkdf_pre. intro Hb. apply andb_prop in Hb. destruct Hb as [Hb H4]. apply andb_prop in Hb. destruct Hb as [Hb H3].
  apply expand_preb_ok in Hb. destruct Hb as (P1 & P2 & P3 & P4). splits; try assumption; try apply P4.
  - now apply slice_okb_ok.
  - now apply N.ltb_lt.
Qed.

Example C33_cut : digest_pre (Some split1) 1 (Some (repeat x00 32)) (Some 32) /\ digest_pre (Some split2) 3 (Some (repeat x00 32)) (Some 32) /\
  message_bytes (Some split1) 1 = bytes [1; 2; 3; 4] /\ message_bytes (Some split2) 3 = bytes [1; 2; 3; 4] /\
  first_error (digest_errors true sha2_256_e (Some split1) 1 (Some (repeat x00 32)) (Some 32)) = ok_e /\
  first_error (digest_errors true sha2_256_e (Some split2) 3 (Some (repeat x00 32)) (Some 32)) = ok_e.
Proof.
  split; [apply digest_preb_ok; vm_compute; reflexivity|]. split; [apply digest_preb_ok; vm_compute; reflexivity|].
  splits; vm_compute; reflexivity.
Qed.

(** ** C34 *)

(** The whole contract: the error is that of the first row of the table whose condition holds; see [report] for buffer and size. *)
Theorem C34_digest_contract : forall (E : Env) (M : Libc) ctx alg ms count out size, digest_pre ms count out size ->
  n20_digest ctx alg ms count out size = Ret (digest_report ctx alg ms count out size).
Proof. intros E M ctx alg ms count out size Hp. exact (digest_ok ctx alg ms count out size Hp). Qed.
Print Assumptions C34_digest_contract.

(** Success means that none of the documented conditions holds; an error is only reported if its condition holds. *)
Theorem C34_digest_errors_justified : forall (E : Env) (M : Libc) ctx alg ms count out size rc out' size', digest_pre ms count out size ->
  n20_digest ctx alg ms count out size = Ret (rc, out', size') ->
  (rc = ok_e <-> forall b e, In (b, e) (digest_errors ctx alg ms count out size) -> b = false) /\
  (rc <> ok_e -> In (true, rc) (digest_errors ctx alg ms count out size)).
Proof.
  intros E M ctx alg ms count out size rc out' size' Hp Hr. rewrite digest_ok in Hr by assumption. injection Hr as <- <- <-. split.
  - apply first_error_ok. cbn. intuition discriminate.
  - intro Hn. now apply first_error_in.
Qed.
Print Assumptions C34_digest_errors_justified.

(** On an error the output buffer is unchanged; on success exactly the first [required alg] bytes are replaced. The size parameter is
    only written on success and when the buffer is too small, with the required size. *)
Theorem C34_digest_output : forall (E : Env) (M : Libc) ctx alg ms count out size rc out' size', digest_pre ms count out size ->
  n20_digest ctx alg ms count out size = Ret (rc, out', size') ->
  (rc <> ok_e -> out' = out) /\
  (rc = ok_e -> exists d r, out = Some d /\ out' = Some (r ++ dropN (required alg) d) /\ len r = required alg /\ required alg <= len d) /\
  (rc = ok_e \/ rc = insufficient_buffer_size_e -> size' = Some (required alg)) /\
  (rc <> ok_e -> rc <> insufficient_buffer_size_e -> size' = size).
Proof.
  intros E M ctx alg ms count out size rc out' size' Hp Hr. rewrite digest_ok in Hr by assumption.
  unfold digest_report, report in Hr. destruct (first_error (digest_errors ctx alg ms count out size)) eqn:Ef;
    injection Hr as <- <- <-; splits; try (intros; congruence); try (intros [?|?]; discriminate); try reflexivity.
  intros _. pose proof (proj1 (first_error_ok (digest_errors ctx alg ms count out size) ltac:(cbn; intuition discriminate)) Ef) as Hall.
  assert (Ha : is_none (algorithm alg) = false) by (apply (Hall _ unknown_algorithm_e); cbn; tauto).
  assert (Hs : is_none size = false) by (apply (Hall _ unexpected_null_size_e); cbn; tauto).
  assert (Ht : too_small out size (required alg) = false) by (apply (Hall _ insufficient_buffer_size_e); cbn; tauto).
  destruct out as [d|]; [|discriminate]. destruct size as [size|]; [|discriminate]. unfold too_small in Ht. cbn [is_none orb] in Ht.
  unfold required, result in *. destruct (algorithm alg) as [A|] eqn:EA; [|discriminate].
  exists d, (hash A (message_bytes ms count)). splits; try reflexivity.
  - apply known_len. eapply algorithm_known. eassumption.
  - destruct Hp as (Ho & _). cbn [out_ok] in Ho. lia.
Qed.
Print Assumptions C34_digest_output.

(** Size query, unknown algorithm, NULL list, missing slice: four of the rows, on concrete arguments. *)
Example C34_rows :
  the_digest sha2_384_e None 0 None (Some 0) = Ret (insufficient_buffer_size_e, None, Some 48) /\
  the_digest 17 None 0 None None = Ret (unknown_algorithm_e, None, None) /\
  the_digest sha2_384_e (Some [mkGather 2 None]) 1 (Some (repeat x00 48)) (Some 48) =
    Ret (unexpected_null_list_e, Some (repeat x00 48), Some 48) /\
  the_digest sha2_384_e (Some [mkGather 1 (Some [mkSlice 3 None])]) 1 (Some (repeat x00 48)) (Some 48) =
    Ret (unexpected_null_slice_e, Some (repeat x00 48), Some 48) /\
  digest_pre (Some [mkGather 2 None]) 1 (Some (repeat x00 48)) (Some 48).
Proof.
  splits; cycle -1; [|vm_compute; reflexivity..]. apply digest_preb_ok. vm_compute. reflexivity.
Qed.
(** The condition that the error reported by the third row names is the only one of the table that holds. *)
Example C34_justified_case :
  filter fst (digest_errors true sha2_384_e (Some [mkGather 2 None]) 1 (Some (repeat x00 48)) (Some 48)) = [(true, unexpected_null_list_e)] /\
  filter fst (digest_errors true sha2_384_e None 0 None (Some 0)) = [(true, insufficient_buffer_size_e); (true, unexpected_null_data_e)] /\
  digest_pre None 0 None (Some 0) /\ required sha2_384_e = 48.
Proof. splits; [vm_compute; reflexivity..|apply digest_preb_ok; vm_compute; reflexivity|reflexivity]. Qed.

(** ** C35 *)

(** A NULL first list with a non-zero count is rejected. *)
Theorem C35_first_null_list : forall (E : Env) (M : Libc) alg A g more count d size,
  algorithm alg = Some A -> out_bytes A <= size -> null_list g = true ->
  the_digest alg (Some (g :: more)) count (Some d) (Some size) = Ret (unexpected_null_list_e, Some d, Some size).
Proof.
  intros E M alg A g more count d size HA Hs Hg. unfold the_digest, n20_digest, n20_digest_locals, n20_digest_internal. pose proof (init_ok alg) as Hi. rewrite HA in Hi. destruct Hi as (st & -> & _).
  rewrite enum_size. unfold required. rewrite HA. destruct (N.ltb_spec size (out_bytes A)); [lia|]. cbn [orb].
  change (get (g :: more) 0) with (Ret g). cbn [bind].
  change (negb (g_count g =? 0) && match g_list g with Some _ => false | None => true end) with (null_list g). now rewrite Hg.
Qed.
Print Assumptions C35_first_null_list.
(** A count of three and no list, before a sound list. *)
Example C35_first_case : null_list (mkGather 3 None) = true /\ null_list (mkGather 0 None) = false /\
  the_digest sha2_224_e (Some (mkGather 3 None :: split1)) 2 (Some (repeat x00 28)) (Some 28) =
    Ret (unexpected_null_list_e, Some (repeat x00 28), Some 28).
Proof. splits; vm_compute; reflexivity. Qed.

Lemma digest_lists_app (E : Env) alg ms a b : forall i st,
  digest_lists alg (a + b) i ms st =
  do (rc, st) <- digest_lists alg a i ms st;
  match rc with ok_e => digest_lists alg b (i + N.of_nat a) ms st | _ => Ret (rc, st) end.
Proof.
  induction a as [|a IH]; intros i st.
  - cbn [digest_lists Nat.add bind]. now rewrite N.add_0_r.
  - cbn [digest_lists Nat.add]. destruct (get ms i) as [g| |]; [|reflexivity..]. cbn [bind].
    destruct (digest_slices alg (N.to_nat (g_count g)) 0 (g_list g) st) as [[rc st1]| |]; [|reflexivity..]. cbn [bind].
    destruct rc; try reflexivity. rewrite IH. now replace (i + 1 + N.of_nat a) with (i + N.of_nat (S a)) by lia.
Qed.

(** Any later NULL list with a non-zero count is dereferenced instead: for every algorithm and whatever sound lists precede it. *)
Theorem C35_later_null_list_refuted : forall (E : Env) (M : Libc) alg A before g after count d size,
  algorithm alg = Some A -> out_bytes A <= size <= len d -> before <> [] -> Forall gather_ok before ->
  existsb missing (flat_map slices before) = false -> null_list g = true -> len before < count ->
  the_digest alg (Some (before ++ g :: after)) count (Some d) (Some size) = Undef UBNullDeref.
Proof.
  intros E M alg A before g after count d size HA Hs Hne Hb Hm Hg Hc. unfold the_digest, n20_digest, n20_digest_locals, n20_digest_internal. pose proof (init_ok alg) as Hi. rewrite HA in Hi. destruct Hi as (st & -> & Ha).
  rewrite enum_size. unfold required. rewrite HA. destruct (N.ltb_spec size (out_bytes A)); [lia|]. cbn [orb].
  destruct before as [|g0 before]; [contradiction|]. change (get ((g0 :: before) ++ g :: after) 0) with (Ret g0). cbn [bind].
  change (negb (g_count g0 =? 0) && match g_list g0 with Some _ => false | None => true end) with (null_list g0).
  assert (En : null_list g0 = false).
  { inversion_clear Hb as [|? ? [Hc0 _] _]. unfold null_list. unfold slices in Hc0. destruct (g_list g0); [apply andb_false_r|].
    change (len []) with 0 in Hc0. replace (g_count g0) with 0 by lia. reflexivity. }
  rewrite En. set (b := g0 :: before) in *.
  replace (N.to_nat count) with (N.to_nat (len b) + S (N.to_nat (count - len b - 1)))%nat by lia. rewrite digest_lists_app.
  destruct (digest_lists_ok alg (b ++ g :: after) (N.to_nat (len b)) 0 st []) as (st1 & E1 & _).
  - rewrite len_app. lia.
  - now rewrite N2Nat.id, dropN_0, takeN_app_len.
  - assumption.
  - rewrite N2Nat.id, dropN_0, takeN_app_len, Hm in E1. rewrite E1. cbn [bind digest_lists].
    replace (get (b ++ g :: after) (0 + N.of_nat (N.to_nat (len b)))) with (Ret g); cycle 1.
    { rewrite (get_ok _ _ g) by (rewrite len_app, len_cons; lia). f_equal. rewrite app_nth2; rewrite length_len; [|lia].
      replace (_ - _)%nat with O by lia. reflexivity. }
    cbn [bind]. unfold null_list in Hg. destruct (g_list g); [now rewrite andb_false_r in Hg|].
    destruct (N.to_nat (g_count g)) eqn:Eg; [|reflexivity]. replace (g_count g) with 0 in Hg by lia. discriminate.
Qed.
Print Assumptions C35_later_null_list_refuted.
(** The same list behind a sound one. *)
Example C35_later_case :
  the_digest sha2_224_e (Some (split1 ++ [mkGather 3 None])) 2 (Some (repeat x00 28)) (Some 28) = Undef UBNullDeref /\
  Forall gather_ok split1 /\ existsb missing (flat_map slices split1) = false.
Proof.
  splits; [vm_compute; reflexivity| |reflexivity]. constructor; [|constructor]. apply gather_okb_ok. vm_compute. reflexivity.
Qed.

Example C35_case : the_digest sha2_256_e (Some [mkGather 1 (Some [slice_of (bytes [1])]); mkGather 1 None]) 2 (Some (repeat x00 32)) (Some 32)
  = Undef UBNullDeref.
Proof. vm_compute. reflexivity. Qed.

(** ** C36 *)

(** A successful HMAC over any digest function that meets the contract is FIPS 198-1, whatever the key size and the cut of the message. *)
Theorem C36_hmac_over_any_digest : forall (E : Env) (M : Libc) digest alg A key m d size out' size',
  (forall alg ms count out size, digest_pre ms count out size ->
     digest alg ms count out size = Ret (digest_report true alg ms count out size)) ->
  algorithm alg = Some A -> hmac_pre key m (Some d) (Some size) ->
  n20_hmac (Some digest) alg key m (Some d) (Some size) = Ret (ok_e, out', size') ->
  out' = Some (HMAC A (slice_bytes key) (message_bytes (one m) 1) ++ dropN (out_bytes A) d) /\ size' = Some (out_bytes A).
Proof.
  intros E M digest alg A key m d size out' size' Hd HA Hp Hr. rewrite hmac_ok in Hr by assumption.
  unfold hmac_report, report, result, required in Hr. rewrite HA in Hr. destruct (first_error _); try discriminate.
  injection Hr as <- <-. now split.
Qed.
Print Assumptions C36_hmac_over_any_digest.

Theorem C36_hmac_is_fips198 : forall (E : Env) (M : Libc) alg A key m d size out' size',
  algorithm alg = Some A -> hmac_pre key m (Some d) (Some size) ->
  the_hmac alg key m (Some d) (Some size) = Ret (ok_e, out', size') ->
  out' = Some (HMAC A (slice_bytes key) (message_bytes (one m) 1) ++ dropN (out_bytes A) d) /\ size' = Some (out_bytes A) /\
  len (HMAC A (slice_bytes key) (message_bytes (one m) 1)) = out_bytes A.
Proof.
  intros E M alg A key m d size out' size' HA Hp Hr.
  destruct (C36_hmac_over_any_digest E M the_digest alg A key m d size out' size' (the_digest_meets E M) HA Hp Hr) as [H1 H2].
  splits; try assumption. apply HMAC_len. eapply algorithm_known. eassumption.
Qed.
Print Assumptions C36_hmac_is_fips198.

Definition text (l : list N) : slice := slice_of (bytes l).
(** "Jefe" and "what do ya want for nothing?" (RFC 4231 section 4.3) *)
Definition jefe : slice := text [0x4a; 0x65; 0x66; 0x65].
Definition what : list N :=
  [0x77; 0x68; 0x61; 0x74; 0x20; 0x64; 0x6f; 0x20; 0x79; 0x61; 0x20; 0x77; 0x61; 0x6e; 0x74; 0x20; 0x66; 0x6f; 0x72; 0x20; 0x6e; 0x6f; 0x74;
   0x68; 0x69; 0x6e; 0x67; 0x3f].
Definition what_cut : gather := mkGather 2 (Some [text (firstn 5 what); text (skipn 5 what)]).
Lemma hmac_case_pre : hmac_pre jefe (Some what_cut) (Some (repeat x00 40)) (Some 40).
Proof.
  apply hmac_preb_ok. vm_compute. reflexivity.
Qed.
Example C36_rfc4231 : the_hmac sha2_256_e jefe (Some what_cut) (Some (repeat x00 40)) (Some 40) =
  Ret (ok_e, Some (bytes [0x5b; 0xdc; 0xc1; 0x46; 0xbf; 0x60; 0x75; 0x4e; 0x6a; 0x04; 0x24; 0x26; 0x08; 0x95; 0x75; 0xc7;
                          0x5a; 0x00; 0x3f; 0x08; 0x9d; 0x27; 0x39; 0x83; 0x9d; 0xec; 0x58; 0xb9; 0x64; 0xec; 0x38; 0x43] ++ repeat x00 8), Some 32).
Proof. rewrite the_hmac_meets by exact hmac_case_pre. with_strategy transparent [hash] vm_compute. reflexivity. Qed.
(** A digest function that meets the hypothesis of [C36_hmac_over_any_digest]: the library's own. *)
Example C36_over_case : forall alg ms count out size, digest_pre ms count out size ->
  the_digest alg ms count out size = Ret (digest_report true alg ms count out size).
Proof. exact (the_digest_meets env64 libc). Qed.

(** ** C37 *)

Theorem C37_hmac_contract : forall (E : Env) (M : Libc) (ctx : bool) alg key m out size, hmac_pre key m out size ->
  n20_hmac (if ctx then Some the_digest else None) alg key m out size = Ret (hmac_report ctx alg key m out size).
Proof.
  intros E M ctx alg key m out size Hp. destruct ctx; [exact (the_hmac_meets E M alg key m out size Hp)|]. exact (hmac_ok None alg key m out size I Hp).
Qed.
Print Assumptions C37_hmac_contract.

Theorem C37_hmac_errors_justified : forall (E : Env) (M : Libc) alg key m out size rc out' size', hmac_pre key m out size ->
  the_hmac alg key m out size = Ret (rc, out', size') ->
  (rc = ok_e <-> forall b e, In (b, e) (hmac_errors true alg key m out size) -> b = false) /\
  (rc <> ok_e -> In (true, rc) (hmac_errors true alg key m out size) /\ out' = out) /\
  (rc = ok_e \/ rc = insufficient_buffer_size_e -> size' = Some (required alg)) /\
  (rc <> ok_e -> rc <> insufficient_buffer_size_e -> size' = size).
Proof.
  intros E M alg key m out size rc out' size' Hp Hr. rewrite the_hmac_meets in Hr by assumption. injection Hr as <- <- <-. splits.
  - apply first_error_ok. cbn. intuition discriminate.
  - intro Hn. split; [now apply first_error_in|]. destruct (first_error _); congruence.
  - now intros [->| ->].
  - intros H1 H2. destruct (first_error _); congruence.
Qed.
Print Assumptions C37_hmac_errors_justified.
(** A missing key and a NULL message list: both conditions hold, the key's comes first, and nothing is written. *)
Example C37_justified_case :
  the_hmac sha2_256_e (mkSlice 1 None) (Some (mkGather 1 None)) (Some (repeat x00 32)) (Some 32) =
    Ret (unexpected_null_slice_key_e, Some (repeat x00 32), Some 32) /\
  filter fst (hmac_errors true sha2_256_e (mkSlice 1 None) (Some (mkGather 1 None)) (Some (repeat x00 32)) (Some 32)) =
    [(true, unexpected_null_slice_key_e); (true, unexpected_null_list_e)] /\
  hmac_pre (mkSlice 1 None) (Some (mkGather 1 None)) (Some (repeat x00 32)) (Some 32).
Proof. splits; [vm_compute; reflexivity..|apply hmac_preb_ok; vm_compute; reflexivity]. Qed.

Example C37_rows :
  the_hmac sha2_224_e (mkSlice 3 None) None None (Some 99) = Ret (unexpected_null_slice_key_e, None, Some 99) /\
  the_hmac sha2_224_e jefe None None (Some 99) = Ret (insufficient_buffer_size_e, None, Some 28) /\
  the_hmac sha2_224_e jefe None (Some (repeat x00 28)) (Some 28) = Ret (unexpected_null_data_e, Some (repeat x00 28), Some 28) /\
  hmac_pre jefe None (Some (repeat x00 28)) (Some 28).
Proof.
  splits; cycle -1; [|vm_compute; reflexivity..]. apply hmac_preb_ok. vm_compute. reflexivity.
Qed.

(** An empty key with a NULL buffer, which the contract allows, is passed to [memcpy]: undefined in strict C11, for every algorithm and message. *)
Theorem C37_null_key_refuted : forall (E : Env) (M : Libc) alg A m d size, algorithm alg = Some A -> out_bytes A <= size ->
  memcpy_null_ok = false -> the_hmac alg slice_null m (Some d) (Some size) = Undef UBMemcpyNull.
Proof.
  intros E M alg A m d size HA Hs Hl. unfold the_hmac, n20_hmac, n20_hmac_locals, n20_hmac_internal. rewrite enum_size, required_0, block_size. unfold required. rewrite HA.
  cbn [is_none option_map slice_null sl_buf sl_size N.eqb negb orb]. destruct (N.ltb_spec size (out_bytes A)); [lia|].
  destruct (N.ltb_spec (block_bytes A) 0); [lia|]. unfold memcpy. cbn [N.eqb]. now rewrite Hl.
Qed.
Print Assumptions C37_null_key_refuted.
Example C37_null_key_case : the_hmac (H0 := {| memcpy_null_ok := false |}) sha2_256_e slice_null None (Some (repeat x00 32)) (Some 32) = Undef UBMemcpyNull.
Proof. vm_compute. reflexivity. Qed.

(** ** C38 *)

Theorem C38_extract_is_rfc5869 : forall (E : Env) (M : Libc) alg A ikm salt d size out' size',
  algorithm alg = Some A -> extract_pre ikm salt (Some d) (Some size) ->
  the_extract alg ikm salt (Some d) (Some size) = Ret (ok_e, out', size') ->
  out' = Some (HKDF_extract A (slice_bytes salt) (slice_bytes ikm) ++ dropN (out_bytes A) d) /\ size' = Some (out_bytes A).
Proof.
  intros E M alg A ikm salt d size out' size' HA Hp Hr. rewrite the_extract_meets in Hr by assumption.
  unfold extract_report, report, result, required in Hr. rewrite HA in Hr. destruct (first_error _); try discriminate.
  injection Hr as <- <-. now split.
Qed.
Print Assumptions C38_extract_is_rfc5869.

Theorem C38_expand_is_rfc5869 : forall (E : Env) (M : Libc) alg A prk info L d,
  algorithm alg = Some A -> expand_pre prk info L (Some d) -> missing prk = false -> missing info = false -> L <= 255 * out_bytes A ->
  the_expand alg prk info L (Some d) = Ret (ok_e, Some (HKDF_expand A (slice_bytes prk) (slice_bytes info) L ++ dropN L d)).
Proof.
  intros E M alg A prk info L d HA Hp H1 H2 HL. rewrite the_expand_meets by assumption.
  unfold expand_report, report_key, report, result, expand_errors. rewrite HA, H1, H2. reflexivity.
Qed.
Print Assumptions C38_expand_is_rfc5869.

Theorem C38_hkdf_is_rfc5869 : forall (E : Env) (M : Libc) alg A ikm salt info L d,
  algorithm alg = Some A -> hkdf_pre ikm salt info L (Some d) -> missing ikm = false -> missing salt = false -> missing info = false ->
  L <= 255 * out_bytes A ->
  the_hkdf alg ikm salt info L (Some d) =
    Ret (ok_e, Some (HKDF A (slice_bytes salt) (slice_bytes ikm) (slice_bytes info) L ++ dropN L d)).
Proof.
  intros E M alg A ikm salt info L d HA Hp H1 H2 H3 HL. rewrite the_hkdf_meets by assumption.
  unfold hkdf_report, report_key, report, result, hkdf_errors. rewrite HA, H1, H2, H3. reflexivity.
Qed.
Print Assumptions C38_hkdf_is_rfc5869.

(** The output for a length is a prefix of the output for any longer length. *)
Lemma expand_blocks_len A prk info n : known A -> len (flat_map (T A prk info) (seq 1 n)) = N.of_nat n * out_bytes A.
Proof. intro HA. now apply T_blocks_len. Qed.
Lemma blocks_mono A L1 L2 : L1 <= L2 -> 0 < out_bytes A -> blocks A L1 <= blocks A L2.
Proof. intros HL Ho. unfold blocks. apply N.div_le_mono; lia. Qed.
Lemma blocks_enough A L : 0 < out_bytes A -> L <= blocks A L * out_bytes A.
Proof.
  intro Ho. unfold blocks. pose proof (N.div_mod (L + out_bytes A - 1) (out_bytes A) ltac:(lia)).
  pose proof (N.mod_lt (L + out_bytes A - 1) (out_bytes A) ltac:(lia)). nia.
Qed.
Lemma expand_prefix A prk info L1 L2 : known A -> L1 <= L2 -> HKDF_expand A prk info L1 = takeN L1 (HKDF_expand A prk info L2).
Proof.
  intros HA HL. unfold HKDF_expand. rewrite takeN_takeN, N.min_l by assumption. pose proof (known_out A HA) as [Ho _].
  pose proof (blocks_mono A L1 L2 HL Ho). 
  replace (N.to_nat (blocks A L2)) with (N.to_nat (blocks A L1) + N.to_nat (blocks A L2 - blocks A L1))%nat by lia.
  rewrite seq_app, flat_map_app, takeN_app_l; [reflexivity|]. rewrite expand_blocks_len by assumption.
  rewrite N2Nat.id. now apply blocks_enough.
Qed.
Theorem C38_prefix : forall (E : Env) (M : Libc) alg A ikm salt info L1 L2 d1 d2,
  algorithm alg = Some A -> hkdf_pre ikm salt info L1 (Some d1) -> hkdf_pre ikm salt info L2 (Some d2) ->
  missing ikm = false -> missing salt = false -> missing info = false -> L1 <= L2 ->
  exists o1 o2, the_hkdf alg ikm salt info L1 (Some d1) = Ret (ok_e, Some o1) /\ the_hkdf alg ikm salt info L2 (Some d2) = Ret (ok_e, Some o2) /\
    takeN L1 o1 = takeN L1 o2.
Proof.
  intros E M alg A ikm salt info L1 L2 d1 d2 HA P1 P2 H1 H2 H3 HL. rewrite !the_hkdf_meets by assumption.
  unfold hkdf_report, report_key, report, result, hkdf_errors. rewrite HA, H1, H2, H3.
  cbn [negb is_none andb first_error find fst]. eexists _, _. split; [reflexivity|]. split; [reflexivity|].
  pose proof (algorithm_known alg A HA) as Hk. pose proof (known_out A Hk) as [Ho _]. unfold HKDF.
  assert (Hlen : forall L, len (HKDF_expand A (HKDF_extract A (slice_bytes salt) (slice_bytes ikm)) (slice_bytes info) L) = L).
  { intro L. unfold HKDF_expand. rewrite len_takeN, expand_blocks_len, N2Nat.id by assumption.
    pose proof (blocks_enough A L Ho). lia. }
  rewrite !takeN_app_l by (rewrite Hlen; lia). rewrite (expand_prefix A _ _ L1 L2) by assumption. rewrite takeN_takeN. f_equal. lia.
Qed.
Print Assumptions C38_prefix.

(** An absent salt is the same as one of HashLen zero bytes (RFC 5869 section 2.2). *)
Lemma K0_zeros A k : (k <= N.to_nat (block_bytes A))%nat -> K0 A (repeat x00 k) = repeat x00 (N.to_nat (block_bytes A)).
Proof.
  intro Hk. unfold K0. rewrite len_repeat. destruct (N.leb_spec (N.of_nat k) (block_bytes A)); [|lia].
  rewrite len_repeat, <- repeat_app. f_equal. lia.
Qed.
Theorem C38_absent_salt : forall (E : Env) (M : Libc) alg A ikm info L d salt,
  algorithm alg = Some A -> hkdf_pre ikm slice_null info L (Some d) -> sl_size salt = out_bytes A ->
  sl_buf salt = Some (repeat x00 (N.to_nat (out_bytes A))) ->
  the_hkdf alg ikm slice_null info L (Some d) = the_hkdf alg ikm salt info L (Some d).
Proof.
  intros E M alg A ikm info L d salt HA Hp Hs Hb. pose proof (algorithm_known alg A HA) as Hk.
  pose proof (known_out A Hk) as Ho. pose proof (known_out_block A Hk) as Hob.
  assert (Hz : slice_bytes salt = repeat x00 (N.to_nat (out_bytes A))).
  { unfold slice_bytes. rewrite Hb, Hs. apply takeN_all. rewrite len_repeat. lia. }
  assert (Hp2 : hkdf_pre ikm salt info L (Some d)).
  { destruct Hp as (_ & H2 & H3 & H4 & H5 & H6). unfold hkdf_pre, key_ok. rewrite Hz, len_repeat. splits; try assumption; try apply H6.
    - unfold slice_ok. rewrite Hs, Hb, len_repeat. pose proof SZ_lo. lia.
    - change (2 ^ 61) with 2305843009213693952. lia.
    - congruence. }
  rewrite !the_hkdf_meets by assumption. unfold hkdf_report, report_key, report, result, hkdf_errors. rewrite HA.
  replace (missing salt) with (missing slice_null) by (unfold missing at 2; rewrite Hb; reflexivity).
  unfold HKDF, HKDF_extract, HMAC. rewrite Hz. change (slice_bytes slice_null) with (repeat x00 0).
  rewrite !K0_zeros by lia. reflexivity.
Qed.
Print Assumptions C38_absent_salt.

(** RFC 5869 test case 1 *)
Definition okm_case : list N :=
  [0x3c; 0xb2; 0x5f; 0x25; 0xfa; 0xac; 0xd5; 0x7a; 0x90; 0x43; 0x4f; 0x64; 0xd0; 0x36; 0x2f; 0x2a; 0x2d; 0x2d; 0x0a; 0x90; 0xcf;
   0x1a; 0x5a; 0x4c; 0x5d; 0xb0; 0x2d; 0x56; 0xec; 0xc4; 0xc5; 0xbf; 0x34; 0x00; 0x72; 0x08; 0xd5; 0xb8; 0x87; 0x18; 0x58; 0x65].
Definition ikm_case := text (repeat 0x0b 22).
Definition salt_case := text [0; 1; 2; 3; 4; 5; 6; 7; 8; 9; 10; 11; 12].
Definition info_case := text [0xf0; 0xf1; 0xf2; 0xf3; 0xf4; 0xf5; 0xf6; 0xf7; 0xf8; 0xf9].
Example C38_rfc5869 :
  the_hkdf sha2_256_e ikm_case salt_case info_case 42 (Some (repeat x00 43)) = Ret (ok_e, Some (bytes okm_case ++ [x00])) /\
  hkdf_pre ikm_case salt_case info_case 42 (Some (repeat x00 43)).
Proof.
  assert (Hp : hkdf_pre ikm_case salt_case info_case 42 (Some (repeat x00 43))).
  { apply hkdf_preb_ok. vm_compute. reflexivity. }
  split; [|exact Hp]. rewrite the_hkdf_meets by exact Hp. with_strategy transparent [hash] vm_compute. reflexivity.
Qed.
(** The PRK of the same test case, and what the other theorems about HKDF ask for: two lengths, and the salt absent or 32 zero bytes. *)
Definition prk_case : list N :=
  [0x07; 0x77; 0x09; 0x36; 0x2c; 0x2e; 0x32; 0xdf; 0x0d; 0xdc; 0x3f; 0x0d; 0xc4; 0x7b; 0xba; 0x63; 0x90; 0xb6; 0xc7; 0x3b; 0xb5; 0x0f; 0x9c;
   0x31; 0x22; 0xec; 0x84; 0x4a; 0xd7; 0xc2; 0xb3; 0xe5].
Example C38_extract_case :
  extract_pre ikm_case salt_case (Some (repeat x00 33)) (Some 33) /\
  the_extract sha2_256_e ikm_case salt_case (Some (repeat x00 33)) (Some 33) = Ret (ok_e, Some (bytes prk_case ++ [x00]), Some 32).
Proof.
  assert (Hp : extract_pre ikm_case salt_case (Some (repeat x00 33)) (Some 33)).
  { unfold extract_pre. splits; [apply key_okb_ok|apply slice_okb_ok| |apply out_okb_ok]; vm_compute; reflexivity. }
  split; [exact Hp|]. rewrite the_extract_meets by exact Hp. with_strategy transparent [hash] vm_compute. reflexivity.
Qed.
Example C38_expand_case : expand_pre (text prk_case) info_case 42 (Some (repeat x00 42)) /\ missing (text prk_case) = false /\ missing info_case = false.
Proof. splits; [apply expand_preb_ok; vm_compute; reflexivity|reflexivity..]. Qed.
Example C38_prefix_case : hkdf_pre ikm_case salt_case info_case 5 (Some (repeat x00 5)) /\
  the_hkdf sha2_256_e ikm_case salt_case info_case 5 (Some (repeat x00 5)) = Ret (ok_e, Some (bytes (firstn 5 okm_case))).
Proof.
  assert (Hp : hkdf_pre ikm_case salt_case info_case 5 (Some (repeat x00 5))).
  { apply hkdf_preb_ok. vm_compute. reflexivity. }
  split; [exact Hp|]. rewrite the_hkdf_meets by exact Hp. with_strategy transparent [hash] vm_compute. reflexivity.
Qed.
Example C38_absent_salt_case : hkdf_pre ikm_case slice_null info_case 42 (Some (repeat x00 42)) /\
  sl_buf (text (repeat 0 32)) = Some (repeat x00 (N.to_nat (out_bytes SHA256))) /\ sl_size (text (repeat 0 32)) = out_bytes SHA256.
Proof. splits; [apply hkdf_preb_ok; vm_compute; reflexivity|reflexivity..]. Qed.

(** ** C39 *)

(** Any length that fits the buffer is accepted, also beyond the 255 * HashLen of RFC 5869, for every algorithm, key and info; from block 256
    on the counter octets repeat. *)
Theorem C39_overlong_refuted : forall (E : Env) (M : Libc) alg A prk info L d,
  algorithm alg = Some A -> expand_pre prk info L (Some d) -> missing prk = false -> missing info = false -> 255 * out_bytes A < L ->
  exists out', the_expand alg prk info L (Some d) = Ret (ok_e, Some out') /\
    takeN L out' = takeN L (flat_map (T A (slice_bytes prk) (slice_bytes info)) (seq 1 (N.to_nat (blocks A L)))).
Proof.
  intros E M alg A prk info L d HA Hp H1 H2 HL. rewrite the_expand_meets by assumption.
  unfold expand_report, report_key, report, result, expand_errors. rewrite HA, H1, H2. eexists. split; [reflexivity|].
  pose proof (algorithm_known alg A HA) as Hk. pose proof (known_out A Hk) as [Ho _].
  assert (Hlen : len (HKDF_expand A (slice_bytes prk) (slice_bytes info) L) = L).
  { unfold HKDF_expand. rewrite len_takeN, expand_blocks_len, N2Nat.id by assumption. pose proof (blocks_enough A L Ho). lia. }
  rewrite <- Hlen at 1. rewrite takeN_app_len. reflexivity.
Qed.
Print Assumptions C39_overlong_refuted.
Theorem C39_counter_repeats : forall A prk info n, (0 < n)%nat ->
  T A prk info (n + 256) = HMAC A prk (T A prk info (n + 255) ++ info ++ [n2b (N.of_nat n)]).
Proof.
  intros A prk info n Hn. replace (n + 256)%nat with (S (n + 255)) by lia. cbn [T]. do 4 f_equal.
  rewrite <- (n2b_mod (N.of_nat (S (n + 255)))), <- (n2b_mod (N.of_nat n)). f_equal.
  replace (N.of_nat (S (n + 255))) with (N.of_nat n + 1 * 256) by lia. apply N.mod_add. lia.
Qed.
Print Assumptions C39_counter_repeats.

(** Arguments meeting the hypotheses: 8161 bytes with SHA-256. *)
Example C39_case : expand_pre (text [1]) (text [2]) 8161 (Some (repeat x00 8161)) /\ 255 * out_bytes SHA256 < 8161.
Proof.
  split; [apply expand_preb_ok; vm_compute; reflexivity|reflexivity].
Qed.
(** The octet that ends the input of the 256th block is 0, that of the 257th is 1 as in the first. *)
Example C39_counter_case : T SHA256 [] [] 257 = HMAC SHA256 [] (T SHA256 [] [] 256 ++ [] ++ [x01]) /\ T SHA256 [] [] 1 = HMAC SHA256 [] ([] ++ [] ++ [x01]).
Proof. split; [exact (C39_counter_repeats SHA256 [] [] 1 Nat.lt_0_1)|reflexivity]. Qed.

(** ** C40 *)

Theorem C40_extract_contract : forall (E : Env) (M : Libc) (ctx : bool) alg ikm salt out size, extract_pre ikm salt out size ->
  n20_hkdf_extract (if ctx then Some the_hmac else None) alg ikm salt out size = Ret (extract_report ctx alg ikm salt out size).
Proof.
  intros E M ctx alg ikm salt out size Hp. destruct ctx; [exact (the_extract_meets E M alg ikm salt out size Hp)|]. exact (extract_ok None alg ikm salt out size I Hp).
Qed.
Print Assumptions C40_extract_contract.

Theorem C40_expand_contract : forall (E : Env) (M : Libc) (ctx : bool) alg prk info L out, expand_pre prk info L out ->
  n20_hkdf_expand (if ctx then Some the_hmac else None) alg prk info L out = Ret (expand_report ctx alg prk info L out).
Proof.
  intros E M ctx alg prk info L out Hp. destruct ctx; [exact (the_expand_meets E M alg prk info L out Hp)|]. exact (expand_ok None alg prk info L out I Hp).
Qed.
Print Assumptions C40_expand_contract.

Theorem C40_hkdf_contract : forall (E : Env) (M : Libc) (ctx : bool) alg ikm salt info L out, hkdf_pre ikm salt info L out ->
  n20_hkdf (if ctx then Some (the_extract, the_expand) else None) alg ikm salt info L out = Ret (hkdf_report ctx alg ikm salt info L out).
Proof.
  intros E M ctx alg ikm salt info L out Hp. destruct ctx; [exact (the_hkdf_meets E M alg ikm salt info L out Hp)|]. exact (hkdf_ok None alg ikm salt info L out I Hp).
Qed.
Print Assumptions C40_hkdf_contract.

Theorem C40_errors_leave_output : forall (E : Env) (M : Libc) alg ikm salt prk info L out size,
  (extract_pre ikm salt out size -> forall rc out' size', the_extract alg ikm salt out size = Ret (rc, out', size') -> rc <> ok_e -> out' = out) /\
  (expand_pre prk info L out -> forall rc out', the_expand alg prk info L out = Ret (rc, out') -> rc <> ok_e -> out' = out) /\
  (hkdf_pre ikm salt info L out -> forall rc out', the_hkdf alg ikm salt info L out = Ret (rc, out') -> rc <> ok_e -> out' = out).
Proof.
  intros E M alg ikm salt prk info L out size. splits.
  - intros Hp rc out' size' Hr Hn. rewrite the_extract_meets in Hr by assumption. unfold extract_report, report in Hr.
    injection Hr as <- <- _. destruct (first_error _); congruence.
  - intros Hp rc out' Hr Hn. rewrite the_expand_meets in Hr by assumption. unfold expand_report, report_key, report in Hr.
    injection Hr as <- <-. destruct (first_error _); congruence.
  - intros Hp rc out' Hr Hn. rewrite the_hkdf_meets in Hr by assumption. unfold hkdf_report, report_key, report in Hr.
    injection Hr as <- <-. destruct (first_error _); congruence.
Qed.
Print Assumptions C40_errors_leave_output.

(** A zero-length request succeeds, writes nothing, and needs no buffer. *)
Theorem C40_zero_length : forall (E : Env) (M : Libc) alg A ikm salt prk info out, algorithm alg = Some A ->
  missing ikm = false -> missing salt = false -> missing prk = false -> missing info = false ->
  (expand_pre prk info 0 out -> the_expand alg prk info 0 out = Ret (ok_e, out)) /\
  (hkdf_pre ikm salt info 0 out -> the_hkdf alg ikm salt info 0 out = Ret (ok_e, out)).
Proof.
  intros E M alg A ikm salt prk info out HA H1 H2 H3 H4. split; intro Hp.
  - rewrite the_expand_meets by assumption. unfold expand_report, report_key, report, expand_errors, result. rewrite HA, H3, H4.
    cbn [negb is_none N.eqb]. rewrite andb_false_r. cbn [first_error find fst]. unfold HKDF_expand. rewrite takeN_0. destruct out; [|reflexivity].
    cbn [app]. now rewrite dropN_0.
  - rewrite the_hkdf_meets by assumption. unfold hkdf_report, report_key, report, hkdf_errors, result. rewrite HA, H1, H2, H4.
    cbn [negb is_none N.eqb]. rewrite andb_false_r. cbn [first_error find fst]. unfold HKDF, HKDF_expand. rewrite takeN_0. destruct out; [|reflexivity].
    cbn [app]. now rewrite dropN_0.
Qed.
Print Assumptions C40_zero_length.

Example C40_rows :
  the_hkdf sha2_512_e (mkSlice 1 None) (mkSlice 1 None) (mkSlice 1 None) 5 None = Ret (unexpected_null_slice_ikm_e, None) /\
  the_hkdf sha2_512_e (text [1]) (mkSlice 1 None) (mkSlice 1 None) 5 None = Ret (unexpected_null_slice_salt_e, None) /\
  the_expand sha2_512_e (text [1]) (mkSlice 1 None) 5 None = Ret (unexpected_null_slice_info_e, None) /\
  the_expand sha2_512_e (text [1]) slice_null 5 None = Ret (insufficient_buffer_size_e, None) /\
  the_extract sha2_512_e (text [1]) slice_null None (Some 9) = Ret (insufficient_buffer_size_e, None, Some 64) /\
  expand_pre (text [1]) slice_null 5 None.
Proof.
  splits; cycle -1; [|vm_compute; reflexivity..]. apply expand_preb_ok. vm_compute. reflexivity.
Qed.
Example C40_zero_case :
  the_expand sha2_512_e (text [1]) slice_null 0 None = Ret (ok_e, None) /\
  the_hkdf sha2_512_e (text [1]) slice_null slice_null 0 (Some [x07]) = Ret (ok_e, Some [x07]) /\
  hkdf_pre (text [1]) slice_null slice_null 0 (Some [x07]) /\ missing slice_null = false.
Proof.
  assert (Hp : hkdf_pre (text [1]) slice_null slice_null 0 (Some [x07])).
  { apply hkdf_preb_ok. vm_compute. reflexivity. }
  splits; [vm_compute; reflexivity| |exact Hp|reflexivity].
  apply (proj2 (C40_zero_length env64 libc sha2_512_e SHA512 (text [1]) slice_null slice_null slice_null (Some [x07]) eq_refl eq_refl eq_refl eq_refl eq_refl) Hp).
Qed.

(** hkdf_expand calls whatever hmac its context has and ignores the result in the loop over full blocks: an error of an hmac function
    that writes nothing turns into success with the output buffer unchanged. *)
Theorem C40_hmac_error_ignored_refuted : forall (E : Env) (M : Libc) alg A prk info d,
  algorithm alg = Some A -> missing prk = false -> missing info = false -> out_bytes A <= len d ->
  let broken : hmac_fn := fun _ _ _ out size => Ret (no_resources_e, out, size) in
  n20_hkdf_expand (Some broken) alg prk info (out_bytes A) (Some d) = Ret (ok_e, Some d).
Proof.
  intros E M alg A prk info d HA H1 H2 Hd broken. pose proof (algorithm_known alg A HA) as Hk. pose proof (known_out A Hk) as Ho.
  unfold n20_hkdf_expand, n20_hkdf_expand_locals. rewrite enum_size, required_0, !null_missing, H1, H2. unfold required. rewrite HA.
  cbn [is_none]. destruct (N.eqb_spec (out_bytes A) 0); [lia|].
  replace (N.to_nat (out_bytes A)) with (S (N.to_nat (out_bytes A) - 1)) by lia. cbn [expand_loop]. rewrite N.leb_refl.
  unfold broken at 1. cbn [bind local_after size_after]. destruct (N.ltb_spec (len d) (out_bytes A)); [lia|].
  rewrite sub_sz_le by (pose proof SZ_lo; lia). rewrite N.sub_diag. destruct (N.leb_spec (out_bytes A) 0); [lia|].
  cbn [bind N.ltb N.compare app]. now rewrite takeN_dropN.
Qed.
Print Assumptions C40_hmac_error_ignored_refuted.
Example C40_hmac_error_case :
  n20_hkdf_expand (Some (fun _ _ _ out size => Ret (no_resources_e, out, size))) sha2_256_e (text [1]) (text [2]) 32 (Some (repeat x07 32)) =
    Ret (ok_e, Some (repeat x07 32)).
Proof. vm_compute. reflexivity. Qed.

(** ** C41 *)

Lemma Forall_zero {A} (l : list A) : Forall (eq x00) (map (fun _ => x00) l).
Proof. induction l; constructor; auto. Qed.

(** Whatever the arguments, and whatever function pointers the context has, a call that returns leaves its local buffers zero: the hash
    state of digest, the key block and inner digest of hmac, the last block of hkdf_expand and the PRK of hkdf. *)
Theorem C41_digest_state_wiped : forall (E : Env) ctx alg ms count out size r st,
  n20_digest_locals ctx alg ms count out size = Ret (r, st) -> st = DZero.
Proof.
  intros E ctx alg ms count out size r st Hr. unfold n20_digest_locals in Hr. destruct ctx; [|now injection Hr as _ <-].
  destruct (n20_digest_internal _ _ _ _ _ _) as [[r1 st1]| |]; try discriminate. now injection Hr as _ <-.
Qed.
Print Assumptions C41_digest_state_wiped.
Theorem C41_hmac_keys_wiped : forall (E : Env) (M : Libc) ctx alg key m out size r K inner,
  n20_hmac_locals ctx alg key m out size = Ret (r, (K, inner)) -> Forall (eq x00) K /\ Forall (eq x00) inner.
Proof.
  intros E M ctx alg key m out size r K inner Hr. unfold n20_hmac_locals in Hr. destruct ctx as [f|].
  - destruct (n20_hmac_internal _ _ _ _ _ _ _ _) as [[r1 [K1 i1]]| |]; try discriminate. injection Hr as _ <- <-. split; apply Forall_zero.
  - injection Hr as _ <- <-. split; [exact (Forall_zero (repeat tt 128))|exact (Forall_zero (repeat tt 64))].
Qed.
Print Assumptions C41_hmac_keys_wiped.
Theorem C41_expand_block_wiped : forall (E : Env) (M : Libc) ctx alg prk info L out r T,
  n20_hkdf_expand_locals ctx alg prk info L out = Ret (r, Some T) -> Forall (eq x00) T.
Proof.
  intros E M ctx alg prk info L out r T Hr. unfold n20_hkdf_expand_locals in Hr.
  repeat match type of Hr with
         | bind ?e _ = _ => destruct e as [?| |]; cbn [bind] in Hr; try discriminate Hr
         | Ret (_, None) = _ => discriminate Hr
         | Ret (_, Some (map _ _)) = _ => injection Hr as _ <-; apply Forall_zero
         | (if ?b then _ else _) = _ => destruct b
         | match ?x with _ => _ end = _ => destruct x
         end.
Qed.
Print Assumptions C41_expand_block_wiped.
Theorem C41_hkdf_prk_wiped : forall (E : Env) (M : Libc) ctx alg ikm salt info L out r prk,
  n20_hkdf_locals ctx alg ikm salt info L out = Ret (r, Some prk) -> Forall (eq x00) prk.
Proof.
  intros E M ctx alg ikm salt info L out r prk Hr. unfold n20_hkdf_locals in Hr.
  repeat match type of Hr with
         | bind ?e _ = _ => destruct e as [?| |]; cbn [bind] in Hr; try discriminate Hr
         | Ret (_, None) = _ => discriminate Hr
         | Ret (_, Some (map _ _)) = _ => injection Hr as _ <-; apply Forall_zero
         | (if ?b then _ else _) = _ => destruct b
         | match ?x with _ => _ end = _ => destruct x
         end.
Qed.
Print Assumptions C41_hkdf_prk_wiped.

Lemma set_len {A} (a : list A) i x b : set a i x = Ret b -> len b = len a.
Proof. unfold set. destruct (N.ltb_spec i (len a)); [|discriminate]. injection 1 as <-. now apply len_set. Qed.
Lemma iterate_ret {S} (P : N -> S -> Prop) body : forall n i s s', P i s ->
  (forall k s s', P k s -> body k s = Ret s' -> P (k + 1) s') -> iterate n i body s = Ret s' -> P (i + N.of_nat n) s'.
Proof.
  induction n; intros i s s' Hs Hb Hr; cbn [iterate] in Hr.
  - injection Hr as <-. now rewrite N.add_0_r.
  - destruct (body i s) as [s1| |] eqn:E1; try discriminate. cbn [bind] in Hr.
    replace (i + N.of_nat (Datatypes.S n)) with (i + 1 + N.of_nat n) by lia. eapply IHn; [|exact Hb|exact Hr]. eapply Hb; eassumption.
Qed.
Ltac binds Hr := repeat match type of Hr with
  | bind ?e _ = _ => let X := fresh "X" in destruct e eqn:X; cbn [bind] in Hr; try discriminate Hr
  end.
Lemma zero_loop R R' : len R = 8 -> for_range 0 8 (fun j R => set R j 0) R = Ret R' -> R' = repeat 0 8.
Proof.
  intros Hl Hr. do 8 (destruct R as [|? R]; [discriminate|]). destruct R; [|rewrite !len_cons in Hl; lia].
  vm_compute in Hr. now injection Hr as <-.
Qed.

(** So do the compression functions: the working variables and the temporary are zero when they return. *)
Theorem C41_sha256_registers_wiped : forall (E : Env) st st' R t1,
  n20_sha256_main_locals st = Ret (st', (R, t1)) -> R = repeat 0 8 /\ t1 = 0.
Proof.
  intros E st st' R t1 Hr. unfold n20_sha256_main_locals in Hr.
  assert (Round : forall j t R R' t', sha256_round j t R = Ret (R', t') -> len R' = len R).
  { intros j t R0 R' t' H0. unfold sha256_round in H0. binds H0. injection H0 as <- _.
    repeat match goal with X : set _ _ _ = Ret _ |- _ => apply set_len in X end. congruence. }
  destruct (for_range 0 8 _ (repeat 0 8)) as [R0| |] eqn:E0; try discriminate. cbn [bind] in Hr.
  assert (L0 : len R0 = 8).
  { refine (iterate_ret (fun _ R => len R = 8) _ _ _ _ _ _ _ E0); [reflexivity|]. intros k R1 R2 H1 H2. binds H2. apply set_len in H2. congruence. }
  destruct (for_range 0 16 _ _) as [s1| |] eqn:E1; try discriminate. cbn [bind] in Hr.
  assert (L1 : len (snd (fst s1)) = 8).
  { refine (iterate_ret (fun _ s => len (snd (fst s)) = 8) _ _ _ _ _ _ _ E1); [exact L0|]. intros k [[W1 R1] u1] s2 H1 H2.
    unfold sha256_round_lo in H2. binds H2. match type of H2 with (let '(_, _) := ?p in _) = _ => destruct p end. injection H2 as <-.
    apply Round in X0. cbn [fst snd] in *. congruence. }
  destruct (for_range 16 64 _ _) as [[[W2 R2] u2]| |] eqn:E2; try discriminate. cbn [bind] in Hr.
  assert (L2 : len R2 = 8).
  { refine (iterate_ret (fun _ s => len (snd (fst s)) = 8) _ _ _ _ _ _ _ E2); [exact L1|]. intros k [[W1 R1] u1] s2 H1 H2.
    unfold sha256_round_hi in H2. binds H2. match type of H2 with (let '(_, _) := ?p in _) = _ => destruct p end. injection H2 as <-.
    match goal with X : sha256_round _ _ _ = Ret _ |- _ => apply Round in X end. cbn [fst snd] in *. congruence. }
  binds Hr. injection Hr as _ <- <-. split; [|reflexivity]. now apply (zero_loop R2).
Qed.
Print Assumptions C41_sha256_registers_wiped.
Theorem C41_sha512_registers_wiped : forall (E : Env) st st' R t1,
  n20_sha512_main_locals st = Ret (st', (R, t1)) -> R = repeat 0 8 /\ t1 = 0.
Proof.
  intros E st st' R t1 Hr. unfold n20_sha512_main_locals in Hr.
  assert (Round : forall j t R R' t', sha512_round j t R = Ret (R', t') -> len R' = len R).
  { intros j t R0 R' t' H0. unfold sha512_round in H0. binds H0. injection H0 as <- _.
    repeat match goal with X : set _ _ _ = Ret _ |- _ => apply set_len in X end. congruence. }
  destruct (for_range 0 8 _ (repeat 0 8)) as [R0| |] eqn:E0; try discriminate. cbn [bind] in Hr.
  assert (L0 : len R0 = 8).
  { refine (iterate_ret (fun _ R => len R = 8) _ _ _ _ _ _ _ E0); [reflexivity|]. intros k R1 R2 H1 H2. binds H2. apply set_len in H2. congruence. }
  destruct (for_range 0 16 _ _) as [s1| |] eqn:E1; try discriminate. cbn [bind] in Hr.
  assert (L1 : len (snd (fst s1)) = 8).
  { refine (iterate_ret (fun _ s => len (snd (fst s)) = 8) _ _ _ _ _ _ _ E1); [exact L0|]. intros k [[W1 R1] u1] s2 H1 H2.
    unfold sha512_round_lo in H2. binds H2. match type of H2 with (let '(_, _) := ?p in _) = _ => destruct p end. injection H2 as <-.
    apply Round in X0. cbn [fst snd] in *. congruence. }
  destruct (for_range 16 80 _ _) as [[[W2 R2] u2]| |] eqn:E2; try discriminate. cbn [bind] in Hr.
  assert (L2 : len R2 = 8).
  { refine (iterate_ret (fun _ s => len (snd (fst s)) = 8) _ _ _ _ _ _ _ E2); [exact L1|]. intros k [[W1 R1] u1] s2 H1 H2.
    unfold sha512_round_hi in H2. binds H2. match type of H2 with (let '(_, _) := ?p in _) = _ => destruct p end. injection H2 as <-.
    match goal with X : sha512_round _ _ _ = Ret _ |- _ => apply Round in X end. cbn [fst snd] in *. congruence. }
  binds Hr. injection Hr as _ <- <-. split; [|reflexivity]. now apply (zero_loop R2).
Qed.
Print Assumptions C41_sha512_registers_wiped.

(** An error path that has already filled the key block: the key is copied and padded before the missing message is noticed. *)
Example C41_error_path : n20_hmac_locals (Some the_digest) sha2_256_e jefe None (Some (repeat x00 32)) (Some 32) =
  Ret (unexpected_null_data_e, Some (repeat x00 32), Some 32, (repeat x00 128, repeat x00 64)).
Proof. vm_compute. reflexivity. Qed.
(** The other functions: the digest of three bytes, an expansion with an hmac that fills the block with 07, an hkdf whose extraction
    leaves 07 in the PRK and fails, and one compression of an all-zero block by each compression function. *)
Definition sevens : hmac_fn := fun _ _ _ out _ => Ret (ok_e, option_map (map (fun _ => x07)) out, Some 32).
Example C41_digest_case :
  match n20_digest_locals true sha2_256_e (Some split1) 1 (Some (repeat x00 32)) (Some 32) with Ret ((ok_e, _, _), DZero) => true | _ => false end = true.
Proof. vm_compute. reflexivity. Qed.
Example C41_expand_case : n20_hkdf_expand_locals (Some sevens) sha2_256_e (text [1]) (text [2]) 33 (Some (repeat x00 33)) =
  Ret (ok_e, Some (repeat x07 33), Some (repeat x00 64)).
Proof. vm_compute. reflexivity. Qed.
Example C41_hkdf_case :
  n20_hkdf_locals (Some ((fun _ _ _ out _ => Ret (no_resources_e, option_map (map (fun _ => x07)) out, Some 32)), the_expand)) sha2_256_e (text [1]) (text [2])
    (text [3]) 33 (Some (repeat x00 33)) = Ret (no_resources_e, Some (repeat x00 33), Some (repeat x00 64)).
Proof. vm_compute. reflexivity. Qed.
Example C41_registers_case :
  match n20_sha256_main_locals (mkSha256 (repeat 0 64) (repeat 1 8) 0 64) with Ret (st, p) => Some (hd 0 (H256 st), p) | _ => None end =
    Some (582488095, (repeat 0 8, 0)) /\
  match n20_sha512_main_locals (mkSha512 (repeat 0 80) (repeat 1 8) 0 128) with Ret (st, p) => Some (hd 0 (H512 st), p) | _ => None end =
    Some (15649521932579872910, (repeat 0 8, 0)).
Proof. split; vm_compute; reflexivity. Qed.
