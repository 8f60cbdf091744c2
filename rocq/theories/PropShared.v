(** Property C58: which buffers of the digest interface may overlap (nat20 back end). *)
From Coq Require Import List NArith ZArith Bool Strings.Byte Lia.
From Coq Require Import ZifyBool ZifyNat ZifyN.
From Verif Require Import Base BaseFacts Res SpecSha2 ShaFacts Sha256 Sha512 Crypto SpecMac SpecCrypto CryptoProofs PropCrypto.
From Verif Require Import Shared SpecShared.
Import ListNotations.
Open Scope N_scope.

(** ** Reading before writing *)

Section Refines.
Context `{E : Env} `{M : Libc}.

(** The result of a call on copies of its inputs, made when it begins, put into the memory. *)
Definition put_back (mem : memory) (p : option place) (r : res outcome) : res moutcome :=
  do (rc, out, size) <- r; Ret (rc, store mem p out, out, size).
Definition seen_lists (mem : memory) (gs : option (list mgather)) : option (list gather) := option_map (map (seen_list mem)) gs.

Lemma store_view mem p : store mem p (view mem p) = mem.
Proof. destruct p as [[o|d]|]; cbn [store view]; [apply takeN_dropN|reflexivity|reflexivity]. Qed.
Lemma get_map {A B} (f : A -> B) l i : get (map f l) i = do x <- get l i; Ret (f x).
Proof. unfold get. rewrite nth_error_map. now destruct (nth_error l (N.to_nat i)). Qed.
Lemma absent_view mem p : absent p = match view mem p with None => true | Some _ => false end.
Proof. now destruct p as [[]|]. Qed.
Lemma bind_bind {A B C} (x : res A) (f : A -> res B) (g : B -> res C) : bind (bind x f) g = bind x (fun a => bind (f a) g).
Proof. now destruct x. Qed.

Lemma digest_slices_at_eq mem alg n : forall i l st, digest_slices_at mem alg n i l st = digest_slices alg n i (option_map (map (seen mem)) l) st.
Proof.
  induction n; intros i l st; [reflexivity|]. cbn [digest_slices_at digest_slices]. destruct l as [l|]; [|reflexivity]. cbn [option_map].
  rewrite get_map. destruct (get l i) as [s| |]; try reflexivity. cbn [bind seen sl_size sl_buf]. destruct (ms_size s =? 0); [apply IHn|].
  destruct (ms_buf s) as [[o|d]|]; cbn [view]; try reflexivity; (match goal with |- bind ?x _ = bind ?y _ => change x with y; destruct y; try reflexivity end); apply IHn.
Qed.
Lemma digest_lists_at_eq mem alg n : forall j msgs st, digest_lists_at mem alg n j msgs st = digest_lists alg n j (map (seen_list mem) msgs) st.
Proof.
  induction n; intros j msgs st; [reflexivity|]. cbn [digest_lists_at digest_lists]. rewrite get_map. destruct (get msgs j) as [g| |]; try reflexivity. cbn [bind seen_list g_count g_list].
  rewrite digest_slices_at_eq. destruct (digest_slices _ _ _ _ _) as [[rc st']| |]; try reflexivity. cbn [bind]. destruct rc; try reflexivity. apply IHn.
Qed.
Lemma digest_refines ctx alg ms count out size mem :
  n20_digest_at ctx alg ms count out size mem = put_back mem out (n20_digest ctx alg (seen_lists mem ms) count (view mem out) size).
Proof.
  unfold n20_digest_at, n20_digest, n20_digest_locals, n20_digest_internal, put_back. destruct ctx; cbn [negb bind]; [|now rewrite store_view].
  destruct (digest_init alg) as [st|]; cbn [bind]; [|now rewrite store_view]. destruct size as [size|]; cbn [bind]; [|now rewrite store_view].
  rewrite (absent_view mem out). destruct (_ || _); cbn [bind]; [now rewrite store_view|]. destruct ms as [ms|]; cbn [seen_lists option_map bind]; [|now rewrite store_view].
  rewrite get_map. destruct (get ms 0) as [g| |]; try reflexivity. cbn [bind seen_list g_count g_list].
  replace (match option_map (map (seen mem)) (mg_list g) with Some _ => false | None => true end) with (absent (mg_list g)) by now destruct (mg_list g).
  destruct (_ && _); cbn [bind]; [now rewrite store_view|]. rewrite digest_lists_at_eq. destruct (digest_lists _ _ _ _ _) as [[rc st']| |]; try reflexivity. cbn [bind].
  destruct rc; cbn [bind]; try now rewrite store_view. destruct (digest_final alg st' (view mem out)) as [[st2 o]| |]; reflexivity.
Qed.

Definition refines_digest (f : digest_at_fn) (g : digest_fn) : Prop := forall alg ms count out size mem,
  f alg ms count out size mem = put_back mem out (g alg (seen_lists mem ms) count (view mem out) size).
Lemma hmac_refines f g alg key m out size mem : refines_digest f g ->
  n20_hmac_at (Some f) alg key m out size mem = put_back mem out (n20_hmac (Some g) alg (seen mem key) (option_map (seen_list mem) m) (view mem out) size).
Proof.
  intro Hf. unfold n20_hmac_at, n20_hmac, n20_hmac_locals, n20_hmac_internal, put_back. destruct (digest_enum_to_size alg =? 0); cbn [bind]; [now rewrite store_view|].
  destruct (hmac_block_size alg) as [bs|]; cbn [bind]; [|now rewrite store_view]. destruct size as [size|]; cbn [bind]; [|now rewrite store_view].
  cbn [seen sl_buf sl_size]. replace (match view mem (ms_buf key) with Some _ => false | None => negb (ms_size key =? 0) end) with (absent (ms_buf key) && negb (ms_size key =? 0)) by now destruct (ms_buf key) as [[]|].
  destruct (absent (ms_buf key) && negb (ms_size key =? 0)); cbn [bind]; [now rewrite store_view|].
  rewrite (absent_view mem out). destruct (_ || _); cbn [bind]; [now rewrite store_view|].
  assert (Hm : forall K digest_size rc,
    (match rc with
     | ok_e => do K <- xor_loop bs 0x36 K;
         match m with
         | None => Ret (unexpected_null_data_e, mem, view mem out, Some size)
         | Some msg =>
             if negb (mg_count msg =? 0) && absent (mg_list msg) then Ret (unexpected_null_list_e, mem, view mem out, Some size) else
             do (rc, mem, i, n) <- f alg (Some [mkMG 1 (Some [mkM bs (Some (Own K))]); msg]) 2 (Some (Own (repeat x00 64))) (Some digest_size) mem;
             match rc with
             | ok_e => do K <- xor_loop bs 0x6a K;
                 f alg (Some [mkMG 1 (Some [mkM bs (Some (Own K))]); mkMG 1 (Some [mkM (size_after digest_size n) (Some (Own (local_after (repeat x00 64) i)))])]) 2 out (Some size) mem
             | _ => Ret (rc, mem, view mem out, Some size)
             end
         end
     | _ => Ret (rc, mem, view mem out, Some size)
     end) =
    (do (rc, out0, size0) <- (do (r, _) <- (do (r, (K, inner)) <- (match rc with
     | ok_e => do K <- xor_loop bs 0x36 K;
         match option_map (seen_list mem) m with
         | None => Ret (unexpected_null_data_e, view mem out, Some size, (K, repeat x00 64))
         | Some msg =>
             if negb (g_count msg =? 0) && match g_list msg with None => true | Some _ => false end then Ret (unexpected_null_list_e, view mem out, Some size, (K, repeat x00 64)) else
             do (rc, i, n) <- g alg (Some [mkGather 1 (Some [mkSlice bs (Some K)]); msg]) 2 (Some (repeat x00 64)) (Some digest_size);
             match rc with
             | ok_e => do K <- xor_loop bs 0x6a K;
                 do r <- g alg (Some [mkGather 1 (Some [mkSlice bs (Some K)]); mkGather 1 (Some [mkSlice (size_after digest_size n) (Some (local_after (repeat x00 64) i))])]) 2 (view mem out) (Some size);
                 Ret (r, (K, local_after (repeat x00 64) i))
             | _ => Ret (rc, view mem out, Some size, (K, local_after (repeat x00 64) i))
             end
         end
     | _ => Ret (rc, view mem out, Some size, (K, repeat x00 64))
     end); Ret (r, (map (fun _ => x00) K, map (fun _ => x00) inner))); Ret r); Ret (rc, store mem out out0, out0, size0))).
  { intros K ds rc. destruct rc; cbn [bind]; try now rewrite store_view. destruct (xor_loop bs 54 K) as [K1| |]; try reflexivity. cbn [bind].
    destruct m as [m|]; cbn [option_map bind]; [|now rewrite store_view]. cbn [seen_list g_count g_list].
    replace (match option_map (map (seen mem)) (mg_list m) with Some _ => false | None => true end) with (absent (mg_list m)) by now destruct (mg_list m).
    destruct (_ && _); cbn [bind]; [now rewrite store_view|]. change {| g_count := mg_count m; g_list := option_map (map (seen mem)) (mg_list m) |} with (seen_list mem m).
    assert (Hcall : f alg (Some [mkMG 1 (Some [mkM bs (Some (Own K1))]); m]) 2 (Some (Own (repeat x00 64))) (Some ds) mem =
      put_back mem (Some (Own (repeat x00 64))) (g alg (Some [mkGather 1 (Some [mkSlice bs (Some K1)]); seen_list mem m]) 2 (Some (repeat x00 64)) (Some ds))) by apply Hf.
    rewrite Hcall. clear Hcall. unfold put_back.
    destruct (g alg _ 2 (Some (repeat x00 64)) (Some ds)) as [[[rc i] n]| |]; try reflexivity. cbn [bind store].
    destruct rc; cbn [bind]; try now rewrite store_view. destruct (xor_loop bs 106 K1) as [K2| |]; try reflexivity. cbn [bind].
    match goal with |- f alg ?a ?b ?c ?d mem = _ => assert (Hcall : f alg a b c d mem = put_back mem out (g alg
      (Some [mkGather 1 (Some [mkSlice bs (Some K2)]); mkGather 1 (Some [mkSlice (size_after ds n) (Some (local_after (repeat x00 64) i))])]) 2 (view mem out) (Some size))) by apply Hf end.
    rewrite Hcall. unfold put_back. destruct (g alg _ 2 (view mem out) (Some size)) as [[[rc2 i2] n2]| |]; reflexivity. }
  destruct (bs <? ms_size key).
  - match goal with |- context [f alg ?a ?b ?c ?d mem] => assert (Hcall : f alg a b c d mem = put_back mem c (g alg
      (Some [mkGather 1 (Some [seen mem key])]) 1 (Some (repeat x00 128)) (Some (digest_enum_to_size alg)))) by apply Hf end.
    rewrite Hcall. clear Hcall. unfold put_back. change (mkSlice (ms_size key) (view mem (ms_buf key))) with (seen mem key).
    destruct (g alg (Some [mkGather 1 (Some [seen mem key])]) _ _ _) as [[[rc i] n]| |]; try reflexivity. cbn [bind store]. apply Hm.
  - destruct (memcpy _ _ _) as [K| |]; try reflexivity. cbn [bind]. apply (Hm K (digest_enum_to_size alg) ok_e).
Qed.
Definition refines_hmac (f : hmac_at_fn) (g : hmac_fn) : Prop := forall alg key m out size mem,
  f alg key m out size mem = put_back mem out (g alg (seen mem key) (option_map (seen_list mem) m) (view mem out) size).
Lemma null_seen mem s : null_mslice s = null_slice (seen mem s).
Proof. unfold null_mslice, null_slice. cbn [seen sl_buf sl_size]. now destruct (ms_buf s) as [[]|]. Qed.
Lemma extract_refines f g alg ikm salt out size mem : refines_hmac f g ->
  n20_hkdf_extract_at (Some f) alg ikm salt out size mem = put_back mem out (n20_hkdf_extract (Some g) alg (seen mem ikm) (seen mem salt) (view mem out) size).
Proof.
  intro Hf. unfold n20_hkdf_extract_at, n20_hkdf_extract, put_back. rewrite !(null_seen mem), (absent_view mem out).
  destruct (digest_enum_to_size alg =? 0); cbn [bind]; [now rewrite store_view|]. destruct (null_slice (seen mem ikm)); cbn [bind]; [now rewrite store_view|].
  destruct (null_slice (seen mem salt)); cbn [bind]; [now rewrite store_view|]. destruct size as [size|]; cbn [bind]; [|now rewrite store_view].
  destruct (_ || _); cbn [bind]; [now rewrite store_view|]. now rewrite Hf.
Qed.
Lemma digest_at_refines : refines_digest digest_at the_digest.
Proof. intros alg ms count out size mem. apply digest_refines. Qed.
Lemma hmac_at_refines : refines_hmac hmac_at the_hmac.
Proof. intros alg key m out size mem. apply (hmac_refines _ _ _ _ _ _ _ _ digest_at_refines). Qed.
Lemma extract_at_refines alg ikm salt out size mem :
  extract_at alg ikm salt out size mem = put_back mem out (the_extract alg (seen mem ikm) (seen mem salt) (view mem out) size).
Proof. apply (extract_refines _ _ _ _ _ _ _ _ hmac_at_refines). Qed.

(** ** Slices in memory *)

Lemma bytes_seen mem s : slice_bytes (seen mem s) = bytes_at mem s.
Proof. unfold slice_bytes, bytes_at. cbn [seen sl_buf sl_size]. now destruct (ms_buf s) as [[]|]. Qed.
Lemma lies_ok mem s : lies_in mem s -> slice_ok (seen mem s) /\ missing (seen mem s) = false /\ len (bytes_at mem s) = ms_size s.
Proof.
  unfold lies_in, slice_ok, missing, bytes_at. cbn [seen sl_buf sl_size]. intros [Hz Hb]. destruct (ms_buf s) as [[o|d]|]; cbn [view is_none andb].
  - rewrite len_takeN, len_dropN. splits; try reflexivity; lia.
  - rewrite len_takeN. splits; try reflexivity; lia.
  - rewrite Hb. splits; try reflexivity; try lia.
Qed.
Lemma key_in_ok mem s : key_in mem s -> key_ok (seen mem s).
Proof.
  intros (Hl & Hs & Hn). destruct (lies_ok mem s Hl) as (H1 & _ & H3). unfold key_ok. rewrite bytes_seen, H3. splits; try assumption. cbn [seen sl_buf].
  intro Hx. apply Hn. now destruct (ms_buf s) as [[]|].
Qed.
Lemma list_in_ok mem g : list_in mem g -> gather_ok (seen_list mem g) /\ null_list (seen_list mem g) = false /\ existsb missing (slices (seen_list mem g)) = false /\
  gather_bytes (seen_list mem g) = list_bytes mem g.
Proof.
  unfold list_in, gather_ok, null_list, gather_bytes, list_bytes, slices. cbn [seen_list g_count g_list]. destruct (mg_list g) as [l|]; cbn [option_map is_none].
  - intros [Hc Hl]. rewrite takeN_all by (rewrite Hc; unfold len; rewrite map_length; lia). rewrite andb_false_r. splits; try reflexivity.
    + rewrite Hc. unfold len. rewrite map_length. lia.
    + apply Forall_map. eapply Forall_impl; [|exact Hl]. intros s Hs. now apply lies_ok.
    + clear Hc. induction Hl as [|s l Hs _ IH]; [reflexivity|]. cbn [map existsb]. rewrite IH. now rewrite (proj1 (proj2 (lies_ok mem s Hs))).
    + clear Hc. induction Hl as [|s l Hs _ IH]; [reflexivity|]. cbn [map flat_map]. now rewrite IH, bytes_seen.
  - intros ->. splits; try reflexivity; constructor.
Qed.
Lemma len_overwritten mem o b : o + len b <= len mem -> len (overwritten mem o b) = len mem.
Proof. intro H. unfold overwritten. rewrite !len_app, len_takeN, len_dropN. lia. Qed.
(** The result of a call that replaces the beginning of what it sees. *)
Lemma store_overwrites mem o b : o + len b <= len mem -> store mem (Some (Shared o)) (Some (b ++ dropN (len b) (dropN o mem))) = overwritten mem o b.
Proof. intro H. cbn [store]. unfold overwritten. now rewrite dropN_dropN, (N.add_comm o). Qed.
Lemma apart_bytes mem o b s : o + len b <= len mem -> lies_in mem s -> apart s o (len b) -> bytes_at (overwritten mem o b) s = bytes_at mem s.
Proof.
  intros Ho [_ Hl] Ha. unfold apart in Ha. unfold bytes_at. destruct (ms_buf s) as [[a|d]|]; try reflexivity. destruct Ha as [Ha|[Ha|[Ha|Ha]]].
  - unfold overwritten. rewrite <- (takeN_dropN o mem) at 3. rewrite !dropN_app_l by (rewrite len_takeN; lia).
    rewrite !takeN_app_l by (rewrite len_dropN, len_takeN; lia). reflexivity.
  - unfold overwritten. f_equal. rewrite dropN_app_r by (rewrite len_takeN; lia). rewrite dropN_app_r by (rewrite len_takeN; lia). rewrite dropN_dropN. f_equal. rewrite len_takeN. lia.
  - rewrite Ha. now rewrite !takeN_0.
  - destruct b; [|rewrite len_cons in Ha; lia]. unfold overwritten. change (len (@nil byte)) with 0. rewrite N.add_0_r. cbn [app]. now rewrite takeN_dropN.
Qed.
Lemma lies_after mem mem' s : len mem' = len mem -> lies_in mem s -> lies_in mem' s.
Proof. intros Hl [H1 H2]. split; [exact H1|]. destruct (ms_buf s) as [[]|]; now rewrite ?Hl. Qed.


(** ** Successful calls *)

Lemma store_result mem o n b : o + n <= len mem -> len b = n -> store mem (Some (Shared o)) (Some (b ++ dropN n (dropN o mem))) = overwritten mem o b.
Proof. intros H <-. now apply store_overwrites. Qed.
Lemma hmac_at_success alg A key g p d size mem : algorithm alg = Some A -> key_in mem key -> list_in mem g -> 128 + len (list_bytes mem g) < 2 ^ 61 ->
  view mem (Some p) = Some d -> out_bytes A <= size -> size <= len d ->
  hmac_at alg key (Some g) (Some p) (Some size) mem =
    (let new := HMAC A (bytes_at mem key) (list_bytes mem g) ++ dropN (out_bytes A) d in Ret (ok_e, store mem (Some p) (Some new), Some new, Some (out_bytes A))).
Proof.
  intros HA Hk Hg Hl Hv Hs Hd. rewrite hmac_at_refines. cbn [option_map]. rewrite Hv. destruct (list_in_ok mem g Hg) as (G1 & G2 & G3 & G4).
  pose proof (key_in_ok mem key Hk) as Hk'. destruct Hk as (Hk & _). destruct (lies_ok mem key Hk) as (_ & K2 & _).
  rewrite (hmac_success the_hmac alg A); try assumption.
  - cbn [put_back bind]. now rewrite G4, bytes_seen.
  - apply the_hmac_meets.
  - unfold hmac_pre. cbn [one out_ok]. rewrite bytes_one, G4. splits; try assumption. now left.
  - cbn [has_missing]. change (takeN 1 [?x]) with [x]. cbn [flat_map]. now rewrite app_nil_r.
Qed.

(** ** hkdf_expand *)

Lemma overwritten_twice mem a x y : a + len x + len y <= len mem -> overwritten (overwritten mem a x) (a + len x) y = overwritten mem a (x ++ y).
Proof.
  intro H. unfold overwritten. rewrite (app_assoc (takeN a mem) x). set (w := takeN a mem ++ x). assert (Hw : len w = a + len x) by (unfold w; rewrite len_app, len_takeN; lia).
  rewrite <- Hw at 1. rewrite takeN_app_len, dropN_app_r by lia. rewrite dropN_dropN, len_app, Hw. unfold w. rewrite <- !app_assoc. do 4 f_equal. lia.
Qed.
Lemma read_back mem a x : a + len x <= len mem -> takeN (len x) (dropN a (overwritten mem a x)) = x.
Proof. intro H. unfold overwritten. rewrite dropN_app_r by (rewrite len_takeN; lia). rewrite len_takeN, N.min_l, N.sub_diag, dropN_0 by lia. apply takeN_app_len. Qed.
Lemma key_after mem mem' s : len mem' = len mem -> key_in mem s -> key_in mem' s.
Proof. intros Hl (H1 & H2). split; [now apply (lies_after mem)|exact H2]. Qed.

Section Alg.
Variables (alg : N) (A : sha2).
Hypothesis HA : algorithm alg = Some A.
Let ds := out_bytes A.
Lemma ds_range : 0 < ds <= 64.
Proof. apply known_out, (algorithm_known alg A HA). Qed.

Definition tag (prk info : mslice) (o : N) (i : nat) (mem : memory) : list byte :=
  HMAC A (bytes_at mem prk) (match i with O => [] | S i' => takeN ds (dropN (o + N.of_nat i' * ds) mem) end ++ bytes_at mem info ++ [n2b (N.of_nat (S i))]).
Lemma tag_len prk info o i mem : len (tag prk info o i mem) = ds.
Proof. unfold tag. apply HMAC_len, (algorithm_known alg A HA). Qed.
Lemma blocks_step prk info o i n last mem : expand_blocks A prk info o i (S n) last mem =
  expand_blocks A prk info o (S i) n last (overwritten mem (o + N.of_nat i * ds) (match n with O => takeN last (tag prk info o i mem) | _ => tag prk info o i mem end)).
Proof. reflexivity. Qed.
Lemma blocks_snoc prk info o last : forall n i mem,
  expand_blocks A prk info o i (S n) last mem =
    (let mem' := expand_blocks A prk info o i n ds mem in overwritten mem' (o + N.of_nat (i + n) * ds) (takeN last (tag prk info o (i + n) mem'))).
Proof.
  induction n; intros i mem; cbv zeta.
  - rewrite Nat.add_0_r. reflexivity.
  - rewrite blocks_step, IHn. cbv zeta. rewrite (blocks_step _ _ _ i n ds). replace (S i + n)%nat with (i + S n)%nat by lia.
    destruct n; [|reflexivity]. rewrite (takeN_all ds) by (rewrite tag_len; lia). reflexivity.
Qed.
Lemma blocks_len prk info o : forall n i mem, o + N.of_nat (i + n) * ds <= len mem -> len (expand_blocks A prk info o i n ds mem) = len mem.
Proof.
  induction n; intros i mem Hm; [reflexivity|]. rewrite blocks_step. assert (Hx : match n with O => takeN ds (tag prk info o i mem) | _ => tag prk info o i mem end = tag prk info o i mem).
  { destruct n; [|reflexivity]. apply takeN_all. rewrite tag_len. lia. }
  rewrite Hx. pose proof (len_overwritten mem (o + N.of_nat i * ds) (tag prk info o i mem)) as Hl. rewrite tag_len in Hl. rewrite IHn; [apply Hl; nia|]. rewrite Hl; nia.
Qed.

Definition prev_of (o : N) (i : nat) : mslice := match i with O => mkM 0 None | S i' => mkM ds (Some (Shared (o + N.of_nat i' * ds))) end.
Lemma tag_call prk info o i p d mem : key_in mem prk -> lies_in mem info -> 193 + ms_size info < 2 ^ 61 -> o + N.of_nat i * ds <= len mem ->
  view mem (Some p) = Some d -> ds <= len d ->
  hmac_at alg prk (Some (mkMG 3 (Some [prev_of o i; info; mkM 1 (Some (Own [n2b (wrap8 (1 + N.of_nat i))]))]))) (Some p) (Some ds) mem =
    (let new := tag prk info o i mem ++ dropN ds d in Ret (ok_e, store mem (Some p) (Some new), Some new, Some ds)).
Proof.
  intros Hk Hi Hl Ho Hv Hd. pose proof ds_range as Hr. pose proof SZ_lo as Hz.
  assert (Hp : lies_in mem (prev_of o i)). { destruct i; cbn [prev_of]; split; cbn [ms_size ms_buf]; lia. }
  assert (Hb : list_bytes mem (mkMG 3 (Some [prev_of o i; info; mkM 1 (Some (Own [n2b (wrap8 (1 + N.of_nat i))]))])) =
    match i with O => [] | S i' => takeN ds (dropN (o + N.of_nat i' * ds) mem) end ++ bytes_at mem info ++ [n2b (N.of_nat (S i))]).
  { unfold list_bytes. cbn [mg_list flat_map]. f_equal.
    - destruct i; reflexivity.
    - f_equal. rewrite app_nil_r. unfold bytes_at. cbn [ms_buf ms_size]. change (takeN 1 [?x]) with [x]. f_equal. unfold wrap8. rewrite n2b_mod. f_equal. lia. }
  rewrite (hmac_at_success alg A prk _ p d ds mem HA); try assumption; try (fold ds; lia).
  - rewrite Hb. reflexivity.
  - split; [reflexivity|]. constructor; [assumption|]. constructor; [assumption|]. constructor; [|constructor]. split; cbn [ms_size ms_buf]; [lia|discriminate].
  - rewrite Hb, !len_app. destruct (lies_ok mem info Hi) as (_ & _ & ->). change (len [?x]) with 1.
    assert (len (match i with O => [] | S i' => takeN ds (dropN (o + N.of_nat i' * ds) mem) end) <= 64) by (destruct i; [discriminate|rewrite len_takeN; lia]). lia.
Qed.

Lemma loop_at prk info o : forall fuel i ko mem, key_in mem prk -> lies_in mem info -> 193 + ms_size info < 2 ^ 61 -> (N.to_nat ko < fuel)%nat ->
  o + N.of_nat i * ds + ko <= len mem -> ko < SZ ->
  exists q, N.of_nat q * ds <= ko < N.of_nat q * ds + ds /\
  expand_loop_at hmac_at fuel alg prk info (prev_of o i) (wrap8 (1 + N.of_nat i)) ds ko (o + N.of_nat i * ds) mem =
    Ret (prev_of o (i + q), wrap8 (1 + N.of_nat (i + q)), ds, ko - N.of_nat q * ds, o + N.of_nat (i + q) * ds, expand_blocks A prk info o i q ds mem).
Proof.
  pose proof ds_range as Hr. induction fuel; intros i ko mem Hk Hi Hl Hf Hm Hz; [lia|]. cbn [expand_loop_at]. destruct (N.leb_spec ds ko) as [Hge|Hlt]; cycle 1.
  { exists O. split; [lia|]. rewrite !Nat.add_0_r, N.mul_0_l, N.sub_0_r. reflexivity. }
  rewrite (tag_call prk info o i (Shared (o + N.of_nat i * ds)) (dropN (o + N.of_nat i * ds) mem)); try assumption; try reflexivity; try (rewrite ?len_dropN; lia).
  cbv zeta. cbn [bind size_after]. rewrite store_result by (rewrite ?tag_len; lia).
  pose proof (len_overwritten mem (o + N.of_nat i * ds) (tag prk info o i mem)) as Hlen. rewrite tag_len in Hlen. specialize (Hlen ltac:(lia)).
  rewrite Hlen. destruct (N.ltb_spec (len mem) (o + N.of_nat i * ds + ds)); [lia|]. rewrite sub_sz_le by lia.
  replace (wrap8 (wrap8 (1 + N.of_nat i) + 1)) with (wrap8 (1 + N.of_nat (S i))); cycle 1.
  { unfold wrap8. rewrite N.add_mod_idemp_l by lia. f_equal. lia. }
  replace (o + N.of_nat i * ds + ds) with (o + N.of_nat (S i) * ds) by lia.
  change (mkM ds (Some (Shared (o + N.of_nat i * ds)))) with (prev_of o (S i)).
  destruct (IHfuel (S i) (ko - ds) (overwritten mem (o + N.of_nat i * ds) (tag prk info o i mem))) as (q & Hq & E1).
  - now apply (key_after mem).
  - now apply (lies_after mem).
  - assumption.
  - lia.
  - rewrite Hlen. lia.
  - lia.
  - exists (S q). split; [lia|]. rewrite E1, blocks_step. replace (i + S q)%nat with (S i + q)%nat by lia.
    assert (Hx : match q with O => takeN ds (tag prk info o i mem) | _ => tag prk info o i mem end = tag prk info o i mem).
    { destruct q; [|reflexivity]. apply takeN_all. rewrite tag_len. lia. }
    rewrite Hx. do 4 f_equal. lia.
Qed.
End Alg.
Lemma lies_null mem s : lies_in mem s -> null_mslice s = false.
Proof. unfold lies_in, null_mslice. intros [_ Hb]. destruct (ms_buf s) as [[]|]; try reflexivity. now rewrite Hb. Qed.
End Refines.

(** ** C58 *)

(** digest, hmac and hkdf_extract read all of their inputs before they write: whatever overlaps, the outcome is that of the contract for what the inputs hold at the call. *)
Theorem C58_reading_first : forall (E : Env) (M : Libc) alg out size mem,
  let deliver r := let '(rc, new, n) := r in Ret (rc, store mem out new, new, n) : res moutcome in
  (forall ms count, digest_pre (seen_lists mem ms) count (view mem out) size ->
     digest_at alg ms count out size mem = deliver (digest_report true alg (seen_lists mem ms) count (view mem out) size)) /\
  (forall key m, hmac_pre (seen mem key) (option_map (seen_list mem) m) (view mem out) size ->
     hmac_at alg key m out size mem = deliver (hmac_report true alg (seen mem key) (option_map (seen_list mem) m) (view mem out) size)) /\
  (forall ikm salt, extract_pre (seen mem ikm) (seen mem salt) (view mem out) size ->
     extract_at alg ikm salt out size mem = deliver (extract_report true alg (seen mem ikm) (seen mem salt) (view mem out) size)).
Proof.
  intros E M alg out size mem deliver. unfold deliver. splits; intros.
  - rewrite digest_at_refines, (the_digest_meets E M) by assumption. cbn [put_back bind]. now destruct (digest_report _ _ _ _ _ _) as [[]].
  - rewrite hmac_at_refines, (the_hmac_meets E M) by assumption. cbn [put_back bind]. now destruct (hmac_report _ _ _ _ _ _) as [[]].
  - rewrite extract_at_refines, (the_extract_meets E M) by assumption. cbn [put_back bind]. now destruct (extract_report _ _ _ _ _ _) as [[]].
Qed.
Print Assumptions C58_reading_first.

(** In particular the output may overlap the inputs in any way: what is written is the result for what was there. *)
Theorem C58_in_place : forall (E : Env) (M : Libc) alg A o size mem, algorithm alg = Some A -> out_bytes A <= size -> o + size <= len mem ->
  (forall gs, gs <> [] -> Forall (list_in mem) gs -> len (flat_map (list_bytes mem) gs) < 2 ^ 61 ->
     exists p, digest_at alg (Some gs) (len gs) (Some (Shared o)) (Some size) mem =
       Ret (ok_e, overwritten mem o (hash A (flat_map (list_bytes mem) gs)), p, Some (out_bytes A))) /\
  (forall key g, key_in mem key -> list_in mem g -> 128 + len (list_bytes mem g) < 2 ^ 61 ->
     exists p, hmac_at alg key (Some g) (Some (Shared o)) (Some size) mem =
       Ret (ok_e, overwritten mem o (HMAC A (bytes_at mem key) (list_bytes mem g)), p, Some (out_bytes A))) /\
  (forall ikm salt, lies_in mem ikm -> key_in mem salt -> 128 + ms_size ikm < 2 ^ 61 ->
     exists p, extract_at alg ikm salt (Some (Shared o)) (Some size) mem =
       Ret (ok_e, overwritten mem o (HKDF_extract A (bytes_at mem salt) (bytes_at mem ikm)), p, Some (out_bytes A))).
Proof.
  intros E M alg A o size mem HA Hs Ho. pose proof (algorithm_known alg A HA) as Hkn.
  assert (Hmac : forall key g, key_in mem key -> list_in mem g -> 128 + len (list_bytes mem g) < 2 ^ 61 ->
     exists p, hmac_at alg key (Some g) (Some (Shared o)) (Some size) mem =
       Ret (ok_e, overwritten mem o (HMAC A (bytes_at mem key) (list_bytes mem g)), p, Some (out_bytes A))).
  { intros key g Hk Hg Hl. rewrite (hmac_at_success alg A key g (Shared o) (dropN o mem) size mem); try assumption; try reflexivity; [|rewrite len_dropN; lia].
    cbv zeta. rewrite store_result by (rewrite ?HMAC_len by assumption; lia). eexists. reflexivity. }
  splits; [|exact Hmac|].
  - intros gs Hne Hg Hlen.
    assert (Hb : message_bytes (Some (map (seen_list mem) gs)) (len gs) = flat_map (list_bytes mem) gs).
    { cbn [message_bytes]. rewrite takeN_all by (unfold len; rewrite map_length; lia). clear - Hg. induction Hg as [|g gs Hg _ IH]; [reflexivity|].
      cbn [map flat_map]. rewrite IH. now rewrite (proj2 (proj2 (proj2 (list_in_ok mem g Hg)))). }
    rewrite digest_at_refines. cbn [view seen_lists option_map]. rewrite (digest_success the_digest alg A); try assumption.
    + rewrite Hb. cbn [put_back bind]. rewrite store_result by (rewrite ?known_len by assumption; lia). eexists. reflexivity.
    + apply the_digest_meets.
    + unfold digest_pre. rewrite Hb. splits; try assumption.
      * cbn [out_ok]. rewrite len_dropN. lia.
      * destruct gs as [|g gs]; [contradiction|]. cbn [map]. splits.
        -- unfold len. cbn [length]. rewrite map_length. lia.
        -- left. apply list_in_ok. now inversion Hg.
        -- rewrite takeN_all by (unfold len; cbn [length]; rewrite map_length; lia). apply Forall_map. inversion_clear Hg as [|? ? _ Hg']. eapply Forall_impl; [|exact Hg']. intros x Hx. now apply list_in_ok.
    + destruct gs as [|g gs]; [reflexivity|]. cbn [map head_null_list]. inversion_clear Hg as [|? ? Hg' _]. now rewrite (proj1 (proj2 (list_in_ok mem g Hg'))).
    + cbn [has_missing]. rewrite takeN_all by (unfold len; rewrite map_length; lia). clear - Hg. induction Hg as [|g gs Hg _ IH]; [reflexivity|].
      cbn [map flat_map]. rewrite existsb_app, IH. now rewrite (proj1 (proj2 (proj2 (list_in_ok mem g Hg)))).
  - intros ikm salt Hi Hk Hl. destruct (lies_ok mem ikm Hi) as (_ & _ & Hlen).
    assert (Hb : list_bytes mem (mkMG 1 (Some [ikm])) = bytes_at mem ikm). { unfold list_bytes. cbn [mg_list flat_map]. apply app_nil_r. }
    unfold extract_at, n20_hkdf_extract_at. rewrite enum_size, required_0, HA. unfold required. rewrite HA. cbn [is_none].
    rewrite (lies_null mem ikm Hi), (lies_null mem salt (proj1 Hk)). cbn [absent]. destruct (N.ltb_spec size (out_bytes A)); [lia|]. cbn [orb].
    destruct (Hmac salt (mkMG 1 (Some [ikm])) Hk) as (p & Hp).
    + split; [reflexivity|]. now constructor.
    + rewrite Hb, Hlen. exact Hl.
    + exists p. unfold HKDF_extract. rewrite Hp, Hb. reflexivity.
Qed.
Print Assumptions C58_in_place.

(** hkdf_expand writes each block before it makes the next. Whatever overlaps, this is what it leaves behind. *)
Theorem C58_expand_exact : forall (E : Env) (M : Libc) alg A prk info L o mem, algorithm alg = Some A ->
  key_in mem prk -> lies_in mem info -> 193 + ms_size info < 2 ^ 61 -> L < SZ -> o + L <= len mem ->
  expand_at alg prk info L (Some o) mem = Ret (ok_e, expand_effect A prk info o L mem).
Proof.
  intros E M alg A prk info L o mem HA Hk Hi Hl HL Ho. pose proof (ds_range alg A HA) as Hr. unfold expand_at, n20_hkdf_expand_at.
  rewrite enum_size, required_0, HA. unfold required. rewrite HA. cbn [is_none]. rewrite (lies_null mem prk (proj1 Hk)), (lies_null mem info Hi).
  destruct (N.eqb_spec L 0) as [->|Hnz].
  { unfold expand_effect. replace (blocks A 0) with 0; [reflexivity|]. unfold blocks. symmetry. apply N.div_small. lia. }
  destruct (loop_at alg A HA prk info o (S (N.to_nat L)) 0 L mem) as (q & Hq & E1); try assumption; try lia.
  change (wrap8 (1 + N.of_nat 0)) with 1 in E1. change (prev_of A o 0) with (mkM 0 None) in E1. cbn [N.of_nat Nat.add] in E1. rewrite N.mul_0_l, N.add_0_r in E1. rewrite E1. clear E1. cbn [bind].
  pose proof (blocks_len alg A HA prk info o q 0 mem ltac:(cbn [Nat.add]; lia)) as Hlen. set (mem' := expand_blocks A prk info o 0 q (out_bytes A) mem) in *.
  destruct (N.ltb_spec 0 (L - N.of_nat q * out_bytes A)) as [Hm|Hm].
  - assert (Hbl : blocks A L = N.of_nat (S q)). { unfold blocks. symmetry. apply (N.div_unique _ _ _ (L - N.of_nat q * out_bytes A - 1)); nia. }
    rewrite (tag_call alg A HA prk info o q (Own (repeat x00 64)) (repeat x00 64) mem'); try assumption; try reflexivity; try (rewrite ?len_repeat; lia); cycle 1.
    { now apply (key_after mem). } { now apply (lies_after mem). }
    cbv zeta. cbn [bind store]. unfold memcpy, local_after. pose proof (tag_len alg A HA prk info o q mem') as Ht. rewrite len_app, Ht, !len_dropN, len_repeat, Hlen.
    match goal with |- context [if ?a <? ?b then Undef UBReadOob else _] => destruct (N.ltb_spec a b); [lia|] end.
    match goal with |- context [if ?a <? ?b then Undef UBWriteOob else _] => destruct (N.ltb_spec a b); [lia|] end.
    cbn [bind]. rewrite takeN_app_l by lia. unfold expand_effect, early. rewrite Hbl, Nat2N.id, (blocks_snoc alg A HA). cbv zeta. fold mem'. cbn [Nat.add].
    replace (N.of_nat (S q) - 1) with (N.of_nat q) by lia. unfold overwritten. rewrite dropN_dropN, len_takeN, Ht. rewrite (N.min_l _ (out_bytes A)) by lia. rewrite (N.add_comm (o + N.of_nat q * out_bytes A)). reflexivity.
  - assert (HLq : L = N.of_nat q * out_bytes A) by lia.
    assert (Hbl : blocks A L = N.of_nat q). { unfold blocks. symmetry. apply (N.div_unique _ _ _ (out_bytes A - 1)); nia. }
    unfold expand_effect, early. rewrite Hbl, Nat2N.id. replace (L - (N.of_nat q - 1) * out_bytes A) with (out_bytes A); [reflexivity|]. destruct q; [lia|nia].
Qed.
Print Assumptions C58_expand_exact.

(** Blocks whose key and info are not overwritten on the way. *)
Lemma blocks_apart (E : Env) alg A prk info o last (F : nat -> list byte) (HA : algorithm alg = Some A) : last <= out_bytes A -> forall n i mem, lies_in mem prk -> lies_in mem info ->
  (forall j, (i <= j)%nat -> F (S j) = HMAC A (bytes_at mem prk) (F j ++ bytes_at mem info ++ [n2b (N.of_nat (S j))])) ->
  o + N.of_nat (i + n) * out_bytes A + last <= len mem ->
  apart prk (o + N.of_nat i * out_bytes A) (N.of_nat n * out_bytes A) -> apart info (o + N.of_nat i * out_bytes A) (N.of_nat n * out_bytes A) ->
  match i with O => [] | S i' => takeN (out_bytes A) (dropN (o + N.of_nat i' * out_bytes A) mem) end = F i ->
  expand_blocks A prk info o i (S n) last mem =
    overwritten mem (o + N.of_nat i * out_bytes A) (flat_map F (seq (S i) n) ++ takeN last (F (S i + n)%nat)).
Proof.
  intros Hlast. pose proof (algorithm_known alg A HA) as Hkn. set (ds := out_bytes A) in *. induction n; intros i mem Hp Hi HF Hm Ap Ai Ht.
  - rewrite blocks_step. cbn [expand_blocks seq flat_map app]. rewrite Nat.add_0_r, HF, <- Ht by lia. reflexivity.
  - rewrite blocks_step. cbv beta iota. fold ds. assert (Htag : tag A prk info o i mem = F (S i)). { rewrite HF, <- Ht by lia. reflexivity. }
    rewrite Htag. pose proof (tag_len alg A HA prk info o i mem) as Hlt. rewrite Htag in Hlt. fold ds in Hlt. remember (F (S i)) as t eqn:Et.
    assert (Hpart : forall s, apart s (o + N.of_nat i * ds) (N.of_nat (S n) * ds) -> apart s (o + N.of_nat i * ds) (len t) /\ apart s (o + N.of_nat (S i) * ds) (N.of_nat n * ds)).
    { intros s. unfold apart. rewrite Hlt. destruct (ms_buf s) as [[a|]|]; try easy. pose proof (ds_range alg A HA) as Hr. fold ds in Hr. intro Hs. split; nia. }
    destruct (Hpart prk Ap) as [Ap1 Ap2]. destruct (Hpart info Ai) as [Ai1 Ai2]. clear Hpart.
    assert (Hfit : o + N.of_nat i * ds + len t <= len mem) by (rewrite Hlt; nia).
    pose proof (apart_bytes mem (o + N.of_nat i * ds) t prk Hfit Hp Ap1) as Bp. pose proof (apart_bytes mem (o + N.of_nat i * ds) t info Hfit Hi Ai1) as Bi.
    pose proof (len_overwritten mem (o + N.of_nat i * ds) t Hfit) as Hlen.
    rewrite IHn; try assumption; cycle 1.
    { now apply (lies_after mem). } { now apply (lies_after mem). } { rewrite Bp, Bi. intros j Hj. apply HF. lia. } { rewrite Hlen. nia. }
    { rewrite <- Et. pose proof (read_back mem (o + N.of_nat i * ds) t Hfit) as Hb. rewrite Hlt in Hb. exact Hb. }
    replace (o + N.of_nat (S i) * ds) with (o + N.of_nat i * ds + len t) by (rewrite Hlt; lia).
    cbn [seq flat_map]. rewrite <- Et. rewrite overwritten_twice; cycle 1.
    { assert (Hflat : forall k j, (S i <= j)%nat -> len (flat_map F (seq (S j) k)) = N.of_nat k * ds).
      { induction k; intros j Hj; [reflexivity|]. cbn [seq flat_map]. rewrite len_app, IHk by lia. rewrite HF by lia. rewrite HMAC_len by assumption. fold ds. lia. }
      rewrite len_app, Hflat by lia. rewrite len_takeN, Hlt. nia. }
    rewrite <- app_assoc. replace (S i + S n)%nat with (S (S i) + n)%nat by lia. reflexivity.
Qed.
Lemma takeN_flat (F : nat -> list byte) ds n L : (forall j, len (F (S j)) = ds) -> (1 <= n)%nat -> N.of_nat (n - 1) * ds <= L <= N.of_nat n * ds ->
  takeN L (flat_map F (seq 1 n)) = flat_map F (seq 1 (n - 1)) ++ takeN (L - N.of_nat (n - 1) * ds) (F n).
Proof.
  intros HF Hn HL. assert (Hflat : forall k j, len (flat_map F (seq (S j) k)) = N.of_nat k * ds).
  { induction k; intros j; [reflexivity|]. cbn [seq flat_map]. rewrite len_app, IHk, HF. lia. }
  destruct n; [lia|]. replace (S n - 1)%nat with n in * by lia. rewrite seq_S, flat_map_app. cbn [flat_map Nat.add]. rewrite app_nil_r.
  rewrite takeN_app_r by (rewrite Hflat; lia). now rewrite Hflat.
Qed.
Lemma blocks_range A L : 0 < out_bytes A -> 0 < L -> 1 <= blocks A L /\ (blocks A L - 1) * out_bytes A < L <= blocks A L * out_bytes A.
Proof.
  intros Ho HL. pose proof (blocks_enough A L Ho). unfold blocks in *. pose proof (N.div_mod (L + out_bytes A - 1) (out_bytes A) ltac:(lia)).
  pose proof (N.mod_lt (L + out_bytes A - 1) (out_bytes A) ltac:(lia)). set (b := (L + out_bytes A - 1) / out_bytes A) in *. destruct (N.eq_dec b 0) as [->|]; nia.
Qed.
(** The output keying material is right if neither the key nor info lies where the blocks before the last go. (One block: they may lie anywhere.) *)
Theorem C58_expand : forall (E : Env) (M : Libc) alg A prk info L o mem, algorithm alg = Some A ->
  key_in mem prk -> lies_in mem info -> 193 + ms_size info < 2 ^ 61 -> L < SZ -> o + L <= len mem ->
  apart prk o (early A L) -> apart info o (early A L) ->
  expand_at alg prk info L (Some o) mem = Ret (ok_e, overwritten mem o (HKDF_expand A (bytes_at mem prk) (bytes_at mem info) L)).
Proof.
  intros E M alg A prk info L o mem HA Hk Hi Hl HL Ho Ap Ai. rewrite (C58_expand_exact E M alg A) by assumption. do 2 f_equal.
  pose proof (algorithm_known alg A HA) as Hkn. pose proof (known_out A Hkn) as Hr. unfold expand_effect, HKDF_expand, early in *. destruct (N.eq_dec L 0) as [->|Hnz].
  { assert (Hz : blocks A 0 = 0) by (unfold blocks; apply N.div_small; lia). rewrite Hz. cbn [N.to_nat expand_blocks]. rewrite takeN_0. unfold overwritten. cbn [app]. change (len []) with 0.
    now rewrite N.add_0_r, takeN_dropN. }
  destruct (blocks_range A L) as (Hb1 & Hb2); try lia. rewrite (takeN_flat _ (out_bytes A)); [|intro j; cbn [T]; now apply HMAC_len|lia|lia].
  set (n := (N.to_nat (blocks A L) - 1)%nat). assert (Hn : N.to_nat (blocks A L) = S n) by lia. rewrite Hn.
  replace (blocks A L - 1) with (N.of_nat n) in * by lia.
  rewrite (blocks_apart E alg A prk info o _ (T A (bytes_at mem prk) (bytes_at mem info)) HA); [|nia|exact (proj1 Hk)|assumption|reflexivity|cbn [Nat.add]; lia| | |reflexivity].
  - cbn [N.of_nat Nat.add]. rewrite N.mul_0_l, N.add_0_r. reflexivity.
  - cbn [N.of_nat]. now rewrite N.mul_0_l, N.add_0_r.
  - cbn [N.of_nat]. now rewrite N.mul_0_l, N.add_0_r.
Qed.
Print Assumptions C58_expand.

(** hkdf keeps the pseudorandom key in a local buffer: the input keying material and the salt may overlap the output in any way, info as in hkdf_expand. *)
Theorem C58_hkdf : forall (E : Env) (M : Libc) alg A ikm salt info L o mem, algorithm alg = Some A ->
  lies_in mem ikm -> key_in mem salt -> lies_in mem info -> 128 + ms_size ikm < 2 ^ 61 -> 193 + ms_size info < 2 ^ 61 -> L < SZ -> o + L <= len mem ->
  apart info o (early A L) ->
  hkdf_at alg ikm salt info L (Some o) mem = Ret (ok_e, overwritten mem o (HKDF A (bytes_at mem salt) (bytes_at mem ikm) (bytes_at mem info) L)).
Proof.
  intros E M alg A ikm salt info L o mem HA Hi Hs Hf Hli Hlf HL Ho Ai. pose proof (algorithm_known alg A HA) as Hkn. pose proof (known_out A Hkn) as Hr. pose proof SZ_lo as Hz.
  unfold hkdf_at, n20_hkdf_at. rewrite enum_size, required_0, HA. unfold required. rewrite HA. cbn [is_none].
  rewrite (lies_null mem ikm Hi), (lies_null mem salt (proj1 Hs)), (lies_null mem info Hf).
  destruct (lies_ok mem ikm Hi) as (I1 & I2 & I3). pose proof (key_in_ok mem salt Hs) as S1. destruct (lies_ok mem salt (proj1 Hs)) as (_ & S2 & _).
  rewrite extract_at_refines. cbn [view]. rewrite (the_extract_meets E M); cycle 1.
  { unfold extract_pre. rewrite bytes_seen, I3. cbn [out_ok]. rewrite len_repeat. splits; try assumption. lia. }
  unfold extract_report, extract_errors, report, result, required. rewrite HA. cbn [is_none negb]. rewrite I2, S2. unfold too_small. cbn [is_none orb].
  destruct (N.ltb_spec (out_bytes A) (out_bytes A)); [lia|]. cbn [first_error find fst put_back bind store local_after size_after]. rewrite !bytes_seen.
  set (prk := HKDF_extract A (bytes_at mem salt) (bytes_at mem ikm)). assert (Hp : len prk = out_bytes A) by (apply HMAC_len; assumption).
  rewrite (C58_expand E M alg A); try assumption; [| |exact I].
  - unfold HKDF. fold prk. do 4 f_equal. unfold bytes_at. cbn [ms_buf ms_size]. rewrite <- Hp. apply takeN_app_len.
  - split; [|split]; [split|..]; cbn [ms_size ms_buf]; try lia; try discriminate. rewrite len_app. lia.
Qed.
Print Assumptions C58_hkdf.

(** A call of hkdf_expand or hkdf that reports an argument error leaves the memory alone. *)
Theorem C58_errors : forall (E : Env) (M : Libc) alg L out mem e, e <> ok_e ->
  let seen_out := option_map (fun o => dropN o mem) out in
  (forall prk info, first_error (expand_errors true alg (seen mem prk) (seen mem info) L seen_out) = e -> expand_at alg prk info L out mem = Ret (e, mem)) /\
  (forall ikm salt info, extract_pre (seen mem ikm) (seen mem salt) (Some (repeat x00 64)) (Some (required alg)) ->
     first_error (hkdf_errors true alg (seen mem ikm) (seen mem salt) (seen mem info) L seen_out) = e -> hkdf_at alg ikm salt info L out mem = Ret (e, mem)).
Proof.
  intros E M alg L out mem e Hne seen_out.
  assert (Hex : forall prk info, first_error (expand_errors true alg (seen mem prk) (seen mem info) L seen_out) = e -> expand_at alg prk info L out mem = Ret (e, mem)).
  { intros prk info. unfold expand_errors, first_error, expand_at, n20_hkdf_expand_at. rewrite !(null_seen mem), !null_missing, enum_size, required_0. cbn [negb find fst].
    destruct (algorithm alg); cbn [is_none find fst]; [|now intros <-]. destruct (missing (seen mem prk)); cbn [find fst]; [now intros <-|].
    destruct (missing (seen mem info)); cbn [find fst]; [now intros <-|]. destruct (L =? 0); cbn [negb andb]; [rewrite andb_false_r; now intros <-|]. rewrite andb_true_r.
    unfold seen_out. destruct out; cbn [option_map is_none]; now intros <-. }
  split; [exact Hex|]. intros ikm salt info Hpre. unfold hkdf_errors, first_error, hkdf_at, n20_hkdf_at. rewrite !(null_seen mem), !null_missing, enum_size, required_0. cbn [negb find fst].
  destruct (algorithm alg) as [A|] eqn:EA; cbn [is_none find fst]; [|now intros <-]. destruct (missing (seen mem ikm)) eqn:E1; cbn [find fst]; [now intros <-|].
  destruct (missing (seen mem salt)) eqn:E2; cbn [find fst]; [now intros <-|]. destruct (missing (seen mem info)) eqn:E3; cbn [find fst]; [now intros <-|]. intro He.
  rewrite extract_at_refines. cbn [view]. rewrite (the_extract_meets E M) by exact Hpre. unfold extract_report, extract_errors, report, result, required. rewrite EA, E1, E2. cbn [is_none negb].
  unfold too_small. cbn [is_none orb]. destruct (N.ltb_spec (out_bytes A) (out_bytes A)); [lia|]. cbn [first_error find fst put_back bind store local_after size_after].
  apply Hex. unfold first_error, expand_errors. rewrite EA, E3. cbn [negb is_none find fst]. unfold missing. cbn [seen sl_buf sl_size ms_buf ms_size view is_none andb]. exact He.
Qed.
Print Assumptions C58_errors.

(** In place over a pseudorandom key of the size of a block, the usual result of hkdf_extract: only the first block is right, from the second on it is the key. *)
Theorem C58_expand_over_prk : forall (E : Env) (M : Libc) alg A info L o mem, algorithm alg = Some A ->
  lies_in mem info -> 193 + ms_size info < 2 ^ 61 -> L < SZ -> o + L <= len mem -> o + out_bytes A <= len mem -> apart info o (early A L) ->
  let prk := mkM (out_bytes A) (Some (Shared o)) in
  expand_at alg prk info L (Some o) mem = Ret (ok_e, overwritten mem o (takeN L (flat_map (U A (bytes_at mem prk) (bytes_at mem info)) (seq 1 (N.to_nat (blocks A L)))))).
Proof.
  intros E M alg A info L o mem HA Hi Hl HL Ho Hp Ai prk. pose proof (algorithm_known alg A HA) as Hkn. pose proof (known_out A Hkn) as Hr. pose proof SZ_lo as Hz.
  assert (Hk : key_in mem prk). { split; [|split]; [split|..]; cbn [prk ms_size ms_buf]; try lia; try discriminate. }
  rewrite (C58_expand_exact E M alg A) by assumption. set (F := U A (bytes_at mem prk) (bytes_at mem info)).
  assert (HF1 : F 1%nat = tag A prk info o 0 mem) by reflexivity.
  assert (HF : forall j, (1 <= j)%nat -> F (S j) = HMAC A (F 1%nat) (F j ++ bytes_at mem info ++ [n2b (N.of_nat (S j))])). { intros [|j] Hj; [lia|]. reflexivity. }
  assert (HFl : forall j, len (F (S j)) = out_bytes A). { intros [|j]; [rewrite HF1; apply (tag_len alg A HA)|]. rewrite HF by lia. now apply HMAC_len. }
  unfold expand_effect, early in *. destruct (N.eq_dec L 0) as [->|Hnz].
  { assert (H0 : blocks A 0 = 0) by (unfold blocks; apply N.div_small; lia). rewrite H0. cbn [N.to_nat expand_blocks]. rewrite takeN_0. unfold overwritten. cbn [app]. change (len []) with 0.
    now rewrite N.add_0_r, takeN_dropN. }
  destruct (blocks_range A L) as (Hb1 & Hb2); try lia. rewrite (takeN_flat _ (out_bytes A)); [|exact HFl|lia|lia].
  set (n := (N.to_nat (blocks A L) - 1)%nat). assert (Hn : N.to_nat (blocks A L) = S n) by lia. rewrite Hn. replace (blocks A L - 1) with (N.of_nat n) in * by lia.
  rewrite blocks_step. cbn [N.of_nat]. rewrite N.mul_0_l, N.add_0_r, <- HF1. clearbody n. destruct n as [|n].
  { cbn [expand_blocks seq flat_map app N.of_nat]. rewrite N.mul_0_l, N.sub_0_r. reflexivity. }
  assert (Hfit : o + len (F 1%nat) <= len mem) by (rewrite HFl; lia). pose proof (len_overwritten mem o (F 1%nat) Hfit) as Hlen.
  assert (Bp : bytes_at (overwritten mem o (F 1%nat)) prk = F 1%nat). { unfold bytes_at. cbn [prk ms_buf ms_size]. pose proof (read_back mem o (F 1%nat) Hfit) as Hb. rewrite HFl in Hb. exact Hb. }
  assert (Bi : bytes_at (overwritten mem o (F 1%nat)) info = bytes_at mem info).
  { apply apart_bytes; try assumption. rewrite HFl. unfold apart in *. destruct (ms_buf info) as [[a|]|]; try easy. nia. }
  rewrite (blocks_apart E alg A prk info o _ F HA).
  - replace (o + N.of_nat 1 * out_bytes A) with (o + len (F 1%nat)) by (rewrite HFl; lia). rewrite overwritten_twice.
    + cbn [seq flat_map Nat.add]. rewrite <- app_assoc. reflexivity.
    + assert (Hflat : forall k j, len (flat_map F (seq (S j) k)) = N.of_nat k * out_bytes A).
      { induction k; intros j; [reflexivity|]. cbn [seq flat_map]. rewrite len_app, IHk, HFl. lia. }
      rewrite len_app, Hflat, len_takeN, HFl. nia.
  - nia.
  - now apply (lies_after mem); [|apply Hk].
  - now apply (lies_after mem).
  - rewrite Bp, Bi. exact HF.
  - rewrite Hlen. nia.
  - unfold apart. cbn [prk ms_buf ms_size]. left. lia.
  - unfold apart in *. destruct (ms_buf info) as [[a|]|]; try easy. nia.
  - cbn [N.of_nat]. rewrite N.mul_0_l, N.add_0_r. pose proof (read_back mem o (F 1%nat) Hfit) as Hb. rewrite HFl in Hb. exact Hb.
Qed.
Print Assumptions C58_expand_over_prk.

(** So hkdf_expand cannot be used in place, although nothing in include/nat20/crypto.h:425-467 says so. *)
Definition all_zero : memory := repeat x00 64.
Lemma differ : Byte.eqb (nth 32 (overwritten all_zero 0 (takeN 33 (flat_map (U SHA256 (takeN 32 all_zero) []) (seq 1 2)))) x00)
  (nth 32 (overwritten all_zero 0 (HKDF_expand SHA256 (takeN 32 all_zero) [] 33)) x00) = false.
Proof. vm_compute. reflexivity. Qed.
Theorem C58_expand_in_place_refuted : forall (E : Env) (M : Libc), exists alg A prk info L o mem mem', algorithm alg = Some A /\
  key_in mem prk /\ lies_in mem info /\ 193 + ms_size info < 2 ^ 61 /\ L < SZ /\ L <= 255 * out_bytes A /\ o + L <= len mem /\
  expand_at alg prk info L (Some o) mem = Ret (ok_e, mem') /\ mem' <> overwritten mem o (HKDF_expand A (bytes_at mem prk) (bytes_at mem info) L).
Proof.
  intros E M. pose proof SZ_lo as Hz. assert (HA : algorithm 1 = Some SHA256) by reflexivity.
  assert (Hi : lies_in all_zero (mkM 0 None)). { split; cbn [ms_size ms_buf]; [lia|reflexivity]. }
  exists 1, SHA256, (mkM (out_bytes SHA256) (Some (Shared 0))), (mkM 0 None), 33, 0, all_zero. eexists. splits.
  - exact HA.
  - split; [split; cbn [ms_size ms_buf]; [change (out_bytes SHA256) with 32; lia|discriminate]|split; [reflexivity|discriminate]].
  - exact Hi.
  - reflexivity.
  - lia.
  - discriminate.
  - discriminate.
  - apply (C58_expand_over_prk E M 1 SHA256 (mkM 0 None) 33 0 all_zero HA Hi); [reflexivity|lia|discriminate|discriminate|exact I].
  - intro Heq. pose proof differ as Hd. apply (f_equal (fun m => nth 32 m x00)) in Heq. cbv beta in Heq.
    change (bytes_at all_zero (mkM (out_bytes SHA256) (Some (Shared 0)))) with (takeN 32 all_zero) in Heq. change (bytes_at all_zero (mkM 0 None)) with (@nil byte) in Heq.
    change (N.to_nat (blocks SHA256 33)) with 2%nat in Heq. rewrite <- Heq in Hd. rewrite Byte.byte_dec_lb in Hd by reflexivity. discriminate.
Qed.
Print Assumptions C58_expand_in_place_refuted.

(** ** Examples *)

Lemma over_eq mem o b n : len b = n -> overwritten mem o b = takeN o mem ++ b ++ dropN (o + n) mem.
Proof. now intros <-. Qed.
(** A digest, an HMAC and a derived key over their own inputs, with every algorithm. *)
Section Examples.
Context (E : Env) (M : Libc) (alg : N) (A : sha2) (HA : algorithm alg = Some A).
Lemma room : out_bytes A <= 64.
Proof. apply known_out, (algorithm_known alg A HA). Qed.
Example C58_digest_over_message : let mem := [x61; x62; x63] ++ repeat x00 80 in exists p,
  digest_at alg (Some [mkMG 1 (Some [mkM 3 (Some (Shared 0))])]) 1 (Some (Shared 0)) (Some 64) mem =
    Ret (ok_e, hash A [x61; x62; x63] ++ dropN (out_bytes A) mem, p, Some (out_bytes A)).
Proof.
  intro mem. pose proof SZ_lo. destruct (C58_in_place E M alg A 0 64 mem HA room) as (Hd & _ & _); [discriminate|].
  destruct (Hd [mkMG 1 (Some [mkM 3 (Some (Shared 0))])]) as (p & Hp); [discriminate| |reflexivity|].
  - constructor; [|constructor]. split; [reflexivity|]. constructor; [|constructor]. split; cbn [ms_size ms_buf]; [lia|discriminate].
  - exists p. change (len [mkMG 1 (Some [mkM 3 (Some (Shared 0))])]) with 1 in Hp. rewrite Hp. rewrite (over_eq _ _ _ (out_bytes A)) by (apply known_len, (algorithm_known alg A HA)).
    reflexivity.
Qed.
Example C58_hmac_over_key_and_message : let mem := map (fun i => n2b (N.of_nat i)) (seq 0 90) in exists p,
  hmac_at alg (mkM 20 (Some (Shared 5))) (Some (mkMG 2 (Some [mkM 10 (Some (Shared 30)); mkM 10 (Some (Shared 20))]))) (Some (Shared 10)) (Some 64) mem =
    Ret (ok_e, takeN 10 mem ++ HMAC A (takeN 20 (dropN 5 mem)) (takeN 10 (dropN 30 mem) ++ takeN 10 (dropN 20 mem)) ++ dropN (10 + out_bytes A) mem, p, Some (out_bytes A)).
Proof.
  intro mem. pose proof SZ_lo. destruct (C58_in_place E M alg A 10 64 mem HA room) as (_ & Hm & _); [discriminate|].
  destruct (Hm (mkM 20 (Some (Shared 5))) (mkMG 2 (Some [mkM 10 (Some (Shared 30)); mkM 10 (Some (Shared 20))]))) as (p & Hp).
  - split; [split; cbn [ms_size ms_buf]; [lia|discriminate]|]. split; [reflexivity|discriminate].
  - split; [reflexivity|]. repeat (constructor; [split; cbn [ms_size ms_buf]; [lia|discriminate]|]). constructor.
  - reflexivity.
  - exists p. rewrite Hp. rewrite (over_eq _ _ _ (out_bytes A)) by (apply HMAC_len, (algorithm_known alg A HA)). reflexivity.
Qed.
(** hkdf over its input keying material and salt, with info behind the output. *)
Example C58_hkdf_over_ikm : let mem := map (fun i => n2b (N.of_nat i)) (seq 0 190) in
  hkdf_at alg (mkM 40 (Some (Shared 0))) (mkM 16 (Some (Shared 24))) (mkM 10 (Some (Shared 180))) 180 (Some 0) mem =
    Ret (ok_e, overwritten mem 0 (HKDF A (takeN 16 (dropN 24 mem)) (takeN 40 mem) (takeN 10 (dropN 180 mem)) 180)).
Proof.
  intro mem. pose proof SZ_lo. rewrite (C58_hkdf E M alg A); [reflexivity|exact HA|..]; try (cbn [ms_size]; lia); try discriminate.
  - split; cbn [ms_size ms_buf]; [lia|discriminate].
  - split; [split; cbn [ms_size ms_buf]; [lia|discriminate]|]. split; [reflexivity|discriminate].
  - split; cbn [ms_size ms_buf]; [lia|discriminate].
  - right. left. unfold early. destruct (blocks_range A 180) as (_ & Hb); [|lia|lia]. apply known_out, (algorithm_known alg A HA).
Qed.
(** A single block may go over the key and info. *)
Example C58_expand_one_block : let mem := map (fun i => n2b (N.of_nat i)) (seq 0 90) in
  expand_at alg (mkM (out_bytes A) (Some (Shared 0))) (mkM 10 (Some (Shared 5))) (out_bytes A) (Some 0) mem =
    Ret (ok_e, overwritten mem 0 (HKDF_expand A (takeN (out_bytes A) mem) (takeN 10 (dropN 5 mem)) (out_bytes A))).
Proof.
  intro mem. pose proof SZ_lo. pose proof (known_out A (algorithm_known alg A HA)) as Hr. assert (Hl : len mem = 90) by reflexivity.
  assert (He : early A (out_bytes A) = 0). { unfold early, blocks. replace ((out_bytes A + out_bytes A - 1) / out_bytes A) with 1; [reflexivity|]. apply (N.div_unique _ _ _ (out_bytes A - 1)); lia. }
  rewrite (C58_expand E M alg A); [reflexivity|exact HA|..]; try (cbn [ms_size]; lia).
  - split; [split; cbn [ms_size ms_buf]; lia|]. split; [cbn [ms_size]; lia|discriminate].
  - split; cbn [ms_size ms_buf]; [lia|discriminate].
  - rewrite He. right. right. now right.
  - rewrite He. right. right. now right.
Qed.
End Examples.
(** An error: the memory stays. *)
Example C58_error_case (E : Env) (M : Libc) mem : expand_at 7 (mkM 32 (Some (Shared 0))) (mkM 0 None) 32 (Some 0) mem = Ret (unknown_algorithm_e, mem).
Proof. apply (proj1 (C58_errors E M 7 32 (Some 0) mem unknown_algorithm_e ltac:(discriminate))). reflexivity. Qed.
