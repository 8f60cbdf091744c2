(** Failing BoringSSL calls in RFC 6979 generation: which failure is reported. *)
From Coq Require Import List NArith ZArith Bool Strings.Byte Lia.
From Coq Require Import ZifyBool ZifyNat ZifyN.
From Verif Require Import Base BaseFacts Res SpecSha2 ShaFacts Crypto SpecMac SpecCrypto CryptoProofs Bssl BsslKeys SpecBssl BsslProofs Rfc6979Proofs.
Import ListNotations.
Open Scope N_scope.

(** ** The calls in the order in which they are made, each with the error its failure is reported as *)
Definition failed (rows : list (bool * error)) : option error := option_map snd (find fst rows).
Section Rows.
Context (B : Bssl).
Definition message_rows (ds q : N) (m : option (list byte)) : list (bool * error) :=
  match m with
  | None => []
  | Some _ => [ (fails c_evp_digest, implementation_specific_e); (fails c_bin2bn, no_resources_e);
                ((qlen q <? ds * 8) && fails c_rshift, no_resources_e); (fails c_bn_new, no_resources_e); (fails c_bn_sub, no_resources_e);
                (fails c_bn2bin, no_resources_e) ]
  end.
Definition warm_rows (octet : N) : list (bool * error) :=
  [ (fails (c_warm_init octet), no_resources_e); (fails (c_warm_final octet), implementation_specific_e);
    (fails (c_warm_hmac octet), implementation_specific_e) ].
(** Making the [n]-th candidate takes as many HMAC blocks as give [qlen] bits. *)
Definition hmac_rows_from (n : nat) (i : N) (k : nat) : list (bool * error) :=
  map (fun j => (fails (c_try_hmac n (i + N.of_nat j)), implementation_specific_e)) (seq 0 k).
Definition blocks_needed (ds q : N) : N := (qlen q + ds * 8 - 1) / (ds * 8).
Definition try_rows (ds q : N) (n : nat) : list (bool * error) :=
  hmac_rows_from n 0 (N.to_nat (blocks_needed ds q)) ++ [ (fails (c_try_bin2bn n), no_resources_e); (fails (c_try_rshift n), no_resources_e) ].
Definition next_rows (n : nat) : list (bool * error) :=
  [ (fails (c_try_init n), no_resources_e); (fails (c_try_final n), implementation_specific_e); (fails (c_try_update n), implementation_specific_e) ].
(** [count] unsuitable candidates from the [n]-th on. *)
Definition reject_rows (ds q : N) (n count : nat) : list (bool * error) :=
  flat_map (fun j => try_rows ds q (n + j) ++ next_rows (n + j)) (seq 0 count).
(** Until candidate [found] is accepted, or [fuel] candidates are rejected. *)
Definition loop_rows (ds q : N) (n : nat) (fuel : nat) (found : option nat) : list (bool * error) :=
  match found with
  | Some i => reject_rows ds q n i ++ try_rows ds q (n + i)
  | None => reject_rows ds q n fuel
  end.
Definition generation_rows (ds q : N) (m : option (list byte)) (fuel : nat) (found : option nat) : list (bool * error) :=
  message_rows ds q m ++ [(fails c_hmac_ctx_new, no_resources_e)] ++ warm_rows 0 ++ warm_rows 1 ++ loop_rows ds q 0 fuel found.
End Rows.

Definition guarded {A} (rows : list (bool * error)) (x : res (variant A)) : res (variant A) :=
  match failed rows with Some e => fail e | None => x end.
Lemma guarded_app {A} r1 r2 (x : res (variant A)) : guarded (r1 ++ r2) x = guarded r1 (guarded r2 x).
Proof. unfold guarded, failed. induction r1 as [|[[] e] r1 IH]; [reflexivity|reflexivity|exact IH]. Qed.
Lemma guarded_cons {A} b e r (x : res (variant A)) : guarded ((b, e) :: r) x = if b then fail e else guarded r x.
Proof. now destruct b. Qed.
Lemma guarded_nil {A} (x : res (variant A)) : guarded [] x = x.
Proof. reflexivity. Qed.
Lemma guarded_try {A C} r (x : res (variant A)) (f : A -> res (variant C)) : (try a <- guarded r x; f a) = guarded r (try a <- x; f a).
Proof. unfold guarded. now destruct (failed r). Qed.
Lemma need_if {A} b e (x : res (variant A)) : (need negb b else e; x) = if b then fail e else x.
Proof. now destruct b. Qed.

Section Fail.
Context (B : Bssl).
Variables (alg ds q : N).
Hypothesis Hds : 0 < ds.
Hypothesis Hhmac : forall k m, len (bssl_hmac alg k m) = ds.
Let H := bssl_hmac alg.
Let R := reliable B.
Let RH : forall k m, len (@bssl_hmac R alg k m) = ds := Hhmac.

Lemma k_fill_fail n K : forall k i V T,
  @k_fill B n alg ds k i K V T = guarded (hmac_rows_from B n i k) (@k_fill R n alg ds k i K V T).
Proof.
  induction k as [|k IH]; intros i V T; [reflexivity|]. cbn [k_fill]. unfold hmac_rows_from. cbn [seq map].
  rewrite guarded_cons, N.add_0_r. change (@fails R (c_try_hmac n i)) with false. change (@bssl_hmac R alg K V) with (bssl_hmac alg K V).
  rewrite Hhmac, N.eqb_refl. cbn [negb andb]. rewrite andb_true_r, need_if. destruct (fails (c_try_hmac n i)); [reflexivity|]. rewrite IH.
  unfold hmac_rows_from. rewrite <- seq_shift, map_map. f_equal. apply map_ext. intro j. do 3 f_equal. lia.
Qed.

Lemma reject_S n k : reject_rows B ds q n (S k) = try_rows B ds q n ++ next_rows B n ++ reject_rows B ds q (S n) k.
Proof.
  unfold reject_rows. cbn [seq flat_map]. rewrite Nat.add_0_r, <- app_assoc. do 2 f_equal.
  rewrite <- seq_shift, !flat_map_concat_map, map_map. f_equal. apply map_ext. intro j. now replace (n + S j)%nat with (S n + j)%nat by lia.
Qed.

Lemma k_loop_fail : forall fuel n K V,
  @k_loop B fuel n alg ds (qlen q) q K V =
  let found := find (fun i => suitable q (@cand B alg q (K, V) i)) (seq 0 fuel) in
  guarded (loop_rows B ds q n fuel found)
    (match found with Some i => Ret (inr (@cand B alg q (K, V) i)) | None => OutOfFuel end).
Proof.
  induction fuel as [|fuel IH]; intros n K V; [reflexivity|]. cbv zeta. cbn [k_loop seq find].
  change ((qlen q + ds * 8 - 1) / (ds * 8)) with (blocks_needed ds q). rewrite k_fill_fail, guarded_try.
  destruct (@attempt_ok R alg ds q (reliable_ok B) Hds RH n K V) as [E1 E2].
  change ((qlen q + ds * 8 - 1) / (ds * 8)) with (blocks_needed ds q) in E1. rewrite E1. cbn [bind].
  change (@bssl_hmac R alg) with H in *. destruct (attempt H q (K, V)) as [V1 T1] eqn:Ea. rewrite !need_if, (bits2int_ok alg ds q) by assumption.
  assert (Ec : @cand B alg q (K, V) 0 = bits2int q T1). { unfold cand. cbn [Nat.iter nat_rect]. change (bssl_hmac alg) with H. now rewrite Ea. }
  rewrite Ec. replace (negb (bits2int q T1 =? 0) && (bits2int q T1 <? q)) with (suitable q (bits2int q T1)) by (unfold suitable; lia).
  destruct (suitable q (bits2int q T1)).
  - cbn [loop_rows]. change (reject_rows B ds q n 0) with (@nil (bool * error)). cbn [app]. rewrite Nat.add_0_r. unfold try_rows.
    rewrite guarded_app, !guarded_cons, guarded_nil. now rewrite Ec.
  - rewrite !Hhmac, N.eqb_refl, !andb_true_r, !need_if, IH, find_seq. cbv zeta.
    assert (En : next H q (K, V) = (bssl_hmac alg K (V1 ++ [x00]), bssl_hmac alg (bssl_hmac alg K (V1 ++ [x00])) V1)).
    { unfold next. now rewrite Ea. }
    rewrite <- En. assert (Es : forall i, @cand B alg q (next H q (K, V)) i = @cand B alg q (K, V) (S i)). { intro i. unfold cand. now rewrite iter_succ. }
    assert (Ef : forall l, find (fun i => suitable q (@cand B alg q (next H q (K, V)) i)) l = find (fun i => suitable q (@cand B alg q (K, V) (S i))) l).
    { induction l as [|a l IHl]; [reflexivity|]. cbn [find]. rewrite Es. destruct (suitable _ _); [reflexivity|]. exact IHl. }
    rewrite Ef. set (fo := find _ (seq 0 fuel)).
    assert (Er : loop_rows B ds q n (S fuel) (option_map S fo) = try_rows B ds q n ++ next_rows B n ++ loop_rows B ds q (S n) fuel fo).
    { destruct fo as [i|]; cbn [option_map loop_rows]; rewrite reject_S; [|reflexivity]. rewrite <- !app_assoc.
      now replace (n + S i)%nat with (S n + i)%nat by lia. }
    rewrite Er. unfold try_rows at 1, next_rows at 1. rewrite !guarded_app, !guarded_cons, !guarded_nil.
    destruct fo; cbn [option_map]; [now rewrite Es|reflexivity].
Qed.

Lemma k_message_fail m : (forall m, len (evp_digest alg m) = ds) ->
  @k_message B m alg ds (qlen q) (rlen q) q = guarded (message_rows B ds q m) (@k_message R m alg ds (qlen q) (rlen q) q).
Proof.
  intro Hd. rewrite (@k_message_ok R alg ds q (reliable_ok B) Hds RH m Hd). change (@evp_digest R alg) with (evp_digest alg).
  pose proof (@k_message_ok R alg ds q (reliable_ok B) Hds RH m Hd) as P. destruct m as [m|]; [|reflexivity].
  cbn [k_message option_map message_rows] in *. change (@evp_digest R alg) with (evp_digest alg) in P.
  change (@fails R) with (fun _ : call => false) in P. cbv beta in P. cbn [negb andb] in P.
  rewrite !guarded_cons, guarded_nil. set (h := evp_digest alg m) in *. assert (Hh : len h = ds) by apply Hd.
  rewrite Hh, N.eqb_refl, andb_true_r in *. rewrite !need_if.
  destruct (fails c_evp_digest); [reflexivity|]. destruct (fails c_bin2bn); [reflexivity|].
  destruct (qlen q <? ds * 8); cbn [andb bind] in *; rewrite ?need_if;
    [destruct (fails c_rshift); [reflexivity|]; cbn [bind]|];
    (destruct (fails c_bn_new); [reflexivity|]; destruct (fails c_bn_sub); [reflexivity|]; destruct (fails c_bn2bin); [reflexivity|]; exact P).
Qed.

Theorem k_generation_fail fuel x m : digest_enum_to_bssl_evp_md alg = true -> bssl_digest_enum_to_size alg = ds ->
  (forall m, len (evp_digest alg m) = ds) ->
  let data := k_data q x (option_map (evp_digest alg) m) in
  let found := find (fun i => suitable q (candidate H (N.to_nat ds) q data i)) (seq 0 fuel) in
  @rfc6979_k_generation B fuel x m alg q =
  guarded (generation_rows B ds q m fuel found)
    (match found with Some i => Ret (inr (candidate H (N.to_nat ds) q data i)) | None => OutOfFuel end).
Proof.
  intros Ha Hs Hd data found. unfold rfc6979_k_generation. rewrite Ha, Hs. fold (qlen q). fold (rlen q).
  rewrite k_message_fail by assumption. rewrite guarded_try, (@k_message_ok R alg ds q (reliable_ok B) Hds RH m Hd). cbn [bind].
  change (@evp_digest R alg) with (evp_digest alg). unfold generation_rows. rewrite guarded_app. f_equal. rewrite need_if.
  cbn [app]. rewrite guarded_cons. destruct (fails c_hmac_ctx_new); [reflexivity|].
  unfold warm_rows. cbn [app]. rewrite !guarded_cons.
  unfold k_warm_up at 1. rewrite !Hhmac, N.eqb_refl, !andb_true_r, !need_if.
  destruct (fails (c_warm_init 0)); [reflexivity|]. destruct (fails (c_warm_final 0)); [reflexivity|]. destruct (fails (c_warm_hmac 0)); [reflexivity|].
  cbn [bind]. unfold k_warm_up at 1. rewrite !Hhmac, N.eqb_refl, !andb_true_r, !need_if.
  destruct (fails (c_warm_init 1)); [reflexivity|]. destruct (fails (c_warm_final 1)); [reflexivity|]. destruct (fails (c_warm_hmac 1)); [reflexivity|].
  cbn [bind]. rewrite k_loop_fail. reflexivity.
Qed.
End Fail.

Theorem k_generation_fail_sha2 (B : Bssl) fuel x m alg A q : computes_sha2 B -> algorithm alg = Some A ->
  let data := k_data q x (option_map (hash A) m) in
  let found := find (fun i => suitable q (candidate (HMAC A) (N.to_nat (out_bytes A)) q data i)) (seq 0 fuel) in
  rfc6979_k_generation fuel x m alg q =
  guarded (generation_rows B (out_bytes A) q m fuel found)
    (match found with Some i => Ret (inr (candidate (HMAC A) (N.to_nat (out_bytes A)) q data i)) | None => OutOfFuel end).
Proof.
  intros Hc HA data found. destruct (Hc _ _ HA) as (Hh & Hm & _). pose proof (algorithm_known _ _ HA) as Kn. pose proof (known_out A Kn) as Ho.
  rewrite (k_generation_fail B alg (out_bytes A) q).
  - assert (Ed : k_data q x (option_map (evp_digest alg) m) = data) by (unfold data; destruct m; cbn [option_map]; now rewrite ?Hh).
    rewrite Ed. pose proof (candidate_ext (bssl_hmac alg) (HMAC A) (N.to_nat (out_bytes A)) q Hm data) as Ex.
    assert (Ef : forall l, find (fun i => suitable q (candidate (bssl_hmac alg) (N.to_nat (out_bytes A)) q data i)) l =
                           find (fun i => suitable q (candidate (HMAC A) (N.to_nat (out_bytes A)) q data i)) l).
    { induction l as [|a l IH]; [reflexivity|]. cbn [find]. rewrite Ex. destruct (suitable _ _); [reflexivity|exact IH]. }
    rewrite Ef. fold found. destruct found; [now rewrite Ex|reflexivity].
  - lia.
  - intros k d. rewrite Hm. now apply HMAC_len.
  - rewrite md_known, HA. reflexivity.
  - rewrite bssl_size. unfold required. now rewrite HA.
  - intro d. rewrite Hh. now apply known_len.
Qed.
