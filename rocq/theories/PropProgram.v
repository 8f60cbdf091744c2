(** Property C55: programs that use the whole context of the BoringSSL back end. *)
From Coq Require Import List NArith ZArith Bool Strings.Byte Lia.
From Coq Require Import ZifyBool ZifyNat ZifyN.
From Verif Require Import Base BaseFacts Res SpecSha2 ShaFacts Crypto SpecMac SpecCrypto CryptoProofs PropCrypto Bssl BsslKeys SpecBssl BsslProofs PropBssl Rfc6979Proofs KeyProofs PropKeys.
From Verif Require Import SpecClient PropClient.
From Verif Require Import SpecProgram.
Import ListNotations.
Open Scope N_scope.

(** The table that open hands out leads to the functions of the back end. *)
Lemma perform_call `{Bssl} `{Allocator} fuel h c : perform bssl_ctx fuel h c = call_op fuel h (op_of c).
Proof. destruct c; reflexivity. Qed.
Lemma known_live t a : known t a = live (heap_of t) a.
Proof. unfold known. now rewrite live_lookup. Qed.
Lemma op_ok_known `{Env} t o : op_ok (known t) o -> op_ok (live (heap_of t)) o.
Proof.
  assert (Hh : forall a, handle_ok (known t) a -> handle_ok (live (heap_of t)) a) by (intros a [->|Ha]; [now left|right; now rewrite <- known_live]).
  destruct o; cbn [op_ok]; intuition auto.
Qed.

Lemma execute_ends (E : Env) (M : Libc) (B : Bssl) (F : (call -> bool) -> Prop) fs As xs R fuel (p : program R) :
  computes_sha2 B -> signs B -> publishes B -> (forall i, allocator_ok (As i)) -> (forall i, F (fs i) /\ fs i c_md_ctx_new = false) -> opened B fs As xs ->
  forall i t, lookup t 0 = None -> sound B F t p ->
  (exists r t', execute B fs As xs fuel i (heap_of t) p = Ret (r, heap_of t') /\ ends B F t p r t' /\ lookup t' 0 = None) \/
  (execute B fs As xs fuel i (heap_of t) p = OutOfFuel /\ starves B F fuel t p).
Proof.
  intros Hc Hs Hp Ha HF Hx. induction p as [r|c k IH|q k IH]; intros i t H0; cbn [sound execute].
  - intros _. left. exists r, t. splits; [reflexivity|constructor|exact H0].
  - intros (Ho & Hk). pose proof (Hx i) as Hxi. injection Hxi as <-. rewrite perform_call.
    destruct (call_lawful (with_fails (fs i) B) Hc Hs Hp (Ha i) fuel t (op_of c) H0 (op_ok_known t _ Ho)) as [(a & t1 & -> & Hl & H1)|(-> & Hy)].
    + assert (Hll : lawfully B F t c a t1) by (exists (fs i); split; [apply HF|exact Hl]).
      cbn [bind]. destruct (IH a (S i) t1 H1 (Hk a t1 Hll)) as [(r & t2 & Hr & He & H2)|(Hr & He)].
      * left. exists r, t2. splits; [exact Hr|now apply e_ask with a t1|exact H2].
      * right. split; [exact Hr|now apply s_ask with a t1].
    + right. split; [reflexivity|]. apply s_here. destruct Hy as (ctx & a & ty & g & ko & cv & bits & X1 & X2 & X3 & X4).
      destruct c; try discriminate. injection X1 as _ -> -> -> ->. exists a, ty, g, ko, cv, bits. splits; try assumption; [reflexivity|]. exact (proj1 (first_suitable_none _ _ _ _ _) X4).
  - intros (Hq & Hk). pose proof (Hx i) as Hxi. injection Hxi as <-.
    destruct (run_serves true _ q (bssl_serves E M (with_fails (fs i) B) (As i) true Hc ltac:(discriminate) (proj2 (HF i))) Hq) as (a & -> & Hy). cbn [bind].
    destruct (IH a (S i) t H0 (Hk a Hy)) as [(r & t2 & Hr & He & H2)|(Hr & He)].
    + left. exists r, t2. splits; [exact Hr|now apply e_use with a|exact H2].
    + right. split; [exact Hr|now apply s_use with a].
Qed.

(** ** C55 *)

(** Whatever program uses the context that opening hands out, if its calls are allowed then nothing undefined happens, and it ends with a result that the interface
    allows and exactly the keys that the interface says there are; only the derivation of a key for an elliptic curve may go on for ever. In every step other calls of
    BoringSSL may fail and memory may come from elsewhere. *)
Theorem C55_programs : forall (E : Env) (M : Libc) (B : Bssl) (F : (call -> bool) -> Prop) fs As xs R fuel (p : program R) t,
  computes_sha2 B -> signs B -> publishes B -> (forall i, allocator_ok (As i)) -> (forall i, F (fs i) /\ fs i c_md_ctx_new = false) -> lookup t 0 = None ->
  opened B fs As xs -> sound B F t p ->
  (exists r t', execute B fs As xs fuel 0 (heap_of t) p = Ret (r, heap_of t') /\ ends B F t p r t') \/
  (execute B fs As xs fuel 0 (heap_of t) p = OutOfFuel /\ starves B F fuel t p).
Proof.
  intros E M B F fs As xs R fuel p t Hc Hs Hp Ha HF H0 Ho Hk.
  destruct (execute_ends E M B F fs As xs R fuel p Hc Hs Hp Ha HF Ho 0%nat t H0 Hk) as [(r & t' & Hr & He & _)|H]; [left; now exists r, t'|now right].
Qed.
Print Assumptions C55_programs.

(** The two programs. *)
Definition reliably (F : (call -> bool) -> Prop) : Prop := forall f c, F f -> f c = false.
Definition good (g : gather) : Prop := null_list g = false /\ has_missing (Some [g]) 1 = false.
Lemma one_bytes g : message_bytes (one (Some g)) 1 = gather_bytes g.
Proof. cbn. apply app_nil_r. Qed.
Lemma filter_gone (t : table) a k : lookup t a = None -> filter (fun x => negb (fst x =? a)) ((a, k) :: t) = t.
Proof.
  intro H. cbn [filter fst]. rewrite N.eqb_refl. cbn [negb]. revert H. induction t as [|[b x] t IH]; [reflexivity|].
  rewrite lookup_cons. destruct (N.eqb_spec b a) as [->|Hb]; [discriminate|]. intro H. cbn [filter fst]. destruct (N.eqb_spec b a); [contradiction|]. cbn [negb]. now rewrite IH.
Qed.

(** The answers of one call to a program that derives a key. *)
Lemma kdf_answer (B : Bssl) F t a ty label r t1 bits : lookup t 0 = None -> lookup t a = Some (SecretKey bits) ->
  lawfully B F t (CKdf a ty (Some label) (Some 0)) r t1 ->
  (exists b k, r = RKey ok_e (Some b) /\ b <> 0 /\ lookup t b = None /\ derived B bits (gather_bytes label) ty k /\ t1 = (b, k) :: t) \/
  (exists rc, r = RKey rc (Some 0) /\ rc <> ok_e /\ t1 = t /\ (reliably F -> good label -> kind_of ty = None)).
Proof.
  intros H0 Hb (f & HF & Hl). cbn [op_of lawful] in Hl. destruct r as [rc h|o|rc]; try contradiction.
  assert (Hz : (a =? 0) = false) by (destruct (N.eqb_spec a 0) as [->|]; [congruence|reflexivity]).
  assert (Hk : handle_key t a = Some (SecretKey bits)) by (unfold handle_key; now rewrite Hz).
  rewrite Hk in Hl. unfold creates in Hl. destruct Hl as [He Hl].
  assert (Hdec : {rc = ok_e} + {rc <> ok_e}) by decide equality.
  destruct Hdec as [->|Hrc].
  - left. destruct Hl as (b & k & -> & Hb0 & Hf & (bits' & Hk' & Hd) & ->). injection Hk' as <-. rewrite one_bytes in Hd. exists b, k. now splits.
  - right. exists rc.
    assert (Ht : h = Some 0 /\ t1 = t) by (destruct rc; try contradiction; exact Hl). destruct Ht as [-> ->]. splits; try assumption; try reflexivity.
    intros Hn [G1 G2]. destruct He as [He|(_ & c & Hc)]; [|rewrite (Hn f c HF : @fails (with_fails f B) c = false) in Hc; discriminate].
    unfold kdf_errors in He. cbn [negb is_none wrong_kind is_secret Bool.eqb one head_null_list] in He. rewrite G1, G2 in He.
    destruct (kind_of ty); [|reflexivity]. cbn in He. contradiction.
Qed.
Lemma handle_lookup t a k : lookup t 0 = None -> lookup t a = Some k -> handle_key t a = Some k.
Proof. intros H0 H. unfold handle_key. destruct (N.eqb_spec a 0) as [->|]; [congruence|exact H]. Qed.
(** The size of a signature. *)
Lemma size_answer (B : Bssl) F t a k msg r t1 : lookup t 0 = None -> lookup t a = Some k ->
  lawfully B F t (CSign a (Some msg) None (Some 0)) r t1 ->
  t1 = t /\ exists rc n, r = ROut (rc, None, Some n) /\
    (rc = insufficient_buffer_size_e -> is_secret k = false /\ n = signature_octets (Some k)) /\
    (reliably F -> is_secret k = false -> rc = insufficient_buffer_size_e).
Proof.
  intros H0 Hk (f & HF & Hl). cbn [op_of lawful] in Hl. destruct r as [rc h|o|rc]; try contradiction. rewrite (handle_lookup t a k H0 Hk) in Hl.
  destruct Hl as [-> [(sig & _ & ->)|(e & n & (He & c & Hc) & -> & _)]]; split; try reflexivity.
  - unfold report, sign_errors. cbn [negb is_none wrong_kind]. destruct k as [bits|p]; cbn [is_secret Bool.eqb negb].
    + do 2 eexists. split; [reflexivity|]. split; [discriminate|discriminate].
    + do 2 eexists. split; [reflexivity|]. split; [intros _; now split|reflexivity].
  - exists e, n. split; [reflexivity|]. split; [intros ->; destruct He; discriminate|]. intros Hn. rewrite (Hn f c HF : @fails (with_fails f B) c = false) in Hc. discriminate.
Qed.
(** A signature, into a buffer of that size. *)
Lemma sign_answer (B : Bssl) F t a p msg out r t1 : let n := signature_octets (Some (SigningKey p)) in
  lookup t 0 = None -> lookup t a = Some (SigningKey p) -> len out = n ->
  lawfully B F t (CSign a (Some msg) (Some out) (Some n)) r t1 ->
  t1 = t /\ exists rc out' size, r = ROut (rc, out', size) /\
    (rc = ok_e -> exists sig, signature_of B (Some (SigningKey p)) (gather_bytes msg) sig /\ out' = Some sig) /\
    (reliably F -> good msg -> rc = ok_e).
Proof.
  intros n H0 Hk Ho (f & HF & Hl). cbn [op_of lawful] in Hl. destruct r as [rc h|o|rc]; try contradiction. rewrite (handle_lookup t a _ H0 Hk), one_bytes in Hl.
  destruct Hl as [-> [(sig & Hsig & ->)|(e & m & (He & c & Hc) & -> & _)]]; split; try reflexivity.
  - unfold report, sign_errors, too_small. fold n. cbn [negb is_none wrong_kind is_secret Bool.eqb orb]. rewrite N.ltb_irrefl. cbn [one head_null_list].
    do 3 eexists. split; [reflexivity|]. split.
    + intros ->. exists sig. split; [exact Hsig|]. rewrite dropN_all by (rewrite Ho; apply N.le_refl). now rewrite app_nil_r.
    + intros _ [-> G2]. unfold first_error. cbn [find fst]. now rewrite G2.
  - exists e, (Some out), (Some m). split; [reflexivity|]. split; [intros ->; destruct He; discriminate|]. intros Hn. rewrite (Hn f c HF : @fails (with_fails f B) c = false) in Hc. discriminate.
Qed.
Lemma free_answer (B : Bssl) F t a r t1 : lawfully B F t (CFree a) r t1 -> t1 = filter (fun x => negb (fst x =? a)) t.
Proof. intros (f & _ & Hl). revert Hl. cbn [op_of lawful]. destruct r; try contradiction. now intros [_ ->]. Qed.
Lemma new_lookup (t : table) b k : b <> 0 -> lookup t 0 = None -> lookup ((b, k) :: t) 0 = None /\ lookup ((b, k) :: t) b = Some k.
Proof. intros Hb H0. rewrite !lookup_cons, N.eqb_refl. destruct (N.eqb_spec b 0); [contradiction|]. now split. Qed.
Lemma known_ok t a k : lookup t a = Some k -> handle_ok (known t) a.
Proof. intro H. right. unfold known. now rewrite H. Qed.

Lemma derive_and_sign_sound (E : Env) (M : Libc) (B : Bssl) F t a ty label msg bits : lookup t 0 = None -> lookup t a = Some (SecretKey bits) ->
  bssl_gather_ok label -> bssl_gather_ok msg -> sound B F t (derive_and_sign a ty label msg).
Proof.
  intros H0 Ha Gl Gm. unfold derive_and_sign. cbn [sound]. split; [split; [exact (known_ok t a _ Ha)|exact Gl]|].
  intros r t1 L1. destruct (kdf_answer B F t a ty label r t1 bits H0 Ha L1) as [(b & k & -> & Hb & Hf & _ & ->)|(rc & -> & Hrc & _)].
  - destruct (new_lookup t b k Hb H0) as [N0 Nb]. set (T := (b, k) :: t) in *.
    assert (Free : forall x : option (list byte), sound B F T (Ask (CFree b) (fun _ => Stop x))).
    { intro x. cbn [sound]. split; [exact (known_ok T b k Nb)|]. now intros. }
    cbn [sound]. split; [split; [exact (known_ok T b k Nb)|split; [exact Gm|exact I]]|].
    intros r2 t2 L2. destruct (size_answer B F T b k msg r2 t2 N0 Nb L2) as (-> & rc & n & -> & _).
    destruct rc; try apply Free. cbn [sound]. split.
    + split; [exact (known_ok T b k Nb)|]. split; [exact Gm|]. cbn. rewrite len_repeat. lia.
    + intros r3 t3 L3. assert (Ht : t3 = T) by (destruct L3 as (f & _ & L3); cbn [op_of lawful] in L3; destruct r3; try contradiction; apply L3). subst t3. split; [exact (known_ok T b k Nb)|now intros].
  - destruct rc; try exact I. contradiction.
Qed.

(** Derive, sign, free: every key is freed again, whatever fails. A signature that comes out is one by the derived key; without failing calls one does. *)
Theorem C55_derive_and_sign : forall (E : Env) (M : Libc) (B : Bssl) fs As xs fuel t a ty label msg bits,
  computes_sha2 B -> signs B -> publishes B -> (forall i, allocator_ok (As i)) -> (forall i, fs i c_md_ctx_new = false) -> lookup t 0 = None -> opened B fs As xs ->
  lookup t a = Some (SecretKey bits) -> bssl_gather_ok label -> bssl_gather_ok msg ->
  (exists r, execute B fs As xs fuel 0 (heap_of t) (derive_and_sign a ty label msg) = Ret (r, heap_of t) /\
     match r with
     | Some sig => exists p, derived B bits (gather_bytes label) ty (SigningKey p) /\ signature_of B (Some (SigningKey p)) (gather_bytes msg) sig
     | None => (forall i c, fs i c = false) -> good label -> good msg -> kind_of ty = Some Secret \/ kind_of ty = None
     end) \/
  (execute B fs As xs fuel 0 (heap_of t) (derive_and_sign a ty label msg) = OutOfFuel /\ no_candidate fuel t (CKdf a ty (Some label) (Some 0))).
Proof.
  intros E M B fs As xs fuel t a ty label msg bits Hc Hs Hp Ha Hn H0 Ho Hl Gl Gm. set (F := fun f => exists i, f = fs i).
  assert (HF : forall i, F (fs i) /\ fs i c_md_ctx_new = false) by (intro i; split; [now exists i|apply Hn]).
  assert (Hrel : (forall i c, fs i c = false) -> reliably F) by (intros H f c (i & ->); apply H).
  destruct (execute_ends E M B F fs As xs _ fuel (derive_and_sign a ty label msg) Hc Hs Hp Ha HF Ho 0%nat t H0 (derive_and_sign_sound E M B F t a ty label msg bits H0 Hl Gl Gm))
    as [(r & t' & Hr & He & _)|(Hr & He)]; [left|right; split; [exact Hr|]].
  - exists r. unfold derive_and_sign in He. inversion He as [|? ? ? r1 t1 ? ? L1 E1|]; subst. clear He.
    destruct (kdf_answer B F t a ty label r1 t1 bits H0 Hl L1) as [(b & k & -> & Hb & Hf & Hd & ->)|(rc & -> & Hrc & -> & Hnone)].
    + destruct (new_lookup t b k Hb H0) as [N0 Nb]. inversion E1 as [|? ? ? r2 t2 ? ? L2 E2|]; subst. clear E1.
      assert (Hsec : is_secret k = true -> kind_of ty = Some Secret).
      { revert Hd. unfold derived. destruct (kind_of ty) as [[|[c|]]|]; [reflexivity|intros (d & _ & ->)|intros ->|contradiction]; discriminate. }
      destruct (size_answer B F _ b k msg r2 t2 N0 Nb L2) as (-> & rc & n & -> & Hi & Hnf).
      assert (Hrest : rc <> insufficient_buffer_size_e -> ends B F ((b, k) :: t) (Ask (CFree b) (fun _ => Stop (@None (list byte)))) r t' ->
        r = None /\ t' = t).
      { intros _ E3. inversion E3 as [|? ? ? r3 t3 ? ? L3 E4|]; subst. apply free_answer in L3. rewrite filter_gone in L3 by exact Hf. subst t3.
        inversion E4; subst. now split. }
      assert (Hdec : {rc = insufficient_buffer_size_e} + {rc <> insufficient_buffer_size_e}) by decide equality.
      destruct Hdec as [->|Hrc].
      * destruct (Hi eq_refl) as [Hk ->]. destruct k as [|p]; [discriminate|].
        inversion E2 as [|? ? ? r3 t3 ? ? L3 E3|]; subst. clear E2.
        destruct (sign_answer B F _ b p msg (repeat x00 (N.to_nat (signature_octets (Some (SigningKey p))))) r3 t3 N0 Nb ltac:(rewrite len_repeat; lia) L3) as (-> & rc3 & out3 & size3 & -> & S1 & S2).
        inversion E3 as [|? ? ? r4 t4 ? ? L4 E4|]; subst. clear E3. apply free_answer in L4. rewrite filter_gone in L4 by exact Hf. subst t4.
        inversion E4; subst. clear E4. split; [exact Hr|].
        assert (Hd3 : {rc3 = ok_e} + {rc3 <> ok_e}) by decide equality. destruct Hd3 as [->|H3].
        -- destruct (S1 eq_refl) as (sig & Hsig & ->). now exists p.
        -- assert (Hx : (forall i c, fs i c = false) -> good label -> good msg -> kind_of ty = Some Secret \/ kind_of ty = None)
             by (intros Hno _ Hg; elim H3; apply S2; [now apply Hrel|exact Hg]).
           destruct rc3; try exact Hx. contradiction.
      * destruct (Hrest Hrc) as [-> ->].
        { destruct rc; try exact E2. contradiction. }
        split; [exact Hr|]. intros Hno _ _. left. apply Hsec. destruct (is_secret k) eqn:Ek; [reflexivity|]. elim Hrc. apply Hnf; [now apply Hrel|reflexivity].
    + assert (E2 : ends B F t (Stop (@None (list byte))) r t') by (destruct rc; try exact E1; contradiction).
      inversion E2; subst. split; [exact Hr|]. intros Hno Hg _. right. apply Hnone; [now apply Hrel|exact Hg].
  - unfold derive_and_sign in He.
    inversion He as [? ? ? Hx|? ? ? r1 t1 L1 E1|]; subst; [exact Hx|].
    exfalso. assert (Ns : forall t c k, starves B F fuel t (Ask (R := option (list byte)) c k) -> (forall a ty g ko, c <> CKdf a ty g ko) -> exists r t1, lawfully B F t c r t1 /\ starves B F fuel t1 (k r)).
    { intros t0 c k Hx Hc0. inversion Hx as [? ? ? (? & ? & ? & ? & ? & ? & X & _)|? ? ? r0 t2 L0 E0|]; subst; [now elim (Hc0 _ _ _ _ eq_refl)|]. now exists r0, t2. }
    assert (Nf : forall t b k, ~ starves B F fuel t (Ask (CFree b) (fun r : reply => Stop (k r : option (list byte))))).
    { intros t0 b k Hx. destruct (Ns _ _ _ Hx) as (? & ? & _ & X); [discriminate|]. inversion X. }
    destruct r1 as [rc h|o|rc]; try (now inversion E1). destruct rc; try (now inversion E1). destruct h as [b|]; [|now inversion E1].
    destruct (Ns _ _ _ E1) as (r2 & t2 & _ & E2); [discriminate|]. clear E1.
    destruct r2 as [rc h|[[rc o] s]|rc]; try (now apply Nf in E2). destruct rc; try (now apply Nf in E2). destruct s as [s|]; [|now apply Nf in E2].
    destruct (Ns _ _ _ E2) as (r3 & t3 & _ & E3); [discriminate|]. now apply Nf in E3.
Qed.
Print Assumptions C55_derive_and_sign.

Lemma lookup_without (t : table) a b : lookup (filter (fun x => negb (fst x =? a)) t) b = if a =? b then None else lookup t b.
Proof. apply lookup_filter. Qed.
Lemma secret_derived (B : Bssl) bits label k : derived B bits label 4 k -> k = SecretKey (HKDF_expand SHA512 bits label 32).
Proof. intro H. exact H. Qed.
Lemma chain_step (B : Bssl) F t a label bits r t1 r2 t2 : lookup t 0 = None -> lookup t a = Some (SecretKey bits) ->
  lawfully B F t (CKdf a 4 (Some label) (Some 0)) r t1 -> lawfully B F t1 (CFree a) r2 t2 ->
  (exists b, r = RKey ok_e (Some b) /\ b <> 0 /\ lookup t2 0 = None /\ lookup t2 b = Some (SecretKey (HKDF_expand SHA512 bits (gather_bytes label) 32)) /\
     filter (fun x => negb (fst x =? b)) t2 = filter (fun x => negb (fst x =? a)) t) \/
  (exists rc, r = RKey rc (Some 0) /\ rc <> ok_e /\ t2 = filter (fun x => negb (fst x =? a)) t /\ (reliably F -> ~ good label)).
Proof.
  intros H0 Ha L1 L2. apply free_answer in L2. subst t2.
  destruct (kdf_answer B F t a 4 label r t1 bits H0 Ha L1) as [(b & k & -> & Hb & Hf & Hd & ->)|(rc & -> & Hrc & -> & Hn)]; [left|right].
  - apply secret_derived in Hd. subst k. set (k := SecretKey (HKDF_expand SHA512 bits (gather_bytes label) 32)). clearbody k.
    assert (Hba : b <> a) by congruence. exists b.
    assert (Hc : filter (fun x => negb (fst x =? a)) ((b, k) :: t) = (b, k) :: filter (fun x => negb (fst x =? a)) t).
    { cbn [filter fst]. destruct (N.eqb_spec b a); [contradiction|reflexivity]. }
    rewrite Hc. splits; try assumption; try reflexivity.
    + rewrite lookup_cons, lookup_without, H0. destruct (N.eqb_spec b 0); [contradiction|]. now destruct (a =? 0).
    + now rewrite lookup_cons, N.eqb_refl.
    + apply filter_gone. rewrite lookup_without, Hf. now destruct (a =? b).
  - exists rc. splits; try assumption; try reflexivity. intros Hno Hg. discriminate (Hn Hno Hg).
Qed.
Lemma chain_sound (E : Env) (M : Libc) (B : Bssl) F labels : Forall bssl_gather_ok labels -> forall t a bits, lookup t 0 = None -> lookup t a = Some (SecretKey bits) ->
  sound B F t (chain a labels).
Proof.
  induction 1 as [|l labels Hl _ IH]; intros t a bits H0 Ha; [exact I|]. cbn [chain sound]. split; [split; [exact (known_ok t a _ Ha)|exact Hl]|].
  intros r t1 L1. split.
  - destruct (kdf_answer B F t a 4 l r t1 bits H0 Ha L1) as [(b & k & _ & _ & Hf & _ & ->)|(rc & _ & _ & -> & _)]; [|exact (known_ok t a _ Ha)].
    apply known_ok with (SecretKey bits). rewrite lookup_cons. destruct (N.eqb_spec b a) as [->|]; [congruence|exact Ha].
  - intros r2 t2 L2. destruct (chain_step B F t a l bits r t1 r2 t2 H0 Ha L1 L2) as [(b & -> & _ & H2 & Hb & _)|(rc & -> & Hrc & _)].
    + exact (IH t2 b _ H2 Hb).
    + destruct rc; try exact I. contradiction.
Qed.
Lemma chain_ends (B : Bssl) F labels : forall t a bits r t', lookup t 0 = None -> lookup t a = Some (SecretKey bits) -> ends B F t (chain a labels) r t' ->
  match r with
  | Some b => lookup t' b = Some (SecretKey (chained bits labels)) /\ filter (fun x => negb (fst x =? b)) t' = filter (fun x => negb (fst x =? a)) t
  | None => t' = filter (fun x => negb (fst x =? a)) t /\ (reliably F -> ~ Forall good labels)
  end.
Proof.
  induction labels as [|l labels IH]; intros t a bits r t' H0 Ha He; cbn [chain] in He.
  - inversion He; subst. split; [exact Ha|reflexivity].
  - inversion He as [|? ? ? r1 t1 ? ? L1 E1|]; subst. inversion E1 as [|? ? ? r2 t2 ? ? L2 E2|]; subst. clear He E1.
    destruct (chain_step B F t a l bits r1 t1 r2 t2 H0 Ha L1 L2) as [(b & -> & _ & H2 & Hb & Hf)|(rc & -> & Hrc & -> & Hn)].
    + specialize (IH t2 b _ r t' H2 Hb E2). destruct r as [b'|].
      * rewrite <- Hf. exact IH.
      * rewrite <- Hf. destruct IH as [IH1 IH2]. split; [exact IH1|]. intros Hno Hg. inversion Hg; subst. now apply (IH2 Hno).
    + assert (E3 : ends B F (filter (fun x => negb (fst x =? a)) t) (Stop (@None N)) r t') by (destruct rc; try exact E2; contradiction).
      inversion E3; subst. split; [reflexivity|]. intros Hno Hg. inversion Hg; subst. now apply (Hn Hno).
Qed.
Lemma chain_never_starves (B : Bssl) F fuel labels : forall t a, ~ starves B F fuel t (chain a labels).
Proof.
  induction labels as [|l labels IH]; intros t a Hx; cbn [chain] in Hx; inversion Hx as [? ? ? Hn|? ? ? r t1 L1 E1|]; subst.
  - destruct Hn as (? & ? & ? & ? & ? & ? & X & Y & _). injection X as _ <- _ _. discriminate.
  - inversion E1 as [? ? ? Hn|? ? ? r2 t2 L2 E2|]; subst.
    + destruct Hn as (? & ? & ? & ? & ? & ? & X & _). discriminate.
    + destruct r as [rc [b|]|o|rc]; try (now inversion E2); destruct rc; try (now inversion E2). now apply IH in E2.
Qed.

(** A chain of secrets of any length ends. Each secret is freed once the next one is there, so that afterwards there is one key in the place of the first: the
    iterated derivation; if something fails, there is none. Without failing calls, none does. *)
Theorem C55_chain : forall (E : Env) (M : Libc) (B : Bssl) fs As xs fuel t a bits labels,
  computes_sha2 B -> signs B -> publishes B -> (forall i, allocator_ok (As i)) -> (forall i, fs i c_md_ctx_new = false) -> lookup t 0 = None -> opened B fs As xs ->
  lookup t a = Some (SecretKey bits) -> Forall bssl_gather_ok labels ->
  exists r t', execute B fs As xs fuel 0 (heap_of t) (chain a labels) = Ret (r, heap_of t') /\
    match r with
    | Some b => lookup t' b = Some (SecretKey (chained bits labels)) /\ filter (fun x => negb (fst x =? b)) t' = filter (fun x => negb (fst x =? a)) t
    | None => t' = filter (fun x => negb (fst x =? a)) t /\ ((forall i c, fs i c = false) -> ~ Forall good labels)
    end.
Proof.
  intros E M B fs As xs fuel t a bits labels Hc Hs Hp Ha Hn H0 Ho Hl Hg. set (F := fun f => exists i, f = fs i).
  assert (HF : forall i, F (fs i) /\ fs i c_md_ctx_new = false) by (intro i; split; [now exists i|apply Hn]).
  assert (Hrel : (forall i c, fs i c = false) -> reliably F) by (intros H f c (i & ->); apply H).
  destruct (execute_ends E M B F fs As xs _ fuel (chain a labels) Hc Hs Hp Ha HF Ho 0%nat t H0 (chain_sound E M B F labels Hg t a bits H0 Hl)) as [(r & t' & Hr & He & _)|(_ & Hx)].
  - exists r, t'. split; [exact Hr|]. pose proof (chain_ends B F labels t a bits r t' H0 Hl He) as H. destruct r; [exact H|]. destruct H as [H1 H2]. split; [exact H1|]. intro X. now apply H2, Hrel.
  - now apply chain_never_starves in Hx.
Qed.
Print Assumptions C55_chain.

(** ** Examples *)
#[local] Instance env64 : Env := {| size_width := W64; host_little_endian := true; stray := fun _ => x00 |}.
#[local] Instance libc : Libc := {| memcpy_null_ok := true |}.
(** The failures by step; memory from two allocators in turn. *)
Definition turns (i : nat) : Allocator := if Nat.even i then skip else bump.
Lemma turns_ok i : allocator_ok (turns i).
Proof. unfold turns. destruct (Nat.even i); [exact skip_ok|exact bump_ok]. Qed.
Definition ctx_of (fs : nat -> call -> bool) (i : nat) : crypto_context := @bssl_ctx (with_fails (fs i) (toy none_fails)) (turns i).
Lemma ctx_opened fs : opened (toy none_fails) fs turns (ctx_of fs).
Proof. intro i. reflexivity. Qed.
Definition never (i : nat) : call -> bool := none_fails.
(** Only in step [n]. *)
Definition once (n : nat) (f : call -> bool) (i : nat) : call -> bool := if Nat.eqb i n then f else none_fails.
Definition expand_fails (c : call) : bool := match c with c_hkdf_expand => true | _ => false end.
Definition signing_fails (c : call) : bool := match c with c_sign => true | _ => false end.
Definition outcome_of {R} (fs : nat -> call -> bool) (p : program R) : option (R * list N) :=
  match execute (toy none_fails) fs turns (ctx_of fs) 0 0 (heap_of table_case) p with Ret (r, h) => Some (r, map fst h) | _ => None end.
(** Two layers from the secret behind handle 4 of [table_case] (keys 3 and 4). The secret in the end is the iterated one, and key 3 is the only other one. *)
Example C55_chain_example : exists b t', execute (toy none_fails) never turns (ctx_of never) 0 0 (heap_of table_case) (chain 4 [ctx_case; ctx_case]) = Ret (Some b, heap_of t') /\
  lookup t' b = Some (SecretKey (HKDF_expand SHA512 (HKDF_expand SHA512 (bytes [6]) (bytes [1; 2; 3]) 32) (bytes [1; 2; 3]) 32)) /\
  filter (fun x => negb (fst x =? b)) t' = [(3, SigningKey (Ed25519 (bytes [5])))].
Proof.
  destruct (C55_chain env64 libc (toy none_fails) never turns (ctx_of never) 0 table_case 4 (bytes [6]) [ctx_case; ctx_case]) as (r & t' & Hr & H);
    try exact (toy_sha2 _); try exact (toy_signs _); try exact (toy_publishes _); try exact turns_ok; try exact (ctx_opened _); try reflexivity.
  { repeat (apply Forall_cons; [exact ctx_case_ok|]). apply Forall_nil. }
  assert (Hb : gather_bytes ctx_case = bytes [1; 2; 3]) by (vm_compute; reflexivity).
  destruct r as [b|].
  - exists b, t'. split; [exact Hr|]. destruct H as [H Hf]. split; [|exact Hf]. rewrite H. unfold chained. cbn [fold_left]. rewrite Hb. generalize (HKDF_expand SHA512). reflexivity.
  - destruct H as [_ H]. elim H; [intros; reflexivity|]. repeat (apply Forall_cons; [split; reflexivity|]). apply Forall_nil.
Qed.
(** When the derivation fails, and for a label without its list, the secret is gone all the same. *)
Example C55_chain_case :
  outcome_of (once 0 expand_fails) (chain 4 [ctx_case; ctx_case]) = Some (None, [3]) /\ outcome_of (once 2 expand_fails) (chain 4 [ctx_case; ctx_case]) = Some (None, [3]) /\
  outcome_of never (chain 4 [mkGather 1 None; ctx_case]) = Some (None, [3]) /\
  bssl_gather_ok (mkGather 1 None) /\ ~ good (mkGather 1 None).
Proof. splits; [reflexivity|lazy; reflexivity|reflexivity|now right|]. now intros [? _]. Qed.
(** An Ed25519 key signs and is gone; when signing fails it is gone, too; a secret cannot sign. *)
Example C55_sign_example : exists sig, execute (toy none_fails) never turns (ctx_of never) 0 0 (heap_of table_case) (derive_and_sign 4 3 ctx_case ctx_case) =
    Ret (Some sig, heap_of table_case) /\
  signature_of (toy none_fails) (Some (SigningKey (Ed25519 (HKDF_expand SHA512 (bytes [6]) (bytes [1; 2; 3]) 32)))) (bytes [1; 2; 3]) sig.
Proof.
  assert (Hb : gather_bytes ctx_case = bytes [1; 2; 3]) by (vm_compute; reflexivity).
  destruct (C55_derive_and_sign env64 libc (toy none_fails) never turns (ctx_of never) 0 table_case 4 3 ctx_case ctx_case (bytes [6])) as [(r & Hr & H)|(_ & Hx)];
    try exact (toy_sha2 _); try exact (toy_signs _); try exact (toy_publishes _); try exact turns_ok; try exact (ctx_opened _); try exact ctx_case_ok; try reflexivity.
  - destruct r as [sig|].
    + exists sig. split; [exact Hr|]. destruct H as (p & Hd & Hs). rewrite Hb in Hd, Hs. change (SigningKey p = SigningKey (Ed25519 (HKDF_expand SHA512 (bytes [6]) (bytes [1; 2; 3]) 32))) in Hd.
      rewrite Hd in Hs. exact Hs.
    + exfalso. destruct H as [H|H]; [intros; reflexivity|split; reflexivity|split; reflexivity|discriminate|discriminate].
  - exfalso. destruct Hx as (? & ? & ? & ? & ? & ? & X & Y & _). injection X as _ <- _ _. discriminate.
Qed.
Example C55_sign_case :
  outcome_of (once 2 signing_fails) (derive_and_sign 4 3 ctx_case ctx_case) = Some (None, [3; 4]) /\
  outcome_of never (derive_and_sign 4 4 ctx_case ctx_case) = Some (None, [3; 4]) /\
  outcome_of never (derive_and_sign 4 9 ctx_case ctx_case) = Some (None, [3; 4]).
Proof. splits; lazy; reflexivity. Qed.
(** A program with a digest in between: it is the label. *)
Definition digest_label (a : N) : program (option N) :=
  Use (Digest sha2_256_e (Some abc) 1 (Some (repeat x00 32)) (Some 32) (fun r => Done [r])) (fun l =>
    match l with
    | [(ok_e, Some d, Some n)] => chain a [mkGather 1 (Some [mkSlice n (Some d)])]
    | _ => Stop None
    end).
Example C55_digest_sound : forall F, sound (toy none_fails) F table_case (digest_label 4).
Proof.
  intro F. cbn [digest_label sound careful]. split; [split; [apply digest_preb_ok; vm_compute; reflexivity|now intros]|].
  intros r Hy. inversion Hy as [|? ? ? ? ? ? a ? Ha Hk| | | |]; subst. inversion Hk; subst. clear Hy Hk. destruct Ha as [->|(_ & e & He & ->)].
  - unfold digest_report, report. replace (first_error _) with ok_e by (vm_compute; reflexivity). cbv iota.
    apply (chain_sound env64 libc) with (bits := bytes [6]); try reflexivity. apply Forall_cons; [left|apply Forall_nil].
    change (required sha2_256_e) with 32. set (d := _ ++ _). assert (Hd : len d = 32).
    { unfold d, result. change (algorithm sha2_256_e) with (Some SHA256). cbv iota. rewrite len_app, hash_len by (reflexivity || discriminate). reflexivity. }
    clearbody d. split; [apply N.le_refl|]. apply Forall_cons; [|apply Forall_nil]. unfold slice_ok. cbn [sl_size sl_buf]. rewrite Hd. split; [vm_compute; reflexivity|apply N.le_refl].
  - destruct e; try exact I. destruct He; discriminate.
Qed.
