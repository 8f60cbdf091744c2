(** Proofs about the stream model. *)
From Coq Require Import List NArith ZArith Bool Lia Strings.Byte.
From Coq Require Import ZifyBool ZifyNat ZifyN.
From Verif Require Import Base BaseFacts Stream SpecStream.
Import ListNotations.
Open Scope N_scope.

Section WithEnv.
Context `{E : Env}.

Lemma load_exact d n : n <= len d -> load d n = takeN n d.
Proof.
  intro. unfold load. replace (N.to_nat (n - len d)) with 0%nat by lia. cbn. apply app_nil_r.
Qed.
Lemma load_ub_exact d n : n <= len d -> load_ub d n = [].
Proof. intro. unfold load_ub. destruct (N.leb_spec n (len d)); [reflexivity|lia]. Qed.

Lemma shows_init buf size : buffer_ok buf size -> shows (n20_stream_init buf size) buf size [].
Proof.
  intros [Hsz Hb]. pose proof SZ_pos. unfold shows, n20_stream_init; cbn.
  change (len (@nil byte)) with 0. rewrite N.mod_0_l by lia.
  repeat split.
  - destruct (N.leb_spec SZ 0); [lia|reflexivity].
  - destruct buf; [|reflexivity]. destruct (N.ltb_spec size 0); [lia|reflexivity].
  - destruct buf as [m|]; [|reflexivity]. exists [], []. rewrite len_nil.
    repeat split; [lia|]. rewrite N.sub_0_r. cbn. now rewrite takeN_dropN.
Qed.

(** The refinement step: one prepend. *)
Lemma prepend_shows s u buf size out d n :
  buffer_ok buf size -> shows s buf size out -> n <= len d -> n < SZ ->
  exists s',
    n20_stream_prepend (Some d) n (mkWorld (Some s) u) = mkWorld (Some s') u /\
    shows s' buf size (takeN n d ++ out).
Proof.
  intros [Hsz Hb] (Hc & Hwp & Hbo & Hs & Hm) Hd Hn.
  pose proof SZ_pos as HP. cbn in Hc, Hwp, Hbo.
  unfold n20_stream_prepend. cbn [w_stream w_ub].
  set (out' := takeN n d ++ out).
  assert (HL : len out' = n + len out) by (unfold out'; lens; lia).
  assert (Hwp' : wrap_sz (s_wp s + n) = len out' mod SZ).
  { unfold wrap_sz. rewrite Hc, HL, N.add_mod_idemp_l by lia. f_equal. lia. }
  assert (Hwpo' : s_wpo s || (wrap_sz (s_wp s + n) <? s_wp s) = (SZ <=? len out')).
  { rewrite Hwp', Hwp, Hc, HL.
    destruct (N.leb_spec SZ (len out)).
    - cbn. symmetry. apply N.leb_le. lia.
    - cbn. rewrite (N.mod_small (len out)) by lia.
      destruct (N.leb_spec SZ (n + len out)).
      + apply N.ltb_lt.
        replace (n + len out) with ((n + len out - SZ) + 1 * SZ) by lia.
        rewrite N.mod_add, N.mod_small by lia. lia.
      + apply N.ltb_ge. rewrite N.mod_small by lia. lia. }
  assert (Hbo' : (SZ <=? len out') || s_bo s || (s_size s <? len out' mod SZ)
                 = match buf with None => true | Some _ => size <? len out' end).
  { rewrite Hbo, Hs. destruct buf as [m|]; [|now rewrite orb_true_r].
    destruct (N.leb_spec SZ (len out')).
    - cbn. symmetry. apply N.ltb_lt. lia.
    - rewrite (N.mod_small (len out')) by lia. cbn.
      destruct (N.ltb_spec size (len out)); destruct (N.ltb_spec size (len out')); cbn; lia. }
  rewrite Hwpo', Hwp', Hbo'.
  destruct buf as [m|].
  - destruct Hm as (lost & kept & Hout & Hk & Hl & Hmem).
    destruct (N.ltb_spec size (len out')) as [Hov|Hfit].
    + eexists. split; [reflexivity|]. unfold shows; cbn.
      repeat split; try assumption.
      * symmetry. now apply N.ltb_lt.
      * exists (takeN n d ++ lost), kept. repeat split; try assumption.
        -- unfold out'. now rewrite Hout, app_assoc.
        -- intro. lia.
    + rewrite Hs, Hmem. cbn [memcpy_into].
      replace (sub_sz size (len out' mod SZ)) with (size - len out')
        by (rewrite N.mod_small, sub_sz_le by lia; reflexivity).
      rewrite (Hl ltac:(lia)) in *. cbn in Hout. subst kept.
      assert (Hlm : len (takeN (size - len out) m ++ out ++ dropN size m) = len m) by (lens; lia).
      rewrite Hlm.
      destruct (N.leb_spec (size - len out' + n) (len m)); [|lia].
      rewrite load_exact, load_ub_exact by assumption. cbn [app].
      eexists. split; [reflexivity|]. unfold shows; cbn.
      repeat split; try assumption.
      * symmetry. apply N.ltb_ge. lia.
      * exists [], out'. repeat split; [lia|].
        f_equal. rewrite takeN_app_l by (lens; lia). rewrite takeN_takeN.
        rewrite N.min_l by lia. f_equal. unfold out'. rewrite <- !app_assoc. f_equal.
        rewrite dropN_app_r by (lens; lia). lens.
        match goal with |- context [dropN ?k (out ++ _)] => replace k with 0 by lia end.
        reflexivity.
  - eexists. split; [reflexivity|]. unfold shows; cbn. now repeat split.
Qed.

(** ** Composition of renderers *)

Lemma renders_weaken (P Q : ub -> Prop) f b :
  (forall u, P u -> Q u) -> renders P f b -> renders Q f b.
Proof.
  intros HPQ [H1 H2]. split.
  - intro u. destruct (H1 u) as (v & ? & ? & ?). exists v. splits; try assumption.
    eapply Forall_impl; eassumption.
  - intros s u buf size out Hb Hs. destruct (H2 s u buf size out Hb Hs) as (s' & v & ? & ? & ? & ?).
    exists s', v. splits; try assumption. eapply Forall_impl; eassumption.
Qed.

Lemma renders_clean P f b : renders clean f b -> renders P f b.
Proof. apply renders_weaken. intros u []. Qed.

Lemma renders_skip P : renders P skip [].
Proof.
  split.
  - intro u. exists []. splits; auto.
  - intros s u buf size out Hb Hs. exists s, []. splits; auto.
Qed.

Lemma renders_log (P : ub -> Prop) u : Forall P u -> renders P (log u) [].
Proof.
  intro Hu. split.
  - intro v. exists u. splits; auto.
  - intros s v buf size out Hb Hs. exists s, u. splits; auto.
Qed.

Lemma world_eta w : mkWorld (w_stream w) (w_ub w) = w.
Proof. now destruct w. Qed.

Lemma renders_seq P f g a b :
  renders P f a -> renders P g b -> renders P (andthen f g) (b ++ a).
Proof.
  intros [F1 F2] [G1 G2]. split.
  - intro u. unfold andthen. destruct (F1 u) as (v & Hv & Hu & Hf).
    destruct (G1 (v ++ u)) as (v' & Hv' & Hu' & Hf').
    rewrite <- (world_eta (f (mkWorld None u))), Hv, Hu.
    exists (v' ++ v). splits; [assumption| |].
    + now rewrite Hu', app_assoc.
    + now apply Forall_len_app.
  - intros s u buf size out Hb Hs. unfold andthen.
    destruct (F2 s u buf size out Hb Hs) as (s1 & v & Hv & Hsh & Hu & Hf).
    destruct (G2 s1 (v ++ u) buf size (a ++ out) Hb Hsh) as (s2 & v' & Hv' & Hsh' & Hu' & Hf').
    rewrite <- (world_eta (f (mkWorld (Some s) u))), Hv, Hu.
    exists s2, (v' ++ v). splits; [assumption| | |].
    + now rewrite <- app_assoc.
    + now rewrite Hu', app_assoc.
    + now apply Forall_len_app.
Qed.

Lemma renders_when P (c : bool) f b :
  (c = true -> renders P f b) -> renders P (when c f) (if c then b else []).
Proof. destruct c; cbn; intro; [auto|apply renders_skip]. Qed.

Lemma renders_prepend P d n :
  n <= len d -> n < SZ -> renders P (n20_stream_prepend (Some d) n) (takeN n d).
Proof.
  intros Hd Hn. split.
  - intro u. exists []. splits; auto.
  - intros s u buf size out Hb Hs.
    destruct (prepend_shows s u buf size out d n Hb Hs Hd Hn) as (s' & Hp & Hs').
    exists s', []. rewrite Hp. splits; auto.
Qed.

Lemma renders_prepend_all P d : len d < SZ -> renders P (n20_stream_prepend (Some d) (len d)) d.
Proof.
  intro. rewrite <- (takeN_len d) at 3. apply renders_prepend; [lia|assumption].
Qed.

Lemma renders_byte P c : renders P (n20_stream_prepend (Some [c]) 1) [c].
Proof. apply (renders_prepend_all P [c]). pose proof SZ_lo. lens. lia. Qed.

(** The length idiom passes the number of bytes written by [f] (modulo size_t). *)
Lemma renders_with_length P f g a b :
  renders P f a -> renders P (g (len a mod SZ)) b -> (forall n, n < SZ -> exists b', renders P (g n) b') ->
  renders P (with_length f g) (b ++ a).
Proof.
  intros [F1 F2] [G1 G2] Gall. split.
  - intro u. unfold with_length. cbn [w_stream n20_stream_byte_count].
    destruct (F1 u) as (v & Hv & Hu & Hf).
    rewrite Hv. cbn [n20_stream_byte_count].
    destruct (Gall (sub_sz 0 0)) as (b' & G1' & _).
    { unfold sub_sz. apply N.mod_lt. pose proof SZ_pos. lia. }
    destruct (G1' (v ++ u)) as (v' & Hv' & Hu' & Hf').
    rewrite <- (world_eta (f (mkWorld None u))), Hv, Hu.
    exists (v' ++ v). splits; [assumption| |].
    + now rewrite Hu', app_assoc.
    + now apply Forall_len_app.
  - intros s u buf size out Hb Hs. unfold with_length. cbn [w_stream].
    destruct (F2 s u buf size out Hb Hs) as (s1 & v & Hv & Hsh & Hu & Hf).
    rewrite Hv.
    assert (Hlen : sub_sz (n20_stream_byte_count (Some s1)) (n20_stream_byte_count (Some s)) = len a mod SZ).
    { destruct Hs as [-> _]. destruct Hsh as [-> _]. rewrite len_app. apply sub_sz_mod. }
    rewrite Hlen.
    destruct (G2 s1 (v ++ u) buf size (a ++ out) Hb Hsh) as (s2 & v' & Hv' & Hsh' & Hu' & Hf').
    rewrite <- (world_eta (f (mkWorld (Some s) u))), Hv, Hu.
    exists s2, (v' ++ v). splits; [assumption| | |].
    + now rewrite <- app_assoc.
    + now rewrite Hu', app_assoc.
    + now apply Forall_len_app.
Qed.

Lemma renders_ext P f g b : (forall w, f w = g w) -> renders P f b -> renders P g b.
Proof.
  intros Hfg [H1 H2]. split.
  - intro u. rewrite <- Hfg. apply H1.
  - intros. rewrite <- Hfg. now apply H2.
Qed.

(** The bytes a renderer produces are determined. *)
Lemma renders_det P Q f a b : len a < SZ -> renders P f a -> renders Q f b -> a = b.
Proof.
  intros HL [_ Ha] [_ Hb].
  assert (Hok : buffer_ok (Some a) (len a)) by (split; [assumption|cbn; lia]).
  pose proof (shows_init _ _ Hok) as H0.
  destruct (Ha _ [] _ _ _ Hok H0) as (s1 & v1 & E1 & S1 & _).
  destruct (Hb _ [] _ _ _ Hok H0) as (s2 & v2 & E2 & S2 & _).
  rewrite E1 in E2. injection E2 as <-.
  rewrite !app_nil_r in S1, S2.
  destruct S1 as (C1 & W1 & B1 & _ & l1 & k1 & O1 & L1 & F1 & M1).
  destruct S2 as (C2 & W2 & B2 & _ & l2 & k2 & O2 & L2 & F2 & M2).
  rewrite B1 in B2.
  assert (len b <= len a) by lia.
  rewrite C1, !N.mod_small in C2 by lia.
  rewrite (F1 ltac:(lia)) in O1. rewrite (F2 ltac:(lia)) in O2. cbn in O1, O2. subst k1 k2.
  rewrite M1 in M2. injection M2 as M2.
  replace (len a - len b) with (len a - len a) in M2 by lia.
  apply app_inv_head in M2. now apply app_inv_tail in M2.
Qed.

End WithEnv.
