(** Proofs about histories of stream calls. *)
From Coq Require Import List NArith ZArith Bool Lia Strings.Byte.
From Coq Require Import ZifyBool ZifyNat ZifyN.
From Verif Require Import Base BaseFacts Stream SpecStream StreamProofs.
Import ListNotations.
Open Scope N_scope.

Section WithEnv.
Context `{E : Env}.

Lemma exec_op_shows o s u buf size out :
  op_ok o -> buffer_ok buf size -> shows s buf size out ->
  exists s', exec_op o (mkWorld (Some s) u) = mkWorld (Some s') u /\ shows s' buf size (op_bytes o ++ out).
Proof.
  intros Ho Hb Hs. destruct o as [src n|c]; cbn in *.
  - destruct Ho. now apply prepend_shows.
  - unfold n20_stream_put. apply (prepend_shows s u buf size out [c] 1); try assumption.
    + cbn. lens. lia.
    + pose proof SZ_lo. lia.
Qed.

Lemma written_app a b : written (a ++ b) = written b ++ written a.
Proof. unfold written. now rewrite rev_app_distr, map_app, concat_app. Qed.

Lemma exec_ops_shows ops : forall s u buf size out,
  Forall op_ok ops -> buffer_ok buf size -> shows s buf size out ->
  exists s', exec_ops ops (mkWorld (Some s) u) = mkWorld (Some s') u /\ shows s' buf size (written ops ++ out).
Proof.
  induction ops as [|o ops IH]; intros s u buf size out Ho Hb Hs.
  - exists s. split; [reflexivity|assumption].
  - inversion Ho; subst.
    destruct (exec_op_shows o s u buf size out) as (s1 & E1 & S1); try assumption.
    change (exec_ops (o :: ops) (mkWorld (Some s) u)) with (exec_ops ops (exec_op o (mkWorld (Some s) u))).
    rewrite E1. destruct (IH s1 u buf size _ H2 Hb S1) as (s2 & E2 & S2).
    exists s2. split; [assumption|].
    replace (written (o :: ops)) with (written ops ++ op_bytes o); [now rewrite <- app_assoc|].
    change (o :: ops) with ([o] ++ ops). rewrite written_app. f_equal.
    unfold written. cbn. now rewrite app_nil_r.
Qed.

Lemma run_shows buf size ops :
  buffer_ok buf size -> Forall op_ok ops ->
  exists s, run buf size ops = mkWorld (Some s) [] /\ shows s buf size (written ops).
Proof.
  intros Hb Ho. unfold run.
  destruct (exec_ops_shows ops _ [] buf size [] Ho Hb (shows_init _ _ Hb)) as (s & E1 & S1).
  rewrite app_nil_r in S1. eauto.
Qed.

Lemma null_stream_ops ops u : exec_ops ops (mkWorld None u) = mkWorld None u.
Proof.
  induction ops as [|o ops IH]; [reflexivity|]. cbn.
  replace (exec_op o (mkWorld None u)) with (mkWorld None u) by (destruct o; reflexivity). exact IH.
Qed.

(** ** C01 *)
Lemma run_confined m size ops :
  size < SZ -> size <= len m -> Forall op_ok ops ->
  exists s m',
    run (Some m) size ops = mkWorld (Some s) [] /\ s_begin s = Some m' /\ len m' = len m /\
    dropN size m' = dropN size m /\
    takeN (size - len (written ops)) m' = takeN (size - len (written ops)) m.
Proof.
  intros Hs Hm Ho.
  destruct (run_shows (Some m) size ops) as (s & E1 & _ & _ & _ & _ & lost & kept & Hout & Hk & Hl & Hmem);
    [split; assumption|assumption|].
  exists s. eexists. splits; [eassumption|eassumption| | |].
  - lens. lia.
  - rewrite dropN_app_r by (lens; lia). lens.
    rewrite dropN_app_r by (lens; lia). lens.
    match goal with |- dropN ?k _ = _ => replace k with 0 by lia end. reflexivity.
  - assert (len kept <= len (written ops)) by (rewrite Hout; lens; lia).
    rewrite takeN_app_l by (lens; lia). rewrite takeN_takeN. f_equal. lia.
Qed.

(** ** C04 *)
Lemma run_contents buf size ops s :
  buffer_ok buf size -> Forall op_ok ops ->
  w_stream (run buf size ops) = Some s ->
  n20_stream_has_buffer_overflow (Some s) = false ->
  stream_contents s = written ops /\
  exists m, buf = Some m /\
    s_begin s = Some (takeN (size - len (written ops)) m ++ written ops ++ dropN size m).
Proof.
  intros Hb Ho Hr Hf.
  destruct (run_shows buf size ops Hb Ho) as (s' & E1 & HS).
  rewrite E1 in Hr. injection Hr as ->.
  destruct HS as (Hc & Hw & Hbo & Hsz & Hm).
  destruct buf as [m|]; [|congruence].
  destruct Hb as [Hsz' Hlm].
  destruct Hm as (lost & kept & Hout & Hk & Hl & Hmem).
  rewrite Hf in Hbo. symmetry in Hbo. apply N.ltb_ge in Hbo. rename Hbo into Hfit.
  rewrite (Hl Hfit) in Hout. cbn in Hout. subst kept.
  split; [|eauto].
  cbn in Hc, Hlm.
  assert (Hwp : s_wp s = len (written ops)) by (rewrite Hc; apply N.mod_small; lia).
  unfold stream_contents, n20_stream_data, n20_stream_byte_count. rewrite Hmem, Hsz, Hwp, sub_sz_le by lia.
  rewrite dropN_app_r by (lens; lia). lens.
  match goal with |- takeN _ (dropN ?k _) = _ => replace k with 0 by lia end.
  rewrite dropN_0. apply takeN_app_len.
Qed.

Lemma run_suffix m size ops s :
  size < SZ -> size <= len m -> Forall op_ok ops ->
  w_stream (run (Some m) size ops) = Some s ->
  exists lost kept,
    written ops = lost ++ kept /\ len kept <= size /\
    s_begin s = Some (takeN (size - len kept) m ++ kept ++ dropN size m).
Proof.
  intros Hs Hm Ho Hr.
  destruct (run_shows (Some m) size ops) as (s' & E1 & _ & _ & _ & _ & lost & kept & Hout & Hk & Hl & Hmem);
    [split; assumption|assumption|].
  rewrite E1 in Hr. injection Hr as ->. eauto.
Qed.

Lemma exec_op_keeps_overflowed o s u :
  s_bo s = true ->
  exists s', exec_op o (mkWorld (Some s) u) = mkWorld (Some s') u /\ s_bo s' = true /\ s_begin s' = s_begin s
             /\ (s_wpo s = true -> s_wpo s' = true).
Proof.
  intro Hbo. destruct o as [src n|c]; unfold exec_op, n20_stream_put, n20_stream_prepend; cbn [w_stream w_ub];
    rewrite Hbo, orb_true_r, orb_true_l; (eexists; splits; [reflexivity|reflexivity|reflexivity|cbn; now intros ->]).
Qed.

Lemma exec_ops_keeps_overflowed ops : forall s u,
  s_bo s = true ->
  exists s', exec_ops ops (mkWorld (Some s) u) = mkWorld (Some s') u /\ s_bo s' = true /\ s_begin s' = s_begin s
             /\ (s_wpo s = true -> s_wpo s' = true).
Proof.
  induction ops as [|o ops IH]; intros s u Hb.
  - exists s. splits; auto.
  - change (exec_ops (o :: ops) (mkWorld (Some s) u)) with (exec_ops ops (exec_op o (mkWorld (Some s) u))).
    destruct (exec_op_keeps_overflowed o s u Hb) as (s1 & E1 & B1 & M1 & P1). rewrite E1.
    destruct (IH s1 u B1) as (s2 & E2 & B2 & M2 & P2). exists s2. splits; auto. congruence.
Qed.

(** Bytes once written stay: the last [size - off] bytes of the window, where [off] is the current data offset. *)
Lemma exec_ops_preserves m size ops1 ops2 s1 s2 m1 m2 :
  size < SZ -> size <= len m -> Forall op_ok ops1 -> Forall op_ok ops2 ->
  w_stream (run (Some m) size ops1) = Some s1 ->
  w_stream (run (Some m) size (ops1 ++ ops2)) = Some s2 ->
  s_begin s1 = Some m1 -> s_begin s2 = Some m2 ->
  (n20_stream_has_buffer_overflow (Some s1) = true -> m2 = m1) /\
  (n20_stream_has_buffer_overflow (Some s1) = false ->
     dropN (size - len (written ops1)) m2 = dropN (size - len (written ops1)) m1).
Proof.
  intros Hs Hm Ho1 Ho2 R1 R2 M1 M2.
  assert (Hbok : buffer_ok (Some m) size) by (split; assumption).
  destruct (run_shows (Some m) size ops1 Hbok Ho1) as (s & E1 & S1).
  rewrite E1 in R1. injection R1 as ->.
  assert (HR : run (Some m) size (ops1 ++ ops2) = exec_ops ops2 (mkWorld (Some s1) [])).
  { unfold run, exec_ops. rewrite fold_left_app. f_equal. exact E1. }
  split.
  - intro Hbo. destruct (exec_ops_keeps_overflowed ops2 s1 [] Hbo) as (s' & E2 & B2 & Mm & _).
    rewrite HR, E2 in R2. cbn in R2. injection R2 as ->. congruence.
  - intro Hbo. rewrite HR in R2. clear HR E1.
    revert s1 m1 S1 M1 R2 Hbo. 
    assert (G : forall s1 m1 out, shows s1 (Some m) size out -> s_begin s1 = Some m1 ->
      w_stream (exec_ops ops2 (mkWorld (Some s1) [])) = Some s2 -> s_bo s1 = false ->
      dropN (size - len out) m2 = dropN (size - len out) m1); [|eauto].
    revert M2. induction Ho2 as [|o ops2 Ho Ho2 IH]; intros M2 s1 m1 out S1 M1 R2 Hbo.
    + cbn in R2. injection R2 as ->. congruence.
    + change (w_stream (exec_ops ops2 (exec_op o (mkWorld (Some s1) []))) = Some s2) in R2.
      destruct (exec_op_shows o s1 [] (Some m) size out Ho Hbok S1) as (s' & E' & S').
      rewrite E' in R2.
      destruct S1 as (C1 & W1 & B1 & Z1 & l1 & k1 & O1 & K1 & F1 & N1).
      change (s_bo s1 = (size <? len out)) in B1. rewrite Hbo in B1. symmetry in B1.
      pose proof (proj1 (N.ltb_ge _ _) B1) as Hfit.
      rewrite (F1 Hfit) in O1. cbn in O1. subst k1.
      rewrite N1 in M1. injection M1 as <-.
      destruct (s_bo s') eqn:Hbo'.
      * destruct (exec_ops_keeps_overflowed ops2 s' [] Hbo') as (s'' & E2 & B2 & Mm & _).
        rewrite E2 in R2. injection R2 as ->.
        assert (Hsame : s_begin s' = s_begin s1).
        { destruct o as [src n|c]; unfold exec_op, n20_stream_put, n20_stream_prepend in E';
            cbn [w_stream w_ub] in E';
            match type of E' with (if ?b then _ else _) = _ => destruct b eqn:EB end;
            try (injection E' as <-; reflexivity);
            destruct memcpy_into in E'; injection E' as <-; cbn in Hbo'; congruence. }
        rewrite Mm, Hsame, N1 in M2. injection M2 as <-. reflexivity.
      * destruct (s_begin s') as [m'|] eqn:Em'.
        2:{ destruct S' as (_ & _ & _ & _ & l' & k' & _ & _ & _ & N'). congruence. }
        specialize (IH M2 s' m' (op_bytes o ++ out) S' Em' R2 Hbo').
        destruct S' as (C' & W' & B' & Z' & l' & k' & O' & K' & F' & N').
        change (s_bo s' = (size <? len (op_bytes o ++ out))) in B'. rewrite Hbo' in B'. symmetry in B'.
        pose proof (proj1 (N.ltb_ge _ _) B') as Hfit'.
        rewrite (F' Hfit') in O'. cbn in O'. subst k'.
        rewrite N' in Em'. injection Em' as <-.
        rewrite len_app in *.
        replace (size - len out) with (len (op_bytes o) + (size - (len (op_bytes o) + len out))) by lia.
        rewrite <- (dropN_dropN _ _ m2), IH, dropN_dropN.
        replace (len (op_bytes o) + (size - (len (op_bytes o) + len out))) with (size - len out) by lia.
        assert (Hm' : size <= len m) by assumption. clear - Hm' Hfit Hfit'.
        rewrite <- app_assoc.
        rewrite (dropN_app_r _ (takeN (size - (len (op_bytes o) + len out)) m)) by (lens; lia).
        rewrite (dropN_app_r _ (takeN (size - len out) m)) by (lens; lia).
        lens.
        match goal with |- dropN ?a _ = dropN ?b _ => replace a with (len (op_bytes o)) by lia; replace b with 0 by lia end.
        rewrite dropN_app_len. reflexivity.
Qed.

(** ** C03 *)
Lemma run_flags buf size ops :
  buffer_ok buf size -> Forall op_ok ops ->
  exists s, w_stream (run buf size ops) = Some s /\
    (n20_stream_has_buffer_overflow (Some s) = true <-> buf = None \/ size < len (written ops)) /\
    (n20_stream_has_write_position_overflow (Some s) = true <-> SZ <= len (written ops)).
Proof.
  intros Hb Ho. destruct (run_shows buf size ops Hb Ho) as (s & E1 & Hc & Hw & Hbo & _).
  exists s. rewrite E1, Hw, Hbo. splits; [reflexivity| |apply N.leb_le].
  destruct buf; [|intuition congruence]. rewrite N.ltb_lt. intuition congruence.
Qed.

Lemma flags_sticky ops s u :
  exists s', w_stream (exec_ops ops (mkWorld (Some s) u)) = Some s' /\
    (n20_stream_has_buffer_overflow (Some s) = true -> n20_stream_has_buffer_overflow (Some s') = true) /\
    (n20_stream_has_write_position_overflow (Some s) = true ->
     n20_stream_has_write_position_overflow (Some s') = true).
Proof.
  revert s u. induction ops as [|o ops IH]; intros s u.
  - exists s. splits; auto.
  - cbn [exec_ops fold_left].
    assert (exists s1 u1, exec_op o (mkWorld (Some s) u) = mkWorld (Some s1) u1 /\
      (s_bo s = true -> s_bo s1 = true) /\ (s_wpo s = true -> s_wpo s1 = true)) as (s1 & u1 & E1 & B1 & W1).
    { destruct o as [src n|c]; unfold exec_op, n20_stream_put, n20_stream_prepend; cbn [w_stream w_ub];
        (match goal with |- context [if ?b then _ else _] => destruct b eqn:EB end;
         [|destruct memcpy_into]);
        (do 2 eexists; splits; [reflexivity| |]; cbn [s_bo s_wpo]; intro HH; rewrite HH in *;
         rewrite ?orb_true_r, ?orb_true_l in *; congruence). }
    rewrite E1. destruct (IH s1 u1) as (s2 & E2 & B2 & W2). exists s2. splits; cbn in *; auto.
Qed.

Lemma run_wpo_implies_bo buf size ops s :
  buffer_ok buf size -> Forall op_ok ops -> w_stream (run buf size ops) = Some s ->
  n20_stream_has_write_position_overflow (Some s) = true -> n20_stream_has_buffer_overflow (Some s) = true.
Proof.
  intros Hb Ho Hr Hw. destruct (run_flags buf size ops Hb Ho) as (s' & E1 & B1 & W1).
  rewrite E1 in Hr. injection Hr as ->. apply B1. apply W1 in Hw. destruct Hb. destruct buf; [right; lia|now left].
Qed.

Lemma run_count buf size ops :
  buffer_ok buf size -> Forall op_ok ops ->
  n20_stream_byte_count (w_stream (run buf size ops)) = len (written ops) mod SZ.
Proof.
  intros Hb Ho. destruct (run_shows buf size ops Hb Ho) as (s & E1 & Hc & _). now rewrite E1.
Qed.

End WithEnv.
