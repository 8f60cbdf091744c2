(** C43: the conversion of a DER signature, whatever bytes are in the buffer. *)
From Coq Require Import List Arith NArith Bool Lia Strings.Byte.
From Verif Require Import Base BaseFacts Res BsslKeys KeyProofs.
Import ListNotations.
Open Scope N_scope.

(** An integer of [size] bytes without the leading zero byte that DER puts in front of a number as wide as the field. *)
Definition significant (n size : N) : N := if size =? n + 1 then n else size.
(** The two lengths the code finds, and whether the integers lie inside of the buffer. *)
Definition lengths (buf : list byte) (r_size s_size : N) : Prop :=
  (exists b, nth_error buf 3 = Some b /\ b2n b = r_size) /\ (exists b, nth_error buf (N.to_nat (5 + r_size)) = Some b /\ b2n b = s_size).

Lemma nth_error_len {A} (l : list A) i x : nth_error l (N.to_nat i) = Some x -> i < len l.
Proof. intros H. assert (Hn : nth_error l (N.to_nat i) <> None) by congruence. apply nth_error_Some in Hn. unfold len. lia. Qed.
Lemma nth_takeN {A} n (l : list A) i d : i < n -> nth (N.to_nat i) (takeN n l) d = nth (N.to_nat i) l d.
Proof.
  intros H. unfold takeN. rewrite <- (firstn_skipn (N.to_nat n) l) at 2. destruct (Nat.lt_ge_cases (N.to_nat i) (length (firstn (N.to_nat n) l))) as [Hl|Hl].
  - now rewrite app_nth1.
  - rewrite (nth_overflow _ _ Hl). rewrite firstn_length in Hl. symmetry. rewrite firstn_skipn. apply nth_overflow. lia.
Qed.
Lemma nth_dropN {A} n (l : list A) i d : nth (N.to_nat i) (dropN n l) d = nth (N.to_nat (n + i)) l d.
Proof.
  unfold dropN. rewrite N2Nat.inj_add. generalize (N.to_nat n) as k. intros k. revert l. induction k as [|k IH]; intros l; [reflexivity|].
  destruct l; [now destruct (N.to_nat i)|]. apply IH.
Qed.
(** What a copy leaves at each place. *)
Lemma nth_write a off src b i : write_at a off src = Ret b ->
  off + len src <= len a /\ len b = len a /\
  nth (N.to_nat i) b x00 = if (off <=? i) && (i <? off + len src) then nth (N.to_nat (i - off)) src x00 else nth (N.to_nat i) a x00.
Proof.
  unfold write_at. destruct (N.leb_spec (off + len src) (len a)) as [Hl|]; [|discriminate]. intros H. injection H as <-.
  assert (HT : len (takeN off a) = off) by (rewrite len_takeN; lia). split; [exact Hl|]. split; [rewrite !len_app, HT, len_dropN; lia|].
  destruct (N.leb_spec off i); cbn [andb].
  - rewrite app_nth2 by (unfold len in HT; lia).
    replace (N.to_nat i - length (takeN off a))%nat with (N.to_nat (i - off)) by (unfold len in HT; lia).
    destruct (N.ltb_spec i (off + len src)).
    + apply app_nth1. unfold len in *. lia.
    + rewrite app_nth2 by (unfold len in *; lia). replace (N.to_nat (i - off) - length src)%nat with (N.to_nat (i - off - len src)) by (unfold len; lia).
      rewrite nth_dropN. f_equal. lia.
  - rewrite app_nth1 by (unfold len in HT; lia). apply nth_takeN. lia.
Qed.
Lemma write_ret a off src : off + len src <= len a -> exists b, write_at a off src = Ret b.
Proof. intros H. unfold write_at. destruct (N.leb_spec (off + len src) (len a)); [eauto|lia]. Qed.

Lemma unwrap_steps buf out n : 0 < n -> 2 * n <= len out ->
  (forall r s, lengths buf r s -> r <= n + 1 -> significant n s <= 2 * n -> 6 + r + s <= len buf ->
    exists out', unwrap_signature buf out (2 * n) = Ret out' /\ len out' = len out /\
      forall i, nth (N.to_nat i) out' x00 =
        if (2 * n - significant n s <=? i) && (i <? 2 * n) then nth (N.to_nat (6 + r + s - (2 * n - i))) buf x00
        else if (n - significant n r <=? i) && (i <? n) then nth (N.to_nat (4 + r - (n - i))) buf x00
        else if i <? 2 * n then x00 else nth (N.to_nat i) out x00) /\
  (forall out', unwrap_signature buf out (2 * n) = Ret out' ->
    exists r s, lengths buf r s /\ r <= n + 1 /\ significant n s <= 2 * n /\ 6 + r + s <= len buf).
Proof.
  intros H0 Ho. assert (HD : 2 * n / 2 = n) by (rewrite N.mul_comm; apply N.div_mul; lia). split.
  - intros r s [(rb & Hr & <-) (sb & Hs & <-)] HR HS HL. set (r := b2n rb) in *. set (s := b2n sb) in *.
    unfold unwrap_signature. rewrite HD. unfold get. change (N.to_nat 3) with 3%nat. rewrite Hr. cbn [bind]. fold r. rewrite Hs. cbn [bind]. fold s.
    assert (Hr' : significant n r <= n) by (unfold significant; destruct (N.eqb_spec r (n + 1)); lia).
    replace (if r =? n + 1 then (4 + 1, r - 1) else (4, r)) with (4 + r - significant n r, significant n r)
      by (unfold significant; destruct (N.eqb_spec r (n + 1)); f_equal; lia).
    replace (if s =? n + 1 then (6 + r + 1, s - 1) else (6 + r, s)) with (6 + r + s - significant n s, significant n s)
      by (unfold significant; destruct (N.eqb_spec s (n + 1)); f_equal; lia).
    assert (Hsr : significant n r <= r) by (unfold significant; destruct (N.eqb_spec r (n + 1)); lia).
    assert (Hss : significant n s <= s) by (unfold significant; destruct (N.eqb_spec s (n + 1)); lia).
    set (r' := significant n r) in *. set (s' := significant n s) in *.
    set (zs := repeat x00 (N.to_nat (2 * n))). assert (Hz : len zs = 2 * n) by (unfold zs; rewrite len_repeat; lia).
    destruct (write_ret out 0 zs ltac:(lia)) as [o1 E1]. rewrite E1. cbn [bind].
    destruct (nth_write _ _ _ _ 0 E1) as (_ & L1 & _).
    destruct (N.ltb_spec n r'); [lia|]. destruct (N.ltb_spec (n + n) s'); [lia|]. cbn [orb].
    unfold read_at. destruct (N.leb_spec (4 + r - r' + r') (len buf)); [|lia]. cbn [bind].
    set (rd := takeN r' (dropN (4 + r - r') buf)). assert (Lr : len rd = r') by (unfold rd; rewrite len_takeN, len_dropN; lia).
    destruct (write_ret o1 (n - r') rd ltac:(lia)) as [o2 E2]. rewrite E2. cbn [bind]. destruct (nth_write _ _ _ _ 0 E2) as (_ & L2 & _).
    destruct (N.leb_spec (6 + r + s - s' + s') (len buf)); [|lia]. cbn [bind].
    set (sd := takeN s' (dropN (6 + r + s - s') buf)). assert (Ls : len sd = s') by (unfold sd; rewrite len_takeN, len_dropN; lia).
    destruct (write_ret o2 (n + n - s') sd ltac:(lia)) as [o3 E3]. exists o3. split; [exact E3|]. destruct (nth_write _ _ _ _ 0 E3) as (_ & L3 & _). split; [lia|].
    intros i. destruct (nth_write _ _ _ _ i E1) as (_ & _ & N1). destruct (nth_write _ _ _ _ i E2) as (_ & _ & N2). destruct (nth_write _ _ _ _ i E3) as (_ & _ & N3).
    rewrite N3, N2, N1, Ls, Lr, Hz. replace (n + n - s' + s') with (2 * n) by lia. replace (n + n - s') with (2 * n - s') by lia.
    replace (n - r' + r') with n by lia. rewrite N.add_0_l. replace (0 <=? i) with true by (symmetry; apply N.leb_le; lia). rewrite N.sub_0_r. cbn [andb].
    destruct (N.leb_spec (2 * n - s') i); destruct (N.ltb_spec i (2 * n)); cbn [andb].
    + unfold sd. rewrite nth_takeN by lia. rewrite nth_dropN. f_equal. lia.
    + destruct ((n - r' <=? i) && (i <? n)) eqn:Eb; [|reflexivity]. apply andb_true_iff in Eb as [_ Eb]. apply N.ltb_lt in Eb. lia.
    + destruct ((n - r' <=? i) && (i <? n)) eqn:Eb.
      * apply andb_true_iff in Eb as [Ea Eb]. apply N.leb_le in Ea. apply N.ltb_lt in Eb. unfold rd. rewrite nth_takeN by lia. rewrite nth_dropN. f_equal. lia.
      * unfold zs. now rewrite nth_repeat.
    + lia.
  - intros out' H. unfold unwrap_signature in H. rewrite HD in H. unfold get in H at 1. change (N.to_nat 3) with 3%nat in H.
    destruct (nth_error buf 3) as [rb|] eqn:Er; [|discriminate]. cbn [bind] in H. set (r := b2n rb) in *.
    unfold get in H. destruct (nth_error buf (N.to_nat (5 + r))) as [sb|] eqn:Es; [|discriminate]. cbn [bind] in H. set (s := b2n sb) in *.
    exists r, s. pose proof (nth_error_len _ _ _ Es) as HB.
    assert (HRS : exists ro so, (if r =? n + 1 then (4 + 1, r - 1) else (4, r)) = (ro, significant n r) /\ ro + significant n r = 4 + r /\
      (if s =? n + 1 then (6 + r + 1, s - 1) else (6 + r, s)) = (so, significant n s) /\ so + significant n s = 6 + r + s).
    { unfold significant. destruct (N.eqb_spec r (n + 1)), (N.eqb_spec s (n + 1)); eexists; eexists; (split; [f_equal; lia|split; [lia|split; [f_equal; lia|lia]]]). }
    destruct HRS as (ro & so & E1 & E2 & E3 & E4). rewrite E1, E3 in H.
    destruct (write_at out 0 _) as [o1| |]; try discriminate. cbn [bind] in H.
    destruct (N.ltb_spec n (significant n r)) as [|Hr]; [discriminate|]. destruct (N.ltb_spec (n + n) (significant n s)) as [|Hs]; [discriminate|]. cbn [orb] in H.
    unfold read_at in H at 1. destruct (_ <=? _) in H at 1; [|discriminate]. cbn [bind] in H. destruct (write_at o1 _ _) as [o2| |]; try discriminate. cbn [bind] in H.
    unfold read_at in H. destruct (N.leb_spec (so + significant n s) (len buf)); [|discriminate]. splits; try lia.
    + split; eexists; (split; [eassumption|reflexivity]).
    + unfold significant in Hr. destruct (N.eqb_spec r (n + 1)); lia.
Qed.

(** For every content of the buffer (also one BoringSSL never writes) and every field size: the conversion is defined exactly if both integers lie inside of
    the buffer, the first one is not longer than the field (and a leading byte), and the second one not longer than two. *)
Theorem C43_unwrap_defined : forall buf out n, 0 < n -> 2 * n <= len out ->
  (exists out', unwrap_signature buf out (2 * n) = Ret out') <->
  (exists r s, lengths buf r s /\ r <= n + 1 /\ (s <= 2 * n \/ s = n + 1) /\ 6 + r + s <= len buf).
Proof.
  intros buf out n H0 Ho. destruct (unwrap_steps buf out n H0 Ho) as [H1 H2].
  assert (HS : forall s, significant n s <= 2 * n <-> s <= 2 * n \/ s = n + 1) by (intros s; unfold significant; destruct (N.eqb_spec s (n + 1)); lia).
  split.
  - intros [out' H]. destruct (H2 _ H) as (r & s & A1 & A2 & A3 & A4). exists r, s. rewrite <- HS. auto.
  - intros (r & s & A1 & A2 & A3 & A4). apply HS in A3. destruct (H1 r s A1 A2 A3 A4) as (out' & HR & _). eauto.
Qed.
Print Assumptions C43_unwrap_defined.

(** And then every byte of the output is known: each integer ends where its half ends, the rest of the two halves is zero, and what lies behind them is left
    alone. A second integer longer than its half covers part of the first. *)
Theorem C43_unwrap_bytes : forall buf out out' n r s, 0 < n -> 2 * n <= len out -> lengths buf r s -> unwrap_signature buf out (2 * n) = Ret out' ->
  len out' = len out /\
  forall i, nth (N.to_nat i) out' x00 =
    if (2 * n - significant n s <=? i) && (i <? 2 * n) then nth (N.to_nat (6 + r + s - (2 * n - i))) buf x00
    else if (n - significant n r <=? i) && (i <? n) then nth (N.to_nat (4 + r - (n - i))) buf x00
    else if i <? 2 * n then x00 else nth (N.to_nat i) out x00.
Proof.
  intros buf out out' n r s H0 Ho HL H. destruct (unwrap_steps buf out n H0 Ho) as [H1 H2]. destruct (H2 _ H) as (r' & s' & A1 & A2 & A3 & A4).
  assert (r' = r) as ->.
  { destruct HL as [(b & B1 & <-) _], A1 as [(b' & B1' & <-) _]. congruence. }
  assert (s' = s) as ->.
  { destruct HL as [_ (b & B1 & <-)], A1 as [_ (b' & B1' & <-)]. congruence. }
  destruct (H1 r s A1 A2 A3 A4) as (o & HR & HB). rewrite H in HR. injection HR as <-. exact HB.
Qed.
Print Assumptions C43_unwrap_bytes.
(** Fields of two bytes: numbers of different lengths, a first one that is too long, and a second one that covers the first. *)
Example C43_unwrap_any_case :
  unwrap_signature (bytes [0x30; 8; 2; 1; 7; 2; 3; 0; 0x81; 0x82]) (bytes [9; 9; 9; 9; 9]) 4 = Ret (bytes [0; 7; 0x81; 0x82; 9]) /\
  unwrap_signature (bytes [0x30; 9; 2; 4; 1; 2; 3; 4; 2; 1; 5]) (bytes [9; 9; 9; 9; 9]) 4 = Undef UBPtrArith /\
  unwrap_signature (bytes [0x30; 9; 2; 1; 7; 2; 4; 1; 2; 3; 4]) (bytes [9; 9; 9; 9; 9]) 4 = Ret (bytes [1; 2; 3; 4; 9]) /\
  lengths (bytes [0x30; 8; 2; 1; 7; 2; 3; 0; 0x81; 0x82]) 1 3.
Proof. splits; try (vm_compute; reflexivity). split; eexists; (split; [vm_compute; reflexivity|reflexivity]). Qed.
