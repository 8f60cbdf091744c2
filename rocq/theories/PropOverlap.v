(** Property C61: rendering with inputs in the stream's own memory. *)
From Coq Require Import List NArith ZArith Bool Strings.Byte Lia.
From Coq Require Import ZifyBool ZifyNat ZifyN.
From Verif Require Import Base BaseFacts Stream SpecStream StreamProofs StreamOpsProofs Asn1 SpecApi ApiProofs PropApi.
From Verif Require Import Overlap SpecOverlap.
Import ListNotations.
Open Scope N_scope.

Section Steps.
Context `{E : Env}.

(** A copy from within is a copy of what is there now, plus the mark. *)
Lemma prepend_within o n s u bad mem : s_begin s = Some mem ->
  exists b, n20_stream_prepend_at (Within o) n (mkWorld (Some s) u, bad) = (n20_stream_prepend (Some (dropN o mem)) n (mkWorld (Some s) u), b) /\
    b = bad || (negb (n20_stream_has_buffer_overflow (w_stream (n20_stream_prepend (Some (dropN o mem)) n (mkWorld (Some s) u)))) &&
                overlapping o (sub_sz (s_size s) (wrap_sz (s_wp s + n))) n).
Proof.
  intro Hm. unfold n20_stream_prepend_at, n20_stream_prepend. cbn [w_stream w_ub]. rewrite Hm. cbn [option_map].
  destruct (_ || _ || _) eqn:Eb.
  - eexists. split; [reflexivity|]. cbn. now rewrite orb_false_r.
  - cbn [memcpy_into]. destruct (_ <=? len mem); (eexists; split; [reflexivity|cbn; reflexivity]).
Qed.

(** One call: what the stream shows is extended by what was readable at the source, and the mark is exact. *)
Lemma prepend_at_step m size op s u bad out : size < SZ -> size <= len m -> snd op < SZ -> source_ok m op ->
  shows s (Some m) size out ->
  exists s' b, n20_stream_prepend_at (fst op) (snd op) (mkWorld (Some s) u, bad) = (mkWorld (Some s') u, b) /\
    (len out <= size -> shows s' (Some m) size (chunk m size out op ++ out)) /\
    (exists c, len c = snd op /\ shows s' (Some m) size (c ++ out)) /\
    (b = false <-> bad = false /\ apart size (len out) op).
Proof.
  intros Hs Hm Hn Hop Hsh. destruct op as [[d|o] n]; cbn [fst snd] in *; unfold source_ok, apart in *; cbn [fst snd] in *.
  - destruct (prepend_shows s u (Some m) size out d n (conj Hs Hm) Hsh Hop Hn) as (s' & E1 & S1). exists s', bad. cbn [n20_stream_prepend_at].
    rewrite E1. splits; [reflexivity|intros _; exact S1| |tauto]. exists (takeN n d). split; [lens; lia|exact S1].
  - pose proof Hsh as (Hc & Hwp & Hbo & Hsz & lost & kept & Hout & Hk & Hl & Hmem).
    set (mem := takeN (size - len kept) m ++ kept ++ dropN size m) in *.
    assert (Hlm : len mem = len m) by (unfold mem; lens; lia).
    destruct (prepend_within o n s u bad mem Hmem) as (b & Ep & Hb).
    assert (Hd : n <= len (dropN o mem)) by (lens; lia).
    destruct (prepend_shows s u (Some m) size out (dropN o mem) n (conj Hs Hm) Hsh Hd Hn) as (s' & E1 & S1).
    rewrite E1 in Ep, Hb. cbn [w_stream] in Hb.
    exists s', b. splits; [exact Ep| | |].
    + intro Hf. rewrite (Hl Hf) in Hout. cbn in Hout. subst kept. exact S1.
    + exists (takeN n (dropN o mem)). split; [lens; lia|exact S1].
    + pose proof S1 as (_ & _ & Hbo' & _). rewrite Hbo' in Hb.
      assert (Hlen : len (takeN n (dropN o mem) ++ out) = n + len out) by (lens; lia). rewrite Hlen in Hb.
      destruct (N.ltb_spec size (n + len out)) as [Hov|Hfit]; cbn [negb] in Hb.
      * cbn [andb] in Hb. rewrite orb_false_r in Hb. subst b. split; [intro; split; [assumption|lia]|tauto].
      * cbn [andb] in Hb. cbn [n20_stream_byte_count] in Hc. rewrite N.mod_small in Hc by lia.
        unfold wrap_sz in Hb. rewrite Hc, Hsz, N.mod_small, sub_sz_le in Hb by lia. unfold overlapping in Hb. subst b.
        clear - Hfit. rewrite orb_false_iff. apply and_iff_compat_l. destruct (N.ltb_spec 0 n); destruct (N.ltb_spec o (size - (len out + n) + n));
        destruct (N.ltb_spec (size - (len out + n)) (o + n)); cbn [andb]; (split; [intro; try discriminate; lia|intro; try reflexivity; exfalso; lia]).
Qed.

Lemma total_cons op ops : total (op :: ops) = snd op + total ops.
Proof. reflexivity. Qed.
Lemma prepend_all_steps m size ops : size < SZ -> size <= len m -> forall s u bad out, Forall (fun op => snd op < SZ /\ source_ok m op) ops ->
  shows s (Some m) size out ->
  exists s' b, prepend_all ops (mkWorld (Some s) u, bad) = (mkWorld (Some s') u, b) /\
    (len out + total ops <= size -> shows s' (Some m) size (output m size out ops)) /\
    (exists c, len c = total ops /\ shows s' (Some m) size (c ++ out)) /\
    (b = false <-> bad = false /\ all_apart size (len out) ops).
Proof.
  intros Hs Hm. induction ops as [|op ops IH]; intros s u bad out Hops Hsh.
  - exists s, bad. splits; [reflexivity|intros _; exact Hsh|now exists []|cbn [all_apart]; tauto].
  - inversion Hops as [|? ? [Hn Hop] Hrest]; subst.
    destruct (prepend_at_step m size op s u bad out Hs Hm Hn Hop Hsh) as (s1 & b1 & E1 & F1 & (c1 & L1 & S1) & B1).
    change (prepend_all (op :: ops) (mkWorld (Some s) u, bad)) with (prepend_all ops (n20_stream_prepend_at (fst op) (snd op) (mkWorld (Some s) u, bad))).
    rewrite E1. destruct (IH s1 u b1 (c1 ++ out) Hrest S1) as (s2 & b2 & E2 & _ & (c2 & L2 & S2) & B2).
    exists s2, b2. splits; [exact E2| | |].
    + rewrite total_cons. intro Hf. cbn [output].
      assert (Hc : len (chunk m size out op) = snd op).
      { unfold chunk, with_output. unfold source_ok in Hop. destruct (fst op); lens; lia. }
      destruct (IH s1 u b1 (chunk m size out op ++ out) Hrest (F1 ltac:(lia))) as (s2' & b2' & E2' & F2 & _).
      rewrite E2 in E2'. injection E2' as <- <-. apply F2. lens. lia.
    + exists (c2 ++ c1). split; [lens; rewrite total_cons; lia|]. now rewrite <- app_assoc.
    + rewrite B2, B1. cbn [all_apart]. replace (len (c1 ++ out)) with (len out + snd op) by (lens; lia). tauto.
Qed.
End Steps.

(** ** Copying within the memory *)

(** Every history of prepend calls with readable sources, which may lie anywhere in the memory behind [begin]: the byte count and the overflow flags are
    exact, nothing but the window is written, and an overlapping copy takes place exactly if some source that is really copied is not apart from the
    place where its copy goes; if none is and everything fits, the output consists of what the sources held when they were copied. *)
Theorem C61_exact : forall (E : Env) m size ops, size < SZ -> size <= len m -> Forall (fun op => snd op < SZ /\ source_ok m op) ops ->
  exists s overlap mem, run_at m size ops = (mkWorld (Some s) [], overlap) /\ s_begin s = Some mem /\
    n20_stream_byte_count (Some s) = total ops mod SZ /\
    (n20_stream_has_buffer_overflow (Some s) = true <-> size < total ops) /\
    (n20_stream_has_write_position_overflow (Some s) = true <-> SZ <= total ops) /\
    takeN (size - total ops) mem = takeN (size - total ops) m /\ dropN size mem = dropN size m /\
    (overlap = false <-> all_apart size 0 ops) /\
    (overlap = false -> total ops <= size -> mem = with_output m size (output m size [] ops) /\ stream_contents s = output m size [] ops).
Proof.
  intros E m size ops Hs Hm Hops. unfold run_at.
  destruct (prepend_all_steps m size ops Hs Hm (n20_stream_init (Some m) size) [] false [] Hops (shows_init (Some m) size (conj Hs Hm)))
    as (s & b & E1 & F1 & (c & L1 & S1) & B1).
  rewrite app_nil_r in S1. rewrite len_nil in *. pose proof S1 as (H1 & H2 & H3 & H4 & lost & kept & H5 & H6 & H7 & H8). rewrite L1 in *.
  exists s, b. eexists. splits; [exact E1|exact H8|exact H1|rewrite H3; lia|rewrite H2; lia| | |tauto|].
  - assert (len kept <= total ops) by (rewrite <- L1, H5; lens; lia). rewrite takeN_app_l by (lens; lia). rewrite takeN_takeN. f_equal. lia.
  - rewrite dropN_app_r by (lens; lia). lens. rewrite dropN_app_r by (lens; lia). lens.
    match goal with |- dropN ?k _ = _ => replace k with 0 by lia end. reflexivity.
  - intros _ Hf. specialize (F1 ltac:(lia)). split.
    + pose proof F1 as (G1 & _ & _ & _ & lost' & kept' & G5 & G6 & G7 & G8). rewrite H8 in G8. injection G8 as G8.
      assert (Hlo : len (output m size [] ops) <= size).
      { cbn in G1, H1. rewrite G1 in H1. destruct (N.le_gt_cases (len (output m size [] ops)) size) as [|Hgt]; [assumption|exfalso].
        pose proof F1 as (_ & _ & G3 & _). rewrite G3 in H3. lia. }
      rewrite (G7 Hlo) in G5. cbn in G5. subst kept'. exact G8.
    + apply (shows_contents E s m size); try assumption.
      pose proof F1 as (_ & _ & G3 & _). rewrite G3 in H3. lia.
Qed.
Print Assumptions C61_exact.

Lemma prepend_ext (E : Env) d1 d2 n w : n <= len d1 -> n <= len d2 -> takeN n d1 = takeN n d2 ->
  n20_stream_prepend (Some d1) n w = n20_stream_prepend (Some d2) n w.
Proof.
  intros H1 H2 Hd. unfold n20_stream_prepend. destruct (w_stream w) as [s|]; [|reflexivity]. destruct (_ || _ || _); [reflexivity|].
  unfold memcpy_into. destruct (s_begin s) as [m|]; [|reflexivity]. now rewrite !load_exact, !load_ub_exact, Hd by assumption.
Qed.
Lemma take_drop_front (o n k : N) (m r : list byte) : o + n <= k -> k <= len m -> takeN n (dropN o (takeN k m ++ r)) = takeN n (dropN o m).
Proof.
  intros H Hk. rewrite dropN_app_l by (lens; lia). rewrite takeN_app_l by (lens; lia).
  rewrite <- (takeN_dropN k m) at 2. rewrite dropN_app_l by (lens; lia). now rewrite takeN_app_l by (lens; lia).
Qed.
Lemma all_apart_below m size ops : forall written, Forall (source_ok m) ops -> Forall (below (size - written - total ops)) ops -> all_apart size written ops.
Proof.
  induction ops as [|op ops IH]; intros written Ho Hb; [exact I|]. inversion Ho as [|? ? Ho1 Ho2]; inversion Hb as [|? ? Hb1 Hb2]; subst.
  rewrite total_cons in *. cbn [all_apart]. split.
  - unfold apart, below in *. destruct (fst op); [exact I|lia].
  - apply IH; [assumption|]. now replace (size - (written + snd op) - total ops) with (size - written - (snd op + total ops)) by lia.
Qed.
Lemma prepend_all_below (E : Env) m size ops : size < SZ -> size <= len m -> forall s u bad out,
  Forall (fun op => snd op < SZ /\ source_ok m op) ops -> Forall (below (size - len out - total ops)) ops -> shows s (Some m) size out ->
  exists b, prepend_all ops (mkWorld (Some s) u, bad) = (exec_ops (map (separate m) ops) (mkWorld (Some s) u), b).
Proof.
  intros Hs Hm. induction ops as [|op ops IH]; intros s u bad out Ho Hb Hsh; [now exists bad|].
  inversion Ho as [|? ? [Hn Ho1] Ho2]; inversion Hb as [|? ? Hb1 Hb2]; subst. rewrite total_cons in *.
  change (prepend_all (op :: ops) (mkWorld (Some s) u, bad)) with (prepend_all ops (n20_stream_prepend_at (fst op) (snd op) (mkWorld (Some s) u, bad))).
  change (exec_ops (map (separate m) (op :: ops)) (mkWorld (Some s) u)) with (exec_ops (map (separate m) ops) (exec_op (separate m op) (mkWorld (Some s) u))).
  destruct (prepend_at_step m size op s u bad out Hs Hm Hn Ho1 Hsh) as (s1 & b1 & E1 & _ & (c1 & L1 & S1) & _).
  assert (Es : exec_op (separate m op) (mkWorld (Some s) u) = mkWorld (Some s1) u).
  { unfold separate, exec_op. destruct op as [[d|o] n]; cbn [fst snd] in *.
    - cbn [n20_stream_prepend_at] in E1. now injection E1.
    - pose proof Hsh as (_ & _ & _ & _ & lost & kept & Hout & Hk & _ & Hmem). unfold source_ok, below in Ho1, Hb1. cbn [fst snd] in Ho1, Hb1.
      destruct (prepend_within o n s u bad _ Hmem) as (b & E2 & _). rewrite E1 in E2. injection E2 as E2 _. rewrite E2.
      assert (len kept <= len out) by (rewrite Hout; lens; lia).
      destruct (N.eq_dec n 0) as [->|Hz].
      + apply prepend_ext; rewrite ?takeN_0; try lia. reflexivity.
      + apply prepend_ext; [lens; lia|lens; lia|]. rewrite takeN_takeN, N.min_id. symmetry. apply take_drop_front; lia. }
  rewrite E1, Es. apply (IH s1 u b1 (c1 ++ out) Ho2); [|exact S1].
  replace (len (c1 ++ out)) with (len out + snd op) by (lens; lia).
  now replace (size - (len out + snd op) - total ops) with (size - len out - (snd op + total ops)) by lia.
Qed.

(** Sources in the part of the memory that the output does not reach can be used like separate copies: the same final state, and no overlap. *)
Theorem C61_unwritten : forall (E : Env) m size ops, size < SZ -> size <= len m -> Forall (fun op => snd op < SZ /\ source_ok m op) ops ->
  Forall (below (size - total ops)) ops -> run_at m size ops = (run (Some m) size (map (separate m) ops), false).
Proof.
  intros E m size ops Hs Hm Ho Hb.
  destruct (C61_exact E m size ops Hs Hm Ho) as (s & overlap & mem & E1 & _ & _ & _ & _ & _ & _ & A1 & _).
  destruct (prepend_all_below E m size ops Hs Hm (n20_stream_init (Some m) size) [] false [] Ho) as (b & E2); 
    [rewrite len_nil, N.sub_0_r; exact Hb|apply (shows_init (Some m) size (conj Hs Hm))|].
  fold (run_at m size ops) in E2. unfold run. rewrite E2 in *. f_equal. injection E1 as _ ->. apply A1.
  apply (all_apart_below m); [|now rewrite N.sub_0_r]. eapply Forall_impl; [|exact Ho]. now intros ? [_ ?].
Qed.
Print Assumptions C61_unwritten.

(** ** Programs of public calls *)

Lemma run_late_steps (E : Env) m size limit cs : size < SZ -> size <= len m -> Forall (reads_below limit) cs -> forall s u out b,
  Forall (fun c => call_ok (c m)) cs -> renders tolerable (exec_calls (map (fun c => c m) cs)) b ->
  len out + len b + limit <= size -> shows s (Some m) size out ->
  exec_late cs (mkWorld (Some s) u) = exec_calls (map (fun c => c m) cs) (mkWorld (Some s) u).
Proof.
  intros Hs Hm. induction cs as [|c cs IH]; intros Hr s u out b Hok Hb Hl Hsh; [reflexivity|].
  inversion Hr as [|? ? Hr1 Hr2]; inversion Hok as [|? ? Hok1 Hok2]; subst.
  change (exec_late (c :: cs) (mkWorld (Some s) u)) with (exec_late cs (exec_call (c (memory_of (mkWorld (Some s) u))) (mkWorld (Some s) u))).
  assert (Hc : c (memory_of (mkWorld (Some s) u)) = c m).
  { apply Hr1. pose proof Hsh as (_ & _ & _ & _ & lost & kept & Hout & Hk & _ & Hmem). cbn [memory_of w_stream]. rewrite Hmem.
    assert (len kept <= len out) by (rewrite Hout; lens; lia). rewrite takeN_app_l by (lens; lia). rewrite takeN_takeN. f_equal. lia. }
  rewrite Hc. cbn [map]. rewrite exec_calls_cons. unfold andthen.
  destruct (C05_calls_render E (c m) Hok1) as [b1 R1].
  assert (Hcs : Forall call_ok (map (fun c => c m) cs)) by (now rewrite Forall_map).
  destruct (C05_programs_render E _ Hcs) as [b2 R2].
  destruct (proj2 R1 s u (Some m) size out (conj Hs Hm) Hsh) as (s1 & v1 & E1 & S1 & E1' & _).
  destruct (exec_call (c m) (mkWorld (Some s) u)) as [s1' u1] eqn:Ew. cbn [w_stream w_ub] in E1, E1'. subst s1' u1.
  apply (IH Hr2 s1 (v1 ++ u) (b1 ++ out) b2 Hok2 R2); [|exact S1].
  cbn [map] in Hb. rewrite exec_calls_cons in Hb. pose proof (renders_seq tolerable _ _ _ _ R1 R2) as R3.
  assert (Hlb : len b < SZ) by lia. pose proof (renders_det tolerable tolerable _ _ _ Hlb Hb R3) as Hbe. rewrite Hbe, len_app in Hl. rewrite len_app. lia.
Qed.

(** Every program of public calls whose arguments depend on the first [limit] bytes of the stream's own memory only, each call reading them when it is made:
    if these bytes and the output, whose length [k] is known from the sizing pass, fit side by side, the program does what it would do with copies made beforehand, and the
    first [limit] bytes are unchanged in the end. *)
Theorem C61_programs : forall (E : Env) m size limit cs, size < SZ -> size <= len m ->
  Forall (reads_below limit) cs -> Forall (fun c => call_ok (c m)) cs ->
  let copied := map (fun c => c m) cs in
  let k := n20_stream_byte_count (w_stream (run_calls None 0 copied)) in
  n20_stream_has_write_position_overflow (w_stream (run_calls None 0 copied)) = false -> k + limit <= size ->
  run_late m size cs = run_calls (Some m) size copied /\ takeN limit (memory_of (run_late m size cs)) = takeN limit m.
Proof.
  intros E m size limit cs Hs Hm Hr Hok copied k Hov Hk. pose proof SZ_pos.
  assert (Hcs : Forall call_ok copied) by (unfold copied; now rewrite Forall_map).
  destruct (C05_programs_render E copied Hcs) as [b Hb].
  assert (Hok0 : buffer_ok None 0) by (split; [assumption|exact I]).
  destruct (proj2 Hb _ [] None 0 [] Hok0 (shows_init _ _ Hok0)) as (s0 & v0 & E0 & S0 & _).
  unfold k, run_calls in *. rewrite E0 in *. rewrite app_nil_r in S0. destruct S0 as (C0 & W0 & _). rewrite W0 in Hov. rewrite C0, N.mod_small in Hk by lia.
  pose proof (shows_init (Some m) size (conj Hs Hm)) as Hin.
  assert (El : run_late m size cs = exec_calls copied (mkWorld (Some (n20_stream_init (Some m) size)) [])).
  { unfold run_late. apply (run_late_steps E m size limit cs Hs Hm Hr _ _ [] b Hok Hb); [rewrite len_nil; lia|exact Hin]. }
  split; [exact El|]. rewrite El.
  destruct (proj2 Hb _ [] (Some m) size [] (conj Hs Hm) Hin) as (s & v & E1 & S1 & _). unfold memory_of. rewrite E1. rewrite app_nil_r in S1.
  destruct S1 as (_ & _ & _ & _ & lost & kept & Hout & Hkl & _ & Hmem). rewrite Hmem.
  assert (len kept <= len b) by (rewrite Hout; lens; lia). rewrite takeN_app_l by (lens; lia). rewrite takeN_takeN. f_equal. lia.
Qed.
Print Assumptions C61_programs.

(** ** Cases *)

#[local] Instance env64 : Env := {| size_width := W64; host_little_endian := true; stray := fun _ => x00 |}.
Definition memory : list byte := bytes [1; 2; 3; 4; 5; 6; 7; 8; 9; 10; 11; 12].

(** A window of 10 of 12 bytes: two copies from the front, one of the output, one across the end of the window, one from elsewhere. *)
Definition copies : list (source * N) := [(Within 0, 2); (Within 1, 1); (Within 7, 2); (Within 9, 2); (Elsewhere (bytes [0xff]), 1)].
Example C61_case :
  Forall (fun op => snd op < SZ /\ source_ok memory op) copies /\ all_apart 10 0 copies /\ total copies <= 10 /\
  output memory 10 [] copies = bytes [0xff; 2; 11; 2; 1; 2; 1; 2] /\
  Forall (below (10 - total [(Within 0, 2); (Within 1, 1)])) [(Within 0, 2); (Within 1, 1)] /\
  (let '(w, overlap) := run_at memory 10 copies in memory_of w = bytes [1; 2; 0xff; 2; 11; 2; 1; 2; 1; 2; 11; 12] /\ overlap = false).
Proof.
  splits.
  - unfold copies. repeat apply Forall_cons; [..|apply Forall_nil]; (split; [reflexivity|vm_compute; congruence]).
  - cbn [copies all_apart apart fst snd]. splits; try exact I; lia.
  - vm_compute. congruence.
  - vm_compute. reflexivity.
  - repeat apply Forall_cons; [..|apply Forall_nil]; right; vm_compute; congruence.
  - vm_compute. split; reflexivity.
Qed.

(** The other direction: a source that reaches into the place of its copy is an overlapping copy, even if the output fits. *)
Example C61_overlap_case : snd (run_at memory 10 [(Within 7, 2)]) = true /\ ~ all_apart 10 0 [(Within 7, 2)] /\ snd (run_at memory 10 [(Within 6, 2)]) = false.
Proof. splits; [reflexivity| |reflexivity]. cbn [all_apart apart fst snd]. lia. Qed.

(** A program that wraps its own input, the first two bytes of the memory, in an octet string, twice, after a number. *)
Definition wrapping : list (list byte -> call) :=
  [fun _ => CCborInt 300; fun m => COctetstring (Some (mkSlice 2 (Some (takeN 2 m)))) n20_asn1_tag_info_no_override;
   fun m => CPrepend (Some (takeN 2 m)) 2].
Example C61_programs_case :
  Forall (reads_below 2) wrapping /\ Forall (fun c => call_ok (c memory)) wrapping /\
  n20_stream_byte_count (w_stream (run_calls None 0 (map (fun c => c memory) wrapping))) = 9 /\
  memory_of (run_late memory 11 wrapping) = bytes [1; 2; 1; 2; 4; 2; 1; 2; 0x19; 1; 44; 12].
Proof.
  splits; [| |vm_compute; reflexivity|vm_compute; reflexivity].
  - unfold wrapping. repeat apply Forall_cons; [..|apply Forall_nil]; intros m1 m2 Hm; cbv beta; rewrite ?Hm; reflexivity.
  - unfold wrapping. repeat apply Forall_cons; [..|apply Forall_nil]; cbv beta.
    + cbn [call_ok]. lia.
    + split; [reflexivity|vm_compute; congruence].
    + split; [reflexivity|vm_compute; congruence].
Qed.

(** Without room for both the input can be overwritten before it is read, although the output fits: a program that reads its second input byte last, in a window
    of 10 bytes for 10 bytes of output. *)
Theorem C61_programs_refuted : exists m size cs, size <= len m /\ Forall (reads_below 2) cs /\ Forall (fun c => call_ok (c m)) cs /\
  n20_stream_byte_count (w_stream (run_calls None 0 (map (fun c => c m) cs))) <= size /\
  memory_of (run_late m size cs) <> memory_of (run_calls (Some m) size (map (fun c => c m) cs)).
Proof.
  destruct C61_programs_case as (H1 & H2 & _).
  exists memory, 10, (wrapping ++ [fun m => CPut (nth 1 (takeN 2 m) x00)]). splits; [vm_compute; congruence| | |vm_compute; congruence|vm_compute; congruence].
  - apply Forall_app. split; [exact H1|]. apply Forall_cons; [|apply Forall_nil]. intros m1 m2 Hm. cbv beta. now rewrite Hm.
  - apply Forall_app. split; [exact H2|]. apply Forall_cons; [|apply Forall_nil]. exact I.
Qed.
Print Assumptions C61_programs_refuted.
