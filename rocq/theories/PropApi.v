(** Properties C05 and C06, for every public rendering function at once. [call], [exec_call] and the memory-safety
    precondition [call_ok] are in SpecApi.v; a program is a list of calls on one stream, and a callback may be any code
    that itself renders something, in particular any program ([C05_programs_render]). *)
From Coq Require Import List NArith ZArith Bool Strings.Byte Lia.
From Coq Require Import ZifyBool ZifyNat ZifyN.
From Verif Require Import Base BaseFacts Stream SpecStream StreamProofs Asn1 SpecAsn1 Cbor Oid X509 X509Ext SpecApi ApiProofs.
Import ListNotations.
Open Scope N_scope.

(** Every call writes one and the same byte string on every stream, whatever its buffer, size and history. *)
Theorem C05_calls_render : forall (E : Env) c, call_ok c -> exists b, renders tolerable (exec_call c) b.
Proof. intros E c. exact (call_renders c). Qed.
Print Assumptions C05_calls_render.

Lemma exec_calls_cons (E : Env) c cs : exec_calls (c :: cs) = (exec_call c ;; exec_calls cs)%cmd.
Proof. reflexivity. Qed.

(** Hence so does every program; it can serve as a callback in turn. *)
Theorem C05_programs_render : forall (E : Env) cs, Forall call_ok cs -> exists b, renders tolerable (exec_calls cs) b.
Proof.
  intros E cs. induction 1 as [|c cs Hc _ [b Hb]]; [exists []; apply renders_skip|].
  destruct (call_renders c Hc) as [a Ha]. exists (b ++ a). rewrite exec_calls_cons. now apply renders_seq.
Qed.
Print Assumptions C05_programs_render.

Lemma shows_contents (E : Env) s m size out : size < SZ -> size <= len m -> shows s (Some m) size out -> len out <= size ->
  stream_contents s = out.
Proof.
  intros Hs Hm (H1 & _ & _ & H4 & lost & kept & H5 & H6 & H7 & H8) Hl. rewrite H7 in H5 by assumption. cbn in H5. subst kept.
  cbn in H1. assert (Hw : s_wp s = len out) by (rewrite H1; apply N.mod_small; lia).
  unfold stream_contents, n20_stream_data, n20_stream_byte_count. rewrite H8, H4, Hw, sub_sz_le by lia.
  rewrite dropN_app_r by (lens; lia). lens.
  match goal with |- takeN _ (dropN ?k _) = _ => replace k with 0 by lia end.
  rewrite dropN_0. apply takeN_app_len.
Qed.

(** The two passes: sizing with a NULL buffer, then rendering into any buffer. [k] is the count reported by the first. *)
Theorem C05_two_pass : forall (E : Env) cs, Forall call_ok cs ->
  let k := n20_stream_byte_count (w_stream (run_calls None 0 cs)) in
  n20_stream_has_write_position_overflow (w_stream (run_calls None 0 cs)) = false ->
  exists b, len b = k /\
    forall m size, size < SZ -> size <= len m ->
    exists s, w_stream (run_calls (Some m) size cs) = Some s /\
      n20_stream_byte_count (Some s) = k /\
      n20_stream_has_write_position_overflow (Some s) = false /\
      (k <= size -> n20_stream_has_buffer_overflow (Some s) = false /\ stream_contents s = b /\
                    s_begin s = Some (takeN (size - k) m ++ b ++ dropN size m)) /\
      (size < k -> n20_stream_has_buffer_overflow (Some s) = true).
Proof.
  intros E cs Hcs k Hov. pose proof SZ_pos. destruct (C05_programs_render E cs Hcs) as [b Hb].
  assert (Hok0 : buffer_ok None 0) by (split; [assumption|exact I]).
  destruct (proj2 Hb _ [] None 0 [] Hok0 (shows_init _ _ Hok0)) as (s0 & v0 & E0 & S0 & _).
  unfold k, run_calls in *. rewrite E0 in *. rewrite app_nil_r in S0. destruct S0 as (C0 & W0 & _).
  rewrite W0 in Hov. rewrite C0. rewrite N.mod_small by lia.
  exists b. split; [reflexivity|]. intros m size Hs Hm.
  assert (Hok : buffer_ok (Some m) size) by (split; assumption).
  destruct (proj2 Hb _ [] (Some m) size [] Hok (shows_init _ _ Hok)) as (s & v & E1 & S1 & _).
  rewrite app_nil_r in S1. exists s. rewrite E1. pose proof S1 as (C1 & W1 & B1 & _ & lost & kept & K1 & K2 & K3 & K4).
  splits.
  - reflexivity.
  - rewrite C1. apply N.mod_small. lia.
  - rewrite W1. lia.
  - intro Hk. splits; [rewrite B1; lia|now apply (shows_contents E s m size)|].
    rewrite K3 in K1 by assumption. cbn in K1. subst kept. exact K4.
  - intro Hk. rewrite B1. lia.
Qed.
Print Assumptions C05_two_pass.

(** What was rendered before does not matter: appending [cs] to any earlier program [prior] puts the bytes of [cs] in
    front of those of [prior]. *)
Theorem C05_history_independent : forall (E : Env) prior cs, Forall call_ok prior -> Forall call_ok cs ->
  exists b0 b, renders tolerable (exec_calls prior) b0 /\ renders tolerable (exec_calls cs) b /\
    renders tolerable (exec_calls (prior ++ cs)) (b ++ b0) /\
    forall m size s, size < SZ -> size <= len m -> w_stream (run_calls (Some m) size (prior ++ cs)) = Some s ->
      len (b ++ b0) <= size -> stream_contents s = b ++ b0.
Proof.
  intros E prior cs H1 H2. destruct (C05_programs_render E prior H1) as [b0 R0]. destruct (C05_programs_render E cs H2) as [b R].
  assert (RR : renders tolerable (exec_calls (prior ++ cs)) (b ++ b0)).
  { apply (renders_ext tolerable (exec_calls prior ;; exec_calls cs)%cmd); [|now apply renders_seq].
    intro w. unfold exec_calls, andthen. now rewrite fold_left_app. }
  exists b0, b. splits; try assumption. intros m size s Hs Hm Es Hl.
  assert (Hok : buffer_ok (Some m) size) by (split; assumption).
  destruct (proj2 RR _ [] (Some m) size [] Hok (shows_init _ _ Hok)) as (s' & v & E1 & S1 & _).
  unfold run_calls in Es. rewrite E1 in Es. injection Es as <-. rewrite app_nil_r in S1. now apply (shows_contents E s' m size).
Qed.
Print Assumptions C05_history_independent.

(** C06: on a NULL stream nothing happens: it stays NULL and no NULL pointer is dereferenced. *)
Theorem C06_null_stream_safe : forall (E : Env) cs, Forall call_ok cs ->
  w_stream (exec_calls cs (mkWorld None [])) = None /\
  ~ In UBNullDeref (w_ub (exec_calls cs (mkWorld None []))) /\ ~ In UBWriteOob (w_ub (exec_calls cs (mkWorld None []))).
Proof.
  intros E cs Hcs. destruct (C05_programs_render E cs Hcs) as [b [Hb _]]. destruct (Hb []) as (v & H1 & H2 & H3).
  rewrite H2, app_nil_r. rewrite Forall_forall in H3.
  splits; [exact H1| |]; intro Hin; apply H3 in Hin; unfold tolerable in Hin;
    repeat (destruct Hin as [Hin|Hin]; [discriminate|]); discriminate.
Qed.
Print Assumptions C06_null_stream_safe.

(** The same on every other stream: nothing is written outside the buffer and no NULL pointer is dereferenced. *)
Theorem C06_all_streams_safe : forall (E : Env) cs buf size, Forall call_ok cs -> buffer_ok buf size ->
  ~ In UBNullDeref (w_ub (run_calls buf size cs)) /\ ~ In UBWriteOob (w_ub (run_calls buf size cs)).
Proof.
  intros E cs buf size Hcs Hok. destruct (C05_programs_render E cs Hcs) as [b [_ Hb]].
  destruct (Hb _ [] buf size [] Hok (shows_init _ _ Hok)) as (s & v & H1 & _ & H2 & H3).
  unfold run_calls. rewrite H2, app_nil_r. rewrite Forall_forall in H3.
  split; intro Hin; apply H3 in Hin; unfold tolerable in Hin;
    repeat (destruct Hin as [Hin|Hin]; [discriminate|]); discriminate.
Qed.
Print Assumptions C06_all_streams_safe.

#[local] Instance env64 : Env := {| size_width := W64; host_little_endian := true; stray := fun _ => x00 |}.

(** Two functions need their context pointer: they dereference NULL. *)
Theorem C06_null_context_refuted :
  In UBNullDeref (w_ub (n20_x509_public_key_info None (mkWorld None []))) /\
  In UBNullDeref (w_ub (n20_x509_validity None (mkWorld None []))).
Proof. split; vm_compute; intuition. Qed.
Print Assumptions C06_null_context_refuted.

(** A program with a nested callback; sizing says 14 bytes. *)
Definition example_program : list call :=
  [CCborInt (-5); CSequence (Some (exec_calls [CUint64 300 n20_asn1_tag_info_no_override; CBoolean true n20_asn1_tag_info_no_override]))
     (n20_asn1_tag_info_explicit 3); COctetstring None n20_asn1_tag_info_no_override].
Example C05_example :
  Forall call_ok example_program /\
  n20_stream_has_write_position_overflow (w_stream (run_calls None 0 example_program)) = false /\
  n20_stream_byte_count (w_stream (run_calls None 0 example_program)) = 14 /\
  option_map stream_contents (w_stream (run_calls (Some (repeat x00 20)) 16 example_program)) =
    Some (bytes [0x04; 0x00; 0xa3; 0x09; 0x30; 0x07; 0x01; 0x01; 0xff; 0x02; 0x02; 0x01; 0x2c; 0x24]) /\
  option_map s_bo (w_stream (run_calls (Some (repeat x00 20)) 13 example_program)) = Some true.
Proof.
  splits; [|vm_compute; reflexivity..].
  constructor; [|constructor; [|constructor; [|constructor]]].
  - cbn [call_ok]. lia.
  - apply C05_programs_render. constructor; [exact I|constructor; [exact I|constructor]].
  - exact I.
Qed.
(** The same program after another one; and by the theorem, in any buffer of 19 octets or more. *)
Example C05_history_case :
  Forall call_ok [CCborUint 500; CNull n20_asn1_tag_info_no_override] /\
  option_map stream_contents (w_stream (run_calls (Some (repeat x00 20)) 20 ([CCborUint 500; CNull n20_asn1_tag_info_no_override] ++ example_program))) =
    Some (bytes [0x04; 0x00; 0xa3; 0x09; 0x30; 0x07; 0x01; 0x01; 0xff; 0x02; 0x02; 0x01; 0x2c; 0x24; 0x05; 0x00; 0x19; 0x01; 0xf4]).
Proof. split; [repeat constructor|vm_compute; reflexivity]. Qed.
Example C06_example :
  Forall call_ok example_program /\ exec_calls example_program (mkWorld None []) <> mkWorld (Some (n20_stream_init None 0)) [] /\
  w_stream (exec_calls example_program (mkWorld None [])) = None.
Proof. splits; [apply C05_example| |vm_compute; reflexivity]. vm_compute. discriminate. Qed.
(** The 300 is rendered from a little-endian object: C17. *)
Example C06_all_streams_case :
  w_ub (run_calls (Some [x00; x00; x00]) 2 example_program) = [UBPtrArith] /\ w_ub (run_calls None 7 example_program) = [UBPtrArith] /\
  buffer_ok (Some [x00; x00; x00]) 2 /\ buffer_ok None 7 /\ ~ buffer_ok (Some [x00; x00; x00]) 4.
Proof.
  splits; [vm_compute; reflexivity..|split; [vm_compute; reflexivity|vm_compute; congruence]|split; [vm_compute; reflexivity|exact I]|]. intros [_ H]. vm_compute in H. congruence. Qed.
