(** Properties C01-C04: the stream. Histories [ops] are arbitrary lists of n20_stream_prepend / n20_stream_put calls with
    readable sources ([op_ok]); [run buf size ops] is n20_stream_init(s, buf, size) followed by the history;
    [written ops] is the concatenation of the requested bytes, most recent first. *)
From Coq Require Import List NArith ZArith Bool Strings.Byte.
From Verif Require Import Base BaseFacts Stream SpecStream StreamOpsProofs.
Import ListNotations.
Open Scope N_scope.

(** A concrete environment for the examples: 64-bit little-endian, stray reads yield 0. *)
#[local] Instance env64 : Env := {| size_width := W64; host_little_endian := true; stray := fun _ => x00 |}.

(** C01: no write leaves the window [buf[0..size)]; what lies behind keeps its value, and so does the part of the window
    in front of the output; no undefined behaviour occurs. *)
Theorem C01_stream_writes_stay_in_buffer : forall (E : Env) m size ops,
  size < SZ -> size <= len m -> Forall op_ok ops ->
  exists s m',
    run (Some m) size ops = mkWorld (Some s) [] /\ s_begin s = Some m' /\ len m' = len m /\
    dropN size m' = dropN size m /\
    takeN (size - len (written ops)) m' = takeN (size - len (written ops)) m.
Proof. intros E. exact run_confined. Qed.
Print Assumptions C01_stream_writes_stay_in_buffer.

(** Memory of six bytes, window of four; two bytes written, then an overflowing write. *)
Example C01_example :
  exists s, run (Some (bytes [1; 2; 3; 4; 5; 6])) 4 [Put (n2b 9); Put (n2b 8); Prepend (bytes [7; 7; 7]) 3]
            = mkWorld (Some s) [] /\ s_begin s = Some (bytes [1; 2; 8; 9; 5; 6]) /\ s_bo s = true.
Proof. eexists. vm_compute. repeat split. Qed.

(** C01, NULL buffer: nothing is written anywhere. *)
Theorem C01_null_buffer_writes_nothing : forall (E : Env) size ops,
  size < SZ -> Forall op_ok ops ->
  exists s, run None size ops = mkWorld (Some s) [] /\ s_begin s = None.
Proof.
  intros E size ops Hs Ho. destruct (run_shows None size ops (conj Hs I) Ho) as (s & H & _ & _ & _ & _ & Hm). eauto.
Qed.
Print Assumptions C01_null_buffer_writes_nothing.
Example C01_null_case :
  exists s, run None 4 [Put (n2b 9); Prepend (bytes [7; 7; 7]) 2] = mkWorld (Some s) [] /\ s_begin s = None /\ s_wp s = 3 /\ s_bo s = true.
Proof. eexists. vm_compute. repeat split. Qed.

(** C02: the byte count is the number of bytes requested, modulo the range of size_t, whatever the buffer. *)
Theorem C02_stream_byte_count_exact : forall (E : Env) buf size ops,
  buffer_ok buf size -> Forall op_ok ops ->
  n20_stream_byte_count (w_stream (run buf size ops)) = len (written ops) mod SZ.
Proof. intros E. exact run_count. Qed.
Print Assumptions C02_stream_byte_count_exact.

Example C02_example :
  n20_stream_byte_count (w_stream (run None 0 [Prepend (bytes [1; 2; 3]) 2; Put x00])) = 3 /\
  n20_stream_byte_count (w_stream (run (Some []) 0 [Prepend (bytes [1; 2; 3]) 2; Put x00])) = 3.
Proof. now vm_compute. Qed.

(** C03: the overflow flags are precise ... *)
Theorem C03_stream_overflow_flags_precise : forall (E : Env) buf size ops,
  buffer_ok buf size -> Forall op_ok ops ->
  exists s, w_stream (run buf size ops) = Some s /\
    (n20_stream_has_buffer_overflow (Some s) = true <-> buf = None \/ size < len (written ops)) /\
    (n20_stream_has_write_position_overflow (Some s) = true <-> SZ <= len (written ops)).
Proof. intros E. exact run_flags. Qed.
Print Assumptions C03_stream_overflow_flags_precise.
(** The same three bytes into three bytes, into two and into none at all. *)
Example C03_precise_case :
  let ops := [Prepend (bytes [1; 2]) 2; Put x00] in
  Forall op_ok ops /\ map (fun b => option_map s_bo (w_stream (run (Some (repeat x00 3)) b ops))) [3; 2] = [Some false; Some true] /\
  option_map s_bo (w_stream (run None 3 ops)) = Some true.
Proof. split; [|split; vm_compute; reflexivity]. repeat constructor; vm_compute; congruence. Qed.

(** ... sticky, from any stream state whatsoever and for arbitrary calls ... *)
Theorem C03_stream_overflow_flags_sticky : forall (E : Env) ops s u,
  exists s', w_stream (exec_ops ops (mkWorld (Some s) u)) = Some s' /\
    (n20_stream_has_buffer_overflow (Some s) = true -> n20_stream_has_buffer_overflow (Some s') = true) /\
    (n20_stream_has_write_position_overflow (Some s) = true ->
     n20_stream_has_write_position_overflow (Some s') = true).
Proof. intros E. exact flags_sticky. Qed.
Print Assumptions C03_stream_overflow_flags_sticky.

(** ... position overflow implies buffer overflow ... *)
Theorem C03_stream_position_overflow_implies_buffer_overflow : forall (E : Env) buf size ops s,
  buffer_ok buf size -> Forall op_ok ops -> w_stream (run buf size ops) = Some s ->
  n20_stream_has_write_position_overflow (Some s) = true -> n20_stream_has_buffer_overflow (Some s) = true.
Proof. intros E. exact run_wpo_implies_bo. Qed.
Print Assumptions C03_stream_position_overflow_implies_buffer_overflow.
(** Two halves of the range of a 32-bit size_t. *)
Example C03_position_case : let E := {| size_width := W32; host_little_endian := true; stray := fun _ => x00 |} in
  forall half, len half = 2147483648 ->
  exists s, w_stream (@run E None 0 [Prepend half 2147483648; Prepend half 2147483648]) = Some s /\
    n20_stream_has_write_position_overflow (Some s) = true /\ n20_stream_has_buffer_overflow (Some s) = true /\ n20_stream_byte_count (Some s) = 0.
Proof.
  intros E half Hl. set (ops := [Prepend half 2147483648; Prepend half 2147483648]).
  assert (Hops : Forall (@op_ok E) ops) by (repeat constructor; rewrite ?Hl; vm_compute; congruence).
  assert (Hw : len (written ops) = 4294967296).
  { unfold written, ops. cbn [rev map app op_bytes concat]. rewrite !takeN_all by (rewrite Hl; apply N.le_refl). now rewrite !len_app, Hl. }
  assert (Hb : @buffer_ok E None 0) by (split; [reflexivity|exact I]).
  destruct (C03_stream_overflow_flags_precise E None 0 ops Hb Hops) as (s & Es & _ & Hp).
  assert (Hp' : n20_stream_has_write_position_overflow (Some s) = true) by (apply Hp; rewrite Hw; apply N.le_refl).
  exists s. splits; [exact Es|exact Hp'| |].
  - exact (C03_stream_position_overflow_implies_buffer_overflow E None 0 ops s Hb Hops Es Hp').
  - pose proof (C02_stream_byte_count_exact E None 0 ops Hb Hops) as Hc. now rewrite Es, Hw in Hc.
Qed.
Example C03_such_a_half : len (repeat x00 (N.to_nat 2147483648)) = 2147483648.
Proof. now rewrite len_repeat, N2Nat.id. Qed.

(** ... and a NULL stream reports both. *)
Theorem C03_null_stream_reports_overflow :
  n20_stream_has_buffer_overflow None = true /\ n20_stream_has_write_position_overflow None = true /\
  n20_stream_byte_count None = 0.
Proof. repeat split. Qed.
Print Assumptions C03_null_stream_reports_overflow.

(** A stream about to wrap: one more byte sets both flags although the wrapped count (0) fits the buffer. *)
Example C03_example :
  let s := mkStream (Some [x00; x00]) 2 18446744073709551615 true false in
  match w_stream (exec_ops [Put x01; Put x02] (mkWorld (Some s) [])) with
  | Some s' => s_wp s' = 1 /\ s_bo s' = true /\ s_wpo s' = true
  | None => False
  end.
Proof. vm_compute. repeat split. Qed.

(** C04: without overflow, the reported bytes are the writes, most recent first, at the end of the window; the front of the
    window and everything behind it are untouched. *)
Theorem C04_stream_content_is_the_writes : forall (E : Env) buf size ops s,
  buffer_ok buf size -> Forall op_ok ops ->
  w_stream (run buf size ops) = Some s ->
  n20_stream_has_buffer_overflow (Some s) = false ->
  stream_contents s = written ops /\
  exists m, buf = Some m /\
    s_begin s = Some (takeN (size - len (written ops)) m ++ written ops ++ dropN size m).
Proof. intros E. exact run_contents. Qed.
Print Assumptions C04_stream_content_is_the_writes.

(** With or without overflow, the window ends with a suffix of the output. *)
Theorem C04_stream_keeps_a_suffix : forall (E : Env) m size ops s,
  size < SZ -> size <= len m -> Forall op_ok ops ->
  w_stream (run (Some m) size ops) = Some s ->
  exists lost kept,
    written ops = lost ++ kept /\ len kept <= size /\
    s_begin s = Some (takeN (size - len kept) m ++ kept ++ dropN size m).
Proof. intros E. exact run_suffix. Qed.
Print Assumptions C04_stream_keeps_a_suffix.
(** Five bytes are requested in a window of four: the front ones are lost with the call that did not fit. *)
Example C04_suffix_case :
  let ops := [Prepend (bytes [10; 11]) 2; Prepend (bytes [7; 8; 9]) 3] in
  Forall op_ok ops /\ written ops = bytes [7; 8; 9; 10; 11] /\
  option_map s_begin (w_stream (run (Some (bytes [1; 2; 3; 4; 5; 6])) 4 ops)) = Some (Some (bytes [1; 2; 10; 11; 5; 6])).
Proof. split; [|split; vm_compute; reflexivity]. repeat constructor; vm_compute; congruence. Qed.

(** Bytes once written are never altered by later calls: after an overflow the memory no longer changes at all; before,
    everything from the current data position on stays as it is. *)
Theorem C04_stream_never_alters_written_bytes : forall (E : Env) m size ops1 ops2 s1 s2 m1 m2,
  size < SZ -> size <= len m -> Forall op_ok ops1 -> Forall op_ok ops2 ->
  w_stream (run (Some m) size ops1) = Some s1 ->
  w_stream (run (Some m) size (ops1 ++ ops2)) = Some s2 ->
  s_begin s1 = Some m1 -> s_begin s2 = Some m2 ->
  (n20_stream_has_buffer_overflow (Some s1) = true -> m2 = m1) /\
  (n20_stream_has_buffer_overflow (Some s1) = false ->
     dropN (size - len (written ops1)) m2 = dropN (size - len (written ops1)) m1).
Proof. intros E. exact exec_ops_preserves. Qed.
Print Assumptions C04_stream_never_alters_written_bytes.
(** Later calls: one that fits, one that does not, and another one, which would have fitted. *)
Example C04_never_alters_case :
  map (fun ops => option_map s_begin (w_stream (run (Some (bytes [1; 2; 3; 4; 5; 6])) 5 ops)))
    [[Put (n2b 9)]; [Put (n2b 9); Prepend (bytes [7; 8]) 2]; [Put (n2b 9); Prepend (bytes [7; 8]) 2; Prepend (bytes [20; 21; 22]) 3];
     [Put (n2b 9); Prepend (bytes [7; 8]) 2; Prepend (bytes [20; 21; 22]) 3; Put (n2b 33)]] =
  map (fun l => Some (Some (bytes l))) [[1; 2; 3; 4; 9; 6]; [1; 2; 7; 8; 9; 6]; [1; 2; 7; 8; 9; 6]; [1; 2; 7; 8; 9; 6]].
Proof. vm_compute. reflexivity. Qed.

Example C04_example :
  match w_stream (run (Some (bytes [1; 2; 3; 4; 5; 6])) 5 [Prepend (bytes [10; 11]) 2; Put (n2b 9)]) with
  | Some s => stream_contents s = bytes [9; 10; 11] /\ s_bo s = false
              /\ s_begin s = Some (bytes [1; 2; 9; 10; 11; 6])
  | None => False
  end.
Proof. now vm_compute. Qed.
