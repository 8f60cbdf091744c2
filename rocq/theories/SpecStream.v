(** Specification of the stream: what a caller observes, in terms of the bytes written so far. *)
From Coq Require Import List NArith ZArith Bool Strings.Byte.
From Verif Require Import Base Stream.
Import ListNotations.
Open Scope N_scope.

(** A buffer argument is acceptable if it is NULL or really has [size] bytes. *)
Definition buffer_ok `{Env} (buf : option (list byte)) (size : N) : Prop :=
  size < SZ /\ match buf with None => True | Some m => size <= len m end.

(** [shows s buf size out]: stream [s], initialised with memory [buf] and size [size], looks as it must after the bytes
    [out] have been written in front of one another (the most recently written first):
    - the byte count is the number of bytes, modulo the range of size_t;
    - write position overflow is reported iff that number does not fit in size_t;
    - buffer overflow is reported iff there was no buffer or the bytes do not fit;
    - the memory consists of its original front, then an intact suffix [kept] of the output ending exactly at [size], then
      its original rest; the suffix is the whole output if it fits. *)
Definition shows `{Env} (s : stream) (buf : option (list byte)) (size : N) (out : list byte) : Prop :=
  n20_stream_byte_count (Some s) = len out mod SZ /\
  n20_stream_has_write_position_overflow (Some s) = (SZ <=? len out) /\
  n20_stream_has_buffer_overflow (Some s)
    = match buf with None => true | Some _ => size <? len out end /\
  s_size s = match buf with None => 0 | Some _ => size end /\
  match buf with
  | None => s_begin s = None
  | Some m =>
      exists lost kept,
        out = lost ++ kept /\
        len kept <= size /\
        (len out <= size -> lost = []) /\
        s_begin s = Some (takeN (size - len kept) m ++ kept ++ dropN size m)
  end.

(** [renders allowed f b]: running [f] writes exactly the bytes [b], whatever the stream, its buffer and its history;
    a NULL stream stays NULL; and the only undefined behaviour incurred satisfies [allowed]. *)
Definition renders `{Env} (allowed : ub -> Prop) (f : cmd) (b : list byte) : Prop :=
  (forall u, exists v,
      w_stream (f (mkWorld None u)) = None /\
      w_ub (f (mkWorld None u)) = v ++ u /\ Forall allowed v) /\
  (forall s u buf size out,
      buffer_ok buf size -> shows s buf size out ->
      exists s' v,
        w_stream (f (mkWorld (Some s) u)) = Some s' /\ shows s' buf size (b ++ out) /\
        w_ub (f (mkWorld (Some s) u)) = v ++ u /\ Forall allowed v).

(** No undefined behaviour at all. *)
Definition clean : ub -> Prop := fun _ => False.
(** Only reads outside an object and out-of-range pointer values (no stray writes, NULL accesses or overflows). *)
Definition stray_reads : ub -> Prop := fun u => u = UBReadOob \/ u = UBPtrArith.

(** ** Histories of API calls *)

(** A call to [n20_stream_prepend(s, src, n)] with a readable [src], or to [n20_stream_put(s, c)]. *)
Inductive stream_op := Prepend (src : list byte) (n : N) | Put (c : byte).

Definition op_ok `{Env} (o : stream_op) : Prop :=
  match o with Prepend src n => n <= len src /\ n < SZ | Put _ => True end.

Definition exec_op `{Env} (o : stream_op) : cmd :=
  match o with Prepend src n => n20_stream_prepend (Some src) n | Put c => n20_stream_put c end.

Definition exec_ops `{Env} (ops : list stream_op) (w : world) : world :=
  fold_left (fun w o => exec_op o w) ops w.

(** The bytes requested by one call, and by a whole history (the most recent first). *)
Definition op_bytes (o : stream_op) : list byte :=
  match o with Prepend src n => takeN n src | Put c => [c] end.
Definition written (ops : list stream_op) : list byte := concat (map op_bytes (rev ops)).

(** The state after initialising a stream and running a history. *)
Definition run `{Env} (buf : option (list byte)) (size : N) (ops : list stream_op) : world :=
  exec_ops ops (mkWorld (Some (n20_stream_init buf size)) []).

(** The bytes [n20_stream_byte_count] of them at [n20_stream_data]. *)
Definition stream_contents `{Env} (s : stream) : list byte :=
  match n20_stream_data (Some s), s_begin s with
  | Some off, Some m => takeN (n20_stream_byte_count (Some s)) (dropN off m)
  | _, _ => []
  end.
