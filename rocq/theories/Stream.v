(** Model of src/core/stream.c and include/nat20/stream.h. *)
From Coq Require Import List NArith ZArith Bool Strings.Byte.
From Verif Require Import Base.
Import ListNotations.
Open Scope N_scope.

(** include/nat20/stream.h: struct n20_stream_s. [s_begin] is the caller's memory from [begin] on (it may be longer than
    [size]; what lies behind must stay untouched); [None] is a NULL [begin]. *)
Record stream := mkStream {
  s_begin : option (list byte);
  s_size : N;
  s_wp : N;                       (* write_position *)
  s_bo : bool;                    (* buffer_overflow *)
  s_wpo : bool                    (* write_position_overflow *)
}.

(** The execution state of the rendering code: the stream argument (None = NULL pointer) and the undefined behaviour
    incurred so far. Rendering code reads its other arguments but writes nothing else. *)
Record world := mkWorld { w_stream : option stream; w_ub : list ub }.

Definition cmd := world -> world.

Definition skip : cmd := fun w => w.
Definition andthen (f g : cmd) : cmd := fun w => g (f w).
Definition log (u : list ub) : cmd := fun w => mkWorld (w_stream w) (u ++ w_ub w).
Definition when (b : bool) (f : cmd) : cmd := if b then f else skip.

Declare Scope cmd_scope.
Delimit Scope cmd_scope with cmd.
Bind Scope cmd_scope with cmd.
Notation "f ;; g" := (andthen f g) (at level 61, left associativity) : cmd_scope.

(** src/core/stream.c:20-31 n20_stream_init (for a non-NULL [s]; a NULL [s] is a no-op). *)
Definition n20_stream_init (buffer : option (list byte)) (buffer_size : N) : stream :=
  {| s_bo := match buffer with None => true | Some _ => false end;
     s_begin := buffer;
     s_size := match buffer with None => 0 | Some _ => buffer_size end;
     s_wp := 0;
     s_wpo := false |}.

(** src/core/stream.c:33-35 *)
Definition n20_stream_has_buffer_overflow (s : option stream) : bool :=
  match s with None => true | Some s => s_bo s end.

(** src/core/stream.c:37-39 *)
Definition n20_stream_has_write_position_overflow (s : option stream) : bool :=
  match s with None => true | Some s => s_wpo s end.

(** src/core/stream.c:47-49 *)
Definition n20_stream_byte_count (s : option stream) : N :=
  match s with None => 0 | Some s => s_wp s end.

(** src/core/stream.c:56-58. The returned pointer is given as a byte offset from [begin]; [None] is NULL. The size_t
    subtraction wraps and the pointer addition is taken modulo the address space. *)
Definition n20_stream_data `{Env} (s : option stream) : option N :=
  match s with None => None | Some s => Some (sub_sz (s_size s) (s_wp s)) end.

(** [memcpy(begin + off, src, n)] into the caller's memory [mem] (used at src/core/stream.c:77). *)
Definition memcpy_into `{Env} (mem : option (list byte)) (off : N) (src : ptr) (n : N)
  : option (list byte) * list ub :=
  match mem, src with
  | None, _ => (mem, [UBNullDeref])
  | Some _, None => (mem, if n =? 0 then [UBMemcpyNull] else [UBNullDeref])
  | Some m, Some d =>
      if off + n <=? len m
      then (Some (takeN off m ++ load d n ++ dropN (off + n) m), load_ub d n)
      else (mem, UBWriteOob :: load_ub d n)
  end.

(** src/core/stream.c:64-79 *)
Definition n20_stream_prepend `{Env} (src : ptr) (src_len : N) : cmd := fun w =>
  match w_stream w with
  | None => w
  | Some s =>
      let old_pos := s_wp s in
      let wp := wrap_sz (s_wp s + src_len) in
      let wpo := s_wpo s || (wp <? old_pos) in
      let bo := wpo || s_bo s || (s_size s <? wp) in
      if bo
      then mkWorld (Some (mkStream (s_begin s) (s_size s) wp bo wpo)) (w_ub w)
      else
        let '(m, u) := memcpy_into (s_begin s) (sub_sz (s_size s) wp) src src_len in
        mkWorld (Some (mkStream m (s_size s) wp bo wpo)) (u ++ w_ub w)
  end.

(** src/core/stream.c:81-83 *)
Definition n20_stream_put `{Env} (c : byte) : cmd := n20_stream_prepend (Some [c]) 1.

(** The idiom [size_t mark = n20_stream_byte_count(s); f(s); g(s, n20_stream_byte_count(s) - mark);] *)
Definition with_length `{Env} (f : cmd) (g : N -> cmd) : cmd := fun w =>
  let mark := n20_stream_byte_count (w_stream w) in
  let w1 := f w in
  g (sub_sz (n20_stream_byte_count (w_stream w1)) mark) w1.
