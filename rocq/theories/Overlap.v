(** Rendering with inputs that lie in the memory of the stream itself.

    Everything the rendering functions copy goes through n20_stream_prepend, modelled here once more with a source that may lie in the caller's memory behind [begin].
    For the other functions, see the simplification at [exec_late]. *)
From Coq Require Import List NArith Bool Strings.Byte.
From Verif Require Import Base Stream SpecApi.
Import ListNotations.
Open Scope N_scope.

(** A source in another object, with the bytes from it to the end of that object, or at an offset from [begin] in the stream's memory. *)
Inductive source := Elsewhere (d : list byte) | Within (o : N).

(** Copying [n > 0] bytes within one object is undefined if source and destination overlap (C11 7.24.2.1p2). *)
Definition overlapping (src dst n : N) : bool := (0 <? n) && (src <? dst + n) && (dst <? src + n).

(** The state and whether an overlapping copy has taken place. *)
Definition marked : Type := world * bool.

(** src/core/stream.c:64-79. After an overlapping copy the model continues with the bytes that memmove would give; nothing is claimed about them. *)
Definition n20_stream_prepend_at `{Env} (src : source) (src_len : N) : marked -> marked := fun '(w, bad) =>
  match src with
  | Elsewhere d => (n20_stream_prepend (Some d) src_len w, bad)
  | Within o =>
      match w_stream w with
      | None => (w, bad)
      | Some s =>
          let old_pos := s_wp s in
          let wp := wrap_sz (s_wp s + src_len) in
          let wpo := s_wpo s || (wp <? old_pos) in
          let bo := wpo || s_bo s || (s_size s <? wp) in
          if bo
          then (mkWorld (Some (mkStream (s_begin s) (s_size s) wp bo wpo)) (w_ub w), bad)
          else
            let dst := sub_sz (s_size s) wp in
            let '(m, u) := memcpy_into (s_begin s) dst (option_map (dropN o) (s_begin s)) src_len in
            (mkWorld (Some (mkStream m (s_size s) wp bo wpo)) (u ++ w_ub w), bad || overlapping o dst src_len)
      end
  end.

(** A history of such calls, and one from n20_stream_init on. *)
Definition prepend_all `{Env} (ops : list (source * N)) (x : marked) : marked :=
  fold_left (fun x op => n20_stream_prepend_at (fst op) (snd op) x) ops x.
Definition run_at `{Env} (m : list byte) (size : N) (ops : list (source * N)) : marked :=
  prepend_all ops (mkWorld (Some (n20_stream_init (Some m) size)) [], false).

(** The caller's memory as it is. *)
Definition memory_of (w : world) : list byte :=
  match w_stream w with Some s => match s_begin s with Some m => m | None => [] end | None => [] end.
(** A program of public calls, each with arguments taken from the stream's memory. Simplified: a call reads them all at its start, where the code reads each
    just before it copies it. *)
Definition exec_late `{Env} (cs : list (list byte -> call)) (w : world) : world :=
  fold_left (fun w c => exec_call (c (memory_of w)) w) cs w.
Definition run_late `{Env} (m : list byte) (size : N) (cs : list (list byte -> call)) : world :=
  exec_late cs (mkWorld (Some (n20_stream_init (Some m) size)) []).
