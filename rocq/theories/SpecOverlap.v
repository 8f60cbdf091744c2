(** What copying within the stream's own memory should do (C61). *)
From Coq Require Import List NArith Bool Strings.Byte.
From Verif Require Import Base SpecStream SpecApi.
From Verif Require Import Overlap.
Import ListNotations.
Open Scope N_scope.

Section Memory.
(** The memory at the beginning and the size of the window. *)
Variables (m : list byte) (size : N).

(** The memory with the output [out], which fits. *)
Definition with_output (out : list byte) : list byte := takeN (size - len out) m ++ out ++ dropN size m.

(** What the next call copies if the output is [out]. *)
Definition chunk (out : list byte) (op : source * N) : list byte :=
  match fst op with
  | Elsewhere d => takeN (snd op) d
  | Within o => takeN (snd op) (dropN o (with_output out))
  end.
(** The output of a history that fits. *)
Fixpoint output (out : list byte) (ops : list (source * N)) : list byte :=
  match ops with [] => out | op :: ops => output (chunk out op ++ out) ops end.

(** The source is readable. *)
Definition source_ok (op : source * N) : Prop :=
  match fst op with Elsewhere d => snd op <= len d | Within o => o + snd op <= len m end.
(** It does not overlap the place where its copy goes, in front of [written] bytes of output: nothing is copied, or the source lies in front of that
    place, or it consists of output and what lies behind the window. *)
Definition apart (written : N) (op : source * N) : Prop :=
  match fst op with
  | Elsewhere _ => True
  | Within o => snd op = 0 \/ size < written + snd op \/ o + snd op <= size - written - snd op \/ size - written <= o
  end.
Fixpoint all_apart (written : N) (ops : list (source * N)) : Prop :=
  match ops with [] => True | op :: ops => apart written op /\ all_apart (written + snd op) ops end.
(** The length of the output. *)
Definition total (ops : list (source * N)) : N := fold_right (fun op n => snd op + n) 0 ops.
(** The source lies in the first [limit] bytes or elsewhere. *)
Definition below (limit : N) (op : source * N) : Prop :=
  match fst op with Elsewhere _ => True | Within o => snd op = 0 \/ o + snd op <= limit end.
(** The same call with a source elsewhere that holds what was in the memory at the beginning. *)
Definition separate (op : source * N) : stream_op :=
  match fst op with Elsewhere d => Prepend d (snd op) | Within o => Prepend (takeN (snd op) (dropN o m)) (snd op) end.
End Memory.

(** An argument that depends on the first [limit] bytes only. *)
Definition reads_below {T} (limit : N) (f : list byte -> T) : Prop := forall m1 m2, takeN limit m1 = takeN limit m2 -> f m1 = f m2.
