(** Outcomes of the crypto code, checked array accesses and counting loops. *)
From Coq Require Import List NArith ZArith Bool Strings.Byte.
From Verif Require Import Base.
Import ListNotations.
Open Scope N_scope.

(** A function of the crypto code either returns, or executes undefined behaviour (nothing is known from there on). [OutOfFuel] is
    an artefact of writing an unbounded loop as a total function; theorems exclude it. *)
Inductive res (A : Type) :=
| Ret (a : A)
| Undef (u : ub)
| OutOfFuel.
Arguments Ret {A} _.
Arguments Undef {A} _.
Arguments OutOfFuel {A}.

Definition bind {A B} (x : res A) (f : A -> res B) : res B :=
  match x with Ret a => f a | Undef u => Undef u | OutOfFuel => OutOfFuel end.
Notation "'do' x <- e ; f" := (bind e (fun x => f)) (at level 200, x pattern, e at level 100, f at level 200, right associativity).

(** Array element [a[i]]: reading and writing outside the array is undefined (C11 6.5.6p8). *)
Definition get {A} (a : list A) (i : N) : res A :=
  match nth_error a (N.to_nat i) with Some x => Ret x | None => Undef UBReadOob end.
Definition set {A} (a : list A) (i : N) (x : A) : res (list A) :=
  if i <? len a then Ret (takeN i a ++ x :: dropN (i + 1) a) else Undef UBWriteOob.

(** [for (i = lo; i < hi; ++i) s = body(i, s)]. *)
Fixpoint iterate {S} (n : nat) (i : N) (body : N -> S -> res S) (s : S) : res S :=
  match n with
  | O => Ret s
  | Datatypes.S n => do s <- body i s; iterate n (i + 1) body s
  end.
Definition for_range {S} (lo hi : N) (body : N -> S -> res S) (s : S) : res S := iterate (N.to_nat (hi - lo)) lo body s.

(** A write of [src] at the start of the object behind a pointer. *)
Definition store (p : ptr) (src : list byte) : res ptr :=
  match p with
  | None => match src with [] => Ret p | _ => Undef UBNullDeref end
  | Some d => if len src <=? len d then Ret (Some (src ++ dropN (len src) d)) else Undef UBWriteOob
  end.
