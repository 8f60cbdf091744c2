(** What it means that rendering code calls the callbacks it was given exactly once each and in a certain order.

    A session is what the code does as seen by somebody who only watches the calls: it calls a callback with some world and goes on with whatever world the callback
    leaves behind, until it is done. It is made without knowing the callbacks. *)
From Coq Require Import List NArith.
From Verif Require Import Base Stream.
Import ListNotations.

Inductive session :=
| Done (w : world)
| Call (i : nat) (w : world) (k : world -> session).

(** The session with these callbacks. *)
Fixpoint played (cbs : nat -> cmd) (t : session) : world :=
  match t with
  | Done w => w
  | Call i w k => played cbs (k (cbs i w))
  end.

(** Whatever the callbacks do, the ones called are those of the list, in this order. *)
Inductive calls : list nat -> session -> Prop :=
| calls_none : forall w, calls [] (Done w)
| calls_one : forall i l w k, (forall w', calls l (k w')) -> calls (i :: l) (Call i w k).

(** [f] is the code as a function of the callbacks that it is given. *)
Definition calls_in_order (l : list nat) (f : (nat -> cmd) -> cmd) : Prop :=
  exists t : world -> session, (forall w, calls l (t w)) /\ forall cbs w, f cbs w = played cbs (t w).

(** The numbers below [n] that satisfy [p], the greatest first. *)
Fixpoint downwards (n : nat) (p : nat -> bool) : list nat :=
  match n with
  | O => []
  | S i => if p i then i :: downwards i p else downwards i p
  end.
