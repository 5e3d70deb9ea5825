(** Vocabulary for statements about contact surfaces (real numbers). *)
From Coq Require Import List ZArith Reals.
From Verif Require Import Base Num SurfaceModel.
Import ListNotations.
Local Open Scope R_scope.

(** The elevation of surface [a] in column [k]. *)
Definition col (st : store R) (a k : nat) : option R :=
  match nth_error st a with Some s => nth_error (vals s) k | None => None end.

(** All surfaces have [n] columns and their zmin and zmax bound all values. *)
Definition bounded (s : surface R) : Prop := Forall (fun v => zmin s <= v <= zmax s) (vals s).
Definition wf (n : nat) (st : store R) : Prop := Forall (fun s => List.length (vals s) = n /\ bounded s) st.

(** Surface [a] is nowhere above surface [b]. *)
Definition below (st : store R) (a b : nat) : Prop :=
  forall k x y, col st a k = Some x -> col st b k = Some y -> x <= y.
