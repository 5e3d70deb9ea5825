(** Words for the names of realization directories (C19). *)
From Coq Require Import List Arith Ascii.
From Verif Require Import Base ParseModel.
Import ListNotations.

Definition digit (c : ascii) : Prop := (48 <= nat_of_ascii c <= 57)%nat.
(** The number a string of decimal digits stands for. *)
Definition number (ds : pystr) : nat := fold_left (fun v c => 10 * v + (nat_of_ascii c - 48)) ds 0.
(** [k] with leading zeros up to three digits and no further ones. *)
Definition three_digits (k : nat) (ds : pystr) : Prop :=
  Forall digit ds /\ number ds = k /\ (3 <= List.length ds)%nat /\ (3 < List.length ds -> 10 ^ (List.length ds - 1) <= k)%nat.
