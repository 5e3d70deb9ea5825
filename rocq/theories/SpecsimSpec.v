(** What users rely on for random fields. *)
From Coq Require Import List ZArith Reals.
From Verif Require Import Base Num ArrayModel.
Import ListNotations.
Local Open Scope R_scope.

(** The smallest box holding all selected cells: every selected cell is in it,
    and a selected cell lies on each of its six faces. *)
Definition smallest_box (s : shape) (m : mask) (lo hi : cell) : Prop :=
  (forall c, In c (cells s) -> m c = true ->
     (cx lo <= cx c <= cx hi /\ cy lo <= cy c <= cy hi /\ cz lo <= cz c <= cz hi)%nat) /\
  (exists c, In c (cells s) /\ m c = true /\ cx c = cx lo) /\ (exists c, In c (cells s) /\ m c = true /\ cx c = cx hi) /\
  (exists c, In c (cells s) /\ m c = true /\ cy c = cy lo) /\ (exists c, In c (cells s) /\ m c = true /\ cy c = cy hi) /\
  (exists c, In c (cells s) /\ m c = true /\ cz c = cz lo) /\ (exists c, In c (cells s) /\ m c = true /\ cz c = cz hi).

(** The cell at the same place relative to the corner. *)
Definition relative (lo c : cell) : cell := (cx c - cx lo, cy c - cy lo, cz c - cz lo)%nat.

(** The sum over a line in x direction. *)
Definition line_sum (n : nat) (y : cell -> R) (j k : nat) : R :=
  fold_right (fun i t => y (i, j, k) + t) 0 (seq 0 n).
