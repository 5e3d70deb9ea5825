(** What users rely on for channel centrelines. *)
From Coq Require Import List ZArith Reals Lra.
From Verif Require Import Base Num ChannelModel.
Import ListNotations.
Local Open Scope R_scope.

(** The polygon through the points (k, l_k). *)
Definition on_polygon (l : list R) (x v : R) : Prop :=
  (x <= 0 /\ v = nth 0 l 0) \/
  (INR (List.length l - 1) <= x /\ v = nth (List.length l - 1) l 0) \/
  exists i, (S i < List.length l)%nat /\ INR i <= x <= INR (S i) /\ v = (INR (S i) - x) * nth i l 0 + (x - INR i) * nth (S i) l 0.

(** Length of the polygon with corners p i, from corner i to corner i + n. *)
Fixpoint path_length (p : nat -> R * R) (i n : nat) : R :=
  match n with
  | O => 0
  | S n => path_length p i n + sqrt ((fst (p (i + S n)%nat) - fst (p (i + n)%nat)) ^ 2 + (snd (p (i + S n)%nat) - snd (p (i + n)%nat)) ^ 2)
  end.

(** [idx] selects corners in increasing order, starting with the first, whose
    distances along the polygon exceed [tol]; no corner between two of them
    (not counting those next to the first) or after the last could have been
    selected. *)
Definition next_ok (p : nat -> R * R) (tol : R) (a b : nat) : Prop :=
  (a < b)%nat /\ tol < path_length p a (b - a)%nat /\ path_length p (a + 1)%nat (b - 1 - (a + 1))%nat <= tol.
Fixpoint spaced (p : nat -> R * R) (tol : R) (n : nat) (a : nat) (l : list nat) : Prop :=
  match l with
  | [] => path_length p (a + 1)%nat (n - 1 - (a + 1))%nat <= tol
  | b :: r => next_ok p tol a b /\ (b < n)%nat /\ spaced p tol n b r
  end.

(** Each point is the one before it plus the velocity there. *)
Fixpoint chained (l : list cpoint) : Prop :=
  match l with
  | p :: (q :: _) as r => cp_x q = cp_x p + cp_vx p /\ cp_y q = cp_y p + cp_vy p /\ chained r
  | _ => True
  end.
(** Velocities of length [ds] in the directions [al]. *)
Definition directed (ds : R) (p : cpoint) (al : R) : Prop := cp_vx p = ds * cos al /\ cp_vy p = ds * sin al.
Definition total (l : list R) : R := fold_right Rplus 0 l.
