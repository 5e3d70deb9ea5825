(** What users rely on for hydraulic parameters. *)
From Coq Require Import List ZArith Reals.
From Verif Require Import Base Num ArrayModel HydraulicsModel.
Import ListNotations.
Local Open Scope R_scope.

(** The entry of a list for a facies. *)
Definition listed (l : list R) (f : Z) (v : R) : Prop := (0 <= f)%Z /\ nth_error l (Z.to_nat f) = Some v.

(** All lists of the hydraulics section have an entry for each of [n] facies. *)
Definition complete (h : hydro) (n : nat) : Prop :=
  List.length (h_k h) = n /\ List.length (h_ratio h) = n /\ List.length (h_n h) = n /\ List.length (h_sigy h) = n /\
  List.length (h_sign h) = n /\ List.length (h_ycorl h) = n /\ List.length (h_ncorl h) = n.
(** Every cell has one of [n] facies. *)
Definition facies_ok (s : shape) (g : geology) (n : nat) : Prop := forall c, In c (cells s) -> (0 <= g_fac g c < Z.of_nat n)%Z.

Definition positive_trend (t : option (R * R)) : Prop := match t with Some (a, b) => 0 < a /\ 0 < b | None => True end.
Definition positive_trends (t : trends) : Prop := positive_trend (tr_kz t) /\ positive_trend (tr_kx t).

(** The same section with other trends. *)
Definition with_trends (h : hydro) (t : trends) : hydro :=
  mkHydro (h_k h) (h_ratio h) (h_n h) (h_sigy h) (h_sign h) (h_ycorl h) (h_ncorl h) t (h_hydro h).
Definition no_trends : trends := mkTrends None None None None.

(** The linear factor that is [a] in the first and [b] in the last of n cells. *)
Definition linear_factor (a b : R) (n : nat) (f : nat -> R) : Prop :=
  f 0%nat = a /\ ((1 < n)%nat -> f (n - 1)%nat = b) /\ forall i, (S (S i) < n)%nat -> f (S (S i)) - f (S i) = f (S i) - f i.
