(** What users rely on for the statistics of random fields. *)
From Coq Require Import List ZArith Reals.
From Verif Require Import Base Num ArrayModel SpecsimModel.
Import ListNotations.
Local Open Scope R_scope.

(** 1 for the same cell, 0 otherwise. *)
Definition kron (f g : cell) : R :=
  if (Nat.eqb (cx f) (cx g) && Nat.eqb (cy f) (cy g) && Nat.eqb (cz f) (cz g))%bool then 1 else 0.

(** [E] is the expectation of independent draws with mean 0 and variance 1
    (only that they are uncorrelated is used). *)
Record unit_draws (s : shape) (E : (noise -> R) -> R) : Prop := {
  ud_ext : forall X Y, (forall e, X e = Y e) -> E X = E Y;
  ud_add : forall X Y, E (fun e => X e + Y e) = E X + E Y;
  ud_scale : forall a X, E (fun e => a * X e) = a * E X;
  ud_re : forall f, In f (cells s) -> E (fun e => no_re e f) = 0;
  ud_im : forall f, In f (cells s) -> E (fun e => no_im e f) = 0;
  ud_rere : forall f g, In f (cells s) -> In g (cells s) -> E (fun e => no_re e f * no_re e g) = kron f g;
  ud_imim : forall f g, In f (cells s) -> In g (cells s) -> E (fun e => no_im e f * no_im e g) = kron f g;
  ud_reim : forall f g, In f (cells s) -> In g (cells s) -> E (fun e => no_re e f * no_im e g) = 0 }.

(** Expectation and covariance of the values of a random field. *)
Definition mean_at (E : (noise -> R) -> R) (Y : noise -> cell -> R) (c : cell) : R := E (fun e => Y e c).
Definition cov_at (E : (noise -> R) -> R) (Y : noise -> cell -> R) (c d : cell) : R := E (fun e => Y e c * Y e d).

(** The documented covariance of two cells that are [a], [b], [c] cells apart in
    the three directions: variance, correlation lengths, and the spacing of the
    cells. *)
Record cov_params := mkCov { cv_model : covmod; cv_var : R; cv_dx : R; cv_dy : R; cv_dz : R; cv_corl : R * R * R }.
Definition cov_of_lag (v : cov_params) (a b c : Z) : R :=
  let h2 := (IZR a * cv_dx v / fst (fst (cv_corl v))) ^ 2 + (IZR b * cv_dy v / snd (fst (cv_corl v))) ^ 2 +
            (IZR c * cv_dz v / snd (cv_corl v)) ^ 2 in
  match cv_model v with
  | Exponential => cv_var v * exp (- sqrt h2)
  | _ => cv_var v * exp (- h2)
  end.
Definition documented_cov (v : cov_params) (c d : cell) : R :=
  cov_of_lag v (Z.of_nat (cx c) - Z.of_nat (cx d)) (Z.of_nat (cy c) - Z.of_nat (cy d)) (Z.of_nat (cz c) - Z.of_nat (cz d)).

(** Coordinates of a regular grid. *)
Definition regular (co : coords) (v : cov_params) : Prop :=
  exists x0 y0 z0, forall i, co_x co i = x0 + INR i * cv_dx v /\ co_y co i = y0 + INR i * cv_dy v /\ co_z co i = z0 + INR i * cv_dz v.

(** Numbers of cells from [b] to [a] on a ring of n cells. *)
Definition same_lag (n a b a' b' : nat) : Prop :=
  exists k : Z, (Z.of_nat a - Z.of_nat b = Z.of_nat a' - Z.of_nat b' + k * Z.of_nat n)%Z.

(** The distance on a ring of 2m+1 cells, counted from -m to m. *)
Definition ring_distance (m a b d : Z) : Prop :=
  (- m <= d <= m)%Z /\ exists k : Z, (d = a - b + k * (2 * m + 1))%Z.

(** A box with 2*mx+1, 2*my+1, 2*mz+1 cells around the cell (mx, my, mz): the
    Fourier transform of the documented covariance there, at the frequency f. *)
Definition box_transform (v : cov_params) (mx my mz : nat) (f : cell) : R :=
  let lag i m := (Z.of_nat i - Z.of_nat m)%Z in
  sum_cells (2 * mx + 1, 2 * my + 1, 2 * mz + 1)%nat (fun c =>
    cov_of_lag v (lag (cx c) mx) (lag (cy c) my) (lag (cz c) mz) *
    cos (2 * PI * (INR (cx f) * IZR (lag (cx c) mx) / INR (2 * mx + 1) + INR (cy f) * IZR (lag (cy c) my) / INR (2 * my + 1)
                   + INR (cz f) * IZR (lag (cz c) mz) / INR (2 * mz + 1)))).

(** The mean of the documented covariance over a line in x direction. *)
Definition line_mean (v : cov_params) (mx : nat) (b c : Z) : R :=
  sumn (2 * mx + 1) (fun i => cov_of_lag v (Z.of_nat i - Z.of_nat mx) b c) / INR (2 * mx + 1).
