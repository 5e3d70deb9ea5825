(** What users rely on for troughs, without reference to how cells are tested. *)
From Coq Require Import List ZArith Reals.
From Verif Require Import Base Num AssignModel TroughModel.
Import ListNotations.
Local Open Scope R_scope.

Definition radians (x : R) : R := x * PI / 180.

(** The lower half of the ellipsoid with centre (x, y, z) and semi axes a, b, c
    turned by alpha degrees around the vertical: image of the unit ball. *)
Definition half_ellipsoid (x y z a b c alpha px py pz : R) : Prop :=
  pz <= z /\
  exists u v w, u * u + v * v + w * w <= 1 /\
    px = x + (a * u * cos (radians alpha) - b * v * sin (radians alpha)) /\
    py = y + (a * u * sin (radians alpha) + b * v * cos (radians alpha)) /\
    pz = z + c * w.

(** Settings of a trough element that make sense. *)
Definition type_ok (tt : trough_type) : Prop := 0 < tt_dipset_dist tt /\ 0 < tt_bulbset_dist tt.
(** np.random.uniform() is in [0, 1). *)
Definition draw_ok (d : trough_draw) : Prop := 0 <= td_shift d < 1 /\ 0 <= td_dip d < 1 /\ 0 <= td_azim d < 1.

(** The same settings with another lag. *)
Definition with_lag (tt : trough_type) (h : R) (f : Z) : trough_type :=
  mkTType (tt_structure tt) (tt_facies tt) (tt_altfacies tt) (tt_azimuth tt) (tt_dip tt) h f (tt_dipset_dist tt) (tt_bulbset_dist tt).

(** The normal of a layer with azimuth k and dip p (in degrees) as documented
    in docs/methods.rst (last column of the matrix R), up to the sense of
    the dip: [s] is 1 or -1. *)
Definition layer_normal (s k p : R) : R * R * R :=
  (s * (cos (radians k) * sin (radians p)), - s * (sin (radians k) * sin (radians p)), cos (radians p)).
Definition parallel (u v : R * R * R) : Prop :=
  let '(u1, u2, u3) := u in
  let '(v1, v2, v3) := v in
  u1 * v2 = u2 * v1 /\ u1 * v3 = u3 * v1 /\ u2 * v3 = u3 * v2.

(** The function whose level sets are the nested ellipsoids, and its
    gradient. *)
Definition level (x y z a b c alpha px py pz : R) : R :=
  (((px - x) * cos (radians alpha) + (py - y) * sin (radians alpha)) / a) ^ 2 +
  ((- (px - x) * sin (radians alpha) + (py - y) * cos (radians alpha)) / b) ^ 2 +
  ((pz - z) / c) ^ 2.
Definition is_gradient (f : R -> R -> R -> R) (px py pz : R) (g : R * R * R) : Prop :=
  let '(g1, g2, g3) := g in
  derivable_pt_lim (fun t => f t py pz) px g1 /\
  derivable_pt_lim (fun t => f px t pz) py g2 /\
  derivable_pt_lim (fun t => f px py t) pz g3.

(** ** Positions *)

(** The planes from [top] down: exactly the heights top - i*agg above the lower
    limit. *)
Definition plane_heights (top lower agg : R) (zs : list R) : Prop :=
  forall i z, nth_error zs i = Some z <-> z = top - INR i * agg /\ lower < z.

(** A random position in the domain at height [z]. *)
Definition in_domain (x0 lx y0 ly z : R) (p : R * R * R) : Prop :=
  x0 <= fst (fst p) < x0 + lx /\ y0 <= snd (fst p) < y0 + ly /\ snd p = z.

(** Sizes between the two ends of the trend. *)
Definition linear_between (f : R -> R) (lo hi v0 v1 : R) : Prop :=
  f lo = v0 /\ f hi = v1 /\ forall z w r, f (z + r * (w - z)) = f z + r * (f w - f z).
