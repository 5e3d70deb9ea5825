(** geo/trough_utils.py generate_trough_positions and geo/channel_utils.py
    ferguson_theta with the numbers of the random generators.

    TroughModel and CurveModel take drawn positions and deviations as arguments;
    here they are computed from uniform numbers in [0, 1) and standard normal
    numbers.  np.random.poisson(lam) is a function of lam (ValueError for a
    negative one), np.random.normal(m, s) is m + s*n as in ChoiceModel. *)
From Coq Require Import List ZArith Reals.
From Verif Require Import Base Num SurfaceModel TroughModel CurveModel ChoiceModel.
Import ListNotations.
Local Open Scope R_scope.

(** The numbers drawn for one plane. *)
Record raw_plane := mkRP { rp_poisson : R -> res nat; rp_uniform : nat -> R * R; rp_normal : nat -> R * R }.

(** trough_utils.py l. 39-41 *)
Definition plane_lambda (density lx ly : R) : R := density * lx * ly.
(** l. 49-52: the displacement of one trough; the list is type_params['migrate']. *)
Definition displacement (m : list R) (n : R * R) : res (R * R) :=
  let* m0 := pyget m 0 in let* m1 := pyget m 1 in
  let* x := normal m0 m1 (fst n) in
  let* m2 := pyget m 2 in let* m3 := pyget m 3 in
  let* y := normal m2 m3 (snd n) in
  Ok (x, y).
Definition displacements (m : list R) (n : nat) (d : nat -> R * R) : res (list (R * R)) := mapM (fun k => displacement m (d k)) (seq 0 n).

(** l. 36-53: what is drawn for the planes [i], i+1, ...; [total] is n_troughs. *)
Fixpoint draw_planes (density lx ly : R) (migrate : option (list R)) (raws : list raw_plane) (i total : nat) : res (list (plane_draw R)) :=
  match raws with
  | [] => Ok []
  | r :: raws =>
      match i, migrate with
      | S _, Some m =>
          let* l := displacements m total (rp_normal r) in
          let* rest := draw_planes density lx ly migrate raws (S i) total in
          Ok (mkPlane [] (fun k => nth k l (0, 0)) :: rest)
      | _, _ =>
          let* n := rp_poisson r (plane_lambda density lx ly) in
          let* rest := draw_planes density lx ly migrate raws (S i) n in
          Ok (mkPlane (map (rp_uniform r) (seq 0 n)) (fun _ => (0, 0)) :: rest)
      end
  end.

(** l. 26-55 *)
Definition raw_positions (g : grid R) (density bottom_zmax top_zmean depth buffer agg : R) (migrate : option (list R)) (raws : list raw_plane)
    : res (list (position R)) :=
  let* zs := trough_planes bottom_zmax top_zmean depth buffer agg in
  let* ds := draw_planes density (g_lx g) (g_ly g) migrate (firstn (List.length zs) raws) 0 0 in
  trough_positions g bottom_zmax top_zmean depth buffer agg (match migrate with Some _ => true | None => false end) ds.

(** channel_utils.py l. 118-134: the deviation before it is multiplied by
    eps_factor, from the standard normal numbers [n i].  Line 133 calls
    np.random.normal(1), where 1 is the mean. *)
Definition deviation (n : nat -> R) (i : nat) : R := match i with O => 0 | 1%nat => n i | _ => 1 + n i end.
Definition raw_theta (steps : nat) (n : nat -> R) (eps_factor k h : R) : list R := ferguson_theta steps (deviation n) eps_factor k h.
