(** Grid coordinates in IEEE double precision: what the real numbers of
    SurfaceModel leave out.  No proofs here.

    Doubles are Flocq's [binary_float 53 1024] (one NaN, no payload); every
    operation rounds to nearest, ties to even.  The product and the sum in the
    fill loop of np.arange are two operations (no fused multiply-add). *)
From Coq Require Import List ZArith Bool.
From Flocq Require Import Core BinarySingleNaN.
From Verif Require Import Base.
Import ListNotations.

Notation b64 := (binary_float 53 1024).
#[global] Instance prec_gt_0_64 : Prec_gt_0 53 := eq_refl.
#[global] Instance prec_lt_emax_64 : Prec_lt_emax 53 1024 := eq_refl.
Definition fadd (x y : b64) : b64 := Bplus mode_NE x y.
Definition fsub (x y : b64) : b64 := Bminus mode_NE x y.
Definition fmul (x y : b64) : b64 := Bmult mode_NE x y.
Definition fdiv (x y : b64) : b64 := Bdiv mode_NE x y.
Definition fopp (x : b64) : b64 := Bopp x.
(** An integer that is small enough is a double; others are rounded. *)
Definition fofZ (z : Z) : b64 := binary_normalize 53 1024 _ _ mode_NE z 0 false.

(** npy_ceil and conversion to an integer: ValueError for NaN and infinity *)
Definition fceil (x : b64) : res Z :=
  match x with
  | B754_zero _ => Ok 0%Z
  | B754_finite s m e _ =>
      let z := cond_Zopp s (Zpos m) in
      Ok (if (0 <=? e)%Z then z * 2 ^ e else - (- z / 2 ^ (- e)))%Z
  | _ => Err ValueError
  end.
Definition is_zero (x : b64) : bool := match x with B754_zero _ => true | _ => false end.

(** np.arange(start, stop, step) (numpy: _calc_length, PyArray_ArangeObj,
    DOUBLE_fill): the first two entries are start and start + step, the others
    continue with their difference. *)
Definition arange_len (start stop step : b64) : res Z :=
  let d := fsub stop start in
  let q := fdiv d step in
  if is_zero q && negb (is_zero d) then Ok (if Bsign q then 0%Z else 1%Z) else fceil q.
Definition arange (start stop step : b64) : res (list b64) :=
  let* len := arange_len start stop step in
  let next := fadd start step in
  let delta := fsub next start in
  Ok (map (fun i => match i with
                    | O => start
                    | 1%nat => next
                    | _ => fadd start (fmul (fofZ (Z.of_nat i)) delta)
                    end) (seq 0 (Z.to_nat len))).

(** geo/grid.py l. 54-56 *)
Definition centres (x0 dx lx : b64) : res (list b64) := arange (fadd x0 (fdiv dx (fofZ 2))) (fadd x0 lx) dx.
(** postprocess/output.py l. 158-160 with xmax of geo/grid.py l. 48-50 *)
Definition vtr_nodes (x0 dx lx : b64) : res (list b64) := arange x0 (fadd (fadd x0 lx) dx) dx.
(** postprocess/output.py l. 300-310, before np.around (which keeps the number of
    entries): bottoms of the layers *)
Definition mf6_bottoms (z0 dz lz : b64) : res (list b64) :=
  let* l := arange (fadd z0 lz) (fsub z0 dz) (fopp dz) in Ok (tl l).

(** The double nearest to a/b, for the numbers in an ini-file. *)
Definition nearest (a b : Z) : b64 := fdiv (fofZ a) (fofZ b).
