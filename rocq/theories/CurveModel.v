(** Model of curve_interp (hyvr/optimized.py l. 79-123) and of
    hyvr/geo/channel_utils.py.  No proofs here.

    nan does not occur: np.arcsin is the arcsine (nan in numpy for h outside
    [-1,1]). *)
From Coq Require Import List ZArith Bool Reals.
From Verif Require Import Base Num TensorModel ChannelModel.
Import ListNotations.
Local Open Scope R_scope.

Definition Rgtb (x y : R) : bool := negb (Rleb x y).

(** np.arange(start, stop, step) for a positive step *)
Definition arange (start stop step : R) : list R :=
  map (fun i => start + INR i * step) (seq 0 (Z.to_nat (nceil ((stop - start) / step)))).

(** np.interp(x, np.arange(n), fp) for one x and n = len(fp) > 0 *)
Definition interp (fp : list R) (x : R) : R :=
  let n := List.length fp in
  if Rleb x 0 then nth 0 fp 0
  else if Rleb (INR (n - 1)) x then nth (n - 1) fp 0
  else let i := Z.to_nat (Int_part x) in nth i fp 0 + (x - INR i) * (nth (S i) fp 0 - nth i fp 0).

(** optimized.py l. 110-114: the for loop over [js].  [Some j] if it is left by
    break.  The name sqrt is looked up before its arguments. *)
Fixpoint search (nm : names) (xs ys : list R) (tol total : R) (js : list nat) : res (option nat) :=
  match js with
  | [] => Ok None
  | j :: r =>
      let* sq := lookup (nm_sqrt nm) in
      let* x1 := pyget xs (Z.of_nat j) in
      let* x0 := pyget xs (Z.of_nat j - 1) in
      let* y1 := pyget ys (Z.of_nat j) in
      let* y0 := pyget ys (Z.of_nat j - 1) in
      let total := total + sq ((x1 - x0) ^ 2 + (y1 - y0) ^ 2) in
      if Rgtb total tol then Ok (Some j) else search nm xs ys tol total r
  end.
(** l. 107-115: the while loop *)
Fixpoint walk (nm : names) (xs ys : list R) (tol : R) (nc : nat) (fuel : nat) (ic : nat) (idx : list nat) : res (list nat) :=
  if Nat.ltb ic nc then
    match fuel with
    | O => Err OutOfFuel
    | S fuel =>
        let js := seq (ic + 1) (nc - (ic + 1)) in
        let* r := search nm xs ys tol 0 js in
        match r with
        | Some j => walk nm xs ys tol nc fuel (j + 1) (idx ++ [j])
        | None => walk nm xs ys tol nc fuel (last js (ic + 1) + 1)%nat idx
        end
    end
  else Ok idx.

(** l. 79-123 *)
Definition curve_interp (nm : names) (xc yc : list R) (spacing : R) : res (list R * list R) :=
  let nc := List.length xc in
  let* x0 := pyget xc 0 in
  let t := arange x0 (INR nc) (spacing * (1 / 10)) in
  let xs := map (interp xc) t in
  let ys := map (interp yc) t in
  let* idx := walk nm xs ys spacing nc (S nc) 0 [0%nat] in
  let* xn := mapM (fun i => pyget xs (Z.of_nat i)) idx in
  let* yn := mapM (fun i => pyget ys (Z.of_nat i)) idx in
  Ok (xn, yn).

(** channel_utils.py l. 140-158 *)
Definition thetaAR2 (t1 t2 k h eps : R) : R :=
  let b1 := 2 * exp (- k * h) * cos (k * asin h) in
  let b2 := - exp (- 2 * k * h) in
  eps + b1 * t1 + b2 * t2.
(** l. 104-137: [draw i] is the i-th value of np.random.normal; the value for
    index 0 is not drawn.  The last two angles first. *)
Fixpoint thetas (n i : nat) (t1 t2 : R) (draw : nat -> R) (eps_factor k h : R) : list R :=
  match n with
  | O => []
  | S n =>
      let eps := match i with O => 0 | _ => draw i * eps_factor end in
      let th := thetaAR2 t1 t2 k h eps in
      th :: thetas n (S i) th t1 draw eps_factor k h
  end.
Definition ferguson_theta (n : nat) (draw : nat -> R) (eps_factor k h : R) : list R := thetas n 0 0 0 draw eps_factor k h.

(** l. 42-67: positions and velocities *)
Fixpoint trace (ds xp yp : R) (th : list R) : list cpoint :=
  match th with
  | [] => []
  | a :: r =>
      let vx := ds * cos a in
      let vy := ds * sin a in
      mkCP xp yp vx vy :: trace ds (xp + vx) (yp + vy) r
  end.
(** l. 69-81: rotation and shift *)
Definition mean (l : list R) : R := fold_right Rplus 0 l / INR (List.length l).
Definition turn (a xstart ystart : R) (p : cpoint) : cpoint :=
  mkCP (cos a * cp_x p - sin a * cp_y p + xstart) (sin a * cp_x p + cos a * cp_y p + ystart)
       (cos a * cp_vx p - sin a * cp_vy p) (sin a * cp_vx p + cos a * cp_vy p).
(** l. 91-92 *)
Definition indomain (x0 xmax width : R) (p : cpoint) : bool := Rleb (x0 - width) (cp_x p) && Rleb (cp_x p) (xmax + width).

(** l. 5-101 *)
Definition tiny : R := / 10 ^ 10.
Definition ferguson_curve (nm : names) (x0 xmax h k ds eps_factor flow_angle domain_length xstart ystart width : R) (draw : nat -> R) : res (list cpoint) :=
  let ds := ds + tiny in
  let s := arange 0 (domain_length * 2) ds in
  let theta := ferguson_theta (List.length s) draw eps_factor k h in
  let* r := curve_interp nm s theta (1 / 10) in
  let th := snd r in
  let rot_angle := - mean th + flow_angle in
  Ok (filter (indomain x0 xmax width) (map (turn rot_angle xstart ystart) (trace ds 0 0 th))).
