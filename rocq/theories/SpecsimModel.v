(** Model of specsim, hyvr/utils.py l. 411-526.  No proofs here.

    Two-dimensional fields are those with one cell in z: the term with z - zmean
    is then 0.  Without a selection mask the whole grid is selected and the
    result is the array instead of the list of its values ([field]). *)
From Coq Require Import List ZArith Bool Reals.
From Verif Require Import Base Num ArrayModel.
Import ListNotations.
Local Open Scope R_scope.

(** Sums over all cells. *)
Fixpoint sumn (n : nat) (f : nat -> R) : R := match n with O => 0 | S n => sumn n f + f n end.
Definition sum_cells (s : shape) (f : cell -> R) : R :=
  sumn (cx s) (fun i => sumn (cy s) (fun j => sumn (cz s) (fun k => f (i, j, k)))).

(** Coordinates of the cell centres (grid.X, grid.Y, grid.Z). *)
Record coords := mkCoords { co_x : nat -> R; co_y : nat -> R; co_z : nat -> R }.

(** Which covariance ('gaussian', 'exp'); anything else raises ValueError
    (l. 503-510). *)
Inductive covmod := Gaussian | Exponential | OtherCov.

(** np.where, np.min, np.max for one index (l. 466-477): the smallest box
    containing all selected cells, [None] if no cell is selected. *)
Definition min_list (x : nat) (l : list nat) : nat := fold_left Nat.min l x.
Definition max_list (x : nat) (l : list nat) : nat := fold_left Nat.max l x.
Definition bounds (l : list nat) : option (nat * nat) :=
  match l with [] => None | x :: r => Some (min_list x r, max_list x r) end.
Record box := mkBox { bx_lo : cell; bx_hi : cell }.
Definition bounding_box (s : shape) (m : mask) : option box :=
  let sel := filter m (cells s) in
  match bounds (map cx sel), bounds (map cy sel), bounds (map cz sel) with
  | Some (x0, x1), Some (y0, y1), Some (z0, z1) => Some (mkBox (x0, y0, z0) (x1, y1, z1))
  | _, _, _ => None
  end.
Definition box_shape (b : box) : shape :=
  (cx (bx_hi b) + 1 - cx (bx_lo b), cy (bx_hi b) + 1 - cy (bx_lo b), cz (bx_hi b) + 1 - cz (bx_lo b))%nat.
(** a[min_x_idx:max_x_idx+1, ...] *)
Definition shift_cell (b : box) (c : cell) : cell := (cx c + cx (bx_lo b), cy c + cy (bx_lo b), cz c + cz (bx_lo b))%nat.
Definition crop {A} (b : box) (a : array A) : array A := fun c => a (shift_cell b c).

(** l. 481-488: coordinates from the middle of the box, scaled.  The
    coordinates increase, so that their extremes in the box are those of its
    first and last cells. *)
Definition centred (f : nat -> R) (lo hi i : nat) : R := f (i + lo)%nat - (f lo + f hi) / 2.
Definition h_square (co : coords) (corl : R * R * R) (b : box) : array R := fun c =>
  (centred (co_x co) (cx (bx_lo b)) (cx (bx_hi b)) (cx c) / fst (fst corl)) ^ 2 +
  (centred (co_y co) (cy (bx_lo b)) (cy (bx_hi b)) (cy c) / snd (fst corl)) ^ 2 +
  (centred (co_z co) (cz (bx_lo b)) (cz (bx_hi b)) (cz c) / snd corl) ^ 2.

(** l. 502-510 *)
Definition covariance (cm : covmod) (var : R) (h2 : array R) : res (array R) :=
  match cm with
  | Gaussian => Ok (fun c => exp (- h2 c) * var)
  | Exponential => Ok (fun c => exp (- sqrt (h2 c)) * var)
  | OtherCov => Err ValueError
  end.

(** np.fft.fftshift: element i of the result is element i - n//2 (mod n) *)
Definition fftshift (s : shape) (a : array R) : array R := fun c =>
  let sh n i := ((i + (n - n / 2)) mod n)%nat in
  a (sh (cx s) (cx c), sh (cy s) (cy c), sh (cz s) (cz c)).

(** The phase 2*pi*(f.c/n) of the discrete Fourier transform. *)
Definition phase (s : shape) (f c : cell) : R :=
  2 * PI * (INR (cx f) * INR (cx c) / INR (cx s) + INR (cy f) * INR (cy c) / INR (cy s) + INR (cz f) * INR (cz c) / INR (cz s)).

(** l. 512-515: power spectrum.  [syy[0] = 0] sets all entries whose first
    index is 0. *)
Definition spectrum (s : shape) (ryy : array R) : array R := fun f =>
  if Nat.eqb (cx f) 0 then 0
  else
    let a := fftshift s ryy in
    sqrt (sum_cells s (fun c => a c * cos (phase s f c)) ^ 2 + sum_cells s (fun c => - (a c * sin (phase s f c))) ^ 2)
    / INR (cx s * cy s * cz s).

(** l. 517-521: [noise] holds the draws real and imag; the real part of the
    inverse transform (the factors ntot and 1/ntot cancel). *)
Record noise := mkNoise { no_re : array R; no_im : array R }.
Definition field (s : shape) (syy : array R) (e : noise) : array R := fun c =>
  sum_cells s (fun f => sqrt (syy f) * (no_re e f * cos (phase s f c) - no_im e f * sin (phase s f c))).

(** specsim with a mask.  Without selected cells min raises ValueError (the
    code then starts the debugger, l. 467-470). *)
Definition specsim_field (co : coords) (cm : covmod) (var : R) (corl : R * R * R) (b : box) (e : noise) : res (array R) :=
  let* ryy := covariance cm var (h_square co corl b) in
  Ok (field (box_shape b) (spectrum (box_shape b) ryy) e).
Definition specsim (s : shape) (co : coords) (cm : covmod) (var : R) (corl : R * R * R) (m : mask) (e : noise) : res (list R) :=
  match bounding_box s m with
  | None => Err ValueError
  | Some b =>
      let* y := specsim_field co cm var corl b e in
      Ok (select (box_shape b) (crop b m) y)
  end.
(** specsim without a mask. *)
Definition specsim_grid (s : shape) (co : coords) (cm : covmod) (var : R) (corl : R * R * R) (e : noise) : res (array R) :=
  specsim_field co cm var corl (mkBox (0, 0, 0)%nat (cx s - 1, cy s - 1, cz s - 1)%nat) e.
