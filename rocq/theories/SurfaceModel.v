(** Model of hyvr/geo/contact_surface.py and hyvr/geo/grid.py.  No proofs here. *)
From Coq Require Import List ZArith Bool Ascii String.
From Verif Require Import Base Num ParseModel ConfigModel.
Import ListNotations.
Local Open Scope num_scope.

Section Geometry.
Context {T : Type} `{Num T}.

(** ** Grid (grid.py l. 39-60) *)

(** [np.arange(start, stop, step)] for step > 0: ceil((stop-start)/step)
    values start + i*step.  A step of zero raises ZeroDivisionError. *)
Definition arange (start stop step : T) : res (list T) :=
  if (step <=? n0) && (n0 <=? step) then Err ZeroDivisionError
  else Ok (map (fun i => start + nofZ (Z.of_nat i) * step) (seq 0 (Z.to_nat (nceil ((stop - start) / step))))).

(** Cell centres along one axis: [np.arange(x0+dx/2, x0+lx, dx)]. *)
Definition two : T := n1 + n1.
Definition centres (x0 dx lx : T) : res (list T) := arange (x0 + dx / two) (x0 + lx) dx.

(** Node coordinates of the vtr output (postprocess/output.py l. 158-160):
    [np.arange(x0, xmax+dx, dx)] with xmax = x0 + lx. *)
Definition vtr_nodes (x0 dx lx : T) : res (list T) := arange x0 ((x0 + lx) + dx) dx.

Record grid := mkGrid {
  g_x0 : T; g_y0 : T; g_z0 : T; g_dx : T; g_dy : T; g_dz : T; g_lx : T; g_ly : T; g_lz : T;
  g_x : list T; g_y : list T; g_z : list T }.
Definition g_zmax (g : grid) : T := g_z0 g + g_lz g.
Definition grid_init (x0 y0 z0 dx dy dz lx ly lz : T) : res grid :=
  let* x := centres x0 dx lx in
  let* y := centres y0 dy ly in
  let* z := centres z0 dz lz in
  Ok (mkGrid x0 y0 z0 dx dy dz lx ly lz x y z).
(** Number of columns of cells, nx*ny. *)
Definition columns (g : grid) : nat := List.length (g_x g) * List.length (g_y g).

(** ** Contact surfaces

    The array surface[i,j] is kept as a list in row order (column number
    i*ny+j); all surfaces of a model have the same number of columns. *)
Record surface := mkSurface { vals : list T; zmean : T; zmin : T; zmax : T }.

(** [np.min], [np.max] (ValueError on an empty array), [np.mean] (NaN on an
    empty array, which does not get that far) *)
Definition list_min (l : list T) : res T :=
  match l with [] => Err ValueError | x :: r => Ok (fold_left nmin r x) end.
Definition list_max (l : list T) : res T :=
  match l with [] => Err ValueError | x :: r => Ok (fold_left nmax r x) end.
Definition list_mean (l : list T) : T := fold_left nadd l n0 / nofZ (Z.of_nat (List.length l)).

(** __init__ (l. 8-36).  [field] is the array returned by specsim.  For a mode
    other than "random" and "flat" the code evaluates self.mode, which does
    not exist. *)
Definition new_surface (ncol : nat) (cm : contact T) (field : list T) : res surface :=
  match cm_z cm with
  | None => Err KeyError
  | Some z =>
      if pystr_eqb (cm_mode cm) (S_ "random") then
        match cm_random cm with
        | None => Err ValueError
        | Some _ =>
            let v := map (fun f => f + z) field in
            let* mx := list_max v in
            let* mn := list_min v in
            Ok (mkSurface v (list_mean v) mn mx)
        end
      else if pystr_eqb (cm_mode cm) (S_ "flat") then Ok (mkSurface (repeat z ncol) z z z)
      else Err AttributeError
  end.
Definition flat_contact (z : T) : contact T := mkContact (S_ "flat") (Some z) None.

(** Surfaces are shared between strata and elements and changed in place, so
    they live in a store and are referred to by number. *)
Definition store := list surface.

Definition alloc (st : store) (s : surface) : store * nat := (st ++ [s], List.length st)%list.
Definition getS (st : store) (a : nat) : res surface :=
  match nth_error st a with Some s => Ok s | None => Err OutOfModel end.

(** The loops over i, j (l. 42-45 and l. 53-56): own value and other value,
    column by column. *)
Fixpoint zip_with (f : T -> T -> T) (l m : list T) : list T :=
  match l, m with
  | x :: l, y :: m => f x y :: zip_with f l m
  | _, _ => []
  end.

(** use_lower_surface_value (l. 40-47) *)
Definition use_lower (st : store) (a b : nat) : res store :=
  let* sa := getS st a in
  let* sb := getS st b in
  let v := zip_with (fun x y => if y <? x then y else x) (vals sa) (vals sb) in
  let* mn := list_min v in
  Ok (upd st a (mkSurface v (zmean sa) mn (zmax sa))).

(** use_higher_surface_value (l. 51-58) *)
Definition use_higher (st : store) (a b : nat) : res store :=
  let* sa := getS st a in
  let* sb := getS st b in
  let v := zip_with (fun x y => if x <? y then y else x) (vals sa) (vals sb) in
  let* mx := list_max v in
  Ok (upd st a (mkSurface v (zmean sa) (zmin sa) mx)).

(** A clipping call, to speak about sequences of calls. *)
Inductive clip := Lower (a b : nat) | Higher (a b : nat).
Definition do_clip (st : store) (c : clip) : res store :=
  match c with Lower a b => use_lower st a b | Higher a b => use_higher st a b end.

End Geometry.
Arguments surface T : clear implicits.
Arguments store T : clear implicits.
Arguments grid T : clear implicits.
