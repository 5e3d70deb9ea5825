(** Model of hyvr/assign_points.py.  No proofs here.

    What an object does with a point (maybe_assign_points_to_object of the
    three element classes) is a parameter here; the concrete functions are in
    TroughModel, ChannelModel and SheetModel.  [D] is the state the objects
    share between calls (the dont_check arrays of channels). *)
From Coq Require Import List ZArith Bool.
From Verif Require Import Base Num.
Import ListNotations.
Local Open Scope num_scope.

Section Assign.
Context {T : Type} `{Num T} {D : Type}.

(** A cell centre with its horizontal indices (l. 81-82, 88-89, 95). *)
Record point := mkPoint { p_x : T; p_y : T; p_z : T; p_xi : nat; p_yi : nat }.

(** geo_ids and angles (l. 72-75).  Angles are [None] for NaN. *)
Record ids := mkIds { i_facies : Z; i_ae : Z; i_ha : Z; i_hat : Z; i_azim : option T; i_dip : option T }.
(** l. 96-101 *)
Definition reset : ids := mkIds (-1) (-1) (-1) (-1) None None.

(** What an object writes when it considers the point inside: facies (which
    can be -1 if no lag facies was given), azimuth, dip, number.  Otherwise it
    only writes geo_ids[0] = -1. *)
Record write := mkWrite { w_facies : Z; w_azim : option T; w_dip : option T; w_ha : Z }.
Definition do_write (i : ids) (w : option write) : ids :=
  match w with
  | Some w => mkIds (w_facies w) (i_ae i) (w_ha w) (i_hat i) (w_azim w) (w_dip w)
  | None => mkIds (-1) (i_ae i) (i_ha i) (i_hat i) (i_azim i) (i_dip i)
  end.

Record aobj := mkAobj { o_zmin : T; o_zmax : T; o_check : D -> point -> D * option write }.
Record aelem := mkAelem {
  e_num : Z; e_type : Z; e_sheet : bool;
  e_bottom : nat -> nat -> T; e_top : nat -> nat -> T;
  e_bg_facies : Z; e_bg_azim : option T; e_bg_dip : option T;
  e_zmin : T; e_objs : list aobj }.
Record astrat := mkAstrat { t_zmin : T; t_aes : list aelem }.

(** l. 303-304, 322-323: number and type of the element *)
Definition set_ae (i : ids) (e : aelem) : ids :=
  mkIds (i_facies i) (e_num e) (i_ha i) (e_type e) (i_azim i) (i_dip i).
(** geo_ids[0] != -1 (l. 130, 220, 302) *)
Definition found (i : ids) : bool := negb (Z.eqb (i_facies i) (-1)).

(** maybe_assign_points_to_ae (l. 235-329): the loop over the objects from
    number [oi] on (l. 291-308); [Some oi] when one was found. *)
Fixpoint scan_objs (e : aelem) (p : point) (l : list aobj) (oi : nat) (d : D) (i : ids) : D * ids * option nat :=
  match l with
  | [] => (d, i, None)
  | o :: r =>
      if o_zmax o <? p_z p then (d, i, None)
      else if p_z p <? o_zmin o then scan_objs e p r (S oi) d i
      else
        let (d, w) := o_check o d p in
        let i := do_write i w in
        if found i then (d, set_ae i e, Some oi) else scan_objs e p r (S oi) d i
  end.

Definition assign_ae (e : aelem) (p : point) (oi : nat) (d : D) (i : ids) : D * ids * nat :=
  let '(d, i, r) := scan_objs e p (skipn oi (e_objs e)) oi d i in
  match r with
  | Some oi => (d, i, oi)
  | None =>
      if e_sheet e then (d, i, 0%nat)
      else if (e_bottom e (p_xi p) (p_yi p) <? p_z p) && (p_z p <? e_top e (p_xi p) (p_yi p)) then
        (d, mkIds (e_bg_facies e) (e_num e) (i_ha i) (e_type e) (e_bg_azim e) (e_bg_dip e), oi)
      else (d, i, 0%nat)
  end.

(** maybe_assign_points_to_stratum (l. 160-231): the loop over the elements
    from number [aei] on, the first one resuming at object [oi]. *)
Fixpoint scan_aes (p : point) (l : list aelem) (aei oi : nat) (d : D) (i : ids) : D * ids * (nat * nat) :=
  match l with
  | [] => (d, mkIds (-1) (i_ae i) (i_ha i) (i_hat i) (i_azim i) (i_dip i), (0, 0)%nat)
  | e :: r =>
      if p_z p <? e_zmin e then scan_aes p r (S aei) 0 d i
      else
        let '(d, i, oi) := assign_ae e p oi d i in
        if found i then (d, i, (aei, oi)) else scan_aes p r (S aei) 0 d i
  end.
Definition assign_stratum (s : astrat) (p : point) (aei oi : nat) (d : D) (i : ids) : D * ids * (nat * nat) :=
  scan_aes p (skipn aei (t_aes s)) aei oi d i.

(** The while loop over the strata for one cell (l. 113-146).  The state is
    (si, aei, oi); the result is [None] when no stratum was found. *)
Definition pos := (nat * nat * nat)%type.
Fixpoint scan_strata (p : point) (l : list astrat) (si aei oi : nat) (d : D) (i : ids) : D * option (ids * nat) * pos :=
  match l with
  | [] => (d, None, (si, aei, oi))
  | s :: r =>
      if p_z p <? t_zmin s then scan_strata p r (S si) 0 0 d i
      else
        let '(d, i, (aei, oi)) := assign_stratum s p aei oi d i in
        if found i then (d, Some (i, si), (si, aei, oi)) else scan_strata p r (S si) 0 0 d i
  end.
Definition assign_cell (m : list astrat) (p : point) (c : pos) (d : D) : D * option (ids * nat) * pos :=
  let '(si, aei, oi) := c in scan_strata p (skipn si m) si aei oi d reset.

(** One tower (l. 80-146), [ps] from top to bottom. *)
Fixpoint tower (m : list astrat) (ps : list point) (c : pos) (d : D) : D * list (option (ids * nat)) :=
  match ps with
  | [] => (d, [])
  | p :: ps =>
      let '(d, r, c) := assign_cell m p c d in
      let (d, rs) := tower m ps c d in (d, r :: rs)
  end.

(** All towers in the order they are visited (l. 80-146). *)
Fixpoint towers (m : list astrat) (cols : list (list point)) (d : D) : list (list (option (ids * nat))) :=
  match cols with
  | [] => []
  | ps :: cols => let (d, rs) := tower m ps (0, 0, 0)%nat d in rs :: towers m cols d
  end.

(** The towers of a grid: column (i,j) at centre x_i, y_j, cells from the top
    down (l. 80-95; np.meshgrid with X[i,j,k] = x[i]). *)
Definition tower_points (zs : list T) (xi yi : nat) (x y : T) : list point :=
  map (fun z => mkPoint x y z xi yi) (rev zs).
Definition grid_towers (xs ys zs : list T) : list (list point) :=
  flat_map (fun ix => map (fun jy => tower_points zs (fst ix) (fst jy) (snd ix) (snd jy))
                        (combine (seq 0 (List.length ys)) ys)) (combine (seq 0 (List.length xs)) xs).

(** What is written into the arrays (l. 45-70, 130-137). *)
Record cell_values := mkCell { c_facies : Z; c_strata : Z; c_ae : Z; c_ha : Z; c_hat : Z; c_azim : option T; c_dip : option T }.
Definition cell_of (r : option (ids * nat)) : cell_values :=
  match r with
  | Some (i, si) => mkCell (i_facies i) (Z.of_nat si) (i_ae i) (i_ha i) (i_hat i) (i_azim i) (i_dip i)
  | None => mkCell 0 0 (-1) (-1) (-1) (Some n0) (Some n0)
  end.

(** The arrays after assign_points (l. 80-155): tower xi*ny+yi, cells from the
    top down. *)
Definition assign_points (m : list astrat) (xs ys zs : list T) (d : D) (xi yi zi : nat) : option cell_values :=
  match nth_error (towers m (grid_towers xs ys zs) d) (xi * List.length ys + yi) with
  | Some rs => match nth_error rs (List.length zs - 1 - zi) with Some r => Some (cell_of r) | None => None end
  | None => None
  end.

End Assign.
Arguments point T : clear implicits.
Arguments ids T : clear implicits.
Arguments write T : clear implicits.
Arguments aobj T D : clear implicits.
Arguments aelem T D : clear implicits.
Arguments astrat T D : clear implicits.
