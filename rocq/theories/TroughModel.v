(** Model of hyvr/geo/trough_utils.py, trough.pyx and trough_ae.pyx.
    No proofs here.

    Draws of np.random.uniform(lo, hi) are lo + (hi-lo)*u with an arbitrary u. *)
From Coq Require Import List ZArith Bool Ascii String Reals.
From Verif Require Import Base Num FaciesModel SurfaceModel AssignModel.
Import ListNotations.

(** ** Positions and sizes (trough_utils.py) *)
Section Generic.
Context {T : Type} `{Num T}.
Local Open Scope num_scope.

Definition uniform (lo hi u : T) : T := lo + (hi - lo) * u.

(** rand_trough_params, l. 58-65 *)
Definition zfactor (trend : option (T * T)) (z z0 lz : T) : T :=
  match trend with
  | Some (t0, t1) => t0 + (z - z0) * (t1 - t0) / lz
  | None => n1
  end.

(** l. 66-70: a, b, c; alpha is [uniform] of paleoflow. *)
Definition trough_size (length width depth : T) (trend : option (T * T)) (z z0 lz : T) : T * T * T :=
  let f := zfactor trend z z0 lz in
  (length * f / two, width * f / two, depth * f).

(** generate_trough_positions.  A plane of random troughs: the drawn numbers
    of the positions, as many as the Poisson draw says (l. 37-43).  A plane of
    migrated troughs: a displacement per trough (l. 45-53). *)
Record plane_draw := mkPlane { pd_uniform : list (T * T); pd_normal : nat -> T * T }.
Definition position := (T * T * T)%type.

(** l. 47-53: the troughs k, k+1, ..., k+n-1 of plane [i]; [total] is
    n_troughs. *)
Fixpoint migrate_plane (i total : nat) (z : T) (d : nat -> T * T) (n k : nat) (te : list position) : res (list position) :=
  match n with
  | O => Ok te
  | S n =>
      match nth_error te (k + (i - 1) * total) with
      | Some (x, y, _) => migrate_plane i total z d n (S k) (te ++ [(x + fst (d k), y + snd (d k), z)])
      | None => Err IndexError
      end
  end.

(** The loop over the planes (l. 35-53), [total] being n_troughs so far. *)
Fixpoint plane_loop (g : grid T) (migrate : bool) (zs : list T) (ds : list plane_draw) (i total : nat) (te : list position) : res (list position) :=
  match zs with
  | [] => Ok te
  | z :: zs =>
      match ds with
      | [] => Err OutOfFuel
      | d :: ds =>
          if Nat.eqb i 0 || negb migrate then
            let new := map (fun u => (uniform (g_x0 g) (g_x0 g + g_lx g) (fst u), uniform (g_y0 g) (g_y0 g + g_ly g) (snd u), z)) (pd_uniform d) in
            plane_loop g migrate zs ds (S i) (List.length (pd_uniform d)) (te ++ new)
          else
            let* te := migrate_plane i total z (pd_normal d) total 0 te in
            plane_loop g migrate zs ds (S i) total te
      end
  end.

(** l. 28-35: bottom_z = zmax of the bottom surface + depth*buffer, planes from
    the mean of the top surface down. *)
Definition trough_planes (bottom_zmax top_zmean depth buffer agg : T) : res (list T) :=
  arange top_zmean (bottom_zmax + depth * buffer) (n0 - agg).
Definition trough_positions (g : grid T) (bottom_zmax top_zmean depth buffer agg : T) (migrate : bool) (ds : list plane_draw) : res (list position) :=
  let* zs := trough_planes bottom_zmax top_zmean depth buffer agg in
  plane_loop g migrate zs ds 0 0 [].
End Generic.
Arguments plane_draw T : clear implicits.
Arguments position T : clear implicits.

(** ** Troughs (trough.pyx)

    sin, cos, ceil of libc and numpy are the exact functions. *)
Local Open Scope R_scope.
Definition Rltb (x y : R) : bool := negb (Rleb y x).
Definition deg (x : R) : R := x * PI / 180.

(** type_params *)
Record trough_type := mkTType {
  tt_structure : pystr; tt_facies : list Z; tt_altfacies : option (list (list Z));
  tt_azimuth : R * R; tt_dip : R * R; tt_lag_height : R; tt_lag_facies : Z;
  tt_dipset_dist : R; tt_bulbset_dist : R }.

(** Cython attributes that are not set are 0. *)
Record trough := mkTrough {
  tr_x : R; tr_y : R; tr_z : R; tr_a : R; tr_b : R; tr_c : R; tr_max_ab : R; tr_zmin : R; tr_zmax : R;
  tr_sin : R; tr_cos : R; tr_lag : R; tr_lag_facies : Z; tr_structure : Z;
  tr_layer_dist : R; tr_shift : R; tr_nx : R; tr_ny : R; tr_nz : R;
  tr_facies : Z; tr_azim : R; tr_dip : R; tr_num_facies : Z; tr_array : list Z }.

(** The draws of one trough: random structure, facies, azimuth, dip, shift,
    facies sequence. *)
Record trough_draw := mkTD { td_structure : nat; td_facies : nat; td_azim : R; td_dip : R; td_shift : R; td_array : nat -> nat }.

(** l. 106-113: ['massive', 'dip', 'bulb', 'bulb_sets', 'random'].index(...) *)
Definition structure_code (s : pystr) (u : nat) : res Z :=
  if pystr_eqb s (S_ "massive") then Ok 0%Z
  else if pystr_eqb s (S_ "dip") then Ok 1%Z
  else if pystr_eqb s (S_ "bulb") then Ok 2%Z
  else if pystr_eqb s (S_ "bulb_sets") then Ok 3%Z
  else if pystr_eqb s (S_ "random") then Ok (Z.of_nat (u mod 4))
  else Err ValueError.

Definition max3 (a b c : R) : R := Rmax (Rmax a b) c.

(** Trough.__init__ (l. 37-190) *)
Definition new_trough (tt : trough_type) (x y z a b c alpha : R) (d : trough_draw) : res trough :=
  let mk := mkTrough x y z a b c (Rmax a b) (z - c) z (sin (deg alpha)) (cos (deg alpha)) (tt_lag_height tt) (tt_lag_facies tt) in
  let dip := uniform (fst (tt_dip tt)) (snd (tt_dip tt)) (td_dip d) in
  let azim := uniform (fst (tt_azimuth tt)) (snd (tt_azimuth tt)) (td_azim d) + alpha in
  let* s := structure_code (tt_structure tt) (td_structure d) in
  if (s =? 0)%Z then
    let* f := choice (tt_facies tt) (td_facies d) in
    Ok (mk 0%Z 0 0 0 0 0 f azim dip 0%Z [])
  else if (s =? 1)%Z then
    let ld := tt_dipset_dist tt in
    let shift := uniform 0 ld (td_shift d) in
    let num := (nceil ((2 * max3 a b c + shift) / ld)%R + 2)%Z in
    let* arr := alternating_facies num (tt_facies tt) (tt_altfacies tt) (td_array d) in
    Ok (mk 1%Z ld shift (sin (deg dip) * cos (deg azim)) (- sin (deg dip) * sin (deg azim)) (cos (deg dip))
          0%Z azim dip num arr)
  else if (s =? 2)%Z then
    let* f := choice (tt_facies tt) (td_facies d) in
    Ok (mk 2%Z 0 0 0 0 0 f 0 dip 0%Z [])
  else
    let ld := tt_bulbset_dist tt in
    let shift := uniform 0 1 (td_shift d) in
    let num := (nceil ((1 + shift) * c / ld)%R + 1)%Z in
    let* arr := alternating_facies num (tt_facies tt) (tt_altfacies tt) (td_array d) in
    Ok (mk 3%Z ld shift 0 0 0 0%Z 0 dip num arr).

(** ** Cells (trough_ae.pyx l. 91-295) *)

(** grid.periodic, grid.lx, grid.ly *)
Record domain := mkDomain { dm_periodic : bool; dm_lx : R; dm_ly : R }.

(** l. 143-151 *)
Definition wrap (periodic : bool) (l d : R) : R :=
  if periodic then
    if Rltb (l / 2) d then d - l else if Rltb d (- l / 2) then d + l else d
  else d.

(** Offsets of a point from the centre. *)
Definition offset (dm : domain) (t : trough) (p : point R) : R * R * R :=
  (wrap (dm_periodic dm) (dm_lx dm) (p_x p - tr_x t),
   wrap (dm_periodic dm) (dm_ly dm) (p_y p - tr_y t),
   p_z p - tr_z t).

(** l. 153-168 *)
Definition too_far (t : trough) (dx dy dz : R) : bool :=
  Rltb (tr_max_ab t) dx || Rltb (tr_max_ab t) (- dx) || Rltb (tr_max_ab t) dy || Rltb (tr_max_ab t) (- dy) || Rltb 0 dz.
Definition norm_x (t : trough) (dx dy : R) : R := (dx * tr_cos t + dy * tr_sin t) / tr_a t.
Definition norm_y (t : trough) (dx dy : R) : R := (- dx * tr_sin t + dy * tr_cos t) / tr_b t.
Definition norm_z (t : trough) (dz : R) : R := dz / tr_c t.
Definition l2 (t : trough) (dx dy dz : R) : R := norm_x t dx dy ^ 2 + norm_y t dx dy ^ 2 + norm_z t dz ^ 2.
Definition claims (t : trough) (dx dy dz : R) : bool :=
  if too_far t dx dy dz then false else negb (Rltb 1 (l2 t dx dy dz)).

(** optimized.py l. 72-73 *)
Definition sgn (x : R) : R := if Rleb 0 x then 1 else -1.

(** atan(s*y/|x|) where C division by zero gives an infinite argument
    (cdivision, l. 90, 263); y is not 0 in this case. *)
Definition atan_quot (y x : R) : R :=
  if Req_EM_T x 0 then (if Rltb 0 y then PI / 2 else - PI / 2) else atan (y / x).

(** The normal vector (l. 225-234); [None] at the centre. *)
Definition bulb_normal (t : trough) (dx dy dz : R) : option (R * R * R) :=
  let aaa := norm_x t dx dy / tr_a t in
  let bbb := norm_y t dx dy / tr_b t in
  let ccc := norm_z t dz / tr_c t in
  let len := sqrt (aaa ^ 2 + bbb ^ 2 + ccc ^ 2) in
  if Req_EM_T len 0 then None
  else Some ((aaa * tr_cos t + bbb * tr_sin t) / len, (- aaa * tr_sin t + bbb * tr_cos t) / len, ccc / len).

(** l. 235-275: azimuth and dip. *)
Definition clamp (m d : R) : R := if Rltb m d then m else if Rltb d (- m) then - m else d.
Definition bulb_angles (t : trough) (dx dy dz : R) : R * R :=
  let '(azim, dip) :=
    match bulb_normal t dx dy dz with
    | Some (nx, ny, nz) =>
        if Req_EM_T (sqrt (nx ^ 2 + ny ^ 2)) 0 then (0, 0)
        else
          (- atan_quot (sgn nx * ny) (Rabs nx) / PI * 180,
           if Req_EM_T nz 0 then - acos (Rabs nz) * sgn nx / PI * 180
           else - acos (Rabs nz) * sgn (nx * nz) / PI * 180)
    | None => (0, 0)
    end in
  (azim, clamp (tr_dip t) dip).

(** Layer numbers: l. 191-195 and 287. *)
Definition dip_layer (t : trough) (dx dy dz : R) : Z :=
  (ntrunc ((dx * tr_nx t + dy * tr_ny t + dz * tr_nz t + tr_shift t) / tr_layer_dist t)%R + Z.quot (tr_num_facies t) 2)%Z.
Definition bulb_layer (t : trough) (dx dy dz : R) : Z :=
  nceil ((sqrt (l2 t dx dy dz) + tr_shift t) * tr_c t / tr_layer_dist t).

(** object_facies_array[oi, n]: reading outside the array is not checked
    (boundscheck(False)); the model reports it. *)
Definition layer_facies (t : trough) (n : Z) : res Z :=
  if (n <? 0)%Z then Err IndexError
  else match nth_error (tr_array t) (Z.to_nat n) with Some f => Ok f | None => Err IndexError end.

(** l. 170-292: what is written for a point inside; [ha] is object_num_ha. *)
Definition trough_write (t : trough) (ha : Z) (z dx dy dz : R) : res (write R) :=
  if Rltb z (tr_z t - tr_c t + tr_lag t) then Ok (mkWrite (tr_lag_facies t) (Some 0) (Some 0) ha)
  else if (tr_structure t =? 0)%Z then Ok (mkWrite (tr_facies t) (Some (tr_azim t)) (Some (tr_dip t)) ha)
  else if (tr_structure t =? 1)%Z then
    let* f := layer_facies t (dip_layer t dx dy dz) in
    Ok (mkWrite f (Some (tr_azim t)) (Some (tr_dip t)) ha)
  else if (tr_structure t =? 2)%Z then
    let (azim, dip) := bulb_angles t dx dy dz in
    Ok (mkWrite (tr_facies t) (Some azim) (Some dip) ha)
  else
    let (azim, dip) := bulb_angles t dx dy dz in
    let* f := layer_facies t (bulb_layer t dx dy dz) in
    Ok (mkWrite f (Some azim) (Some dip) ha).

Definition trough_assign (dm : domain) (t : trough) (ha : Z) (p : point R) : res (option (write R)) :=
  let '(dx, dy, dz) := offset dm t p in
  if claims t dx dy dz then
    let* w := trough_write t ha (p_z p) dx dy dz in Ok (Some w)
  else Ok None.

(** ** The troughs of an element (trough_ae.pyx l. 62-82)

    The settings of the element used here; [te_xyz] is either given or comes
    from [trough_positions].  Each trough draws its angle (a uniform number) and
    the values of [trough_draw]. *)
Record trough_params := mkTP {
  tp_length : R; tp_width : R; tp_depth : R; tp_trend : option (R * R); tp_paleoflow : R * R; tp_type : trough_type }.
Definition make_trough (tp : trough_params) (g : grid R) (pos : position R) (d : R * trough_draw) : res trough :=
  let '(x, y, z) := pos in
  let '(a, b, c) := trough_size (tp_length tp) (tp_width tp) (tp_depth tp) (tp_trend tp) z (g_z0 g) (g_lz g) in
  new_trough (tp_type tp) x y z a b c (uniform (fst (tp_paleoflow tp)) (snd (tp_paleoflow tp)) (fst d)) (snd d).
Fixpoint make_troughs (tp : trough_params) (g : grid R) (te : list (position R)) (ds : list (R * trough_draw)) : res (list trough) :=
  match te, ds with
  | [], _ => Ok []
  | pos :: te, d :: ds =>
      let* t := make_trough tp g pos d in
      let* r := make_troughs tp g te ds in
      Ok (t :: r)
  | _ :: _, [] => Err OutOfFuel
  end.

(** A trough as assign_points sees it. *)
Definition trough_obj {D : Type} (dm : domain) (ha : Z) (t : trough) : aobj R D :=
  mkAobj (tr_zmin t) (tr_zmax t) (fun d p => (d, match trough_assign dm t ha p with Ok r => r | Err _ => None end)).
