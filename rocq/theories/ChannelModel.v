(** Model of hyvr/geo/channel.pyx and of maybe_assign_points_to_object and
    generate_objects of hyvr/geo/channel_ae.pyx.  No proofs here.

    sqrt, sin, cos, atan2 of libc are the exact functions, C ints are unbounded
    integers (the C code casts radius/dx to int).  The curve itself
    (ferguson_curve) is in CurveModel. *)
From Coq Require Import List ZArith Bool Ascii String Reals.
From Verif Require Import Base Num FaciesModel SurfaceModel AssignModel TroughModel.
Import ListNotations.
Local Open Scope R_scope.

(** A point of the centreline: x_center, y_center, vx, vy. *)
Record cpoint := mkCP { cp_x : R; cp_y : R; cp_vx : R; cp_vy : R }.

(** type_params *)
Record channel_type := mkCType {
  ct_structure : pystr; ct_facies : list Z; ct_altfacies : option (list (list Z));
  ct_dip : R * R; ct_lag_height : R; ct_lag_facies : Z; ct_dipset_dist : R }.

(** The attributes of channel.pyx l. 15-27.  Cython attributes that are not set
    are 0. *)
Record channel := mkChannel {
  ch_line : list cpoint; ch_ztop : R; ch_zmin : R; ch_zmax : R; ch_depth : R; ch_width : R; ch_a : R;
  ch_min_dxdy : R; ch_lag : R; ch_lag_facies : Z; ch_dipsets : bool; ch_layer_dist : R; ch_shift : R;
  ch_dip : R; ch_azim : R; ch_sin : R; ch_cos : R; ch_facies : Z; ch_num_facies : Z; ch_array : list Z }.

(** The draws of one channel: dip, shift, facies, facies sequence. *)
Record channel_draw := mkCD { cd_dip : R; cd_shift : R; cd_facies : nat; cd_array : nat -> nat }.

Definition step_length (p q : cpoint) : R := sqrt ((cp_x q - cp_x p) ^ 2 + (cp_y q - cp_y p) ^ 2).
(** channel.pyx l. 94-98 *)
Fixpoint curve_length (l : list cpoint) : R :=
  match l with
  | p :: (q :: _) as r => step_length p q + curve_length r
  | _ => 0
  end.

(** Channel.__init__ (channel.pyx l. 30-108).  [dx], [dy] are those of the grid. *)
Definition new_channel (ct : channel_type) (line : list cpoint) (z width depth dx dy : R) (d : channel_draw) : res channel :=
  let mk := mkChannel line z (z - depth) z depth width (4 * depth / width ^ 2) (Rmin dx dy)
              (ct_lag_height ct) (ct_lag_facies ct) in
  let dip := uniform (fst (ct_dip ct)) (snd (ct_dip ct)) (cd_dip d) in
  if pystr_eqb (ct_structure ct) (S_ "dip") then
    let ld := ct_dipset_dist ct in
    let shift := uniform 0 ld (cd_shift d) in
    let num := (nceil (curve_length line * sin (deg dip) / ld + shift)%R + nceil (depth / ld)%R + 10)%Z in
    let* arr := alternating_facies num (ct_facies ct) (ct_altfacies ct) (cd_array d) in
    Ok (mk true ld shift dip 0 (sin (deg dip)) (cos (deg dip)) 0%Z num arr)
  else
    let* f := choice (ct_facies ct) (cd_facies d) in
    Ok (mk false 0 0 dip 0 0 0 f 0%Z []).

(** ** Cells (channel_ae.pyx l. 167-315) *)

Definition dist2 (q : cpoint) (x y : R) : R := (x - cp_x q) ^ 2 + (y - cp_y q) ^ 2.

(** The loop for dip sets: sums and the nearest point so far (l. 227-249). *)
Record near := mkNear { nr_vx : R; nr_vy : R; nr_sum : R; nr_run : R; nr_along : R; nr_dist : R }.
Definition far : R := 10 ^ 100.
Fixpoint near_loop (x y : R) (prev : option cpoint) (l : list cpoint) (n : near) : near :=
  match l with
  | [] => n
  | q :: l =>
      let run := match prev with Some p => nr_run n + step_length p q | None => nr_run n end in
      let dist := sqrt (dist2 q x y) in
      let w := 1 / (dist + / 10 ^ 20) in
      let n' :=
        if Rltb dist (nr_dist n)
        then mkNear (nr_vx n + cp_vx q * w) (nr_vy n + cp_vy q * w) (nr_sum n + w) run run dist
        else mkNear (nr_vx n + cp_vx q * w) (nr_vy n + cp_vy q * w) (nr_sum n + w) run (nr_along n) (nr_dist n) in
      near_loop x y (Some q) l n'
  end.
Definition find_near (x y : R) (l : list cpoint) : near := near_loop x y None l (mkNear 0 0 0 0 0 far).

(** l. 250-256: without dip sets only the distance. *)
Definition nearest2 (x y : R) (l : list cpoint) : R :=
  fold_left (fun m q => if Rltb (dist2 q x y) m then dist2 q x y else m) l far.
Definition xy_dist (c : channel) (x y : R) : R :=
  if ch_dipsets c then nr_dist (find_near x y (ch_line c)) else sqrt (nearest2 x y (ch_line c)).

(** object_dont_check of all channels; [key] stands for the element and the
    number of the object in it. *)
Definition marks := nat -> nat -> nat -> bool.
(** Nothing is marked yet (channel.pyx l. 41, channel_ae.pyx l. 37, 55). *)
Definition unmarked : marks := fun _ _ _ => false.
Definition mark (d : marks) (key x y : nat) : marks :=
  fun k i j => if Nat.eqb k key && Nat.eqb i x && Nat.eqb j y then true else d k i j.

(** nx, ny, dx of the grid *)
Record cgrid := mkCGrid { cg_nx : nat; cg_ny : nat; cg_dx : R }.

(** l. 259-277.  [radius] is larger than min_dx_dy. *)
Definition mark_row (cg : cgrid) (key x y i ny : nat) (d : marks) : marks :=
  fold_left (fun d j =>
    if Nat.leb j y && Nat.ltb (y + j) (cg_ny cg) then
      mark (mark (mark (mark d key (x + i) (y + j)) key (x + i) (y - j)) key (x - i) (y + j)) key (x - i) (y - j)
    else d) (seq 0 ny) d.
Definition mark_disc (cg : cgrid) (key x y : nat) (radius : R) (d : marks) : marks :=
  fold_left (fun d i =>
    if Nat.leb i x && Nat.ltb (x + i) (cg_nx cg) then
      mark_row cg key x y i (Z.to_nat (ntrunc (sqrt (radius ^ 2 - (INR i * cg_dx cg) ^ 2)))) d
    else d) (seq 0 (Z.to_nat (ntrunc (radius / cg_dx cg)))) d.

(** C's atan2 *)
Definition atan2 (y x : R) : R :=
  if Rltb 0 x then atan (y / x)
  else if Rltb x 0 then (if Rleb 0 y then atan (y / x) + PI else atan (y / x) - PI)
  else if Rltb 0 y then PI / 2 else if Rltb y 0 then - (PI / 2) else 0.

(** l. 302-303.  The weighted velocity is only defined for a nonempty
    centreline; it is not used otherwise, as the point is then not inside. *)
Definition channel_layer (c : channel) (x y dz : R) : Z :=
  ntrunc ((nr_along (find_near x y (ch_line c)) * ch_sin c + dz * ch_cos c + ch_shift c) / ch_layer_dist c)%R.
Definition channel_azimuth (c : channel) (x y : R) : R :=
  let n := find_near x y (ch_line c) in atan2 (nr_vy n / nr_sum n) (nr_vx n / nr_sum n) / PI * 180.

(** object_facies_array[oi, n]: unchecked in the code (boundscheck and
    wraparound are off), reported here. *)
Definition channel_facies (c : channel) (n : Z) : res Z :=
  if (n <? 0)%Z then Err IndexError
  else match nth_error (ch_array c) (Z.to_nat n) with Some f => Ok f | None => Err IndexError end.

(** l. 283-310: what is written for a point inside. *)
Definition channel_write (c : channel) (ha : Z) (p : point R) : res (write R) :=
  if Rltb (p_z p) (ch_ztop c - ch_depth c + ch_lag c) then Ok (mkWrite (ch_lag_facies c) (Some 0) (Some 0) ha)
  else if ch_dipsets c then
    let* f := channel_facies c (channel_layer c (p_x p) (p_y p) (p_z p - ch_ztop c)) in
    Ok (mkWrite f (Some (channel_azimuth c (p_x p) (p_y p))) (Some (ch_dip c)) ha)
  else Ok (mkWrite (ch_facies c) (Some (ch_azim c)) (Some (ch_dip c)) ha).

(** l. 281 *)
Definition above_parabola (c : channel) (dist dz : R) : bool := Rleb (ch_a c * dist ^ 2 - ch_depth c) dz.

Definition channel_assign (cg : cgrid) (key : nat) (c : channel) (ha : Z) (d : marks) (p : point R) : marks * res (option (write R)) :=
  let dz := p_z p - ch_ztop c in
  if Rltb 0 dz then (d, Ok None)
  else if d key (p_xi p) (p_yi p) then (d, Ok None)
  else
    let dist := xy_dist c (p_x p) (p_y p) in
    let radius := dist - ch_width c in
    let d := if Rltb (ch_min_dxdy c) radius then mark_disc cg key (p_xi p) (p_yi p) radius d else d in
    if above_parabola c dist dz then (d, let* w := channel_write c ha p in Ok (Some w))
    else (mark d key (p_xi p) (p_yi p), Ok None).

(** A channel as assign_points sees it. *)
Definition channel_obj (cg : cgrid) (key : nat) (ha : Z) (c : channel) : aobj R marks :=
  mkAobj (ch_zmin c) (ch_zmax c)
    (fun d p => let (d, r) := channel_assign cg key c ha d p in (d, match r with Ok r => r | Err _ => None end)).

(** ** The channels of an element (channel_ae.pyx l. 75-163) *)

(** l. 105-107 *)
Definition domain_width (flow lx ly : R) : R := Rabs (lx * sin flow) + Rabs (ly * cos flow).
Definition domain_length (flow lx ly : R) : R := Rabs (lx * cos flow) + Rabs (ly * sin flow).
(** l. 136-137 *)
Definition channel_start (flow x0 y0 lx ly width ystart : R) : R * R :=
  ((x0 + lx) / 2 - (domain_length flow lx ly + width) / 2 * cos flow - ystart * sin flow,
   (y0 + ly) / 2 - (domain_length flow lx ly + width) / 2 * sin flow + ystart * cos flow).

(** l. 113-118: np.interp(z, xp, *size_ztrend) passes the two numbers of the
    trend as values and as left value, so that the values have not the length
    of xp = [z0, zmax]: ValueError. *)
Definition interp_starred (z : R) (xp : list R) (trend : R * R) : res R := Err ValueError.
Definition first_zfactor (trend : option (R * R)) (z z0 zmax : R) : res R :=
  match trend with Some t => interp_starred z [z0; zmax] t | None => Ok 1 end.

(** l. 122-163: the elevations z = ztop - dz, ztop - 2 dz, ... > zbottom. *)
Fixpoint channel_levels (fuel : nat) (z dz zbottom : R) : res (list R) :=
  if Rltb zbottom z then
    match fuel with
    | O => Err OutOfFuel
    | S fuel => let* r := channel_levels fuel (z - dz) dz zbottom in Ok (z :: r)
    end
  else Ok [].

Record channel_params := mkCParams {
  cc_no : nat; cc_flow : R; cc_agg : R; cc_width : R; cc_depth : R; cc_buffer : R; cc_trend : option (R * R);
  cc_mig : R; cc_type : channel_type }.
(** The draws for one channel: the centreline as a function of its start and
    the width (ferguson_curve), the migration and those of Channel.__init__. *)
Record level_draw := mkLD { ld_curve : R * R -> R -> res (list cpoint); ld_mig : R; ld_channel : channel_draw }.

(** l. 134-161: the channels of one level; the second result are the new
    ystart.  The factor of the sizes is 1, as there is no trend. *)
Fixpoint make_level (cp : channel_params) (g : grid R) (z : R) (ys : list R) (ds : list level_draw) : res (list channel * list R) :=
  match ys, ds with
  | [], _ => Ok ([], [])
  | y :: ys, d :: ds =>
      let flow := cc_flow cp * PI / 180 in
      let* line := ld_curve d (channel_start flow (g_x0 g) (g_y0 g) (g_lx g) (g_ly g) (cc_width cp) y) (cc_width cp) in
      let* c := new_channel (cc_type cp) line z (cc_width cp) (cc_depth cp) (g_dx g) (g_dy g) (ld_channel d) in
      let* r := make_level cp g z ys ds in
      Ok (c :: fst r, y - uniform (- cc_mig cp) (cc_mig cp) (ld_mig d) :: snd r)
  | _ :: _, [] => Err OutOfFuel
  end.
Fixpoint make_channels (cp : channel_params) (g : grid R) (zs : list R) (ys : list R) (ds : nat -> list level_draw) : res (list channel) :=
  match zs with
  | [] => Ok []
  | z :: zs =>
      let* r := make_level cp g z ys (ds 0%nat) in
      let* rest := make_channels cp g zs (snd r) (fun n => ds (S n)) in
      Ok (fst r ++ rest)
  end.

(** generate_objects; [us] are the draws of ystart. *)
Definition generate_channels (fuel : nat) (cp : channel_params) (g : grid R) (bottom_zmean top_zmean : R) (us : list R)
    (ds : nat -> list level_draw) : res (list channel) :=
  let flow := cc_flow cp * PI / 180 in
  let w := domain_width flow (g_lx g) (g_ly g) in
  let ys := map (uniform (- w / 2) (w / 2)) (firstn (cc_no cp) us) in
  let* f := first_zfactor (cc_trend cp) ((1 / 2) * (top_zmean + bottom_zmean)) (g_z0 g) (g_zmax g) in
  let* zs := channel_levels fuel (top_zmean - cc_agg cp) (cc_agg cp) (bottom_zmean + cc_depth cp * f * cc_buffer cp) in
  make_channels cp g zs ys ds.
