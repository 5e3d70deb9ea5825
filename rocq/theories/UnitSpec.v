(** What it means to measure lengths in another unit: every length among the
    settings, the draws and the results multiplied by c; angles, probabilities,
    counts, facies and factors (ztrend, buffer) as they are. *)
From Coq Require Import List ZArith Bool Ascii String Reals.
From Verif Require Import Base Num ParseModel ConfigModel SurfaceModel StrataModel AssignModel TroughModel SheetModel ChannelModel FullModel.
Import ListNotations.
Local Open Scope R_scope.

Section Unit.
Variable c : R.

(** ** Settings *)
Definition pos_in (q : position R) : position R := let '(x, y, z) := q in (c * x, c * y, c * z).
Definition trough_type_in (t : trough_type) : trough_type :=
  mkTType (tt_structure t) (tt_facies t) (tt_altfacies t) (tt_azimuth t) (tt_dip t) (c * tt_lag_height t) (tt_lag_facies t)
    (c * tt_dipset_dist t) (c * tt_bulbset_dist t).
Definition trough_params_in (tp : trough_params) : trough_params :=
  mkTP (c * tp_length tp) (c * tp_width tp) (c * tp_depth tp) (tp_trend tp) (tp_paleoflow tp) (trough_type_in (tp_type tp)).
Definition sheet_type_in (t : sheet_type) : sheet_type :=
  mkSheetType (st_structure t) (st_facies t) (st_altfacies t) (st_azimuth t) (st_dip t) (c * st_dipset_dist t).
(** lens_thickness = -1 is not a length but says "one sheet". *)
Definition lens_in (lens : R) : R := if Req_EM_T lens (-1) then -1 else c * lens.
Definition kind_in (k : kind_params) : kind_params :=
  match k with
  | PSheets lens trend shp => PSheets (lens_in lens) trend (sheet_type_in shp)
  | PTroughs tp buffer agg migrate te => PTroughs (trough_params_in tp) buffer (c * agg) migrate (option_map (map pos_in) te)
  | PChannels cp => PChannels cp
  end.
(** z, and variance and correlation lengths of a random surface *)
Definition contact_in (cm : contact R) : contact R :=
  mkContact (cm_mode cm) (option_map (Rmult c) (cm_z cm))
    (option_map (fun r => let '(v, lx, ly) := r in (c ^ 2 * v, c * lx, c * ly)) (cm_random cm)).
Definition type_in (ft : full_type) : full_type := mkFT (ft_id ft) (contact_in (ft_contact ft)) (ft_bg ft) (kind_in (ft_kind ft)).
Definition params_in (fp : full_params) : full_params := mkFP (map type_in (fp_types fp)) (fp_avul_prob fp) (fp_bg fp).

(** Troughs of any structure and sheets of any structure, the thickness of
    which is a length or -1. *)
Definition measured (ft : full_type) : Prop :=
  match ft_kind ft with
  | PSheets lens _ _ => lens = -1 \/ 0 <= lens
  | PTroughs _ _ _ _ _ => True
  | PChannels _ => False
  end.

(** ** Draws: thicknesses, avulsion depths, displacements and fields are
    lengths; uniform numbers of the interval (0,1) are not. *)
Definition plane_in (d : plane_draw R) : plane_draw R :=
  mkPlane (pd_uniform d) (fun k => (c * fst (pd_normal d k), c * snd (pd_normal d k))).
Definition objects_in (d : object_draws) : object_draws :=
  mkOD (od_sheets d) (map plane_in (od_planes d)) (od_troughs d) (od_starts d) (od_levels d).
Definition draw_in (d : full_draw) : full_draw :=
  mkFD (c * fd_height d) (fd_u d) (c * fd_avul d) (fd_next d) (map (Rmult c) (fd_field d)) (objects_in (fd_objects d)).
Definition draws_in (d : full_stratum_draws) : full_stratum_draws :=
  mkFSD (map (Rmult c) (fsd_field d)) (fsd_first d) (map draw_in (fsd_draws d)).

(** ** Results *)
Definition surface_in (s : surface R) : surface R := mkSurface (map (Rmult c) (vals s)) (c * zmean s) (c * zmin s) (c * zmax s).
Definition point_in (p : point R) : point R := mkPoint (c * p_x p) (c * p_y p) (c * p_z p) (p_xi p) (p_yi p).
Definition domain_in (dm : domain) : domain := mkDomain (dm_periodic dm) (c * dm_lx dm) (c * dm_ly dm).
Definition object_in (o : object R) : object R := mkObject (c * ob_zmin o) (c * ob_zmax o) (ob_surfaces o).
Definition ae_in (e : ae R) : ae R :=
  mkAE (ae_bottom e) (ae_top e) (c * ae_zmin e) (c * ae_zmax e) (map object_in (ae_objects e))
    (map (fun q => (map (Rmult c) (fst q), map (Rmult c) (snd q))) (ae_copies e)) (ae_bg_facies e) (ae_bg_azim e) (ae_bg_dip e) (ae_kind e).
Definition stratum_in (s : stratum R) : stratum R :=
  mkStratum (s_bottom s) (s_top s) (c * s_zmin s) (c * s_zmax s) (map ae_in (s_aes s)).
End Unit.

(** ** Channels *)
Section UnitChannels.
Variable c : R.
Definition cpoint_in (q : cpoint) : cpoint := mkCP (c * cp_x q) (c * cp_y q) (cp_vx q) (cp_vy q).
Definition channel_type_in (ct : channel_type) : channel_type :=
  mkCType (ct_structure ct) (ct_facies ct) (ct_altfacies ct) (ct_dip ct) (c * ct_lag_height ct) (ct_lag_facies ct) (c * ct_dipset_dist ct).
Definition channel_params_in (cp : channel_params) : channel_params :=
  mkCParams (cc_no cp) (cc_flow cp) (c * cc_agg cp) (c * cc_width cp) (c * cc_depth cp) (cc_buffer cp) (cc_trend cp) (c * cc_mig cp)
    (channel_type_in (cc_type cp)).
(** A draw of a centreline in both units. *)
Definition level_in (d d' : level_draw) : Prop :=
  ld_mig d' = ld_mig d /\ ld_channel d' = ld_channel d /\
  forall x y w, ld_curve d' (c * x, c * y) (c * w) = let* l := ld_curve d (x, y) w in Ok (map cpoint_in l).
(** A massive channel; the curvature of its bottom is 1/length. *)
Definition channel_in (h : channel) : channel :=
  mkChannel (map cpoint_in (ch_line h)) (c * ch_ztop h) (c * ch_zmin h) (c * ch_zmax h) (c * ch_depth h) (c * ch_width h) (ch_a h / c) (c * ch_min_dxdy h)
    (c * ch_lag h) (ch_lag_facies h) (ch_dipsets h) (ch_layer_dist h) (ch_shift h) (ch_dip h) (ch_azim h) (ch_sin h) (ch_cos h)
    (ch_facies h) (ch_num_facies h) (ch_array h).
Definition cgrid_in (cg : cgrid) : cgrid := mkCGrid (cg_nx cg) (cg_ny cg) (c * cg_dx cg).
(** A point of the centreline less than 10^50 (in both units) from (x,y). *)
Definition within_reach (h : channel) (x y : R) : Prop :=
  exists q, In q (ch_line h) /\ (x - cp_x q) ^ 2 + (y - cp_y q) ^ 2 < 10 ^ 100 /\ c ^ 2 * ((x - cp_x q) ^ 2 + (y - cp_y q) ^ 2) < 10 ^ 100.
End UnitChannels.
