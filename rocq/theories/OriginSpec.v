(** What it means to move the origin of the horizontal axes: the same settings
    with x0, y0 replaced by x0+a, y0+b, and every position given in the
    settings (te_xyz) moved along. *)
From Coq Require Import List ZArith Bool Ascii String Reals.
From Verif Require Import Base Num SurfaceModel AssignModel TroughModel SheetModel ChannelModel FullModel.
Import ListNotations.
Local Open Scope R_scope.

(** A point of the domain, moved along. *)
Definition along (a b : R) (p : point R) : point R := mkPoint (p_x p + a) (p_y p + b) (p_z p) (p_xi p) (p_yi p).

(** te_xyz moved along; no other setting holds a horizontal position. *)
Definition position_along (a b : R) (q : position R) : position R := let '(x, y, z) := q in (x + a, y + b, z).
Definition kind_along (a b : R) (k : kind_params) : kind_params :=
  match k with
  | PTroughs tp buffer agg migrate (Some te) => PTroughs tp buffer agg migrate (Some (map (position_along a b) te))
  | k => k
  end.
Definition type_along (a b : R) (ft : full_type) : full_type := mkFT (ft_id ft) (ft_contact ft) (ft_bg ft) (kind_along a b (ft_kind ft)).
Definition params_along (a b : R) (fp : full_params) : full_params :=
  mkFP (map (type_along a b) (fp_types fp)) (fp_avul_prob fp) (fp_bg fp).

(** Troughs of any structure, and sheets that are massive or whose layers are
    horizontal. *)
Definition origin_free (ft : full_type) : Prop :=
  match ft_kind ft with
  | PSheets _ _ shp => st_structure shp <> S_ "dip" \/ st_dip shp = (0, 0)
  | PTroughs _ _ _ _ _ => True
  | PChannels _ => False
  end.

(** A centreline, and a channel, moved by c along y. *)
Definition point_up (c : R) (q : cpoint) : cpoint := mkCP (cp_x q) (cp_y q + c) (cp_vx q) (cp_vy q).
(** The centreline drawn from a start that lies c further along y is the same
    line c further along y. *)
Definition carried (d : level_draw) : Prop := forall x y c w,
  ld_curve d (x, y + c) w = let* l := ld_curve d (x, y) w in Ok (map (point_up c) l).
