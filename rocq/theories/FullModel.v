(** The generation of a model with its objects, joined from the parts: the loop
    of stratum.py with the objects made by trough_ae.pyx, channel_ae.pyx and
    sheet_ae.py between the surfaces of their element, and the objects as
    assign_points sees them.  No proofs here. *)
From Coq Require Import List ZArith Bool Reals Arith.Cantor.
From Verif Require Import Base Num ParseModel ConfigModel SurfaceModel StrataModel AssignModel BuildModel FaciesModel
  TroughModel SheetModel ChannelModel.
Import ListNotations.
Local Open Scope R_scope.

(** ** Element types: the parameters used to make objects

    Troughs: depth*buffer, agg, whether migrate is given, te_xyz
    (trough_ae.pyx l. 68-73). *)
Inductive kind_params :=
  | PSheets (lens_thickness : R) (size_ztrend : option (R * R)) (shp : sheet_type)
  | PTroughs (tp : trough_params) (buffer agg : R) (migrate : bool) (te_xyz : option (list (position R)))
  | PChannels (cp : channel_params).
(** ft_id is ae_id. *)
Record full_type := mkFT { ft_id : Z; ft_contact : contact R; ft_bg : background (T := R); ft_kind : kind_params }.
Definition base_type (ft : full_type) : ae_type R :=
  mkType (ft_contact ft) (match ft_kind ft with PSheets lens trend _ => GSheet lens trend | _ => GObjects end) (ft_bg ft).

(** ** Objects of one element *)
Inductive objects := OSheets (l : list sheet) | OTroughs (l : list trough) | OChannels (l : list channel).
(** Vertical extents of troughs and channels; those of sheets come from their
    surfaces. *)
Definition extents (o : objects) : list (R * R) :=
  match o with
  | OSheets _ => []
  | OTroughs l => map (fun t => (tr_zmin t, tr_zmax t)) l
  | OChannels l => map (fun c => (ch_zmin c, ch_zmax c)) l
  end.

(** The draws for the objects of one element. *)
Record object_draws := mkOD {
  od_sheets : list sheet_draw; od_planes : list (plane_draw R); od_troughs : list (R * trough_draw);
  od_starts : list R; od_levels : nat -> list level_draw }.

(** trough_ae.pyx l. 62-82, channel_ae.pyx l. 75-160, between the surfaces [sb]
    and [sp]. *)
Definition make_objects (g : grid R) (fuel : nat) (k : kind_params) (sb sp : surface R) (od : object_draws) : res objects :=
  match k with
  | PSheets _ _ _ => Ok (OSheets [])
  | PTroughs tp buffer agg migrate te_xyz =>
      let* te := (match te_xyz with
                  | Some te => Ok te
                  | None => trough_positions g (zmax sb) (zmean sp) (tp_depth tp) buffer agg migrate (od_planes od)
                  end) in
      let* l := make_troughs tp g te (od_troughs od) in Ok (OTroughs l)
  | PChannels cp =>
      let* l := generate_channels fuel cp g (zmean sb) (zmean sp) (od_starts od) (od_levels od) in Ok (OChannels l)
  end.
(** Sheet.__init__ for the sheets placed by generate_objects (sheet_ae.py
    l. 97); the mean of a surface never changes. *)
Fixpoint make_sheets (g : grid R) (st : store R) (shp : sheet_type) (l : list (object R)) (ds : list sheet_draw) : res (list sheet) :=
  match l, ds with
  | [], _ => Ok []
  | o :: l, d :: ds =>
      match ob_surfaces o with
      | Some (b, _) =>
          let* s := getS st b in
          let* sh := new_sheet shp g (zmean s) d in
          let* r := make_sheets g st shp l ds in
          Ok (sh :: r)
      | None => Err OutOfModel
      end
  | _ :: _, [] => Err OutOfFuel
  end.

(** AERealization.__init__ with the objects. *)
Definition full_ae (g : grid R) (fuel : nat) (st : store R) (ft : full_type) (kind : nat) (sbg : stratum_bg (T := R))
  (bottom top : nat) (od : object_draws) : res (store R * (ae R * objects)) :=
  let* sb := getS st bottom in
  let* sp := getS st top in
  let* o := make_objects g fuel (ft_kind ft) sb sp od in
  let* (st, e) := new_ae g fuel st (base_type ft) kind sbg bottom top (extents o) in
  match ft_kind ft with
  | PSheets _ _ shp => let* l := make_sheets g st shp (ae_objects e) (od_sheets od) in Ok (st, (e, OSheets l))
  | _ => Ok (st, (e, o))
  end.

(** ** Strata (stratum.py l. 12-113, as in StrataModel) *)
Record full_draw := mkFD {
  fd_height : R; fd_u : R; fd_avul : R; fd_next : nat; fd_field : list R; fd_objects : object_draws }.
Definition base_draw (d : full_draw) (objs : list (R * R)) : draw R :=
  mkDraw (fd_height d) (fd_u d) (fd_avul d) (fd_next d) (fd_field d) objs.
Record full_params := mkFP { fp_types : list full_type; fp_avul_prob : R; fp_bg : stratum_bg (T := R) }.
Definition base_params (fp : full_params) : stratum_params R :=
  mkSP (map base_type (fp_types fp)) (fp_avul_prob fp) (fp_bg fp).

Fixpoint full_stratum_loop (g : grid R) (fuel : nat) (fp : full_params) (bot : nat)
  (draws : list full_draw) (st : store R) (top : nat) (curr : nat) (znow : R)
  (lo hi : R) (aes : list (ae R * objects)) : res (store R * (R * R * list (ae R * objects))) :=
  let* sbot := getS st bot in
  if Rleb znow (zmean sbot) then Ok (st, (lo, hi, aes))
  else
    match draws with
    | [] => Err OutOfFuel
    | d :: draws =>
        let* ty := choose (fp_types fp) curr in
        let znow := next_depth (fp_avul_prob fp) znow (base_draw d []) in
        let* next := choose (fp_types fp) (fd_next d) in
        let* (znow, st, ae_bot) :=
          (if Rleb znow (zmean sbot) then Ok (zmean sbot, st, bot)
           else let* s := new_surface (columns g) (set_z (ft_contact next) znow) (fd_field d) in
                let (st, b) := alloc st s in Ok (znow, st, b)) in
        let* st := use_lower st ae_bot top in
        let* st := use_higher st ae_bot bot in
        let* (st, eo) := full_ae g fuel st ty curr (fp_bg fp) ae_bot top (fd_objects d) in
        let lo := if Rltb (ae_zmin (fst eo)) lo then ae_zmin (fst eo) else lo in
        let hi := if Rltb hi (ae_zmax (fst eo)) then ae_zmax (fst eo) else hi in
        full_stratum_loop g fuel fp bot draws st ae_bot (fd_next d) znow lo hi (aes ++ [eo])%list
    end.

(** A stratum with the objects of its elements. *)
Definition full_stratum := (stratum R * list objects)%type.
Definition new_full_stratum (g : grid R) (fuel : nat) (fp : full_params) (first : nat) (draws : list full_draw)
  (st : store R) (bottom top : nat) : res (store R * full_stratum) :=
  let* sb := getS st bottom in
  let* stp := getS st top in
  let* (st, (lo, hi, aes)) :=
    full_stratum_loop g fuel fp bottom draws st top first (zmean stp) (zmin sb) (zmax stp) [] in
  Ok (st, (mkStratum bottom top lo hi (map fst aes), map snd aes)).

(** ** generate_model (model.py l. 109-138) *)
Record full_stratum_draws := mkFSD { fsd_field : list R; fsd_first : nat; fsd_draws : list full_draw }.
Fixpoint full_model_loop (g : grid R) (fuel : nat) (contacts : list (contact R)) (params : list full_params)
  (n : nat) (draws : list full_stratum_draws) (si : nat) (st : store R) (top : nat) (strata : list full_stratum)
  : res (store R * list full_stratum) :=
  match draws with
  | [] => if Nat.eqb si n then Ok (st, strata) else Err OutOfModel
  | sd :: draws =>
      let* s := (if Nat.eqb (S si) n then new_surface (columns g) (flat_contact (g_z0 g)) []
                 else let* cm := pyget contacts (-1 - Z.of_nat si) in new_surface (columns g) cm (fsd_field sd)) in
      let (st, bottom) := alloc st s in
      let* st := use_lower st bottom top in
      let* fp := pyget params (-1 - Z.of_nat si) in
      let* (st, str) := new_full_stratum g fuel fp (fsd_first sd) (fsd_draws sd) st bottom top in
      full_model_loop g fuel contacts params n draws (S si) st bottom (strata ++ [str])%list
  end.
Definition full_generate (g : grid R) (fuel : nat) (contacts : list (contact R)) (params : list full_params)
  (draws : list full_stratum_draws) : res (store R * list full_stratum) :=
  let* s := new_surface (columns g) (flat_contact (g_lz g)) [] in
  let (st, top) := alloc [] s in
  full_model_loop g fuel contacts params (List.length params) draws 0 st top [].

(** ** The objects as assign_points sees them

    The objects of all elements in the order of the numbers of the elements
    (model.py l. 140-149).  All object numbers are 0: the arrays are filled
    before the objects are numbered (BuildModel.numbers). *)
Definition object_table (strata : list full_stratum) : list objects := List.concat (map snd strata).
(** ae_realization.py l. 132-136 *)
Definition row_width (l : list sheet) : Z := fold_right Z.max 0%Z (map sh_num l).

Section Cells.
Variable dm : domain.
Variable cg : cgrid.
(** What is found in the memory around the facies array of a trough or channel
    (boundscheck(False)); for a sheet the run ends with IndexError instead. *)
Variable wild : nat -> nat -> point R -> Z.
Variable table : list objects.

Definition look_of (num oi : nat) (p : point R) : write R :=
  match nth_error table num with
  | Some (OSheets l) =>
      match nth_error l oi with
      | Some sh =>
          match sheet_write (row_width l) sh 0 p with
          | Ok w => w
          | Err _ => mkWrite (wild num oi p) (Some (sh_azim sh)) (Some (sh_dip sh)) 0
          end
      | None => mkWrite (wild num oi p) None None 0
      end
  | _ => mkWrite (wild num oi p) None None 0
  end.
(** The arrays dont_check belong to an element: [key] numbers the channels of
    all elements. *)
Definition channel_key (num oi : nat) : nat := to_nat (num, oi).
Definition channel_check (num oi : nat) (c : channel) (d : marks) (p : point R) : marks * option (write R) :=
  let (d, r) := channel_assign cg (channel_key num oi) c 0 d p in
  (d, match r with
      | Ok r => r
      | Err _ => Some (mkWrite (wild num oi p) (Some (channel_azimuth c (p_x p) (p_y p))) (Some (ch_dip c)) 0)
      end).
(** trough_ae.pyx l. 182-292 *)
Definition trough_check (num oi : nat) (t : trough) (d : marks) (p : point R) : marks * option (write R) :=
  (d, match trough_assign dm t 0 p with
      | Ok r => r
      | Err _ =>
          let '(dx, dy, dz) := offset dm t p in
          let (azim, dip) := if (tr_structure t =? 1)%Z then (tr_azim t, tr_dip t) else bulb_angles t dx dy dz in
          Some (mkWrite (wild num oi p) (Some azim) (Some dip) 0)
      end).
Definition probe_of (num oi : nat) (d : marks) (p : point R) : marks * option (write R) :=
  match nth_error table num with
  | Some (OTroughs l) => match nth_error l oi with Some t => trough_check num oi t d p | None => (d, None) end
  | Some (OChannels l) => match nth_error l oi with Some c => channel_check num oi c d p | None => (d, None) end
  | _ => (d, None)
  end.
End Cells.

(** type_id of the elements of stratum [si] (ae_realization.py l. 77); the
    strata are generated from the last to the first. *)
Definition type_id_of (params : list full_params) (si kind : nat) : Z :=
  match pyget params (-1 - Z.of_nat si) with
  | Ok fp => match nth_error (fp_types fp) kind with Some ft => ft_id ft | None => (-1)%Z end
  | Err _ => (-1)%Z
  end.

(** The arrays of a generated model. *)
Definition full_arrays (dm : domain) (cg : cgrid) (wild : nat -> nat -> point R -> Z) (params : list full_params)
  (st : store R) (strata : list full_stratum) (xs ys zs : list R) : nat -> nat -> nat -> option (cell_values (T := R)) :=
  assign_points (to_model (List.length ys) (type_id_of params) (look_of wild (object_table strata)) (probe_of dm cg wild (object_table strata))
                   st 0 0 (map fst strata)) xs ys zs unmarked.
