(** Vocabulary for statements about generated models with their objects. *)
From Coq Require Import List ZArith Reals Sorted String.
From Verif Require Import Base Num FaciesSpec SurfaceModel SurfaceSpec SurfaceProofs StrataModel AssignModel TroughModel TroughSpec TroughBuildSpec SheetModel ChannelModel FullModel.
Import ListNotations.
Local Open Scope R_scope.

(** The random fields have one value per column. *)
Definition fd_ok (n : nat) (d : full_draw) : Prop := List.length (fd_field d) = n.
Definition fsd_ok (n : nat) (sd : full_stratum_draws) : Prop :=
  List.length (fsd_field sd) = n /\ Forall (fd_ok n) (fsd_draws sd).

(** Where an element with its objects comes from: an element type [ft] of the
    stratum it lies in, the draws [od] and the surfaces below and above it,
    which keep their elevations. *)
Definition made_from (g : grid R) (fuel : nat) (st : store R) (fp : full_params) (ft : full_type) (od : object_draws)
  (e : ae R) (o : objects) : Prop :=
  nth_error (fp_types fp) (ae_kind e) = Some ft /\
  exists st0 st1, full_ae g fuel st0 ft (ae_kind e) (fp_bg fp) (ae_bottom e) (ae_top e) od = Ok (st1, (e, o)) /\
    wf (columns g) st0 /\ keeps st0 st /\ keeps st1 st /\ below st0 (ae_bottom e) (ae_top e).

(** Sensible settings of an element type, [lo] and [hi] bounding the
    elevations in the model. *)
Definition type_fits (g : grid R) (lo hi : R) (ft : full_type) : Prop :=
  match ft_kind ft with
  | PSheets _ _ shp => ~ In (-1)%Z (st_facies shp) /\ alternatives_ok (st_facies shp) (st_altfacies shp)
  | PTroughs tp buffer agg _ te_xyz =>
      0 < agg /\ 0 <= tp_depth tp * buffer /\ settings_ok (tp_type tp) /\
      0 < tp_length tp /\ 0 < tp_width tp /\ 0 < tp_depth tp /\
      (* the size trend is positive *)
      (forall z, lo <= z <= hi -> 0 < zfactor (tp_trend tp) z (g_z0 g) (g_lz g)) /\
      (* given positions are sorted from the highest to the lowest *)
      (forall te, te_xyz = Some te -> StronglySorted (fun p q => snd q <= snd p) te /\ Forall (fun p => lo <= snd p <= hi) te)
  | PChannels cp =>
      0 < cc_agg cp /\ 0 < cc_width cp < 10 ^ 50 /\ 0 < cc_depth cp /\
      ~ In (-1)%Z (ct_facies (cc_type cp)) /\ alternatives_ok (ct_facies (cc_type cp)) (ct_altfacies (cc_type cp)) /\
      (ct_lag_height (cc_type cp) <= 0 \/ ct_lag_facies (cc_type cp) <> (-1)%Z)
  end.
(** The draws of troughs are those of np.random.uniform. *)
Definition trough_draws_ok (od : object_draws) : Prop := Forall (fun d => draw_ok (snd d)) (od_troughs od).

(** No object of element [e] lies completely below the bottom of the element:
    given positions of troughs lie above it, and it does not rise above its
    mean more than the buffer of channels allows. *)
Definition objects_reach_up (st : store R) (ft : full_type) (e : ae R) : Prop :=
  match ft_kind ft with
  | PSheets _ _ _ => True
  | PTroughs _ _ _ _ te_xyz => forall te k v, te_xyz = Some te -> col st (ae_bottom e) k = Some v -> Forall (fun p => v <= snd p) te
  | PChannels cp => forall k v s, nth_error st (ae_bottom e) = Some s -> col st (ae_bottom e) k = Some v ->
                      v <= zmean s + cc_depth cp * cc_buffer cp
  end.

(** Sensible settings of all element types, with elevations between [lo] and
    [hi]; every element of troughs or channels has a background facies. *)
Definition own_background (fp : full_params) (ft : full_type) : Z :=
  match bg_facies (ft_bg ft) with Some f => f | None => s_facies (fp_bg fp) end.
Definition is_sheets (ft : full_type) : Prop := exists lens tr shp, ft_kind ft = PSheets lens tr shp.
Definition is_channels (ft : full_type) : Prop := exists cp, ft_kind ft = PChannels cp.
Definition sensible (g : grid R) (params : list full_params) (draws : list full_stratum_draws) (st : store R) (strata : list full_stratum) : Prop :=
  exists lo hi,
    (forall a k v, col st a k = Some v -> lo <= v) /\ Forall (fun s => zmean s <= hi) st /\
    (forall sd d, In sd draws -> In d (fsd_draws sd) -> trough_draws_ok (fd_objects d)) /\
    (forall fp ft, In fp params -> In ft (fp_types fp) -> type_fits g lo hi ft /\ (is_sheets ft \/ own_background fp ft <> (-1)%Z)) /\
    (forall si fs e fp ft, nth_error strata si = Some fs -> In e (s_aes (fst fs)) ->
       pyget params (-1 - Z.of_nat si) = Ok fp -> nth_error (fp_types fp) (ae_kind e) = Some ft -> objects_reach_up st ft e).

(** The facies listed in the section of an element type. *)
Definition listed_facies (ft : full_type) : list Z :=
  match ft_kind ft with
  | PSheets _ _ shp => st_facies shp
  | PTroughs tp _ _ _ _ => tt_lag_facies (tp_type tp) :: tt_facies (tp_type tp)
  | PChannels cp => ct_lag_facies (cc_type cp) :: ct_facies (cc_type cp)
  end.
(** Every alternating facies is one of the facies. *)
Definition alternatives_listed (ft : full_type) : Prop :=
  match ft_kind ft with
  | PSheets _ _ shp => alternatives_ok (st_facies shp) (st_altfacies shp)
  | PTroughs tp _ _ _ _ => alternatives_ok (tt_facies (tp_type tp)) (tt_altfacies (tp_type tp))
  | PChannels cp => alternatives_ok (ct_facies (cc_type cp)) (ct_altfacies (cc_type cp))
  end.
(** All facies in the section of an element type, with the alternating ones. *)
Definition alternatives (alt : option (list (list Z))) : list Z :=
  match alt with Some l => List.concat l | None => [] end.
Definition section_facies (ft : full_type) : list Z :=
  (listed_facies ft ++
   match ft_kind ft with
   | PSheets _ _ shp => alternatives (st_altfacies shp)
   | PTroughs tp _ _ _ _ => alternatives (tt_altfacies (tp_type tp))
   | PChannels cp => alternatives (ct_altfacies (cc_type cp))
   end)%list.
(** Types whose facies come from the table of a sequence of layers. *)
Definition layered (ft : full_type) : Prop :=
  match ft_kind ft with
  | PSheets _ _ shp => st_structure shp = S_ "dip"%string
  | PTroughs tp _ _ _ _ => tt_structure (tp_type tp) <> S_ "massive"%string /\ tt_structure (tp_type tp) <> S_ "bulb"%string
  | PChannels cp => ct_structure (cc_type cp) = S_ "dip"%string
  end.
