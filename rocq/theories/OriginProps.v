(** C143: the origin of the horizontal axes. *)
From Coq Require Import List ZArith Bool Ascii String Reals Lra Lia.
From Verif Require Import Base Num ParseModel ConfigModel FaciesModel SurfaceModel StrataModel AssignModel TensorModel TroughModel SheetModel ChannelModel CurveModel FullModel
  FaciesProps SheetProps TroughProps ChannelSpec ChannelProofs ChannelProps ChannelProps2 FullProps LinkProps OverlapExamples2 OriginSpec OriginProofs.
Import ListNotations.
Local Open Scope R_scope.

(** Full property: the model of a domain does not depend on where the origin of
    its horizontal axes lies.  It holds for troughs and for sheets without
    inclined layers: the same surfaces, elements and strata are generated, the
    arrays agree cell by cell, and a run that fails fails in the same way.
    [wild] stands for memory outside an array (FullModel.look_of). *)
Theorem C143_origin_partial (x0 y0 z0 dx dy dz lx ly lz a b : R) g :
  grid_init x0 y0 z0 dx dy dz lx ly lz = Ok g ->
  exists g', grid_init (x0 + a) (y0 + b) z0 dx dy dz lx ly lz = Ok g' /\
  forall fuel contacts params draws, Forall (fun fp => Forall origin_free (fp_types fp)) params ->
    (forall e, full_generate g fuel contacts params draws = Err e ->
       full_generate g' fuel contacts (map (params_along a b) params) draws = Err e) /\
    (forall st strata, full_generate g fuel contacts params draws = Ok (st, strata) ->
       exists strata', full_generate g' fuel contacts (map (params_along a b) params) draws = Ok (st, strata') /\
         map fst strata' = map fst strata /\
         forall dm cg wild wild', (forall num oi p, wild' num oi (along a b p) = wild num oi p) ->
         forall i j k, full_arrays dm cg wild' (map (params_along a b) params) st strata' (g_x g') (g_y g') (g_z g') i j k =
                       full_arrays dm cg wild params st strata (g_x g) (g_y g) (g_z g) i j k).
Proof.
  intros Hg. pose proof (grid_moved a b x0 y0 z0 dx dy dz lx ly lz) as M. rewrite Hg in M.
  destruct (grid_init (x0 + a) _ _ _ _ _ _ _ _) as [g'|]; cbn in M; [|contradiction]. exists g'. split; [reflexivity|].
  intros fuel contacts params draws F. pose proof (full_generate_moved a b g g' M fuel contacts params draws F) as K.
  destruct (full_generate g _ _ _ _) as [[st strata]|e]; destruct (full_generate g' _ _ _ _) as [[st' strata']|e']; cbn in K; try contradiction.
  - destruct K as [E1 E2]. cbn in E1, E2. subst st'. split; [discriminate|]. intros ? ? [= <- <-]. exists strata'. split; [reflexivity|].
    split; [apply (strata_fst a b _ _ E2)|]. intros dm cg wild wild' W i j k.
    rewrite (mg_x _ _ _ _ M), (mg_y _ _ _ _ M), (mg_z _ _ _ _ M). apply arrays_moved; assumption.
  - subst e'. split; [congruence|discriminate].
Qed.
Print Assumptions C143_origin_partial.

(** Inclined sheets: layers of 1 m dipping by 90 degrees in a domain of 1000 m.
    With the origin in the middle the sheet is made; with the origin at the end
    the run fails. *)
Theorem C143_sheets_refuted :
  exists g g', grid_init (-500) 0 0 1 1 1 1000 1 1 = Ok g /\ grid_init (-500 + 500) 0 0 1 1 1 1000 1 1 = Ok g' /\
    (exists sh, new_sheet (steep 0) g 0 sdraw = Ok sh) /\ new_sheet (steep 0) g' 0 sdraw = Err ValueError.
Proof.
  assert (forall x0 : R, exists xs ys zs, grid_init x0 0 0 1 1 1 1000 1 1 = Ok (mkGrid x0 0 0 1 1 1 1000 1 1 xs ys zs)) as K.
  { intros x0. unfold grid_init, centres, SurfaceModel.arange.
    assert (((1 : R) <=? n0)%num = false) as -> by (numR; destruct (Rleb_spec 1 0); [lra|reflexivity]).
    cbn [andb bind]. eexists _, _, _. reflexivity. }
  destruct (K (-500)) as (xs & ys & zs & E1). destruct (K (-500 + 500)) as (xs' & ys' & zs' & E2).
  eexists _, _. split; [exact E1|]. split; [exact E2|]. clear.
  unfold new_sheet. cbn [steep st_structure st_azimuth st_dip st_dipset_dist fst snd sdraw shd_azim shd_dip shd_shift shd_array st_facies st_altfacies].
  rewrite pystr_eqb_refl, !deg_uniform, deg90. assert (deg 0 = 0) as -> by (unfold deg; field). rewrite sin_PI2, cos_0, sin_0, cos_PI2, !max3_ly.
  cbn [g_x0 g_y0 g_lx g_ly g_lz]. rewrite ?max3_ly, !(Rmax_left 1 1) by lra. split.
  - match goal with |- context [alternating_facies ?n] => replace n with 11%Z end.
    + destruct (C51_never_fails 11 [2; 5]%Z None (fun n => n)) as [l ->]; [lia|discriminate|exact I|]. cbn [bind]. eexists. reflexivity.
    + symmetry. match goal with |- context [nceil ?t] => rewrite (nceil_R_unique t 1); [reflexivity|lra] end.
  - match goal with |- context [alternating_facies ?n] => replace n with (-489)%Z end; [reflexivity|].
    symmetry. match goal with |- context [nceil ?t] => rewrite (nceil_R_unique t (-499)); [reflexivity|lra] end.
Qed.
Print Assumptions C143_sheets_refuted.

(** Channels move by b/2 only when the domain moves by b along y: every channel
    is the same with its centreline b/2 further, so a cell that was on the
    centreline lies |b|/2 from it. *)
Definition channel_up (c : R) (h : channel) : channel :=
  mkChannel (map (point_up c) (ch_line h)) (ch_ztop h) (ch_zmin h) (ch_zmax h) (ch_depth h) (ch_width h) (ch_a h) (ch_min_dxdy h)
    (ch_lag h) (ch_lag_facies h) (ch_dipsets h) (ch_layer_dist h) (ch_shift h) (ch_dip h) (ch_azim h) (ch_sin h) (ch_cos h)
    (ch_facies h) (ch_num_facies h) (ch_array h).
Lemma curve_length_up c l : curve_length (map (point_up c) l) = curve_length l.
Proof.
  induction l as [|p l IH]; [reflexivity|]. destruct l as [|q l]; [reflexivity|]. cbn [map curve_length] in *. rewrite IH. f_equal.
  unfold step_length. cbn [point_up cp_x cp_y]. f_equal. ring.
Qed.
Lemma new_channel_up ct line z w dp dx dy d c :
  new_channel ct (map (point_up c) line) z w dp dx dy d = let* h := new_channel ct line z w dp dx dy d in Ok (channel_up c h).
Proof.
  unfold new_channel. rewrite curve_length_up. destruct (pystr_eqb _ _); [destruct (alternating_facies _ _ _ _)|destruct (choice _ _)]; reflexivity.
Qed.
Lemma make_level_up cp g g' b z : moved_grid 0 b g g' -> forall ys ds, Forall carried ds ->
  make_level cp g' z ys ds = let* r := make_level cp g z ys ds in Ok (map (channel_up (b / 2)) (fst r), snd r).
Proof.
  intros M. induction ys as [|y ys IH]; intros ds F; [destruct ds; reflexivity|]. destruct F as [|d ds Hd F]; [reflexivity|]. cbn [make_level].
  rewrite (mg_x0 _ _ _ _ M), (mg_y0 _ _ _ _ M), (mg_lx _ _ _ _ M), (mg_ly _ _ _ _ M), (mg_dx _ _ _ _ M), (mg_dy _ _ _ _ M).
  assert (forall flow, channel_start flow (g_x0 g + 0) (g_y0 g + b) (g_lx g) (g_ly g) (cc_width cp) y =
    (fst (channel_start flow (g_x0 g) (g_y0 g) (g_lx g) (g_ly g) (cc_width cp) y),
     snd (channel_start flow (g_x0 g) (g_y0 g) (g_lx g) (g_ly g) (cc_width cp) y) + b / 2)) as ->.
  { intros flow. unfold channel_start. cbn [fst snd]. rewrite Rplus_0_r. apply (f_equal2 pair); [reflexivity|field]. }
  rewrite Hd, <- surjective_pairing. destruct (ld_curve d _ _) as [line|]; cbn [bind]; [|reflexivity].
  rewrite new_channel_up. destruct (new_channel _ _ _ _ _ _ _ _) as [h|]; cbn [bind]; [|reflexivity].
  rewrite (IH ds F). destruct (make_level cp g z ys ds) as [[l ys']|]; reflexivity.
Qed.
Lemma make_channels_up cp g g' b zs : moved_grid 0 b g g' -> forall ys ds, (forall n, Forall carried (ds n)) ->
  make_channels cp g' zs ys ds = let* l := make_channels cp g zs ys ds in Ok (map (channel_up (b / 2)) l).
Proof.
  intros M. induction zs as [|z zs IH]; intros ys ds F; [reflexivity|]. cbn [make_channels].
  rewrite (make_level_up _ _ _ _ _ M) by apply F. destruct (make_level _ _ _ _ _) as [[l ys']|]; cbn [bind fst snd]; [|reflexivity].
  rewrite IH by (intros n; apply F). destruct (make_channels _ _ _ _ _); cbn [bind]; [|reflexivity]. rewrite map_app. reflexivity.
Qed.
Lemma dist2_up c q x y : dist2 (point_up c q) x (y + c) = dist2 q x y.
Proof. unfold dist2. cbn. ring. Qed.

Lemma near_up c x y l : forall prev n, near_loop x (y + c) (option_map (point_up c) prev) (map (point_up c) l) n = near_loop x y prev l n.
Proof.
  induction l as [|q l IH]; intros prev n; [reflexivity|]. cbn [map near_loop]. rewrite dist2_up.
  assert (match option_map (point_up c) prev with Some p => nr_run n + step_length p (point_up c q) | None => nr_run n end =
          match prev with Some p => nr_run n + step_length p q | None => nr_run n end) as ->.
  { destruct prev as [p|]; [|reflexivity]. cbn [option_map]. f_equal. unfold step_length. cbn [point_up cp_x cp_y]. f_equal. ring. }
  exact (IH (Some q) _).
Qed.
Lemma xy_dist_up c h x y : xy_dist (channel_up c h) x (y + c) = xy_dist h x y.
Proof.
  unfold xy_dist. cbn [channel_up ch_dipsets ch_line]. destruct (ch_dipsets h).
  - unfold find_near. exact (f_equal nr_dist (near_up c x y (ch_line h) None _)).
  - f_equal. unfold nearest2. generalize far as m. induction (ch_line h) as [|q l IH]; intros m; [reflexivity|]. cbn [map fold_left]. rewrite dist2_up. apply IH.
Qed.

Theorem C143_channels_refuted (x0 y0 z0 dx dy dz lx ly lz b : R) g g' :
  grid_init x0 y0 z0 dx dy dz lx ly lz = Ok g -> grid_init x0 (y0 + b) z0 dx dy dz lx ly lz = Ok g' ->
  forall fuel cp zb zt us ds, (forall n, Forall carried (ds n)) ->
  forall l, generate_channels fuel cp g zb zt us ds = Ok l ->
    generate_channels fuel cp g' zb zt us ds = Ok (map (channel_up (b / 2)) l) /\
    forall h x y, xy_dist (channel_up (b / 2) h) x (y + b) = xy_dist h x (y + b / 2).
Proof.
  intros E1 E2 fuel cp zb zt us ds F l. pose proof (grid_moved 0 b x0 y0 z0 dx dy dz lx ly lz) as M.
  rewrite Rplus_0_r, E1, E2 in M. cbn in M. unfold generate_channels, g_zmax.
  rewrite (mg_z0 _ _ _ _ M), (mg_lx _ _ _ _ M), (mg_ly _ _ _ _ M), (mg_lz _ _ _ _ M).
  destruct (first_zfactor _ _ _ _) as [f|]; cbn [bind]; [|discriminate]. destruct (channel_levels _ _ _ _) as [zs|]; cbn [bind]; [|discriminate].
  intros H. rewrite (make_channels_up _ _ _ _ _ M) by exact F. rewrite H. split; [reflexivity|].
  intros h x y. replace (y + b) with (y + b / 2 + b / 2) by field. apply xy_dist_up.
Qed.
Print Assumptions C143_channels_refuted.

(** One channel running along x at y = 1/2 in a domain of 1 m x 1 m: with y0
    moved by 8 m, the cell on its centreline is 4 m away from it. *)
Definition oc_draw : level_draw := mkLD (fun s _ => Ok [mkCP (fst s) (snd s) 1 0]) 0 ex_cd.
Definition oc_params : channel_params := mkCParams 1 0 2 4 2 (1 / 2) None 0 (ex_ct (S_ "massive") 0).
Definition oc_start (y0 : R) : R * R := channel_start (0 * PI / 180) 0 y0 1 1 4 (TroughModel.uniform (- domain_width (0 * PI / 180) 1 1 / 2) (domain_width (0 * PI / 180) 1 1 / 2) (1 / 2)).
Lemma oc_runs y0 xs ys zs : exists h, generate_channels 5 oc_params (mkGrid 0 y0 0 1 1 1 1 1 10 xs ys zs) 5 10 [1 / 2] (fun _ => [oc_draw]) = Ok [h] /\
  ch_line h = [mkCP (fst (oc_start y0)) (snd (oc_start y0)) 1 0] /\ ch_dipsets h = false.
Proof.
  unfold generate_channels. cbn [oc_params cc_trend first_zfactor bind cc_agg cc_depth cc_buffer channel_levels].
  do 2 (match goal with |- context [Rltb ?a ?b] =>
    first [replace (Rltb a b) with true by (symmetry; apply Rltb_true; lra) | replace (Rltb a b) with false by (symmetry; apply Rltb_false; lra)] end; cbn [channel_levels bind]).
  eexists. split; [reflexivity|]. split; reflexivity.
Qed.
Lemma oc_start_y y0 : snd (oc_start y0) = (y0 + 1) / 2.
Proof.
  unfold oc_start, channel_start, TroughModel.uniform. cbn [snd]. replace (0 * PI / 180) with 0 by field. rewrite sin_0, cos_0. numR. field.
Qed.
Lemma far_big y : Rabs y <= 4 -> Rltb (y ^ 2) far = true.
Proof.
  intros H. apply Rltb_true. apply Rle_lt_trans with (10 ^ 2); [|unfold far; apply Rlt_pow; [lra|lia]].
  rewrite <- (pow2_abs y). pose proof (Rabs_pos y). nra.
Qed.
Example C143_channel_example : exists xs ys zs h h', let g y0 := mkGrid 0 y0 0 1 1 1 1 1 10 xs ys zs in
  generate_channels 5 oc_params (g 0) 5 10 [1 / 2] (fun _ => [oc_draw]) = Ok [h] /\
  generate_channels 5 oc_params (g 8) 5 10 [1 / 2] (fun _ => [oc_draw]) = Ok [h'] /\
  carried oc_draw /\ let x := fst (oc_start 0) in xy_dist h x (1 / 2) = 0 /\ xy_dist h' x (1 / 2 + 8) = 4.
Proof.
  exists [], [], []. destruct (oc_runs 0 [] [] []) as (h & E & L & Dh). destruct (oc_runs 8 [] [] []) as (h' & E' & L' & Dh').
  exists h, h'. cbn zeta. split; [exact E|]. split; [exact E'|]. split; [intros x y c w; reflexivity|].
  unfold xy_dist. rewrite Dh, Dh', L, L'. change (fst (oc_start 8)) with (fst (oc_start 0)). unfold nearest2, dist2. cbn [fold_left cp_x cp_y]. rewrite !oc_start_y, Rminus_diag_eq by reflexivity.
  replace (0 ^ 2 + (1 / 2 - (0 + 1) / 2) ^ 2) with (0 ^ 2) by field. replace (0 ^ 2 + (1 / 2 + 8 - (8 + 1) / 2) ^ 2) with (4 ^ 2) by field.
  rewrite !far_big by (rewrite Rabs_right; lra). rewrite !sqrt_pow2 by lra. split; reflexivity.
Qed.

(** The curves of the program are carried along y. *)
Lemma turn_up r xs ys c p : turn r xs (ys + c) p = point_up c (turn r xs ys p).
Proof. unfold turn, point_up. cbn. f_equal. ring. Qed.
Theorem C143_curve nm x0 xmax h k ds eps flow len draw mig cd :
  carried (mkLD (fun s w => ferguson_curve nm x0 xmax h k ds eps flow len (fst s) (snd s) w draw) mig cd).
Proof.
  intros x y c w. cbn [ld_curve fst snd]. unfold ferguson_curve. destruct (curve_interp _ _ _ _) as [[xn th]|]; cbn [bind snd]; [|reflexivity].
  f_equal. generalize (trace (ds + tiny) 0 0 th) as l. induction l as [|p l IH]; [reflexivity|]. cbn [map filter]. rewrite turn_up.
  unfold indomain at 1 2. cbn [point_up cp_x]. unfold indomain in IH |- *. destruct (_ && _); cbn [map]; rewrite IH; reflexivity.
Qed.
Print Assumptions C143_curve.

(** The model of C141's example, moved 100 m east and 50 m south: the same
    cells, among them one of a trough and one of the sheet. *)
Example C143_example : exists g' strata', grid_init (0 + 100) (0 + -50) 0 1 1 1 1 1 10 = Ok g' /\
  full_generate g' 5 [] (map (params_along 100 (-50)) ot_params) ot_draws = Ok (fx_st0, strata') /\
  exists v, full_arrays (flat 1 1) (mkCGrid 1 1 1) (fun _ _ _ => 0%Z) (map (params_along 100 (-50)) ot_params) fx_st0 strata' (g_x g') (g_y g') (g_z g') 0 0 8 = Some v /\
  c_facies v = 3%Z.
Proof.
  destruct (C143_origin_partial 0 0 0 1 1 1 1 1 10 100 (-50) fx_grid fx_grid_ok) as (g' & Eg & K). exists g'.
  destruct (K 5%nat [] ot_params ot_draws) as [_ K2].
  { constructor; [|constructor]. constructor; [exact I|]. constructor; [left; discriminate|constructor]. }
  destruct (K2 _ _ ot_runs) as (strata' & E & _ & A). exists strata'. split; [exact Eg|]. split; [exact E|].
  destruct C141_example as (v & Ev & _ & _ & _ & _ & Hf & _). exists v. split; [|exact Hf].
  rewrite <- Ev. apply A. reflexivity.
Qed.
