(** Another unit of length: the assignment of points commutes with it. *)
From Coq Require Import List ZArith Bool Ascii String Reals Lra Lia.
From Verif Require Import Base Num ParseModel ConfigModel FaciesModel SurfaceModel StrataModel AssignModel BuildModel TroughModel SheetModel ChannelModel
  FullModel OriginProofs UnitSpec UnitProofs.
Import ListNotations.
Local Open Scope R_scope.

Section Scale.
Variable c : R.
Hypothesis Hc : 0 < c.
Notation pin := (point_in c).

(** ** Scanning *)
Section Scan.
Context {D : Type}.
Record obj_sc (o o' : aobj R D) : Prop := mkObjSc {
  os_zmin : o_zmin o' = c * o_zmin o; os_zmax : o_zmax o' = c * o_zmax o;
  os_check : forall d p, o_check o' d (pin p) = o_check o d p }.
Record elem_sc (e e' : aelem R D) : Prop := mkElemSc {
  es_num : e_num e' = e_num e; es_type : e_type e' = e_type e; es_sheet : e_sheet e' = e_sheet e;
  es_bottom : forall i j, e_bottom e' i j = c * e_bottom e i j; es_top : forall i j, e_top e' i j = c * e_top e i j;
  es_facies : e_bg_facies e' = e_bg_facies e; es_azim : e_bg_azim e' = e_bg_azim e; es_dip : e_bg_dip e' = e_bg_dip e;
  es_zmin : e_zmin e' = c * e_zmin e; es_objs : Forall2 obj_sc (e_objs e) (e_objs e') }.
Record strat_sc (s s' : astrat R D) : Prop := mkStratSc {
  ss_zmin : t_zmin s' = c * t_zmin s; ss_aes : Forall2 elem_sc (t_aes s) (t_aes s') }.

Lemma Forall2_skipn {A B} (P : A -> B -> Prop) l l' : Forall2 P l l' -> forall n, Forall2 P (skipn n l) (skipn n l').
Proof. induction 1 as [|x y l l' H HF IH]; intros [|n]; cbn; [constructor..| |apply IH]. constructor; assumption. Qed.
Lemma scan_objs_sc e e' p : elem_sc e e' -> forall l l', Forall2 obj_sc l l' -> forall oi d i,
  scan_objs e' (pin p) l' oi d i = scan_objs e p l oi d i.
Proof.
  intros He. induction 1 as [|o o' l l' Ho _ IH]; intros oi d i; [reflexivity|]. cbn [scan_objs].
  rewrite (os_zmin _ _ Ho), (os_zmax _ _ Ho), (os_check _ _ Ho). cbn [point_in p_z]. numR. rewrite !Rleb_sc by exact Hc.
  destruct (negb _); [reflexivity|]. destruct (negb _); [apply IH|]. fold (pin p). destruct (o_check o d p) as [d1 w].
  unfold set_ae. rewrite (es_num _ _ He), (es_type _ _ He). destruct (found _); [reflexivity|apply IH].
Qed.
Lemma assign_ae_sc e e' p oi d i : elem_sc e e' -> assign_ae e' (pin p) oi d i = assign_ae e p oi d i.
Proof.
  intros He. unfold assign_ae. rewrite (scan_objs_sc _ _ p He _ _ (Forall2_skipn _ _ _ (es_objs _ _ He) oi)).
  destruct (scan_objs _ _ _ _ _ _) as [[d1 i1] [oi1|]]; [reflexivity|].
  rewrite (es_sheet _ _ He). destruct (e_sheet e); [reflexivity|]. cbn [point_in p_xi p_yi p_z].
  rewrite (es_bottom _ _ He), (es_top _ _ He), (es_num _ _ He), (es_type _ _ He), (es_facies _ _ He), (es_azim _ _ He), (es_dip _ _ He).
  numR. rewrite !Rleb_sc by exact Hc. reflexivity.
Qed.
Lemma scan_aes_sc p l l' : Forall2 elem_sc l l' -> forall aei oi d i, scan_aes (pin p) l' aei oi d i = scan_aes p l aei oi d i.
Proof.
  induction 1 as [|e e' l l' He _ IH]; intros aei oi d i; [reflexivity|]. cbn [scan_aes]. rewrite (es_zmin _ _ He), (assign_ae_sc _ _ _ _ _ _ He).
  cbn [point_in p_z]. numR. rewrite Rleb_sc by exact Hc. destruct (negb _); [apply IH|].
  destruct (assign_ae _ _ _ _ _) as [[d1 i1] oi1]. destruct (found i1); [reflexivity|apply IH].
Qed.
Lemma scan_strata_sc p l l' : Forall2 strat_sc l l' -> forall si aei oi d i, scan_strata (pin p) l' si aei oi d i = scan_strata p l si aei oi d i.
Proof.
  induction 1 as [|s s' l l' Hs _ IH]; intros si aei oi d i; [reflexivity|]. cbn [scan_strata]. unfold assign_stratum.
  rewrite (ss_zmin _ _ Hs), (scan_aes_sc _ _ _ (Forall2_skipn _ _ _ (ss_aes _ _ Hs) aei)).
  cbn [point_in p_z]. numR. rewrite Rleb_sc by exact Hc. destruct (negb _); [apply IH|].
  destruct (scan_aes _ _ _ _ _ _) as [[d1 i1] [aei1 oi1]]. destruct (found i1); [reflexivity|apply IH].
Qed.
Lemma tower_sc m m' ps : Forall2 strat_sc m m' -> forall q d, tower m' (map pin ps) q d = tower m ps q d.
Proof.
  intros H. induction ps as [|p ps IH]; intros [[si aei] oi] d; [reflexivity|]. cbn [map tower]. unfold assign_cell.
  rewrite (scan_strata_sc _ _ _ (Forall2_skipn _ _ _ H si)). destruct (scan_strata _ _ _ _ _ _ _) as [[d1 r] c1]. rewrite IH. reflexivity.
Qed.
Lemma towers_sc m m' cols : Forall2 strat_sc m m' -> forall d, towers m' (map (map pin) cols) d = towers m cols d.
Proof.
  intros H. induction cols as [|ps cols IH]; intros d; [reflexivity|]. cbn [map towers]. rewrite (tower_sc m m') by exact H.
  destruct (tower _ _ _ _). rewrite IH. reflexivity.
Qed.
Lemma grid_towers_sc (xs ys zs : list R) : grid_towers (map (Rmult c) xs) (map (Rmult c) ys) (map (Rmult c) zs) = map (map pin) (grid_towers xs ys zs).
Proof.
  unfold grid_towers. rewrite !map_length, !combine_map_r, !flat_map_concat_map, concat_map, !map_map. f_equal. apply map_ext. intros ix.
  rewrite !map_map. apply map_ext. intros jy. cbn [fst snd]. unfold tower_points. rewrite <- map_rev, !map_map. reflexivity.
Qed.
Lemma assign_points_sc m m' xs ys zs d i j k : Forall2 strat_sc m m' ->
  assign_points m' (map (Rmult c) xs) (map (Rmult c) ys) (map (Rmult c) zs) d i j k = assign_points m xs ys zs d i j k.
Proof. intros H. unfold assign_points. rewrite grid_towers_sc, (towers_sc m m'), !map_length by exact H. reflexivity. Qed.

Variable ny : nat.
Variable ty : nat -> nat -> Z.
Variables look look' : nat -> nat -> point R -> write R.
Variables probe probe' : nat -> nat -> D -> point R -> D * option (write R).
Hypothesis HL : forall num oi p, look' num oi (pin p) = look num oi p.
Hypothesis HP : forall num oi d p, probe' num oi d (pin p) = probe num oi d p.
Lemma nth_sc k l : nth k (map (Rmult c) l) 0 = c * nth k l 0.
Proof. rewrite <- (map_nth (Rmult c)), Rmult_0_r. reflexivity. Qed.
Lemma to_objs_sc num l : forall oi cs, Forall2 obj_sc (to_objs ny look probe num oi l cs) (to_objs ny look' probe' num oi (map (object_in c) l) (map (copy_in c) cs)).
Proof.
  induction l as [|o l IH]; intros oi [|q cs]; [constructor..|]. cbn [map to_objs]. constructor; [|apply IH].
  constructor; cbn [o_zmin o_zmax o_check object_in ob_zmin ob_zmax ob_surfaces]; [reflexivity..|].
  intros d p. destruct (ob_surfaces o); [|apply HP]. unfold sheet_probe. rewrite HL. cbn [copy_in point_in p_xi p_yi p_z fst snd].
  numR. rewrite !nth_sc, !Rleb_sc by exact Hc. reflexivity.
Qed.
Lemma elevation_sc st a i j : elevation ny (map (surface_in c) st) a i j = c * elevation ny st a i j.
Proof.
  unfold elevation. rewrite nth_error_map. destruct (nth_error st a) as [s|]; cbn [option_map]; numR; [|ring]. cbn [surface_in vals]. apply nth_sc.
Qed.
Lemma to_aelems_sc st si l : forall num, Forall2 elem_sc (to_aelems ny ty look probe st si num l) (to_aelems ny ty look' probe' (map (surface_in c) st) si num (map (ae_in c) l)).
Proof.
  induction l as [|e l IH]; intros num; [constructor|]. cbn [map to_aelems]. constructor; [|apply IH]. unfold to_aelem.
  constructor; cbn [e_num e_type e_sheet e_bottom e_top e_bg_facies e_bg_azim e_bg_dip e_zmin e_objs]; try reflexivity; try (intros i j; apply elevation_sc).
  - unfold is_sheet. cbn [ae_in ae_objects]. destruct (ae_objects e); reflexivity.
  - apply to_objs_sc.
Qed.
Lemma to_model_sc st l : forall si num, Forall2 strat_sc (to_model ny ty look probe st si num l) (to_model ny ty look' probe' (map (surface_in c) st) si num (map (stratum_in c) l)).
Proof.
  induction l as [|s l IH]; intros si num; [constructor|]. cbn [map to_model]. constructor.
  - constructor; [reflexivity|]. apply to_aelems_sc.
  - cbn [stratum_in s_aes]. rewrite map_length. apply IH.
Qed.
End Scan.

(** ** Troughs *)
Lemma wrap_sc per l d : wrap per (c * l) (c * d) = c * wrap per l d.
Proof.
  unfold wrap. destruct per; [|reflexivity]. replace (c * l / 2) with (c * (l / 2)) by field. replace (- (c * l) / 2) with (c * (- l / 2)) by field.
  rewrite !Rltb_sc by exact Hc. destruct (Rltb (l / 2) d); [ring|]. destruct (Rltb d (- l / 2)); ring.
Qed.
Lemma offset_sc dm t p : offset (domain_in c dm) (trough_in c t) (pin p) = let '(dx, dy, dz) := offset dm t p in (c * dx, c * dy, c * dz).
Proof.
  unfold offset. cbn [domain_in dm_periodic dm_lx dm_ly trough_in tr_x tr_y tr_z point_in p_x p_y p_z].
  rewrite <- !Rmult_minus_distr_l, !wrap_sc. reflexivity.
Qed.
Lemma too_far_sc t dx dy dz : too_far (trough_in c t) (c * dx) (c * dy) (c * dz) = too_far t dx dy dz.
Proof.
  unfold too_far. cbn [trough_in tr_max_ab]. replace (- (c * dx)) with (c * - dx) by ring. replace (- (c * dy)) with (c * - dy) by ring.
  rewrite !Rltb_sc by exact Hc. rewrite <- (Rltb_sc c Hc 0 dz), Rmult_0_r. reflexivity.
Qed.
Lemma norm_x_sc t dx dy : norm_x (trough_in c t) (c * dx) (c * dy) = norm_x t dx dy.
Proof. unfold norm_x. cbn [trough_in tr_a tr_cos tr_sin]. rewrite <- (div_sc c Hc _ (tr_a t)). f_equal. ring. Qed.
Lemma norm_y_sc t dx dy : norm_y (trough_in c t) (c * dx) (c * dy) = norm_y t dx dy.
Proof. unfold norm_y. cbn [trough_in tr_b tr_cos tr_sin]. rewrite <- (div_sc c Hc _ (tr_b t)). f_equal. ring. Qed.
Lemma norm_z_sc t dz : norm_z (trough_in c t) (c * dz) = norm_z t dz.
Proof. unfold norm_z. cbn [trough_in tr_c]. apply div_sc, Hc. Qed.
Lemma l2_sc t dx dy dz : l2 (trough_in c t) (c * dx) (c * dy) (c * dz) = l2 t dx dy dz.
Proof. unfold l2. rewrite norm_x_sc, norm_y_sc, norm_z_sc. reflexivity. Qed.
Lemma claims_sc t dx dy dz : claims (trough_in c t) (c * dx) (c * dy) (c * dz) = claims t dx dy dz.
Proof. unfold claims. rewrite too_far_sc, l2_sc. reflexivity. Qed.
Lemma over_sc x y : x / (c * y) = / c * (x / y).
Proof. unfold Rdiv. rewrite Rinv_mult. ring. Qed.
Lemma bulb_normal_sc t dx dy dz : bulb_normal (trough_in c t) (c * dx) (c * dy) (c * dz) = bulb_normal t dx dy dz.
Proof.
  unfold bulb_normal. rewrite norm_x_sc, norm_y_sc, norm_z_sc. cbn [trough_in tr_a tr_b tr_c tr_cos tr_sin]. rewrite !over_sc.
  set (u := norm_x t dx dy / tr_a t). set (v := norm_y t dx dy / tr_b t). set (w := norm_z t dz / tr_c t).
  assert (0 < / c) as Hk by (apply Rinv_0_lt_compat, Hc). set (k := / c) in *.
  assert (sqrt ((k * u) ^ 2 + (k * v) ^ 2 + (k * w) ^ 2) = k * sqrt (u ^ 2 + v ^ 2 + w ^ 2)) as ->.
  { replace ((k * u) ^ 2 + (k * v) ^ 2 + (k * w) ^ 2) with (k ^ 2 * (u ^ 2 + v ^ 2 + w ^ 2)) by ring.
    rewrite sqrt_mult_alt by nra. rewrite sqrt_pow2 by lra. reflexivity. }
  set (len := sqrt _). destruct (Req_EM_T (k * len) 0) as [E|E], (Req_EM_T len 0) as [F|F]; try reflexivity.
  - exfalso. apply Rmult_integral in E. destruct E; [lra|contradiction].
  - exfalso. apply E. rewrite F. ring.
  - f_equal. rewrite <- !(div_sc k Hk _ len). repeat (apply (f_equal2 pair)); f_equal; ring.
Qed.
Lemma bulb_angles_sc t dx dy dz : bulb_angles (trough_in c t) (c * dx) (c * dy) (c * dz) = bulb_angles t dx dy dz.
Proof. unfold bulb_angles. rewrite bulb_normal_sc. reflexivity. Qed.
Lemma dip_layer_sc t dx dy dz : tr_structure t = 1%Z -> dip_layer (trough_in c t) (c * dx) (c * dy) (c * dz) = dip_layer t dx dy dz.
Proof.
  intros E. unfold dip_layer. cbn [trough_in tr_nx tr_ny tr_nz tr_shift tr_layer_dist tr_num_facies]. rewrite E. cbn [Z.eqb Pos.eqb].
  rewrite <- (div_sc c Hc _ (tr_layer_dist t)). do 3 f_equal. ring.
Qed.
Lemma bulb_layer_sc t dx dy dz : tr_structure t <> 1%Z -> bulb_layer (trough_in c t) (c * dx) (c * dy) (c * dz) = bulb_layer t dx dy dz.
Proof.
  intros E. unfold bulb_layer. rewrite l2_sc. cbn [trough_in tr_shift tr_c tr_layer_dist]. apply Z.eqb_neq in E. rewrite E.
  rewrite <- (div_sc c Hc _ (tr_layer_dist t)). do 2 f_equal. ring.
Qed.
Lemma trough_assign_sc dm t ha p : trough_assign (domain_in c dm) (trough_in c t) ha (pin p) = trough_assign dm t ha p.
Proof.
  unfold trough_assign. rewrite offset_sc. destruct (offset dm t p) as [[dx dy] dz]. rewrite claims_sc. destruct (claims t dx dy dz); [|reflexivity].
  unfold trough_write. rewrite bulb_angles_sc. cbn [trough_in tr_z tr_c tr_lag point_in p_z tr_lag_facies tr_structure tr_facies tr_azim tr_dip]. fold (trough_in c t).
  replace (c * tr_z t - c * tr_c t + c * tr_lag t) with (c * (tr_z t - tr_c t + tr_lag t)) by ring. rewrite Rltb_sc by exact Hc.
  destruct (Rltb _ _); [reflexivity|]. destruct (_ =? 0)%Z; [reflexivity|].
  destruct (tr_structure t =? 1)%Z eqn:E1.
  { rewrite dip_layer_sc by (apply Z.eqb_eq, E1). reflexivity. }
  destruct (_ =? 2)%Z; [reflexivity|]. rewrite bulb_layer_sc by (apply Z.eqb_neq, E1). reflexivity.
Qed.

(** ** Objects *)
Variables (dm : domain) (cg cg' : cgrid) (wild wild' : nat -> nat -> point R -> Z).
Hypothesis W : forall num oi p, wild' num oi (pin p) = wild num oi p.
Lemma trough_check_sc num oi t d p : trough_check (domain_in c dm) wild' num oi (trough_in c t) d (pin p) = trough_check dm wild num oi t d p.
Proof.
  unfold trough_check. f_equal. rewrite trough_assign_sc, offset_sc. destruct (trough_assign dm t 0 p); [reflexivity|].
  destruct (offset dm t p) as [[dx dy] dz]. rewrite bulb_angles_sc, W. reflexivity.
Qed.
Definition no_channels (o : objects) : Prop := match o with OChannels _ => False | _ => True end.
Lemma row_width_sc l : row_width (map (sheet_in c) l) = row_width l.
Proof. unfold row_width. rewrite map_map. reflexivity. Qed.
Lemma sheet_write_sc w sh p : sheet_write w (sheet_in c sh) 0 (pin p) = sheet_write w sh 0 p.
Proof.
  unfold sheet_write. cbn [sheet_in sh_dipsets sh_azim sh_dip sh_facies]. fold (sheet_in c sh). destruct (sh_dipsets sh); [|reflexivity].
  assert (sheet_layer (sheet_in c sh) (pin p) = sheet_layer sh p) as ->; [|reflexivity].
  unfold sheet_layer. cbn [sheet_in sh_nx sh_ny sh_nz sh_shift sh_layer_dist sh_num point_in p_x p_y p_z].
  rewrite <- (div_sc c Hc _ (sh_layer_dist sh)). do 3 f_equal. ring.
Qed.
Lemma look_sc tab num oi p : look_of wild' (map (objs_in c) tab) num oi (pin p) = look_of wild tab num oi p.
Proof.
  unfold look_of. rewrite nth_error_map, !W. destruct (nth_error tab num) as [[l|l|l]|]; cbn [option_map objs_in]; [|reflexivity..].
  rewrite nth_error_map, row_width_sc. destruct (nth_error l oi) as [sh|]; cbn [option_map]; [|reflexivity]. rewrite sheet_write_sc. reflexivity.
Qed.
Lemma probe_sc tab : Forall no_channels tab -> forall num oi d p,
  probe_of (domain_in c dm) cg' wild' (map (objs_in c) tab) num oi d (pin p) = probe_of dm cg wild tab num oi d p.
Proof.
  intros H num oi d p. unfold probe_of. rewrite nth_error_map. destruct (nth_error tab num) as [[l|l|l]|] eqn:E; cbn [option_map objs_in]; [reflexivity| | |reflexivity].
  - rewrite nth_error_map. destruct (nth_error l oi) as [t|]; cbn [option_map]; [|reflexivity]. apply trough_check_sc.
  - apply nth_error_In in E. rewrite Forall_forall in H. destruct (H _ E).
Qed.
Lemma type_id_sc params : type_id_of (map (params_in c) params) = type_id_of params.
Proof.
  apply FunctionalExtensionality.functional_extensionality. intros si. apply FunctionalExtensionality.functional_extensionality. intros kind.
  unfold type_id_of. rewrite pyget_map. destruct (pyget params _); cbn [bind]; [|reflexivity].
  cbn [params_in fp_types]. rewrite nth_error_map. destruct (nth_error _ kind); reflexivity.
Qed.
Lemma table_sc strata : object_table (map (fs_in c) strata) = map (objs_in c) (object_table strata).
Proof. unfold object_table. rewrite concat_map, !map_map. reflexivity. Qed.
Lemma arrays_sc params st strata (xs ys zs : list R) : Forall no_channels (object_table strata) -> forall i j k,
  full_arrays (domain_in c dm) cg' wild' (map (params_in c) params) (map (surface_in c) st) (map (fs_in c) strata)
    (map (Rmult c) xs) (map (Rmult c) ys) (map (Rmult c) zs) i j k =
  full_arrays dm cg wild params st strata xs ys zs i j k.
Proof.
  intros H i j k. unfold full_arrays. rewrite map_length, type_id_sc, table_sc.
  apply assign_points_sc.
  replace (map fst (map (fs_in c) strata)) with (map (stratum_in c) (map fst strata)) by (rewrite !map_map; reflexivity).
  apply to_model_sc; [intros; apply look_sc|intros; apply probe_sc, H].
Qed.
End Scale.

(** ** A model of measured types has no channels *)
Lemma full_ae_objects g fuel st ft kind sbg bottom top od r : measured ft -> full_ae g fuel st ft kind sbg bottom top od = Ok r -> no_channels (snd (snd r)).
Proof.
  intros H. unfold full_ae. destruct (getS st bottom) as [sb|]; cbn [bind]; [|discriminate]. destruct (getS st top) as [sp|]; cbn [bind]; [|discriminate].
  destruct (make_objects g fuel (ft_kind ft) sb sp od) as [o|] eqn:Eo; cbn [bind]; [|discriminate]. pose proof (objects_not_channels _ _ _ _ _ _ _ H Eo) as K.
  destruct (new_ae _ _ _ _ _ _ _ _ _) as [[st1 e]|]; cbn [bind]; [|discriminate].
  unfold measured in H. destruct (ft_kind ft); [|intros [= <-]; exact K|contradiction].
  destruct (make_sheets _ _ _ _ _); cbn [bind]; [|discriminate]. intros [= <-]. exact I.
Qed.
Lemma loop_objects g fuel fp bot : fit fp -> forall draws st top curr znow lo hi aes r, Forall (fun q => no_channels (snd q)) aes ->
  full_stratum_loop g fuel fp bot draws st top curr znow lo hi aes = Ok r -> Forall (fun q => no_channels (snd q)) (snd (snd r)).
Proof.
  intros F. induction draws as [|d draws IH]; intros st top curr znow lo hi aes r HA; cbn [full_stratum_loop];
    (destruct (getS st bot) as [sbot|]; cbn [bind]; [|discriminate]); (destruct (Rleb znow _); [intros [= <-]; exact HA|]); [discriminate|].
  destruct (choose (fp_types fp) curr) as [ty|] eqn:Ety; cbn [bind]; [|discriminate].
  destruct (choose (fp_types fp) (fd_next d)) as [nx|]; cbn [bind]; [|discriminate].
  match goal with |- bind ?x _ = _ -> _ => destruct x as [[[z1 st1] ab]|]; cbn [bind]; [|discriminate] end.
  destruct (use_lower st1 ab top) as [st2|]; cbn [bind]; [|discriminate]. destruct (use_higher st2 ab bot) as [st3|]; cbn [bind]; [|discriminate].
  destruct (full_ae _ _ _ _ _ _ _ _ _) as [[st4 eo]|] eqn:E; cbn [bind]; [|discriminate]. apply IH.
  apply Forall_app. split; [exact HA|]. constructor; [|constructor]. apply (full_ae_objects _ _ _ _ _ _ _ _ _ _ (choose_Forall _ _ _ _ F Ety) E).
Qed.
Lemma model_objects g fuel contacts params n : Forall fit params -> forall draws si st top strata r, Forall (fun s => Forall no_channels (snd s)) strata ->
  full_model_loop g fuel contacts params n draws si st top strata = Ok r -> Forall (fun s : full_stratum => Forall no_channels (snd s)) (snd r).
Proof.
  intros F. induction draws as [|sd draws IH]; intros si st top strata r HS; cbn [full_model_loop].
  - destruct (Nat.eqb si n); [|discriminate]. intros [= <-]. exact HS.
  - match goal with |- bind ?x _ = _ -> _ => destruct x as [s|]; cbn [bind]; [|discriminate] end. destruct (alloc st s) as [st1 bottom].
    destruct (use_lower st1 bottom top) as [st2|]; cbn [bind]; [|discriminate]. destruct (pyget params _) as [fp|] eqn:E; cbn [bind]; [|discriminate].
    unfold new_full_stratum at 1. destruct (getS st2 bottom) as [sb|]; cbn [bind]; [|discriminate]. destruct (getS st2 top) as [sp|]; cbn [bind]; [|discriminate].
    destruct (full_stratum_loop _ _ _ _ _ _ _ _ _ _ _ _) as [[st3 [[lo hi] l]]|] eqn:El; cbn [bind]; [|discriminate]. apply IH.
    apply Forall_app. split; [exact HS|]. constructor; [|constructor]. cbn [snd].
    rewrite Forall_forall in F. specialize (loop_objects _ _ _ _ (F _ (pyget_In _ _ _ E)) _ _ _ _ _ _ _ _ _ (Forall_nil _) El) as K. cbn in K.
    apply Forall_map. exact K.
Qed.
Lemma generate_objects g fuel contacts params draws st strata : Forall fit params -> full_generate g fuel contacts params draws = Ok (st, strata) ->
  Forall no_channels (object_table strata).
Proof.
  intros F. unfold full_generate. destruct (new_surface _ _ _) as [s|]; cbn [bind]; [|discriminate]. destruct (alloc [] s) as [st0 top].
  intros H. pose proof (model_objects _ _ _ _ _ F _ _ _ _ _ _ (Forall_nil _) H) as K. clear H. cbn in K. unfold object_table.
  induction K as [|x l Hx _ IH]; cbn; [constructor|]. apply Forall_app. split; assumption.
Qed.
