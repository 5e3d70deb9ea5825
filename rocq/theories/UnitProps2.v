(** C149: the unit of length and channels. *)
From Coq Require Import List ZArith Bool Ascii String Reals Lra Lia.
From Verif Require Import Base Num ParseModel ConfigModel FaciesModel SurfaceModel StrataModel AssignModel TroughModel SheetModel ChannelModel FullModel
  TroughProps ChannelSpec ChannelProofs ChannelProps ChannelProps2 FullProps LinkProps OriginProofs OriginProps UnitSpec UnitProofs UnitProofs2.
Import ListNotations.
Local Open Scope R_scope.

Section Scale.
Variable c : R.
Hypothesis Hc : 0 < c.

(** ** Making channels *)
Lemma Rmin_sc x y : Rmin (c * x) (c * y) = c * Rmin x y.
Proof. unfold Rmin. destruct (Rle_dec (c * x) (c * y)), (Rle_dec x y); try reflexivity; nra. Qed.
Lemma new_channel_sc ct line z w dp dx dy d : ct_structure ct <> S_ "dip" ->
  new_channel (channel_type_in c ct) (map (cpoint_in c) line) (c * z) (c * w) (c * dp) (c * dx) (c * dy) d =
  let* h := new_channel ct line z w dp dx dy d in Ok (channel_in c h).
Proof.
  intros H. unfold new_channel. cbn [channel_type_in ct_structure ct_facies ct_altfacies ct_dip ct_lag_height ct_lag_facies].
  destruct (pystr_eqb _ _) eqn:E; [apply pystr_eqb_eq in E; contradiction|]. destruct (choice _ _); cbn [bind]; [|reflexivity].
  unfold channel_in. cbn. rewrite Rmin_sc, <- Rmult_minus_distr_l.
  replace (4 * (c * dp) / (c * w * (c * w * 1))) with (4 * dp / (w * (w * 1)) / c); [reflexivity|].
  unfold Rdiv. rewrite !Rinv_mult. transitivity (c * / c * (4 * dp * (/ w * (/ w * / 1)) * / c)); [rewrite Rinv_r by lra; ring|ring].
Qed.
Lemma Rabs_sc x : Rabs (c * x) = c * Rabs x.
Proof. rewrite Rabs_mult, (Rabs_right c) by lra. reflexivity. Qed.
Lemma domain_width_sc flow lx ly : domain_width flow (c * lx) (c * ly) = c * domain_width flow lx ly.
Proof. unfold domain_width. rewrite !Rmult_assoc, !Rabs_sc. ring. Qed.
Lemma domain_length_sc flow lx ly : domain_length flow (c * lx) (c * ly) = c * domain_length flow lx ly.
Proof. unfold domain_length. rewrite !Rmult_assoc, !Rabs_sc. ring. Qed.
Lemma start_sc flow x0 y0 lx ly w y :
  channel_start flow (c * x0) (c * y0) (c * lx) (c * ly) (c * w) (c * y) =
  (c * fst (channel_start flow x0 y0 lx ly w y), c * snd (channel_start flow x0 y0 lx ly w y)).
Proof. unfold channel_start. rewrite domain_length_sc. cbn [fst snd]. apply (f_equal2 pair); field. Qed.
Lemma make_level_sc cp g z : ct_structure (cc_type cp) <> S_ "dip" -> forall ys ds ds', Forall2 (level_in c) ds ds' ->
  make_level (channel_params_in c cp) (grid_in c g) (c * z) (map (Rmult c) ys) ds' =
  let* r := make_level cp g z ys ds in Ok (map (channel_in c) (fst r), map (Rmult c) (snd r)).
Proof.
  intros H. induction ys as [|y ys IH]; intros ds ds' F; [destruct F; reflexivity|].
  destruct F as [|d d' ds ds' (Hm & Hd & Hl) F]; [reflexivity|]. cbn [map make_level channel_params_in cc_flow cc_width cc_depth cc_mig cc_type grid_in g_x0 g_y0 g_lx g_ly g_dx g_dy].
  rewrite start_sc, Hl, <- surjective_pairing. destruct (ld_curve d _ _) as [line|]; cbn [bind]; [|reflexivity].
  rewrite Hd, new_channel_sc by exact H. destruct (new_channel _ _ _ _ _ _ _ _) as [h|]; cbn [bind]; [|reflexivity].
  fold (grid_in c g). fold (channel_params_in c cp). rewrite (IH _ _ F). destruct (make_level cp g z ys ds) as [[l ys']|]; cbn [bind fst snd]; [|reflexivity].
  cbn [map]. do 3 f_equal. rewrite Hm. unfold uniform. numR. ring.
Qed.
Lemma make_channels_sc cp g zs : ct_structure (cc_type cp) <> S_ "dip" -> forall ys ds ds', (forall n, Forall2 (level_in c) (ds n) (ds' n)) ->
  make_channels (channel_params_in c cp) (grid_in c g) (map (Rmult c) zs) (map (Rmult c) ys) ds' =
  let* l := make_channels cp g zs ys ds in Ok (map (channel_in c) l).
Proof.
  intros H. induction zs as [|z zs IH]; intros ys ds ds' F; [reflexivity|]. cbn [map make_channels].
  rewrite (make_level_sc cp g z H ys _ _ (F 0%nat)). destruct (make_level _ _ _ _ _) as [[l ys']|]; cbn [bind fst snd]; [|reflexivity].
  rewrite (IH ys' (fun n => ds (S n)) (fun n => ds' (S n))) by (intros n; apply F).
  destruct (make_channels _ _ _ _ _); cbn [bind]; [|reflexivity]. rewrite map_app. reflexivity.
Qed.
Lemma levels_sc dz zb : forall fuel z, channel_levels fuel (c * z) (c * dz) (c * zb) = let* l := channel_levels fuel z dz zb in Ok (map (Rmult c) l).
Proof.
  induction fuel as [|fuel IH]; intros z; cbn [channel_levels]; rewrite Rltb_sc by exact Hc; destruct (Rltb zb z); try reflexivity.
  rewrite <- Rmult_minus_distr_l, IH. destruct (channel_levels _ _ _ _); reflexivity.
Qed.
Lemma generate_channels_sc fuel cp g zb zt us ds ds' : ct_structure (cc_type cp) <> S_ "dip" -> (forall n, Forall2 (level_in c) (ds n) (ds' n)) ->
  generate_channels fuel (channel_params_in c cp) (grid_in c g) (c * zb) (c * zt) us ds' =
  let* l := generate_channels fuel cp g zb zt us ds in Ok (map (channel_in c) l).
Proof.
  intros H F. unfold generate_channels. cbn [channel_params_in cc_no cc_flow cc_agg cc_depth cc_buffer cc_trend grid_in g_lx g_ly]. unfold g_zmax.
  destruct (cc_trend cp) as [t|]; [reflexivity|]. cbn [first_zfactor bind]. fold (grid_in c g). fold (channel_params_in c cp).
  replace (c * zt - c * cc_agg cp) with (c * (zt - cc_agg cp)) by ring.
  replace (c * zb + c * cc_depth cp * 1 * cc_buffer cp) with (c * (zb + cc_depth cp * 1 * cc_buffer cp)) by ring.
  rewrite levels_sc. destruct (channel_levels _ _ _ _) as [zs|]; cbn [bind]; [|reflexivity].
  rewrite domain_width_sc. set (dw := domain_width _ _ _). rewrite <- (make_channels_sc cp g zs H _ _ _ F). f_equal. rewrite map_map. apply map_ext. intros u.
  unfold uniform. numR. field.
Qed.

(** ** Cells of one channel *)
Lemma dist2_sc q x y : dist2 (cpoint_in c q) (c * x) (c * y) = c ^ 2 * dist2 q x y.
Proof. unfold dist2. cbn. ring. Qed.
Definition least (x y : R) (l : list cpoint) (m : R) : R := fold_left (fun m q => if Rltb (dist2 q x y) m then dist2 q x y else m) l m.
Lemma least_le x y l : forall m, least x y l m <= m.
Proof.
  induction l as [|q l IH]; intros m; cbn; [lra|]. eapply Rle_trans; [apply IH|]. destruct (Rltb _ _) eqn:E; [apply Rltb_true in E; lra|lra].
Qed.
Lemma Rltb_sc2 x y : Rltb (c ^ 2 * x) (c ^ 2 * y) = Rltb x y.
Proof. assert (0 < c ^ 2) by nra. apply Rltb_sc. assumption. Qed.
Lemma least_sc x y l : forall m, least (c * x) (c * y) (map (cpoint_in c) l) (c ^ 2 * m) = c ^ 2 * least x y l m.
Proof.
  unfold least. induction l as [|q l IH]; intros m; [reflexivity|]. cbn [map fold_left]. rewrite dist2_sc, Rltb_sc2, <- IH. f_equal.
  destruct (Rltb _ _); reflexivity.
Qed.
Lemma least_any x y l : (exists q, In q l /\ dist2 q x y < far) -> forall m, far <= m -> least x y l m = least x y l far.
Proof.
  intros (q0 & Hin & Hq). induction l as [|q l IH]; [destruct Hin|]. intros m Hm. cbn [least fold_left].
  destruct (Rltb (dist2 q x y) m) eqn:E1, (Rltb (dist2 q x y) far) eqn:E2.
  - reflexivity.
  - apply Rltb_false in E2. destruct Hin as [->|Hin]; [lra|]. apply (IH Hin). exact E2.
  - apply Rltb_false in E1. apply Rltb_true in E2. lra.
  - apply Rltb_false in E2. destruct Hin as [->|Hin]; [lra|]. apply (IH Hin). exact Hm.
Qed.
Lemma nearest2_sc h x y : within_reach c h x y -> nearest2 (c * x) (c * y) (map (cpoint_in c) (ch_line h)) = c ^ 2 * nearest2 x y (ch_line h).
Proof.
  intros (q & Hin & H1 & H2). unfold nearest2. fold (least (c * x) (c * y) (map (cpoint_in c) (ch_line h)) far). fold (least x y (ch_line h) far).
  assert (0 < c ^ 2) as Hc2 by nra. assert (dist2 q x y < far) as K1 by exact H1. assert (c ^ 2 * dist2 q x y < far) as K2 by exact H2.
  assert (exists q, In q (map (cpoint_in c) (ch_line h)) /\ dist2 q (c * x) (c * y) < far) as N.
  { exists (cpoint_in c q). split; [apply in_map, Hin|]. rewrite dist2_sc. exact K2. }
  destruct (Rle_dec 1 (c ^ 2)) as [G|G].
  - (* the bound of the finer unit is the smaller one *)
    rewrite <- (least_any _ _ _ N (c ^ 2 * far)); [apply least_sc|]. unfold far. assert (0 < 10 ^ 100) by (apply pow_lt; lra). nra.
  - rewrite <- (least_any x y (ch_line h)) with (m := far / c ^ 2).
    + rewrite <- least_sc. f_equal. field. lra.
    + exists q. split; assumption.
    + assert (0 < far) by (unfold far; apply pow_lt; lra). apply (Rmult_le_reg_l (c ^ 2)); [exact Hc2|].
      replace (c ^ 2 * (far / c ^ 2)) with far by (field; lra). nra.
Qed.
Lemma xy_dist_sc h x y : ch_dipsets h = false -> within_reach c h x y -> xy_dist (channel_in c h) (c * x) (c * y) = c * xy_dist h x y.
Proof.
  intros E H. unfold xy_dist. cbn [channel_in ch_dipsets ch_line]. rewrite E, nearest2_sc by exact H.
  rewrite sqrt_mult_alt by nra. rewrite sqrt_pow2 by lra. reflexivity.
Qed.
Lemma channel_assign_sc cg cg' key h ha d d' p : ch_dipsets h = false -> within_reach c h (p_x p) (p_y p) ->
  d' key (p_xi p) (p_yi p) = d key (p_xi p) (p_yi p) ->
  snd (channel_assign cg' key (channel_in c h) ha d' (point_in c p)) = snd (channel_assign cg key h ha d p).
Proof.
  intros E H M. unfold channel_assign. cbn [channel_in ch_ztop point_in p_x p_y p_z p_xi p_yi]. fold (channel_in c h). fold (point_in c p).
  rewrite <- Rmult_minus_distr_l. rewrite <- (Rltb_sc c Hc 0 (p_z p - ch_ztop h)), Rmult_0_r. destruct (Rltb 0 (c * _)); [reflexivity|].
  rewrite M. destruct (d key _ _); [reflexivity|]. rewrite xy_dist_sc by assumption. unfold above_parabola. cbn [channel_in ch_a ch_depth]. fold (channel_in c h).
  set (x := xy_dist h _ _).
  replace (ch_a h / c * (c * x) ^ 2 - c * ch_depth h) with (c * (ch_a h * x ^ 2 - ch_depth h)) by (field; lra). rewrite Rleb_sc by exact Hc.
  destruct (Rleb _ _); [|reflexivity]. cbn [snd]. unfold channel_write.
  cbn [channel_in ch_ztop ch_depth ch_lag ch_lag_facies ch_dipsets ch_facies ch_azim ch_dip point_in p_z]. rewrite E.
  replace (c * ch_ztop h - c * ch_depth h + c * ch_lag h) with (c * (ch_ztop h - ch_depth h + ch_lag h)) by ring. rewrite Rltb_sc by exact Hc. reflexivity.
Qed.
End Scale.

(** Full property: as C148, for channels.  What holds: massive channels are the
    same channels in the other unit, and a channel writes the same for every
    point, as long as its cell is marked in both units or in neither. *)
Theorem C149_channels_partial (c x0 y0 z0 dx dy dz lx ly lz : R) g : 0 < c ->
  grid_init x0 y0 z0 dx dy dz lx ly lz = Ok g ->
  exists g', grid_init (c * x0) (c * y0) (c * z0) (c * dx) (c * dy) (c * dz) (c * lx) (c * ly) (c * lz) = Ok g' /\
  forall fuel cp zb zt us ds ds', ct_structure (cc_type cp) <> S_ "dip" -> (forall n, Forall2 (level_in c) (ds n) (ds' n)) ->
    (forall e, generate_channels fuel cp g zb zt us ds = Err e ->
       generate_channels fuel (channel_params_in c cp) g' (c * zb) (c * zt) us ds' = Err e) /\
    (forall l, generate_channels fuel cp g zb zt us ds = Ok l ->
       generate_channels fuel (channel_params_in c cp) g' (c * zb) (c * zt) us ds' = Ok (map (channel_in c) l) /\
       forall h cg key ha d d' p, In h l -> ch_dipsets h = false -> within_reach c h (p_x p) (p_y p) ->
         d' key (p_xi p) (p_yi p) = d key (p_xi p) (p_yi p) ->
         snd (channel_assign (cgrid_in c cg) key (channel_in c h) ha d' (point_in c p)) = snd (channel_assign cg key h ha d p)).
Proof.
  intros Hc Hg. exists (grid_in c g). rewrite grid_sc by exact Hc. rewrite Hg. split; [reflexivity|].
  intros fuel cp zb zt us ds ds' H F. rewrite (generate_channels_sc c Hc fuel cp g zb zt us ds ds' H F). split; [intros e ->; reflexivity|].
  intros l ->. split; [reflexivity|]. intros. apply channel_assign_sc; assumption.
Qed.
Print Assumptions C149_channels_partial.

(** C143's channel of 4 m x 2 m, in millimetres: 4000 x 2000. *)
Example C149_example : exists g' h', grid_init (1000 * 0) (1000 * 0) (1000 * 0) (1000 * 1) (1000 * 1) (1000 * 1) (1000 * 1) (1000 * 1) (1000 * 10) = Ok g' /\
  generate_channels 5 (channel_params_in 1000 oc_params) g' (1000 * 5) (1000 * 10) [1 / 2] (fun _ => [oc_draw]) = Ok [h'] /\
  ch_width h' = 4000 /\ ch_depth h' = 2000 /\ ch_ztop h' = 8000.
Proof.
  destruct (C149_channels_partial 1000 0 0 0 1 1 1 1 1 10 fx_grid ltac:(lra) fx_grid_ok) as (g' & Eg & K). exists g'.
  destruct (oc_runs 0 (g_x fx_grid) (g_y fx_grid) (g_z fx_grid)) as (h & E & _). exists (channel_in 1000 h). split; [exact Eg|].
  destruct (K 5%nat oc_params 5 10 [1 / 2] (fun _ => [oc_draw]) (fun _ => [oc_draw])) as [_ K2].
  - discriminate.
  - intros n. constructor; [|constructor]. split; [reflexivity|]. split; [reflexivity|]. intros x y w. reflexivity.
  - destruct (K2 _ E) as [E' _]. split; [exact E'|]. revert E. unfold generate_channels. cbn [oc_params cc_trend first_zfactor bind cc_agg cc_depth cc_buffer channel_levels].
    do 2 (match goal with |- context [Rltb ?a ?b] =>
      first [replace (Rltb a b) with true by (symmetry; apply Rltb_true; lra) | replace (Rltb a b) with false by (symmetry; apply Rltb_false; lra)] end; cbn [channel_levels bind]).
    intros [= <-]. cbn. repeat split; lra.
Qed.

(** The marks are not the same: the number of rows to mark is a length, not a
    number of cells (channel_ae.pyx l. 270).  The domain of C48's witness with
    rows 10 units apart; written in a unit ten times as long, the cell at the
    channel is found. *)
Lemma tenth_row5 d : d 0%nat 0%nat 5%nat = false -> d 0%nat 0%nat 6%nat = false ->
  exists d', channel_assign (cgrid_in (1 / 10) ex_wide_grid) 0 (channel_in (1 / 10) ex_wide) 5 d (point_in (1 / 10) (ex_cp 0 50 9.5 0 5)) = (d', Ok None) /\
             d' 0%nat 0%nat 6%nat = false.
Proof.
  intros Hd H6.
  pose proof (channel_assign_sc (1 / 10) ltac:(lra) ex_wide_grid (cgrid_in (1 / 10) ex_wide_grid) 0 ex_wide 5 d d (ex_cp 0 50 9.5 0 5) eq_refl) as K.
  assert (within_reach (1 / 10) ex_wide (p_x (ex_cp 0 50 9.5 0 5)) (p_y (ex_cp 0 50 9.5 0 5))) as Hw.
  { exists (mkCP 0 60 1 0). split; [now left|]. cbn [ex_cp p_x p_y cp_x cp_y]. assert (10 ^ 3 < 10 ^ 100) by (apply Rlt_pow; [lra|lia]). split; nra. }
  specialize (K Hw eq_refl). destruct (ex_wide_row5 d Hd) as (d5 & E5 & _). rewrite E5 in K. cbn [snd] in K.
  destruct (channel_assign _ _ (channel_in _ _) _ _ _) as [d' r] eqn:E. cbn [snd] in K. subst r. exists d'. split; [reflexivity|].
  revert E. unfold channel_assign. cbn [point_in ex_cp p_x p_y p_z p_xi p_yi]. destruct (Rltb 0 _); [intros [= <-]; exact H6|]. rewrite Hd.
  pose proof (xy_dist_sc (1 / 10) ltac:(lra) ex_wide 0 50 eq_refl Hw) as Hx. cbn [ex_cp p_x p_y] in Hx. rewrite Hx, ex_wide_dist by lra. clear Hx.
  change (ch_width (channel_in (1 / 10) ex_wide)) with (1 / 10 * 2).
  assert (forall r, 0 <= r < 1 -> mark_disc (cgrid_in (1 / 10) ex_wide_grid) 0 0 5 r d = d) as Hm.
  { intros r Hr. unfold mark_disc. generalize (seq 0 (Z.to_nat (ntrunc (r / cg_dx (cgrid_in (1 / 10) ex_wide_grid))%R))) as l.
    induction l as [|i l IH]; [reflexivity|]. cbn [fold_left].
    assert (Z.to_nat (ntrunc (sqrt (r ^ 2 - (INR i * cg_dx (cgrid_in (1 / 10) ex_wide_grid)) ^ 2))) = 0%nat) as ->.
    { match goal with |- context [sqrt ?t] => set (u := t) end. assert (u <= r ^ 2) as Hu by (unfold u; pose proof (pow2_ge_0 (INR i * cg_dx (cgrid_in (1 / 10) ex_wide_grid))); lra).
      assert (sqrt u <= r) as Hs by (rewrite <- (sqrt_pow2 r) by lra; apply sqrt_le_1_alt; exact Hu).
      pose proof (sqrt_pos u). unfold ntrunc. numR. destruct (Rleb_spec 0 (sqrt u)); [|lra]. rewrite (Int_part_unique (sqrt u) 0) by lra. reflexivity. }
    unfold mark_row. cbn [seq fold_left]. destruct (_ && _); exact IH. }
  rewrite Hm by lra. intros K.
  assert (forall b : bool, (if b then d else d) = d) as Hb by (intros []; reflexivity). rewrite Hb in K.
  destruct (above_parabola _ _ _); [injection K; intros _ <-; exact H6|]. injection K as <-. unfold mark. cbn [Nat.eqb andb]. exact H6.
Qed.
Definition ex_tenth_model : list (astrat R marks) :=
  [mkAstrat 0 [mkAelem 0 7 false (fun _ _ => 0) (fun _ _ => 2) 9 None None 0 [channel_obj (cgrid_in (1 / 10) ex_wide_grid) 0 5 (channel_in (1 / 10) ex_wide)]]].
Lemma ex_tenth_tower d d' r x y i j : channel_assign (cgrid_in (1 / 10) ex_wide_grid) 0 (channel_in (1 / 10) ex_wide) 5 d (point_in (1 / 10) (ex_cp x y 9.5 i j)) = (d', Ok r) ->
  match r with Some w => w_facies w = 3%Z | None => True end ->
  fst (tower ex_tenth_model [point_in (1 / 10) (ex_cp x y 9.5 i j)] (0, 0, 0)%nat d) = d' /\
  map (option_map (fun r => i_facies (fst r))) (snd (tower ex_tenth_model [point_in (1 / 10) (ex_cp x y 9.5 i j)] (0, 0, 0)%nat d)) = [Some (match r with Some _ => 3 | None => 9 end)%Z].
Proof.
  intros E Hr. cbn [tower]. unfold assign_cell. cbn [skipn ex_tenth_model scan_strata t_zmin]. numR.
  set (p := point_in (1 / 10) (ex_cp x y 9.5 i j)) in *. assert (p_z p = 1 / 10 * 9.5) as Hz by reflexivity. rewrite Hz.
  destruct (Rleb_spec 0 (1 / 10 * 9.5)); [|lra]. cbn [negb]. unfold assign_stratum. cbn [t_aes skipn scan_aes e_zmin]. numR. rewrite Hz.
  destruct (Rleb_spec 0 (1 / 10 * 9.5)); [|lra]. cbn [negb]. unfold assign_ae. cbn [e_objs skipn scan_objs]. numR. rewrite Hz.
  change (o_zmax (channel_obj (cgrid_in (1 / 10) ex_wide_grid) 0 5 (channel_in (1 / 10) ex_wide))) with (1 / 10 * 10).
  change (o_zmin (channel_obj (cgrid_in (1 / 10) ex_wide_grid) 0 5 (channel_in (1 / 10) ex_wide))) with (1 / 10 * (10 - 1)).
  destruct (Rleb_spec (1 / 10 * 9.5) (1 / 10 * 10)); [|lra]. cbn [negb]. destruct (Rleb_spec (1 / 10 * (10 - 1)) (1 / 10 * 9.5)); [|lra]. cbn [negb].
  cbn [channel_obj o_check]. rewrite E. destruct r as [[f a dd h]|].
  - cbn in Hr. subst f. cbn. auto.
  - cbn [do_write found i_facies reset Z.eqb negb e_sheet e_bottom e_top]. change (negb (Z.eqb (-1) (-1))) with false. cbv iota.
    destruct (Rleb_spec (1 / 10 * 9.5) 0); [lra|]. destruct (Rleb_spec 2 (1 / 10 * 9.5)); [lra|]. cbn. auto.
Qed.
Theorem C149_cells_refuted :
  map (map (option_map (fun r => i_facies (fst r)))) (towers ex_wide_model [ex_row5; ex_row6] unmarked) = [[Some 9%Z]; [Some 9%Z]] /\
  map (map (option_map (fun r => i_facies (fst r)))) (towers ex_tenth_model [map (point_in (1 / 10)) ex_row5; map (point_in (1 / 10)) ex_row6] unmarked) = [[Some 9%Z]; [Some 3%Z]].
Proof.
  split; [apply C48_wide_cells_refuted|].
  destruct (tenth_row5 unmarked eq_refl eq_refl) as (d5 & E5 & M5). cbn [towers ex_row5 ex_row6 map].
  destruct (ex_tenth_tower _ _ _ _ _ _ _ E5 I) as [F1 F2].
  destruct (tower ex_tenth_model [point_in (1 / 10) (ex_cp 0 50 9.5 0 5)] (0, 0, 0)%nat unmarked) as [d1 rs1]. cbn [fst snd] in F1, F2. subst d1.
  assert (within_reach (1 / 10) ex_wide (p_x (ex_cp 0 60 9.5 0 6)) (p_y (ex_cp 0 60 9.5 0 6))) as Hw.
  { exists (mkCP 0 60 1 0). split; [now left|]. cbn [ex_cp p_x p_y cp_x cp_y]. assert (10 ^ 3 < 10 ^ 100) by (apply Rlt_pow; [lra|lia]). split; nra. }
  pose proof (channel_assign_sc (1 / 10) ltac:(lra) ex_wide_grid (cgrid_in (1 / 10) ex_wide_grid) 0 ex_wide 5 d5 d5 (ex_cp 0 60 9.5 0 6) eq_refl Hw eq_refl) as K.
  rewrite (ex_wide_row6 d5 M5) in K.
  destruct (channel_assign (cgrid_in (1 / 10) ex_wide_grid) 0 (channel_in (1 / 10) ex_wide) 5 d5 (point_in (1 / 10) (ex_cp 0 60 9.5 0 6))) as [d6 r6] eqn:E6.
  cbn [snd] in K. subst r6.
  destruct (ex_tenth_tower _ _ _ _ _ _ _ E6 eq_refl) as [F3 F4].
  destruct (tower ex_tenth_model [point_in (1 / 10) (ex_cp 0 60 9.5 0 6)] (0, 0, 0)%nat d5) as [d1 rs2]. cbn [fst snd] in F4.
  cbn [map] in *. rewrite F2, F4. reflexivity.
Qed.
Print Assumptions C149_cells_refuted.

(** The number of layers of a channel with dip sets is not the same: the shift,
    a length, is added to a number of layers (channel.pyx l. 99-101).  Half a
    layer of 1 unit, or of 10: 12 and 16 entries are drawn. *)
Theorem C149_layers_refuted : exists ct line h h',
  new_channel ct line 10 2 1 1 1 (mkCD 0 (1 / 2) 0 (fun n => n)) = Ok h /\
  new_channel (channel_type_in 10 ct) (map (cpoint_in 10) line) (10 * 10) (10 * 2) (10 * 1) (10 * 1) (10 * 1) (mkCD 0 (1 / 2) 0 (fun n => n)) = Ok h' /\
  ch_num_facies h = 12%Z /\ ch_num_facies h' = 16%Z.
Proof.
  exists (mkCType (S_ "dip") [3; 4]%Z None (0, 0) 0 7 1), [mkCP 0 0 1 0].
  unfold new_channel. cbn [channel_type_in ct_structure ct_facies ct_altfacies ct_dip ct_lag_height ct_lag_facies ct_dipset_dist map curve_length cd_dip cd_shift cd_array fst snd].
  rewrite pystr_eqb_refl. unfold uniform. numR.
  assert (nceil (0 * sin (deg (0 + (0 - 0) * 0)) / 1 + (0 + (1 - 0) * (1 / 2))) = 1%Z) as -> by (apply nceil_R_unique; lra).
  assert (nceil (0 * sin (deg (0 + (0 - 0) * 0)) / (10 * 1) + (0 + (10 * 1 - 0) * (1 / 2))) = 5%Z) as -> by (apply nceil_R_unique; lra).
  assert (nceil (1 / 1) = 1%Z) as -> by (apply nceil_R_unique; lra). assert (nceil (10 * 1 / (10 * 1)) = 1%Z) as -> by (apply nceil_R_unique; lra).
  eexists _, _. split; [reflexivity|]. split; [reflexivity|]. split; reflexivity.
Qed.
Print Assumptions C149_layers_refuted.
