(** C78: the layers of dip sets are parallel to the bedding planes of the
    conductivity tensor. *)
From Coq Require Import List ZArith Bool Lia Reals Lra Psatz String.
From Verif Require Import Base Num FaciesModel AssignModel SurfaceModel TroughModel TroughSpec TroughProofs SheetModel SheetSpec SheetProps
  ChannelModel ChannelSpec ChannelProofs ChannelProps TensorModel TensorSpec TensorProps.
Import ListNotations.
Local Open Scope R_scope.

(** The vector from p to q. *)
Definition from_to (p q : point R) : vector := fun i =>
  match i with 0%nat => p_x q - p_x p | 1%nat => p_y q - p_y p | _ => p_z q - p_z p end.
(** Two cells on one plane along which the conductivity is not reduced. *)
Definition same_bed (az dip : R) (p q : point R) : Prop := inner (tensor_normal az dip) (from_to p q) = 0.

(** Troughs: cells on one plane are in one layer (the domain not being
    periodic), and the layer depends on the distance across the planes only. *)
Theorem C78_trough_layers tt x y z a b c alpha d t :
  new_trough tt x y z a b c alpha d = Ok t -> tr_structure t = 1%Z ->
  forall p q, same_bed (tr_azim t) (tr_dip t) p q ->
  dip_layer t (p_x p - x) (p_y p - y) (p_z p - z) = dip_layer t (p_x q - x) (p_y q - y) (p_z q - z).
Proof.
  intros H Hs p q Hb. unfold same_bed, inner, tensor_normal, rotation, sum3, from_to in Hb.
  destruct (b_1 _ _ _ _ _ _ _ _ _ _ (new_trough_built _ _ _ _ _ _ _ _ _ _ H) Hs) as (_ & _ & Ex & Ey & Ez & _).
  unfold dip_layer. rewrite Ex, Ey, Ez. do 3 f_equal. nra.
Qed.

(** The same for what is written: two cells of one trough above the lag that
    lie on one plane of the angles of one of them have the same facies. *)
Theorem C78_trough_facies tt x y z a b c alpha d t lx ly ha p q w1 w2 az dp :
  new_trough tt x y z a b c alpha d = Ok t -> tr_structure t = 1%Z ->
  trough_assign (mkDomain false lx ly) t ha p = Ok (Some w1) -> trough_assign (mkDomain false lx ly) t ha q = Ok (Some w2) ->
  z - c + tt_lag_height tt <= p_z p -> z - c + tt_lag_height tt <= p_z q ->
  w_azim w1 = Some az -> w_dip w1 = Some dp -> same_bed az dp p q -> w_facies w1 = w_facies w2.
Proof.
  intros H Hs H1 H2 Hp Hq Eaz Edp Hb. pose proof (new_trough_built _ _ _ _ _ _ _ _ _ _ H) as B.
  unfold trough_assign, offset, wrap in H1, H2. cbn [dm_periodic] in H1, H2.
  rewrite (b_x _ _ _ _ _ _ _ _ _ _ B), (b_y _ _ _ _ _ _ _ _ _ _ B), (b_z _ _ _ _ _ _ _ _ _ _ B) in H1, H2.
  destruct (claims _ _ _ _) in H1; [|discriminate]. destruct (claims _ _ _ _) in H2; [|discriminate].
  unfold trough_write in H1, H2. rewrite Hs, (b_z _ _ _ _ _ _ _ _ _ _ B), (b_c _ _ _ _ _ _ _ _ _ _ B), (b_lag _ _ _ _ _ _ _ _ _ _ B) in H1, H2.
  destruct (Rltb (p_z p) _) eqn:E in H1; [apply Rltb_true in E; lra|clear E]. destruct (Rltb (p_z q) _) eqn:E in H2; [apply Rltb_true in E; lra|clear E].
  cbn [Z.eqb Pos.eqb] in H1, H2.
  destruct (layer_facies t (dip_layer t (p_x p - x) _ _)) as [f1|] eqn:E1; [|discriminate].
  destruct (layer_facies t (dip_layer t (p_x q - x) _ _)) as [f2|] eqn:E2; [|discriminate].
  cbn [bind] in H1, H2. injection H1 as <-. injection H2 as <-. cbn in Eaz, Edp |- *. injection Eaz as <-. injection Edp as <-.
  rewrite (C78_trough_layers _ _ _ _ _ _ _ _ _ _ H Hs p q Hb) in E1. congruence.
Qed.

Lemma trunc_within (x : R) : x - 1 < IZR (ntrunc x) < x + 1.
Proof.
  unfold ntrunc. numR. destruct (Rleb_spec 0 x) as [H|H].
  - pose proof (Int_part_spec x). lra.
  - pose proof (nceil_R_spec x). lra.
Qed.

(** Sheets: the layers dip the other way.  Cells on one plane through an
    azimuth turned by 180 degrees are in one layer... *)
Theorem C78_sheet_layers_partial tt g zc dr sh :
  new_sheet tt g zc dr = Ok sh -> st_structure tt = S_ "dip" ->
  forall p q, same_bed (sh_azim sh + 180) (sh_dip sh) p q -> sheet_layer sh p = sheet_layer sh q.
Proof.
  intros H Hs p q Hb. pose proof (new_sheet_dip _ _ _ _ _ H Hs) as B. pose proof (ds_normal _ _ _ _ _ B) as E.
  unfold sheet_normal in E. injection E as Ex Ey Ez.
  unfold same_bed, inner, tensor_normal, rotation, sum3, from_to in Hb.
  assert (Er : radians (sh_azim sh + 180) = radians (sh_azim sh) + PI) by (unfold radians; field). rewrite Er, neg_cos, neg_sin in Hb.
  unfold sheet_layer. rewrite Ex, Ey, Ez. do 3 f_equal. nra.
Qed.

(** ... but, whenever the dip is neither 0 nor 90 degrees, cells on one plane of
    the tensor can be any number of layers apart. *)
Theorem C78_sheet_layers_refuted tt g zc dr sh n :
  new_sheet tt g zc dr = Ok sh -> st_structure tt = S_ "dip" -> 0 < st_dipset_dist tt -> (0 <= n)%Z ->
  sin (radians (sh_dip sh)) * cos (radians (sh_dip sh)) <> 0 ->
  forall p, exists q, same_bed (sh_azim sh) (sh_dip sh) p q /\ (n < sheet_layer sh q - sheet_layer sh p)%Z.
Proof.
  intros H Hs Hld Hn Hsc p. pose proof (new_sheet_dip _ _ _ _ _ H Hs) as B. pose proof (ds_normal _ _ _ _ _ B) as E.
  unfold sheet_normal in E. injection E as Ex Ey Ez. pose proof (ds_ld _ _ _ _ _ B) as El.
  set (az := radians (sh_azim sh)) in *. set (S := sin (radians (sh_dip sh))) in *. set (C := cos (radians (sh_dip sh))) in *.
  set (ld := st_dipset_dist tt) in *.
  (* q is p moved by t along the plane *)
  set (t := - (IZR n + 3) * ld / (2 * S * C)).
  set (q := mkPoint (p_x p + t * (C * cos az)) (p_y p - t * (C * sin az)) (p_z p - t * S) 0 0).
  exists q. split.
  - unfold same_bed, inner, tensor_normal, rotation, sum3, from_to. cbn [q p_x p_y p_z]. fold az S C.
    pose proof (sin2_cos2' az) as H1.
    transitivity (t * S * C * (sin az ^ 2 + cos az ^ 2) - t * S * C); [ring|]. rewrite H1. ring.
  - unfold sheet_layer. rewrite El, Ex, Ey, Ez. cbn [q p_x p_y p_z]. fold az S C.
    set (D := (- S * cos az * p_x p + S * sin az * p_y p + C * p_z p - sh_shift sh) / ld).
    assert (E2 : (- S * cos az * (p_x p + t * (C * cos az)) + S * sin az * (p_y p - t * (C * sin az)) + C * (p_z p - t * S) - sh_shift sh) / ld = D + (IZR n + 3)).
    { pose proof (sin2_cos2' az) as H1. unfold D. apply Rmult_eq_reg_r with ld; [|lra]. unfold Rdiv. rewrite Rmult_plus_distr_r, !Rmult_assoc, Rinv_l, !Rmult_1_r by lra.
      transitivity (- S * cos az * p_x p + S * sin az * p_y p + C * p_z p - sh_shift sh - t * S * C * (sin az ^ 2 + cos az ^ 2) - t * S * C); [ring|].
      rewrite H1. assert (Et : 2 * (t * S * C) = - (IZR n + 3) * ld) by (unfold t; field; split; intros E0; apply Hsc; rewrite E0; ring). lra. }
    rewrite E2. pose proof (trunc_within D). pose proof (trunc_within (D + (IZR n + 3))).
    assert (IZR n < IZR (ntrunc (D + (IZR n + 3))%R - ntrunc D)) by (rewrite minus_IZR; lra). apply lt_IZR in H2. lia.
Qed.

(** Channels: the azimuth written is the angle of the flow, counted
    anticlockwise from the x axis, and not the azimuth of the tensor, which is
    counted clockwise.  A straight channel in y direction with layers dipping
    by 45 degrees: *)
Definition north_line : list cpoint := [mkCP 0 0 0 1; mkCP 0 10 0 1].
Definition north_type : channel_type := mkCType (S_ "dip") [2%Z; 5%Z] None (45, 45) 0 7 1.
Definition north_draw : channel_draw := mkCD 0 0 0 (fun n => n).
Definition north_p : point R := mkPoint 0 0 (-15) 0 0.
Definition north_q : point R := mkPoint 0 10 (-5) 0 10.

Lemma sqrt100 : sqrt 100 = 10.
Proof. replace 100 with (10 * 10) by ring. apply sqrt_square. lra. Qed.
Lemma eps_pos : 0 < / 10 ^ 20.
Proof. apply Rinv_0_lt_compat, pow_lt. lra. Qed.
Lemma near_p : exists s, 0 < s /\ exists r, find_near 0 0 north_line = mkNear 0 s s r 0 0.
Proof.
  unfold find_near, north_line. cbn [near_loop cp_x cp_y cp_vx cp_vy nr_run nr_dist nr_vx nr_vy nr_sum nr_along dist2].
  unfold dist2. cbn [cp_x cp_y].
  replace ((0 - 0) ^ 2 + (0 - 0) ^ 2) with 0 by ring. replace ((0 - 0) ^ 2 + (0 - 10) ^ 2) with 100 by ring. rewrite sqrt_0, sqrt100.
  assert (Hf : 0 < far) by (unfold far; apply pow_lt; lra).
  destruct (Rltb 0 far) eqn:E; [clear E|apply Rltb_false in E; lra]. cbn [nr_dist nr_vx nr_vy nr_sum nr_run nr_along].
  destruct (Rltb 10 0) eqn:E; [apply Rltb_true in E; lra|clear E].
  pose proof eps_pos. set (e := / 10 ^ 20) in *.
  exists (1 / (0 + e) + 1 / (10 + e)). split.
  - assert (0 < 1 / (0 + e)) by (apply Rdiv_lt_0_compat; lra). assert (0 < 1 / (10 + e)) by (apply Rdiv_lt_0_compat; lra). lra.
  - eexists. f_equal; lra.
Qed.
Lemma near_q : exists s, 0 < s /\ exists r, find_near 0 10 north_line = mkNear 0 s s r 10 0.
Proof.
  unfold find_near, north_line. cbn [near_loop cp_x cp_y cp_vx cp_vy nr_run nr_dist nr_vx nr_vy nr_sum nr_along dist2].
  unfold dist2, step_length. cbn [cp_x cp_y].
  replace ((0 - 0) ^ 2 + (10 - 0) ^ 2) with 100 by ring. replace ((0 - 0) ^ 2 + (10 - 10) ^ 2) with 0 by ring. rewrite sqrt_0, sqrt100.
  assert (Hf : 10 < far) by (unfold far; rewrite <- (pow_1 10) at 1; apply Rlt_pow; [lra|lia]).
  destruct (Rltb 10 far) eqn:E; [clear E|apply Rltb_false in E; lra]. cbn [nr_dist nr_vx nr_vy nr_sum nr_run nr_along].
  destruct (Rltb 0 10) eqn:E; [clear E|apply Rltb_false in E; lra].
  pose proof eps_pos. set (e := / 10 ^ 20) in *.
  exists (1 / (10 + e) + 1 / (0 + e)). split.
  - assert (0 < 1 / (0 + e)) by (apply Rdiv_lt_0_compat; lra). assert (0 < 1 / (10 + e)) by (apply Rdiv_lt_0_compat; lra). lra.
  - exists (0 + 10). f_equal; lra.
Qed.

Theorem C78_channel_layers_refuted : exists c,
  new_channel north_type north_line 0 1 20 1 1 north_draw = Ok c /\
  in_parabola north_line 1 20 0 (p_x north_p) (p_y north_p) (p_z north_p) /\
  in_parabola north_line 1 20 0 (p_x north_q) (p_y north_q) (p_z north_q) /\
  channel_azimuth c (p_x north_p) (p_y north_p) = 90 /\ channel_azimuth c (p_x north_q) (p_y north_q) = 90 /\ ch_dip c = 45 /\
  same_bed 90 45 north_p north_q /\
  (channel_layer c (p_x north_p) (p_y north_p) (p_z north_p - 0) + 10 < channel_layer c (p_x north_q) (p_y north_q) (p_z north_q - 0))%Z.
Proof.
  assert (E45 : uniform 45 45 0 = 45) by (unfold uniform; numR; ring).
  assert (H : exists c, new_channel north_type north_line 0 1 20 1 1 north_draw = Ok c /\ ch_dip c = 45 /\ ch_line c = north_line /\
            ch_sin c = sin (deg 45) /\ ch_cos c = cos (deg 45) /\ ch_layer_dist c = 1 /\ ch_shift c = 0).
  { unfold new_channel. cbn [north_type ct_structure ct_dip fst snd ct_dipset_dist ct_facies ct_altfacies ct_lag_height ct_lag_facies north_draw cd_dip cd_shift cd_array].
    change (pystr_eqb (S_ "dip") (S_ "dip")) with true. cbv iota. cbv zeta. rewrite E45.
    match goal with |- context [alternating_facies ?n] => set (num := n) end.
    assert (Hn : (1 <= num)%Z).
    { unfold num. assert (0 <= sin (deg 45)) by (apply sin_cos_deg; lra).
      assert (Hc : 0 <= curve_length north_line) by (cbn [curve_length north_line]; unfold step_length; pose proof (sqrt_pos ((cp_x (mkCP 0 10 0 1) - cp_x (mkCP 0 0 0 1)) ^ 2 + (cp_y (mkCP 0 10 0 1) - cp_y (mkCP 0 0 0 1)) ^ 2)); lra).
      assert (Hu : uniform 0 1 0 = 0) by (unfold uniform; numR; ring). rewrite Hu.
      pose proof (nceil_R_spec (curve_length north_line * sin (deg 45) / 1 + 0)) as H1. pose proof (nceil_R_spec (20 / 1)) as H2.
      assert (H3 : 0 <= curve_length north_line * sin (deg 45)) by (now apply Rmult_le_pos).
      assert (-1 < nceil (curve_length north_line * sin (deg 45) / 1 + 0)%R)%Z by (apply lt_IZR; lra).
      assert (-1 < nceil (20 / 1)%R)%Z by (apply lt_IZR; lra). lia. }
    destruct (FaciesProps.C51_never_fails num [2; 5]%Z None (fun n => n) Hn) as [arr ->]; [discriminate|exact I|]. cbn [bind].
    eexists. split; [reflexivity|]. cbn. repeat split; auto. unfold uniform. numR. ring. }
  destruct H as (c & Hc & Edip & El & Es & Ec & Eld & Esh). exists c. split; [exact Hc|].
  assert (S0 : 7 / 10 < sin (deg 45)).
  { replace (deg 45) with (PI / 4) by (unfold deg; field). rewrite sin_PI4.
    assert (0 < sqrt 2) by (apply sqrt_lt_R0; lra). pose proof (sqrt_sqrt 2 ltac:(lra)).
    apply Rmult_lt_reg_r with (sqrt 2); [assumption|]. unfold Rdiv at 2. rewrite Rmult_1_l, Rinv_l by lra. nra. }
  assert (SC : cos (deg 45) = sin (deg 45)).
  { replace (deg 45) with (PI / 4) by (unfold deg; field). now rewrite sin_PI4, cos_PI4. }
  destruct near_p as (s1 & Hs1 & r1 & N1). destruct near_q as (s2 & Hs2 & r2 & N2).
  assert (A : forall s, 0 < s -> atan2 (s / s) (0 / s) / PI * 180 = 90).
  { intros s Hs. replace (s / s) with 1 by (field; lra). replace (0 / s) with 0 by (field; lra). unfold atan2.
    destruct (Rltb 0 0) eqn:E; [apply Rltb_true in E; lra|]. destruct (Rltb 0 1) eqn:E'; [|apply Rltb_false in E'; lra].
    field. apply PI_neq0. }
  cbn [north_p north_q p_x p_y p_z].
  split; [|split].
  - split; [lra|]. exists (mkCP 0 0 0 1). split; [now left|]. cbn [cp_x cp_y]. split; [intros k [<-|[<-|[]]]; cbn [cp_x cp_y]; lra|lra].
  - split; [lra|]. exists (mkCP 0 10 0 1). split; [right; now left|]. cbn [cp_x cp_y]. split; [intros k [<-|[<-|[]]]; cbn [cp_x cp_y]; lra|lra].
  - split; [unfold channel_azimuth; rewrite El, N1; cbn [nr_vx nr_vy nr_sum]; auto|].
    split; [unfold channel_azimuth; rewrite El, N2; cbn [nr_vx nr_vy nr_sum]; auto|].
    split; [exact Edip|]. split.
    + unfold same_bed, inner, tensor_normal, rotation, sum3, from_to. cbn [north_p north_q p_x p_y p_z].
      change (radians 45) with (deg 45). rewrite SC. replace (radians 90) with (PI / 2) by (unfold radians; field). rewrite sin_PI2, cos_PI2. ring.
    + unfold channel_layer. rewrite El, N1, N2, Es, Ec, Eld, Esh, SC. cbn [nr_along].
      set (S := sin (deg 45)) in *.
      replace ((0 * S + (-15 - 0) * S + 0) / 1) with (- (15) * S) by field. replace ((10 * S + (-5 - 0) * S + 0) / 1) with (5 * S) by field.
      pose proof (trunc_within (- (15) * S)). pose proof (trunc_within (5 * S)). apply lt_IZR. rewrite plus_IZR. lra.
Qed.

(** A trough with layers dipping by 45 degrees for which the hypotheses of the
    theorems hold. *)
Example C78_example : exists t,
  new_trough (mkTType (S_ "dip") [2%Z] None (0, 0) (45, 45) 0 (-1)%Z 1 1) 0 0 0 2 2 2 0 (mkTD 0 0 0 0 0 (fun _ => 0%nat)) = Ok t /\
  tr_structure t = 1%Z /\ same_bed (tr_azim t) (tr_dip t) (mkPoint 0 0 (-1) 0 0) (mkPoint (1/2) 0 (-1 - 1/2) 0 0).
Proof.
  unfold new_trough. cbn [tt_structure td_structure structure_code]. change (pystr_eqb (S_ "dip") (S_ "massive")) with false. change (pystr_eqb (S_ "dip") (S_ "dip")) with true.
  cbv iota. cbn [bind]. cbn [Z.eqb Pos.eqb tt_dip tt_azimuth fst snd td_dip td_azim tt_dipset_dist td_shift tt_facies tt_altfacies td_array].
  match goal with |- context [alternating_facies ?n] => set (num := n) end.
  assert (Hn : (1 <= num)%Z).
  { unfold num, max3. rewrite !(Rmax_left 2 2) by lra. assert (Hu : uniform 0 1 0 = 0) by (unfold uniform; numR; ring). rewrite Hu.
    rewrite (nceil_R_unique _ 4); [lia|lra]. }
  destruct (FaciesProps.C51_never_fails num [2%Z] None (fun _ => 0%nat) Hn) as [arr ->]; [discriminate|exact I|]. cbn [bind].
  eexists. split; [reflexivity|]. split; [reflexivity|]. cbn [tr_azim tr_dip].
  assert (E1 : uniform 0 0 0 + 0 = 0) by (unfold uniform; numR; ring). assert (E2 : uniform 45 45 0 = 45) by (unfold uniform; numR; ring).
  rewrite E1, E2. unfold same_bed, inner, tensor_normal, rotation, sum3, from_to. cbn [p_x p_y p_z].
  replace (radians 0) with 0 by (unfold radians; field). replace (radians 45) with (PI / 4) by (unfold radians; field).
  rewrite sin_0, cos_0, sin_PI4, cos_PI4. lra.
Qed.

Print Assumptions C78_trough_layers.
Print Assumptions C78_trough_facies.
Print Assumptions C78_sheet_layers_partial.
Print Assumptions C78_sheet_layers_refuted.
Print Assumptions C78_channel_layers_refuted.
