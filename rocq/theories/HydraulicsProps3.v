(** Properties of hydraulic parameters: porosity, tensors of whole models,
    examples. *)
From Coq Require Import List ZArith Bool Lia Reals Lra Psatz.
From Verif Require Import Base Num ArrayModel ArrayProofs TroughSpec SheetSpec TensorModel TensorSpec TensorProps SpecsimModel SpecsimSpec SpecsimProofs SpecsimProps HydraulicsModel HydraulicsSpec HydraulicsProofs HydraulicsProps HydraulicsProps2.
Import ListNotations.
Local Open Scope R_scope.

(** ** C87: porosities lie between 0 and 1

    True for the level 'facies' if the listed ones do; false with internal
    heterogeneity: the field is not bounded. *)
Theorem C87_facies_level_partial s co h g draw ae_draw an aes n p : facies_ok s g n ->
  Forall (fun v => 0 <= v <= 1) (h_n h) ->
  assign_parameters s co h g draw ae_draw (mkSettings true FaciesLevel an) aes = Ok p ->
  forall c, In c (cells s) -> 0 <= p_stored_n p c <= 1.
Proof.
  intros Hf Hn H c Hc. destruct (C54_facies_level _ _ _ _ _ _ _ _ _ H c Hc) as (_ & (_ & E) & _); [destruct (Hf c Hc); assumption|].
  rewrite Forall_forall in Hn. apply Hn. eapply nth_error_In. exact E.
Qed.

Definition three : shape := (3, 1, 1)%nat.
Definition row : geology := mkGeology (fun _ => 1%Z) (fun _ => 0%Z) (fun _ => 0%Z) (fun _ => 0) (fun _ => 0).
Definition loud (t : R) : Z -> Z -> bool -> noise := fun _ _ _ => mkNoise (fun f => if Nat.eqb (cx f) 1 then t else 0) (fun _ => 0).

Lemma row_box : bounding_box three (mifi row 1 0) = Some (mkBox (0, 0, 0)%nat (2, 0, 0)%nat).
Proof. reflexivity. Qed.

Lemma cos_thirds : cos (2 * PI / 3) = - (1 / 2).
Proof. replace (2 * PI / 3) with (2 * (PI / 3)) by field. rewrite cos_2a_cos, cos_PI3. field. Qed.
Lemma cos_two_thirds : cos (4 * PI / 3) = - (1 / 2).
Proof. replace (4 * PI / 3) with (2 * (2 * PI / 3)) by field. rewrite cos_2a_cos, cos_thirds. field. Qed.

Lemma row_spectrum : 0 < spectrum three (fun c => exp (- sqrt (h_square line3 (1, 1, 1) (mkBox (0, 0, 0)%nat (2, 0, 0)%nat) c)) * 1) (1, 0, 0)%nat.
Proof.
  unfold spectrum. cbn [cx cy cz fst snd three Nat.eqb Nat.mul].
  set (ryy := fun c => exp (- sqrt (h_square line3 (1, 1, 1) (mkBox (0, 0, 0)%nat (2, 0, 0)%nat) c)) * 1).
  assert (E0 : ryy (0, 0, 0)%nat = exp (- (1))).
  { unfold ryy, h_square, centred. cbn [cx cy cz fst snd bx_lo bx_hi line3 co_x co_y co_z Nat.add INR]. rewrite Rmult_1_r. f_equal. f_equal.
    match goal with |- sqrt ?x = _ => replace x with 1 by field end. apply sqrt_1. }
  assert (E1 : ryy (1, 0, 0)%nat = 1).
  { unfold ryy, h_square, centred. cbn [cx cy cz fst snd bx_lo bx_hi line3 co_x co_y co_z Nat.add INR]. rewrite Rmult_1_r.
    match goal with |- exp (- sqrt ?x) = _ => replace x with 0 by field end. rewrite sqrt_0, Ropp_0. apply exp_0. }
  assert (E2 : ryy (2, 0, 0)%nat = exp (- (1))).
  { unfold ryy, h_square, centred. cbn [cx cy cz fst snd bx_lo bx_hi line3 co_x co_y co_z Nat.add INR]. rewrite Rmult_1_r. f_equal. f_equal.
    match goal with |- sqrt ?x = _ => replace x with 1 by field end. apply sqrt_1. }
  apply Rdiv_lt_0_compat; [|cbn; lra]. apply sqrt_lt_R0.
  match goal with |- 0 < ?a ^ 2 + ?b ^ 2 => assert (A : a = (exp (- (1)) - 1) / 2); [|pose proof (pow2_ge_0 b); rewrite A] end.
  - unfold sum_cells, fftshift. cbn [cx cy cz fst snd three sumn Nat.add Nat.sub Nat.div Nat.divmod Nat.modulo].
    rewrite E0, E1, E2. unfold phase. cbn [cx cy cz fst snd three INR].
    match goal with |- context [cos (2 * PI * (1 * 0 / ?d + 0 + 0))] => idtac | _ => idtac end.
    replace (2 * PI * (1 * 0 / (1 + 1 + 1) + 0 * 0 / 1 + 0 * 0 / 1)) with 0 by field.
    replace (2 * PI * (1 * 1 / (1 + 1 + 1) + 0 * 0 / 1 + 0 * 0 / 1)) with (2 * PI / 3) by field.
    replace (2 * PI * (1 * (1 + 1) / (1 + 1 + 1) + 0 * 0 / 1 + 0 * 0 / 1)) with (4 * PI / 3) by field.
    rewrite cos_0, cos_thirds, cos_two_thirds. field.
  - assert (exp (- (1)) < 1) by (rewrite <- exp_0 at 2; apply exp_increasing; lra). nra.
Qed.

Theorem C87_negative_porosity_refuted : exists t p,
  assign_parameters three line3 (two_facies no_trends None) row (loud t) ae_quiet (mkSettings true Internal true) [] = Ok p /\
  In (0, 0, 0)%nat (cells three) /\ p_stored_n p (0, 0, 0)%nat = - (3 / 4).
Proof.
  pose proof row_spectrum as Hs. set (syy := spectrum three _) in Hs. set (t := - 1 / sqrt (syy (1, 0, 0)%nat)).
  exists t. destruct (C55_never_fails three line3 (two_facies no_trends None) row (loud t) ae_quiet true [] 2) as (p & H).
  - apply two_complete.
  - intros c _. cbn. lia.
  - intros e [].
  - exists p. split; [exact H|]. split; [apply in_cells; cbn; lia|].
    unfold assign_parameters in H. cbn [s_het s_level] in H.
    replace (pairs three row) with [(1, 0)]%Z in H by reflexivity. cbn [foldM combine seq List.length] in H.
    destruct (object_step _ _ _ _ _ _ initial (1, 0)%Z) as [q|] eqn:E; [|discriminate]. cbn [bind] in H. injection H as <-.
    change (p_stored_n (global_trends three (two_facies no_trends None) q)) with (p_stored_n q).
    unfold object_step in E. destruct (internal_k _ _ _ _ _ _ initial) as [p1|] eqn:E1; [|discriminate]. cbn [bind] in E.
    apply internal_k_spec in E1 as (k & a & _ & -> & _).
    destruct (internal_n _ _ _ _ _ _ _) as [p2|] eqn:E2; [|discriminate]. cbn [bind] in E.
    destruct (pyget (h_ratio _) 0) as [r|]; [|discriminate]. cbn [bind] in E. injection E as <-. cbn [change_ratio p_stored_n].
    unfold internal_n in E2. change (pyget (h_sign (two_facies no_trends None)) 0) with (@Ok R 1) in E2. cbn [bind] in E2.
    change (pyget (h_ncorl (two_facies no_trends None)) 0) with (@Ok (R * R * R) (1, 1, 1)) in E2. cbn [bind] in E2.
    change (pyget (h_n (two_facies no_trends None)) 0) with (@Ok R (/ 4)) in E2.
    destruct (specsim _ _ _ _ _ _ _) as [vs|] eqn:Ev; [|discriminate]. cbn [bind] in E2.
    destruct (put _ _ _ _) as [b|] eqn:Eb; [|discriminate]. cbn [bind] in E2. injection E2 as <-. cbn [change_n change_k p_n_shared initial p_stored_n].
    unfold specsim in Ev. rewrite row_box in Ev. cbn [specsim_field covariance bind] in Ev. injection Ev as <-.
    cbn [change_k initial p_n] in Eb.
    set (yy := field _ _ _) in Eb.
    change (select _ _ yy) with [yy (0, 0, 0)%nat; yy (1, 0, 0)%nat; yy (2, 0, 0)%nat] in Eb. cbn [map] in Eb.
    change (put _ _ _ _) with (Ok (put_list [(0, 0, 0); (1, 0, 0); (2, 0, 0)]%nat [yy (0, 0, 0)%nat + / 4; yy (1, 0, 0)%nat + / 4; yy (2, 0, 0)%nat + / 4] (fun _ => 0))) in Eb.
    injection Eb as <-.
    rewrite !set1_other, set1_same by discriminate.
    enough (yy (0, 0, 0)%nat = - (1)) as -> by lra.
    unfold yy, field. change (box_shape _) with three. fold syy.
    unfold sum_cells. cbn [cx cy cz fst snd three sumn]. unfold loud, no_re, no_im. cbn [cx fst Nat.eqb].
    unfold phase. cbn [cx cy cz fst snd three INR].
    replace (2 * PI * (1 * 0 / (1 + 1 + 1) + 0 * 0 / 1 + 0 * 0 / 1)) with 0 by field. rewrite cos_0, sin_0. unfold t.
    assert (0 < sqrt (syy (1, 0, 0)%nat)) by (now apply sqrt_lt_R0). field. lra.
Qed.

(** ** C88: the stored tensors belong to the stored arrays

    The tensor of a cell is that of the stored conductivity and ratio and of
    the azimuth and dip of the cell (in degrees), if sin and cos are imported
    and no trend in x is set. *)
Definition no_xtrends (h : hydro) (aes : list element) : Prop := tr_kx (h_trends h) = None /\ Forall no_xtrend aes.
Lemma assigned_shared s co h g draw ae_draw st aes p : no_xtrends h aes ->
  assign_parameters s co h g draw ae_draw st aes = Ok p -> p_stored_k p = p_k p.
Proof.
  intros [Hh Ha] H. unfold assign_parameters in H. destruct (s_het st).
  - destruct (foldM (object_step _ _ _ _ _ _) _ _) as [q|] eqn:E; [|discriminate]. cbn [bind] in H. apply objects_done in E as [Hs _].
    destruct (s_level st); try (injection H as <-; apply Hs).
    destruct (foldM (element_step _ _ _ _ _) _ _) as [q2|] eqn:E2; [|discriminate]. cbn [bind] in H. injection H as <-.
    apply elements_shared in E2; [|apply Forall_forall; intros [i e] He; rewrite Forall_forall in Ha; apply Ha; now apply in_combine_r in He|assumption].
    destruct E2 as (S1 & S2 & S3 & S4). unfold global_trends. rewrite Hh. cbn [k_xtrend].
    destruct (tr_kz _) as [[? ?]|], (tr_nz _) as [[? ?]|], (tr_nx _) as [[? ?]|]; cbn; rewrite ?S1, ?S2; auto.
  - destruct (h_hydro h); [|discriminate]. apply homogeneous_loop in H as [Hs _]; [apply Hs|exact initial_shared].
Qed.
Theorem C88_tensors_partial s co h g draw ae_draw st aes d : no_xtrends h aes ->
  generate_hydraulic_parameters s co h g draw ae_draw imported_names st aes = Ok d ->
  forall c, In c (cells s) -> forall i j, (i < 3)%nat -> (j < 3)%nat ->
  d_tensors d c i j = documented_tensor (d_k d c) (d_ratio d c) (radians (g_azim g c)) (radians (g_dip g c)) i j.
Proof.
  intros Hx H c Hc i j Hi Hj. unfold generate_hydraulic_parameters in H.
  destruct (assign_parameters _ _ _ _ _ _ _ _) as [p|] eqn:E; [|discriminate]. cbn [bind] in H.
  destruct (set_anisotropic_ktensor _ _ _ _ _ _ _) as [kt|] eqn:Ek; [|discriminate]. cbn [bind] in H. injection H as <-. cbn [d_tensors d_k d_ratio].
  rewrite (assigned_shared _ _ _ _ _ _ _ _ _ Hx E). exact (C52_documented_tensor_partial _ _ _ _ _ _ _ Ek c Hc i j Hi Hj).
Qed.
(** False with a trend in x. *)
Theorem C88_xtrend_refuted : exists d,
  generate_hydraulic_parameters one line3 (two_facies (mkTrends None (Some (2, 2)) None (Some (1, 1))) None) (one_cell 0) quiet ae_quiet imported_names (mkSettings true Internal true) [] = Ok d /\
  In (0, 0, 0)%nat (cells one) /\
  d_tensors d (0, 0, 0)%nat 0%nat 0%nat <>
  documented_tensor (d_k d (0, 0, 0)%nat) (d_ratio d (0, 0, 0)%nat) (radians (g_azim (one_cell 0) (0, 0, 0)%nat)) (radians (g_dip (one_cell 0) (0, 0, 0)%nat)) 0%nat 0%nat.
Proof.
  destruct C56_xtrend_refuted as (p & H & Hk & E). unfold generate_hydraulic_parameters. rewrite H. cbn [bind].
  destruct (C53_completes_partial one (fun _ _ _ => 0) (p_k p) (fun c => g_azim (one_cell 0) c * PI / 180) (fun c => g_dip (one_cell 0) c * PI / 180) (p_anirat p)) as (kt & Ek & _).
  rewrite Ek. cbn [bind]. eexists. split; [reflexivity|]. cbn [d_ratio d_k d_tensors].
  assert (Hc : In (0, 0, 0)%nat (cells one)) by (apply in_cells; cbn; lia). split; [assumption|].
  rewrite (C52_documented_tensor_partial _ _ _ _ _ _ _ Ek _ Hc 0%nat 0%nat) by lia. fold (radians (g_azim (one_cell 0) (0, 0, 0)%nat)). fold (radians (g_dip (one_cell 0) (0, 0, 0)%nat)).
  rewrite !documented_normal by lia. cbn [one_cell g_azim g_dip Nat.eqb]. unfold radians, rotation. replace (0 * PI / 180) with 0 by field.
  rewrite sin_0, cos_0, E. lra.
Qed.
(** As written nothing is stored: every model with at least one cell fails. *)
Theorem C88_name_error_refuted s co h g draw ae_draw st aes : (0 < cx s)%nat -> (0 < cy s)%nat -> (0 < cz s)%nat ->
  exists e, generate_hydraulic_parameters s co h g draw ae_draw optimized_names st aes = Err e.
Proof.
  intros Hx Hy Hz. unfold generate_hydraulic_parameters. destruct (assign_parameters _ _ _ _ _ _ _ _) as [p|]; cbn [bind]; [|eauto].
  rewrite C53_name_error_refuted by assumption. cbn [bind]. eauto.
Qed.

(** ** Examples *)

(** Two cells on top of each other, the lower one in object 0 and element 0,
    the upper one in object 1 and element 1; facies 0 and 1. *)
Definition tower2 : shape := (1, 1, 2)%nat.
Definition layered : geology :=
  mkGeology (fun c => Z.of_nat (cz c)) (fun c => Z.of_nat (cz c)) (fun c => Z.of_nat (cz c)) (fun _ => 0) (fun _ => 0).
Lemma layered_ok : facies_ok tower2 layered 2.
Proof. intros c Hc. apply in_cells in Hc. cbn in *. lia. Qed.

Example C54_example : exists p,
  assign_parameters tower2 line3 (two_facies no_trends None) layered quiet ae_quiet (mkSettings true FaciesLevel true) [] = Ok p /\
  p_k p (0, 0, 0)%nat = 1 /\ p_k p (0, 0, 1)%nat = 2.
Proof.
  destruct (C54_never_fails tower2 line3 (two_facies no_trends None) layered quiet ae_quiet true [] 2) as (p & H); [apply two_complete|apply layered_ok|].
  exists p. split; [exact H|].
  destruct (C54_stored _ _ _ _ _ _ _ _ _ H) as [E _]. 
  destruct (C54_facies_level _ _ _ _ _ _ _ _ _ H (0, 0, 0)%nat) as ((_ & E1) & _); [apply in_cells; cbn; lia|cbn; lia|].
  destruct (C54_facies_level _ _ _ _ _ _ _ _ _ H (0, 0, 1)%nat) as ((_ & E2) & _); [apply in_cells; cbn; lia|cbn; lia|].
  rewrite E in E1, E2. cbn [g_fac layered cz fst snd Z.of_nat Z.to_nat Pos.to_nat Pos.of_succ_nat nth_error two_facies h_k Pos.iter_op Nat.add] in E1, E2. injection E1 as E1. injection E2 as E2. now split; symmetry.
Qed.
Example C57_example : exists p,
  assign_parameters tower2 line3 (two_facies no_trends (Some 2%nat)) layered quiet ae_quiet (mkSettings false Internal true) [] = Ok p /\
  p_stored_k p (0, 0, 0)%nat = 1 /\ p_stored_k p (0, 0, 1)%nat = 2.
Proof. eexists. split; [reflexivity|]. split; reflexivity. Qed.

(** The trend of the lower element triples the conductivity of the upper one. *)
Definition lower (t : trends) : element := mkElement 0 0 t.
Definition upper : element := mkElement 1 1 no_trends.
Theorem C83_other_element_refuted : exists p p0,
  assign_parameters tower2 line3 (two_facies no_trends None) layered quiet ae_quiet (mkSettings true Internal true) [lower (mkTrends (Some (1, 3)) None None None); upper] = Ok p /\
  assign_parameters tower2 line3 (two_facies no_trends None) layered quiet ae_quiet (mkSettings true Internal true) [lower no_trends; upper] = Ok p0 /\
  g_ae layered (0, 0, 1)%nat = a_num upper /\ 0 < p_k p0 (0, 0, 1)%nat /\ p_k p (0, 0, 1)%nat = 3 * p_k p0 (0, 0, 1)%nat.
Proof.
  destruct (C55_never_fails tower2 line3 (two_facies no_trends None) layered quiet ae_quiet true [lower (mkTrends (Some (1, 3)) None None None); upper] 2) as (p & H).
  - apply two_complete.
  - apply layered_ok.
  - intros e [<-|[<-|[]]]; cbn; lia.
  - exists p. destruct (C83_whole_grid_refuted _ _ _ _ _ _ _ [] (lower (mkTrends (Some (1, 3)) None None None)) [upper] _ H) as (p0 & H0 & fz & fx & Hz & Hx & F).
    + exists (0, 0, 0)%nat. split; [apply in_cells; cbn; lia|]. split; reflexivity.
    + intros e' [<-|[]] (c & _ & A1 & A2). cbn in A1, A2. lia.
    + exists p0. split; [exact H|]. split; [exact H0|]. split; [reflexivity|]. split.
      * apply (C58_positive _ _ _ _ _ _ _ _ _ 2 H0); cbn; try discriminate.
        -- apply layered_ok.
        -- repeat constructor; lra.
        -- split; exact I.
        -- intros e [<-|[<-|[]]]; split; exact I.
        -- now right; left.
      * rewrite F. cbn in Hz, Hx. destruct Hz as (_ & Hz & _). cbn [cx cy cz fst snd tower2 Nat.sub] in Hz |- *. rewrite Hz, Hx by lia. ring.
Qed.
(** The trend of an element without the first object is ignored. *)
Example C83_ignored :
  assign_parameters tower2 line3 (two_facies no_trends None) layered quiet ae_quiet (mkSettings true Internal true) [mkElement 1 1 (mkTrends (Some (1, 3)) None None None)] =
  assign_parameters tower2 line3 (two_facies no_trends None) layered quiet ae_quiet (mkSettings true Internal true) [mkElement 1 1 no_trends].
Proof.
  unfold assign_parameters. cbn [s_het s_level List.length seq combine foldM].
  destruct (foldM (object_step _ _ _ _ _ _) _ _) as [q|]; [|reflexivity]. cbn [bind].
  rewrite !no_object_step; [reflexivity| |]; intros (c & _ & A1 & A2); cbn in A1, A2; lia.
Qed.

Print Assumptions C54_facies_level.
Print Assumptions C55_ratio_partial.
Print Assumptions C55_ratio_refuted.
Print Assumptions C56_xtrend_not_stored_refuted.
Print Assumptions C56_xtrend_refuted.
Print Assumptions C56_ztrend_stored_partial.
Print Assumptions C57_key_error_refuted.
Print Assumptions C57_homogeneous_partial.
Print Assumptions C58_positive.
Print Assumptions C83_whole_grid_refuted.
Print Assumptions C83_other_element_refuted.
Print Assumptions C84_trends_ignored_refuted.
Print Assumptions C85_porosity_trends_refuted.
Print Assumptions C86_setting_ignored_refuted.
Print Assumptions C86_isotropic_refuted.
Print Assumptions C87_facies_level_partial.
Print Assumptions C87_negative_porosity_refuted.
Print Assumptions C88_tensors_partial.
Print Assumptions C88_xtrend_refuted.
Print Assumptions C88_name_error_refuted.
