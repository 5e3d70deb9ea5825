(** C125: files with troughs placed by hand. *)
From Coq Require Import List ZArith Bool Ascii String Reals Lia Lra Sorted.
From Verif Require Import Base Num ParseModel ConfigModel ConfigSpec ConfigProofs2 ConfigProps DeprecatedModel DeprecatedSpec
  SurfaceModel SurfaceSpec SurfaceProps StrataModel StrataSpec AssignModel AssignSpec AssignProps BuildModel FaciesModel TroughModel TroughSpec TroughProofs TroughProps ChannelProps SheetModel ChannelModel FullModel FullSpec FullProofs4 FullProps LinkModel LinkSpec LinkProofs LinkProps LinkExamples ChannelProps2 SizeSpec SizeProps SizeExamples PlaceSpec PlaceProps.
Import ListNotations.
Local Open Scope string_scope.
Local Open Scope R_scope.

(** The trough of the file of C113 at (0, 0, 8). *)
Example C125_example : exists sec, section_of sz_cf 0 sz_ae sec /\ centres_are lk_fin sec [sz_trough_made] /\
  tr_x sz_trough_made = 0 /\ tr_y sz_trough_made = 0 /\ tr_z sz_trough_made = 8.
Proof.
  destruct (C125_placed lk_fin lk_nan sz_cf sz_linked 5 sz_draws lk_st sz_strata sz_link ltac:(repeat constructor) sz_runs 0 _ 0 sz_ae [sz_trough_made] eq_refl eq_refl eq_refl)
    as (sec & H1 & H2). exists sec. split; [assumption|]. split; [|repeat split].
  destruct H2 as [H2|H2]; [exfalso|assumption].
  destruct H1 as (n & cm & t & names & (w & l & W1 & W2 & W3 & W4) & T1 & T2 & T3).
  unfold has in W1. vm_compute in W1. injection W1 as <-. cbn in W2. injection W2 as <-. cbn in W4. injection W4 as <-. cbn in T1. injection T1 as <-. cbn in T2. injection T2 as <-.
  destruct T3 as [T3|[T3|[]]]; apply pair_equal_spec in T3 as [T3 T4]; [discriminate|]. apply pair_equal_spec in T4 as [<- _]. discriminate H2.
Qed.

(** *** Centres that are not sorted from the top down

    The second trough has its centre at 10 m, the first one at 6 m. *)
Definition od_section :=
  (S_ "scour", [kv "geometry" "trough"; kv "structure" "massive"; kv "contact_model" "[flat]"; kv "facies" "[sand]";
     kv "length" "4"; kv "width" "2"; kv "depth" "3"; kv "te_xyz" "[[0, 0, 6], [0, 0, 10]]"; kv "paleoflow" "[0, 0]";
     kv "azimuth" "[0, 0]"; kv "dip" "[0, 6]"; kv "buffer" "0"; kv "agg" "1"; kv "trough_density" "1"; kv "lag_height" "0"]).
Definition od_cf : config Z := Eval vm_compute in match parse_inifile toyf (sz_file "scour" od_section) with Ok c => c | Err _ => mkConfig [] [] [] [] [] [] [] end.
Lemma od_parse : parse_inifile toyf (sz_file "scour" od_section) = Ok od_cf.
Proof. vm_compute. reflexivity. Qed.
Definition od_tp : trough_params := mkTP 4 2 3 None (0, 0) sz_tt.
Definition od_type : full_type :=
  mkFT 1 (mkContact (S_ "flat") None None) (mkBg None None None) (PTroughs od_tp 0 1 false (Some [(0, 0, 6); (0, 0, 10)])).
Definition od_linked : linked :=
  mkLinked fx_grid (mkDomain false 1 1) [mkContact (S_ "flat") (Some 5) None]
    [mkFP [lk_type 0 0] 0 (mkSbg 1%Z (Some 0) (Some 0)); mkFP [od_type] 0 (mkSbg 0%Z (Some 0) (Some 0))].
Lemma od_link : link lk_fin lk_nan od_cf = Ok od_linked.
Proof. lazy -[IZR grid_init NumR fx_grid]. rewrite fx_grid_ok. reflexivity. Qed.
Definition od_draw : R * trough_draw := (1/3, mkTD 0 0 0 (1/2) 0 (fun n => n)).
Definition od_od : object_draws := mkOD [] [] [od_draw; od_draw] [] (fun _ => []).
Definition od_made (z : R) : trough :=
  match make_trough od_tp fx_grid (0, 0, z) od_draw with
  | Ok t => t | Err _ => mkTrough 0 0 0 0 0 0 0 0 0 0 0 0 0 0 0 0 0 0 0 0 0 0 0 [] end.
Lemma od_size z : tr_zmin (od_made z) = z - 3 /\ tr_zmax (od_made z) = z /\ tr_a (od_made z) = 2 /\ tr_b (od_made z) = 1 /\ tr_c (od_made z) = 3.
Proof. cbn. unfold two. numR. repeat split; try field; reflexivity. Qed.
Definition od_ae : ae R :=
  mkAE 1 0 (tr_zmin (od_made 6)) 10 (map (fun z => mkObject (tr_zmin (od_made z)) (tr_zmax (od_made z)) None) [6; 10]) [([], []); ([], [])] 0 (Some 0) (Some 0) 0.
Lemma od_full_ae : full_ae fx_grid 5 [flatS 10; flatS 5] od_type 0 (mkSbg 0 (Some 0) (Some 0)) 1 0 od_od =
  Ok ([flatS 10; flatS 5], (od_ae, OTroughs [od_made 6; od_made 10])).
Proof.
  unfold full_ae. change (getS [flatS 10; flatS 5] 1) with (Ok (flatS 5)). change (getS [flatS 10; flatS 5] 0) with (Ok (flatS 10)). cbn [bind od_type ft_kind].
  assert (E : make_objects fx_grid 5 (PTroughs od_tp 0 1 false (Some [(0, 0, 6); (0, 0, 10)])) (flatS 5) (flatS 10) od_od = Ok (OTroughs [od_made 6; od_made 10])) by reflexivity.
  rewrite E. cbn [bind extents map].
  unfold new_ae. change (getS [flatS 10; flatS 5] 1) with (Ok (flatS 5)). change (getS [flatS 10; flatS 5] 0) with (Ok (flatS 10)). cbn [bind].
  cbn [base_type t_geometry ft_kind map fold_left add_object fst snd flatS zmin zmax ob_zmin ob_zmax].
  destruct (od_size 6) as (A1 & A2 & _). destruct (od_size 10) as (B1 & B2 & _). unfold od_ae. cbn [map].
  generalize dependent (tr_zmin (od_made 6)). intros a Ha. generalize dependent (tr_zmax (od_made 6)). intros b Hb.
  generalize dependent (tr_zmin (od_made 10)). intros c Hc. generalize dependent (tr_zmax (od_made 10)). intros d Hd.
  numR. destruct (Rleb_spec 5 a); [lra|]. destruct (Rleb_spec b 10); [|lra]. cbn [negb]. 
  destruct (Rleb_spec a c); [|lra]. destruct (Rleb_spec d 10); [|lra]. reflexivity.
Qed.

(** The topmost cell of the first tower. *)
Lemma top_cell {D} (m : list (astrat R D)) x y z zs d :
  assign_points m [x] [y] (zs ++ [z])%list d 0 0 (List.length zs) = Some (cell_of (snd (fst (assign_cell m (mkPoint x y z 0 0) (0, 0, 0)%nat d)))).
Proof.
  unfold assign_points. cbn [List.length combine seq flat_map map Nat.mul Nat.add app grid_towers fst snd]. unfold tower_points. rewrite rev_app_distr. cbn [rev app map towers].
  rewrite app_length. cbn [List.length]. replace (List.length zs + 1 - 1 - List.length zs)%nat with 0%nat by lia.
  cbn [tower]. destruct (assign_cell m _ _ d) as [[d1 r] c]. destruct (tower m _ c d1). reflexivity.
Qed.

(** The search in an element stops at the first object that lies below the cell. *)
Lemma stops_early {D} (s : astrat R D) m (e : aelem R D) es ob obs (p : point R) d :
  t_aes s = e :: es -> e_objs e = ob :: obs -> t_zmin s <= p_z p -> e_zmin e <= p_z p -> o_zmax ob < p_z p ->
  e_sheet e = false -> e_bottom e (p_xi p) (p_yi p) < p_z p -> p_z p < e_top e (p_xi p) (p_yi p) -> e_bg_facies e <> (-1)%Z ->
  assign_cell (s :: m) p (0, 0, 0)%nat d =
    (d, Some (mkIds (e_bg_facies e) (e_num e) (-1) (e_type e) (e_bg_azim e) (e_bg_dip e), 0%nat), (0, 0, 0)%nat).
Proof.
  intros H1 H2 H3 H4 H5 H6 H7 H8 H9. unfold assign_cell. cbn [skipn scan_strata]. numR.
  destruct (Rleb_spec (t_zmin s) (p_z p)); [|lra]. cbn [negb]. unfold assign_stratum. rewrite H1. cbn [skipn scan_aes]. numR.
  destruct (Rleb_spec (e_zmin e) (p_z p)); [|lra]. cbn [negb]. unfold assign_ae. rewrite H2, H6. cbn [skipn scan_objs]. numR.
  destruct (Rleb_spec (p_z p) (o_zmax ob)); [lra|]. cbn [negb].
  destruct (Rleb_spec (p_z p) (e_bottom e (p_xi p) (p_yi p))); [lra|]. destruct (Rleb_spec (e_top e (p_xi p) (p_yi p)) (p_z p)); [lra|]. cbn [negb andb reset i_ha].
  unfold found. cbn [i_facies]. apply Z.eqb_neq in H9. rewrite H9. cbn [negb i_facies]. rewrite H9. reflexivity.
Qed.

Theorem C125_order_refuted : exists (cf : config Z) lk draws st strata fs (e : ae R) o x y z v,
  parse_inifile toyf (sz_file "scour" od_section) = Ok cf /\ link lk_fin lk_nan cf = Ok lk /\
  Forall (fsd_ok (columns (lk_grid lk))) draws /\ generate lk 5 draws = Ok (st, strata) /\
  nth_error (g_x (lk_grid lk)) 0 = Some x /\ nth_error (g_y (lk_grid lk)) 0 = Some y /\ nth_error (g_z (lk_grid lk)) 9 = Some z /\
  nth_error strata 0 = Some fs /\ nth_error (s_aes (fst fs)) 0 = Some e /\ nth_error (snd fs) 0 = Some o /\
  lies_in o (mkPoint x y z 0 0) /\
  arrays lk (fun _ _ _ => 0%Z) st strata 0 0 9 = Some v /\
  (* the cell is reported as background of the same element *)
  c_strata v = 0%Z /\ c_ae v = 0%Z /\ c_ha v = (-1)%Z /\ c_facies v = ae_bg_facies e.
Proof.
  destruct (up_runs od_type od_od _ _ od_full_ae) as (a & b & Hg).
  exists od_cf, od_linked, (up_draws od_od). eexists _, _, _, od_ae, _, (1/2), (1/2), (1/2 + INR 9), _.
  split; [exact od_parse|]. split; [exact od_link|]. split; [repeat constructor|]. split; [exact Hg|].
  split; [reflexivity|]. split; [reflexivity|]. split; [reflexivity|]. split; [reflexivity|]. split; [reflexivity|]. split; [reflexivity|].
  assert (Ez : 1/2 + INR 9 = 19/2) by (cbn; lra).
  split.
  { exists (od_made 10). split; [right; left; reflexivity|]. exists 0. destruct (od_size 10) as (_ & _ & A1 & A2 & A3). rewrite A1, A2, A3.
    assert (Es : TroughModel.uniform 0 0 (1/3) = 0) by (unfold TroughModel.uniform; numR; field).
    split; [change (tr_sin (od_made 10)) with (sin (TroughModel.deg (TroughModel.uniform 0 0 (1/3)))); now rewrite Es|].
    split; [change (tr_cos (od_made 10)) with (cos (TroughModel.deg (TroughModel.uniform 0 0 (1/3)))); now rewrite Es|].
    change (tr_x (od_made 10)) with 0. change (tr_y (od_made 10)) with 0. change (tr_z (od_made 10)) with 10. cbn [p_x p_y p_z]. rewrite Ez.
    split; [lra|]. exists (1/4), (1/2), (-1/6). unfold radians. replace (0 * PI / 180) with 0 by field. rewrite sin_0, cos_0. repeat split; lra. }
  destruct (wf_strata _ _ _ _ _ _ _ Hg ltac:(repeat constructor)) as [_ Hw]. inversion Hw as [|? ? (_ & _ & Hlo & _) _]; subst. cbn [fst s_bottom s_zmin] in Hlo.
  assert (Ha : a <= 5) by (apply (Hlo 0%nat 5); reflexivity). clear Hlo Hw.
  split.
  { unfold arrays, full_arrays. change (g_z (lk_grid od_linked)) with ((map (fun i => 1/2 + INR i) (seq 0 9)) ++ [1/2 + INR 9])%list.
    change 9%nat with (List.length (map (fun i => 1/2 + INR i) (seq 0 9))) at 3. rewrite Ez.
    apply top_cell. }
  destruct (od_size 6) as (S1 & S2 & _).
  match goal with |- context [assign_cell ?m ?p ?c ?d] => assert (Ec : assign_cell m p c d = (d, Some (mkIds 0 0 (-1) 1 (Some 0) (Some 0), 0%nat), c)) end.
  { cbn [map fst to_model]. etransitivity; [eapply stops_early; [reflexivity|reflexivity| | | |reflexivity| | |discriminate]|reflexivity]; cbn [p_z t_zmin s_zmin e_zmin to_aelem od_ae ae_zmin o_zmax ob_zmax].
    - lra.
    - rewrite S1. lra.
    - rewrite S2. lra.
    - change (5 < 19/2). lra.
    - change (19/2 < 10). lra. }
  rewrite Ec. cbn. auto.
Qed.
Print Assumptions C125_order_refuted.

(** The cell at 7.5 m in the channel of the model of C34. *)
Example C125_example_shown : exists v,
  full_arrays (flat 1 1) fx_cg (fun _ _ _ => 0%Z) fx_params fx_st0 fx_strata (g_x fx_grid) (g_y fx_grid) (g_z fx_grid) 0 0 7 = Some v /\
  c_strata v = 0%Z /\ (c_ae v < 0 \/ c_ae v = 0 /\ c_ha v = 0)%Z.
Proof.
  pose proof z5_eq as H5. assert (Hz : forall z, In z (g_z fx_grid) -> exists i, (i < 10)%nat /\ z = 1 / 2 + INR i).
  { intros z H. apply in_map_iff in H as (i & <- & H). apply in_seq in H. exists i. split; [lia|reflexivity]. }
  assert (Hc : lies_in (OChannels [fx_channel]) (mkPoint (1/2) (1/2) (1/2 + INR 7) 0 0)).
  { exists fx_channel. split; [now left|]. unfold in_channel. cbn [fx_channel ch_line ch_width ch_depth ch_ztop p_x p_y p_z]. replace (INR 7) with 7 by (cbn; lra).
    split; [lra|]. exists (mkCP 0 0 1 0). split; [now left|]. cbn [cp_x cp_y]. split; [|lra]. intros q [<-|[<-|[]]]; cbn [cp_x cp_y]; lra. }
  destruct (C125_shown_partial 0 0 0 1 1 1 1 1 10 fx_grid 5 [] fx_params fx_draws fx_st0 fx_strata (flat 1 1) (fun _ _ _ => 0%Z) fx_grid_ok) with
    (xi := 0%nat) (yi := 0%nat) (zi := 7%nat) (x := 1/2) (y := 1/2) (z := 1/2 + INR 7) (si := 0%nat) (ei := 0%nat) (fs := nth 0 fx_strata (mkStratum 0 0 0 0 [], [])) (e := fx_ae1) (o := OChannels [fx_channel])
    as (v & Hv & K); try lra; try reflexivity; auto.
  - repeat constructor.
  - discriminate.
  - exact fx_runs.
  - exact fx_sensible.
  - discriminate.
  - repeat constructor; discriminate.
  - apply Forall_forall. intros v Hv. destruct (Hz v Hv) as (i & Hi & ->). assert (INR (S i) <= INR 10) by (apply le_INR; lia). rewrite S_INR in H. replace (INR 10) with 10 in H by (cbn; lra). lra.
  - intros k a v Hv Hk. apply fx_col in Hk as [Hk _]. destruct (Hz v Hv) as (i & Hi & ->).
    do 10 (destruct i as [|i]; [cbn in Hk; lra|]). lia.
  - exists v. split; [exact Hv|]. destruct C34_generated_example_cell as (v' & Hv' & _ & _ & E1 & _). fold fx_cg in Hv. change (mkCGrid _ _ 1) with fx_cg in Hv.
    rewrite Hv' in Hv. injection Hv as <-. split; [exact E1|]. rewrite E1 in K. destruct K as [K|[_ K]]; [discriminate K|exact K].
Qed.
