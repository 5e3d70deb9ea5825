(** C145: what lies above a contact surface. *)
From Coq Require Import List ZArith Bool Ascii String Reals Lra Lia.
From Verif Require Import Base Num ParseModel ConfigModel FaciesModel SurfaceModel SurfaceSpec SurfaceProofs StrataModel AssignModel AssignSpec BuildModel TensorModel TroughModel SheetModel SheetSpec ChannelModel FullModel
  FullSpec StrataProofs FullProofs TroughProps FullProps AboveSpec AboveProofs.
Import ListNotations.
Local Open Scope R_scope.

(** Full property: the strata above a contact surface do not depend on the
    settings of what lies below it.  Two models on the same grid agree in the
    settings of their k uppermost strata, in the contacts between and below
    them and in what is drawn for them; each has at least one more stratum.
    Then the k uppermost strata, their elements and objects are the same, and
    so are the elevations of their surfaces; and a cell that shows one of these
    strata in one model shows the same in the other.  For the cells the
    conditions of C34 are needed. *)
Theorem C145_above_partial (x0 y0 z0 dx dy dz lx ly lz : R) g fuel contacts contacts' params params' draws draws' k st strata st' strata' :
  grid_init x0 y0 z0 dx dy dz lx ly lz = Ok g ->
  same_last k contacts contacts' -> same_last k params params' -> same_first k draws draws' ->
  (k < List.length params)%nat -> (k < List.length params')%nat ->
  Forall (fsd_ok (columns g)) draws -> Forall (fsd_ok (columns g)) draws' ->
  full_generate g fuel contacts params draws = Ok (st, strata) ->
  full_generate g fuel contacts' params' draws' = Ok (st', strata') ->
  same_first k strata strata' /\
  (forall si fs a c, (si < k)%nat -> nth_error strata si = Some fs -> surface_of fs a -> col st' a c = col st a c) /\
  (0 < dx -> 0 < dy -> 0 < dz ->
   sensible g params draws st strata -> sensible g params' draws' st' strata' ->
   ((forall fp ft, In fp (params ++ params') -> In ft (fp_types fp) -> ~ is_channels ft) \/ dy <= 1) ->
   Forall (fun fs : full_stratum => s_aes (fst fs) <> []) (strata ++ strata') ->
   Forall (fun z => z <= lz) (g_z g) ->
   (forall c a z, In z (g_z g) -> col st a c <> Some z /\ col st' a c <> Some z) ->
   forall dm wild, (forall num oi p, wild num oi p <> (-1)%Z) ->
   let cg := mkCGrid (List.length (g_x g)) (List.length (g_y g)) dx in
   forall xi yi zi v, (xi < List.length (g_x g))%nat -> (yi < List.length (g_y g))%nat -> (zi < List.length (g_z g))%nat ->
   full_arrays dm cg wild params st strata (g_x g) (g_y g) (g_z g) xi yi zi = Some v -> (c_strata v < Z.of_nat k)%Z ->
   full_arrays dm cg wild params' st' strata' (g_x g) (g_y g) (g_z g) xi yi zi = Some v).
Proof.
  intros G HC HP (D & E & E' & -> & -> & HD) Hk Hk' Hd Hd' R1 R2.
  assert (W0 : wf (columns g) ([] ++ [mkSurface (repeat (g_lz g) (columns g)) (g_lz g) (g_lz g) (g_lz g)])).
  { apply (wf_alloc (columns g) []); [apply Forall_nil|apply repeat_length|apply flat_bounded]. }
  pose proof R1 as Q1. pose proof R2 as Q2. unfold full_generate in Q1, Q2. apply bind_Ok in Q1 as (s & Hs & Q1). apply flat_surface in Hs as ->.
  apply bind_Ok in Q2 as (s & Hs & Q2). apply flat_surface in Hs as ->. cbn [alloc List.length] in Q1, Q2.
  destruct (proj1 (Forall_app _ _ _) Hd) as [HdD HdE]. destruct (proj1 (Forall_app _ _ _) Hd') as [_ HdE'].
  assert (T0 : (0 < List.length ([] ++ [mkSurface (repeat (g_lz g) (columns g)) (g_lz g) (g_lz g) (g_lz g)]))%nat) by (cbn; lia).
  destruct (full_prefix g fuel contacts contacts' params params' _ _ k HC HP Hk Hk' D E E' 0 _ 0%nat [] _ _ HD W0 T0 HdD (Forall_nil _) (Forall_nil _) eq_refl Q1 Q2)
    as (stk & topk & P & Wk & Tk & Ik & Nk & Lk & P1 & P2).
  apply full_keeps in P1 as [K1 (N & ->)]; [|assumption..]. apply full_keeps in P2 as [K2 (N' & ->)]; [|assumption..].
  split; [exists P, N, N'; auto|]. split.
  - intros si fs a c Hsi Hfs Ha. rewrite nth_error_app1 in Hfs by lia. apply nth_error_In in Hfs. rewrite Forall_forall in Ik. specialize (Ik fs Hfs a Ha).
    rewrite (same_col stk st a c (K1 a Ik)). exact (same_col stk st' a c (K2 a Ik)).
  - intros Hdx Hdy Hdz S1 S2 Hch Hae Hz Hc dm wild Hw cg xi yi zi v Hx Hy Hzi Hv Hsk.
    destruct (nth_error (g_x g) xi) as [x|] eqn:Ex; [|apply nth_error_None in Ex; lia]. destruct (nth_error (g_y g) yi) as [y|] eqn:Ey; [|apply nth_error_None in Ey; lia].
    destruct (nth_error (g_z g) zi) as [z|] eqn:Ez; [|apply nth_error_None in Ez; lia]. apply Forall_app in Hae as [Hae1 Hae2].
    destruct (C34_generated_partial x0 y0 z0 dx dy dz lx ly lz g fuel contacts params (D ++ E) st (P ++ N) dm wild G Hdx Hdy Hdz Hd) with (xi := xi) (yi := yi) (zi := zi) (x := x) (y := y) (z := z)
      as (i & si & A1 & A2); auto.
    { intros ->. cbn in Hk. lia. }
    { destruct Hch as [Hch|Hch]; [left|now right]. intros fp ft Hf. apply Hch. apply in_or_app. now left. }
    { intros c a u Hu. apply (Hc c a u Hu). }
    destruct (C34_generated_partial x0 y0 z0 dx dy dz lx ly lz g fuel contacts' params' (D ++ E') st' (P ++ N') dm wild G Hdx Hdy Hdz Hd') with (xi := xi) (yi := yi) (zi := zi) (x := x) (y := y) (z := z)
      as (i' & si' & B1 & B2); auto.
    { intros ->. cbn in Hk'. lia. }
    { destruct Hch as [Hch|Hch]; [left|now right]. intros fp ft Hf. apply Hch. apply in_or_app. now right. }
    { intros c a u Hu. apply (Hc c a u Hu). }
    fold cg in A1, A2, B1, B2. rewrite A2 in Hv. injection Hv as <-. cbn in Hsk. rewrite B2. do 2 f_equal.
    assert (Hsi : (si < k)%nat) by lia.
    pose proof (search_prefix _ dm cg wild params params' k stk st st' P N N' _ _ i si HP Lk Ik K1 K2 Nk A1 Hsi) as F. pose proof (eq_trans (eq_sym F) B1) as X. now injection X as <- <-.
Qed.
Print Assumptions C145_above_partial.

(** Sheets of facies 5 above 5 m; below one stratum of facies 6, or two of
    facies 6 and 7.  The cell at 7.5 m is the same in both. *)
Definition ab_type (f : Z) : full_type := mkFT 9 (mkContact (S_ "flat") None None) (mkBg None None None) (PSheets (-1) None (mkSheetType (S_ "massive") [f] None (0, 0) (0, 0) 0)).
Definition ab_params (f : Z) : full_params := mkFP [ab_type f] 0 (mkSbg 8%Z None None).
Definition ab_draws : full_stratum_draws := mkFSD [0] 0 [mkFD 10 1 0 0 [0] fx_od].
Definition ab_contact (z : R) : contact R := set_z (mkContact (S_ "flat") None None) z.
Definition ab_sheet (f : Z) : sheet := mkSheet false 0 0 0 0 0 (uniform 0 0 0) (uniform 0 0 0) f 0 [].
Definition ab_stratum (f : Z) (b t : nat) (zb zt : R) : full_stratum :=
  (mkStratum b t zb zt [mkAE b t zb zt [mkObject zb zt (Some (b, t))] [([zb], [zt])] 8 None None 0], [OSheets [ab_sheet f]]).

Lemma upd_same {A} (l : list A) k a : nth_error l k = Some a -> upd l k a = l.
Proof. revert k. induction l as [|x l IH]; intros [|k]; cbn; try discriminate; [congruence|]. intros H. now rewrite IH. Qed.
Lemma ab_lower st b t zb zt : getS st b = Ok (flatS zb) -> getS st t = Ok (flatS zt) -> zb <= zt -> use_lower st b t = Ok st.
Proof.
  intros Hb Ht Hz. unfold use_lower. rewrite Hb, Ht. cbn [bind flatS vals zip_with]. numR. destruct (Rleb_spec zb zt); [|lra]. cbn. apply getS_Ok in Hb. now rewrite upd_same.
Qed.
Lemma ab_higher st b t zb zt : getS st b = Ok (flatS zb) -> getS st t = Ok (flatS zt) -> zt <= zb -> use_higher st b t = Ok st.
Proof.
  intros Hb Ht Hz. unfold use_higher. rewrite Hb, Ht. cbn [bind flatS vals zip_with]. numR. destruct (Rleb_spec zt zb); [|lra]. cbn. apply getS_Ok in Hb. now rewrite upd_same.
Qed.
Lemma ab_ae f st b t zb zt : getS st b = Ok (flatS zb) -> getS st t = Ok (flatS zt) -> zb < zt ->
  full_ae fx_grid 5 st (ab_type f) 0 (mkSbg 8%Z None None) b t fx_od = Ok (st, (mkAE b t zb zt [mkObject zb zt (Some (b, t))] [([zb], [zt])] 8 None None 0, OSheets [ab_sheet f])).
Proof.
  intros Hb Ht Hz. unfold full_ae. rewrite Hb, Ht. cbn [bind ab_type ft_kind make_objects extents].
  unfold new_ae. rewrite Hb, Ht. cbn [bind base_type t_geometry ft_kind ab_type].
  assert (Et : sheet_thickness fx_grid (-1) None (zmin (flatS zb)) (zmax (flatS zt)) = zt - zb).
  { unfold sheet_thickness, neqb. numR. destruct (Rleb_spec (-1) (0 - 1)); [|lra]. destruct (Rleb_spec (0 - 1) (-1)); [|lra]. reflexivity. }
  rewrite Et.
  assert (El : sheet_loop 5 (columns fx_grid) st b t (zt - zb) (zmax (flatS zt) - (zt - zb)) ([], zmin (flatS zb), zmax (flatS zt)) =
    Ok (st, ([mkObject zb zt (Some (b, t))], zb, zt))).
  { cbn [sheet_loop flatS zmin zmax]. numR. destruct (Rleb_spec (zt - (zt - zb)) zb); [|lra]. cbn [negb].
    rewrite Hb, Ht. cbn [bind flatS zmin zmax add_object ob_zmin ob_zmax app]. numR.
    destruct (Rleb_spec zb zb); [|lra]. destruct (Rleb_spec zt zt); [|lra]. reflexivity. }
  numR. rewrite El. cbn [bind base_type ft_kind]. unfold mapM, copy_object. cbn [ob_surfaces]. rewrite Hb, Ht. cbn [bind].
  cbn [flatS vals ft_bg bg_facies bg_azim bg_dip].
  cbn. rewrite Hb. reflexivity.
Qed.
Lemma ab_one f st b t zb zt : getS st b = Ok (flatS zb) -> getS st t = Ok (flatS zt) -> zb < zt -> zt - zb <= 10 ->
  new_full_stratum fx_grid 5 (ab_params f) (fsd_first ab_draws) (fsd_draws ab_draws) st b t = Ok (st, ab_stratum f b t zb zt).
Proof.
  intros Hb Ht Hz Hh. unfold new_full_stratum. rewrite Hb, Ht. cbn [bind ab_draws fsd_draws fsd_first full_stratum_loop].
  rewrite Hb. cbn [bind flatS zmean]. destruct (Rleb_spec zt zb); [lra|].
  change (choose (fp_types (ab_params f)) 0) with (Ok (ab_type f)). cbn [bind fd_next]. change (choose (fp_types (ab_params f)) 0) with (Ok (ab_type f)). cbn [bind fp_avul_prob ab_params].
  assert (En2 : Rleb (next_depth 0 zt (base_draw (mkFD 10 1 0 0 [0] fx_od) [])) zb = true).
  { apply Rleb_true. unfold next_depth. cbn [base_draw d_height d_u d_avul fd_height fd_u fd_avul]. numR. destruct (Rleb_spec 1 0); lra. }
  rewrite En2. cbn [bind]. rewrite (ab_lower st b t zb zt Hb Ht) by lra. cbn [bind]. rewrite (ab_higher st b b zb zb Hb Hb) by lra. cbn [bind fd_objects fp_bg].
  cbn [ab_params fp_bg]. rewrite (ab_ae f st b t zb zt Hb Ht Hz). cbn [bind fst ae_zmin ae_zmax app]. rewrite Hb. cbn [bind flatS zmean]. destruct (Rleb_spec zb zb); [|lra]. cbn [bind map fst snd zmin zmax].
  unfold ab_stratum. cbn [flatS zmin zmax ae_zmin ae_zmax fst]. destruct (Rltb zb zb), (Rltb zt zt).
  all: reflexivity.
Qed.

Definition ab_st : store R := [flatS 10; flatS 5; flatS 0].
Definition ab_strata : list full_stratum := [ab_stratum 5 1 0 5 10; ab_stratum 6 2 1 0 5].
Definition ab_st' : store R := [flatS 10; flatS 5; flatS 2; flatS 0].
Definition ab_strata' : list full_stratum := [ab_stratum 5 1 0 5 10; ab_stratum 7 2 1 2 5; ab_stratum 6 3 2 0 2].
Lemma ab_runs : full_generate fx_grid 5 [ab_contact 5] [ab_params 6; ab_params 5] [ab_draws; ab_draws] = Ok (ab_st, ab_strata).
Proof.
  unfold full_generate. change (new_surface (columns fx_grid) (flat_contact (g_lz fx_grid)) []) with (Ok (flatS 10)). cbn [bind alloc app List.length full_model_loop Nat.eqb].
  change (pyget [ab_contact 5] (-1 - Z.of_nat 0)) with (Ok (ab_contact 5)). cbn [bind].
  change (new_surface (columns fx_grid) (ab_contact 5) (fsd_field ab_draws)) with (Ok (flatS 5)). cbn [bind alloc app List.length].
  rewrite (ab_lower _ _ _ 5 10) by (reflexivity || lra). cbn [bind]. change (pyget [ab_params 6; ab_params 5] (-1 - Z.of_nat 0)) with (Ok (ab_params 5)). cbn [bind].
  rewrite (ab_one 5 _ _ _ 5 10) by (reflexivity || lra). cbn [bind].
  change (new_surface (columns fx_grid) (flat_contact (g_z0 fx_grid)) []) with (Ok (flatS 0)). cbn [bind alloc app List.length].
  rewrite (ab_lower _ _ _ 0 5) by (reflexivity || lra). cbn [bind]. change (pyget [ab_params 6; ab_params 5] (-1 - Z.of_nat 1)) with (Ok (ab_params 6)). cbn [bind].
  rewrite (ab_one 6 _ _ _ 0 5) by (reflexivity || lra). reflexivity.
Qed.
Lemma ab_runs' : full_generate fx_grid 5 [ab_contact 2; ab_contact 5] [ab_params 6; ab_params 7; ab_params 5] [ab_draws; ab_draws; ab_draws] = Ok (ab_st', ab_strata').
Proof.
  unfold full_generate. change (new_surface (columns fx_grid) (flat_contact (g_lz fx_grid)) []) with (Ok (flatS 10)). cbn [bind alloc app List.length full_model_loop Nat.eqb].
  change (pyget [ab_contact 2; ab_contact 5] (-1 - Z.of_nat 0)) with (Ok (ab_contact 5)). cbn [bind].
  change (new_surface (columns fx_grid) (ab_contact 5) (fsd_field ab_draws)) with (Ok (flatS 5)). cbn [bind alloc app List.length].
  rewrite (ab_lower _ _ _ 5 10) by (reflexivity || lra). cbn [bind]. change (pyget [ab_params 6; ab_params 7; ab_params 5] (-1 - Z.of_nat 0)) with (Ok (ab_params 5)). cbn [bind].
  rewrite (ab_one 5 _ _ _ 5 10) by (reflexivity || lra). cbn [bind].
  change (pyget [ab_contact 2; ab_contact 5] (-1 - Z.of_nat 1)) with (Ok (ab_contact 2)). cbn [bind].
  change (new_surface (columns fx_grid) (ab_contact 2) (fsd_field ab_draws)) with (Ok (flatS 2)). cbn [bind alloc app List.length].
  rewrite (ab_lower _ _ _ 2 5) by (reflexivity || lra). cbn [bind]. change (pyget [ab_params 6; ab_params 7; ab_params 5] (-1 - Z.of_nat 1)) with (Ok (ab_params 7)). cbn [bind].
  rewrite (ab_one 7 _ _ _ 2 5) by (reflexivity || lra). cbn [bind].
  change (new_surface (columns fx_grid) (flat_contact (g_z0 fx_grid)) []) with (Ok (flatS 0)). cbn [bind alloc app List.length].
  rewrite (ab_lower _ _ _ 0 2) by (reflexivity || lra). cbn [bind]. change (pyget [ab_params 6; ab_params 7; ab_params 5] (-1 - Z.of_nat 2)) with (Ok (ab_params 6)). cbn [bind].
  rewrite (ab_one 6 _ _ _ 0 2) by (reflexivity || lra). reflexivity.
Qed.
Lemma ab_col a c z : col ab_st a c = Some z \/ col ab_st' a c = Some z -> z = 10 \/ z = 5 \/ z = 2 \/ z = 0.
Proof.
  intros [H|H]; unfold col, ab_st, ab_st' in H; do 4 (destruct a as [|a]; [destruct c as [|[|c]]; cbn in H; try discriminate H; injection H as <-; auto|]); destruct a; discriminate.
Qed.
Lemma ab_sensible params draws st strata : Forall (fun fp => exists f, (0 <= f)%Z /\ fp = ab_params f) params -> Forall (fun d => d = ab_draws) draws ->
  Forall (fun s => exists z, 0 <= z <= 10 /\ s = flatS z) st -> sensible fx_grid params draws st strata.
Proof.
  intros Hp Hd Hs. rewrite Forall_forall in *. exists 0, 10. split; [|split; [|split; [|split]]].
  - intros a c v H. unfold col in H. destruct (nth_error st a) as [s|] eqn:E; [|discriminate]. apply nth_error_In in E. destruct (Hs s E) as (z & Hz & ->). destruct c as [|c]; [injection H as <-; lra|destruct c; discriminate].
  - apply Forall_forall. intros s H. destruct (Hs s H) as (z & Hz & ->). cbn. lra.
  - intros sd d H1 H2. rewrite (Hd sd H1) in H2. destruct H2 as [<-|[]]. constructor.
  - intros fp ft H1 H2. destruct (Hp fp H1) as (f & Hf & ->). destruct H2 as [<-|[]]. split; [|left; repeat eexists]. cbn. split; [|exact I]. intros [H|[]]. lia.
  - intros si fs e fp ft _ _ H1 H2. assert (In fp params) as H3 by (unfold pyget in H1; destruct (pyidx _ _); [|discriminate]; destruct (nth_error params n) eqn:E; [|discriminate]; injection H1 as <-; eapply nth_error_In; eassumption).
    destruct (Hp fp H3) as (f & _ & ->). apply nth_error_In in H2. destruct H2 as [<-|[]]. exact I.
Qed.

Example C145_example : exists v,
  full_arrays (flat 1 1) fx_cg (fun _ _ _ => 0%Z) [ab_params 6; ab_params 5] ab_st ab_strata (g_x fx_grid) (g_y fx_grid) (g_z fx_grid) 0 0 7 = Some v /\
  full_arrays (flat 1 1) fx_cg (fun _ _ _ => 0%Z) [ab_params 6; ab_params 7; ab_params 5] ab_st' ab_strata' (g_x fx_grid) (g_y fx_grid) (g_z fx_grid) 0 0 7 = Some v /\
  c_facies v = 5%Z.
Proof.
  assert (G : forall z, In z (g_z fx_grid) -> exists n, (n < 10)%nat /\ z = 1/2 + INR n).
  { intros z H. apply in_map_iff in H as (n & <- & Hn). apply in_seq in Hn. exists n. split; [lia|reflexivity]. }
  assert (Gz : Forall (fun z => z <= 10) (g_z fx_grid)).
  { apply Forall_forall. intros z H. destruct (G z H) as (n & Hn & ->). assert (INR (S n) <= INR 10) as Hle by (apply le_INR; lia). rewrite S_INR in Hle. replace (INR 10) with 10 in Hle by (cbn; lra). lra. }
  assert (Gc : forall c a z, In z (g_z fx_grid) -> col ab_st a c <> Some z /\ col ab_st' a c <> Some z).
  { intros c a z H. destruct (G z H) as (n & Hn & ->). assert (K : ~ (1/2 + INR n = 10 \/ 1/2 + INR n = 5 \/ 1/2 + INR n = 2 \/ 1/2 + INR n = 0)).
    { rewrite INR_IZR_INZ. set (q := Z.of_nat n). intros Hq. assert (exists r : Z, IZR (2 * r) = IZR (1 + 2 * q)) as [r Hr].
      { rewrite plus_IZR, mult_IZR. destruct Hq as [Hq|[Hq|[Hq|Hq]]]; [exists 10%Z|exists 5%Z|exists 2%Z|exists 0%Z]; rewrite mult_IZR; lra. }
      apply eq_IZR in Hr. lia. }
    split; intros Hc; apply K; eapply ab_col; eauto. }
  assert (S1 : sensible fx_grid [ab_params 6; ab_params 5] [ab_draws; ab_draws] ab_st ab_strata).
  { apply ab_sensible; repeat constructor; try (eexists; split; [|reflexivity]; lia || lra). }
  assert (S2 : sensible fx_grid [ab_params 6; ab_params 7; ab_params 5] [ab_draws; ab_draws; ab_draws] ab_st' ab_strata').
  { apply ab_sensible; repeat constructor; try (eexists; split; [|reflexivity]; lia || lra). }
  destruct (C145_above_partial 0 0 0 1 1 1 1 1 10 fx_grid 5 [ab_contact 5] [ab_contact 2; ab_contact 5] [ab_params 6; ab_params 5] [ab_params 6; ab_params 7; ab_params 5]
    [ab_draws; ab_draws] [ab_draws; ab_draws; ab_draws] 1 ab_st ab_strata ab_st' ab_strata' fx_grid_ok) as (_ & _ & K).
  - exists [], [ab_contact 2], [ab_contact 5]. auto.
  - exists [ab_params 6], [ab_params 6; ab_params 7], [ab_params 5]. auto.
  - exists [ab_draws], [ab_draws], [ab_draws; ab_draws]. auto.
  - cbn. lia.
  - cbn. lia.
  - repeat constructor.
  - repeat constructor.
  - exact ab_runs.
  - exact ab_runs'.
  - destruct (C34_generated_partial 0 0 0 1 1 1 1 1 10 fx_grid 5 [ab_contact 5] [ab_params 6; ab_params 5] [ab_draws; ab_draws] ab_st ab_strata (flat 1 1) (fun _ _ _ => 0%Z) fx_grid_ok)
      with (xi := 0%nat) (yi := 0%nat) (zi := 7%nat) (x := 1/2) (y := 1/2) (z := 1/2 + INR 7) as (i & si & A1 & A2); try discriminate; try reflexivity; try lra; auto.
    + repeat constructor.
    + exact ab_runs.
    + repeat constructor; discriminate.
    + intros c a z Hz. apply (Gc c a z Hz).
    + assert (EX : i_facies i = 5%Z /\ si = 0%nat).
      { assert (SP : forall w, sheet_probe 1 ([5], [10]) w unmarked (mkPoint (1/2) (1/2) (1/2 + (1 + 1 + 1 + 1 + 1 + 1 + 1)) 0 0) = (unmarked, Some (w (mkPoint (1/2) (1/2) (1/2 + (1 + 1 + 1 + 1 + 1 + 1 + 1)) 0 0)))).
        { intros w. unfold sheet_probe. cbn [p_z p_xi p_yi fst snd nth Nat.add Nat.mul]. numR.
          destruct (Rleb_spec 5 (1/2 + (1 + 1 + 1 + 1 + 1 + 1 + 1))); [|lra]. destruct (Rleb_spec (1/2 + (1 + 1 + 1 + 1 + 1 + 1 + 1)) 10); [|lra]. reflexivity. }
        revert A1. cbn. unfold exhaustive, search, first at 1, search_stratum, search_ae, to_aelem, hits. cbn [t_aes first e_objs to_objs o_check ae_objects ae_copies ob_surfaces].
        numR. rewrite SP. cbn. intros X. injection X as <- <-. split; reflexivity. }
      destruct EX as [EX ->]. exists (cell_of (Some (i, 0%nat))). split; [exact A2|]. split; [|exact EX].
      refine (K _ _ _ S1 S2 _ _ Gz Gc (flat 1 1) (fun _ _ _ => 0%Z) _ 0%nat 0%nat 7%nat _ _ _ _ A2 _); try lra; try discriminate; try (cbn; lia).
      repeat constructor; discriminate.
Qed.
