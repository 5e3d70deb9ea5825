(** Properties of sheets. *)
From Coq Require Import List ZArith Bool Lia Reals Lra Psatz String.
From Verif Require Import Base Num FaciesModel FaciesSpec FaciesProofs FaciesProps SurfaceModel AssignModel TroughModel TroughSpec TroughProofs SheetModel SheetSpec.
Import ListNotations.
Local Open Scope R_scope.

Lemma trunc_bounds (x : R) : Rabs (IZR (ntrunc x)) <= Rabs x.
Proof.
  unfold ntrunc. numR. destruct (Rleb_spec 0 x) as [H|H].
  - pose proof (Int_part_spec x). assert (0 <= Int_part x)%Z by (apply le_IZR; apply IZR_le; assert (-1 < Int_part x)%Z by (apply lt_IZR; lra); lia).
    apply IZR_le in H1. rewrite !Rabs_right; lra.
  - pose proof (nceil_R_spec x). assert (nceil x <= 0)%Z by (assert (nceil x < 1)%Z by (apply lt_IZR; lra); lia).
    apply IZR_le in H1. rewrite !Rabs_left1; lra.
Qed.
Lemma trunc_near (x : R) : 0 <= x -> x - 1 < IZR (ntrunc x) <= x.
Proof.
  intros H. unfold ntrunc. numR. destruct (Rleb_spec 0 x); [|lra]. pose proof (Int_part_spec x). lra.
Qed.

(** The facts about a sheet with dipping layers: [d] is the signed distance of
    a point from the zero plane. *)
Record dip_sheet (tt : sheet_type) (g : grid R) (zc : R) (dr : sheet_draw) (sh : sheet) : Prop := {
  ds_dip : sh_dipsets sh = true;
  ds_ld : sh_layer_dist sh = st_dipset_dist tt;
  ds_shift : sh_shift sh = dot (sheet_normal (sh_azim sh) (sh_dip sh)) (middle g zc) + shd_shift dr * st_dipset_dist tt;
  ds_normal : (sh_nx sh, sh_ny sh, sh_nz sh) = sheet_normal (sh_azim sh) (sh_dip sh);
  ds_num : sh_num sh = (nceil ((Rmax (g_ly g) (g_lz g) + sh_shift sh) / st_dipset_dist tt)%R + 10)%Z;
  ds_arr : alternating_facies (sh_num sh) (st_facies tt) (st_altfacies tt) (shd_array dr) = Ok (sh_array sh) }.

Lemma max3_ly a b : max3 a a b = Rmax a b.
Proof. unfold max3. rewrite (Rmax_left a a); [reflexivity|lra]. Qed.

Lemma new_sheet_dip tt g zc dr sh :
  new_sheet tt g zc dr = Ok sh -> st_structure tt = S_ "dip" -> dip_sheet tt g zc dr sh.
Proof.
  intros H Hs. unfold new_sheet in H. rewrite Hs, pystr_eqb_refl, max3_ly in H.
  match type of H with context [alternating_facies ?n] => set (num := n) in H end.
  destruct (alternating_facies num _ _ _) as [arr|] eqn:E; [|discriminate]. cbn [bind] in H. injection H as <-.
  split; cbn; auto; reflexivity.
Qed.

(** The signed distance of a cell from the zero plane of the layers. *)
Definition plane_distance (tt : sheet_type) (g : grid R) (zc : R) (dr : sheet_draw) (sh : sheet) (p : point R) : R :=
  dot (sheet_normal (sh_azim sh) (sh_dip sh)) (p_x p - (g_x0 g + g_lx g / 2), p_y p - (g_y0 g + g_ly g / 2), p_z p - zc)
  - shd_shift dr * st_dipset_dist tt.

Lemma layer_distance tt g zc dr sh p : dip_sheet tt g zc dr sh ->
  sheet_layer sh p = (ntrunc (plane_distance tt g zc dr sh p / st_dipset_dist tt)%R + sh_num sh / 2)%Z.
Proof.
  intros B. unfold sheet_layer, plane_distance. rewrite (ds_ld _ _ _ _ _ B), (ds_shift _ _ _ _ _ B).
  pose proof (ds_normal _ _ _ _ _ B) as Hn. unfold sheet_normal in Hn |- *. injection Hn as -> -> ->. unfold middle, dot.
  do 3 f_equal. ring.
Qed.

Lemma row_nth width sh k f : nth_error (sh_array sh) k = Some f -> nth_error (facies_row width sh) k = Some f.
Proof. intros H. unfold facies_row. rewrite nth_error_app1; [exact H|]. apply nth_error_Some. congruence. Qed.

(** C50: the cells near the middle of the table of layers get a facies of the
    element; all other cells of the domain do not have to (see below).

    Missing in the full property: cells further away. *)
Theorem C50_lookup_partial tt g zc dr sh width ha p :
  new_sheet tt g zc dr = Ok sh -> st_structure tt = S_ "dip" -> 0 < st_dipset_dist tt ->
  alternatives_ok (st_facies tt) (st_altfacies tt) ->
  2 * Rabs (plane_distance tt g zc dr sh p) <= Rmax (g_ly g) (g_lz g) + sh_shift sh + 8 * st_dipset_dist tt ->
  (0 <= sheet_layer sh p < Z.of_nat (List.length (sh_array sh)))%Z /\
  exists w, sheet_write width sh ha p = Ok w /\ In (w_facies w) (st_facies tt) /\ w_ha w = ha.
Proof.
  intros H Hs Hld Halt Hd. pose proof (new_sheet_dip _ _ _ _ _ H Hs) as B.
  set (ld := st_dipset_dist tt) in *. set (d := plane_distance tt g zc dr sh p) in *.
  set (q := (Rmax (g_ly g) (g_lz g) + sh_shift sh) / ld).
  assert (Hq : Rmax (g_ly g) (g_lz g) + sh_shift sh = q * ld) by (unfold q; field; lra).
  set (t := d / ld). assert (Ht : d = t * ld) by (unfold t; field; lra).
  assert (Ha : Rabs t <= (q + 8) / 2).
  { rewrite Hq, Ht, Rabs_mult, (Rabs_right ld) in Hd by lra. nra. }
  pose proof (trunc_bounds t) as Hb. pose proof (ds_num _ _ _ _ _ B) as Hn. fold ld q in Hn.
  pose proof (nceil_R_spec q) as Hc.
  destruct (C51_sequence _ _ _ _ _ (ds_arr _ _ _ _ _ B)) as [Hlen _].
  assert (Hz : (0 <= sheet_layer sh p < sh_num sh)%Z).
  { rewrite (layer_distance _ _ _ _ _ p B). fold ld d t.
    assert (Hnr : IZR (sh_num sh) >= q + 10) by (rewrite Hn, plus_IZR; lra).
    assert (K : Rabs (IZR (ntrunc t)) <= (q + 8) / 2) by lra.
    assert (K2 : Rabs (IZR (ntrunc t)) * 2 <= IZR (sh_num sh) - 2) by lra.
    assert (K3 : (2 * Z.abs (ntrunc t) <= sh_num sh - 2)%Z).
    { apply le_IZR. rewrite mult_IZR, abs_IZR, minus_IZR. lra. }
    pose proof (Z.div_mod (sh_num sh) 2 ltac:(lia)). pose proof (Z.mod_pos_bound (sh_num sh) 2 ltac:(lia)). lia. }
  split; [lia|]. unfold sheet_write. rewrite (ds_dip _ _ _ _ _ B).
  assert (Hk : (Z.to_nat (sheet_layer sh p) < List.length (sh_array sh))%nat) by lia.
  apply nth_error_Some in Hk. destruct (nth_error (sh_array sh) (Z.to_nat (sheet_layer sh p))) as [f|] eqn:Ef; [|congruence].
  unfold pyget, pyidx.
  assert (Hl : (sheet_layer sh p < Z.of_nat (List.length (facies_row width sh)))%Z).
  { unfold facies_row. rewrite app_length. lia. }
  destruct (Z.leb_spec 0 (sheet_layer sh p)); [|lia]. destruct (Z.ltb_spec (sheet_layer sh p) (Z.of_nat (List.length (facies_row width sh)))); [|lia].
  cbn [andb]. rewrite (row_nth _ _ _ _ Ef). cbn [bind]. eexists. split; [reflexivity|]. cbn. split; [|reflexivity].
  pose proof (C51_element_facies _ _ _ _ _ Halt (ds_arr _ _ _ _ _ B)) as Hf. rewrite Forall_forall in Hf. apply Hf. eapply nth_error_In; eauto.
Qed.
Print Assumptions C50_lookup_partial.

(** Far above the zero plane the lookup fails (no other sheet having a longer
    table), far below it it silently reads from the other end of the table. *)
Theorem C50_far_cells_refuted tt g zc dr sh ha p :
  new_sheet tt g zc dr = Ok sh -> st_structure tt = S_ "dip" -> 0 < st_dipset_dist tt ->
  (2 * plane_distance tt g zc dr sh p >= Rmax (g_ly g) (g_lz g) + sh_shift sh + 14 * st_dipset_dist tt ->
   sheet_write (sh_num sh) sh ha p = Err IndexError) /\
  (2 * plane_distance tt g zc dr sh p <= - (Rmax (g_ly g) (g_lz g) + sh_shift sh + 14 * st_dipset_dist tt) ->
   (sheet_layer sh p < 0)%Z).
Proof.
  intros H Hs Hld. pose proof (new_sheet_dip _ _ _ _ _ H Hs) as B.
  set (ld := st_dipset_dist tt) in *. set (d := plane_distance tt g zc dr sh p) in *.
  set (q := (Rmax (g_ly g) (g_lz g) + sh_shift sh) / ld).
  assert (Hq : Rmax (g_ly g) (g_lz g) + sh_shift sh = q * ld) by (unfold q; field; lra).
  set (t := d / ld). assert (Ht : d = t * ld) by (unfold t; field; lra).
  pose proof (ds_num _ _ _ _ _ B) as Hn. fold ld q in Hn. pose proof (nceil_R_spec q) as Hc.
  assert (Hnr : IZR (sh_num sh) < q + 11) by (rewrite Hn, plus_IZR; lra).
  destruct (C51_sequence _ _ _ _ _ (ds_arr _ _ _ _ _ B)) as [Hlen _].
  assert (Hpos : (1 <= sh_num sh)%Z).
  { destruct (C51_sequence _ _ _ _ _ (ds_arr _ _ _ _ _ B)) as [Hl [(v & r & E & _) _]]. rewrite E in Hl. cbn in Hl. lia. }
  assert (Hnpos : 1 <= IZR (sh_num sh)) by (apply IZR_le in Hpos; lra).
  pose proof (Z.div_mod (sh_num sh) 2 ltac:(lia)) as D1. pose proof (Z.mod_pos_bound (sh_num sh) 2 ltac:(lia)) as D2.
  split; intros Hd.
  - assert (Ha : t >= (q + 14) / 2) by (rewrite Hq, Ht in Hd; nra).
    assert (Hl : (sh_num sh <= sheet_layer sh p)%Z).
    { rewrite (layer_distance _ _ _ _ _ p B). fold ld d t. assert (Ht0 : 0 <= t) by lra. pose proof (trunc_near t Ht0).
      assert (K : IZR (2 * ntrunc t) >= IZR (sh_num sh + 1)) by (rewrite mult_IZR, plus_IZR; lra).
      apply Rge_le, le_IZR in K. lia. }
    unfold sheet_write. rewrite (ds_dip _ _ _ _ _ B). unfold pyget, pyidx, facies_row.
    rewrite app_length, repeat_length, Z.sub_diag. cbn [Z.to_nat]. rewrite Nat.add_0_r, Hlen.
    destruct (Z.ltb_spec (sheet_layer sh p) (sh_num sh)); [lia|]. rewrite andb_false_r.
    destruct (Z.ltb_spec (sheet_layer sh p) 0); [lia|]. rewrite andb_false_r. reflexivity.
  - assert (Ha : t <= - ((q + 14) / 2)) by (rewrite Hq, Ht in Hd; nra).
    rewrite (layer_distance _ _ _ _ _ p B). fold ld d t. unfold ntrunc. numR. destruct (Rleb_spec 0 t); [lra|].
    pose proof (nceil_R_spec t).
    assert (K : IZR (2 * nceil t) <= IZR (- sh_num sh - 1)) by (rewrite mult_IZR, minus_IZR, opp_IZR; lra).
    apply le_IZR in K. lia.
Qed.
Print Assumptions C50_far_cells_refuted.

(** A massive sheet always gets one of its facies. *)
Theorem C50_massive tt g zc dr sh width ha p :
  new_sheet tt g zc dr = Ok sh -> st_structure tt <> S_ "dip" ->
  exists w, sheet_write width sh ha p = Ok w /\ In (w_facies w) (st_facies tt) /\ w_ha w = ha.
Proof.
  intros H Hs. unfold new_sheet in H. destruct (pystr_eqb (st_structure tt) (S_ "dip")) eqn:E; [now apply pystr_eqb_eq in E|].
  destruct (choice _ _) as [f|] eqn:Ef; [|discriminate]. cbn [bind] in H. injection H as <-.
  cbn. eexists. split; [reflexivity|]. cbn. split; [eapply choice_In; eauto|reflexivity].
Qed.
Print Assumptions C50_massive.

(** ** Witnesses: a domain of 1000 m x 1 m x 1 m with layers of 1 m dipping by
    90 degrees *)
Definition long_grid : grid R := mkGrid 0 0 0 1 1 1 1000 1 1 [] [] [].
Definition steep (az : R) : sheet_type := mkSheetType (S_ "dip") [2%Z; 5%Z] None (az, az) (90, 90) 1.
Definition sdraw : sheet_draw := mkShD 0 0 0 1 (fun n => n).
Definition pfar : point R := mkPoint 999 (1/2) (1/2) 999 0.
Definition pnear : point R := mkPoint 1 (1/2) (1/2) 1 0.
Definition pmid : point R := mkPoint 600 (1/2) (1/2) 600 0.
Lemma deg90 : deg 90 = PI / 2. Proof. unfold deg. field. Qed.
Lemma deg180 : deg 180 = PI. Proof. unfold deg. field. Qed.
Lemma deg_uniform a : uniform a a 0 = a. Proof. unfold uniform. numR. ring. Qed.

Lemma steep_sheet : exists sh, new_sheet (steep 180) long_grid 0 sdraw = Ok sh /\ sh_azim sh = 180 /\ sh_dip sh = 90 /\ sh_shift sh = 500.
Proof.
  unfold new_sheet. cbn [steep st_structure st_azimuth st_dip st_dipset_dist fst snd sdraw shd_azim shd_dip shd_shift shd_array st_facies st_altfacies]. rewrite pystr_eqb_refl, !deg_uniform, deg90, deg180, sin_PI2, cos_PI, sin_PI, cos_PI2, max3_ly.
  cbn [long_grid g_x0 g_y0 g_lx g_ly g_lz]. rewrite (Rmax_left 1 1) by lra.
  match goal with |- context [alternating_facies ?n] => replace n with 511%Z end.
  - destruct (C51_never_fails 511 [2; 5]%Z None (fun n => n)) as [l ->]; [lia|discriminate|exact I|]. cbn [bind].
    eexists. split; [reflexivity|]. cbn. repeat split; lra.
  - symmetry. assert (nceil (((1 + (- (1) * -1 * (0 + 1000 / 2) + 1 * 0 * (0 + 1 / 2) + 0 * 0 + 0 * 1)) / 1) : R) = 501%Z) as ->; [|reflexivity].
    apply nceil_R_unique. lra.
Qed.

(** C50 is false: the lookup fails for a cell of the domain at its far end... *)
Theorem C50_lookup_refuted :
  exists sh, new_sheet (steep 180) long_grid 0 sdraw = Ok sh /\
    in_grid long_grid pfar /\
    sheet_write (sh_num sh) sh 7 pfar = Err IndexError /\
    in_grid long_grid pnear /\
    (sheet_layer sh pnear < 0)%Z.
Proof.
  destruct steep_sheet as (sh & H & Ha & Hd & Hs). exists sh. split; [exact H|].
  destruct (C50_far_cells_refuted _ _ _ _ _ 7%Z pfar H eq_refl ltac:(cbn; lra)) as [K1 _].
  destruct (C50_far_cells_refuted _ _ _ _ _ 7%Z pnear H eq_refl ltac:(cbn; lra)) as [_ K2].
  unfold plane_distance, sheet_normal in K1, K2. rewrite Ha, Hd, Hs in K1, K2.
  change (radians 90) with (deg 90) in K1, K2. change (radians 180) with (deg 180) in K1, K2.
  rewrite deg90, deg180, sin_PI2, cos_PI, sin_PI, cos_PI2 in K1, K2.
  cbn [pfar pnear pmid p_x p_y p_z dot long_grid g_x0 g_y0 g_lx g_ly g_lz sdraw shd_shift steep st_dipset_dist] in K1, K2.
  rewrite (Rmax_left 1 1) in K1, K2 by lra.
  split; [unfold in_grid; cbn; lra|]. split; [apply K1; lra|]. split; [unfold in_grid; cbn; lra|]. apply K2. lra.
Qed.
Print Assumptions C50_lookup_refuted.

(** ... and with the opposite azimuth the sheet cannot even be created. *)
Theorem C50_constructor_refuted : new_sheet (steep 0) long_grid 0 sdraw = Err ValueError.
Proof.
  unfold new_sheet. cbn [steep st_structure st_azimuth st_dip st_dipset_dist fst snd sdraw shd_azim shd_dip shd_shift shd_array st_facies st_altfacies].
  rewrite pystr_eqb_refl, !deg_uniform, deg90. assert (deg 0 = 0) as -> by (unfold deg; field). rewrite sin_PI2, cos_0, sin_0, cos_PI2, max3_ly.
  cbn [long_grid g_x0 g_y0 g_lx g_ly g_lz]. rewrite (Rmax_left 1 1) by lra.
  match goal with |- context [alternating_facies ?n] => replace n with (-489)%Z end; [reflexivity|].
  assert (nceil (((1 + (- (1) * 1 * (0 + 1000 / 2) + 1 * 0 * (0 + 1 / 2) + 0 * 0 + 0 * 1)) / 1) : R) = (-499)%Z) as ->; [|reflexivity].
  apply nceil_R_unique. lra.
Qed.
Print Assumptions C50_constructor_refuted.

(** A cell in the middle of that domain gets a facies of the element. *)
Example C50_example : exists sh w, new_sheet (steep 180) long_grid 0 sdraw = Ok sh /\
  sheet_write (sh_num sh) sh 7 pmid = Ok w /\ In (w_facies w) [2; 5]%Z.
Proof.
  destruct steep_sheet as (sh & H & Ha & Hd & Hs).
  destruct (C50_lookup_partial _ _ _ _ _ (sh_num sh) 7%Z pmid H eq_refl ltac:(cbn; lra) I) as [_ (w & K & Kf & _)].
  - unfold plane_distance, sheet_normal. rewrite Ha, Hd, Hs.
    change (radians 90) with (deg 90). change (radians 180) with (deg 180). rewrite deg90, deg180, sin_PI2, cos_PI, sin_PI, cos_PI2.
    cbn [pfar pnear pmid p_x p_y p_z dot long_grid g_x0 g_y0 g_lx g_ly g_lz sdraw shd_shift steep st_dipset_dist].
    rewrite (Rmax_left 1 1) by lra. rewrite Rabs_right; lra.
  - exists sh, w. auto.
Qed.

(** ** C79: with the class of sheet.py no element of sheets can be created *)
Theorem C79_python_sheets_refuted dipsets : read_sheet dipsets = Err AttributeError.
Proof. destruct dipsets; reflexivity. Qed.
Print Assumptions C79_python_sheets_refuted.
