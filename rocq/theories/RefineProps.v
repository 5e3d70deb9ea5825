(** C144: the resolution of the grid. *)
From Coq Require Import List ZArith Bool Ascii String Reals Lra Lia.
From Verif Require Import Base Num ParseModel ConfigModel FaciesModel SurfaceModel SurfaceSpec StrataModel AssignModel AssignSpec BuildModel TensorModel TroughModel SheetModel ChannelModel FullModel
  FullSpec TroughProps FullProps LinkProps OverlapExamples2 OriginProofs RefineSpec RefineProofs.
Import ListNotations.
Local Open Scope R_scope.

(** Full property: the size of the cells does not change the model that is
    generated, so a point that is a cell centre in two grids gets the same
    values in both.  It holds for contact surfaces that are not random fields
    (their values are drawn per column): the same elements, strata and objects
    are generated on the same horizontal surfaces, and a run that fails fails
    in the same way.  For cells the conditions of C34 are needed, and with
    channels rows at most one metre apart (C48_wide_cells_refuted).  [wild]
    stands for memory outside an array (FullModel.look_of). *)
Theorem C144_resolution_partial (x0 y0 z0 lx ly lz dx dy dz dx' dy' dz' : R) g g' :
  grid_init x0 y0 z0 dx dy dz lx ly lz = Ok g -> grid_init x0 y0 z0 dx' dy' dz' lx ly lz = Ok g' ->
  columns g <> 0%nat -> columns g' <> 0%nat ->
  forall fuel contacts params draws draws', even_settings contacts params -> same_draws draws draws' ->
    (forall e, full_generate g fuel contacts params draws = Err e -> full_generate g' fuel contacts params draws' = Err e) /\
    (forall st strata, full_generate g fuel contacts params draws = Ok (st, strata) ->
       exists st' strata', full_generate g' fuel contacts params draws' = Ok (st', strata') /\
         Forall2 (same_plane (columns g) (columns g')) st st' /\ Forall2 (same_stratum (Rmin (g_dx g') (g_dy g'))) strata strata' /\
         (0 < dx -> 0 < dy -> 0 < dz -> 0 < dx' -> 0 < dy' -> 0 < dz' ->
          Forall (fsd_ok (columns g)) draws -> Forall (fsd_ok (columns g')) draws' -> params <> [] ->
          sensible g params draws st strata ->
          ((forall fp ft, In fp params -> In ft (fp_types fp) -> ~ is_channels ft) \/ dy <= 1 /\ dy' <= 1) ->
          Forall (fun fs : full_stratum => s_aes (fst fs) <> []) strata ->
          (forall z, In z (g_z g) \/ In z (g_z g') -> z <= lz /\ forall k a, col st a k <> Some z) ->
          forall dm wild wild', (forall num oi p, wild num oi p <> (-1)%Z) -> (forall num oi p, wild' num oi p <> (-1)%Z) ->
          (forall num oi p p', same_place p p' -> wild' num oi p' = wild num oi p) ->
          forall i j k i' j' k' x y z,
          nth_error (g_x g) i = Some x -> nth_error (g_y g) j = Some y -> nth_error (g_z g) k = Some z ->
          nth_error (g_x g') i' = Some x -> nth_error (g_y g') j' = Some y -> nth_error (g_z g') k' = Some z ->
          exists v, full_arrays dm (mkCGrid (List.length (g_x g)) (List.length (g_y g)) dx) wild params st strata (g_x g) (g_y g) (g_z g) i j k = Some v /\
            full_arrays dm (mkCGrid (List.length (g_x g')) (List.length (g_y g')) dx') wild' params st' strata' (g_x g') (g_y g') (g_z g') i' j' k' = Some v)).
Proof.
  intros G G' C C' fuel contacts params draws draws' F ED.
  assert (M : same_domain g g').
  { destruct (grid_fields _ _ _ _ _ _ _ _ _ _ G) as (A1 & A2 & A3 & A4 & A5 & A6). destruct (grid_fields _ _ _ _ _ _ _ _ _ _ G') as (B1 & B2 & B3 & B4 & B5 & B6).
    constructor; congruence. }
  pose proof (generate_same g g' M C C' fuel contacts params draws draws' F ED) as K.
  destruct (full_generate g _ _ _ _) as [[st strata]|e] eqn:E; destruct (full_generate g' _ _ _ _) as [[st' strata']|e'] eqn:E'; cbn in K; try contradiction.
  2:{ subst e'. split; [congruence|discriminate]. }
  destruct K as [HP HS]. cbn [fst snd] in HP, HS. split; [discriminate|]. intros ? ? [= <- <-]. exists st', strata'. split; [reflexivity|]. split; [exact HP|].
  split; [revert HS; apply Forall2_weaken; intros s s' H; apply H|].
  intros Hdx Hdy Hdz Hdx' Hdy' Hdz' Hd Hd' Hne HSn Hch Hae Hz dm wild wild' W1 W2 W i j k i' j' k' x y z X Y Z X' Y' Z'.
  pose proof (sensible_same g g' params draws draws' st st' strata strata' M C ED HP HS HSn) as HSn'.
  assert (Hae' : Forall (fun fs : full_stratum => s_aes (fst fs) <> []) strata').
  { apply Forall_forall. intros fs' H. destruct (Forall2_in_r _ _ _ _ HS H) as (fs & Hfs & [_ Q]). rewrite Forall_forall in Hae. specialize (Hae fs Hfs).
    intros Q0. rewrite Q0 in Q. inversion Q as [Q1|]. congruence. }
  destruct (C34_generated_partial x0 y0 z0 dx dy dz lx ly lz g fuel contacts params draws st strata dm wild G Hdx Hdy Hdz Hd Hne E HSn W1) with (xi := i) (yi := j) (zi := k) (x := x) (y := y) (z := z)
    as (ii & si & A1 & A2); auto.
  { destruct Hch as [Hch|[Hch _]]; auto. }
  { apply Forall_forall. intros v Hv. exact (proj1 (Hz v (or_introl Hv))). }
  { intros k0 a v Hv. exact (proj2 (Hz v (or_introl Hv)) k0 a). }
  destruct (C34_generated_partial x0 y0 z0 dx' dy' dz' lx ly lz g' fuel contacts params draws' st' strata' dm wild' G' Hdx' Hdy' Hdz' Hd' Hne E' HSn' W2) with (xi := i') (yi := j') (zi := k') (x := x) (y := y) (z := z)
    as (ii' & si' & B1 & B2); auto.
  { destruct Hch as [Hch|[_ Hch]]; auto. }
  { apply Forall_forall. intros v Hv. exact (proj1 (Hz v (or_intror Hv))). }
  { intros k0 a v Hv Hc. destruct (Hz v (or_intror Hv)) as [_ Q]. apply (Q 0%nat a). exact (col_planes g g' st st' a k0 v C HP Hc). }
  exists (cell_of (Some (ii, si))). split; [exact A2|]. rewrite B2. do 2 f_equal.
  unfold exhaustive in A1, B1.
  assert (Hlt : (i * List.length (g_y g) + j < columns g)%nat).
  { assert (i < List.length (g_x g))%nat by (apply nth_error_Some; congruence). assert (j < List.length (g_y g))%nat by (apply nth_error_Some; congruence). unfold columns. nia. }
  assert (Hlt' : (i' * List.length (g_y g') + j' < columns g')%nat).
  { assert (i' < List.length (g_x g'))%nat by (apply nth_error_Some; congruence). assert (j' < List.length (g_y g'))%nat by (apply nth_error_Some; congruence). unfold columns. nia. }
  pose proof (table_same g g' _ _ HS) as HT.
  assert (SP : same_place (mkPoint x y z i j) (mkPoint x y z i' j')) by (repeat split).
  rewrite (search_same g g' (List.length (g_y g)) (List.length (g_y g')) (mkPoint x y z i j) (mkPoint x y z i' j') SP Hlt Hlt'
    (type_id_of params) _ _ _ _ unmarked
    (look_same _ wild wild' _ _ SP (fun num oi => W num oi _ _ SP) _ _ HT)
    (probe_same _ dm (mkCGrid (List.length (g_x g)) (List.length (g_y g)) dx) (mkCGrid (List.length (g_x g')) (List.length (g_y g')) dx') wild wild' _ _ SP (fun num oi => W num oi _ _ SP) _ _ HT)
    st st' strata strata' HP HS 0 0) in B1.
  rewrite B1 in A1. exact A1.
Qed.
Print Assumptions C144_resolution_partial.

(** The model of C141's example with cells of a third of a metre: the cell of
    the trough at 8.5 m keeps its facies. *)
Definition third_grid : grid R :=
  let xs := map (fun i => 0 + (1/3) / two + nofZ (Z.of_nat i) * (1/3)) (seq 0 3) in
  mkGrid 0 0 0 (1/3) (1/3) (1/3) 1 1 10 xs xs (map (fun i => 0 + (1/3) / two + nofZ (Z.of_nat i) * (1/3)) (seq 0 30)).
Lemma third_grid_ok : grid_init 0 0 0 (1/3) (1/3) (1/3) 1 1 10 = Ok third_grid.
Proof.
  unfold grid_init, centres, SurfaceModel.arange, third_grid, two. numR. destruct (Rleb_spec (1/3) 0); [lra|]. cbn [andb bind].
  rewrite (nceil_R_unique ((0 + 1 - (0 + 1 / 3 / (1 + 1))) / (1 / 3)) 3) by lra.
  rewrite (nceil_R_unique ((0 + 10 - (0 + 1 / 3 / (1 + 1))) / (1 / 3)) 30) by lra. reflexivity.
Qed.
Definition third_draws : list full_stratum_draws :=
  [mkFSD (repeat 0 9) 0 [mkFD 5 1 0 1 (repeat 0 9) ot_od; mkFD 9 1 0 0 (repeat 0 9) ot_od]].
Example C144_example : exists st' strata', full_generate third_grid 5 [] ot_params third_draws = Ok (st', strata') /\
  exists v, full_arrays (flat 1 1) (mkCGrid 3 3 (1/3)) (fun _ _ _ => 0%Z) ot_params st' strata' (g_x third_grid) (g_y third_grid) (g_z third_grid) 1 1 25 = Some v /\
  c_facies v = 3%Z.
Proof.
  pose proof z5_eq as H5.
  destruct (C144_resolution_partial 0 0 0 1 1 10 1 1 1 (1/3) (1/3) (1/3) fx_grid third_grid fx_grid_ok third_grid_ok) with
    (fuel := 5%nat) (contacts := @nil (contact R)) (params := ot_params) (draws := ot_draws) (draws' := third_draws) as [_ K].
  - discriminate.
  - discriminate.
  - split; [constructor|]. repeat constructor; discriminate.
  - reflexivity.
  - destruct (K _ _ ot_runs) as (st' & strata' & E & _ & _ & Q). exists st', strata'. split; [exact E|].
    destruct C141_example as (v & Ev & _ & _ & _ & _ & Hf & _).
    destruct (Q ltac:(lra) ltac:(lra) ltac:(lra) ltac:(lra) ltac:(lra) ltac:(lra)) with (dm := flat 1 1) (wild := fun (_ _ : nat) (_ : point R) => 0%Z)
      (wild' := fun (_ _ : nat) (_ : point R) => 0%Z) (i := 0%nat) (j := 0%nat) (k := 8%nat) (i' := 1%nat) (j' := 1%nat) (k' := 25%nat)
      (x := 1/2) (y := 1/2) (z := 1/2 + INR 8) as (v' & A & B); try discriminate; try reflexivity.
    + repeat constructor.
    + repeat constructor.
    + exact ot_sensible.
    + right. lra.
    + repeat constructor; discriminate.
    + assert (forall w : R, w = 10 \/ w = 0 \/ w = z5 -> forall n : nat, w <> 1/2 + INR n /\ w <> 1/6 + INR n * (1/3)) as NZ.
      { intros w Hw n. rewrite INR_IZR_INZ. set (q := Z.of_nat n). split; intros Hq.
        - assert (exists r : Z, IZR (2 * r) = IZR (1 + 2 * q)) as [r Hr].
          { rewrite plus_IZR, mult_IZR. destruct Hw as [->|[->| ->]]; [exists 10%Z|exists 0%Z|exists 5%Z]; rewrite mult_IZR; lra. }
          apply eq_IZR in Hr. lia.
        - assert (exists r : Z, IZR (2 * r) = IZR (1 + 2 * q)) as [r Hr].
          { rewrite plus_IZR, mult_IZR. destruct Hw as [->|[->| ->]]; [exists 30%Z|exists 0%Z|exists 15%Z]; rewrite mult_IZR; lra. }
          apply eq_IZR in Hr. lia. }
      intros z [Hz|Hz].
      * apply in_map_iff in Hz as (n & <- & Hn). apply in_seq in Hn. split.
        -- assert (INR (S n) <= INR 10) as Hle by (apply le_INR; lia). rewrite S_INR in Hle. replace (INR 10) with 10 in Hle by (cbn; lra). lra.
        -- intros k0 a Hc. apply fx_col in Hc as [Hc _]. exact (proj1 (NZ _ Hc n) eq_refl).
      * apply in_map_iff in Hz as (n & <- & Hn). apply in_seq in Hn. unfold two. numR. rewrite <- INR_IZR_INZ. split.
        -- assert (INR (S n) <= INR 30) as Hle by (apply le_INR; lia). rewrite S_INR in Hle. replace (INR 30) with 30 in Hle by (cbn; lra). lra.
        -- intros k0 a Hc. apply fx_col in Hc as [Hc _]. apply (proj2 (NZ _ Hc n)). lra.
    + cbn. unfold two. numR. f_equal. lra.
    + cbn. unfold two. numR. f_equal. lra.
    + cbn. unfold two. numR. f_equal. lra.
    + exists v'. split; [exact B|]. assert (v' = v) as ->; [|exact Hf]. pose proof (eq_trans (eq_sym A) Ev) as EE. congruence.
Qed.
