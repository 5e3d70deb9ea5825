(** Properties of random fields. *)
From Coq Require Import List ZArith Bool Lia Reals Lra Psatz.
From Verif Require Import Base Num ArrayModel ArrayProofs SpecsimModel SpecsimSpec SpecsimProofs.
Import ListNotations.
Local Open Scope R_scope.

(** C67: the values returned for a selection can be assigned with the same
    mask; each selected cell then has the value of the field at its place in
    the smallest box around the selection, all other cells are unchanged. *)
Theorem C67_values_on_cells {A} s co cm var corl m e vs (g : R -> A) (a : array A) :
  specsim s co cm var corl m e = Ok vs ->
  exists lo hi y a',
    smallest_box s m lo hi /\ specsim_field co cm var corl (mkBox lo hi) e = Ok y /\
    put s m (map g vs) a = Ok a' /\
    forall c, (In c (cells s) -> m c = true -> a' c = g (y (relative lo c))) /\
              (~ In c (cells s) \/ m c = false -> a' c = a c).
Proof.
  intros H. unfold specsim in H. destruct (bounding_box s m) as [b|] eqn:Eb; [|discriminate].
  destruct (specsim_field co cm var corl b e) as [y|] eqn:Ey; [|discriminate]. cbn [bind] in H. injection H as <-.
  rewrite (select_box _ _ _ y Eb).
  exists (bx_lo b), (bx_hi b), y, (put_list (filter m (cells s)) (map g (map (fun c => y (relative (bx_lo b) c)) (filter m (cells s)))) a).
  split; [now apply bounding_box_smallest|]. split; [destruct b; exact Ey|]. split.
  - unfold put. rewrite !map_length, Nat.eqb_refl. reflexivity.
  - intros c. rewrite map_map. split.
    + intros Hc Hm. rewrite (put_map (filter m (cells s)) (fun c => g (y (relative (bx_lo b) c)))); [reflexivity|apply NoDup_filter, cells_NoDup|now apply filter_In].
    + intros Hc. apply put_list_other. rewrite filter_In. intros [H1 H2]. destruct Hc; congruence.
Qed.
(** It succeeds for every selection with at least one cell, and returns as many
    values as there are selected cells. *)
Theorem C67_never_fails s co cm var corl m e c : In c (cells s) -> m c = true -> cm <> OtherCov ->
  exists vs, specsim s co cm var corl m e = Ok vs /\ List.length vs = List.length (filter m (cells s)).
Proof.
  intros Hc Hm Hcov. destruct (bounding_box_some _ _ _ Hc Hm) as (b & Eb). unfold specsim. rewrite Eb.
  unfold specsim_field. destruct cm; try congruence; cbn [covariance bind]; eexists; (split; [reflexivity|]); rewrite (select_box _ _ _ _ Eb), map_length; reflexivity.
Qed.
(** Nothing selected: an error. *)
Theorem C67_empty_selection s co cm var corl m e : (forall c, In c (cells s) -> m c = false) ->
  specsim s co cm var corl m e = Err ValueError.
Proof.
  intros H. unfold specsim, bounding_box. replace (filter m (cells s)) with (@nil cell); [reflexivity|].
  symmetry. revert H. induction (cells s) as [|c l IH]; intros H; cbn; [reflexivity|]. rewrite (H c (or_introl eq_refl)). apply IH. intros; apply H. now right.
Qed.

(** ** C68: no hidden constraint on the field

    False: whatever the draws, covariance and box, the values on every line in
    x direction sum up to zero. *)
Lemma field_line_sum s ryy e j k : (0 < cx s)%nat -> line_sum (cx s) (field s (spectrum s ryy) e) j k = 0.
Proof.
  intros Hs. rewrite line_sum_sumn. unfold field. rewrite sum_cells_swap. apply sum_cells_zero. intros f Hf. apply in_cells in Hf.
  rewrite sumn_scale. unfold spectrum at 1. destruct (Nat.eqb_spec (cx f) 0) as [E|E]; [rewrite sqrt_0; ring|].
  assert (Z : sumn (cx s) (fun i => no_re e f * cos (phase s f (i, j, k)) - no_im e f * sin (phase s f (i, j, k))) = 0); [|rewrite Z; ring].
  set (ph := 2 * PI * (INR (cy f) * INR j / INR (cy s) + INR (cz f) * INR k / INR (cz s))).
  rewrite (sumn_ext _ _ (fun i => no_re e f * cos (2 * PI * (INR (cx f) * INR i / INR (cx s)) + ph)
                               + no_im e f * cos (2 * PI * (INR (cx f) * INR i / INR (cx s)) + (ph + PI / 2)))).
  - rewrite sumn_plus, !sumn_scale, !period_sum by lia. ring.
  - intros i _. replace (phase s f (i, j, k)) with (2 * PI * (INR (cx f) * INR i / INR (cx s)) + ph) by (unfold phase, ph; cbn [cx cy cz fst snd]; ring).
    rewrite <- Rplus_assoc. rewrite (cos_plus _ (PI / 2)), cos_PI2, sin_PI2. ring.
Qed.

Theorem C68_line_sums_refuted co cm var corl lo hi e y : (cx lo <= cx hi)%nat ->
  specsim_field co cm var corl (mkBox lo hi) e = Ok y ->
  forall j k, line_sum (cx hi + 1 - cx lo) y j k = 0.
Proof.
  intros Hb H j k. unfold specsim_field in H. destruct (covariance cm var _) as [ryy|]; [|discriminate]. cbn [bind] in H. injection H as <-.
  apply (field_line_sum (box_shape (mkBox lo hi)) ryy e j k). cbn. lia.
Qed.
(** Selections that are one cell wide in x get no random values at all. *)
Theorem C68_one_column_refuted s co cm var corl m e vs i : 
  (forall c, In c (cells s) -> m c = true -> cx c = i) ->
  specsim s co cm var corl m e = Ok vs -> Forall (fun v => v = 0) vs.
Proof.
  intros Hi H. unfold specsim in H. destruct (bounding_box s m) as [b|] eqn:Eb; [|discriminate].
  destruct (specsim_field co cm var corl b e) as [y|] eqn:Ey; [|discriminate]. cbn [bind] in H. injection H as <-.
  rewrite (select_box _ _ _ y Eb). apply Forall_forall. intros v Hv. apply in_map_iff in Hv as (c & <- & Hc).
  apply filter_In in Hc as [Hc Hm]. destruct (bounding_box_smallest _ _ _ Eb) as (Hin & (c0 & A1 & A2 & A3) & (c1 & B1 & B2 & B3) & _).
  pose proof (Hi _ A1 A2) as E0. pose proof (Hi _ B1 B2) as E1. pose proof (Hi _ Hc Hm) as E2.
  assert (L : line_sum 1 y (cy c - cy (bx_lo b)) (cz c - cz (bx_lo b)) = 0).
  { replace 1%nat with (cx (bx_hi b) + 1 - cx (bx_lo b))%nat by lia. destruct b as [lo hi]. cbn [bx_lo bx_hi] in *.
    eapply C68_line_sums_refuted; [|exact Ey]. lia. }
  unfold line_sum in L. cbn [seq fold_right] in L. unfold relative. replace (cx c - cx (bx_lo b))%nat with 0%nat by lia. lra.
Qed.

(** Contact surfaces and other fields for the whole grid are affected too. *)
Theorem C68_grid_refuted s co cm var corl e y : (0 < cx s)%nat ->
  specsim_grid s co cm var corl e = Ok y -> forall j k, line_sum (cx s) y j k = 0.
Proof.
  intros Hs H j k. replace (cx s) with (cx (cx s - 1, cy s - 1, cz s - 1)%nat + 1 - cx (0, 0, 0)%nat)%nat by (cbn; lia).
  eapply C68_line_sums_refuted; [|exact H]. cbn. lia.
Qed.

(** A selection of two cells. *)
Example C67_example : exists vs,
  specsim (2, 1, 1)%nat (mkCoords INR INR INR) Exponential 1 (1, 1, 1) (fun _ => true) (mkNoise (fun _ => 1) (fun _ => 0)) = Ok vs /\
  List.length vs = 2%nat.
Proof.
  destruct (C67_never_fails (2, 1, 1)%nat (mkCoords INR INR INR) Exponential 1 (1, 1, 1) (fun _ => true) (mkNoise (fun _ => 1) (fun _ => 0)) (0, 0, 0)%nat) as (vs & H & L);
    [apply in_cells; cbn; lia|reflexivity|discriminate|]. exists vs. split; [exact H|exact L].
Qed.
Example C68_example : exists y,
  specsim_grid (3, 2, 1)%nat (mkCoords INR INR INR) Gaussian 1 (1, 1, 1) (mkNoise (fun _ => 1) (fun _ => 0)) = Ok y /\ line_sum 3 y 0 0 = 0.
Proof.
  eexists. split; [reflexivity|]. unfold box_shape. cbn [bx_lo bx_hi cx cy cz fst snd Nat.sub Nat.add].
  apply (field_line_sum (3, 2, 1)%nat). cbn. lia.
Qed.

Print Assumptions C67_values_on_cells.
Print Assumptions C67_never_fails.
Print Assumptions C67_empty_selection.
Print Assumptions C68_line_sums_refuted.
Print Assumptions C68_one_column_refuted.
Print Assumptions C68_grid_refuted.
