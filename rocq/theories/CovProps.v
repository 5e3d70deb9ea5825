(** Properties of the statistics of random fields. *)
From Coq Require Import List ZArith Bool Lia Reals Lra Psatz FunctionalExtensionality.
From Verif Require Import Base Num ArrayModel ArrayProofs SpecsimModel SpecsimSpec SpecsimProofs SpecsimProps CovSpec CovProofs.
Import ListNotations.
Local Open Scope R_scope.

(** The random field of a box: its values for every outcome of the draws. *)
Definition is_field (co : coords) (v : cov_params) (lo hi : cell) (Y : noise -> cell -> R) : Prop :=
  forall e, specsim_field co (cv_model v) (cv_var v) (cv_corl v) (mkBox lo hi) e = Ok (Y e).
Definition box_size (lo hi : cell) : shape := (cx hi + 1 - cx lo, cy hi + 1 - cy lo, cz hi + 1 - cz lo)%nat.
Definition box_ok (lo hi : cell) : Prop := (cx lo <= cx hi /\ cy lo <= cy hi /\ cz lo <= cz hi)%nat.

Lemma is_field_ryy co v lo hi Y : is_field co v lo hi Y -> exists ryy,
  covariance (cv_model v) (cv_var v) (h_square co (cv_corl v) (mkBox lo hi)) = Ok ryy /\
  Y = (fun e => field (box_size lo hi) (spectrum (box_size lo hi) ryy) e).
Proof.
  intros H. unfold is_field, specsim_field in H. destruct (covariance _ _ _) as [ryy|] eqn:E.
  - exists ryy. split; [reflexivity|]. apply functional_extensionality. intros e. specialize (H e). cbn [bind] in H. injection H as H. symmetry. exact H.
  - specialize (H (mkNoise (fun _ => 0) (fun _ => 0))). discriminate.
Qed.

(** C133: the values have expectation 0, and their covariance depends on the
    distance of the cells only - counted on a ring. *)
Theorem C133_stationary co v lo hi Y E : is_field co v lo hi Y -> unit_draws (box_size lo hi) E -> box_ok lo hi ->
  (forall c, mean_at E Y c = 0) /\
  (forall c d c' d',
     same_lag (cx hi + 1 - cx lo) (cx c) (cx d) (cx c') (cx d') -> same_lag (cy hi + 1 - cy lo) (cy c) (cy d) (cy c') (cy d') ->
     same_lag (cz hi + 1 - cz lo) (cz c) (cz d) (cz c') (cz d') -> cov_at E Y c d = cov_at E Y c' d').
Proof.
  intros HY HE Hb. destruct (is_field_ryy _ _ _ _ _ HY) as (ryy & _ & ->). destruct Hb as (Bx & By & Bz). split.
  - intros c. now apply field_mean.
  - intros c d c' d' Lx Ly Lz. rewrite !(field_cov _ _ HE) by (intros; apply spectrum_nonneg).
    apply sum_cells_ext. intros f _. f_equal. apply lag_cos; cbn; trivial; lia.
Qed.

(** All cells have the same variance. *)
Theorem C133_same_variance co v lo hi Y E c d : is_field co v lo hi Y -> unit_draws (box_size lo hi) E -> box_ok lo hi ->
  cov_at E Y c c = cov_at E Y d d.
Proof. intros HY HE Hb. apply (proj2 (C133_stationary _ _ _ _ _ _ HY HE Hb)); exists 0%Z; lia. Qed.

(** Refuted: cells on opposite sides of the box are as strongly correlated as
    neighbours. *)
Theorem C133_opposite_sides_refuted co v lo hi Y E j k : is_field co v lo hi Y -> unit_draws (box_size lo hi) E -> box_ok lo hi ->
  cov_at E Y (cx hi - cx lo, j, k)%nat (0, j, k)%nat = cov_at E Y (0, j, k)%nat (1, j, k)%nat.
Proof.
  intros HY HE Hb. destruct Hb as (Bx & By & Bz). apply (proj2 (C133_stationary _ _ _ _ _ _ HY HE (conj Bx (conj By Bz)))); cbn [cx cy cz fst snd].
  - exists 1%Z. lia.
  - exists 0%Z. lia.
  - exists 0%Z. lia.
Qed.

(** Refuted: whatever the box, the variance and the correlation lengths, the
    covariance is not the documented one. *)
Lemma cov_of_lag_pos v a b c : 0 < cv_var v -> 0 < cov_of_lag v a b c.
Proof. intros H. unfold cov_of_lag. destruct (cv_model v); apply Rmult_lt_0_compat; auto using exp_pos. Qed.
Lemma sumn_pos n f : (0 < n)%nat -> (forall i, (i < n)%nat -> 0 < f i) -> 0 < sumn n f.
Proof.
  induction n as [|n IH]; intros Hn H; [lia|]. cbn [sumn]. destruct n as [|n].
  - cbn [sumn]. specialize (H 0%nat ltac:(lia)). lra.
  - pose proof (IH ltac:(lia) ltac:(intros; apply H; lia)). specialize (H (S n) ltac:(lia)). lra.
Qed.
Theorem C133_covariance_refuted co v lo hi Y E : is_field co v lo hi Y -> unit_draws (box_size lo hi) E -> box_ok lo hi -> 0 < cv_var v ->
  ~ (forall c d, In c (cells (box_size lo hi)) -> In d (cells (box_size lo hi)) -> cov_at E Y c d = documented_cov v c d).
Proof.
  intros HY HE (Bx & By & Bz) Hv H.
  assert (A : sumn (cx (box_size lo hi)) (fun i => cov_at E Y (0, 0, 0)%nat (i, 0, 0)%nat) = 0).
  { unfold cov_at. rewrite <- (E_sumn (box_size lo hi) E HE _ (fun i e => Y e (0, 0, 0)%nat * Y e (i, 0, 0)%nat)).
    rewrite (ud_ext _ _ HE _ (fun _ => 0)); [apply (E_zero _ _ HE)|]. intros e. rewrite sumn_scale.
    pose proof (C68_line_sums_refuted co _ _ _ lo hi e (Y e) Bx (HY e) 0%nat 0%nat) as L. rewrite line_sum_sumn in L. cbn [box_size cx fst] in *. rewrite L. ring. }
  pose proof (sumn_pos (cx (box_size lo hi)) (fun i => documented_cov v (0, 0, 0)%nat (i, 0, 0)%nat)) as P.
  rewrite (sumn_ext _ _ (fun i => documented_cov v (0, 0, 0)%nat (i, 0, 0)%nat)) in A.
  - cbn [box_size cx fst] in *. specialize (P ltac:(lia)). rewrite A in P. apply (Rlt_irrefl 0), P. intros i _. now apply cov_of_lag_pos.
  - intros i Hi. apply H; apply in_cells; cbn [box_size cx cy cz fst snd] in *; lia.
Qed.

(** What holds instead, for boxes with odd numbers of cells on which the
    transform of the covariance is not negative: on the ring, the covariance is
    the documented one minus its mean over the line in x direction. *)
Lemma centred_odd f x0 dx lo hi m i : (forall i, f i = x0 + INR i * dx) -> (hi + 1 - lo = 2 * m + 1)%nat -> (lo <= hi)%nat ->
  centred f lo hi i = IZR (Z.of_nat i - Z.of_nat m) * dx.
Proof.
  intros Hf Hn Hl. unfold centred. rewrite !Hf, minus_IZR, <- !INR_IZR_INZ, plus_INR.
  assert (E : INR hi = INR lo + 2 * INR m). { replace hi with (lo + 2 * m)%nat by lia. rewrite plus_INR, mult_INR. cbn [INR]. ring. }
  rewrite E. field.
Qed.
Lemma ryy_odd co v lo hi mx my mz ryy : regular co v -> box_ok lo hi -> box_size lo hi = (2 * mx + 1, 2 * my + 1, 2 * mz + 1)%nat ->
  covariance (cv_model v) (cv_var v) (h_square co (cv_corl v) (mkBox lo hi)) = Ok ryy ->
  forall c, ryy c = cov_of_lag v (Z.of_nat (cx c) - Z.of_nat mx) (Z.of_nat (cy c) - Z.of_nat my) (Z.of_nat (cz c) - Z.of_nat mz).
Proof.
  intros (x0 & y0 & z0 & Hco) (Bx & By & Bz) Hs HR c. unfold box_size in Hs. injection Hs as Hx Hy Hz.
  assert (E : h_square co (cv_corl v) (mkBox lo hi) c =
    (IZR (Z.of_nat (cx c) - Z.of_nat mx) * cv_dx v / fst (fst (cv_corl v))) ^ 2 + (IZR (Z.of_nat (cy c) - Z.of_nat my) * cv_dy v / snd (fst (cv_corl v))) ^ 2 +
    (IZR (Z.of_nat (cz c) - Z.of_nat mz) * cv_dz v / snd (cv_corl v)) ^ 2).
  { unfold h_square. cbn [bx_lo bx_hi].
    rewrite (centred_odd (co_x co) x0 (cv_dx v) _ _ mx), (centred_odd (co_y co) y0 (cv_dy v) _ _ my), (centred_odd (co_z co) z0 (cv_dz v) _ _ mz); trivial; try lia; intros; apply Hco. }
  unfold cov_of_lag. destruct (cv_model v); cbn [covariance] in HR; try discriminate; injection HR as <-; rewrite E; ring.
Qed.
Lemma cov_of_lag_opp v a b c : cov_of_lag v (- a) (- b) (- c) = cov_of_lag v a b c.
Proof.
  unfold cov_of_lag. rewrite !opp_IZR.
  replace ((- IZR a * cv_dx v / fst (fst (cv_corl v))) ^ 2) with ((IZR a * cv_dx v / fst (fst (cv_corl v))) ^ 2) by (unfold Rdiv; ring).
  replace ((- IZR b * cv_dy v / snd (fst (cv_corl v))) ^ 2) with ((IZR b * cv_dy v / snd (fst (cv_corl v))) ^ 2) by (unfold Rdiv; ring).
  replace ((- IZR c * cv_dz v / snd (cv_corl v)) ^ 2) with ((IZR c * cv_dz v / snd (cv_corl v)) ^ 2) by (unfold Rdiv; ring).
  reflexivity.
Qed.

Theorem C133_covariance_partial co v lo hi Y E mx my mz p q a b c :
  is_field co v lo hi Y -> unit_draws (box_size lo hi) E -> box_ok lo hi -> regular co v ->
  box_size lo hi = (2 * mx + 1, 2 * my + 1, 2 * mz + 1)%nat ->
  (forall f, In f (cells (box_size lo hi)) -> 0 <= box_transform v mx my mz f) ->
  ring_distance (Z.of_nat mx) (Z.of_nat (cx p)) (Z.of_nat (cx q)) a ->
  ring_distance (Z.of_nat my) (Z.of_nat (cy p)) (Z.of_nat (cy q)) b ->
  ring_distance (Z.of_nat mz) (Z.of_nat (cz p)) (Z.of_nat (cz q)) c ->
  cov_at E Y p q = cov_of_lag v a b c - line_mean v mx b c.
Proof.
  intros HY HE Hb Hreg Hs Hpos (Ra & ka & Ea) (Rb & kb & Eb) (Rc & kc & Ec).
  destruct (is_field_ryy _ _ _ _ _ HY) as (ryy & HR & ->).
  pose proof (ryy_odd _ _ _ _ _ _ _ _ Hreg Hb Hs HR) as Hr.
  rewrite (field_cov _ _ HE) by (intros; apply spectrum_nonneg).
  rewrite Hs in *. set (cs := (Z.to_nat (a + Z.of_nat mx), Z.to_nat (b + Z.of_nat my), Z.to_nat (c + Z.of_nat mz))).
  rewrite (odd_cov mx my mz ryy p q cs).
  - rewrite Hr. unfold cs. cbn [cx cy cz fst snd]. rewrite !Z2Nat.id by lia.
    replace (a + Z.of_nat mx - Z.of_nat mx)%Z with a by lia. replace (b + Z.of_nat my - Z.of_nat my)%Z with b by lia. replace (c + Z.of_nat mz - Z.of_nat mz)%Z with c by lia.
    f_equal. unfold line_mean. f_equal. apply sumn_ext. intros i _. rewrite Hr. cbn [cx cy cz fst snd]. rewrite !Z2Nat.id by lia. f_equal; lia.
  - apply in_cells. unfold cs. cbn [cx cy cz fst snd]. lia.
  - exists ka. unfold cs. cbn [cx cy cz fst snd]. lia.
  - exists kb. unfold cs. cbn [cx cy cz fst snd]. lia.
  - exists kc. unfold cs. cbn [cx cy cz fst snd]. lia.
  - intros d Hd. apply in_cells in Hd. rewrite !Hr, <- cov_of_lag_opp. unfold reflect. cbn [cx cy cz fst snd] in *. f_equal; lia.
  - intros f Hf _. specialize (Hpos f Hf). unfold box_transform in Hpos. cbv zeta in Hpos.
    erewrite sum_cells_ext; [exact Hpos|]. intros d _. cbv beta. rewrite Hr. f_equal. f_equal. unfold cphase, centre. cbn [cx cy cz fst snd].
    rewrite !minus_IZR, <- !INR_IZR_INZ. 
    assert (EE : forall m, (INR (2 * m + 1) - 1) / 2 = INR m) by (intros m; rewrite plus_INR, mult_INR; cbn [INR]; field).
    rewrite !EE. reflexivity.
Qed.
(** So the variance is too small by the mean of the covariance over a line. *)
Theorem C133_variance_partial co v lo hi Y E mx my mz p :
  is_field co v lo hi Y -> unit_draws (box_size lo hi) E -> box_ok lo hi -> regular co v ->
  box_size lo hi = (2 * mx + 1, 2 * my + 1, 2 * mz + 1)%nat ->
  (forall f, In f (cells (box_size lo hi)) -> 0 <= box_transform v mx my mz f) ->
  cov_at E Y p p = cv_var v - line_mean v mx 0 0 /\ (0 < cv_var v -> 0 < line_mean v mx 0 0).
Proof.
  intros HY HE Hb Hreg Hs Hpos. split.
  - rewrite (C133_covariance_partial co v lo hi Y E mx my mz p p 0 0 0); try assumption; try (split; [lia|exists 0%Z; lia]).
    f_equal. unfold cov_of_lag. replace (IZR 0 * cv_dx v / fst (fst (cv_corl v))) with 0 by (unfold Rdiv; ring).
    replace (IZR 0 * cv_dy v / snd (fst (cv_corl v))) with 0 by (unfold Rdiv; ring). replace (IZR 0 * cv_dz v / snd (cv_corl v)) with 0 by (unfold Rdiv; ring).
    replace (0 ^ 2 + 0 ^ 2 + 0 ^ 2) with 0 by ring. rewrite sqrt_0, Ropp_0, exp_0. destruct (cv_model v); ring.
  - intros Hv. unfold line_mean. apply Rdiv_lt_0_compat; [|apply lt_0_INR; lia]. apply sumn_pos; [lia|]. intros i _. now apply cov_of_lag_pos.
Qed.

(** ** A concrete case

    Draws of which one at a time is different from 0, with either sign: mean 0,
    variance 1 and uncorrelated. *)
Definition spike_re (f : cell) (a : R) : noise := mkNoise (fun g => a * kron f g) (fun _ => 0).
Definition spike_im (f : cell) (a : R) : noise := mkNoise (fun _ => 0) (fun g => a * kron f g).
Definition spike_mean (s : shape) (X : noise -> R) : R :=
  let n := 2 * INR (cx s * cy s * cz s) in
  / (2 * n) * sum_cells s (fun f => (X (spike_re f (sqrt n)) + X (spike_re f (- sqrt n))) + (X (spike_im f (sqrt n)) + X (spike_im f (- sqrt n)))).
Lemma kron_sym f g : kron f g = kron g f.
Proof. unfold kron. rewrite (Nat.eqb_sym (cx f)), (Nat.eqb_sym (cy f)), (Nat.eqb_sym (cz f)). reflexivity. Qed.
Lemma spike_unit s : (0 < cx s * cy s * cz s)%nat -> unit_draws s (spike_mean s) /\ spike_mean s (fun _ => 1) = 1.
Proof.
  intros Hn. set (n := 2 * INR (cx s * cy s * cz s)). assert (Pn : 0 < n) by (unfold n; apply lt_0_INR in Hn; lra).
  assert (Sq : sqrt n * sqrt n = n) by (apply sqrt_sqrt; lra).
  assert (Zero : sum_cells s (fun _ => 0) = 0) by now apply sum_cells_zero.
  split; [split|]; unfold spike_mean; fold n.
  - intros X Y H. f_equal. apply sum_cells_ext. intros f _. now rewrite !H.
  - intros X Y. rewrite <- Rmult_plus_distr_l, <- sum_cells_plus. f_equal. apply sum_cells_ext. intros f _. ring.
  - intros a X. rewrite (sum_cells_ext s _ (fun f => a * ((X (spike_re f (sqrt n)) + X (spike_re f (- sqrt n))) + (X (spike_im f (sqrt n)) + X (spike_im f (- sqrt n)))))) by (intros; ring).
    rewrite sum_cells_scale. ring.
  - intros f _. rewrite sum_cells_zero; [ring|]. intros g _. cbn [spike_re spike_im no_re no_im]. ring.
  - intros f _. rewrite sum_cells_zero; [ring|]. intros g _. cbn [spike_re spike_im no_re no_im]. ring.
  - intros f g Hf Hg. rewrite (sum_cells_ext s _ (fun h => kron f h * ((2 * n) * kron g h))).
    + rewrite kron_sum by exact Hf. rewrite kron_sym. field. lra.
    + intros h _. cbn [spike_re spike_im no_re no_im]. rewrite (kron_sym h f), (kron_sym h g). replace (2 * n) with (2 * (sqrt n * sqrt n)) by (rewrite Sq; ring). ring.
  - intros f g Hf Hg. rewrite (sum_cells_ext s _ (fun h => kron f h * ((2 * n) * kron g h))).
    + rewrite kron_sum by exact Hf. rewrite kron_sym. field. lra.
    + intros h _. cbn [spike_re spike_im no_re no_im]. rewrite (kron_sym h f), (kron_sym h g). replace (2 * n) with (2 * (sqrt n * sqrt n)) by (rewrite Sq; ring). ring.
  - intros f g Hf Hg. rewrite sum_cells_zero; [ring|]. intros h _. cbn [spike_re spike_im no_re no_im]. ring.
  - unfold sum_cells. rewrite !sumn_const. unfold n. rewrite !mult_INR. apply lt_0_INR in Hn. rewrite !mult_INR in Hn. field.
    repeat split; intros E; rewrite E in Hn; lra.
Qed.

(** Three cells in a row: variance 2/3 (1 - 1/e) instead of 1. *)
Definition demo_cov : cov_params := mkCov Gaussian 1 1 1 1 (1, 1, 1).
Definition demo_field (e : noise) : cell -> R :=
  match specsim_field (mkCoords INR INR INR) Gaussian 1 (1, 1, 1) (mkBox (0, 0, 0)%nat (2, 0, 0)%nat) e with Ok y => y | Err _ => fun _ => 0 end.
Lemma exp_m1 : exp (- 1) < 1 / 2.
Proof.
  replace (-1) with (Ropp 1) by ring. rewrite exp_Ropp. pose proof (exp_ineq1 1 ltac:(lra)) as H. apply (Rmult_lt_reg_l (exp 1)); [apply exp_pos|].
  rewrite Rinv_r by (pose proof (exp_pos 1); lra). lra.
Qed.
Lemma demo_lag a : cov_of_lag demo_cov a 0 0 = exp (- (IZR a) ^ 2).
Proof. unfold cov_of_lag, demo_cov. cbn [cv_model cv_var cv_dx cv_dy cv_dz cv_corl fst snd]. rewrite Rmult_1_l. f_equal. field. Qed.
Lemma demo_transform f : 0 <= box_transform demo_cov 1 0 0 f.
Proof.
  unfold box_transform, sum_cells. cbn -[cov_of_lag cos PI INR]. rewrite !demo_lag.
  set (th := 2 * PI * (INR (cx f) * 1 / INR 3 + INR (cy f) * 0 / INR 1 + INR (cz f) * 0 / INR 1)).
  match goal with |- context [cos (2 * PI * (INR (cx f) * -1 / ?a + ?b + ?c))] => replace (2 * PI * (INR (cx f) * -1 / a + b + c)) with (- th) by (unfold th, Rdiv; ring) end.
  match goal with |- context [cos (2 * PI * (INR (cx f) * 0 / ?a + ?b + ?c))] => replace (2 * PI * (INR (cx f) * 0 / a + b + c)) with 0 by (unfold Rdiv; ring) end.
  rewrite cos_neg, cos_0. replace (- (-1) ^ 2) with (- 1) by ring. replace (- 0 ^ 2) with 0 by ring. replace (- 1 ^ 2) with (- 1) by ring. rewrite exp_0.
  pose proof exp_m1 as L. pose proof (exp_pos (- 1)) as P. pose proof (COS_bound th). nra.
Qed.
Example C133_example :
  is_field (mkCoords INR INR INR) demo_cov (0, 0, 0)%nat (2, 0, 0)%nat demo_field /\ regular (mkCoords INR INR INR) demo_cov /\
  unit_draws (3, 1, 1)%nat (spike_mean (3, 1, 1)%nat) /\ box_ok (0, 0, 0)%nat (2, 0, 0)%nat /\
  cov_at (spike_mean (3, 1, 1)%nat) demo_field (1, 0, 0)%nat (1, 0, 0)%nat = 2 / 3 * (1 - exp (- 1)).
Proof.
  assert (F : is_field (mkCoords INR INR INR) demo_cov (0, 0, 0)%nat (2, 0, 0)%nat demo_field) by (intros e; reflexivity).
  assert (G : regular (mkCoords INR INR INR) demo_cov) by (exists 0, 0, 0; intros i; cbn; lra).
  assert (U : unit_draws (3, 1, 1)%nat (spike_mean (3, 1, 1)%nat)) by (apply (spike_unit (3, 1, 1)%nat); cbn; lia).
  assert (B : box_ok (0, 0, 0)%nat (2, 0, 0)%nat) by (cbv; lia).
  split; [exact F|]. split; [exact G|]. split; [exact U|]. split; [exact B|].
  destruct (C133_variance_partial _ _ _ _ _ (spike_mean (3, 1, 1)%nat) 1 0 0 (1, 0, 0)%nat F U B G eq_refl) as [V _].
  { intros f _. apply demo_transform. }
  rewrite V. unfold line_mean. cbn -[cov_of_lag INR]. rewrite !demo_lag.
  replace (- (-1) ^ 2) with (- 1) by ring. replace (- 0 ^ 2) with 0 by ring. replace (- 1 ^ 2) with (- 1) by ring. rewrite exp_0. cbn [INR]. field.
Qed.

Print Assumptions C133_stationary.
Print Assumptions C133_same_variance.
Print Assumptions C133_opposite_sides_refuted.
Print Assumptions C133_covariance_refuted.
Print Assumptions C133_covariance_partial.
Print Assumptions C133_variance_partial.
Print Assumptions C133_example.
