(** Lemmas about the statistics of random fields. *)
From Coq Require Import List ZArith Bool Lia Reals Lra Psatz.
From Verif Require Import Base Num ArrayModel ArrayProofs SpecsimModel SpecsimSpec SpecsimProofs CovSpec.
Import ListNotations.
Local Open Scope R_scope.

(** ** Sums *)
Lemma sum_cells_ext s f g : (forall c, In c (cells s) -> f c = g c) -> sum_cells s f = sum_cells s g.
Proof.
  intros H. unfold sum_cells. apply sumn_ext. intros i Hi. apply sumn_ext. intros j Hj. apply sumn_ext. intros k Hk.
  apply H, in_cells. cbn. lia.
Qed.
Lemma sum_cells_plus s f g : sum_cells s (fun c => f c + g c) = sum_cells s f + sum_cells s g.
Proof.
  unfold sum_cells. rewrite <- sumn_plus. apply sumn_ext. intros i _. rewrite <- sumn_plus. apply sumn_ext. intros j _. apply sumn_plus.
Qed.
Lemma sum_cells_scale s a f : sum_cells s (fun c => a * f c) = a * sum_cells s f.
Proof.
  unfold sum_cells. rewrite <- sumn_scale. apply sumn_ext. intros i _. rewrite <- sumn_scale. apply sumn_ext. intros j _. apply sumn_scale.
Qed.
Lemma sum_cells_swap2 s t f : sum_cells s (fun c => sum_cells t (fun d => f c d)) = sum_cells t (fun d => sum_cells s (fun c => f c d)).
Proof.
  unfold sum_cells at 1. unfold sum_cells at 2.
  rewrite (sumn_ext _ _ (fun i => sumn (cy s) (fun j => sum_cells t (fun d => sumn (cz s) (fun k => f (i, j, k) d))))) by
    (intros i _; apply sumn_ext; intros j _; apply sum_cells_swap).
  rewrite (sumn_ext _ _ (fun i => sum_cells t (fun d => sumn (cy s) (fun j => sumn (cz s) (fun k => f (i, j, k) d))))) by
    (intros i _; apply sum_cells_swap).
  apply sum_cells_swap.
Qed.
Lemma sumn_pick n (f : nat) g : (f < n)%nat -> sumn n (fun i => if Nat.eqb f i then g i else 0) = g f.
Proof.
  induction n as [|n IH]; intros H; [lia|]. cbn [sumn]. destruct (Nat.eqb_spec f n) as [->|Hn].
  - rewrite sumn_zero; [ring|]. intros i Hi. destruct (Nat.eqb_spec n i); [lia|reflexivity].
  - rewrite IH by lia. ring.
Qed.
Lemma kron_sum s f g : In f (cells s) -> sum_cells s (fun h => kron f h * g h) = g f.
Proof.
  intros H. apply in_cells in H. destruct f as [[x y] z]. cbn [cx cy cz fst snd] in H. unfold sum_cells.
  rewrite (sumn_ext _ _ (fun i => if Nat.eqb x i then g (x, y, z) else 0)).
  - rewrite (sumn_pick _ x (fun _ => g (x, y, z))) by lia. reflexivity.
  - intros i _. destruct (Nat.eqb_spec x i) as [<-|Hx].
    + rewrite (sumn_ext _ _ (fun j => if Nat.eqb y j then g (x, y, z) else 0)).
      * rewrite (sumn_pick _ y (fun _ => g (x, y, z))) by lia. reflexivity.
      * intros j _. destruct (Nat.eqb_spec y j) as [<-|Hy].
        -- rewrite (sumn_ext _ _ (fun k => if Nat.eqb z k then g (x, y, k) else 0)).
           ++ rewrite (sumn_pick _ z (fun k => g (x, y, k))) by lia. reflexivity.
           ++ intros k _. unfold kron. cbn [cx cy cz fst snd]. rewrite !Nat.eqb_refl. cbn [andb]. destruct (Nat.eqb z k); ring.
        -- apply sumn_zero. intros k _. unfold kron. cbn [cx cy cz fst snd]. destruct (Nat.eqb_spec y j); [lia|]. rewrite andb_false_r. cbn. ring.
    + apply sumn_zero. intros j _. apply sumn_zero. intros k _. unfold kron. cbn [cx cy cz fst snd]. destruct (Nat.eqb_spec x i); [lia|]. cbn. ring.
Qed.

(** ** Expectations *)
Section Expect.
Context (s : shape) (E : (noise -> R) -> R) (HE : unit_draws s E).
Lemma E_zero : E (fun _ => 0) = 0.
Proof. rewrite (ud_ext _ _ HE _ (fun e => 0 * (fun _ => 0) e)) by (intros; ring). rewrite (ud_scale _ _ HE). ring. Qed.
Lemma E_sumn n F : E (fun e => sumn n (fun i => F i e)) = sumn n (fun i => E (F i)).
Proof.
  induction n as [|n IH]; cbn [sumn]; [apply E_zero|]. rewrite (ud_add _ _ HE), IH. f_equal.
Qed.
Lemma E_sum t F : E (fun e => sum_cells t (fun c => F c e)) = sum_cells t (fun c => E (F c)).
Proof.
  unfold sum_cells. rewrite E_sumn. apply sumn_ext. intros i _. rewrite E_sumn. apply sumn_ext. intros j _. apply E_sumn.
Qed.

Lemma field_mean r c : mean_at E (fun e => field s r e) c = 0.
Proof.
  unfold mean_at, field. rewrite E_sum. apply sum_cells_zero. intros f Hf. rewrite (ud_scale _ _ HE).
  rewrite (ud_ext _ _ HE _ (fun e => cos (phase s f c) * no_re e f + (- sin (phase s f c)) * no_im e f)) by (intros; ring).
  rewrite (ud_add _ _ HE), !(ud_scale _ _ HE), (ud_re _ _ HE), (ud_im _ _ HE) by assumption. ring.
Qed.

Lemma field_cov r c d : (forall f, In f (cells s) -> 0 <= r f) ->
  cov_at E (fun e => field s r e) c d = sum_cells s (fun f => r f * cos (phase s f c - phase s f d)).
Proof.
  intros Hr. unfold cov_at, field.
  rewrite (ud_ext _ _ HE _ (fun e => sum_cells s (fun f => sum_cells s (fun g =>
    (sqrt (r f) * (no_re e f * cos (phase s f c) - no_im e f * sin (phase s f c))) *
    (sqrt (r g) * (no_re e g * cos (phase s g d) - no_im e g * sin (phase s g d))))))).
  2:{ intros e. rewrite Rmult_comm, <- sum_cells_scale. apply sum_cells_ext. intros f _. rewrite Rmult_comm. now rewrite <- sum_cells_scale. }
  rewrite E_sum. apply sum_cells_ext. intros f Hf. rewrite E_sum.
  rewrite (sum_cells_ext _ _ (fun g => kron f g * (sqrt (r f) * sqrt (r g) * (cos (phase s f c) * cos (phase s g d) + sin (phase s f c) * sin (phase s g d))))).
  - rewrite (kron_sum s f (fun g => sqrt (r f) * sqrt (r g) * (cos (phase s f c) * cos (phase s g d) + sin (phase s f c) * sin (phase s g d)))) by exact Hf.
    rewrite sqrt_sqrt by (apply Hr, Hf). now rewrite cos_minus.
  - intros g Hg. set (a := sqrt (r f)). set (b := sqrt (r g)).
    set (C := cos (phase s f c)). set (S := sin (phase s f c)). set (C' := cos (phase s g d)). set (S' := sin (phase s g d)).
    rewrite (ud_ext _ _ HE _ (fun e => (a * b) * ((C * C') * (no_re e f * no_re e g) + ((S * S') * (no_im e f * no_im e g) +
               ((- (C * S')) * (no_re e f * no_im e g) + (- (S * C')) * (no_re e g * no_im e f)))))) by (intros; ring).
    rewrite (ud_scale _ _ HE), !(ud_add _ _ HE), !(ud_scale _ _ HE).
    rewrite (ud_rere _ _ HE), (ud_imim _ _ HE), !(ud_reim _ _ HE) by assumption. ring.
Qed.
End Expect.

(** ** Periods *)
Lemma cos_Z x k : cos (x + 2 * PI * IZR k) = cos x.
Proof.
  destruct (Z_le_gt_dec 0 k) as [H|H].
  - rewrite <- (Z2Nat.id k) at 1 by lia. rewrite <- INR_IZR_INZ. replace (x + 2 * PI * INR (Z.to_nat k)) with (x + 2 * INR (Z.to_nat k) * PI) by ring. apply cos_period.
  - rewrite <- (cos_period (x + 2 * PI * IZR k) (Z.to_nat (- k))). rewrite INR_IZR_INZ, Z2Nat.id by lia. f_equal. rewrite opp_IZR. ring.
Qed.
Lemma sin_Z x k : sin (x + 2 * PI * IZR k) = sin x.
Proof.
  destruct (Z_le_gt_dec 0 k) as [H|H].
  - rewrite <- (Z2Nat.id k) at 1 by lia. rewrite <- INR_IZR_INZ. replace (x + 2 * PI * INR (Z.to_nat k)) with (x + 2 * INR (Z.to_nat k) * PI) by ring. apply sin_period.
  - rewrite <- (sin_period (x + 2 * PI * IZR k) (Z.to_nat (- k))). rewrite INR_IZR_INZ, Z2Nat.id by lia. f_equal. rewrite opp_IZR. ring.
Qed.

Lemma lag_phase n f a b a' b' : (0 < n)%nat -> same_lag n a b a' b' ->
  exists k : Z, INR f * INR a / INR n - INR f * INR b / INR n = INR f * INR a' / INR n - INR f * INR b' / INR n + IZR k.
Proof.
  intros Hn (k & Hk). exists (Z.of_nat f * k)%Z. apply (f_equal IZR) in Hk. rewrite plus_IZR, !minus_IZR, mult_IZR in Hk.
  rewrite mult_IZR. rewrite !INR_IZR_INZ. assert (IZR (Z.of_nat n) <> 0) by (apply not_0_IZR; lia).
  replace (IZR (Z.of_nat f) * IZR (Z.of_nat a) / IZR (Z.of_nat n) - IZR (Z.of_nat f) * IZR (Z.of_nat b) / IZR (Z.of_nat n))
    with (IZR (Z.of_nat f) * (IZR (Z.of_nat a) - IZR (Z.of_nat b)) / IZR (Z.of_nat n)) by (field; assumption).
  rewrite Hk. field. assumption.
Qed.
Lemma lag_cos s f c d c' d' : (0 < cx s)%nat -> (0 < cy s)%nat -> (0 < cz s)%nat ->
  same_lag (cx s) (cx c) (cx d) (cx c') (cx d') -> same_lag (cy s) (cy c) (cy d) (cy c') (cy d') -> same_lag (cz s) (cz c) (cz d) (cz c') (cz d') ->
  cos (phase s f c - phase s f d) = cos (phase s f c' - phase s f d').
Proof.
  intros Hx Hy Hz Lx Ly Lz. destruct (lag_phase _ (cx f) _ _ _ _ Hx Lx) as (k1 & E1).
  destruct (lag_phase _ (cy f) _ _ _ _ Hy Ly) as (k2 & E2). destruct (lag_phase _ (cz f) _ _ _ _ Hz Lz) as (k3 & E3).
  rewrite <- (cos_Z (phase s f c' - phase s f d') (k1 + k2 + k3)). f_equal. rewrite !plus_IZR. unfold phase. nra.
Qed.

Lemma spectrum_nonneg s ryy f : 0 <= spectrum s ryy f.
Proof.
  unfold spectrum. destruct (Nat.eqb (cx f) 0); [lra|].
  destruct (Nat.eq_dec (cx s * cy s * cz s) 0) as [->|H].
  - cbn [INR]. unfold Rdiv. rewrite Rinv_0. lra.
  - apply Rmult_le_pos; [apply sqrt_pos|]. apply Rlt_le, Rinv_0_lt_compat, lt_0_INR. lia.
Qed.

(** ** Rotated and reversed sums *)
Lemma sumn_front n f : sumn (S n) f = f 0%nat + sumn n (fun i => f (S i)).
Proof. induction n as [|n IH]; [cbn; ring|]. cbn [sumn] in *. rewrite IH. ring. Qed.
Lemma sumn_rot n k g : (0 < n)%nat -> sumn n (fun i => g ((i + k) mod n)%nat) = sumn n g.
Proof.
  intros Hn. induction k as [|k IH].
  - apply sumn_ext. intros i Hi. rewrite Nat.add_0_r, Nat.mod_small by exact Hi. reflexivity.
  - rewrite <- IH. destruct n as [|m]; [lia|]. rewrite (sumn_front m (fun i => g ((i + k) mod S m)%nat)). cbn [sumn]. rewrite Rplus_comm. f_equal.
    + f_equal. replace (m + S k)%nat with (0 + k + 1 * S m)%nat by lia. apply Nat.mod_add. lia.
    + apply sumn_ext. intros i _. f_equal. f_equal. lia.
Qed.
Lemma sumn_rev n g : sumn n g = sumn n (fun i => g (n - 1 - i)%nat).
Proof.
  induction n as [|n IH]; [reflexivity|]. rewrite (sumn_front n (fun i => g (S n - 1 - i)%nat)). cbn [sumn]. rewrite IH, Rplus_comm. f_equal.
  - f_equal. lia.
  - apply sumn_ext. intros i Hi. f_equal. lia.
Qed.
Definition reflect (s : shape) (c : cell) : cell := (cx s - 1 - cx c, cy s - 1 - cy c, cz s - 1 - cz c)%nat.
Lemma sum_cells_reflect s g : sum_cells s g = sum_cells s (fun c => g (reflect s c)).
Proof.
  unfold sum_cells, reflect. cbn [cx cy cz fst snd]. rewrite sumn_rev. apply sumn_ext. intros i _. rewrite sumn_rev. apply sumn_ext. intros j _. apply (sumn_rev (cz s) (fun k => g (_, _, k))).
Qed.
Definition rotate (s : shape) (kx ky kz : nat) (c : cell) : cell :=
  ((cx c + kx) mod cx s, (cy c + ky) mod cy s, (cz c + kz) mod cz s)%nat.
Lemma sum_cells_rotate s kx ky kz g : (0 < cx s)%nat -> (0 < cy s)%nat -> (0 < cz s)%nat ->
  sum_cells s (fun c => g (rotate s kx ky kz c)) = sum_cells s g.
Proof.
  intros Hx Hy Hz. unfold sum_cells, rotate. cbn [cx cy cz fst snd].
  rewrite (sumn_rot (cx s) kx (fun i => sumn (cy s) (fun j => sumn (cz s) (fun k => g (i, ((j + ky) mod cy s)%nat, ((k + kz) mod cz s)%nat))))) by exact Hx.
  apply sumn_ext. intros i _. rewrite (sumn_rot (cy s) ky (fun j => sumn (cz s) (fun k => g (i, j, ((k + kz) mod cz s)%nat)))) by exact Hy.
  apply sumn_ext. intros j _. apply (sumn_rot (cz s) kz (fun k => g (i, j, k))). exact Hz.
Qed.

(** ** The spectrum *)
Definition centre (n i : nat) : R := INR i - (INR n - 1) / 2.
Definition cphase (s : shape) (f c : cell) : R :=
  2 * PI * (INR (cx f) * centre (cx s) (cx c) / INR (cx s) + INR (cy f) * centre (cy s) (cy c) / INR (cy s) + INR (cz f) * centre (cz s) (cz c) / INR (cz s)).
Definition offs (s : shape) (f : cell) : R :=
  let o n := INR (n / 2) + (INR n - 1) / 2 in
  2 * PI * (INR (cx f) * o (cx s) / INR (cx s) + INR (cy f) * o (cy s) / INR (cy s) + INR (cz f) * o (cz s) / INR (cz s)).

Lemma rot_phase n f i : (i < n)%nat -> exists k : Z,
  INR f * INR i / INR n = INR f * (centre n ((i + (n - n / 2)) mod n) + (INR (n / 2) + (INR n - 1) / 2)) / INR n + IZR k.
Proof.
  intros Hi. pose proof (Nat.div_le_upper_bound n 2 n ltac:(lia) ltac:(lia)) as Hh.
  pose proof (Nat.div_mod (i + (n - n / 2)) n ltac:(lia)) as Hd. set (q := ((i + (n - n / 2)) / n)%nat) in *. set (r := ((i + (n - n / 2)) mod n)%nat) in *.
  exists (Z.of_nat f * (Z.of_nat q - 1))%Z. unfold centre. rewrite mult_IZR, minus_IZR, <- !INR_IZR_INZ.
  assert (Hn : INR n <> 0) by (apply not_0_INR; lia).
  assert (E : INR i + INR n - INR (n / 2) = INR n * INR q + INR r).
  { apply (f_equal INR) in Hd. rewrite plus_INR, minus_INR, plus_INR, mult_INR in Hd by lia. lra. }
  replace (INR i) with (INR n * INR q + INR r - INR n + INR (n / 2)) by lra. field. exact Hn.
Qed.
Lemma shift_phase s f c : In c (cells s) ->
  exists k : Z, phase s f c = cphase s f (rotate s (cx s - cx s / 2) (cy s - cy s / 2) (cz s - cz s / 2) c) + offs s f + 2 * PI * IZR k.
Proof.
  intros H. apply in_cells in H. destruct H as (Hx & Hy & Hz).
  destruct (rot_phase _ (cx f) _ Hx) as (k1 & E1), (rot_phase _ (cy f) _ Hy) as (k2 & E2), (rot_phase _ (cz f) _ Hz) as (k3 & E3).
  exists (k1 + k2 + k3)%Z. unfold phase. rewrite E1, E2, E3. unfold cphase, offs, rotate. cbn [cx cy cz fst snd]. rewrite !plus_IZR.
  assert (INR (cx s) <> 0) by (apply not_0_INR; lia). assert (INR (cy s) <> 0) by (apply not_0_INR; lia). assert (INR (cz s) <> 0) by (apply not_0_INR; lia).
  field. auto.
Qed.
Lemma reflect_phase s f c : In c (cells s) -> cphase s f (reflect s c) = - cphase s f c.
Proof.
  intros H. apply in_cells in H. destruct H as (Hx & Hy & Hz).
  assert (INR (cx s) <> 0) by (apply not_0_INR; lia). assert (INR (cy s) <> 0) by (apply not_0_INR; lia). assert (INR (cz s) <> 0) by (apply not_0_INR; lia).
  unfold cphase, reflect, centre. cbn [cx cy cz fst snd]. rewrite !minus_INR by lia. cbn [INR]. field. auto.
Qed.
Lemma symmetric_sin s r f : (forall c, In c (cells s) -> r (reflect s c) = r c) -> sum_cells s (fun c => r c * sin (cphase s f c)) = 0.
Proof.
  intros H. set (S := sum_cells s (fun c => r c * sin (cphase s f c))).
  assert (E : S = - S); [|lra]. unfold S at 1. rewrite sum_cells_reflect.
  replace (- S) with (-1 * S) by ring. unfold S. rewrite <- sum_cells_scale. apply sum_cells_ext. intros c Hc.
  rewrite H, reflect_phase, sin_neg by exact Hc. ring.
Qed.
Lemma spectrum_centre s ryy f : (0 < cx s)%nat -> (0 < cy s)%nat -> (0 < cz s)%nat -> cx f <> 0%nat ->
  (forall c, In c (cells s) -> ryy (reflect s c) = ryy c) ->
  spectrum s ryy f = Rabs (sum_cells s (fun c => ryy c * cos (cphase s f c))) / INR (cx s * cy s * cz s).
Proof.
  intros Hx Hy Hz Hf Hsym. unfold spectrum. destruct (Nat.eqb_spec (cx f) 0); [congruence|]. f_equal.
  set (T := sum_cells s (fun c => ryy c * cos (cphase s f c))).
  assert (A : sum_cells s (fun c => fftshift s ryy c * cos (phase s f c)) = T * cos (offs s f)).
  { rewrite (sum_cells_ext s _ (fun c => (fun d => ryy d * cos (cphase s f d + offs s f)) (rotate s (cx s - cx s / 2) (cy s - cy s / 2) (cz s - cz s / 2) c))).
    - rewrite (sum_cells_rotate s _ _ _ (fun d => ryy d * cos (cphase s f d + offs s f))) by assumption.
      rewrite (sum_cells_ext s _ (fun d => cos (offs s f) * (ryy d * cos (cphase s f d)) + (- sin (offs s f)) * (ryy d * sin (cphase s f d)))) by (intros; rewrite cos_plus; ring).
      rewrite sum_cells_plus, !sum_cells_scale, symmetric_sin by exact Hsym. unfold T. ring.
    - intros c Hc. cbv beta. destruct (shift_phase s f c Hc) as (k & ->). rewrite cos_Z. reflexivity. }
  assert (B : sum_cells s (fun c => - (fftshift s ryy c * sin (phase s f c))) = - (T * sin (offs s f))).
  { rewrite (sum_cells_ext s _ (fun c => (fun d => -1 * (ryy d * sin (cphase s f d + offs s f))) (rotate s (cx s - cx s / 2) (cy s - cy s / 2) (cz s - cz s / 2) c))).
    - rewrite (sum_cells_rotate s _ _ _ (fun d => -1 * (ryy d * sin (cphase s f d + offs s f)))) by assumption.
      rewrite (sum_cells_ext s _ (fun d => (- cos (offs s f)) * (ryy d * sin (cphase s f d)) + (- sin (offs s f)) * (ryy d * cos (cphase s f d)))) by (intros; rewrite sin_plus; ring).
      rewrite sum_cells_plus, !sum_cells_scale, symmetric_sin by exact Hsym. unfold T. ring.
    - intros c Hc. cbv beta. destruct (shift_phase s f c Hc) as (k & ->). rewrite sin_Z. unfold fftshift, rotate. ring. }
  rewrite A, B. replace ((T * cos (offs s f)) ^ 2 + (- (T * sin (offs s f))) ^ 2) with (T ^ 2 * (Rsqr (sin (offs s f)) + Rsqr (cos (offs s f)))) by (unfold Rsqr; ring).
  rewrite sin2_cos2, Rmult_1_r. replace (T ^ 2) with (Rsqr T) by (unfold Rsqr; ring). apply sqrt_Rsqr_abs.
Qed.

(** ** Inverse transform *)
Lemma dirichlet n d ph : (d < n)%nat ->
  sumn n (fun i => cos (2 * PI * (INR i * INR d / INR n) + ph)) = if Nat.eqb d 0 then INR n * cos ph else 0.
Proof.
  intros H. destruct (Nat.eqb_spec d 0) as [->|Hd].
  - clear H. rewrite (sumn_ext n _ (fun _ => cos ph)).
    + induction n as [|n IH]; [cbn; ring|]. cbn [sumn]. rewrite IH, S_INR. ring.
    + intros i _. f_equal. cbn [INR]. unfold Rdiv. ring.
  - rewrite (sumn_ext n _ (fun i => cos (2 * PI * (INR d * INR i / INR n) + ph))) by (intros i _; do 3 f_equal; unfold Rdiv; ring).
    apply period_sum. lia.
Qed.
Lemma sumn_const n a : sumn n (fun _ => a) = INR n * a.
Proof. induction n as [|n IH]; [cbn; ring|]. cbn [sumn]. rewrite IH, S_INR. ring. Qed.
Lemma dirichlet_yz s d ph : In d (cells s) ->
  sumn (cy s) (fun j => sumn (cz s) (fun k => cos (2 * PI * (INR j * INR (cy d) / INR (cy s)) + (2 * PI * (INR k * INR (cz d) / INR (cz s)) + ph)))) =
  if (Nat.eqb (cy d) 0 && Nat.eqb (cz d) 0)%bool then INR (cy s * cz s) * cos ph else 0.
Proof.
  intros H. apply in_cells in H. destruct H as (Hx & Hy & Hz).
  rewrite (sumn_ext (cy s) _ (fun j => sumn (cz s) (fun k => cos (2 * PI * (INR k * INR (cz d) / INR (cz s)) + (2 * PI * (INR j * INR (cy d) / INR (cy s)) + ph))))) by
    (intros j _; apply sumn_ext; intros k _; f_equal; ring).
  rewrite (sumn_ext (cy s) _ (fun j => if Nat.eqb (cz d) 0 then INR (cz s) * cos (2 * PI * (INR j * INR (cy d) / INR (cy s)) + ph) else 0)) by
    (intros j _; now rewrite dirichlet).
  destruct (Nat.eqb (cz d) 0).
  - rewrite sumn_scale, dirichlet by exact Hy. rewrite andb_true_r. destruct (Nat.eqb (cy d) 0); [rewrite mult_INR|]; ring.
  - rewrite andb_false_r. now apply sumn_zero.
Qed.
Lemma dirichlet_cells s d : In d (cells s) ->
  sum_cells s (fun f => if Nat.eqb (cx f) 0 then 0 else cos (phase s f d)) =
  INR (cx s * cy s * cz s) * kron (0, 0, 0)%nat d - (if (Nat.eqb (cy d) 0 && Nat.eqb (cz d) 0)%bool then INR (cy s * cz s) else 0).
Proof.
  intros H. pose proof H as Hc. apply in_cells in Hc. destruct Hc as (Hx & Hy & Hz).
  set (b := (Nat.eqb (cy d) 0 && Nat.eqb (cz d) 0)%bool).
  assert (A : forall i, sumn (cy s) (fun j => sumn (cz s) (fun k => cos (phase s (i, j, k) d))) =
                        if b then INR (cy s * cz s) * cos (2 * PI * (INR i * INR (cx d) / INR (cx s)) + 0) else 0).
  { intros i. unfold b. rewrite <- dirichlet_yz by exact H. apply sumn_ext. intros j _. apply sumn_ext. intros k _. f_equal. unfold phase. cbn [cx cy cz fst snd]. ring. }
  unfold sum_cells.
  rewrite (sumn_ext (cx s) _ (fun i => (if b then INR (cy s * cz s) * cos (2 * PI * (INR i * INR (cx d) / INR (cx s)) + 0) else 0) +
                                       (if Nat.eqb 0 i then (if b then - INR (cy s * cz s) else 0) else 0))).
  - rewrite sumn_plus. rewrite (sumn_pick _ 0 (fun _ => if b then - INR (cy s * cz s) else 0)) by lia.
    unfold kron. cbn [cx cy cz fst snd]. rewrite (Nat.eqb_sym 0 (cx d)), (Nat.eqb_sym 0 (cy d)), (Nat.eqb_sym 0 (cz d)), <- andb_assoc. fold b.
    destruct b.
    + rewrite sumn_scale, dirichlet by exact Hx. rewrite cos_0, andb_true_r. destruct (Nat.eqb (cx d) 0); rewrite ?mult_INR; ring.
    + rewrite andb_false_r, sumn_zero by reflexivity. ring.
  - intros i _. cbn [cx cy cz fst snd]. rewrite (Nat.eqb_sym 0 i). destruct (Nat.eqb_spec i 0) as [->|Hi].
    + rewrite sumn_zero by (intros; now apply sumn_zero). destruct b; [|ring]. cbn [INR]. replace (2 * PI * (0 * INR (cx d) / INR (cx s)) + 0) with 0 by (unfold Rdiv; ring). rewrite cos_0. ring.
    + rewrite A. destruct b; ring.
Qed.

Definition ring_index (n a b : nat) : nat := ((a + (n - b)) mod n)%nat.
Lemma ring_index_zero n a b : (a < n)%nat -> (b < n)%nat -> Nat.eqb (ring_index n a b) 0 = Nat.eqb b a.
Proof.
  intros Ha Hb. unfold ring_index. pose proof (Nat.div_mod (a + (n - b)) n ltac:(lia)) as H. pose proof (Nat.mod_upper_bound (a + (n - b)) n ltac:(lia)) as H1.
  set (q := ((a + (n - b)) / n)%nat) in *. set (r := ((a + (n - b)) mod n)%nat) in *.
  destruct (Nat.eqb_spec r 0), (Nat.eqb_spec b a); try reflexivity; exfalso.
  - assert (q = 1)%nat by nia. nia.
  - assert (q <= 1)%nat by nia. assert (q = 0 \/ q = 1)%nat as [-> | ->] by lia; lia.
Qed.
Lemma ring_index_phase n f m c p q (d : nat) : n = (2 * m + 1)%nat -> (c < n)%nat -> (d < n)%nat ->
  (exists k : Z, (Z.of_nat d - Z.of_nat m = Z.of_nat p - Z.of_nat q + k * Z.of_nat n)%Z) ->
  exists k : Z, INR f * centre n c / INR n - (INR f * INR p / INR n - INR f * INR q / INR n) = INR f * INR (ring_index n c d) / INR n + IZR k.
Proof.
  intros -> Hc Hd (k & Hk). set (n := (2 * m + 1)%nat) in *. unfold ring_index.
  pose proof (Nat.div_mod (c + (n - d)) n ltac:(lia)) as H. set (u := ((c + (n - d)) / n)%nat) in *. set (r := ((c + (n - d)) mod n)%nat) in *.
  exists (Z.of_nat f * (Z.of_nat u - 1 + k))%Z. rewrite mult_IZR, plus_IZR, minus_IZR, <- !INR_IZR_INZ.
  assert (Hn : INR n <> 0) by (apply not_0_INR; lia).
  apply (f_equal IZR) in Hk. rewrite plus_IZR, mult_IZR, !minus_IZR, <- !INR_IZR_INZ in Hk.
  apply (f_equal INR) in H. rewrite plus_INR, minus_INR, plus_INR, mult_INR in H by lia.
  assert (En : INR n = 2 * INR m + 1) by (unfold n; rewrite plus_INR, mult_INR; cbn [INR]; ring).
  unfold centre. replace (INR c - (INR n - 1) / 2) with (INR c - INR m) by (rewrite En; field).
  replace (INR p) with (INR q + INR d - INR m - IZR k * INR n) by lra. replace (INR c) with (INR n * INR u + INR r - INR n + INR d) by lra.
  field. exact Hn.
Qed.

Section Odd.
Context (mx my mz : nat).
Let s : shape := (2 * mx + 1, 2 * my + 1, 2 * mz + 1)%nat.
Let lagged (n m d p q : nat) : Prop := exists k : Z, (Z.of_nat d - Z.of_nat m = Z.of_nat p - Z.of_nat q + k * Z.of_nat n)%Z.
Lemma odd_phase f c p q cs : In c (cells s) -> In cs (cells s) ->
  lagged (cx s) mx (cx cs) (cx p) (cx q) -> lagged (cy s) my (cy cs) (cy p) (cy q) -> lagged (cz s) mz (cz cs) (cz p) (cz q) ->
  cos (cphase s f c - (phase s f p - phase s f q)) =
  cos (phase s f (ring_index (cx s) (cx c) (cx cs), ring_index (cy s) (cy c) (cy cs), ring_index (cz s) (cz c) (cz cs))).
Proof.
  intros Hc Hd Lx Ly Lz. apply in_cells in Hc. apply in_cells in Hd. destruct Hc as (Cx & Cy & Cz), Hd as (Dx & Dy & Dz).
  destruct (ring_index_phase (cx s) (cx f) mx _ _ _ _ eq_refl Cx Dx Lx) as (k1 & E1).
  destruct (ring_index_phase (cy s) (cy f) my _ _ _ _ eq_refl Cy Dy Ly) as (k2 & E2).
  destruct (ring_index_phase (cz s) (cz f) mz _ _ _ _ eq_refl Cz Dz Lz) as (k3 & E3).
  match goal with |- _ = cos ?x => rewrite <- (cos_Z x (k1 + k2 + k3)) end. f_equal. rewrite !plus_IZR. unfold cphase, phase. cbn [cx cy cz fst snd] in *. nra.
Qed.
Lemma odd_cov r p q cs : In cs (cells s) ->
  lagged (cx s) mx (cx cs) (cx p) (cx q) -> lagged (cy s) my (cy cs) (cy p) (cy q) -> lagged (cz s) mz (cz cs) (cz p) (cz q) ->
  (forall c, In c (cells s) -> r (reflect s c) = r c) ->
  (forall f, In f (cells s) -> cx f <> 0%nat -> 0 <= sum_cells s (fun c => r c * cos (cphase s f c))) ->
  sum_cells s (fun f => spectrum s r f * cos (phase s f p - phase s f q)) =
  r cs - sumn (cx s) (fun i => r (i, cy cs, cz cs)) / INR (cx s).
Proof.
  intros Hcs Lx Ly Lz Hsym Hpos.
  assert (Px : (0 < cx s)%nat) by (cbn; lia). assert (Py : (0 < cy s)%nat) by (cbn; lia). assert (Pz : (0 < cz s)%nat) by (cbn; lia).
  set (N := INR (cx s * cy s * cz s)). assert (HN : N <> 0) by (apply not_0_INR; nia).
  assert (E1 : N * sum_cells s (fun f => spectrum s r f * cos (phase s f p - phase s f q)) =
               sum_cells s (fun f => sum_cells s (fun c => r c * if Nat.eqb (cx f) 0 then 0 else cos (cphase s f c - (phase s f p - phase s f q))))).
  { rewrite <- sum_cells_scale. apply sum_cells_ext. intros f Hf. destruct (Nat.eqb_spec (cx f) 0) as [E|E].
    - unfold spectrum. rewrite E. cbn [Nat.eqb]. rewrite sum_cells_zero by (intros; ring). ring.
    - rewrite spectrum_centre by assumption. rewrite Rabs_right by (apply Rle_ge, Hpos; assumption). fold N.
      set (th := phase s f p - phase s f q).
      rewrite (sum_cells_ext s (fun c => r c * cos (cphase s f c - th)) (fun c => cos th * (r c * cos (cphase s f c)) + sin th * (r c * sin (cphase s f c)))) by (intros; rewrite cos_minus; ring).
      rewrite sum_cells_plus, !sum_cells_scale, symmetric_sin by exact Hsym. field. exact HN. }
  rewrite sum_cells_swap2 in E1.
  assert (E2 : sum_cells s (fun c => sum_cells s (fun f => r c * (if Nat.eqb (cx f) 0 then 0 else cos (cphase s f c - (phase s f p - phase s f q))))) =
               sum_cells s (fun c => N * (kron cs c * r c) + - INR (cy s * cz s) * (if (Nat.eqb (cy cs) (cy c) && Nat.eqb (cz cs) (cz c))%bool then r c else 0))).
  { apply sum_cells_ext. intros c Hc. rewrite sum_cells_scale.
    set (D := (ring_index (cx s) (cx c) (cx cs), ring_index (cy s) (cy c) (cy cs), ring_index (cz s) (cz c) (cz cs))).
    rewrite (sum_cells_ext s _ (fun f => if Nat.eqb (cx f) 0 then 0 else cos (phase s f D))).
    2:{ intros f _. destruct (Nat.eqb (cx f) 0); [reflexivity|]. now apply odd_phase. }
    pose proof Hc as Hc'. pose proof Hcs as Hcs'. apply in_cells in Hc', Hcs'.
    rewrite dirichlet_cells.
    2:{ apply in_cells. cbn [D cx cy cz fst snd]. unfold ring_index. repeat split; apply Nat.mod_upper_bound; cbn; lia. }
    unfold kron, D. cbn [cx cy cz fst snd]. rewrite !(Nat.eqb_sym 0). rewrite !ring_index_zero by tauto. fold N.
    destruct (Nat.eqb (cx cs) (cx c)), (Nat.eqb (cy cs) (cy c)), (Nat.eqb (cz cs) (cz c)); cbn [andb]; ring. }
  rewrite E2, sum_cells_plus, sum_cells_scale, sum_cells_scale, (kron_sum s cs r) in E1 by exact Hcs.
  assert (E3 : sum_cells s (fun c => if (Nat.eqb (cy cs) (cy c) && Nat.eqb (cz cs) (cz c))%bool then r c else 0) = sumn (cx s) (fun i => r (i, cy cs, cz cs))).
  { apply in_cells in Hcs. unfold sum_cells. apply sumn_ext. intros i _. cbn [cx cy cz fst snd].
    rewrite (sumn_ext _ _ (fun j => if Nat.eqb (cy cs) j then r (i, j, cz cs) else 0)).
    - rewrite (sumn_pick _ _ (fun j => r (i, j, cz cs))) by tauto. reflexivity.
    - intros j _. destruct (Nat.eqb (cy cs) j); cbn [andb]; [|now apply sumn_zero]. rewrite (sumn_pick _ _ (fun k => r (i, j, k))) by tauto. reflexivity. }
  rewrite E3 in E1. apply (Rmult_eq_reg_l N); [|exact HN]. rewrite E1. unfold N. rewrite !mult_INR. field. apply not_0_INR. lia.
Qed.
End Odd.
