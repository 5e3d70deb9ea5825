(** Bulb angles, gradient, periodic copies. *)
From Coq Require Import List ZArith Bool Lia Reals Lra Psatz.
From Verif Require Import Base Num FaciesModel FaciesSpec FaciesProofs FaciesProps SurfaceModel AssignModel TroughModel TroughSpec TroughProofs.
Import ListNotations.
Local Open Scope R_scope.

(** ** Ranges *)
Lemma PI_half_pos : 0 < PI / 2. Proof. pose proof PI_RGT_0. lra. Qed.
Lemma atan_quot_range u v : - (PI / 2) <= atan_quot u v <= PI / 2.
Proof.
  unfold atan_quot. pose proof PI_RGT_0. destruct (Req_EM_T v 0).
  - destruct (Rltb_spec 0 u); lra.
  - pose proof (atan_bound (u / v)). lra.
Qed.
Lemma degrees_range u : - (PI / 2) <= u <= PI / 2 -> -90 <= - u / PI * 180 <= 90.
Proof.
  intros H. pose proof PI_RGT_0 as HP.
  assert (Hi : 0 < / PI) by now apply Rinv_0_lt_compat.
  assert (E : PI * / PI = 1) by (apply Rinv_r; lra).
  unfold Rdiv. split; nra.
Qed.
Lemma clamp_range m u : 0 <= m -> - m <= clamp m u <= m.
Proof. intros. unfold clamp. destruct (Rltb_spec m u); [lra|]. destruct (Rltb_spec u (- m)); lra. Qed.
Lemma bulb_angles_range t dx dy dz az dp :
  0 <= tr_dip t -> bulb_angles t dx dy dz = (az, dp) -> -90 <= az <= 90 /\ - tr_dip t <= dp <= tr_dip t.
Proof.
  intros Hd. unfold bulb_angles.
  destruct (bulb_normal t dx dy dz) as [[[nx ny] nz]|].
  - destruct (Req_EM_T (sqrt (nx ^ 2 + ny ^ 2)) 0).
    + intros [= <- <-]. split; [lra|]. now apply clamp_range.
    + intros [= <- <-]. split; [|now apply clamp_range]. apply degrees_range, atan_quot_range.
  - intros [= <- <-]. split; [lra|]. now apply clamp_range.
Qed.

(** ** Angles of a vector *)
Lemma sgn_pos x : 0 <= x -> sgn x = 1. Proof. intros. unfold sgn. destruct (Rleb_spec 0 x); lra. Qed.
Lemma sgn_neg x : x < 0 -> sgn x = -1. Proof. intros. unfold sgn. destruct (Rleb_spec 0 x); lra. Qed.
Lemma radians_back u : radians (u / PI * 180) = u.
Proof. unfold radians. pose proof PI_RGT_0. field. lra. Qed.

(** The angles the code computes for a unit vector. *)
Definition vec_azim (nx ny : R) : R := - atan_quot (sgn nx * ny) (Rabs nx) / PI * 180.
Definition vec_dip (nx nz : R) : R :=
  if Req_EM_T nz 0 then - acos (Rabs nz) * sgn nx / PI * 180 else - acos (Rabs nz) * sgn (nx * nz) / PI * 180.

Lemma angles_parallel nx ny nz :
  nx ^ 2 + ny ^ 2 + nz ^ 2 = 1 -> nx <> 0 ->
  parallel (layer_normal (-1) (vec_azim nx ny) (vec_dip nx nz)) (nx, ny, nz).
Proof.
  intros H1 Hx. unfold parallel, layer_normal.
  set (sg := if Req_EM_T nz 0 then sgn nx else sgn (nx * nz)).
  assert (Ed : radians (vec_dip nx nz) = - acos (Rabs nz) * sg).
  { unfold vec_dip, sg. destruct (Req_EM_T nz 0); apply radians_back. }
  assert (Ea : radians (vec_azim nx ny) = - atan (ny / nx)).
  { unfold vec_azim. rewrite radians_back. f_equal. unfold atan_quot.
    destruct (Req_EM_T (Rabs nx) 0) as [E|_]; [destruct (Rabs_no_R0 nx Hx E)|]. f_equal.
    destruct (Rlt_le_dec nx 0).
    - rewrite sgn_neg, Rabs_left by assumption. field. assumption.
    - rewrite sgn_pos, Rabs_right by lra. field. assumption. }
  assert (Hsg : sg = 1 \/ sg = -1).
  { unfold sg, sgn. destruct (Req_EM_T nz 0), (Rleb 0 nx), (Rleb 0 (nx * nz)); auto. }
  pose proof (pow2_ge_0 nx). pose proof (pow2_ge_0 ny). pose proof (pow2_ge_0 nz).
  assert (Hnz : -1 <= Rabs nz <= 1).
  { pose proof (Rabs_pos nz). split; [lra|]. apply Rabs_le. split; nra. }
  set (rho := sqrt (nx ^ 2 + ny ^ 2)).
  assert (Hx2 : 0 < nx ^ 2) by (apply Rsqr_pos_lt in Hx; unfold Rsqr in Hx; lra).
  assert (Hrho : 0 < rho) by (apply sqrt_lt_R0; lra).
  assert (Hrho2 : rho * rho = nx ^ 2 + ny ^ 2) by (apply sqrt_sqrt; lra).
  assert (Ecd : cos (radians (vec_dip nx nz)) = Rabs nz).
  { rewrite Ed. destruct Hsg as [-> | ->].
    - rewrite Rmult_1_r, cos_neg. now apply cos_acos.
    - replace (- acos (Rabs nz) * -1) with (acos (Rabs nz)) by ring. now apply cos_acos. }
  assert (Esac : sin (acos (Rabs nz)) = rho).
  { rewrite sin_acos by assumption. unfold rho. f_equal. rewrite <- Rsqr_abs. unfold Rsqr. lra. }
  assert (Esd : sin (radians (vec_dip nx nz)) = - sg * rho).
  { rewrite Ed. destruct Hsg as [-> | ->].
    - rewrite Rmult_1_r, sin_neg, Esac. ring.
    - replace (- acos (Rabs nz) * -1) with (acos (Rabs nz)) by ring. rewrite Esac. ring. }
  assert (Ehyp : sqrt (1 + (ny / nx)²) = rho / Rabs nx).
  { apply Rsqr_inj.
    - apply sqrt_pos.
    - apply Rmult_le_pos; [lra|]. left. apply Rinv_0_lt_compat, Rabs_pos_lt, Hx.
    - rewrite Rsqr_sqrt; [|pose proof (Rle_0_sqr (ny / nx)); lra].
      replace ((rho / Rabs nx)²) with (rho² / (Rabs nx)²) by (unfold Rsqr; field; apply Rabs_no_R0; assumption). rewrite <- Rsqr_abs.
      unfold Rsqr. rewrite Hrho2. field. assumption. }
  assert (Hax : Rabs nx <> 0) by (apply Rabs_no_R0; assumption).
  assert (Eca : cos (radians (vec_azim nx ny)) = Rabs nx / rho).
  { rewrite Ea, cos_neg, cos_atan, Ehyp. field. split; [lra|assumption]. }
  assert (Esa : sin (radians (vec_azim nx ny)) = - (ny / nx * (Rabs nx / rho))).
  { rewrite Ea, sin_neg, sin_atan, Ehyp. field. repeat split; [lra|assumption|assumption]. }
  rewrite Ecd, Esd, Eca, Esa.
  assert (E1 : -1 * (Rabs nx / rho * (- sg * rho)) = sg * Rabs nx) by (field; lra).
  assert (E2 : - -1 * (- (ny / nx * (Rabs nx / rho)) * (- sg * rho)) = sg * Rabs nx * ny / nx) by (field; lra).
  rewrite E1, E2.
  assert (E3 : sg * Rabs nx * ny / nx * nx = sg * Rabs nx * ny) by (field; lra).
  split; [lra|].
  assert (E4 : sg * Rabs nx * nz = Rabs nz * nx).
  { unfold sg. destruct (Req_EM_T nz 0) as [->|Hz0]; [rewrite Rabs_R0; ring|].
    destruct (Rlt_le_dec nx 0), (Rlt_le_dec nz 0).
    - rewrite sgn_pos, (Rabs_left nx), (Rabs_left nz) by nra. ring.
    - rewrite sgn_neg, (Rabs_left nx), (Rabs_right nz) by nra. ring.
    - rewrite sgn_neg, (Rabs_right nx), (Rabs_left nz) by nra. ring.
    - rewrite sgn_pos, (Rabs_right nx), (Rabs_right nz) by nra. ring. }
  split; [exact E4|].
  replace (sg * Rabs nx * ny / nx * nz) with (sg * Rabs nx * nz * (ny / nx)) by (field; lra).
  rewrite E4. field. assumption.
Qed.

Lemma vec_dip_range nx nz : Rabs nz <= 1 -> -90 <= vec_dip nx nz <= 90.
Proof.
  intros H. unfold vec_dip.
  assert (Ha : 0 <= acos (Rabs nz) <= PI / 2).
  { pose proof (acos_bound (Rabs nz)) as Hb. split; [lra|].
    destruct (Rle_lt_dec (acos (Rabs nz)) (PI / 2)) as [Hle|Hlt]; [assumption|exfalso].
    pose proof PI_RGT_0. pose proof (Rabs_pos nz).
    assert (cos (acos (Rabs nz)) < 0) by (apply cos_lt_0; lra).
    rewrite cos_acos in H2 by lra. lra. }
  assert (Hs : forall u, sgn u = 1 \/ sgn u = -1) by (intros u; unfold sgn; destruct (Rleb 0 u); auto).
  assert (K : forall u, -90 <= - acos (Rabs nz) * sgn u / PI * 180 <= 90).
  { intros u. replace (- acos (Rabs nz) * sgn u) with (- (acos (Rabs nz) * sgn u)) by ring. apply degrees_range.
    destruct (Hs u) as [-> | ->]; lra. }
  destruct (Req_EM_T nz 0); apply K.
Qed.

(** ** The gradient *)
Lemma lim_ext f g x l : (forall t, f t = g t) -> derivable_pt_lim f x l -> derivable_pt_lim g x l.
Proof. intros E H eps He. destruct (H eps He) as [dl Hd]. exists dl. intros h H0 H1. rewrite <- !E. now apply Hd. Qed.
Lemma lim_quadratic A B C x : derivable_pt_lim (fun t => A * t ^ 2 + B * t + C) x (2 * A * x + B).
Proof.
  intros eps He. assert (Hd : 0 < eps / (Rabs A + 1)).
  { apply Rdiv_lt_0_compat; [assumption|]. pose proof (Rabs_pos A). lra. }
  exists (mkposreal _ Hd). intros h H0 H1. change (Rabs h < eps / (Rabs A + 1)) in H1.
  replace ((A * (x + h) ^ 2 + B * (x + h) + C - (A * x ^ 2 + B * x + C)) / h - (2 * A * x + B)) with (A * h) by (field; assumption).
  rewrite Rabs_mult. pose proof (Rabs_pos A). pose proof (Rabs_pos h).
  assert (Rabs h * (Rabs A + 1) < eps).
  { apply Rmult_lt_compat_r with (r := Rabs A + 1) in H1; [|lra]. replace (eps / (Rabs A + 1) * (Rabs A + 1)) with eps in H1 by (field; lra). exact H1. }
  nra.
Qed.

Section Gradient.
Variables (x y z a b c alpha : R).
Hypotheses (Ha : 0 < a) (Hb : 0 < b) (Hc : 0 < c).
Let C := cos (radians alpha).
Let S := sin (radians alpha).

Definition gradient (px py pz : R) : R * R * R :=
  let p := (px - x) * C + (py - y) * S in
  let q := - (px - x) * S + (py - y) * C in
  (2 * (p / a ^ 2 * C - q / b ^ 2 * S), 2 * (p / a ^ 2 * S + q / b ^ 2 * C), 2 * ((pz - z) / c ^ 2)).

Lemma gradient_ok px py pz : is_gradient (level x y z a b c alpha) px py pz (gradient px py pz).
Proof.
  unfold is_gradient, gradient. cbv zeta. repeat split.
  - set (k1 := - x * C + (py - y) * S). set (k2 := x * S + (py - y) * C).
    eapply lim_ext with (f := fun t => (C ^ 2 / a ^ 2 + S ^ 2 / b ^ 2) * t ^ 2 + (2 * C * k1 / a ^ 2 - 2 * S * k2 / b ^ 2) * t
        + (k1 ^ 2 / a ^ 2 + k2 ^ 2 / b ^ 2 + ((pz - z) / c) ^ 2)).
    + intros u. unfold level. fold C S. unfold k1, k2. field. lra.
    + match goal with |- derivable_pt_lim _ _ ?l => replace l with
        (2 * (C ^ 2 / a ^ 2 + S ^ 2 / b ^ 2) * px + (2 * C * k1 / a ^ 2 - 2 * S * k2 / b ^ 2)) end.
      * apply lim_quadratic.
      * unfold k1, k2. field. lra.
  - set (k1 := (px - x) * C - y * S). set (k2 := - (px - x) * S - y * C).
    eapply lim_ext with (f := fun t => (S ^ 2 / a ^ 2 + C ^ 2 / b ^ 2) * t ^ 2 + (2 * S * k1 / a ^ 2 + 2 * C * k2 / b ^ 2) * t
        + (k1 ^ 2 / a ^ 2 + k2 ^ 2 / b ^ 2 + ((pz - z) / c) ^ 2)).
    + intros u. unfold level. fold C S. unfold k1, k2. field. lra.
    + match goal with |- derivable_pt_lim _ _ ?l => replace l with
        (2 * (S ^ 2 / a ^ 2 + C ^ 2 / b ^ 2) * py + (2 * S * k1 / a ^ 2 + 2 * C * k2 / b ^ 2)) end.
      * apply lim_quadratic.
      * unfold k1, k2. field. lra.
  - set (k := (((px - x) * C + (py - y) * S) / a) ^ 2 + ((- (px - x) * S + (py - y) * C) / b) ^ 2).
    eapply lim_ext with (f := fun t => (1 / c ^ 2) * t ^ 2 + (- 2 * z / c ^ 2) * t + (k + z ^ 2 / c ^ 2)).
    + intros u. unfold level. fold C S. fold k. field. lra.
    + match goal with |- derivable_pt_lim _ _ ?l => replace l with
        (2 * (1 / c ^ 2) * pz + (- 2 * z / c ^ 2)) end.
      * apply lim_quadratic.
      * field. lra.
Qed.
Lemma gradient_unique px py pz g : is_gradient (level x y z a b c alpha) px py pz g -> g = gradient px py pz.
Proof.
  pose proof (gradient_ok px py pz) as H. destruct (gradient px py pz) as [[h1 h2] h3]. destruct g as [[g1 g2] g3].
  destruct H as (H1 & H2 & H3). intros (G1 & G2 & G3).
  rewrite (uniqueness_limite _ _ _ _ G1 H1), (uniqueness_limite _ _ _ _ G2 H2), (uniqueness_limite _ _ _ _ G3 H3). reflexivity.
Qed.
End Gradient.

(** Turning by -2*alpha around the vertical. *)
Definition turned (alpha : R) (g : R * R * R) : R * R * R :=
  let '(g1, g2, g3) := g in
  let th := 2 * radians alpha in
  (g1 * cos th + g2 * sin th, - g1 * sin th + g2 * cos th, g3).

Lemma parallel_scale u v k : k <> 0 -> parallel u v -> parallel u (let '(v1, v2, v3) := v in (k * v1, k * v2, k * v3)).
Proof.
  destruct u as [[u1 u2] u3], v as [[v1 v2] v3]. cbn. intros Hk (H1 & H2 & H3).
  replace (u1 * (k * v2)) with (k * (u1 * v2)) by ring. replace (u1 * (k * v3)) with (k * (u1 * v3)) by ring.
  replace (u2 * (k * v3)) with (k * (u2 * v3)) by ring. rewrite H1, H2, H3. repeat split; ring.
Qed.

(** What the code calls normal vector is the turned gradient. *)
Lemma bulb_normal_turned tt x y z a b c alpha d t px py pz :
  built tt x y z a b c alpha d t -> 0 < a -> 0 < b -> 0 < c ->
  forall t1 t2 t3, turned alpha (gradient x y z a b c alpha px py pz) = (t1, t2, t3) -> t1 <> 0 ->
  exists nx ny nz k, bulb_normal t (px - x) (py - y) (pz - z) = Some (nx, ny, nz) /\
    nx ^ 2 + ny ^ 2 + nz ^ 2 = 1 /\ nx <> 0 /\ 0 < k /\ t1 = k * nx /\ t2 = k * ny /\ t3 = k * nz.
Proof.
  intros B Ha Hb Hc t1 t2 t3. unfold turned, gradient. cbv zeta.
  rewrite cos_2a, sin_2a.
  unfold bulb_normal, norm_x, norm_y, norm_z. cbv zeta.
  rewrite (b_a _ _ _ _ _ _ _ _ _ _ B), (b_b _ _ _ _ _ _ _ _ _ _ B), (b_c _ _ _ _ _ _ _ _ _ _ B), (b_sin _ _ _ _ _ _ _ _ _ _ B), (b_cos _ _ _ _ _ _ _ _ _ _ B).
  pose proof (sc2 (radians alpha)) as Hsc.
  set (C := cos (radians alpha)) in *. set (S := sin (radians alpha)) in *.
  set (p := (px - x) * C + (py - y) * S). set (q := - (px - x) * S + (py - y) * C).
  replace (p / a / a) with (p / a ^ 2) by (field; lra). replace (q / b / b) with (q / b ^ 2) by (field; lra).
  replace ((pz - z) / c / c) with ((pz - z) / c ^ 2) by (field; lra).
  set (A := p / a ^ 2). set (B' := q / b ^ 2). set (W := (pz - z) / c ^ 2).
  intros E Ht.
  assert (E1 : t1 = 2 * (A * C + B' * S)).
  { injection E as <- _ _. replace (2 * (A * C - B' * S) * (C * C - S * S) + 2 * (A * S + B' * C) * (2 * S * C))
      with (2 * (A * C + B' * S) * (C * C + S * S)) by ring. rewrite Hsc. ring. }
  assert (E2 : t2 = 2 * (- A * S + B' * C)).
  { injection E as _ <- _. replace (- (2 * (A * C - B' * S)) * (2 * S * C) + 2 * (A * S + B' * C) * (C * C - S * S))
      with (2 * (- A * S + B' * C) * (C * C + S * S)) by ring. rewrite Hsc. ring. }
  assert (E3 : t3 = 2 * W) by (injection E as _ _ <-; reflexivity).
  clear E.
  set (len := sqrt (A ^ 2 + B' ^ 2 + W ^ 2)).
  pose proof (pow2_ge_0 A). pose proof (pow2_ge_0 B'). pose proof (pow2_ge_0 W).
  assert (Hlen2 : len * len = A ^ 2 + B' ^ 2 + W ^ 2) by (apply sqrt_sqrt; lra).
  pose proof (sqrt_pos (A ^ 2 + B' ^ 2 + W ^ 2)) as Hlen0. fold len in Hlen0.
  assert (Hlen : len <> 0).
  { intros E0. rewrite E0 in Hlen2. assert (A = 0) by nra. assert (B' = 0) by nra. subst A B'. apply Ht. rewrite E1, H2, H3. ring. }
  destruct (Req_EM_T len 0) as [E0|_]; [contradiction|].
  exists ((A * C + B' * S) / len), ((- A * S + B' * C) / len), (W / len), (2 * len).
  split; [reflexivity|]. split; [|split; [|split; [lra|]]].
  - replace (((A * C + B' * S) / len) ^ 2 + ((- A * S + B' * C) / len) ^ 2 + (W / len) ^ 2)
      with (((A ^ 2 + B' ^ 2) * (C * C + S * S) + W ^ 2) / (len * len)) by (field; assumption).
    rewrite Hsc, Hlen2. field. rewrite <- Hlen2. nra.
  - intros E0. apply Ht. rewrite E1. replace (A * C + B' * S) with ((A * C + B' * S) / len * len) by (field; assumption). rewrite E0. ring.
  - rewrite E1, E2, E3. repeat split; field; assumption.
Qed.

(** ** Periodic copies *)
Lemma wrap_range l u : 0 < l -> Rabs u <= 3 / 2 * l ->
  exists i, (i = -1 \/ i = 0 \/ i = 1)%Z /\ wrap true l u = u - IZR i * l /\ - (l / 2) <= wrap true l u <= l / 2.
Proof.
  intros Hl Hu.
  assert (- (3 / 2 * l) <= u <= 3 / 2 * l).
  { pose proof (Rle_abs u). pose proof (Rle_abs (- u)). rewrite Rabs_Ropp in H0. lra. }
  unfold wrap. destruct (Rltb_spec (l / 2) u); [|destruct (Rltb_spec u (- l / 2))].
  - exists 1%Z. split; [tauto|]. split; [cbn; lra|lra].
  - exists (-1)%Z. split; [tauto|]. split; [cbn; lra|lra].
  - exists 0%Z. split; [tauto|]. split; [cbn; lra|lra].
Qed.

Lemma l2_opp t dx dy dz : l2 t (- dx) (- dy) dz = l2 t dx dy dz.
Proof.
  unfold l2, norm_x, norm_y.
  replace (((- dx * tr_cos t + - dy * tr_sin t) / tr_a t) ^ 2) with (((dx * tr_cos t + dy * tr_sin t) / tr_a t) ^ 2) by (unfold Rdiv; ring).
  replace (((- - dx * tr_sin t + - dy * tr_cos t) / tr_b t) ^ 2) with (((- dx * tr_sin t + dy * tr_cos t) / tr_b t) ^ 2) by (unfold Rdiv; ring).
  reflexivity.
Qed.

(** Two representatives in [-l/2, l/2] of the same class are equal or the two
    ends. *)
Lemma half_reps l u v k : 0 < l -> - (l / 2) <= u <= l / 2 -> - (l / 2) <= v <= l / 2 -> u = v + IZR k * l ->
  u = v \/ (u = - v /\ (v = l / 2 \/ v = - (l / 2))).
Proof.
  intros Hl Hu Hv E.
  assert (H1 : IZR k * l <= 1 * l) by lra. assert (H2 : -1 * l <= IZR k * l) by lra.
  apply Rmult_le_reg_r in H1; [|assumption]. apply Rmult_le_reg_r in H2; [|assumption].
  apply le_IZR in H1, H2. assert (k = -1 \/ k = 0 \/ k = 1)%Z as [-> | [-> | ->]] by lia.
  - right. split; lra.
  - left. lra.
  - right. split; lra.
Qed.
