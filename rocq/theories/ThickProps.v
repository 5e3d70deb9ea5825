(** C134: the thickness of layers. *)
From Coq Require Import List ZArith Bool Lia Reals Lra Psatz String.
From Verif Require Import Base Num FaciesModel FaciesProofs AssignModel SurfaceModel TroughModel TroughSpec TroughProofs TroughProps SheetModel SheetSpec SheetProps
  ChannelModel ChannelSpec ChannelProofs ChannelProps ThickSpec.
Import ListNotations.
Local Open Scope R_scope.

(** ** Truncation *)
Lemma trunc_iff (x : R) k :
  (ntrunc x = 0%Z <-> -1 < x < 1) /\ ((0 < k)%Z -> ntrunc x = k <-> IZR k <= x < IZR k + 1) /\ ((0 < k)%Z -> ntrunc x = (- k)%Z <-> - (IZR k + 1) < x <= - IZR k).
Proof.
  assert (P : forall k, (0 < k)%Z -> 1 <= IZR k) by (intros j Hj; apply (IZR_le 1); lia).
  unfold ntrunc. numR. destruct (Rleb_spec 0 x) as [H|H].
  - pose proof (Int_part_spec x) as I.
    assert (H0 : (0 <= Int_part x)%Z) by (assert (-1 < Int_part x)%Z by (apply lt_IZR; lra); lia).
    repeat split; intros; subst; try lra; try lia.
    + rewrite H1 in I. lra.
    + apply Int_part_unique. lra.
    + now apply Int_part_unique.
    + specialize (P k H1). lra.
  - pose proof (nceil_R_spec x) as I.
    assert (H0 : (nceil x <= 0)%Z) by (assert (nceil x < 1)%Z by (apply lt_IZR; lra); lia).
    repeat split; intros; subst; try lra; try lia.
    + rewrite H1 in I. lra.
    + apply nceil_R_unique. lra.
    + specialize (P k H1). lra.
    + rewrite H2, opp_IZR in I. lra.
    + rewrite H2, opp_IZR in I. lra.
    + apply nceil_R_unique. rewrite opp_IZR. lra.
Qed.
Lemma scaled_lt a b t : 0 < t -> (a < b <-> a * t < b * t).
Proof. intros H. split; [now apply Rmult_lt_compat_r|now apply Rmult_lt_reg_r]. Qed.
Lemma scaled_le a b t : 0 < t -> (a <= b <-> a * t <= b * t).
Proof. intros H. split; [apply Rmult_le_compat_r; lra|now apply Rmult_le_reg_r]. Qed.
Lemma trunc_layers {P : Type} t (u : P -> R) (n : P -> Z) mid : 0 < t -> (forall p, n p = (ntrunc (u p / t)%R + mid)%Z) -> double_layer t u n mid.
Proof.
  intros Ht Hn p. rewrite (Hn p). set (x := u p / t). assert (E : u p = x * t) by (unfold x; field; lra). rewrite E.
  split; [|split; intros k Hk].
  - destruct (trunc_iff x 0) as (T & _). rewrite (scaled_lt (-1) x t Ht), (scaled_lt x 1 t Ht), Rmult_1_l in T. replace (- t) with (-1 * t) by ring. rewrite <- T. lia.
  - destruct (trunc_iff x k) as (_ & T & _). specialize (T Hk). rewrite (scaled_le (IZR k) x t Ht), (scaled_lt x (IZR k + 1) t Ht) in T. rewrite <- T. lia.
  - destruct (trunc_iff x k) as (_ & _ & T). specialize (T Hk). rewrite (scaled_lt (- (IZR k + 1)) x t Ht), (scaled_le x (- IZR k) t Ht) in T. rewrite <- T. lia.
Qed.

(** Consequences: outside the middle layer the thickness is t, in it 2t. *)
Lemma double_layer_thickness {P : Type} t (u : P -> R) (n : P -> Z) mid p q : 0 < t -> double_layer t u n mid -> n p = n q ->
  Rabs (u p - u q) < 2 * t /\ (n p <> mid -> Rabs (u p - u q) < t).
Proof.
  intros Ht H E. assert (P1 : forall k, (0 < k)%Z -> 1 <= IZR k) by (intros j Hj; apply (IZR_le 1); lia).
  destruct (H p) as (A0 & A1 & A2), (H q) as (B0 & B1 & B2). destruct (Z.lt_trichotomy (n p) mid) as [L|[L|L]].
  - specialize (A2 (mid - n p)%Z ltac:(lia)). specialize (B2 (mid - n p)%Z ltac:(lia)). specialize (P1 (mid - n p)%Z ltac:(lia)).
    assert (A : n p = (mid - (mid - n p))%Z) by lia. assert (B : n q = (mid - (mid - n p))%Z) by lia. apply A2 in A. apply B2 in B.
    assert (Rabs (u p - u q) < t) by (apply Rabs_def1; nra). split; [nra|auto].
  - assert (A := proj1 A0 L). rewrite E in L. assert (B := proj1 B0 L). split; [apply Rabs_def1; lra|congruence].
  - specialize (A1 (n p - mid)%Z ltac:(lia)). specialize (B1 (n p - mid)%Z ltac:(lia)). specialize (P1 (n p - mid)%Z ltac:(lia)).
    assert (A : n p = (mid + (n p - mid))%Z) by lia. assert (B : n q = (mid + (n p - mid))%Z) by lia. apply A1 in A. apply B1 in B.
    assert (Rabs (u p - u q) < t) by (apply Rabs_def1; nra). split; [nra|auto].
Qed.

(** ** Troughs *)

(** Height of a place, given relative to the centre of the trough, above the
    plane of the layers through the centre. *)
Definition above_bed (az dip : R) (o : R * R * R) : R := dot (layer_normal 1 az dip) o.
Definition trough_layer_at (t : trough) (o : R * R * R) : Z := let '(dx, dy, dz) := o in dip_layer t dx dy dz.

(** The layers of dip sets: as thick as dipset_dist, except for the layer around
    the plane from which they are counted. *)
Theorem C134_trough_layers_partial tt x y z a b c alpha d t :
  new_trough tt x y z a b c alpha d = Ok t -> tr_structure t = 1%Z -> 0 < tt_dipset_dist tt ->
  exists mid,
    double_layer (tt_dipset_dist tt) (fun o => above_bed (tr_azim t) (tr_dip t) o + td_shift d * tt_dipset_dist tt) (trough_layer_at t) mid /\
    forall o o', trough_layer_at t o = trough_layer_at t o' ->
      Rabs (above_bed (tr_azim t) (tr_dip t) o - above_bed (tr_azim t) (tr_dip t) o') < 2 * tt_dipset_dist tt /\
      (trough_layer_at t o <> mid -> Rabs (above_bed (tr_azim t) (tr_dip t) o - above_bed (tr_azim t) (tr_dip t) o') < tt_dipset_dist tt).
Proof.
  intros H Hs Hld. pose proof (new_trough_built _ _ _ _ _ _ _ _ _ _ H) as B.
  destruct (b_1 _ _ _ _ _ _ _ _ _ _ B Hs) as (El & Esh & Ex & Ey & Ez & _).
  exists (Z.quot (tr_num_facies t) 2).
  assert (DL : double_layer (tt_dipset_dist tt) (fun o => above_bed (tr_azim t) (tr_dip t) o + td_shift d * tt_dipset_dist tt) (trough_layer_at t) (Z.quot (tr_num_facies t) 2)).
  { apply trunc_layers; [exact Hld|]. intros [[dx dy] dz]. unfold trough_layer_at, dip_layer. rewrite El, Esh, Ex, Ey, Ez. do 3 f_equal.
    unfold above_bed, dot, layer_normal, uniform. numR. ring. }
  split; [exact DL|]. intros o o' E.
  destruct (double_layer_thickness _ _ _ _ o o' Hld DL E) as [T1 T2]. cbv beta in T1, T2.
  replace (above_bed (tr_azim t) (tr_dip t) o + td_shift d * tt_dipset_dist tt - (above_bed (tr_azim t) (tr_dip t) o' + td_shift d * tt_dipset_dist tt))
    with (above_bed (tr_azim t) (tr_dip t) o - above_bed (tr_azim t) (tr_dip t) o') in T1, T2 by ring. auto.
Qed.

(** Refuted: every trough with dip sets that is large enough has two cells more
    than dipset_dist apart across the layers that are in one layer, so that they
    have the same facies whatever sequence of facies was drawn. *)
Lemma normal_unit az dip : let '(u, v, w) := layer_normal 1 az dip in u * u + v * v + w * w = 1.
Proof.
  unfold layer_normal. pose proof (sin2_cos2 (radians az)) as A. pose proof (sin2_cos2 (radians dip)) as D. unfold Rsqr in *.
  set (s := sin (radians dip)) in *. set (co := cos (radians dip)) in *. set (ca := cos (radians az)) in *. set (sa := sin (radians az)) in *.
  replace (1 * (ca * s) * (1 * (ca * s)) + - (1) * (sa * s) * (- (1) * (sa * s)) + co * co) with (s * s * (sa * sa + ca * ca) + co * co) by ring.
  rewrite A. lra.
Qed.
Lemma quot_sq_le X v a : 0 < v <= a -> (X / a) ^ 2 <= (X / v) ^ 2.
Proof.
  intros [H1 H2]. unfold Rdiv. rewrite !Rpow_mult_distr. apply Rmult_le_compat_l; [apply pow2_ge_0|].
  assert (/ a <= / v) by (apply Rinv_le_contravar; lra). assert (0 < / a) by (apply Rinv_0_lt_compat; lra). apply pow_incr. lra.
Qed.
Definition at_point (x y z : R) : point R := mkPoint x y z 0 0.
Theorem C134_trough_refuted tt x y z a b c alpha d t lx ly ha :
  new_trough tt x y z a b c alpha d = Ok t -> tr_structure t = 1%Z -> type_ok tt -> draw_ok d -> 0 < td_shift d ->
  0 <= cos (radians (tr_dip t)) -> 0 <= tt_lag_height tt ->
  2 * tt_dipset_dist tt <= a -> 2 * tt_dipset_dist tt <= b -> 2 * tt_dipset_dist tt + tt_lag_height tt <= c ->
  exists p q w w',
    trough_assign (mkDomain false lx ly) t ha p = Ok (Some w) /\ trough_assign (mkDomain false lx ly) t ha q = Ok (Some w') /\
    z - c + tt_lag_height tt <= p_z p /\ z - c + tt_lag_height tt <= p_z q /\ w_facies w = w_facies w' /\
    tt_dipset_dist tt < above_bed (tr_azim t) (tr_dip t) (p_x p - x, p_y p - y, p_z p - z)
                        - above_bed (tr_azim t) (tr_dip t) (p_x q - x, p_y q - y, p_z q - z).
Proof.
  intros H Hs Hok Hdr Hu Hcos Hlag Ha Hb Hc. pose proof Hok as [Hld _]. pose proof Hdr as [[_ Hu1] _].
  pose proof (new_trough_built _ _ _ _ _ _ _ _ _ _ H) as B.
  set (ld := tt_dipset_dist tt) in *. set (v := (1 + td_shift d / 2) * ld). assert (Hv : ld < v < 3 / 2 * ld) by (unfold v; nra).
  pose proof (normal_unit (tr_azim t) (tr_dip t)) as U. unfold layer_normal in U.
  set (n1 := 1 * (cos (radians (tr_azim t)) * sin (radians (tr_dip t)))) in *.
  set (n2 := - (1) * (sin (radians (tr_azim t)) * sin (radians (tr_dip t)))) in *.
  set (n3 := cos (radians (tr_dip t))) in *.
  assert (N3 : n3 <= 1) by apply COS_bound.
  destruct (C134_trough_layers_partial _ _ _ _ _ _ _ _ _ _ H Hs Hld) as (mid & DL & _).
  set (p := at_point x y z). set (q := at_point (x - v * n1) (y - v * n2) (z - v * n3)).
  assert (Lp : trough_layer_at t (0, 0, 0) = mid).
  { apply (proj1 (DL (0, 0, 0))). cbv beta. unfold above_bed, dot, layer_normal. fold n1 n2 n3. fold ld. nra. }
  assert (Lq : trough_layer_at t (- (v * n1), - (v * n2), - (v * n3)) = mid).
  { apply (proj1 (DL (- (v * n1), - (v * n2), - (v * n3)))). cbv beta. unfold above_bed, dot, layer_normal. fold n1 n2 n3. fold ld.
    replace (n1 * - (v * n1) + n2 * - (v * n2) + n3 * - (v * n3)) with (- v * (n1 * n1 + n2 * n2 + n3 * n3)) by ring. rewrite U. unfold v. nra. }
  assert (Cp : claims t 0 0 0 = true).
  { apply (claims_iff _ _ _ _ _ _ _ _ _ _ B); try lra. split; [lra|]. unfold l2, norm_x, norm_y, norm_z.
    replace ((0 * tr_cos t + 0 * tr_sin t) / tr_a t) with 0 by (unfold Rdiv; ring). replace ((- 0 * tr_sin t + 0 * tr_cos t) / tr_b t) with 0 by (unfold Rdiv; ring).
    replace (0 / tr_c t) with 0 by (unfold Rdiv; ring). lra. }
  assert (Cq : claims t (- (v * n1)) (- (v * n2)) (- (v * n3)) = true).
  { apply (claims_iff _ _ _ _ _ _ _ _ _ _ B); try lra. split; [nra|]. unfold l2, norm_x, norm_y, norm_z.
    rewrite (b_a _ _ _ _ _ _ _ _ _ _ B), (b_b _ _ _ _ _ _ _ _ _ _ B), (b_c _ _ _ _ _ _ _ _ _ _ B), (b_sin _ _ _ _ _ _ _ _ _ _ B), (b_cos _ _ _ _ _ _ _ _ _ _ B).
    pose proof (sin2_cos2 (radians alpha)) as SC. unfold Rsqr in SC. set (sn := sin (radians alpha)) in *. set (cs := cos (radians alpha)) in *.
    eapply Rle_trans; [apply Rplus_le_compat; [apply Rplus_le_compat|]; apply (quot_sq_le _ v); lra|].
    match goal with |- ?e <= 1 => replace e with ((n1 * n1 + n2 * n2) * (sn * sn + cs * cs) + n3 * n3) by (field; lra) end. rewrite SC, Rmult_1_r, U. lra. }
  assert (Wp : exists w, trough_assign (mkDomain false lx ly) t ha p = Ok (Some w) /\ layer_facies t mid = Ok (w_facies w)).
  { unfold trough_assign, offset, wrap. cbn [dm_periodic p at_point p_x p_y p_z].
    rewrite (b_x _ _ _ _ _ _ _ _ _ _ B), (b_y _ _ _ _ _ _ _ _ _ _ B), (b_z _ _ _ _ _ _ _ _ _ _ B).
    replace (x - x) with 0 by ring. replace (y - y) with 0 by ring. replace (z - z) with 0 by ring. rewrite Cp.
    unfold trough_write. rewrite (b_z _ _ _ _ _ _ _ _ _ _ B), (b_c _ _ _ _ _ _ _ _ _ _ B), (b_lag _ _ _ _ _ _ _ _ _ _ B), Hs.
    destruct (Rltb z _) eqn:E; [apply Rltb_true in E; lra|clear E]. cbn [Z.eqb Pos.eqb].
    change (dip_layer t 0 0 0) with (trough_layer_at t (0, 0, 0)). rewrite Lp.
    assert (exists f, layer_facies t mid = Ok f) as [f Ef].
    { rewrite <- Lp. unfold trough_layer_at.
      pose proof (dip_layer_range _ _ _ _ _ _ _ _ _ _ B ltac:(lra) ltac:(lra) ltac:(lra) Hok Hdr 0 0 0 Hs) as K.
      apply (claims_iff _ _ _ _ _ _ _ _ _ _ B) in Cp; try lra. specialize (K (proj2 Cp)).
      destruct (b_1 _ _ _ _ _ _ _ _ _ _ B Hs) as (_ & _ & _ & _ & _ & _ & En). unfold layer_facies. destruct (Z.ltb_spec (dip_layer t 0 0 0) 0); [lia|].
      destruct (nth_error _ _) as [f|] eqn:Ef; [eauto|]. apply nth_error_None in Ef. lia. }
    rewrite Ef. cbn [bind]. eexists. split; [reflexivity|]. reflexivity. }
  destruct Wp as (w & Hw & Fw).
  assert (Wq : exists w, trough_assign (mkDomain false lx ly) t ha q = Ok (Some w) /\ layer_facies t mid = Ok (w_facies w)).
  { unfold trough_assign, offset, wrap. cbn [dm_periodic q at_point p_x p_y p_z].
    rewrite (b_x _ _ _ _ _ _ _ _ _ _ B), (b_y _ _ _ _ _ _ _ _ _ _ B), (b_z _ _ _ _ _ _ _ _ _ _ B).
    replace (x - v * n1 - x) with (- (v * n1)) by ring. replace (y - v * n2 - y) with (- (v * n2)) by ring. replace (z - v * n3 - z) with (- (v * n3)) by ring. rewrite Cq.
    unfold trough_write. rewrite (b_z _ _ _ _ _ _ _ _ _ _ B), (b_c _ _ _ _ _ _ _ _ _ _ B), (b_lag _ _ _ _ _ _ _ _ _ _ B), Hs.
    destruct (Rltb (z - v * n3) _) eqn:E; [apply Rltb_true in E; nra|clear E]. cbn [Z.eqb Pos.eqb].
    change (dip_layer t (- (v * n1)) (- (v * n2)) (- (v * n3))) with (trough_layer_at t (- (v * n1), - (v * n2), - (v * n3))). rewrite Lq, Fw. cbn [bind]. eexists. split; reflexivity. }
  destruct Wq as (w' & Hw' & Fw').
  exists p, q, w, w'. split; [exact Hw|]. split; [exact Hw'|]. cbn [p q at_point p_x p_y p_z]. split; [lra|]. split; [nra|]. split; [congruence|].
  unfold above_bed, dot, layer_normal. fold n1 n2 n3.
  replace (n1 * (x - x) + n2 * (y - y) + n3 * (z - z) - (n1 * (x - v * n1 - x) + n2 * (y - v * n2 - y) + n3 * (z - v * n3 - z)))
    with (v * (n1 * n1 + n2 * n2 + n3 * n3)) by ring. rewrite U. lra.
Qed.

(** Bulb sets: the nested layers have the thickness bulbset_dist, measured along
    the vertical through the centre, where the ellipsoid of level l lies at the
    depth c * sqrt(l). *)
Theorem C134_bulb_sets tt x y z a b c alpha d t :
  new_trough tt x y z a b c alpha d = Ok t -> tr_structure t = 3%Z -> 0 < tt_bulbset_dist tt ->
  even_layers (tt_bulbset_dist tt)
    (fun p : R * R * R => let '(px, py, pz) := p in c * sqrt (level x y z a b c alpha px py pz) + td_shift d * c)
    (fun p : R * R * R => let '(px, py, pz) := p in bulb_layer t (px - x) (py - y) (pz - z)) /\
  (0 < c -> forall h, 0 <= h -> c * sqrt (level x y z a b c alpha x y (z - h)) = h).
Proof.
  intros H Hs Hld. pose proof (new_trough_built _ _ _ _ _ _ _ _ _ _ H) as B.
  destruct (b_3 _ _ _ _ _ _ _ _ _ _ B Hs) as (El & Esh & _). split.
  - intros [[px py] pz] k. unfold bulb_layer. rewrite El, Esh, (b_c _ _ _ _ _ _ _ _ _ _ B).
    assert (E2 : l2 t (px - x) (py - y) (pz - z) = level x y z a b c alpha px py pz).
    { unfold l2, norm_x, norm_y, norm_z, level. rewrite (b_a _ _ _ _ _ _ _ _ _ _ B), (b_b _ _ _ _ _ _ _ _ _ _ B), (b_c _ _ _ _ _ _ _ _ _ _ B), (b_sin _ _ _ _ _ _ _ _ _ _ B), (b_cos _ _ _ _ _ _ _ _ _ _ B). reflexivity. }
    rewrite E2. set (l := sqrt (level x y z a b c alpha px py pz)). unfold uniform. numR.
    set (q := (l + (0 + (1 - 0) * td_shift d)) * c / tt_bulbset_dist tt).
    assert (Eq : c * l + td_shift d * c = q * tt_bulbset_dist tt) by (unfold q; field; lra). rewrite Eq.
    rewrite <- (scaled_lt (IZR k - 1) q _ Hld), <- (scaled_le q (IZR k) _ Hld). split.
    + intros <-. apply nceil_R_spec.
    + apply nceil_R_unique.
  - intros Hc h Hh. unfold level.
    replace (((x - x) * cos (radians alpha) + (y - y) * sin (radians alpha)) / a) with 0 by (unfold Rdiv; ring).
    replace ((- (x - x) * sin (radians alpha) + (y - y) * cos (radians alpha)) / b) with 0 by (unfold Rdiv; ring).
    replace (0 ^ 2 + 0 ^ 2 + ((z - h - z) / c) ^ 2) with (Rsqr (h / c)) by (unfold Rsqr; field; lra).
    rewrite sqrt_Rsqr by (apply Rmult_le_pos; [exact Hh|apply Rlt_le, Rinv_0_lt_compat, Hc]). field. lra.
Qed.

(** ** Sheets *)
Theorem C134_sheet_layers_partial tt g zc dr sh :
  new_sheet tt g zc dr = Ok sh -> st_structure tt = S_ "dip" -> 0 < st_dipset_dist tt ->
  double_layer (st_dipset_dist tt)
    (fun p => dot (sheet_normal (sh_azim sh) (sh_dip sh)) (p_x p, p_y p, p_z p) - dot (sheet_normal (sh_azim sh) (sh_dip sh)) (middle g zc)
              - shd_shift dr * st_dipset_dist tt) (sheet_layer sh) (sh_num sh / 2).
Proof.
  intros H Hs Hld. pose proof (new_sheet_dip _ _ _ _ _ H Hs) as B. apply trunc_layers; [exact Hld|]. intros p.
  rewrite (layer_distance _ _ _ _ _ _ B). do 3 f_equal. unfold plane_distance, dot, middle, sheet_normal. ring.
Qed.
(** Refuted: the lowest layer of a sheet with horizontal layers, and in general
    the layer through the middle of its bottom, is too thick. *)
Theorem C134_sheet_refuted tt g zc dr sh width ha :
  new_sheet tt g zc dr = Ok sh -> st_structure tt = S_ "dip" -> 0 < st_dipset_dist tt -> 0 < shd_shift dr < 1 ->
  let '(n1, n2, n3) := sheet_normal (sh_azim sh) (sh_dip sh) in
  let v := (1 + shd_shift dr / 2) * st_dipset_dist tt in
  let '(mx, my, mz) := middle g zc in
  let p := at_point mx my mz in
  let q := at_point (mx + v * n1) (my + v * n2) (mz + v * n3) in
  st_dipset_dist tt < dot (n1, n2, n3) (v * n1, v * n2, v * n3) /\ sheet_layer sh p = sheet_layer sh q /\ sheet_write width sh ha p = sheet_write width sh ha q.
Proof.
  intros H Hs Hld Hu. pose proof (C134_sheet_layers_partial _ _ _ _ _ H Hs Hld) as DL.
  destruct (sheet_normal (sh_azim sh) (sh_dip sh)) as [[n1 n2] n3] eqn:En. unfold middle in *. cbv zeta.
  assert (U : n1 * n1 + n2 * n2 + n3 * n3 = 1).
  { unfold sheet_normal in En. injection En as <- <- <-. pose proof (sin2_cos2 (radians (sh_azim sh))) as A. pose proof (sin2_cos2 (radians (sh_dip sh))) as D. unfold Rsqr in *.
    set (s := sin (radians (sh_dip sh))) in *. set (co := cos (radians (sh_dip sh))) in *. set (ca := cos (radians (sh_azim sh))) in *. set (sa := sin (radians (sh_azim sh))) in *.
    replace (- s * ca * (- s * ca) + s * sa * (s * sa) + co * co) with (s * s * (sa * sa + ca * ca) + co * co) by ring. rewrite A. lra. }
  set (ld := st_dipset_dist tt) in *. set (v := (1 + shd_shift dr / 2) * ld). set (mx := g_x0 g + g_lx g / 2) in *. set (my := g_y0 g + g_ly g / 2) in *.
  assert (Hv : ld < v) by (unfold v; nra).
  assert (Lp : sheet_layer sh (at_point mx my zc) = (sh_num sh / 2)%Z).
  { apply (proj1 (DL _)). cbn [at_point p_x p_y p_z dot]. nra. }
  assert (Lq : sheet_layer sh (at_point (mx + v * n1) (my + v * n2) (zc + v * n3)) = (sh_num sh / 2)%Z).
  { apply (proj1 (DL _)). cbn [at_point p_x p_y p_z dot].
    replace (n1 * (mx + v * n1) + n2 * (my + v * n2) + n3 * (zc + v * n3) - (n1 * mx + n2 * my + n3 * zc)) with (v * (n1 * n1 + n2 * n2 + n3 * n3)) by ring.
    rewrite U. unfold v. nra. }
  split; [|split].
  - cbn [dot]. replace (n1 * (v * n1) + n2 * (v * n2) + n3 * (v * n3)) with (v * (n1 * n1 + n2 * n2 + n3 * n3)) by ring. rewrite U. lra.
  - congruence.
  - unfold sheet_write. rewrite Lp, Lq. reflexivity.
Qed.

(** ** Channels *)
Theorem C134_channel_layers_partial ct line z w dp dx dy dr c :
  new_channel ct line z w dp dx dy dr = Ok c -> ct_structure ct = S_ "dip" -> 0 < ct_dipset_dist ct ->
  double_layer (ct_dipset_dist ct) (across line z (ch_dip c) (ch_shift c)) (fun p => channel_layer c (p_x p) (p_y p) (p_z p - z)) 0.
Proof.
  intros H Hs Hld. unfold new_channel in H. rewrite Hs in H. change (pystr_eqb (S_ "dip") (S_ "dip")) with true in H. cbv iota zeta in H.
  destruct (alternating_facies _ _ _ _); [|discriminate]. cbn [bind] in H. injection H as <-.
  apply trunc_layers; [exact Hld|]. intros p. rewrite Z.add_0_r. reflexivity.
Qed.
(** Refuted: at the upstream end of every channel, two cells above each other
    and more than dipset_dist apart across the layers get the same facies. *)
Theorem C134_channel_refuted ct line z w dp dx dy dr c ha x y :
  new_channel ct line z w dp dx dy dr = Ok c -> ct_structure ct = S_ "dip" -> 0 < ct_dipset_dist ct -> 0 < cd_shift dr < 1 ->
  0 < cos (deg (ch_dip c)) -> nr_along (find_near x y line) = 0 ->
  let h := (1 + cd_shift dr / 2) * ct_dipset_dist ct / cos (deg (ch_dip c)) in
  h + ct_lag_height ct <= dp ->
  ct_dipset_dist ct < h * cos (deg (ch_dip c)) /\
  channel_write c ha (at_point x y z) = channel_write c ha (at_point x y (z - h)).
Proof.
  intros H Hs Hld Hu Hcos Hal h Hh. pose proof (C134_channel_layers_partial _ _ _ _ _ _ _ _ _ H Hs Hld) as DL.
  pose proof (new_channel_fields _ _ _ _ _ _ _ _ _ H) as (El & Ez & _ & _ & Edp & _ & _ & _ & Elag & _).
  set (ld := ct_dipset_dist ct) in *. set (co := cos (deg (ch_dip c))) in *.
  assert (Ehc : h * co = (1 + cd_shift dr / 2) * ld) by (unfold h; field; lra).
  assert (Hpos : 0 < h) by (unfold h; apply Rdiv_lt_0_compat; [nra|exact Hcos]).
  assert (Esh : ch_shift c = cd_shift dr * ld /\ ch_dipsets c = true).
  { clear - H Hs. unfold new_channel in H. rewrite Hs in H. change (pystr_eqb (S_ "dip") (S_ "dip")) with true in H. cbv iota zeta in H.
    destruct (alternating_facies _ _ _ _); [|discriminate]. cbn [bind] in H. injection H as <-. cbn [ch_shift ch_dipsets]. unfold ld, uniform. numR. split; [ring|reflexivity]. }
  destruct Esh as [Esh Eds].
  assert (Lp : channel_layer c x y (z - z) = 0%Z).
  { apply (proj1 (DL (at_point x y z))). unfold across. cbn [at_point p_x p_y p_z]. rewrite Hal, Esh. fold co. nra. }
  assert (Lq : channel_layer c x y (z - h - z) = 0%Z).
  { apply (proj1 (DL (at_point x y (z - h)))). unfold across. cbn [at_point p_x p_y p_z]. rewrite Hal, Esh. fold co.
    replace (0 * sin (deg (ch_dip c)) + (z - h - z) * co + cd_shift dr * ld) with (cd_shift dr * ld - h * co) by ring. rewrite Ehc. nra. }
  split; [rewrite Ehc; nra|]. unfold channel_write, channel_azimuth. cbn [at_point p_x p_y p_z]. rewrite Ez, Edp, Elag, Eds.
  destruct (Rltb z _) eqn:E; [apply Rltb_true in E; lra|clear E]. destruct (Rltb (z - h) _) eqn:E; [apply Rltb_true in E; lra|clear E].
  rewrite Lp, Lq. reflexivity.
Qed.

(** ** Concrete cases: horizontal layers of 1 m *)
Definition thick_trough : trough_type := mkTType (S_ "dip") [1; 2]%Z None (0, 0) (0, 0) 0 7 1 1.
Definition thick_draw : trough_draw := mkTD 0 0 0 0 (1 / 2) (fun n => n).
Lemma zero_uniform u : uniform 0 0 u = 0. Proof. unfold uniform. numR. ring. Qed.
Example C134_trough_example : exists t p q w w',
  new_trough thick_trough 0 0 0 4 4 4 0 thick_draw = Ok t /\
  trough_assign (mkDomain false 10 10) t 5 p = Ok (Some w) /\ trough_assign (mkDomain false 10 10) t 5 q = Ok (Some w') /\
  w_facies w = w_facies w' /\ 1 < p_z p - p_z q.
Proof.
  destruct (C39_constructor_total thick_trough 0 0 0 4 4 4 0 thick_draw) as [t Ht];
    try lra; [right; left; reflexivity|discriminate|exact I|split; cbn [thick_trough tt_dipset_dist tt_bulbset_dist]; lra|unfold draw_ok; cbn [thick_draw td_shift td_dip td_azim]; lra|].
  pose proof (new_trough_built _ _ _ _ _ _ _ _ _ _ Ht) as B.
  assert (Hs : tr_structure t = 1%Z).
  { clear - Ht. unfold new_trough in Ht. change (structure_code (tt_structure thick_trough) (td_structure thick_draw)) with (@Ok Z 1%Z) in Ht. cbn [bind] in Ht.
    destruct (alternating_facies _ _ _ _); [|discriminate]. cbn [bind Z.eqb] in Ht. injection Ht as <-. reflexivity. }
  assert (Hd : tr_dip t = 0) by (rewrite (b_dip _ _ _ _ _ _ _ _ _ _ B); apply zero_uniform).
  assert (Hr : radians 0 = 0) by (unfold radians; field).
  destruct (C134_trough_refuted _ _ _ _ _ _ _ _ _ _ 10 10 5 Ht Hs) as (p & q & w & w' & H1 & H2 & _ & _ & H3 & H4);
    try (cbn [thick_trough thick_draw tt_dipset_dist tt_lag_height td_shift]; lra); [split; cbn [thick_trough tt_dipset_dist tt_bulbset_dist]; lra|unfold draw_ok; cbn [thick_draw td_shift td_dip td_azim]; lra|rewrite Hd, Hr, cos_0; lra|].
  exists t, p, q, w, w'. split; [exact Ht|]. split; [exact H1|]. split; [exact H2|]. split; [exact H3|].
  revert H4. rewrite Hd. unfold above_bed, dot, layer_normal. rewrite Hr, sin_0, cos_0. cbn [thick_trough tt_dipset_dist]. lra.
Qed.

Definition thick_sheet : sheet_type := mkSheetType (S_ "dip") [1; 2]%Z None (0, 0) (0, 0) 1.
Definition thick_sheet_draw : sheet_draw := mkShD 0 0 (1 / 2) 0 (fun n => n).
Example C134_sheet_example : exists sh, new_sheet thick_sheet long_grid 0 thick_sheet_draw = Ok sh /\
  sheet_write (sh_num sh) sh 7 (at_point 500 (1 / 2) 0) = sheet_write (sh_num sh) sh 7 (at_point 500 (1 / 2) (5 / 4)).
Proof.
  assert (Hs : exists sh, new_sheet thick_sheet long_grid 0 thick_sheet_draw = Ok sh /\ sh_azim sh = 0 /\ sh_dip sh = 0).
  { unfold new_sheet. cbn [thick_sheet st_structure st_azimuth st_dip st_dipset_dist fst snd thick_sheet_draw shd_azim shd_dip shd_shift shd_array st_facies st_altfacies].
    rewrite pystr_eqb_refl. cbv zeta.
    match goal with |- context [alternating_facies ?n] => replace n with 12%Z end.
    - eexists. split; [reflexivity|]. split; apply zero_uniform.
    - rewrite zero_uniform. assert (deg 0 = 0) as -> by (unfold deg; field). rewrite sin_0, cos_0, max3_ly. cbn [long_grid g_x0 g_y0 g_lx g_ly g_lz]. rewrite (Rmax_left 1 1) by lra.
      match goal with |- _ = (nceil ?e + 10)%Z => replace (nceil e) with 2%Z end; [reflexivity|]. symmetry. apply nceil_R_unique. lra. }
  destruct Hs as (sh & H & Ha & Hd). exists sh. split; [exact H|].
  pose proof (C134_sheet_refuted _ _ _ _ _ (sh_num sh) 7%Z H eq_refl ltac:(cbn; lra) ltac:(cbn; lra)) as K. revert K. rewrite Ha, Hd. unfold sheet_normal, middle.
  assert (radians 0 = 0) as -> by (unfold radians; field). rewrite sin_0, cos_0. cbn [long_grid g_x0 g_y0 g_lx g_ly g_lz thick_sheet st_dipset_dist thick_sheet_draw shd_shift].
  intros (_ & _ & K). replace (0 + 1000 / 2) with 500 in K by field. replace (0 + 1 / 2) with (1 / 2) in K by ring.
  replace (500 + (1 + 1 / 2 / 2) * 1 * (- 0 * 1)) with 500 in K by ring. replace (1 / 2 + (1 + 1 / 2 / 2) * 1 * (0 * 0)) with (1 / 2) in K by ring.
  replace (0 + (1 + 1 / 2 / 2) * 1 * 1) with (5 / 4) in K by field. exact K.
Qed.

Definition thick_channel : channel_type := mkCType (S_ "dip") [3; 4]%Z None (0, 0) 0 7 1.
Definition thick_channel_draw : channel_draw := mkCD 0 (1 / 2) 0 (fun n => n).
Definition thick_line : list cpoint := [mkCP 0 0 1 0; mkCP 10 0 1 0].
Example C134_channel_example : exists c, new_channel thick_channel thick_line 10 8 4 1 1 thick_channel_draw = Ok c /\
  channel_write c 5 (at_point 0 0 10) = channel_write c 5 (at_point 0 0 (35 / 4)).
Proof.
  assert (Hc : exists c, new_channel thick_channel thick_line 10 8 4 1 1 thick_channel_draw = Ok c /\ ch_dip c = 0).
  { unfold new_channel. cbn [thick_channel ct_structure ct_dip fst snd ct_dipset_dist ct_facies ct_altfacies ct_lag_height ct_lag_facies thick_channel_draw cd_dip cd_shift cd_array].
    change (pystr_eqb (S_ "dip") (S_ "dip")) with true. cbv iota zeta.
    match goal with |- context [alternating_facies ?n] => replace n with 15%Z end.
    - eexists. split; [reflexivity|]. apply zero_uniform.
    - rewrite zero_uniform. assert (deg 0 = 0) as -> by (unfold deg; field). rewrite sin_0.
      match goal with |- _ = (nceil ?a + nceil ?b + 10)%Z => replace (nceil a) with 1%Z; [replace (nceil b) with 4%Z; [reflexivity|]|] end; symmetry; apply nceil_R_unique; unfold uniform; numR; lra. }
  destruct Hc as (c & H & Hd). exists c. split; [exact H|].
  assert (Hr : deg 0 = 0) by (unfold deg; field).
  destruct (C134_channel_refuted _ _ _ _ _ _ _ _ _ 5%Z 0 0 H eq_refl) as [_ K]; try (cbn; lra).
  - rewrite Hd, Hr, cos_0. lra.
  - unfold find_near, thick_line. cbn [near_loop nr_run nr_along nr_dist nr_vx nr_vy nr_sum]. unfold dist2, far. cbn [cp_x cp_y].
    replace ((0 - 0) ^ 2 + (0 - 0) ^ 2) with 0 by ring. rewrite sqrt_0.
    assert (0 < 10 ^ 100) by (apply pow_lt; lra). destruct (Rltb 0 (10 ^ 100)) eqn:E; [|apply Rltb_false in E; lra]. cbn [nr_run nr_along nr_dist nr_vx nr_vy nr_sum].
    destruct (Rltb _ 0) eqn:E2; [apply Rltb_true in E2; pose proof (sqrt_pos ((0 - 10) ^ 2 + (0 - 0) ^ 2)); lra|reflexivity].
  - rewrite Hd, Hr, cos_0. cbn. lra.
  - revert K. rewrite Hd, Hr, cos_0. cbn [thick_channel thick_channel_draw cd_shift ct_dipset_dist].
    replace (10 - (1 + 1 / 2 / 2) * 1 / 1) with (35 / 4) by field. exact (fun K => K).
Qed.

Print Assumptions C134_trough_layers_partial.
Print Assumptions C134_trough_refuted.
Print Assumptions C134_bulb_sets.
Print Assumptions C134_sheet_layers_partial.
Print Assumptions C134_sheet_refuted.
Print Assumptions C134_channel_layers_partial.
Print Assumptions C134_channel_refuted.
