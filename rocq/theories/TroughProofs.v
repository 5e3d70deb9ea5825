From Coq Require Import List ZArith Bool Lia Reals Lra Psatz.
From Verif Require Import Base Num FaciesModel FaciesSpec FaciesProofs FaciesProps SurfaceModel AssignModel TroughModel TroughSpec.
Import ListNotations.
Local Open Scope R_scope.

Lemma deg_radians x : deg x = radians x. Proof. reflexivity. Qed.
Lemma Rltb_true x y : Rltb x y = true <-> x < y.
Proof. unfold Rltb. destruct (Rleb_spec y x); cbn; split; intros; auto; try discriminate; lra. Qed.
Lemma Rltb_false x y : Rltb x y = false <-> y <= x.
Proof. unfold Rltb. destruct (Rleb_spec y x); cbn; split; intros; auto; try discriminate; lra. Qed.
Lemma Rltb_spec x y : BoolSpec (x < y) (y <= x) (Rltb x y).
Proof. destruct (Rltb x y) eqn:E; constructor; [now apply Rltb_true|now apply Rltb_false]. Qed.

Lemma sc2 x : cos x * cos x + sin x * sin x = 1.
Proof. pose proof (sin2_cos2 x) as H. unfold Rsqr in H. lra. Qed.

(** What the constructor stores. *)
Record built (tt : trough_type) (x y z a b c alpha : R) (d : trough_draw) (t : trough) : Prop := {
  b_x : tr_x t = x; b_y : tr_y t = y; b_z : tr_z t = z;
  b_a : tr_a t = a; b_b : tr_b t = b; b_c : tr_c t = c;
  b_max : tr_max_ab t = Rmax a b; b_zmin : tr_zmin t = z - c; b_zmax : tr_zmax t = z;
  b_sin : tr_sin t = sin (radians alpha); b_cos : tr_cos t = cos (radians alpha);
  b_lag : tr_lag t = tt_lag_height tt; b_lagf : tr_lag_facies t = tt_lag_facies tt;
  b_dip : tr_dip t = uniform (fst (tt_dip tt)) (snd (tt_dip tt)) (td_dip d);
  b_str : (tr_structure t = 0 \/ tr_structure t = 1 \/ tr_structure t = 2 \/ tr_structure t = 3)%Z;
  b_1 : tr_structure t = 1%Z ->
        tr_layer_dist t = tt_dipset_dist tt /\ tr_shift t = uniform 0 (tt_dipset_dist tt) (td_shift d) /\
        tr_nx t = sin (radians (tr_dip t)) * cos (radians (tr_azim t)) /\
        tr_ny t = - sin (radians (tr_dip t)) * sin (radians (tr_azim t)) /\
        tr_nz t = cos (radians (tr_dip t)) /\
        tr_num_facies t = (nceil ((2 * max3 a b c + tr_shift t) / tr_layer_dist t)%R + 2)%Z /\
        Z.of_nat (length (tr_array t)) = tr_num_facies t;
  b_3 : tr_structure t = 3%Z ->
        tr_layer_dist t = tt_bulbset_dist tt /\ tr_shift t = uniform 0 1 (td_shift d) /\
        tr_num_facies t = (nceil ((1 + tr_shift t) * c / tr_layer_dist t)%R + 1)%Z /\
        Z.of_nat (length (tr_array t)) = tr_num_facies t }.

Lemma structure_code_range s u k : structure_code s u = Ok k -> (k = 0 \/ k = 1 \/ k = 2 \/ k = 3)%Z.
Proof.
  unfold structure_code.
  pose proof (Nat.mod_upper_bound u 4 ltac:(lia)) as Hm. remember (u mod 4) as m.
  repeat match goal with |- context [if ?b then _ else _] => destruct b end; intros [= <-]; auto. lia.
Qed.

Lemma new_trough_built tt x y z a b c alpha d t :
  new_trough tt x y z a b c alpha d = Ok t -> built tt x y z a b c alpha d t.
Proof.
  unfold new_trough. rewrite !deg_radians.
  destruct (structure_code (tt_structure tt) (td_structure d)) as [s|] eqn:Es; [|discriminate].
  apply structure_code_range in Es. cbn [bind].
  destruct (Z.eqb_spec s 0); [|destruct (Z.eqb_spec s 1); [|destruct (Z.eqb_spec s 2)]].
  - destruct (choice _ _) as [f|]; [|discriminate]. cbn [bind]. intros [= <-].
    constructor; try reflexivity; cbn; auto; discriminate.
  - destruct (alternating_facies _ _ _ _) as [arr|] eqn:Ea; [|discriminate]. cbn [bind]. intros [= <-].
    apply C51_sequence in Ea as [Ea _].
    constructor; try reflexivity; cbn [tr_structure]; auto; try discriminate; intros _; cbn; repeat split; auto.
  - destruct (choice _ _) as [f|]; [|discriminate]. cbn [bind]. intros [= <-].
    constructor; try reflexivity; cbn; auto; discriminate.
  - destruct (alternating_facies _ _ _ _) as [arr|] eqn:Ea; [|discriminate]. cbn [bind]. intros [= <-].
    apply C51_sequence in Ea as [Ea _].
    constructor; try reflexivity; cbn [tr_structure]; auto; try discriminate; intros _; cbn; repeat split; auto.
Qed.

(** ** Inside test *)
Section Inside.
Variables (tt : trough_type) (x y z a b c alpha : R) (d : trough_draw) (t : trough).
Hypothesis (B : built tt x y z a b c alpha d t).
Hypotheses (Ha : 0 < a) (Hb : 0 < b) (Hc : 0 < c).

Lemma rot_norm p q : (p * cos (radians alpha) + q * sin (radians alpha)) ^ 2 + (- p * sin (radians alpha) + q * cos (radians alpha)) ^ 2 = p ^ 2 + q ^ 2.
Proof.
  pose proof (sc2 (radians alpha)) as H.
  set (C := cos (radians alpha)) in *. set (S := sin (radians alpha)) in *.
  replace ((p * C + q * S) ^ 2 + (- p * S + q * C) ^ 2) with ((p ^ 2 + q ^ 2) * (C * C + S * S)) by ring.
  rewrite H. ring.
Qed.

Lemma unit_ball_far dx dy dz : l2 t dx dy dz <= 1 ->
  dx ^ 2 + dy ^ 2 <= (Rmax a b) ^ 2 /\ dz ^ 2 <= c ^ 2 /\ dx ^ 2 + dy ^ 2 + dz ^ 2 <= (max3 a b c) ^ 2.
Proof.
  unfold l2, norm_x, norm_y, norm_z. rewrite (b_a _ _ _ _ _ _ _ _ _ _ B), (b_b _ _ _ _ _ _ _ _ _ _ B), (b_c _ _ _ _ _ _ _ _ _ _ B), (b_sin _ _ _ _ _ _ _ _ _ _ B), (b_cos _ _ _ _ _ _ _ _ _ _ B).
  pose proof (rot_norm dx dy) as Hr.
  set (p := dx * cos (radians alpha) + dy * sin (radians alpha)) in *.
  set (q := - dx * sin (radians alpha) + dy * cos (radians alpha)) in *.
  intros H.
  assert (Ep : p ^ 2 = a ^ 2 * (p / a) ^ 2) by (field; lra).
  assert (Eq : q ^ 2 = b ^ 2 * (q / b) ^ 2) by (field; lra).
  assert (Ez : dz ^ 2 = c ^ 2 * (dz / c) ^ 2) by (field; lra).
  set (u := p / a) in *. set (v := q / b) in *. set (w := dz / c) in *.
  pose proof (pow2_ge_0 u). pose proof (pow2_ge_0 v). pose proof (pow2_ge_0 w).
  pose proof (Rmax_l a b). pose proof (Rmax_r a b).
  set (m := Rmax a b) in *.
  assert (a ^ 2 <= m ^ 2) by nra. assert (b ^ 2 <= m ^ 2) by nra.
  unfold max3. fold m. pose proof (Rmax_l m c). pose proof (Rmax_r m c). set (M := Rmax m c) in *.
  assert (m ^ 2 <= M ^ 2) by nra. assert (c ^ 2 <= M ^ 2) by nra.
  rewrite <- Hr, Ep, Eq, Ez. repeat split; nra.
Qed.

Lemma sq_le_abs u m : 0 <= m -> u ^ 2 <= m ^ 2 -> - m <= u <= m.
Proof. intros. split; nra. Qed.

Lemma claims_iff dx dy dz : claims t dx dy dz = true <-> dz <= 0 /\ l2 t dx dy dz <= 1.
Proof.
  unfold claims. split.
  - destruct (too_far t dx dy dz) eqn:E; [discriminate|].
    intros H. apply negb_true_iff, Rltb_false in H. split; [|exact H].
    unfold too_far in E. apply orb_false_iff in E as [_ E]. now apply Rltb_false in E.
  - intros [Hz Hl].
    destruct (unit_ball_far _ _ _ Hl) as [H1 _].
    assert (E : too_far t dx dy dz = false).
    { unfold too_far. rewrite (b_max _ _ _ _ _ _ _ _ _ _ B).
      pose proof (Rmax_l a b). pose proof (pow2_ge_0 dx). pose proof (pow2_ge_0 dy).
      destruct (sq_le_abs dx (Rmax a b)); [lra|lra|].
      destruct (sq_le_abs dy (Rmax a b)); [lra|lra|].
      rewrite !orb_false_iff. repeat split; apply Rltb_false; lra. }
    rewrite E. apply negb_true_iff, Rltb_false. exact Hl.
Qed.

Lemma l2_half dx dy dz px py pz :
  dx = px - x -> dy = py - y -> dz = pz - z ->
  (dz <= 0 /\ l2 t dx dy dz <= 1 <-> half_ellipsoid x y z a b c alpha px py pz).
Proof.
  intros -> -> ->. unfold half_ellipsoid, l2, norm_x, norm_y, norm_z.
  rewrite (b_a _ _ _ _ _ _ _ _ _ _ B), (b_b _ _ _ _ _ _ _ _ _ _ B), (b_c _ _ _ _ _ _ _ _ _ _ B), (b_sin _ _ _ _ _ _ _ _ _ _ B), (b_cos _ _ _ _ _ _ _ _ _ _ B).
  pose proof (sc2 (radians alpha)) as H.
  set (C := cos (radians alpha)) in *. set (S := sin (radians alpha)) in *.
  split; intros [Hz Hl]; (split; [lra|]).
  - exists (((px - x) * C + (py - y) * S) / a), ((- (px - x) * S + (py - y) * C) / b), ((pz - z) / c).
    split; [lra|]. repeat split.
    + replace (a * (((px - x) * C + (py - y) * S) / a) * C - b * ((- (px - x) * S + (py - y) * C) / b) * S)
        with ((px - x) * (C * C + S * S)) by (field; lra). rewrite H. ring.
    + replace (a * (((px - x) * C + (py - y) * S) / a) * S + b * ((- (px - x) * S + (py - y) * C) / b) * C)
        with ((py - y) * (C * C + S * S)) by (field; lra). rewrite H. ring.
    + field; lra.
  - destruct Hl as (u & v & w & Hl & -> & -> & ->).
    replace (((x + (a * u * C - b * v * S) - x) * C + (y + (a * u * S + b * v * C) - y) * S) / a)
      with (u * (C * C + S * S)) by (field; lra).
    replace ((- (x + (a * u * C - b * v * S) - x) * S + (y + (a * u * S + b * v * C) - y) * C) / b)
      with (v * (C * C + S * S)) by (field; lra).
    replace ((z + c * w - z) / c) with w by (field; lra).
    rewrite H. lra.
Qed.

(** ** Layer numbers *)
Lemma ntrunc_bounds (q : R) : (q < 0 -> q <= IZR (ntrunc q) /\ (ntrunc q <= 0)%Z) /\ (0 <= q -> (0 <= ntrunc q)%Z /\ IZR (ntrunc q) <= q).
Proof.
  unfold ntrunc. numR. split; intros Hq.
  - destruct (Rleb_spec 0 q); [lra|]. pose proof (nceil_R_spec q). split; [lra|].
    assert (IZR (nceil q) < IZR 1) by lra. apply lt_IZR in H1. lia.
  - destruct (Rleb_spec 0 q); [|lra]. pose proof (Int_part_spec q). split; [|lra].
    assert (IZR (-1) < IZR (Int_part q)) by lra. apply lt_IZR in H1. lia.
Qed.

Hypotheses (Hok : type_ok tt) (Hd : draw_ok d).

Lemma dip_layer_range dx dy dz :
  tr_structure t = 1%Z -> l2 t dx dy dz <= 1 -> (0 <= dip_layer t dx dy dz < tr_num_facies t)%Z.
Proof.
  intros Hs Hl. destruct (b_1 _ _ _ _ _ _ _ _ _ _ B Hs) as (El & Esh & Ex & Ey & Ez & En & _).
  destruct (unit_ball_far _ _ _ Hl) as (_ & _ & Hball).
  destruct Hok as [Hld _]. destruct Hd as [[Hu0 Hu1] _].
  unfold dip_layer. set (M := max3 a b c) in *.
  assert (HM : 0 < M) by (unfold M, max3; pose proof (Rmax_r (Rmax a b) c); lra).
  set (num := tr_num_facies t) in *. set (ld := tr_layer_dist t) in *. set (sh := tr_shift t) in *.
  assert (Hldp : 0 < ld) by (rewrite El; exact Hld).
  assert (Hsh : 0 <= sh < ld) by (rewrite Esh, <- El; unfold uniform; numR; nra).
  set (n := dx * tr_nx t + dy * tr_ny t + dz * tr_nz t).
  assert (Hn : n ^ 2 <= M ^ 2).
  { assert (Hone : tr_nx t ^ 2 + tr_ny t ^ 2 + tr_nz t ^ 2 = 1).
    { rewrite Ex, Ey, Ez. pose proof (sc2 (radians (tr_dip t))) as H1. pose proof (sc2 (radians (tr_azim t))) as H2.
      set (S := sin (radians (tr_dip t))) in *. set (C := cos (radians (tr_dip t))) in *.
      set (S2 := sin (radians (tr_azim t))) in *. set (C2 := cos (radians (tr_azim t))) in *.
      replace ((S * C2) ^ 2 + (- S * S2) ^ 2 + C ^ 2) with (S * S * (C2 * C2 + S2 * S2) + C * C) by ring.
      rewrite H2. lra. }
    unfold n. set (p := tr_nx t) in *. set (q := tr_ny t) in *. set (r := tr_nz t) in *.
    assert (CS : (dx * p + dy * q + dz * r) ^ 2 <= (dx ^ 2 + dy ^ 2 + dz ^ 2) * (p ^ 2 + q ^ 2 + r ^ 2)).
    { replace ((dx ^ 2 + dy ^ 2 + dz ^ 2) * (p ^ 2 + q ^ 2 + r ^ 2)) with
        ((dx * p + dy * q + dz * r) ^ 2 + (dx * q - dy * p) ^ 2 + (dx * r - dz * p) ^ 2 + (dy * r - dz * q) ^ 2) by ring.
      pose proof (pow2_ge_0 (dx * q - dy * p)). pose proof (pow2_ge_0 (dx * r - dz * p)). pose proof (pow2_ge_0 (dy * r - dz * q)). lra. }
    rewrite Hone in CS. lra. }
  apply sq_le_abs in Hn; [|lra].
  set (q := (n + sh) / ld). set (m := M / ld). set (s := sh / ld).
  assert (Hm : 0 < m) by (unfold m; apply Rdiv_lt_0_compat; lra).
  assert (Hs2 : 0 <= s < 1).
  { unfold s. split; [apply Rmult_le_pos; [lra|left; apply Rinv_0_lt_compat; lra]|].
    apply Rmult_lt_reg_r with ld; [lra|]. unfold Rdiv. rewrite Rmult_assoc, Rinv_l by lra. lra. }
  assert (Hq : - m + s <= q <= m + s).
  { unfold q, m, s. split.
    - apply Rmult_le_reg_r with ld; [lra|]. field_simplify; lra.
    - apply Rmult_le_reg_r with ld; [lra|]. field_simplify; lra. }
  assert (Hnum : 2 * m + s + 2 <= IZR num).
  { rewrite En, plus_IZR. pose proof (nceil_R_spec ((2 * M + sh) / ld)) as Hc2.
    assert ((2 * M + sh) / ld = 2 * m + s) by (unfold m, s; field; lra). lra. }
  assert (Hnum0 : (0 <= num)%Z) by (apply le_IZR; lra).
  pose proof (Z.quot_rem' num 2) as Hqr. pose proof (Z.rem_bound_pos num 2 Hnum0 ltac:(lia)) as Hrb.
  set (h := Z.quot num 2) in *.
  assert (Hh : IZR num - 1 <= 2 * IZR h <= IZR num).
  { rewrite <- mult_IZR. split; [rewrite <- minus_IZR|]; apply IZR_le; lia. }
  destruct (ntrunc_bounds q) as [T1 T2].
  assert (Hk : 0 <= IZR (ntrunc q) + IZR h < IZR num).
  { destruct (Rlt_le_dec q 0) as [Hq0|Hq0].
    - destruct (T1 Hq0) as [H1 H2]. apply IZR_le in H2. lra.
    - destruct (T2 Hq0) as [H1 H2]. apply IZR_le in H1. lra. }
  rewrite <- plus_IZR in Hk. destruct Hk as [K1 K2]. apply le_IZR in K1. apply lt_IZR in K2. lia.
Qed.

Lemma bulb_layer_range dx dy dz :
  tr_structure t = 3%Z -> l2 t dx dy dz <= 1 -> (0 <= bulb_layer t dx dy dz < tr_num_facies t)%Z.
Proof.
  intros Hs Hl. destruct (b_3 _ _ _ _ _ _ _ _ _ _ B Hs) as (El & Esh & En & _).
  destruct Hok as [_ Hld]. destruct Hd as [[Hu0 Hu1] _].
  unfold bulb_layer. rewrite (b_c _ _ _ _ _ _ _ _ _ _ B), En.
  set (ld := tr_layer_dist t) in *. set (sh := tr_shift t) in *.
  assert (Hldp : 0 < ld) by (rewrite El; exact Hld).
  assert (Hsh : 0 <= sh < 1) by (rewrite Esh; unfold uniform; numR; lra).
  assert (Hq1 : sqrt (l2 t dx dy dz) <= 1) by (rewrite <- sqrt_1; now apply sqrt_le_1_alt).
  pose proof (sqrt_pos (l2 t dx dy dz)) as Hq0.
  set (r := sqrt (l2 t dx dy dz)) in *.
  assert (Hi : 0 < / ld) by now apply Rinv_0_lt_compat.
  assert (H0 : 0 <= (r + sh) * c / ld) by (apply Rmult_le_pos; [|lra]; apply Rmult_le_pos; lra).
  assert (H1 : (r + sh) * c / ld <= (1 + sh) * c / ld).
  { apply Rmult_le_compat_r; [lra|]. apply Rmult_le_compat_r; lra. }
  pose proof (nceil_R_spec ((r + sh) * c / ld)). pose proof (nceil_R_spec ((1 + sh) * c / ld)).
  split.
  - assert (IZR (-1) < IZR (nceil ((r + sh) * c / ld))) as K by lra. apply lt_IZR in K. lia.
  - assert (IZR (nceil ((r + sh) * c / ld)) < IZR (nceil ((1 + sh) * c / ld) + 1)) as K by (rewrite plus_IZR; lra).
    apply lt_IZR in K. exact K.
Qed.

Lemma layer_facies_ok n :
  Z.of_nat (length (tr_array t)) = tr_num_facies t -> (0 <= n < tr_num_facies t)%Z -> exists f, layer_facies t n = Ok f /\ In f (tr_array t).
Proof.
  intros E Hn. unfold layer_facies. destruct (Z.ltb_spec n 0); [lia|].
  destruct (nth_error (tr_array t) (Z.to_nat n)) as [f|] eqn:Ef.
  - exists f. split; [reflexivity|]. eapply nth_error_In; eauto.
  - apply nth_error_None in Ef. lia.
Qed.

Lemma write_total ha pz dx dy dz : l2 t dx dy dz <= 1 -> exists w, trough_write t ha pz dx dy dz = Ok w.
Proof.
  intros Hl. unfold trough_write. destruct (Rltb _ _); [eauto|].
  destruct (Z.eqb_spec (tr_structure t) 0) as [E0|E0]; [eauto|].
  destruct (Z.eqb_spec (tr_structure t) 1) as [E1|E1].
  - destruct (layer_facies_ok (dip_layer t dx dy dz)) as (f & -> & _); [apply (b_1 _ _ _ _ _ _ _ _ _ _ B E1)|now apply dip_layer_range|].
    cbn. eauto.
  - destruct (bulb_angles t dx dy dz) as [az dp]. destruct (Z.eqb_spec (tr_structure t) 2) as [E2|E2]; [eauto|].
    assert (E3 : tr_structure t = 3%Z) by (destruct (b_str _ _ _ _ _ _ _ _ _ _ B) as [?|[?|[?|?]]]; congruence).
    destruct (layer_facies_ok (bulb_layer t dx dy dz)) as (f & -> & _); [apply (b_3 _ _ _ _ _ _ _ _ _ _ B E3)|now apply bulb_layer_range|].
    cbn. eauto.
Qed.
End Inside.
