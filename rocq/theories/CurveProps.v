(** Properties of channel centrelines. *)
From Coq Require Import List ZArith Bool Lia Reals Lra Psatz.
From Verif Require Import Base Num TensorModel TensorProps ChannelModel CurveModel CurveSpec CurveProofs.
Import ListNotations.
Local Open Scope R_scope.

(** ** C63: resampling of curves

    False as written: sqrt is not defined in optimized.py, every curve with at
    least two points raises NameError. *)
Theorem C63_name_error_refuted xc yc spacing : (2 <= List.length xc)%nat ->
  curve_interp optimized_names xc yc spacing = Err NameError.
Proof.
  intros H. unfold curve_interp. destruct xc as [|x [|x' r]]; cbn [List.length] in H; try lia.
  change (pyget (x :: x' :: r) 0) with (@Ok R x). cbn [bind]. cbn [List.length walk]. cbn [Nat.ltb Nat.leb]. cbn [Nat.add Nat.sub seq search].
  reflexivity.
Qed.

(** With sqrt imported, for all curves and spacings: the result consists of the
    first and of further points of the curve sampled at the parameters
    x0 + i*spacing/10, in order and further apart than the spacing. *)
Theorem C63_resampling_partial x0 xr yc spacing : let xc := x0 :: xr in let nc := List.length xc in
  0 < spacing -> x0 + INR nc * (spacing / 10) <= INR nc ->
  exists p idx,
    curve_interp imported_names xc yc spacing = Ok (map (fun i => fst (p i)) (0%nat :: idx), map (fun i => snd (p i)) (0%nat :: idx)) /\
    (forall i, on_polygon xc (x0 + INR i * (spacing / 10)) (fst (p i)) /\ on_polygon yc (x0 + INR i * (spacing / 10)) (snd (p i))) /\
    spaced p spacing nc 0 idx.
Proof.
  intros xc nc Hs Hx. unfold curve_interp. change (pyget xc 0) with (@Ok R x0). cbn [bind]. fold nc.
  set (t := arange x0 (INR nc) (spacing * (1 / 10))). set (xs := map (interp xc) t). set (ys := map (interp yc) t).
  assert (Hnc : (1 <= nc)%nat) by (unfold nc, xc; cbn; lia).
  assert (Hlen : (nc <= List.length t)%nat).
  { unfold t. rewrite arange_length. set (q := (INR nc - x0) / (spacing * (1 / 10))).
    assert (Hq : INR nc <= q).
    { unfold q. apply Rmult_le_reg_r with (spacing * (1 / 10)); [lra|]. replace ((INR nc - x0) / (spacing * (1 / 10)) * (spacing * (1 / 10))) with (INR nc - x0) by (field; lra). lra. }
    pose proof (nceil_R_spec q) as [_ Hc]. assert (H : INR nc <= IZR (nceil q)) by lra. rewrite INR_IZR_INZ in H. apply le_IZR in H. lia. }
  assert (Hxs : List.length xs = List.length t) by (unfold xs; now rewrite map_length). assert (Hys : List.length ys = List.length t) by (unfold ys; now rewrite map_length).
  destruct (walk_ok xs ys spacing nc (S nc) 0 [0%nat]) as (l & E); [lia|lia|lia|lra|]. rewrite E. cbn [bind].
  apply walk_spec in E as (r & -> & Hr); [|lra]. cbn [app].
  apply (spaced_from_spaced _ _ _ nc r 0 0) in Hr; [|lia|lia].
  pose proof (spaced_below _ _ _ _ _ _ Hr) as Hb.
  assert (Hall : Forall (fun i => (i < nc)%nat) (0%nat :: r)) by (constructor; [lia|assumption]).
  rewrite !mapM_pyget_ok by (rewrite ?Hxs, ?Hys; eapply Forall_impl; [|exact Hall]; intros i Hi; cbv beta in Hi; lia). cbn [bind].
  set (p := fun i => (interp xc (x0 + INR i * (spacing / 10)), interp yc (x0 + INR i * (spacing / 10)))).
  assert (Hp : forall i, (i < nc)%nat -> corner xs ys i = p i).
  { intros i Hi. unfold corner, p, xs, ys.
    rewrite (nth_indep _ 0 (interp xc 0)), map_nth by (rewrite map_length; lia). rewrite (nth_indep (map (interp yc) t) 0 (interp yc 0)), map_nth by (rewrite map_length; lia).
    unfold t. rewrite arange_nth by (fold t; lia). replace (spacing * (1 / 10)) with (spacing / 10) by field. reflexivity. }
  exists p, r. split; [|split].
  - f_equal. f_equal; apply map_ext_in; intros i Hi; rewrite Forall_forall in Hall; rewrite <- Hp by (now apply Hall); reflexivity.
  - intros i. split; apply interp_polygon.
  - assert (PE : forall i n, (i + n < nc)%nat -> path_length (corner xs ys) i n = path_length p i n).
    { intros i n. induction n as [|n IH]; intros Hi; cbn [path_length]; [reflexivity|]. rewrite IH by lia. rewrite !Hp by lia. reflexivity. }
    assert (PE0 : forall i, path_length (corner xs ys) i 0 = path_length p i 0) by reflexivity.
    clear - Hr PE PE0 Hnc. revert Hr. assert (Ha : (0 < nc)%nat) by lia. revert Ha. generalize 0%nat as a. induction r as [|b r IH]; intros a Ha H; cbn [spaced] in *.
    + destruct (Nat.le_gt_cases (nc - 1) (a + 1)); [replace (nc - 1 - (a + 1))%nat with 0%nat in * by lia; now rewrite <- PE0|]. rewrite <- PE by lia. exact H.
    + destruct H as ((H1 & H2 & H3) & Hb & Hr). split; [|split; [assumption|apply IH; assumption]]. split; [assumption|]. split.
      * rewrite <- PE by lia. exact H2.
      * destruct (Nat.le_gt_cases (b - 1) (a + 1)); [replace (b - 1 - (a + 1))%nat with 0%nat in * by lia; now rewrite <- PE0|]. rewrite <- PE by lia. exact H3.
Qed.

(** ** C64: centrelines *)
Lemma trace_chained ds xp yp th : chained (trace ds xp yp th) /\ match trace ds xp yp th with [] => th = [] | p :: _ => cp_x p = xp /\ cp_y p = yp end.
Proof.
  revert xp yp. induction th as [|a th IH]; intros xp yp; cbn [trace]; [split; [exact I|reflexivity]|]. split; [|split; reflexivity].
  destruct (IH (xp + ds * cos a) (yp + ds * sin a)) as [H1 H2]. destruct (trace ds (xp + ds * cos a) (yp + ds * sin a) th) as [|q l]; cbn [chained]; [exact I|].
  cbn [cp_x cp_y cp_vx cp_vy]. tauto.
Qed.
Lemma trace_directed ds xp yp th : Forall2 (directed ds) (trace ds xp yp th) th.
Proof. revert xp yp. induction th as [|a th IH]; intros xp yp; cbn [trace]; constructor; [split; reflexivity|apply IH]. Qed.
Lemma turn_chained a x y l : chained l -> chained (map (turn a x y) l).
Proof.
  induction l as [|p [|q l] IH]; [exact (fun H => H)|exact (fun H => H)|]. intros (H1 & H2 & H3). specialize (IH H3). cbn [map] in *.
  cbn [chained]. split; [|split; [|exact IH]]; cbn [turn cp_x cp_y cp_vx cp_vy]; rewrite H1, H2; ring.
Qed.
Lemma turn_directed a x y ds l th : Forall2 (directed ds) l th -> Forall2 (directed ds) (map (turn a x y) l) (map (Rplus a) th).
Proof.
  induction 1 as [|p b l th [H1 H2] _ IH]; cbn [map]; constructor; [|exact IH]. split; cbn [turn cp_vx cp_vy]; rewrite H1, H2, ?cos_plus, ?sin_plus; ring.
Qed.
Lemma total_shift a th : total (map (Rplus a) th) = total th + INR (List.length th) * a.
Proof. induction th as [|b th IH]; cbn [map total fold_right List.length]; [cbn; ring|]. change (fold_right Rplus 0 (map (Rplus a) th)) with (total (map (Rplus a) th)). rewrite IH, S_INR. change (fold_right Rplus 0 th) with (total th). ring. Qed.

(** The result is the part with x in the range (extended by the width) of a
    curve that starts in the given point, follows its velocities, which have
    length ds + 1e-10, and whose mean direction is the flow direction. *)
Theorem C64_centreline_partial x0 xmax h k ds eps_factor flow_angle domain_length xstart ystart width draw l :
  ferguson_curve imported_names x0 xmax h k ds eps_factor flow_angle domain_length xstart ystart width draw = Ok l ->
  exists rows al keep,
    l = filter keep rows /\ (forall p, keep p = true <-> x0 - width <= cp_x p <= xmax + width) /\
    (exists p r, rows = p :: r /\ cp_x p = xstart /\ cp_y p = ystart) /\ chained rows /\
    Forall2 (directed (ds + / 10 ^ 10)) rows al /\ total al = INR (List.length al) * flow_angle.
Proof.
  unfold ferguson_curve. fold tiny. set (d := ds + tiny). set (s := arange _ _ _). set (theta := ferguson_theta _ _ _ _ _).
  destruct (curve_interp _ _ _ _) as [[sn th]|] eqn:E; [|discriminate]. cbn [bind snd]. intros [= <-].
  assert (Hth : th <> []).
  { unfold curve_interp in E. destruct (pyget s 0) as [x|]; [|discriminate]. cbn [bind] in E. destruct (walk _ _ _ _ _ _ _ _) as [idx|] eqn:Ew; [|discriminate]. cbn [bind] in E.
    apply walk_spec in Ew as (r & -> & _); [|lra]. destruct (mapM _ _) as [xn|]; [|discriminate]. cbn [bind] in E.
    destruct (mapM _ _) as [yn|] eqn:Ey in E; [|discriminate]. cbn [bind] in E. injection E as _ <-. apply mapM_pyget in Ey. rewrite Ey. discriminate. }
  set (rot := - mean th + flow_angle).
  exists (map (turn rot xstart ystart) (trace d 0 0 th)), (map (Rplus rot) th), (indomain x0 xmax width).
  split; [reflexivity|]. split; [intros p; unfold indomain; rewrite andb_true_iff, !Rleb_true; tauto|].
  destruct (trace_chained d 0 0 th) as [H1 H2]. split; [|split; [now apply turn_chained|split; [apply turn_directed, trace_directed|]]].
  - destruct (trace d 0 0 th) as [|p r]; [contradiction|]. destruct H2 as [Hx Hy]. eexists _, _. split; [reflexivity|]. cbn [turn cp_x cp_y]. rewrite Hx, Hy. split; ring.
  - rewrite total_shift, map_length. unfold rot, mean. change (fold_right Rplus 0 th) with (total th).
    assert (0 < INR (List.length th)) by (apply lt_0_INR; destruct th; [contradiction|cbn; lia]). field. lra.
Qed.
(** It always succeeds (with sqrt imported). *)
Theorem C64_never_fails x0 xmax h k ds eps_factor flow_angle domain_length xstart ystart width draw : 0 < domain_length -> 0 <= ds ->
  exists l, ferguson_curve imported_names x0 xmax h k ds eps_factor flow_angle domain_length xstart ystart width draw = Ok l.
Proof.
  intros HL Hd. unfold ferguson_curve. set (d := ds + tiny). assert (Ht : 0 < d) by (assert (0 < tiny) by (unfold tiny; apply Rinv_0_lt_compat, pow_lt; lra); unfold d; lra).
  set (s := arange 0 (domain_length * 2) d).
  assert (Hs : exists r, s = 0 :: r).
  { unfold s, arange. assert (0 < (domain_length * 2 - 0) / d) by (apply Rdiv_lt_0_compat; lra). pose proof (nceil_R_spec ((domain_length * 2 - 0) / d)).
    assert (0 < IZR (nceil ((domain_length * 2 - 0) / d))) by lra. apply (lt_IZR 0) in H1. destruct (Z.to_nat _) as [|n] eqn:E; [lia|]. cbn [seq map].
    eexists. f_equal. cbn [INR]. ring. }
  destruct Hs as (r & Es). rewrite Es.
  destruct (C63_resampling_partial 0 r (ferguson_theta (List.length (0 :: r)) draw eps_factor k h) (1 / 10)) as (p & idx & E & _); [lra| |].
  - pose proof (pos_INR (List.length (0 :: r))). lra.
  - rewrite E. cbn [bind]. eauto.
Qed.
(** As written it fails for every domain longer than half a step. *)
Theorem C64_name_error_refuted x0 xmax h k ds eps_factor flow_angle domain_length xstart ystart width draw : 0 <= ds -> ds + / 10 ^ 10 < 2 * domain_length ->
  ferguson_curve optimized_names x0 xmax h k ds eps_factor flow_angle domain_length xstart ystart width draw = Err NameError.
Proof.
  intros Hd HL. unfold ferguson_curve. fold tiny in HL. set (d := ds + tiny) in *. assert (Ht : 0 < d) by (assert (0 < tiny) by (unfold tiny; apply Rinv_0_lt_compat, pow_lt; lra); unfold d; lra).
  rewrite C63_name_error_refuted; [reflexivity|]. rewrite arange_length. pose proof (nceil_R_spec ((domain_length * 2 - 0) / d)) as [_ H].
  assert (1 < (domain_length * 2 - 0) / d) by (apply Rmult_lt_reg_r with d; [assumption|]; unfold Rdiv; rewrite Rmult_assoc, Rinv_l by lra; lra).
  assert (H1 : 1 < IZR (nceil ((domain_length * 2 - 0) / d))) by lra. apply (lt_IZR 1) in H1. lia.
Qed.

(** ** C89: the resampled curve covers the whole curve

    False: only the first len(xc) of the about 10*len(xc)/spacing sampled
    points are looked at.  For abscissas 0, ds, 2*ds, ... no returned abscissa
    exceeds the part spacing/10 of the whole length. *)
Theorem C89_first_part_refuted n d yc spacing xn yn : (0 < n)%nat -> 0 < d -> 0 < spacing <= 10 ->
  curve_interp imported_names (map (fun i => INR i * d) (seq 0 n)) yc spacing = Ok (xn, yn) ->
  Forall (fun x => x <= spacing / 10 * (INR n * d)) xn.
Proof.
  intros Hn Hd Hs H. set (xc := map (fun i => INR i * d) (seq 0 n)) in H.
  assert (Hlen : List.length xc = n) by (unfold xc; now rewrite map_length, seq_length).
  assert (Hnth : forall i, (i < n)%nat -> nth i xc 0 = INR i * d).
  { intros i Hi. unfold xc. rewrite (nth_indep _ 0 (INR 0 * d)), (map_nth (fun i => INR i * d)) by (now rewrite map_length, seq_length). now rewrite seq_nth. }
  destruct xc as [|x0 xr] eqn:Exc; [cbn in Hlen; lia|]. assert (E0 : x0 = 0) by (specialize (Hnth 0%nat Hn); cbn in Hnth; lra). subst x0.
  destruct (C63_resampling_partial 0 xr yc spacing) as (p & idx & E & Hp & Hsp); [lra| |].
  - rewrite Hlen. pose proof (pos_INR n). nra.
  - rewrite E in H. injection H as <- _. rewrite Hlen in Hsp.
    assert (Hb : Forall (fun i => (i < n)%nat) (0%nat :: idx)).
    { constructor; [assumption|]. clear - Hsp. revert Hsp. generalize 0%nat. induction idx as [|b r IH]; intros a H; constructor; cbn in H; [lia|]. eapply IH. apply H. }
    change (fst (p 0%nat) :: map (fun i => fst (p i)) idx) with (map (fun i => fst (p i)) (0%nat :: idx)).
    apply Forall_forall. intros x Hx. apply in_map_iff in Hx as (i & <- & Hi). rewrite Forall_forall in Hb. specialize (Hb i Hi).
    destruct (Hp i) as [Hpi _]. assert (Hi2 : INR i <= INR n) by (apply le_INR; lia).
    assert (Hsd : 0 < spacing / 10 * d) by (apply Rmult_lt_0_compat; lra).
    apply Rle_trans with (INR i * (spacing / 10) * d); [|replace (INR i * (spacing / 10) * d) with (INR i * (spacing / 10 * d)) by ring; replace (spacing / 10 * (INR n * d)) with (INR n * (spacing / 10 * d)) by ring; apply Rmult_le_compat_r; lra].
    pose proof (pos_INR i). set (u := INR i * (spacing / 10)) in *. assert (0 <= u) by (unfold u; nra).
    unfold on_polygon in Hpi. rewrite Hlen in Hpi. rewrite Rplus_0_l in Hpi. destruct Hpi as [[H1 ->]|[[H1 ->]|(m & Hm & H1 & ->)]].
    + rewrite Hnth by lia. cbn [INR]. nra.
    + rewrite Hnth by lia. nra.
    + rewrite !Hnth by lia. rewrite S_INR in *. nra.
Qed.
(** Without noise a centreline with steps of at most 1 is not longer than a
    fifth of the domain plus two steps: no channel crosses the domain. *)
Lemma thetas_zero n i draw k h : Forall (fun v => v = 0) (thetas n i 0 0 draw 0 k h).
Proof.
  revert i. induction n as [|n IH]; intros i; cbn [thetas]; constructor.
  - unfold thetaAR2. destruct i; ring.
  - replace (thetaAR2 0 0 k h _) with 0 by (unfold thetaAR2; destruct i; ring). apply IH.
Qed.
Lemma zero_polygon l x v : Forall (fun y => y = 0) l -> on_polygon l x v -> v = 0.
Proof.
  intros H. assert (E : forall i, nth i l 0 = 0).
  { intros i. destruct (nth_in_or_default i l 0) as [Hi| ->]; [|reflexivity]. rewrite Forall_forall in H. now apply H. }
  unfold on_polygon. intros [[_ ->]|[[_ ->]|(i & _ & _ & ->)]]; rewrite ?E; ring.
Qed.
Lemma trace_zero d xp yp th q : Forall (fun y => y = 0) th -> In q (trace d xp yp th) ->
  exists i, (i < List.length th)%nat /\ cp_x q = xp + INR i * d /\ cp_y q = yp.
Proof.
  revert xp yp. induction th as [|a th IH]; intros xp yp H Hq; cbn [trace] in Hq; [destruct Hq|]. inversion_clear H as [|? ? Ha Hth]. subst a.
  rewrite cos_0, sin_0 in Hq. destruct Hq as [<-|Hq].
  - exists 0%nat. cbn. split; [lia|]. split; [ring|reflexivity].
  - apply IH in Hq as (i & Hi & Hx & Hy); [|assumption]. exists (S i). cbn [List.length]. split; [lia|]. rewrite Hx, Hy, S_INR. split; ring.
Qed.
Lemma last_default {A} (l : list A) x y : l <> [] -> last l x = last l y.
Proof. induction l as [|a [|b l] IH]; intros H; [contradiction|reflexivity|]. apply IH. discriminate. Qed.
Lemma spaced_total p tol n a l : spaced p tol n a l -> l <> [] -> 
  (a < last l a < n)%nat /\ INR (List.length l) * tol < path_length p a (last l a - a).
Proof.
  revert a. induction l as [|b l IH]; intros a H Hl; [contradiction|]. cbn [spaced] in H. destruct H as ((H1 & H2 & _) & Hb & Hr).
  destruct l as [|c l]; [cbn [last List.length INR]; split; [lia|lra]|].
  destruct (IH b Hr) as [I1 I2]; [discriminate|]. replace (last (b :: c :: l) a) with (last (c :: l) b).
  - split; [lia|]. rewrite (S_INR (List.length (c :: l)) : INR (List.length (b :: c :: l)) = _).
    replace (last (c :: l) b - a)%nat with ((b - a) + (last (c :: l) b - b))%nat by lia. rewrite path_split.
    replace (a + (b - a))%nat with b by lia. lra.
  - symmetry. apply (last_default (c :: l)). discriminate.
Qed.
(** The distance along a straight sampled line. *)
Lemma straight_path p d step n : 0 <= d -> 0 <= step -> (forall i, snd (p i) = 0) ->
  (forall i, (i < n)%nat -> fst (p i) = Rmin (INR i * step) (INR (n - 1)) * d) ->
  forall m, (m < n)%nat -> path_length p 0 m <= INR m * step * d.
Proof.
  intros Hd Hs Hy Hx m. induction m as [|m IH]; intros Hm; cbn [path_length]; [cbn; lra|].
  specialize (IH ltac:(lia)). cbn [Nat.add]. rewrite !Hy, !Hx by lia.
  set (u := INR m * step) in *. assert (Eu : INR (S m) * step = u + step) by (rewrite S_INR; unfold u; ring). rewrite Eu.
  set (N := INR (n - 1)). assert (Hdiff : 0 <= Rmin (u + step) N - Rmin u N <= step).
  { unfold Rmin. destruct (Rle_dec (u + step) N), (Rle_dec u N); lra. }
  replace ((Rmin (u + step) N * d - Rmin u N * d) ^ 2 + (0 - 0) ^ 2) with (((Rmin (u + step) N - Rmin u N) * d) ^ 2) by ring.
  rewrite <- Rsqr_pow2, sqrt_Rsqr by nra. nra.
Qed.

Lemma Ok_inj {A} (a b : A) : Ok a = Ok b -> a = b.
Proof. congruence. Qed.
Theorem C89_crossing_refuted x0 xmax h k ds flow_angle domain_length xstart ystart width draw l :
  0 <= ds -> ds + / 10 ^ 10 <= 1 -> 0 < domain_length ->
  ferguson_curve imported_names x0 xmax h k ds 0 flow_angle domain_length xstart ystart width draw = Ok l ->
  Forall (fun q => (cp_x q - xstart) ^ 2 + (cp_y q - ystart) ^ 2 <= (domain_length / 5 + 1 / 10) ^ 2) l.
Proof.
  intros Hd Hd1 HL. unfold ferguson_curve. fold tiny in Hd1. set (d := ds + tiny) in *.
  assert (Ht : 0 < d) by (assert (0 < tiny) by (unfold tiny; apply Rinv_0_lt_compat, pow_lt; lra); unfold d; lra).
  set (s := arange 0 (domain_length * 2) d).
  set (q := (domain_length * 2 - 0) / d). assert (Hq : q * d = 2 * domain_length) by (unfold q; field; lra).
  assert (Hq0 : 0 < q) by nra. pose proof (nceil_R_spec q) as Hc. set (n := Z.to_nat (nceil q)).
  assert (Hz : (0 < nceil q)%Z) by (apply lt_IZR; lra).
  assert (Hn : INR n = IZR (nceil q)) by (unfold n; rewrite INR_IZR_INZ, Z2Nat.id by lia; reflexivity).
  assert (Hlen : List.length s = n) by (unfold s; rewrite arange_length; reflexivity).
  assert (Hnth : forall i, (i < n)%nat -> nth i s 0 = INR i * d) by (intros i Hi; unfold s; rewrite arange_nth by (fold s; lia); ring).
  assert (Hn0 : (0 < n)%nat) by (unfold n; lia).
  destruct s as [|y xr] eqn:Es; [cbn in Hlen; lia|]. assert (E0 : y = 0) by (specialize (Hnth 0%nat Hn0); cbn in Hnth; lra). subst y.
  set (theta := ferguson_theta _ _ _ _ _). assert (Hth : Forall (fun v => v = 0) theta) by apply thetas_zero.
  destruct (C63_resampling_partial 0 xr theta (1 / 10)) as (p & idx & E & Hp & Hsp); [lra|rewrite Hlen; pose proof (pos_INR n); lra|].
  rewrite E. cbn [bind snd]. rewrite Hlen in Hsp. set (th := map (fun i => snd (p i)) (0%nat :: idx)). intros El. apply Ok_inj in El. subst l.
  assert (Hy : forall i, snd (p i) = 0) by (intros i; eapply zero_polygon; [exact Hth|apply Hp]).
  assert (Hx : forall i, (i < n)%nat -> fst (p i) = Rmin (INR i * (1 / 100)) (INR (n - 1)) * d).
  { intros i Hi. destruct (Hp i) as [Hpi _]. replace (0 + INR i * (1 / 10 / 10)) with (INR i * (1 / 100)) in Hpi by field. pose proof (pos_INR i) as P1. pose proof (pos_INR (n - 1)) as P2.
    set (u := INR i * (1 / 100)) in *. assert (P3 : 0 <= u) by (unfold u; lra). unfold on_polygon in Hpi. rewrite Hlen in Hpi.
    destruct Hpi as [[H1 ->]|[[H1 ->]|(m & Hm & H1 & ->)]].
    - rewrite Hnth by lia. replace u with 0 by lra. rewrite Rmin_left by lra. cbn. ring.
    - rewrite Hnth by lia. rewrite Rmin_right by lra. reflexivity.
    - rewrite !Hnth by lia. assert (INR (S m) <= INR (n - 1)) by (apply le_INR; lia). rewrite Rmin_left by lra. rewrite S_INR. ring. }
  assert (Hidx : INR (List.length idx) * d <= domain_length / 5 + 1 / 10).
  { destruct (list_eq_dec Nat.eq_dec idx []) as [->|Hne]; [cbn; lra|].
    destruct (spaced_total _ _ _ _ _ Hsp Hne) as [H1 H2].
    rewrite Nat.sub_0_r in H2. pose proof (straight_path p d (1 / 100) n ltac:(lra) ltac:(lra) Hy Hx (last idx 0%nat) ltac:(lia)) as H3.
    assert (H4 : INR (last idx 0%nat) <= INR n) by (apply le_INR; lia).
    set (M := INR (last idx 0%nat)) in *. set (K := INR (List.length idx)) in *.
    assert (M * d <= 2 * domain_length + d) by (rewrite Hn in H4; nra).
    assert (K * (1 / 10) < (2 * domain_length + d) / 100) by lra. assert (0 <= K) by apply pos_INR. nra. }
  assert (Hz0 : Forall (fun v => v = 0) th) by (apply Forall_forall; intros v Hv; apply in_map_iff in Hv as (i & <- & _); apply Hy).
  apply Forall_forall. intros r Hr. apply filter_In in Hr as [Hr _]. apply in_map_iff in Hr as (r0 & <- & Hr). apply trace_zero in Hr as (i & Hi & Hrx & Hry); [|exact Hz0].
  cbn [turn cp_x cp_y]. rewrite Hrx, Hry. set (rot := - mean th + flow_angle).
  replace ((cos rot * (0 + INR i * d) - sin rot * 0 + xstart - xstart) ^ 2 + (sin rot * (0 + INR i * d) + cos rot * 0 + ystart - ystart) ^ 2)
    with ((INR i * d) ^ 2 * (sin rot ^ 2 + cos rot ^ 2)) by ring.
  rewrite sin2_cos2', Rmult_1_r. assert (INR i <= INR (List.length idx)) by (apply le_INR; unfold th in Hi; rewrite map_length in Hi; cbn [List.length] in Hi; lia).
  pose proof (pos_INR i). apply pow_incr. split; [nra|]. eapply Rle_trans; [|exact Hidx]. nra.
Qed.

(** ** C90: bounded directions

    If the draws are bounded the angles are, whatever their number (for
    k*h > 0). *)
Lemma shift_bound a b e A : 0 <= A -> a ^ 2 + b ^ 2 <= A ^ 2 -> (a + e) ^ 2 + b ^ 2 <= (A + Rabs e) ^ 2.
Proof.
  intros HA H. assert (Rabs a <= A) by (apply Rabs_le; nra). assert (a * e <= A * Rabs e).
  { eapply Rle_trans; [apply Rle_abs|]. rewrite Rabs_mult. apply Rmult_le_compat_r; [apply Rabs_pos|assumption]. }
  assert (Rabs e ^ 2 = e ^ 2) by (rewrite <- !Rsqr_pow2; symmetry; apply Rsqr_abs). nra.
Qed.
Theorem C90_bounded n draw eps_factor k h E : 0 < k * h -> (forall i, Rabs (draw i * eps_factor) <= E) ->
  Forall (fun th => Rabs th <= E / (1 - exp (- k * h)) ^ 2) (ferguson_theta n draw eps_factor k h).
Proof.
  intros Hkh HE. set (rho := exp (- k * h)). assert (Hr : 0 < rho < 1).
  { unfold rho. split; [apply exp_pos|]. rewrite <- exp_0. apply exp_increasing. lra. }
  assert (HE0 : 0 <= E) by (eapply Rle_trans; [apply Rabs_pos|apply (HE 0%nat)]).
  set (W := E / (1 - rho)). assert (HW : rho * W + E = W) by (unfold W; field; lra). assert (HW0 : 0 <= W) by (unfold W; apply Rmult_le_pos; [assumption|]; left; apply Rinv_0_lt_compat; lra).
  set (B := E / (1 - rho) ^ 2). assert (HB : rho * B + W = B) by (unfold B, W; field; lra). assert (HB0 : 0 <= B) by (unfold B; apply Rmult_le_pos; [assumption|]; left; apply Rinv_0_lt_compat, pow_lt; lra).
  set (ph := k * asin h). pose proof (sin2_cos2' ph) as Hsc.
  assert (G : forall m i t1 t2, Rabs t1 <= B -> (t1 - rho * cos ph * t2) ^ 2 + (rho * sin ph * t2) ^ 2 <= W ^ 2 ->
              Forall (fun th => Rabs th <= B) (thetas m i t1 t2 draw eps_factor k h)).
  { induction m as [|m IH]; intros i t1 t2 H1 H2; cbn [thetas]; [constructor|].
    set (eps := match i with O => 0 | _ => draw i * eps_factor end).
    assert (Heps : Rabs eps <= E) by (unfold eps; destruct i; [rewrite Rabs_R0; assumption|apply HE]).
    set (th := thetaAR2 t1 t2 k h eps).
    assert (Eth : th = eps + 2 * rho * cos ph * t1 - rho ^ 2 * t2).
    { unfold th, thetaAR2. fold ph. fold rho. replace (exp (-2 * k * h)) with (rho ^ 2) by (unfold rho; rewrite <- (Rmult_1_r (exp _ ^ 2)); cbn [pow]; rewrite Rmult_1_r, Rmult_1_r, <- exp_plus; f_equal; ring). ring. }
    assert (H3 : (th - rho * cos ph * t1) ^ 2 + (rho * sin ph * t1) ^ 2 <= W ^ 2).
    { rewrite Eth.
      replace (eps + 2 * rho * cos ph * t1 - rho ^ 2 * t2 - rho * cos ph * t1) with ((rho * cos ph * t1 - rho ^ 2 * t2) + eps) by ring.
      eapply Rle_trans; [apply (shift_bound _ _ _ (rho * W))|].
      - nra.
      - replace ((rho * cos ph * t1 - rho ^ 2 * t2) ^ 2 + (rho * sin ph * t1) ^ 2)
          with (rho ^ 2 * ((t1 - rho * cos ph * t2) ^ 2 + (rho * sin ph * t2) ^ 2 + (sin ph ^ 2 + cos ph ^ 2 - 1) * (t1 ^ 2 - rho ^ 2 * t2 ^ 2))) by ring.
        rewrite Hsc. replace (1 - 1) with 0 by ring. rewrite Rmult_0_l, Rplus_0_r. rewrite (Rpow_mult_distr rho W). apply Rmult_le_compat_l; [nra|assumption].
      - apply pow_incr. split; [pose proof (Rabs_pos eps); nra|lra]. }
    assert (H4 : Rabs th <= B).
    { replace th with ((th - rho * cos ph * t1) + rho * cos ph * t1) by ring. eapply Rle_trans; [apply Rabs_triang|].
      assert (Rabs (th - rho * cos ph * t1) <= W) by (apply Rabs_le; set (u := th - rho * cos ph * t1) in *; assert (0 <= (rho * sin ph * t1) ^ 2) by apply pow2_ge_0; nra).
      assert (Rabs (rho * cos ph * t1) <= rho * B).
      { rewrite !Rabs_mult. rewrite (Rabs_right rho) by lra. pose proof (COS_bound ph). assert (Rabs (cos ph) <= 1) by (apply Rabs_le; lra).
        pose proof (Rabs_pos (cos ph)). pose proof (Rabs_pos t1). rewrite Rmult_assoc. apply Rmult_le_compat_l; [lra|]. nra. }
      lra. }
    constructor; [exact H4|]. apply IH; assumption. }
  apply G; [rewrite Rabs_R0; assumption|]. nra.
Qed.

(** Examples: a short curve, a centreline, its bounded directions. *)
Example C63_example : exists xn yn, curve_interp imported_names [0; 1; 2] [0; 5; 0] (1 / 10) = Ok (0 :: xn, 0 :: yn).
Proof.
  destruct (C63_resampling_partial 0 [1; 2] [0; 5; 0] (1 / 10)) as (p & idx & E & Hp & _); [lra|cbn; lra|]. rewrite E.
  assert (H : fst (p 0%nat) = 0 /\ snd (p 0%nat) = 0).
  { destruct (Hp 0%nat) as [H1 H2]. cbn [INR] in H1, H2. replace (0 + 0 * (1 / 10 / 10)) with 0 in H1, H2 by field.
    unfold on_polygon in H1, H2. cbn [List.length Nat.sub INR nth] in H1, H2. split.
    - destruct H1 as [[_ ->]|[[H _]|(i & Hi & H & ->)]]; [reflexivity|lra|]. destruct i; [cbn; ring|]. rewrite S_INR in H. pose proof (pos_INR i). lra.
    - destruct H2 as [[_ ->]|[[H _]|(i & Hi & H & ->)]]; [reflexivity|lra|]. destruct i; [cbn; ring|]. rewrite S_INR in H. pose proof (pos_INR i). lra. }
  cbn [map]. destruct H as [-> ->]. eauto.
Qed.
Example C64_example : exists l, ferguson_curve imported_names 0 100 (1 / 2) 1 1 1 0 100 0 50 10 (fun i => INR i) = Ok l.
Proof. apply C64_never_fails; lra. Qed.
Example C89_example : exists l, ferguson_curve imported_names 0 100 (1 / 2) 1 (1 / 2) 0 0 100 0 50 10 (fun i => INR i) = Ok l /\
  Forall (fun q => (cp_x q - 0) ^ 2 + (cp_y q - 50) ^ 2 <= 21 ^ 2) l.
Proof.
  destruct (C64_never_fails 0 100 (1 / 2) 1 (1 / 2) 0 0 100 0 50 10 (fun i => INR i)) as (l & H); [lra|lra|]. exists l. split; [exact H|].
  apply C89_crossing_refuted in H; [|lra| |lra].
  - eapply Forall_impl; [|exact H]. cbv beta. intros q Hq. eapply Rle_trans; [exact Hq|]. lra.
  - lra.
Qed.
Example C90_example : Forall (fun th => Rabs th <= 1 / (1 - exp (- 1 * (1 / 2))) ^ 2) (ferguson_theta 100 (fun i => if Nat.even i then 1 else -1) 1 1 (1 / 2)).
Proof.
  apply C90_bounded; [lra|]. intros i. apply Rabs_le. destruct (Nat.even i); lra.
Qed.

Print Assumptions C63_name_error_refuted.
Print Assumptions C63_resampling_partial.
Print Assumptions C64_centreline_partial.
Print Assumptions C64_never_fails.
Print Assumptions C64_name_error_refuted.
Print Assumptions C89_first_part_refuted.
Print Assumptions C89_crossing_refuted.
Print Assumptions C90_bounded.
