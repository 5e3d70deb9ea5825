(** Properties of troughs. *)
From Coq Require Import List ZArith Bool Lia Reals Lra Psatz Sorting.Sorted String.
From Verif Require Import Base Num FaciesModel FaciesSpec FaciesProofs FaciesProps SurfaceModel AssignModel TroughModel TroughSpec TroughProofs TroughProofs2 TroughProofs3.
Import ListNotations.
Local Open Scope R_scope.

Definition flat (lx ly : R) : domain := mkDomain false lx ly.
Definition periodic (lx ly : R) : domain := mkDomain true lx ly.

Lemma assign_none dm t ha p :
  (let '(dx, dy, dz) := offset dm t p in claims t dx dy dz = false) <-> trough_assign dm t ha p = Ok None.
Proof.
  unfold trough_assign. destruct (offset dm t p) as [[dx dy] dz]. destruct (claims t dx dy dz).
  - split; [discriminate|]. destruct (trough_write _ _ _ _ _ _); cbn; discriminate.
  - tauto.
Qed.

(** C38: a trough takes exactly the cells of its half ellipsoid. *)
Theorem C38_half_ellipsoid tt x y z a b c alpha d t lx ly ha p :
  new_trough tt x y z a b c alpha d = Ok t -> 0 < a -> 0 < b -> 0 < c ->
  (trough_assign (flat lx ly) t ha p = Ok None <-> ~ half_ellipsoid x y z a b c alpha (p_x p) (p_y p) (p_z p)).
Proof.
  intros Ht Ha Hb Hc. apply new_trough_built in Ht as B. rewrite <- assign_none.
  unfold offset, flat, wrap. cbn [dm_periodic].
  rewrite (b_x _ _ _ _ _ _ _ _ _ _ B), (b_y _ _ _ _ _ _ _ _ _ _ B), (b_z _ _ _ _ _ _ _ _ _ _ B).
  rewrite <- (l2_half _ _ _ _ _ _ _ _ _ _ B Ha Hb Hc (p_x p - x) (p_y p - y) (p_z p - z) _ _ _ eq_refl eq_refl eq_refl).
  rewrite <- (claims_iff _ _ _ _ _ _ _ _ _ _ B Ha Hb Hc).
  destruct (claims _ _ _ _); split; congruence.
Qed.

(** C39: the facies table is never read outside, so every cell inside gets
    values, for any domain. *)
Theorem C39_lookup_inside tt x y z a b c alpha d t dm ha p :
  new_trough tt x y z a b c alpha d = Ok t -> 0 < a -> 0 < b -> 0 < c -> type_ok tt -> draw_ok d ->
  exists r, trough_assign dm t ha p = Ok r.
Proof.
  intros Ht Ha Hb Hc Hok Hd. apply new_trough_built in Ht as B. unfold trough_assign.
  destruct (offset dm t p) as [[dx dy] dz]. destruct (claims t dx dy dz) eqn:E; [|eauto].
  apply (claims_iff _ _ _ _ _ _ _ _ _ _ B Ha Hb Hc) in E as [_ E].
  destruct (write_total _ _ _ _ _ _ _ _ _ _ B Ha Hb Hc Hok Hd ha (p_z p) dx dy dz E) as [w ->]. cbn. eauto.
Qed.

(** The constructor succeeds for all known structures. *)
Theorem C39_constructor_total tt x y z a b c alpha d :
  In (tt_structure tt) (map S_ ["massive"; "dip"; "bulb"; "bulb_sets"; "random"]%string) ->
  tt_facies tt <> [] -> alternatives_ok (tt_facies tt) (tt_altfacies tt) ->
  0 < a -> 0 < b -> 0 < c -> type_ok tt -> draw_ok d ->
  exists t, new_trough tt x y z a b c alpha d = Ok t.
Proof.
  intros Hs Hf Halt Ha Hb Hc [Hd1 Hd2] [[Hu0 Hu1] _].
  assert (exists s, structure_code (tt_structure tt) (td_structure d) = Ok s) as [s Es].
  { cbn in Hs. destruct Hs as [<-|[<-|[<-|[<-|[<-|[]]]]]]; cbn; eauto. }
  unfold new_trough. rewrite Es. cbn [bind].
  destruct (choice_total (tt_facies tt) (td_facies d) Hf) as [f Ef]. rewrite Ef. cbn [bind].
  assert (Hpos : forall q : R, 0 <= q -> (0 <= nceil q)%Z).
  { intros q Hq. pose proof (nceil_R_spec q). assert (IZR (-1) < IZR (nceil q)) as K by lra. apply lt_IZR in K. lia. }
  destruct (s =? 0)%Z; [eauto|]. destruct (s =? 1)%Z; [|destruct (s =? 2)%Z; [eauto|]].
  - match goal with |- context [alternating_facies ?n ?fs ?al ?us] =>
      destruct (C51_never_fails n fs al us) as [arr ->]; [|assumption|assumption|cbn; eauto] end.
    assert (0 <= (2 * max3 a b c + uniform 0 (tt_dipset_dist tt) (td_shift d)) / tt_dipset_dist tt) as K.
    { apply Rmult_le_pos; [|left; now apply Rinv_0_lt_compat]. unfold uniform, max3. numR. pose proof (Rmax_r (Rmax a b) c). nra. }
    apply Hpos in K. lia.
  - match goal with |- context [alternating_facies ?n ?fs ?al ?us] =>
      destruct (C51_never_fails n fs al us) as [arr ->]; [|assumption|assumption|cbn; eauto] end.
    assert (0 <= (1 + uniform 0 1 (td_shift d)) * c / tt_bulbset_dist tt) as K.
    { apply Rmult_le_pos; [|left; now apply Rinv_0_lt_compat]. unfold uniform. numR. nra. }
    apply Hpos in K. lia.
Qed.

Lemma array_facies tt x y z a b c alpha d t :
  alternatives_ok (tt_facies tt) (tt_altfacies tt) -> new_trough tt x y z a b c alpha d = Ok t ->
  Forall (fun f => In f (tt_facies tt)) (tr_array t) /\
  (tr_structure t = 0%Z \/ tr_structure t = 2%Z -> In (tr_facies t) (tt_facies tt)).
Proof.
  intros Halt. unfold new_trough.
  destruct (structure_code _ _) as [s|]; [|discriminate]. cbn [bind].
  destruct (s =? 0)%Z; [|destruct (s =? 1)%Z; [|destruct (s =? 2)%Z]].
  - destruct (choice _ _) eqn:E; [|discriminate]. intros [= <-]. cbn. split; [constructor|]. intros _. eapply choice_In; eauto.
  - destruct (alternating_facies _ _ _ _) eqn:E; [|discriminate]. intros [= <-]. cbn. split; [eapply C51_element_facies; eauto|]. intros [K|K]; discriminate.
  - destruct (choice _ _) eqn:E; [|discriminate]. intros [= <-]. cbn. split; [constructor|]. intros _. eapply choice_In; eauto.
  - destruct (alternating_facies _ _ _ _) eqn:E; [|discriminate]. intros [= <-]. cbn. split; [eapply C51_element_facies; eauto|]. intros [K|K]; discriminate.
Qed.

(** C39: only facies of the element, and the lag facies, are assigned. *)
Theorem C39_assigned_facies tt x y z a b c alpha d t dm ha p w :
  new_trough tt x y z a b c alpha d = Ok t -> alternatives_ok (tt_facies tt) (tt_altfacies tt) ->
  trough_assign dm t ha p = Ok (Some w) ->
  w_ha w = ha /\ (In (w_facies w) (tt_facies tt) \/ w_facies w = tt_lag_facies tt).
Proof.
  intros Ht Halt. destruct (array_facies _ _ _ _ _ _ _ _ _ _ Halt Ht) as [H1 H2].
  apply new_trough_built in Ht as B. unfold trough_assign. destruct (offset dm t p) as [[dx dy] dz].
  destruct (claims t dx dy dz); [|discriminate].
  unfold trough_write. destruct (Rltb _ _).
  { cbn. intros [= <-]. cbn. split; [reflexivity|]. right. apply (b_lagf _ _ _ _ _ _ _ _ _ _ B). }
  assert (K : forall n f, layer_facies t n = Ok f -> In f (tt_facies tt)).
  { intros n f. unfold layer_facies. destruct (n <? 0)%Z; [discriminate|].
    destruct (nth_error _ _) eqn:E; [|discriminate]. intros [= <-].
    rewrite Forall_forall in H1. apply H1. eapply nth_error_In; eauto. }
  destruct (Z.eqb_spec (tr_structure t) 0); [|destruct (Z.eqb_spec (tr_structure t) 1)].
  - cbn. intros [= <-]. cbn. auto.
  - destruct (layer_facies _ _) eqn:E; [|discriminate]. cbn. intros [= <-]. cbn. eauto.
  - destruct (bulb_angles _ _ _ _). destruct (Z.eqb_spec (tr_structure t) 2).
    + cbn. intros [= <-]. cbn. auto.
    + destruct (layer_facies _ _) eqn:E; [|discriminate]. cbn. intros [= <-]. cbn. eauto.
Qed.

(** C40: dip and azimuth of bulbs. *)
Theorem C40_bulb_angles tt x y z a b c alpha d t dm ha p w :
  new_trough tt x y z a b c alpha d = Ok t -> 0 <= fst (tt_dip tt) <= snd (tt_dip tt) -> draw_ok d ->
  tr_structure t = 2%Z \/ tr_structure t = 3%Z ->
  trough_assign dm t ha p = Ok (Some w) ->
  exists az dp, w_azim w = Some az /\ w_dip w = Some dp /\ -90 <= az <= 90 /\ Rabs dp <= tr_dip t /\ tr_dip t <= snd (tt_dip tt).
Proof.
  intros Ht Hdip (_ & Hu & _) Hs. apply new_trough_built in Ht as B.
  assert (Hm : 0 <= tr_dip t <= snd (tt_dip tt)).
  { rewrite (b_dip _ _ _ _ _ _ _ _ _ _ B). unfold uniform. numR. nra. }
  unfold trough_assign. destruct (offset dm t p) as [[dx dy] dz]. destruct (claims t dx dy dz); [|discriminate].
  unfold trough_write. destruct (Rltb _ _).
  { cbn. intros [= <-]. exists 0, 0. cbn. rewrite Rabs_R0. repeat (split; [reflexivity || lra|]). lra. }
  destruct (Z.eqb_spec (tr_structure t) 0); [lia|]. destruct (Z.eqb_spec (tr_structure t) 1); [lia|].
  destruct (bulb_angles t dx dy dz) as [az dp] eqn:E. apply bulb_angles_range in E as [E1 E2]; [|lra].
  assert (E3 : Rabs dp <= tr_dip t) by (apply Rabs_le; lra).
  destruct (Z.eqb_spec (tr_structure t) 2).
  - cbn. intros [= <-]. exists az, dp. cbn. repeat (split; [reflexivity || lra|]). lra.
  - destruct (layer_facies _ _); [|discriminate]. cbn. intros [= <-]. exists az, dp. cbn. repeat (split; [reflexivity || lra|]). lra.
Qed.

(** Straight below the centre, and there, layers of bulbs are horizontal. *)
Theorem C40_axis tt x y z a b c alpha d t lx ly ha p w :
  new_trough tt x y z a b c alpha d = Ok t -> 0 <= tr_dip t ->
  tr_structure t = 2%Z \/ tr_structure t = 3%Z ->
  p_x p = x -> p_y p = y ->
  trough_assign (flat lx ly) t ha p = Ok (Some w) -> w_azim w = Some 0 /\ w_dip w = Some 0.
Proof.
  intros Ht Hm Hs Hx Hy. apply new_trough_built in Ht as B.
  unfold trough_assign, offset, flat, wrap. cbn [dm_periodic].
  rewrite (b_x _ _ _ _ _ _ _ _ _ _ B), (b_y _ _ _ _ _ _ _ _ _ _ B), Hx, Hy, !Rminus_eq_0.
  assert (Ea : forall dz, bulb_angles t 0 0 dz = (0, 0)).
  { intros dz. unfold bulb_angles, bulb_normal, norm_x, norm_y.
    replace ((0 * tr_cos t + 0 * tr_sin t) / tr_a t / tr_a t) with 0 by (unfold Rdiv; ring).
    replace ((- 0 * tr_sin t + 0 * tr_cos t) / tr_b t / tr_b t) with 0 by (unfold Rdiv; ring).
    cbv zeta. destruct (Req_EM_T _ 0); [|
      replace ((0 * tr_cos t + 0 * tr_sin t) / sqrt (0 ^ 2 + 0 ^ 2 + (norm_z t dz / tr_c t) ^ 2)) with 0 by (unfold Rdiv; ring);
      replace ((- 0 * tr_sin t + 0 * tr_cos t) / sqrt (0 ^ 2 + 0 ^ 2 + (norm_z t dz / tr_c t) ^ 2)) with 0 by (unfold Rdiv; ring);
      replace (0 ^ 2 + 0 ^ 2) with 0 by ring; rewrite sqrt_0; destruct (Req_EM_T 0 0); [|lra]];
    unfold clamp; destruct (Rltb_spec (tr_dip t) 0); try lra; destruct (Rltb_spec 0 (- tr_dip t)); try lra; reflexivity. }
  destruct (claims t _ _ _); [|discriminate]. unfold trough_write. destruct (Rltb _ _).
  { cbn. intros [= <-]. now cbn. }
  destruct (Z.eqb_spec (tr_structure t) 0); [lia|]. destruct (Z.eqb_spec (tr_structure t) 1); [lia|]. rewrite Ea.
  destruct (Z.eqb_spec (tr_structure t) 2).
  - cbn. intros [= <-]. now cbn.
  - destruct (layer_facies _ _); [|discriminate]. cbn. intros [= <-]. now cbn.
Qed.

(** C41: for any rotation the angles are those of the gradient turned by twice
    the angle of the trough; [limit] is the smaller one of the dip and the maximum
    dip, with the sense of the dip. *)
Definition limit (m p : R) : R := if Rle_dec (Rabs p) m then p else if Rle_dec 0 p then m else - m.
Theorem C41_turned_gradient tt x y z a b c alpha d t lx ly ha p w g :
  new_trough tt x y z a b c alpha d = Ok t -> 0 < a -> 0 < b -> 0 < c -> 0 <= tr_dip t ->
  tr_structure t = 2%Z \/ tr_structure t = 3%Z ->
  z - c + tt_lag_height tt <= p_z p ->
  trough_assign (flat lx ly) t ha p = Ok (Some w) ->
  is_gradient (level x y z a b c alpha) (p_x p) (p_y p) (p_z p) g ->
  fst (fst (turned alpha g)) <> 0 ->
  exists az dp, w_azim w = Some az /\ w_dip w = Some (limit (tr_dip t) dp) /\ -90 <= dp <= 90 /\
    parallel (layer_normal (-1) az dp) (turned alpha g).
Proof.
  intros Ht Ha Hb Hc Hm Hs Hlag. apply new_trough_built in Ht as B.
  unfold trough_assign, offset, flat, wrap. cbn [dm_periodic].
  rewrite (b_x _ _ _ _ _ _ _ _ _ _ B), (b_y _ _ _ _ _ _ _ _ _ _ B), (b_z _ _ _ _ _ _ _ _ _ _ B).
  intros Hw Hg Hne. apply gradient_unique in Hg; [|assumption|assumption|assumption]. subst g.
  destruct (turned alpha _) as [[t1 t2] t3] eqn:Et. cbn [fst] in Hne.
  destruct (bulb_normal_turned _ _ _ _ _ _ _ _ _ _ _ _ _ B Ha Hb Hc t1 t2 t3 Et Hne) as (nx & ny & nz & k & En & H1 & Hnx & Hk & -> & -> & ->).
  exists (vec_azim nx ny), (vec_dip nx nz).
  assert (Hnz : Rabs nz <= 1) by (apply Rabs_le; pose proof (pow2_ge_0 nx); pose proof (pow2_ge_0 ny); split; nra).
  assert (Ea : bulb_angles t (p_x p - x) (p_y p - y) (p_z p - z) = (vec_azim nx ny, limit (tr_dip t) (vec_dip nx nz))).
  { unfold bulb_angles. rewrite En.
    assert (Hxy : sqrt (nx ^ 2 + ny ^ 2) <> 0).
    { pose proof (pow2_ge_0 ny). assert (0 < nx ^ 2) by (apply Rsqr_pos_lt in Hnx; unfold Rsqr in Hnx; lra).
      pose proof (sqrt_lt_R0 (nx ^ 2 + ny ^ 2)). lra. }
    destruct (Req_EM_T _ 0) as [E0|_]; [contradiction|].
    fold (vec_azim nx ny). fold (vec_dip nx nz). f_equal.
    unfold clamp, limit. destruct (Rle_dec (Rabs (vec_dip nx nz)) (tr_dip t)) as [Hle|Hgt].
    - pose proof (Rle_abs (vec_dip nx nz)). pose proof (Rle_abs (- vec_dip nx nz)). rewrite Rabs_Ropp in H0.
      destruct (Rltb_spec (tr_dip t) (vec_dip nx nz)); [lra|]. destruct (Rltb_spec (vec_dip nx nz) (- tr_dip t)); lra.
    - destruct (Rle_dec 0 (vec_dip nx nz)).
      + rewrite Rabs_right in Hgt by lra. destruct (Rltb_spec (tr_dip t) (vec_dip nx nz)); lra.
      + rewrite Rabs_left in Hgt by lra. destruct (Rltb_spec (tr_dip t) (vec_dip nx nz)); [lra|].
        destruct (Rltb_spec (vec_dip nx nz) (- tr_dip t)); lra. }
  assert (Hpar : parallel (layer_normal (-1) (vec_azim nx ny) (vec_dip nx nz)) (k * nx, k * ny, k * nz)).
  { apply (parallel_scale _ (nx, ny, nz)); [lra|]. now apply angles_parallel. }
  assert (Hr : -90 <= vec_dip nx nz <= 90) by now apply vec_dip_range.
  destruct (claims t _ _ _); [|discriminate]. unfold trough_write in Hw.
  rewrite (b_z _ _ _ _ _ _ _ _ _ _ B), (b_c _ _ _ _ _ _ _ _ _ _ B), (b_lag _ _ _ _ _ _ _ _ _ _ B) in Hw.
  destruct (Rltb_spec (p_z p) (z - c + tt_lag_height tt)); [lra|].
  destruct (Z.eqb_spec (tr_structure t) 0); [lia|]. destruct (Z.eqb_spec (tr_structure t) 1); [lia|].
  rewrite Ea in Hw. destruct (Z.eqb_spec (tr_structure t) 2).
  - cbn in Hw. injection Hw as <-. cbn. auto.
  - destruct (layer_facies _ _); [|discriminate]. cbn in Hw. injection Hw as <-. cbn. auto.
Qed.

(** C41 where it holds: troughs that are not rotated, cells beside the plane
    x = centre. *)
Theorem C41_bulb_orientation_partial tt x y z a b c t d lx ly ha p w g :
  new_trough tt x y z a b c 0 d = Ok t -> 0 < a -> 0 < b -> 0 < c -> 0 <= tr_dip t ->
  tr_structure t = 2%Z \/ tr_structure t = 3%Z ->
  z - c + tt_lag_height tt <= p_z p ->
  trough_assign (flat lx ly) t ha p = Ok (Some w) ->
  is_gradient (level x y z a b c 0) (p_x p) (p_y p) (p_z p) g ->
  p_x p <> x ->
  exists az dp, w_azim w = Some az /\ w_dip w = Some (limit (tr_dip t) dp) /\ -90 <= dp <= 90 /\
    parallel (layer_normal (-1) az dp) g.
Proof.
  intros Ht Ha Hb Hc Hm Hs Hlag Hw Hg Hx.
  assert (E0 : radians 0 = 0) by (unfold radians; field).
  assert (Et : turned 0 g = g).
  { destruct g as [[g1 g2] g3]. unfold turned. rewrite E0, Rmult_0_r, cos_0, sin_0. f_equal. f_equal; ring. }
  rewrite <- Et. eapply C41_turned_gradient; eauto. rewrite Et.
  apply gradient_unique in Hg; [|assumption|assumption|assumption]. rewrite Hg. unfold gradient. rewrite E0, cos_0, sin_0. cbn [fst].
  replace (2 * (((p_x p - x) * 1 + (p_y p - y) * 0) / a ^ 2 * 1 - (- (p_x p - x) * 0 + (p_y p - y) * 1) / b ^ 2 * 0))
    with (2 * ((p_x p - x) / a ^ 2)) by (field; lra).
  intros E. apply Hx. assert ((p_x p - x) / a ^ 2 * a ^ 2 = 0) as K by (replace ((p_x p - x) / a ^ 2) with 0 by lra; ring).
  unfold Rdiv in K. rewrite Rmult_assoc, Rinv_l in K by (apply pow_nonzero; lra). lra.
Qed.

(** C41 is false: a round trough turned by 45 degrees; whatever the sense of
    the dip, the layers at (1, 1, -1) do not follow the bulb. *)
Definition bulb_type : trough_type := mkTType (S_ "bulb") [1%Z; 4%Z] None (0, 0) (90, 90) 0 0%Z 1 1.
Definition draw0 : trough_draw := mkTD 0 1 0 0 0 (fun _ => 0%nat).
Definition pt (x y z : R) : point R := mkPoint x y z 0 0.
Theorem C41_bulb_orientation_refuted :
  exists t w az dp g, new_trough bulb_type 0 0 0 2 2 2 45 draw0 = Ok t /\
    trough_assign (flat 10 10) t 7 (pt 1 1 (-1)) = Ok (Some w) /\ w_azim w = Some az /\ w_dip w = Some dp /\
    is_gradient (level 0 0 0 2 2 2 45) 1 1 (-1) g /\
    forall s, s = 1 \/ s = -1 -> ~ parallel (layer_normal s az dp) g.
Proof.
  assert (Ht : exists t, new_trough bulb_type 0 0 0 2 2 2 45 draw0 = Ok t /\ tr_structure t = 2%Z /\ tr_dip t = 90).
  { eexists. split; [reflexivity|]. split; [reflexivity|]. cbn. unfold uniform. numR. ring. }
  destruct Ht as (t & Ht & Hst & Hdip).
  assert (Hw : exists w, trough_assign (flat 10 10) t 7 (pt 1 1 (-1)) = Ok (Some w)).
  { destruct (C39_lookup_inside _ _ _ _ _ _ _ _ _ _ (flat 10 10) 7 (pt 1 1 (-1)) Ht) as [r Hr]; try lra.
    - split; cbn; lra.
    - repeat split; cbn; lra.
    - destruct r as [w|]; [eauto|exfalso].
      apply (C38_half_ellipsoid _ _ _ _ _ _ _ _ _ _ 10 10 7 (pt 1 1 (-1)) Ht) in Hr; try lra. apply Hr.
      split; [cbn; lra|]. cbn.
      pose proof (sc2 (radians 45)) as Hsc. set (C := cos (radians 45)) in *. set (S := sin (radians 45)) in *.
      exists ((C + S) / 2), ((C - S) / 2), (- / 2). split; [|repeat split].
      + replace ((C + S) / 2 * ((C + S) / 2) + (C - S) / 2 * ((C - S) / 2) + - / 2 * - / 2) with ((C * C + S * S) / 2 + / 4) by field. rewrite Hsc. lra.
      + replace (0 + (2 * ((C + S) / 2) * C - 2 * ((C - S) / 2) * S)) with (C * C + S * S) by field. now rewrite Hsc.
      + replace (0 + (2 * ((C + S) / 2) * S + 2 * ((C - S) / 2) * C)) with (C * C + S * S) by field. now rewrite Hsc.
      + field. }
  destruct Hw as [w Hw].
  set (g := gradient 0 0 0 2 2 2 45 1 1 (-1)).
  assert (Hg : is_gradient (level 0 0 0 2 2 2 45) 1 1 (-1) g) by (apply gradient_ok; lra).
  assert (Eg : g = (/ 2, / 2, - / 2)).
  { unfold g, gradient. pose proof (sc2 (radians 45)) as Hsc. set (C := cos (radians 45)) in *. set (S := sin (radians 45)) in *.
    f_equal; [f_equal|field].
    - replace (2 * (((1 - 0) * C + (1 - 0) * S) / 2 ^ 2 * C - (- (1 - 0) * S + (1 - 0) * C) / 2 ^ 2 * S)) with ((C * C + S * S) / 2) by field. rewrite Hsc. lra.
    - replace (2 * (((1 - 0) * C + (1 - 0) * S) / 2 ^ 2 * S + (- (1 - 0) * S + (1 - 0) * C) / 2 ^ 2 * C)) with ((C * C + S * S) / 2) by field. rewrite Hsc. lra. }
  assert (Etr : turned 45 g = (/ 2, - / 2, - / 2)).
  { rewrite Eg. unfold turned. replace (2 * radians 45) with (PI / 2) by (unfold radians; field). rewrite cos_PI2, sin_PI2.
    f_equal. f_equal; ring. }
  destruct (C41_turned_gradient _ _ _ _ _ _ _ _ _ _ 10 10 7 (pt 1 1 (-1)) w g Ht) as (az & dp & Haz & Hdp & Hr & Hpar); try assumption; try lra; try lia.
  - cbn. lra.
  - rewrite Etr. cbn. lra.
  - assert (El : limit (tr_dip t) dp = dp).
    { unfold limit. rewrite Hdip. destruct (Rle_dec (Rabs dp) 90) as [|H]; [reflexivity|]. exfalso. apply H. apply Rabs_le. lra. }
    rewrite El in Hdp.
    exists t, w, az, dp, g. split; [exact Ht|]. split; [exact Hw|]. split; [exact Haz|]. split; [exact Hdp|]. split; [exact Hg|].
    intros s Hs. rewrite Eg. rewrite Etr in Hpar. unfold parallel, layer_normal in *.
    pose proof (sc2 (radians dp)) as H1. pose proof (sc2 (radians az)) as H2.
    set (ca := cos (radians az)) in *. set (sa := sin (radians az)) in *. set (cd := cos (radians dp)) in *. set (sd := sin (radians dp)) in *.
    destruct Hpar as (P1 & P2 & P3). intros (Q1 & Q2 & Q3).
    assert (ca * sd = 0) by (destruct Hs as [-> | ->]; lra). assert (sa * sd = 0) by (destruct Hs as [-> | ->]; lra).
    assert (cd = 0) by lra.
    assert (sd * sd = 1) by (rewrite H3 in H1; lra).
    assert (sd * sd * (ca * ca + sa * sa) = 0) by (replace (sd * sd * (ca * ca + sa * sa)) with (ca * sd * (ca * sd) + sa * sd * (sa * sd)) by ring; rewrite H, H0; ring).
    rewrite H4, H2 in H5. lra.
Qed.

(** C41 fails even without rotation on the plane through the centre: the layers
    at (0, 1, -1) dip the wrong way compared to those at (e, 1, -1), e > 0. *)
Theorem C41_centre_plane_refuted :
  exists t w az dp, new_trough bulb_type 0 0 0 2 2 2 0 draw0 = Ok t /\
    trough_assign (flat 10 10) t 7 (pt 0 1 (-1)) = Ok (Some w) /\ w_azim w = Some az /\ w_dip w = Some dp /\
    exists g, is_gradient (level 0 0 0 2 2 2 0) 0 1 (-1) g /\ ~ parallel (layer_normal (-1) az dp) g.
Proof.
  assert (E0 : radians 0 = 0) by (unfold radians; field).
  assert (Ht : exists t, new_trough bulb_type 0 0 0 2 2 2 0 draw0 = Ok t /\ tr_structure t = 2%Z /\ tr_dip t = 90).
  { eexists. split; [reflexivity|]. split; [reflexivity|]. cbn. unfold uniform. numR. ring. }
  destruct Ht as (t & Ht & Hst & Hdip). exists t. apply new_trough_built in Ht as B.
  set (len := sqrt ((/ 4) ^ 2 + (/ 4) ^ 2)).
  assert (Hlen2 : len * len = / 8) by (unfold len; rewrite sqrt_sqrt; lra).
  assert (Hlen : 0 < len) by (apply sqrt_lt_R0; lra).
  set (q := / 4 / len). assert (Hq : 0 < q) by (apply Rdiv_lt_0_compat; lra).
  assert (Hq2 : q * q = / 2).
  { unfold q. replace (/ 4 / len * (/ 4 / len)) with (/ 16 / (len * len)) by (field; lra). rewrite Hlen2. field. }
  assert (Hq1 : q < 1) by nra.
  assert (En : bulb_normal t (0 - 0) (1 - 0) (-1 - 0) = Some (0, q, - q)).
  { unfold bulb_normal, norm_x, norm_y, norm_z. cbv zeta.
    rewrite (b_a _ _ _ _ _ _ _ _ _ _ B), (b_b _ _ _ _ _ _ _ _ _ _ B), (b_c _ _ _ _ _ _ _ _ _ _ B), (b_sin _ _ _ _ _ _ _ _ _ _ B), (b_cos _ _ _ _ _ _ _ _ _ _ B).
    rewrite E0, sin_0, cos_0.
    replace (((0 - 0) * 1 + (1 - 0) * 0) / 2 / 2) with 0 by field.
    replace ((- (0 - 0) * 0 + (1 - 0) * 1) / 2 / 2) with (/ 4) by field.
    replace ((-1 - 0) / 2 / 2) with (- / 4) by field.
    replace (0 ^ 2 + (/ 4) ^ 2 + (- / 4) ^ 2) with ((/ 4) ^ 2 + (/ 4) ^ 2) by field. fold len.
    destruct (Req_EM_T len 0); [lra|]. f_equal. f_equal; [f_equal|]; unfold q; field; lra. }
  assert (Ea : bulb_angles t (0 - 0) (1 - 0) (-1 - 0) = (vec_azim 0 q, vec_dip 0 (- q))).
  { unfold bulb_angles. rewrite En.
    assert (Hxy : sqrt (0 ^ 2 + q ^ 2) <> 0) by (apply Rgt_not_eq, sqrt_lt_R0; nra).
    destruct (Req_EM_T _ 0) as [|_]; [contradiction|]. fold (vec_azim 0 q). fold (vec_dip 0 (- q)). f_equal.
    assert (-90 <= vec_dip 0 (- q) <= 90) by (apply vec_dip_range; rewrite Rabs_Ropp, Rabs_right; lra).
    unfold clamp. rewrite Hdip. destruct (Rltb_spec 90 (vec_dip 0 (- q))); [lra|]. destruct (Rltb_spec (vec_dip 0 (- q)) (- (90))); lra. }
  assert (Hcl : claims t (0 - 0) (1 - 0) (-1 - 0) = true).
  { apply (claims_iff _ _ _ _ _ _ _ _ _ _ B); try lra. split; [lra|]. unfold l2, norm_x, norm_y, norm_z.
    rewrite (b_a _ _ _ _ _ _ _ _ _ _ B), (b_b _ _ _ _ _ _ _ _ _ _ B), (b_c _ _ _ _ _ _ _ _ _ _ B), (b_sin _ _ _ _ _ _ _ _ _ _ B), (b_cos _ _ _ _ _ _ _ _ _ _ B).
    rewrite E0, sin_0, cos_0. lra. }
  exists (mkWrite (tr_facies t) (Some (vec_azim 0 q)) (Some (vec_dip 0 (- q))) 7), (vec_azim 0 q), (vec_dip 0 (- q)).
  split; [exact Ht|]. split.
  { unfold trough_assign, offset, flat, wrap, pt. cbn [dm_periodic p_x p_y p_z].
    rewrite (b_x _ _ _ _ _ _ _ _ _ _ B), (b_y _ _ _ _ _ _ _ _ _ _ B), (b_z _ _ _ _ _ _ _ _ _ _ B). rewrite Hcl.
    unfold trough_write. rewrite (b_z _ _ _ _ _ _ _ _ _ _ B), (b_c _ _ _ _ _ _ _ _ _ _ B), (b_lag _ _ _ _ _ _ _ _ _ _ B). cbn [tt_lag_height bulb_type].
    destruct (Rltb_spec (-1) (0 - 2 + 0)); [lra|]. rewrite Hst. cbn [Z.eqb Pos.eqb]. rewrite Ea. reflexivity. }
  split; [reflexivity|]. split; [reflexivity|].
  exists (gradient 0 0 0 2 2 2 0 0 1 (-1)). split; [apply gradient_ok; lra|].
  unfold gradient. rewrite E0, cos_0, sin_0. unfold parallel, layer_normal. intros (_ & _ & H3). revert H3.
  assert (Eaz : radians (vec_azim 0 q) = - (PI / 2)).
  { unfold vec_azim. rewrite radians_back. unfold atan_quot. rewrite Rabs_R0. destruct (Req_EM_T 0 0); [|lra].
    rewrite sgn_pos by lra. destruct (Rltb_spec 0 (1 * q)); lra. }
  assert (Edp : radians (vec_dip 0 (- q)) = - acos q).
  { unfold vec_dip. destruct (Req_EM_T (- q) 0); [lra|]. rewrite radians_back. rewrite Rabs_Ropp, Rabs_right by lra.
    rewrite sgn_pos by lra. ring. }
  rewrite Eaz, Edp, !sin_neg, cos_neg, sin_PI2, cos_acos, sin_acos by lra.
  assert (Es : sqrt (1 - q²) = q).
  { unfold Rsqr. rewrite Hq2. replace (1 - / 2) with (q * q) by lra. apply sqrt_square. lra. }
  rewrite Es. intros H3. nra.
Qed.

(** C42: below the lowest point plus the lag height there is lag facies,
    without bedding angles. *)
Theorem C42_lag_cells tt x y z a b c alpha d t dm ha p w :
  new_trough tt x y z a b c alpha d = Ok t -> trough_assign dm t ha p = Ok (Some w) ->
  p_z p < z - c + tt_lag_height tt ->
  w = mkWrite (tt_lag_facies tt) (Some 0) (Some 0) ha.
Proof.
  intros Ht. apply new_trough_built in Ht as B. unfold trough_assign. destruct (offset dm t p) as [[dx dy] dz].
  destruct (claims t dx dy dz); [|discriminate]. unfold trough_write.
  rewrite (b_z _ _ _ _ _ _ _ _ _ _ B), (b_c _ _ _ _ _ _ _ _ _ _ B), (b_lag _ _ _ _ _ _ _ _ _ _ B), (b_lagf _ _ _ _ _ _ _ _ _ _ B).
  intros H Hlt. destruct (Rltb_spec (p_z p) (z - c + tt_lag_height tt)); [|lra]. cbn in H. congruence.
Qed.

(** The same trough with other lag settings. *)
Definition relag (t : trough) (h : R) (f : Z) : trough :=
  mkTrough (tr_x t) (tr_y t) (tr_z t) (tr_a t) (tr_b t) (tr_c t) (tr_max_ab t) (tr_zmin t) (tr_zmax t) (tr_sin t) (tr_cos t) h f
    (tr_structure t) (tr_layer_dist t) (tr_shift t) (tr_nx t) (tr_ny t) (tr_nz t) (tr_facies t) (tr_azim t) (tr_dip t) (tr_num_facies t) (tr_array t).
Lemma new_trough_relag tt x y z a b c alpha d t h f :
  new_trough tt x y z a b c alpha d = Ok t -> new_trough (with_lag tt h f) x y z a b c alpha d = Ok (relag t h f).
Proof.
  unfold new_trough, with_lag. cbn. destruct (structure_code _ _) as [s|]; [|discriminate]. cbn.
  destruct (s =? 0)%Z; [|destruct (s =? 1)%Z; [|destruct (s =? 2)%Z]].
  - destruct (choice _ _); [|discriminate]. cbn. intros [= <-]. reflexivity.
  - destruct (alternating_facies _ _ _ _); [|discriminate]. cbn. intros [= <-]. reflexivity.
  - destruct (choice _ _); [|discriminate]. cbn. intros [= <-]. reflexivity.
  - destruct (alternating_facies _ _ _ _); [|discriminate]. cbn. intros [= <-]. reflexivity.
Qed.

(** C42: cells that are not below keep what they would get with any other lag
    they are not below of; the lag facies has no influence on them. *)
Theorem C42_other_cells tt x y z a b c alpha d t h f dm ha p :
  new_trough tt x y z a b c alpha d = Ok t ->
  z - c + tt_lag_height tt <= p_z p -> z - c + h <= p_z p ->
  exists t', new_trough (with_lag tt h f) x y z a b c alpha d = Ok t' /\
    trough_assign dm t' ha p = trough_assign dm t ha p.
Proof.
  intros Ht H1 H2. exists (relag t h f). split; [now apply new_trough_relag|].
  apply new_trough_built in Ht as B. unfold trough_assign.
  change (offset dm (relag t h f) p) with (offset dm t p). destruct (offset dm t p) as [[dx dy] dz].
  change (claims (relag t h f) dx dy dz) with (claims t dx dy dz). destruct (claims t dx dy dz); [|reflexivity].
  f_equal. unfold trough_write. cbn [tr_z tr_c tr_lag relag].
  rewrite (b_z _ _ _ _ _ _ _ _ _ _ B), (b_c _ _ _ _ _ _ _ _ _ _ B), (b_lag _ _ _ _ _ _ _ _ _ _ B).
  destruct (Rltb_spec (p_z p) (z - c + tt_lag_height tt)); [lra|]. destruct (Rltb_spec (p_z p) (z - c + h)); [lra|]. reflexivity.
Qed.

(** C42: with lag height zero (or less) the lag facies is never assigned: it
    has no influence on any cell. *)
Theorem C42_no_lag tt x y z a b c alpha d t f dm ha p :
  new_trough tt x y z a b c alpha d = Ok t -> 0 < a -> 0 < b -> 0 < c -> tt_lag_height tt <= 0 ->
  exists t', new_trough (with_lag tt (tt_lag_height tt) f) x y z a b c alpha d = Ok t' /\
    trough_assign dm t' ha p = trough_assign dm t ha p.
Proof.
  intros Ht Ha Hb Hc Hh. apply new_trough_built in Ht as B.
  destruct (Rlt_le_dec (p_z p) (z - c)) as [Hlt|Hle].
  - exists (relag t (tt_lag_height tt) f). split; [now apply new_trough_relag|]. unfold trough_assign.
    change (offset dm (relag t (tt_lag_height tt) f) p) with (offset dm t p).
    assert (E : snd (offset dm t p) = p_z p - z) by (unfold offset; cbn; now rewrite (b_z _ _ _ _ _ _ _ _ _ _ B)).
    destruct (offset dm t p) as [[dx dy] dz]. cbn in E. subst dz.
    change (claims (relag t (tt_lag_height tt) f) dx dy (p_z p - z)) with (claims t dx dy (p_z p - z)).
    destruct (claims t dx dy (p_z p - z)) eqn:Ec; [exfalso|reflexivity].
    apply (claims_iff _ _ _ _ _ _ _ _ _ _ B Ha Hb Hc) in Ec as [_ Ec].
    destruct (unit_ball_far _ _ _ _ _ _ _ _ _ _ B Ha Hb Hc _ _ _ Ec) as (_ & K & _). nra.
  - eapply C42_other_cells; eauto; lra.
Qed.

(** ** Periodic domains *)

Definition periodic_shape (x y z a b c alpha lx ly px py pz : R) : Prop :=
  exists i j, half_ellipsoid (x + IZR i * lx) (y + IZR j * ly) z a b c alpha px py pz.

(** C43 and C44 (as far as it is true): cells not more than one and a half
    domain lengths away from the centre.  The cell gets exactly what a copy of
    the trough assigns, and it is taken exactly if some copy contains it. *)
Theorem C43_copy tt x y z a b c alpha d t lx ly ha p :
  new_trough tt x y z a b c alpha d = Ok t -> 0 < lx -> 0 < ly ->
  Rabs (p_x p - x) <= 3 / 2 * lx -> Rabs (p_y p - y) <= 3 / 2 * ly ->
  exists i j t', new_trough tt (x + IZR i * lx) (y + IZR j * ly) z a b c alpha d = Ok t' /\
    trough_assign (periodic lx ly) t ha p = trough_assign (flat lx ly) t' ha p.
Proof.
  intros Ht Hlx Hly Hx Hy.
  destruct (wrap_range lx (p_x p - x) Hlx Hx) as (i & _ & Ei & _).
  destruct (wrap_range ly (p_y p - y) Hly Hy) as (j & _ & Ej & _).
  exists i, j.
  set (t' := mkTrough (x + IZR i * lx) (y + IZR j * ly) (tr_z t) (tr_a t) (tr_b t) (tr_c t) (tr_max_ab t) (tr_zmin t) (tr_zmax t) (tr_sin t) (tr_cos t) (tr_lag t) (tr_lag_facies t)
    (tr_structure t) (tr_layer_dist t) (tr_shift t) (tr_nx t) (tr_ny t) (tr_nz t) (tr_facies t) (tr_azim t) (tr_dip t) (tr_num_facies t) (tr_array t)).
  exists t'. apply new_trough_built in Ht as B. split.
  - revert Ht. unfold t', new_trough. destruct (structure_code _ _) as [s|]; [|discriminate]. cbn [bind].
    destruct (s =? 0)%Z; [|destruct (s =? 1)%Z; [|destruct (s =? 2)%Z]].
    + destruct (choice _ _); [|discriminate]. cbn [bind]. intros [= <-]. reflexivity.
    + destruct (alternating_facies _ _ _ _); [|discriminate]. cbn [bind]. intros [= <-]. reflexivity.
    + destruct (choice _ _); [|discriminate]. cbn [bind]. intros [= <-]. reflexivity.
    + destruct (alternating_facies _ _ _ _); [|discriminate]. cbn [bind]. intros [= <-]. reflexivity.
  - unfold trough_assign.
    assert (Eo : offset (periodic lx ly) t p = offset (flat lx ly) t' p).
    { unfold offset. cbn [dm_periodic dm_lx dm_ly periodic flat tr_x tr_y tr_z t'].
      rewrite (b_x _ _ _ _ _ _ _ _ _ _ B), (b_y _ _ _ _ _ _ _ _ _ _ B). rewrite Ei, Ej. unfold wrap. f_equal. f_equal; ring. }
    rewrite Eo. destruct (offset (flat lx ly) t' p) as [[dx dy] dz]. reflexivity.
Qed.

Theorem C43_periodic tt x y z a b c alpha d t lx ly ha p :
  new_trough tt x y z a b c alpha d = Ok t -> 0 < a -> 0 < b -> 0 < c ->
  Rmax a b <= lx / 2 -> Rmax a b <= ly / 2 ->
  Rabs (p_x p - x) <= 3 / 2 * lx -> Rabs (p_y p - y) <= 3 / 2 * ly ->
  (trough_assign (periodic lx ly) t ha p = Ok None <-> ~ periodic_shape x y z a b c alpha lx ly (p_x p) (p_y p) (p_z p)).
Proof.
  intros Ht Ha Hb Hc Hmx Hmy Hx Hy.
  pose proof (Rmax_l a b) as Hmax. assert (Hlx : 0 < lx) by lra. assert (Hly : 0 < ly) by lra.
  destruct (C43_copy _ _ _ _ _ _ _ _ _ _ lx ly ha p Ht Hlx Hly Hx Hy) as (i & j & t' & Ht' & E).
  apply new_trough_built in Ht as B.
  split.
  - rewrite <- assign_none. unfold offset. cbn [dm_periodic dm_lx dm_ly periodic].
    rewrite (b_x _ _ _ _ _ _ _ _ _ _ B), (b_y _ _ _ _ _ _ _ _ _ _ B), (b_z _ _ _ _ _ _ _ _ _ _ B).
    destruct (wrap_range lx (p_x p - x) Hlx Hx) as (i1 & _ & Ei & Ri).
    destruct (wrap_range ly (p_y p - y) Hly Hy) as (j1 & _ & Ej & Rj).
    set (u := wrap true lx (p_x p - x)) in *. set (v := wrap true ly (p_y p - y)) in *.
    intros Hcl (i2 & j2 & Hh).
    assert (claims t u v (p_z p - z) = true) as K; [|congruence].
    apply (claims_iff _ _ _ _ _ _ _ _ _ _ B Ha Hb Hc).
    set (u2 := p_x p - (x + IZR i2 * lx)). set (v2 := p_y p - (y + IZR j2 * ly)).
    (* the copy that contains the cell *)
    assert (Hh2 : p_z p - z <= 0 /\ l2 t u2 v2 (p_z p - z) <= 1).
    { assert (Hh3 : half_ellipsoid x y z a b c alpha (p_x p - IZR i2 * lx) (p_y p - IZR j2 * ly) (p_z p)).
      { destruct Hh as [H1 (m & n & o & H2 & E1 & E2 & E3)]. split; [exact H1|]. exists m, n, o. repeat split; lra. }
      apply (l2_half _ _ _ _ _ _ _ _ _ _ B Ha Hb Hc u2 v2 (p_z p - z)) in Hh3; [exact Hh3| | |]; unfold u2, v2; ring. }
    destruct Hh2 as [Hz Hl]. split; [exact Hz|].
    destruct (unit_ball_far _ _ _ _ _ _ _ _ _ _ B Ha Hb Hc _ _ _ Hl) as (Hball & _ & _).
    pose proof (pow2_ge_0 u2). pose proof (pow2_ge_0 v2).
    assert (Ru2 : - Rmax a b <= u2 <= Rmax a b) by (apply sq_le_abs; lra).
    assert (Rv2 : - Rmax a b <= v2 <= Rmax a b) by (apply sq_le_abs; lra).
    assert (Eu : u = u2 + IZR (i2 - i1) * lx) by (rewrite minus_IZR; unfold u2; rewrite Ei; ring).
    assert (Ev : v = v2 + IZR (j2 - j1) * ly) by (rewrite minus_IZR; unfold v2; rewrite Ej; ring).
    destruct (half_reps lx u u2 _ Hlx Ri ltac:(lra) Eu) as [Su|[Su Bu]].
    + destruct (half_reps ly v v2 _ Hly Rj ltac:(lra) Ev) as [Sv|[Sv Bv]].
      * rewrite Su, Sv. exact Hl.
      * assert (u2 = 0) by (assert (u2 ^ 2 <= 0) by (destruct Bv as [Bv|Bv]; rewrite Bv in *; nra); nra).
        rewrite Su, Sv. replace u2 with (- u2) at 1 by lra. rewrite l2_opp. exact Hl.
    + assert (v2 = 0) by (assert (v2 ^ 2 <= 0) by (destruct Bu as [Bu|Bu]; rewrite Bu in *; nra); nra).
      destruct (half_reps ly v v2 _ Hly Rj ltac:(lra) Ev) as [Sv|[Sv Bv]].
      * rewrite Su, Sv. replace v2 with (- v2) at 1 by lra. rewrite l2_opp. exact Hl.
      * destruct Bv; lra.
  - intros Hn. rewrite E. apply (C38_half_ellipsoid _ _ _ _ _ _ _ _ _ _ lx ly ha p Ht' Ha Hb Hc).
    intros Hh. apply Hn. exists i, j. exact Hh.
Qed.

(** C43 for the domain [x0, x0+lx] x [y0, y0+ly]. *)
Corollary C43_centre_in_domain tt x y z a b c alpha d t x0 y0 lx ly ha p :
  new_trough tt x y z a b c alpha d = Ok t -> 0 < a -> 0 < b -> 0 < c ->
  Rmax a b <= lx / 2 -> Rmax a b <= ly / 2 ->
  x0 <= x <= x0 + lx -> y0 <= y <= y0 + ly -> x0 <= p_x p <= x0 + lx -> y0 <= p_y p <= y0 + ly ->
  (trough_assign (periodic lx ly) t ha p = Ok None <-> ~ periodic_shape x y z a b c alpha lx ly (p_x p) (p_y p) (p_z p)).
Proof.
  intros Ht Ha Hb Hc Hmx Hmy Hx Hy Hpx Hpy. eapply C43_periodic; eauto; apply Rabs_le; lra.
Qed.

(** C44 as far as it holds: centres up to half a domain outside. *)
Corollary C44_migrated_partial tt x y z a b c alpha d t x0 y0 lx ly ha p :
  new_trough tt x y z a b c alpha d = Ok t -> 0 < a -> 0 < b -> 0 < c ->
  Rmax a b <= lx / 2 -> Rmax a b <= ly / 2 ->
  x0 - lx / 2 <= x <= x0 + 3 / 2 * lx -> y0 - ly / 2 <= y <= y0 + 3 / 2 * ly -> x0 <= p_x p <= x0 + lx -> y0 <= p_y p <= y0 + ly ->
  (trough_assign (periodic lx ly) t ha p = Ok None <-> ~ periodic_shape x y z a b c alpha lx ly (p_x p) (p_y p) (p_z p)).
Proof.
  intros Ht Ha Hb Hc Hmx Hmy Hx Hy Hpx Hpy. eapply C43_periodic; eauto; apply Rabs_le; lra.
Qed.

(** C44 is false in general: a trough that migrated two domain lengths away is
    lost although its copy covers the middle of the domain. *)
Theorem C44_migrated_refuted :
  exists t, new_trough bulb_type 25 5 0 2 2 2 0 draw0 = Ok t /\
    trough_assign (periodic 10 10) t 7 (pt 5 5 (-1)) = Ok None /\
    periodic_shape 25 5 0 2 2 2 0 10 10 5 5 (-1).
Proof.
  assert (Ht : exists t, new_trough bulb_type 25 5 0 2 2 2 0 draw0 = Ok t) by (eexists; reflexivity).
  destruct Ht as [t Ht]. exists t. split; [exact Ht|]. apply new_trough_built in Ht as B. split.
  - apply assign_none. unfold offset, periodic, pt. cbn [dm_periodic dm_lx dm_ly p_x p_y p_z].
    rewrite (b_x _ _ _ _ _ _ _ _ _ _ B), (b_y _ _ _ _ _ _ _ _ _ _ B), (b_z _ _ _ _ _ _ _ _ _ _ B).
    assert (E : wrap true 10 (5 - 25) = -10).
    { unfold wrap. destruct (Rltb_spec (10 / 2) (5 - 25)); [lra|]. destruct (Rltb_spec (5 - 25) (- (10) / 2)); lra. }
    rewrite E. destruct (claims t _ _ _) eqn:Ec; [exfalso|reflexivity].
    apply (claims_iff _ _ _ _ _ _ _ _ _ _ B) in Ec as [_ Ec]; try lra.
    destruct (unit_ball_far _ _ _ _ _ _ _ _ _ _ B ltac:(lra) ltac:(lra) ltac:(lra) _ _ _ Ec) as (K & _).
    rewrite Rmax_left in K by lra. set (v := wrap true 10 (5 - 5)) in *. pose proof (pow2_ge_0 v). lra.
  - exists (-2)%Z, 0%Z. split; [lra|]. exists 0, 0, (- / 2). repeat split; lra.
Qed.

(** ** Positions and sizes *)

(** C45: the planes are exactly the heights top - i*agg above the lower limit. *)
Theorem C45_planes zmax top depth buffer agg : 0 < agg ->
  exists zs, trough_planes zmax top depth buffer agg = Ok zs /\ plane_heights top (zmax + depth * buffer) agg zs.
Proof. apply planes_ok. Qed.

Definition uniform_ok (d : plane_draw R) : Prop := Forall (fun u => 0 <= fst u < 1 /\ 0 <= snd u < 1) (pd_uniform d).

(** C45: without migration every plane holds the drawn number of troughs at
    positions in the domain. *)
Theorem C45_random g zmax top depth buffer agg ds zs :
  0 < agg -> 0 < g_lx g -> 0 < g_ly g ->
  trough_planes zmax top depth buffer agg = Ok zs -> (List.length zs <= List.length ds)%nat -> Forall uniform_ok ds ->
  exists per, trough_positions g zmax top depth buffer agg false ds = Ok (List.concat per) /\ List.length per = List.length zs /\
    forall i pl, nth_error per i = Some pl -> exists z d, nth_error zs i = Some z /\ nth_error ds i = Some d /\
      List.length pl = List.length (pd_uniform d) /\ Forall (in_domain (g_x0 g) (g_lx g) (g_y0 g) (g_ly g) z) pl.
Proof.
  intros Ha Hx Hy Ez Hl Hu. exists (random_planes g zs ds). unfold trough_positions. rewrite Ez. cbn [bind].
  rewrite plane_loop_random by assumption. split; [reflexivity|]. split; [now apply random_planes_length|].
  intros i pl Hpl. apply random_planes_nth in Hpl as (z & d & Hz & Hd & ->). exists z, d. split; [assumption|]. split; [assumption|].
  split; [unfold random_plane; now rewrite map_length|]. apply random_plane_domain; [assumption|assumption|].
  rewrite Forall_forall in Hu. apply Hu. eapply nth_error_In; eauto.
Qed.

(** C45: with migration the first plane is random, every other one holds the
    troughs of the plane above, displaced as drawn. *)
Theorem C45_migrated g zmax top depth buffer agg d0 ds z0 zs :
  0 < agg -> 0 < g_lx g -> 0 < g_ly g ->
  trough_planes zmax top depth buffer agg = Ok (z0 :: zs) -> (List.length zs <= List.length ds)%nat -> uniform_ok d0 ->
  exists first per, trough_positions g zmax top depth buffer agg true (d0 :: ds) = Ok (List.concat (first :: per)) /\
    List.length per = List.length zs /\
    List.length first = List.length (pd_uniform d0) /\ Forall (in_domain (g_x0 g) (g_lx g) (g_y0 g) (g_ly g) z0) first /\
    forall i pl, nth_error per i = Some pl ->
      exists z d above, nth_error zs i = Some z /\ nth_error ds i = Some d /\ nth_error (first :: per) i = Some above /\
        List.length pl = List.length first /\
        forall k p q, nth_error above k = Some p -> nth_error pl k = Some q ->
          q = (fst (fst p) + fst (pd_normal d k), snd (fst p) + snd (pd_normal d k), z).
Proof.
  intros Ha Hx Hy Ez Hl Hu. set (first := random_plane g z0 d0). exists first, (moved_planes zs ds first).
  unfold trough_positions. rewrite Ez. cbn [bind plane_loop Nat.eqb orb].
  fold (random_plane g z0 d0). fold first. rewrite app_nil_l.
  assert (Hf : List.length first = List.length (pd_uniform d0)) by (unfold first, random_plane; now rewrite map_length).
  rewrite <- Hf. split.
  { change first with ([] ++ first) at 2. rewrite plane_loop_moved; [reflexivity|assumption|lia|reflexivity|reflexivity]. }
  split; [now apply moved_planes_length|]. split; [reflexivity|]. split; [now apply random_plane_domain|].
  assert (K : forall i pl, nth_error (moved_planes zs ds first) i = Some pl -> List.length pl = List.length first).
  { clear. generalize first. revert ds. induction zs as [|z zs IH]; intros ds fr i pl; cbn; [destruct i; discriminate|].
    destruct ds as [|d ds]; [destruct i; discriminate|]. destruct i; cbn.
    - intros [= <-]. apply moved_length.
    - intros H. apply IH in H. rewrite H. apply moved_length. }
  intros i pl Hpl. specialize (K i pl Hpl). apply moved_planes_nth in Hpl as (z & d & above & Hz & Hd & Hab & ->).
  exists z, d, above. split; [assumption|]. split; [assumption|]. split; [assumption|]. split; [assumption|].
  intros k p q Hp Hq. rewrite (moved_nth z (pd_normal d) 0 above k p Hp) in Hq. now injection Hq as <-.
Qed.

(** C45: from top to bottom, all above the lower limit. *)
Theorem C45_descending g zmax top depth buffer agg migrate ds te :
  0 < agg -> trough_positions g zmax top depth buffer agg migrate ds = Ok te ->
  StronglySorted (fun p q => snd q <= snd p) te /\ Forall (fun p => zmax + depth * buffer < snd p <= top) te.
Proof.
  intros Ha. unfold trough_positions. destruct (C45_planes zmax top depth buffer agg Ha) as (zs & Ez & Hz).
  rewrite Ez. cbn [bind]. apply heights_sorted in Hz as [Hs Hr]; [|assumption].
  (* heights of the planes that were added *)
  assert (K : forall zs ds i total te0 te, plane_loop g migrate zs ds i total te0 = Ok te ->
     exists per, te = te0 ++ List.concat per /\ Forall2 (fun z pl => Forall (fun p => snd p = z) pl) zs per).
  { clear. induction zs as [|z zs IH]; intros ds i total te0 te; cbn [plane_loop].
    - intros [= <-]. exists []. cbn. rewrite app_nil_r. split; [reflexivity|constructor].
    - destruct ds as [|d ds]; [discriminate|]. destruct (Nat.eqb i 0 || negb migrate).
      + fold (random_plane g z d). intros H. apply IH in H as (per & -> & HF). exists (random_plane g z d :: per). cbn. rewrite app_assoc. split; [reflexivity|].
        constructor; [|assumption]. unfold random_plane. apply Forall_map. apply Forall_forall. reflexivity.
      + destruct (migrate_plane i total z (pd_normal d) total 0 te0) as [te1|] eqn:E; [|discriminate]. cbn [bind].
        intros H. apply IH in H as (per & -> & HF).
        assert (G : forall n k te0 te1, migrate_plane i total z (pd_normal d) n k te0 = Ok te1 -> exists pl, te1 = te0 ++ pl /\ Forall (fun p => snd p = z) pl).
        { clear. induction n as [|n IH]; intros k te0 te1; cbn [migrate_plane].
          - intros [= <-]. exists []. rewrite app_nil_r. split; [reflexivity|constructor].
          - destruct (nth_error te0 _) as [[[x y] w]|]; [|discriminate]. intros H. apply IH in H as (pl & -> & HF).
            eexists. rewrite <- app_assoc. split; [reflexivity|]. constructor; [reflexivity|assumption]. }
        apply G in E as (pl & -> & Hpl). exists (pl :: per). cbn. rewrite app_assoc. split; [reflexivity|]. now constructor. }
  intros H. apply K in H as (per & -> & HF). cbn [app]. split; [now apply concat_descending with zs|].
  clear - HF Hr. induction HF as [|z pl zs per H1 H2 IH]; cbn; [constructor|]. inversion Hr; subst.
  apply Forall_app. split; [|auto]. eapply Forall_impl; [|exact H1]. cbn. intros p ->. assumption.
Qed.

(** C46: the size factor is linear, with the given values at bottom and top. *)
Theorem C46_linear t0 t1 z0 lz : lz <> 0 ->
  linear_between (fun z => zfactor (Some (t0, t1)) z z0 lz) z0 (z0 + lz) t0 t1.
Proof. intros H. unfold linear_between, zfactor. numR. repeat split; intros; field; assumption. Qed.

(** C46: inside the domain the sizes lie between the extremes. *)
Theorem C46_between length width depth t0 t1 z z0 lz a b c :
  0 < length -> 0 < width -> 0 < depth -> 0 < t0 -> 0 < t1 -> 0 < lz -> z0 <= z <= z0 + lz ->
  trough_size length width depth (Some (t0, t1)) z z0 lz = (a, b, c) ->
  exists f, Rmin t0 t1 <= f <= Rmax t0 t1 /\ 0 < f /\ a = f * length / 2 /\ b = f * width / 2 /\ c = f * depth /\ 0 < a /\ 0 < b /\ 0 < c.
Proof.
  intros Hl Hw Hd H0 H1 Hz Hr. unfold trough_size. intros [= <- <- <-].
  set (f := zfactor (Some (t0, t1)) z z0 lz). exists f.
  assert (Hf : Rmin t0 t1 <= f <= Rmax t0 t1).
  { unfold f, zfactor. numR. set (r := (z - z0) / lz).
    replace ((z - z0) * (t1 - t0) / lz) with (r * (t1 - t0)) by (unfold r; field; lra).
    assert (0 <= r <= 1).
    { unfold r. split; [apply Rmult_le_pos; [lra|left; now apply Rinv_0_lt_compat]|].
      apply Rmult_le_reg_r with lz; [assumption|]. unfold Rdiv. rewrite Rmult_assoc, Rinv_l by lra. lra. }
    unfold Rmin, Rmax. destruct (Rle_dec t0 t1); nra. }
  assert (0 < f) by (pose proof (Rmin_glb_lt t0 t1 0 H0 H1); lra).
  assert (0 < length * f) by nra. assert (0 < width * f) by nra. assert (0 < depth * f) by nra.
  unfold two. numR. change (t0 + (z - z0) * (t1 - t0) / lz) with f. repeat split; lra.
Qed.
Theorem C46_no_trend length width depth z z0 lz :
  trough_size length width depth None z z0 lz = (length / 2, width / 2, depth).
Proof. unfold trough_size, zfactor, two. numR. f_equal; [f_equal|]; field. Qed.
