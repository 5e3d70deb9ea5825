(** Concrete troughs that meet the hypotheses of the theorems of TroughProps. *)
From Coq Require Import List ZArith QArith Reals Sorting.Sorted Lia Lra Psatz Bool String.
From Verif Require Import Base Num FaciesModel FaciesSpec FaciesProps ConfigModel SurfaceModel SurfaceSpec SurfaceProofs StrataModel StrataSpec StrataProofs StrataProofs2
  StrataProofs3 StrataProps AssignModel AssignSpec AssignProofs AssignProofs2 BuildModel BuildSpec BuildProofs BuildProofs2 AssignProps
  TroughModel TroughSpec TroughProofs TroughProofs2 TroughProofs3 TroughProps TroughBuildSpec TroughBuild.
Import ListNotations.
Local Open Scope R_scope.

Lemma rad0 : radians 0 = 0. Proof. unfold radians. field. Qed.
Lemma rad90 : radians 90 = PI / 2. Proof. unfold radians. field. Qed.

(** A point inside is assigned. *)
Lemma inside_assigned tt x y z a b c alpha d t lx ly ha p :
  new_trough tt x y z a b c alpha d = Ok t -> 0 < a -> 0 < b -> 0 < c -> type_ok tt -> draw_ok d ->
  half_ellipsoid x y z a b c alpha (p_x p) (p_y p) (p_z p) ->
  exists w, trough_assign (flat lx ly) t ha p = Ok (Some w).
Proof.
  intros Ht Ha Hb Hc Hty Hd Hin.
  destruct (C39_lookup_inside _ _ _ _ _ _ _ _ _ _ (flat lx ly) ha p Ht Ha Hb Hc Hty Hd) as [[w|] Hr]; [eauto|].
  exfalso. now apply (C38_half_ellipsoid _ _ _ _ _ _ _ _ _ _ lx ly ha p Ht Ha Hb Hc) in Hr.
Qed.

(** A trough along y: twice as long as wide, turned by 90 degrees. *)
Definition dip_type : trough_type := mkTType (S_ "dip") [1%Z; 4%Z] None (0, 0) (10, 20) (1/2) 9%Z 1 1.
Definition bset_type : trough_type := mkTType (S_ "bulb_sets") [1%Z; 4%Z] None (0, 0) (10, 20) (1/2) 9%Z 1 1.
Definition half_draw : trough_draw := mkTD 0 1 (1/2) (1/2) (1/2) (fun n => n).
Lemma type_ok_dip : type_ok dip_type. Proof. split; cbn; lra. Qed.
Lemma type_ok_bset : type_ok bset_type. Proof. split; cbn; lra. Qed.
Lemma half_draw_ok : draw_ok half_draw. Proof. repeat split; cbn; lra. Qed.

Lemma dip_trough_exists : exists t, new_trough dip_type 0 0 0 2 1 1 90 half_draw = Ok t.
Proof.
  apply C39_constructor_total; try lra; try exact type_ok_dip; try exact half_draw_ok.
  - cbn. auto.
  - discriminate.
  - exact I.
Qed.
Lemma bset_trough_exists x alpha : exists t, new_trough bset_type x 0 0 2 1 1 alpha half_draw = Ok t.
Proof.
  apply C39_constructor_total; try lra; try exact type_ok_bset; try exact half_draw_ok.
  - cbn. auto.
  - discriminate.
  - exact I.
Qed.

Lemma along_y : half_ellipsoid 0 0 0 2 1 1 90 0 (3/2) (-1/2).
Proof.
  split; [lra|]. exists (3/4), 0, (-1/2). rewrite rad90, cos_PI2, sin_PI2. repeat split; lra.
Qed.
Lemma not_along_x : ~ half_ellipsoid 0 0 0 2 1 1 90 (3/2) 0 (-1/2).
Proof.
  intros [_ (u & v & w & H & Hx & _)]. rewrite rad90, cos_PI2, sin_PI2 in Hx. nra.
Qed.

Example C38_example :
  exists t w, new_trough dip_type 0 0 0 2 1 1 90 half_draw = Ok t /\
    trough_assign (flat 9 9) t 7 (pt 0 (3/2) (-1/2)) = Ok (Some w) /\
    trough_assign (flat 9 9) t 7 (pt (3/2) 0 (-1/2)) = Ok None.
Proof.
  destruct dip_trough_exists as [t Ht].
  destruct (inside_assigned _ _ _ _ _ _ _ _ _ _ 9 9 7%Z (pt 0 (3/2) (-1/2)) Ht) as [w Hw]; try lra; try exact type_ok_dip; try exact half_draw_ok; try exact along_y.
  exists t, w. repeat split; auto. apply (C38_half_ellipsoid _ _ _ _ _ _ _ _ _ _ 9 9 7%Z (pt (3/2) 0 (-1/2)) Ht); try lra. exact not_along_x.
Qed.

(** This cell lies above the lag, its facies is one of the alternating ones. *)
Example C39_example :
  exists t w, new_trough dip_type 0 0 0 2 1 1 90 half_draw = Ok t /\
    trough_assign (flat 9 9) t 7 (pt 0 (3/2) (-1/2)) = Ok (Some w) /\ w_ha w = 7%Z /\ In (w_facies w) [1; 4; 9]%Z.
Proof.
  destruct C38_example as (t & w & Ht & Hw & _). exists t, w. repeat (split; [assumption|]).
  destruct (C39_assigned_facies _ _ _ _ _ _ _ _ _ _ _ _ _ _ Ht I Hw) as [H1 [H2|H2]]; split; try assumption.
  - cbn in *. tauto.
  - cbn in *. rewrite H2. auto.
Qed.

Lemma bset_inside alpha : forall lx ly ha, exists t w, new_trough bset_type 0 0 0 2 1 1 alpha half_draw = Ok t /\
  trough_assign (flat lx ly) t ha (pt (1/4) (1/4) (-1/4)) = Ok (Some w).
Proof.
  intros lx ly ha. destruct (bset_trough_exists 0 alpha) as [t Ht]. exists t.
  destruct (inside_assigned _ _ _ _ _ _ _ _ _ _ lx ly ha (pt (1/4) (1/4) (-1/4)) Ht) as [w Hw]; try lra; try exact type_ok_bset; try exact half_draw_ok; eauto.
  split; [cbn; lra|]. cbn [p_x p_y p_z pt].
  pose proof (sin2_cos2 (radians alpha)) as K. unfold Rsqr in K.
  set (s := sin (radians alpha)) in *. set (k := cos (radians alpha)) in *.
  exists ((k + s) / 8), ((k - s) / 4), (-1/4). repeat split; try lra; nra.
Qed.

Example C40_example :
  exists t w az dp, new_trough bset_type 0 0 0 2 1 1 30 half_draw = Ok t /\
    trough_assign (flat 9 9) t 7 (pt (1/4) (1/4) (-1/4)) = Ok (Some w) /\
    w_azim w = Some az /\ w_dip w = Some dp /\ -90 <= az <= 90 /\ Rabs dp <= 20.
Proof.
  destruct (bset_inside 30 9 9 7%Z) as (t & w & Ht & Hw).
  destruct (C40_bulb_angles _ _ _ _ _ _ _ _ _ _ (flat 9 9) 7%Z (pt (1/4) (1/4) (-1/4)) w Ht) as (az & dp & H1 & H2 & H3 & H4 & H5); auto.
  - cbn. lra.
  - exact half_draw_ok.
  - right. apply new_trough_built in Ht as B. clear - Ht. unfold new_trough in Ht.
    destruct (structure_code _ _) as [s|] eqn:Es in Ht; [|discriminate]. cbn in Es. injection Es as <-. cbn [bind Z.eqb Pos.eqb] in Ht.
    destruct (alternating_facies _ _ _ _) in Ht; [|discriminate]. cbn [bind] in Ht. now injection Ht as <-.
  - exists t, w, az, dp. repeat (split; [assumption|]). cbn in H5. lra.
Qed.

Example C40_axis_example :
  exists t w, new_trough bset_type 0 0 0 2 1 1 30 half_draw = Ok t /\
    trough_assign (flat 9 9) t 7 (pt 0 0 (-1/4)) = Ok (Some w) /\ w_azim w = Some 0 /\ w_dip w = Some 0.
Proof.
  destruct (bset_trough_exists 0 30) as [t Ht]. exists t.
  destruct (inside_assigned _ _ _ _ _ _ _ _ _ _ 9 9 7%Z (pt 0 0 (-1/4)) Ht) as [w Hw]; try lra; try exact type_ok_bset; try exact half_draw_ok; eauto.
  { split; [cbn; lra|]. cbn [p_x p_y p_z pt]. exists 0, 0, (-1/4). repeat split; lra. }
  exists w. split; [exact Ht|]. split; [exact Hw|].
  apply (C40_axis bset_type 0 0 0 2 1 1 30 half_draw t 9 9 7%Z (pt 0 0 (-1/4)) w); try assumption; try reflexivity.
  - apply new_trough_built in Ht as B. rewrite (b_dip _ _ _ _ _ _ _ _ _ _ B). unfold uniform. cbn. lra.
  - right. clear - Ht. unfold new_trough in Ht.
    destruct (structure_code _ _) as [s|] eqn:Es in Ht; [|discriminate]. cbn in Es. injection Es as <-. cbn [bind Z.eqb Pos.eqb] in Ht.
    destruct (alternating_facies _ _ _ _) in Ht; [|discriminate]. cbn [bind] in Ht. now injection Ht as <-.
Qed.

(** Cells below -1/2 of the same trough get the lag facies 9. *)
Example C42_example :
  exists t, new_trough bset_type 0 0 0 2 1 1 30 half_draw = Ok t /\
    trough_assign (flat 9 9) t 7 (pt 0 0 (-3/4)) = Ok (Some (mkWrite 9 (Some 0) (Some 0) 7)).
Proof.
  destruct (bset_trough_exists 0 30) as [t Ht]. exists t. split; [exact Ht|].
  destruct (inside_assigned _ _ _ _ _ _ _ _ _ _ 9 9 7%Z (pt 0 0 (-3/4)) Ht) as [w Hw]; try lra; try exact type_ok_bset; try exact half_draw_ok.
  - split; [cbn; lra|]. exists 0, 0, (-3/4). cbn. repeat split; lra.
  - rewrite Hw. f_equal. f_equal. apply (C42_lag_cells _ _ _ _ _ _ _ _ _ _ _ _ _ _ Ht Hw). cbn. lra.
Qed.

(** A trough half a metre from the left edge of a domain of 10 m reaches into
    the right end of the domain if that is periodic. *)
Example C43_example :
  exists t, new_trough bset_type (1/2) 0 0 2 1 1 0 half_draw = Ok t /\
    trough_assign (flat 10 10) t 7 (pt (19/2) 0 (-1/4)) = Ok None /\
    trough_assign (periodic 10 10) t 7 (pt (19/2) 0 (-1/4)) <> Ok None.
Proof.
  destruct (bset_trough_exists (1/2) 0) as [t Ht]. exists t. split; [exact Ht|]. split.
  - apply (C38_half_ellipsoid _ _ _ _ _ _ _ _ _ _ 10 10 7%Z (pt (19/2) 0 (-1/4)) Ht); try lra.
    intros [_ (u & v & w & H & Hx & _)]. cbn in Hx. rewrite rad0, cos_0, sin_0 in Hx. nra.
  - rewrite (C43_periodic _ _ _ _ _ _ _ _ _ _ 10 10 7%Z (pt (19/2) 0 (-1/4)) Ht); try lra.
    + intros Hn. apply Hn. exists 1%Z, 0%Z. split; [cbn; lra|]. rewrite rad0, cos_0, sin_0. cbn. exists (-1/2), 0, (-1/4). repeat split; lra.
    + unfold Rmax. destruct (Rle_dec 2 1); lra.
    + unfold Rmax. destruct (Rle_dec 2 1); lra.
    + cbn. rewrite Rabs_right; lra.
    + cbn. rewrite Rabs_right; lra.
Qed.

(** Positions between 0 m and 3 m, planes every metre above 1 m, two random
    troughs moved from plane to plane. *)
Definition qgrid : grid Q := (mkGrid 0 0 0 1 1 1 10 10 6 [] [] [])%Q.
Definition qdraws : list (plane_draw Q) :=
  [mkPlane [(1#2, 1#4); (0, 9#10)]%Q (fun _ => (0, 0)%Q); mkPlane [] (fun k => (inject_Z (Z.of_nat k), - (1))%Q); mkPlane [(1#2, 1#2)]%Q (fun _ => (2, 0)%Q)].
Example C45_example :
  option_map (map (fun p => (Qred (fst (fst p)), Qred (snd (fst p)), Qred (snd p))))
    (match trough_positions qgrid 0%Q 3%Q 2%Q (1#2)%Q (3#4)%Q true qdraws with Ok l => Some l | _ => None end) =
  Some [(5, 5#2, 3); (0, 9, 3); (5, 3#2, 9#4); (1, 8, 9#4); (7, 3#2, 3#2); (3, 8, 3#2)]%Q.
Proof. vm_compute. reflexivity. Qed.
Example C45_example_random :
  option_map (map (fun p => (Qred (fst (fst p)), Qred (snd (fst p)), Qred (snd p))))
    (match trough_positions qgrid 0%Q 3%Q 2%Q (1#2)%Q (3#4)%Q false qdraws with Ok l => Some l | _ => None end) =
  Some [(5, 5#2, 3); (0, 9, 3); (5, 5, 3#2)]%Q.
Proof. vm_compute. reflexivity. Qed.

(** Half way up, the sizes are half way between those of the trend. *)
Example C46_example : match (trough_size 8 4 2 (Some (1#2, 1)) 3 0 6)%Q with (a, b, c) => (Qred a, Qred b, Qred c) end = (3, 3#2, 3#2)%Q.
Proof. vm_compute. reflexivity. Qed.

(** ** A generated model with a trough

    A stratum from 0 m to 6 m whose element holds one trough of depth 2 m at the
    top; background facies 3. *)
Definition ttparams : trough_params := mkTP 1 1 2 None (30, 30) bset_type.
Definition tpds : list (plane_draw R) := [mkPlane [(1/2, 1/2)] (fun _ => (0, 0))].
Definition tdraws : list (stratum_draws R) := [mkSD [0] 0 [mkDraw 9 1 0 0 [0] [(6 - 2 * 1, 6)]]].
Definition tstrata : list (stratum R) := [mkStratum 1 0 0 6 [mkAE 1 0 0 6 [mkObject (6 - 2 * 1) 6 None] [([], [])] 3 None None 0]].
Lemma tmodel_runs : generate_model rg 5 [] rparams tdraws = Ok (rst, tstrata).
Proof. unfold generate_model. reval. reflexivity. Qed.

Lemma tpositions : trough_positions rg 0 6 2 (1/2) 9 false tpds = Ok [(0 + (0 + 1 - 0) * (1/2), 0 + (0 + 1 - 0) * (1/2), 6)].
Proof.
  unfold trough_positions. destruct (C45_planes 0 6 2 (1/2) 9) as (zs & -> & Hz); [lra|].
  assert (zs = [6]) as ->.
  { assert (H0 : nth_error zs 0 = Some 6) by (apply Hz; cbn; lra).
    assert (H1 : nth_error zs 1 = None).
    { destruct (nth_error zs 1) as [v|] eqn:E; [|reflexivity]. apply Hz in E as [-> E]. cbn in E. lra. }
    destruct zs as [|v [|v' zs]]; try discriminate. cbn in H0. congruence. }
  cbn. unfold uniform. numR. reflexivity.
Qed.

Lemma ttrough_exists : exists t, make_troughs ttparams rg [(0 + (0 + 1 - 0) * (1/2), 0 + (0 + 1 - 0) * (1/2), 6)] [(0, half_draw)] = Ok [t] /\
  tr_zmin t = 6 - 2 * 1 /\ tr_zmax t = 6 /\ 0 < tr_a t /\ 0 < tr_b t /\ 0 < tr_c t.
Proof.
  cbn [make_troughs]. unfold make_trough. cbn [trough_size ttparams tp_length tp_width tp_depth tp_trend tp_paleoflow tp_type fst snd zfactor]. numR.
  change (@two R NumR) with 2.
  match goal with |- context [new_trough ?tt ?x ?y ?z ?a ?b ?c ?al ?d] => assert (H : exists t, new_trough tt x y z a b c al d = Ok t) end.
  { apply C39_constructor_total; try lra; try exact type_ok_bset; try exact half_draw_ok.
    - cbn. auto.
    - discriminate.
    - exact I. }
  destruct H as [t Ht]. rewrite Ht. exists t. apply new_trough_built in Ht as B. split; [reflexivity|].
  rewrite (b_zmin _ _ _ _ _ _ _ _ _ _ B), (b_zmax _ _ _ _ _ _ _ _ _ _ B), (b_a _ _ _ _ _ _ _ _ _ _ B), (b_b _ _ _ _ _ _ _ _ _ _ B), (b_c _ _ _ _ _ _ _ _ _ _ B).
  repeat split; lra.
Qed.

Example C34_troughs_example :
  exists t, tr_zmax t = 6 /\
  let probe := fun _ _ : nat => o_check (@trough_obj unit (flat 1 1) 1 t) in
  let m := to_model 1 (fun _ _ => 7%Z) rlook probe rst 0 0 tstrata in
  generate_model rg 5 [] rparams tdraws = Ok (rst, tstrata) /\
  snd (tower m ex_rcol2 (0, 0, 0)%nat tt) = map (exhaustive (fun o p => snd (o_check o tt p)) m) ex_rcol2 /\
  Forall (fun r => r <> None) (snd (tower m ex_rcol2 (0, 0, 0)%nat tt)).
Proof.
  destruct ttrough_exists as (t & Ht & Hmin & Hmax & Hpos). exists t. split; [exact Hmax|]. intros probe m. split; [exact tmodel_runs|].
  apply (C34_sheets_and_troughs unit tt (flat 1 1) rg 5 [] rparams tdraws rst tstrata 1 (fun _ _ => 7%Z) rlook probe 0 0 0 0).
  - repeat constructor.
  - discriminate.
  - exact tmodel_runs.
  - repeat constructor; discriminate.
  - cbn; lia.
  - split; [repeat constructor|]. cbn. repeat constructor; cbn; lra.
  - cbn. intros p Hp. repeat destruct Hp as [<-|Hp]; cbn; try tauto; destruct Hp.
  - cbn. repeat constructor; cbn; lra.
  - intros p a Hp. assert (Hc : col rst a (0 * 1 + 0) <> None -> (a = 0 \/ a = 1)%nat).
    { unfold col. destruct a as [|[|a]]; auto. cbn. destruct a; cbn; congruence. }
    intros Hcol. destruct Hc as [->| ->]; [congruence|..]; cbn in Hcol; injection Hcol as Hcol;
    cbn in Hp; repeat destruct Hp as [<-|Hp]; cbn in Hcol; try lra; destruct Hp.
  - discriminate.
  - intros s e si num Hs He _ _. destruct Hs as [<-|[]]. destruct He as [<-|[]]. split; [discriminate|].
    exists ttparams, (1/2), 9, false, [(0 + (0 + 1 - 0) * (1/2), 0 + (0 + 1 - 0) * (1/2), 6)], tpds, [(0, half_draw)], [t],
      (mkSurface [0] 0 0 0), (mkSurface [6] 6 6 6), (fun _ => 1%Z).
    split; [reflexivity|]. split; [reflexivity|]. split; [lra|]. split; [cbn; lra|]. split; [exact tpositions|]. split; [exact Ht|].
    split; [|split; [|split; [|split]]].
    + split; [exact type_ok_bset|]. split; [cbn; lia|]. split; [exact I|]. right. discriminate.
    + constructor; [exact half_draw_ok|constructor].
    + constructor; [exact Hpos|constructor].
    + cbn. now rewrite Hmin, Hmax.
    + intros [|oi] t0; cbn; [|destruct oi; discriminate]. intros [= <-]. reflexivity.
Qed.

Print Assumptions C38_half_ellipsoid.
Print Assumptions C39_lookup_inside.
Print Assumptions C39_constructor_total.
Print Assumptions C39_assigned_facies.
Print Assumptions C40_bulb_angles.
Print Assumptions C40_axis.
Print Assumptions C41_turned_gradient.
Print Assumptions C41_bulb_orientation_partial.
Print Assumptions C41_bulb_orientation_refuted.
Print Assumptions C41_centre_plane_refuted.
Print Assumptions C42_lag_cells.
Print Assumptions C42_other_cells.
Print Assumptions C42_no_lag.
Print Assumptions C43_copy.
Print Assumptions C43_periodic.
Print Assumptions C43_centre_in_domain.
Print Assumptions C44_migrated_partial.
Print Assumptions C44_migrated_refuted.
Print Assumptions C45_planes.
Print Assumptions C45_random.
Print Assumptions C45_migrated.
Print Assumptions C45_descending.
Print Assumptions C46_linear.
Print Assumptions C46_between.
Print Assumptions C46_no_trend.
