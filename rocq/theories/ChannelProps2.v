(** More theorems about channels, counterexamples and examples. *)
From Coq Require Import List ZArith Bool Ascii String Reals Lra Lia Psatz Sorted.
From Verif Require Import Base Num FaciesModel FaciesSpec FaciesProps SurfaceModel AssignModel AssignSpec AssignProps
  TroughModel TroughProofs ChannelModel ChannelSpec ChannelProofs ChannelProps.
Import ListNotations.
Local Open Scope R_scope.

(** ** C42: lag *)
Theorem C42_channel_lag ct line z w dp dx dy dr c cg key ha d p wr :
  new_channel ct line z w dp dx dy dr = Ok c -> snd (channel_assign cg key c ha d p) = Ok (Some wr) ->
  p_z p < z - dp + ct_lag_height ct -> wr = mkWrite (ct_lag_facies ct) (Some 0) (Some 0) ha.
Proof.
  intros Hc H Hz. destruct (new_channel_fields _ _ _ _ _ _ _ _ _ Hc) as (El & Ez & _ & _ & Edp & _ & _ & _ & Elag & Ef).
  unfold channel_assign in H. destruct (Rltb 0 _); [discriminate|]. destruct (d _ _ _); [discriminate|].
  destruct (above_parabola _ _ _); [|discriminate]. cbn [snd] in H. unfold channel_write in H.
  rewrite Ez, Edp, Elag, Ef in H. destruct (Rltb (p_z p) _) eqn:E; [|apply Rltb_false in E; lra].
  cbn in H. congruence.
Qed.
Print Assumptions C42_channel_lag.

Definition with_clag (ct : channel_type) (h : R) (f : Z) : channel_type :=
  mkCType (ct_structure ct) (ct_facies ct) (ct_altfacies ct) (ct_dip ct) h f (ct_dipset_dist ct).
Definition reclag (c : channel) (h : R) (f : Z) : channel :=
  mkChannel (ch_line c) (ch_ztop c) (ch_zmin c) (ch_zmax c) (ch_depth c) (ch_width c) (ch_a c) (ch_min_dxdy c) h f
    (ch_dipsets c) (ch_layer_dist c) (ch_shift c) (ch_dip c) (ch_azim c) (ch_sin c) (ch_cos c) (ch_facies c) (ch_num_facies c) (ch_array c).
Lemma new_channel_reclag ct line z w dp dx dy dr c h f : new_channel ct line z w dp dx dy dr = Ok c ->
  new_channel (with_clag ct h f) line z w dp dx dy dr = Ok (reclag c h f).
Proof.
  unfold new_channel. cbn [with_clag ct_structure ct_facies ct_altfacies ct_dip ct_dipset_dist ct_lag_height ct_lag_facies].
  destruct (pystr_eqb _ _).
  - destruct (alternating_facies _ _ _ _); cbn [bind]; [|discriminate]. intros [= <-]. reflexivity.
  - destruct (choice _ _); cbn [bind]; [|discriminate]. intros [= <-]. reflexivity.
Qed.

(** Cells that are not below keep what they would get with any other lag they
    are not below of. *)
Theorem C42_channel_other_cells ct line z w dp dx dy dr c h f cg key ha d p :
  new_channel ct line z w dp dx dy dr = Ok c ->
  z - dp + ct_lag_height ct <= p_z p -> z - dp + h <= p_z p ->
  exists c', new_channel (with_clag ct h f) line z w dp dx dy dr = Ok c' /\
    channel_assign cg key c' ha d p = channel_assign cg key c ha d p.
Proof.
  intros Hc H1 H2. exists (reclag c h f). split; [now apply new_channel_reclag|].
  destruct (new_channel_fields _ _ _ _ _ _ _ _ _ Hc) as (El & Ez & _ & _ & Edp & _ & _ & _ & Elag & Ef).
  unfold channel_assign. cbn [reclag ch_ztop ch_width ch_min_dxdy].
  change (xy_dist (reclag c h f)) with (xy_dist c). change (above_parabola (reclag c h f)) with (above_parabola c).
  assert (E : channel_write (reclag c h f) ha p = channel_write c ha p); [|now rewrite E].
  unfold channel_write. cbn [reclag ch_ztop ch_depth ch_lag ch_lag_facies ch_dipsets]. rewrite Ez, Edp, Elag.
  destruct (Rltb (p_z p) (z - dp + h)) eqn:E1; [apply Rltb_true in E1; lra|].
  destruct (Rltb (p_z p) (z - dp + ct_lag_height ct)) eqn:E2; [apply Rltb_true in E2; lra|]. reflexivity.
Qed.
Print Assumptions C42_channel_other_cells.

(** With lag height zero the lag facies is never assigned. *)
Theorem C42_channel_no_lag ct line z w dp dx dy dr c f cg key ha d p :
  new_channel ct line z w dp dx dy dr = Ok c -> 0 < w -> 0 < dp -> ct_lag_height ct <= 0 ->
  exists c', new_channel (with_clag ct (ct_lag_height ct) f) line z w dp dx dy dr = Ok c' /\
    channel_assign cg key c' ha d p = channel_assign cg key c ha d p.
Proof.
  intros Hc Hw Hd Hlag. destruct (Rlt_le_dec (p_z p) (z - dp)) as [Hlt|Hle].
  2: { eapply C42_channel_other_cells; eauto; lra. }
  exists (reclag c (ct_lag_height ct) f). split; [now apply new_channel_reclag|].
  destruct (new_channel_fields _ _ _ _ _ _ _ _ _ Hc) as (El & Ez & _ & _ & Edp & _ & Ea & _ & Elag & Ef).
  unfold channel_assign. cbn [reclag ch_ztop ch_width ch_min_dxdy].
  change (xy_dist (reclag c _ f)) with (xy_dist c). change (above_parabola (reclag c _ f)) with (above_parabola c).
  assert (E : above_parabola c (xy_dist c (p_x p) (p_y p)) (p_z p - ch_ztop c) = false); [|now rewrite E].
  unfold above_parabola. apply Rleb_false. rewrite Ez, Edp, Ea.
  assert (0 <= 4 * dp / w ^ 2 * xy_dist c (p_x p) (p_y p) ^ 2).
  { apply Rmult_le_pos; [|apply pow2_ge_0]. left. apply Rdiv_lt_0_compat; [lra|]. apply pow_lt. assumption. }
  lra.
Qed.
Print Assumptions C42_channel_no_lag.

(** ** C49: what is false *)

(** Every cell more than one layer behind the first plane is looked up before
    the start of the table. *)
Theorem C49_behind_first_plane_refuted ct line z w dp dx dy dr c ha p :
  new_channel ct line z w dp dx dy dr = Ok c -> ct_structure ct = S_ "dip" -> 0 < ct_dipset_dist ct ->
  z - dp + ct_lag_height ct <= p_z p ->
  across line z (ch_dip c) (ch_shift c) p <= - ct_dipset_dist ct ->
  channel_write c ha p = Err IndexError.
Proof.
  intros H Hs Hld Hlag Hacross.
  pose proof (new_channel_fields _ _ _ _ _ _ _ _ _ H) as (El & Ez & _ & _ & Edp & _ & _ & _ & Elag & _).
  unfold channel_write. rewrite Ez, Edp, Elag. destruct (Rltb _ _) eqn:E; [apply Rltb_true in E; lra|]. clear E.
  unfold new_channel in H. rewrite Hs in H. change (pystr_eqb (S_ "dip") (S_ "dip")) with true in H. cbv iota in H. cbv zeta in H.
  destruct (alternating_facies _ (ct_facies ct) (ct_altfacies ct) (cd_array dr)) as [arr|] eqn:Earr; [|discriminate].
  cbn [bind] in H. injection H as <-. cbn [ch_dipsets ch_dip ch_shift] in *.
  unfold channel_layer. cbn [ch_line ch_sin ch_cos ch_shift ch_layer_dist ch_ztop]. unfold across in Hacross.
  set (D := nr_along _ * _ + _ * _ + _) in *. set (ld := ct_dipset_dist ct) in *.
  assert (Hq : D / ld <= -1).
  { replace (-1) with ((- ld) / ld) by (field; lra). unfold Rdiv. apply Rmult_le_compat_r; [left; apply Rinv_0_lt_compat; lra|assumption]. }
  assert (Hn : (ntrunc (D / ld)%R < 0)%Z).
  { unfold ntrunc. numR. destruct (Rleb_spec 0 (D / ld)); [lra|]. pose proof (nceil_R_spec (D / ld)).
    apply lt_IZR. lra. }
  unfold channel_facies. destruct (Z.ltb_spec (ntrunc (D / ld)%R) 0); [reflexivity|lia].
Qed.
Print Assumptions C49_behind_first_plane_refuted.

(** *** Concrete channels *)
Definition ex_line : list cpoint := [mkCP 0 0 1 0; mkCP 10 0 1 0].
Definition ex_ct (structure : pystr) (lag : R) : channel_type := mkCType structure [3%Z] None (0, 0) lag 7 1.
Definition ex_cd : channel_draw := mkCD 0 0 0 (fun _ => 0%nat).
Definition ex_massive (lag : R) : channel :=
  mkChannel ex_line 10 (10 - 2) 10 2 4 (4 * 2 / 4 ^ 2) (Rmin 1 1) lag 7 false 0 0 (uniform 0 0 0) 0 0 0 3 0 [].
Lemma ex_massive_ok lag : new_channel (ex_ct (S_ "massive") lag) ex_line 10 4 2 1 1 ex_cd = Ok (ex_massive lag).
Proof. reflexivity. Qed.

Lemma ex_num : (nceil (curve_length ex_line * sin (deg (uniform 0 0 0)) / 1 + uniform 0 1 0)%R + nceil (2 / 1)%R + 10 = 12)%Z.
Proof.
  assert (E : deg (uniform 0 0 0) = 0) by (unfold deg, uniform; numR; lra). rewrite E, sin_0.
  replace (curve_length ex_line * 0 / 1 + uniform 0 1 0) with 0 by (unfold uniform; numR; field).
  rewrite (nceil_R_unique 0 0), (nceil_R_unique (2 / 1) 2); [reflexivity|lra|lra].
Qed.
Lemma ex_dip_ok : exists c, new_channel (ex_ct (S_ "dip") 0) ex_line 10 4 2 1 1 ex_cd = Ok c /\ ch_dip c = uniform 0 0 0 /\ ch_shift c = uniform 0 1 0.
Proof.
  unfold new_channel. cbn [ex_ct ct_structure ct_dip fst snd ct_dipset_dist ct_facies ct_altfacies ct_lag_height ct_lag_facies ex_cd cd_dip cd_shift cd_array].
  change (pystr_eqb (S_ "dip") (S_ "dip")) with true. cbv iota. cbv zeta. rewrite ex_num.
  replace (alternating_facies 12 [3%Z] None (fun _ => 0%nat)) with (Ok (repeat 3%Z 12)) by reflexivity.
  cbn [bind]. eexists. split; [reflexivity|]. split; reflexivity.
Qed.

Definition ex_cp (x y z : R) (i j : nat) : point R := mkPoint x y z i j.
Lemma ex_in_parabola x z : x <= 5 -> z <= 10 -> x ^ 2 <= 4 + 2 * (z - 10) -> in_parabola ex_line 4 2 10 x 0 z.
Proof.
  intros Hx Hz H. split; [lra|]. exists (mkCP 0 0 1 0). split; [now left|]. cbn [cp_x cp_y]. split.
  - intros q [<-|[<-|[]]]; cbn [cp_x cp_y]; nra.
  - nra.
Qed.
Lemma ex_width : 0 < 4 < 10 ^ 50.
Proof. split; [lra|]. replace 50%nat with (1 + 49)%nat by reflexivity. rewrite pow_add. assert (1 < 10 ^ 49) by (apply Rlt_pow_R1; [lra|lia]). lra. Qed.

Example C47_example :
  snd (channel_assign (mkCGrid 3 3 1) 0 (ex_massive 0) 5 unmarked (ex_cp 1 0 9 1 0)) = Ok (Some (mkWrite 3 (Some 0) (Some (uniform 0 0 0)) 5)) /\
  snd (channel_assign (mkCGrid 3 3 1) 0 (ex_massive 0) 5 unmarked (ex_cp 0 2 9 1 0)) = Ok None.
Proof.
  split.
  - pose proof (C47_parabola _ _ _ _ _ _ _ _ _ (mkCGrid 3 3 1) 0%nat 5%Z unmarked (ex_cp 1 0 9 1 0) (ex_massive_ok 0) ex_width ltac:(lra) eq_refl) as [_ H].
    specialize (H (ex_in_parabola 1 9 ltac:(lra) ltac:(lra) ltac:(lra))). revert H. unfold channel_assign.
    destruct (Rltb 0 _); [cbn; congruence|]. cbn [unmarked]. unfold unmarked at 1 3. destruct (above_parabola _ _ _); [|cbn; congruence].
    intros _. cbn [snd]. unfold channel_write. cbn [ex_massive ch_ztop ch_depth ch_lag ex_cp p_z ch_dipsets].
    destruct (Rltb 9 _) eqn:E; [apply Rltb_true in E; lra|]. reflexivity.
  - pose proof (C47_parabola _ _ _ _ _ _ _ _ _ (mkCGrid 3 3 1) 0%nat 5%Z unmarked (ex_cp 0 2 9 1 0) (ex_massive_ok 0) ex_width ltac:(lra) eq_refl) as [H _].
    destruct (snd (channel_assign _ _ _ _ _ _)) as [[wr|]|e]; [exfalso|reflexivity|exfalso];
      (destruct H as (_ & q & Hq & _ & Hin); [discriminate|]); cbn [ex_cp p_x p_y p_z] in Hin;
      destruct Hq as [<-|[<-|[]]]; cbn [cp_x cp_y] in Hin; lra.
Qed.

(** A cell of a channel with horizontal layers, one and a half layers below the
    top: it is inside, and its facies is read from before the table. *)
Theorem C49_lookup_refuted : exists ct line z w dp dr c p,
  new_channel ct line z w dp 1 1 dr = Ok c /\ ct_structure ct = S_ "dip" /\ 0 < ct_dipset_dist ct /\ 0 < w < 10 ^ 50 /\ 0 < dp /\
  in_parabola line w dp z (p_x p) (p_y p) (p_z p) /\ ct_lag_height ct = 0 /\
  snd (channel_assign (mkCGrid 3 3 1) 0 c 5 unmarked p) = Err IndexError.
Proof.
  destruct ex_dip_ok as (c & Hc & Edip & Eshift).
  exists (ex_ct (S_ "dip") 0), ex_line, 10, 4, 2, ex_cd, c, (ex_cp 0 0 8.5 0 0).
  split; [exact Hc|]. split; [reflexivity|]. split; [cbn; lra|]. split; [exact ex_width|]. split; [lra|].
  assert (Hin : in_parabola ex_line 4 2 10 0 0 8.5) by (apply ex_in_parabola; lra).
  split; [exact Hin|]. split; [reflexivity|].
  pose proof (C47_parabola _ _ _ _ _ _ _ _ _ (mkCGrid 3 3 1) 0%nat 5%Z unmarked (ex_cp 0 0 8.5 0 0) Hc ex_width ltac:(lra) eq_refl) as [_ H].
  specialize (H Hin). revert H. unfold channel_assign. destruct (Rltb 0 _); [cbn; congruence|]. unfold unmarked at 1 3.
  destruct (above_parabola _ _ _); [|cbn; congruence]. intros _. cbn [snd].
  rewrite (C49_behind_first_plane_refuted _ _ _ _ _ _ _ _ _ _ _ Hc); [reflexivity|reflexivity|cbn; lra|cbn; lra|].
  unfold across. rewrite Edip, Eshift. cbn [ex_cp p_x p_y p_z ex_ct ct_dipset_dist].
  assert (E : deg (uniform 0 0 0) = 0) by (unfold deg, uniform; numR; lra). rewrite E, sin_0, cos_0. unfold uniform. numR. lra.
Qed.
Print Assumptions C49_lookup_refuted.

Example C49_example : exists c wr,
  new_channel (ex_ct (S_ "dip") 0) ex_line 10 4 2 1 1 ex_cd = Ok c /\ channel_write c 5 (ex_cp 0 0 9.5 0 0) = Ok wr /\ w_facies wr = 3%Z.
Proof.
  destruct ex_dip_ok as (c & Hc & Edip & Eshift). exists c.
  destruct (C49_lookup_partial _ _ _ _ _ _ _ _ _ 5%Z (ex_cp 0 0 9.5 0 0) Hc) as (wr & H & Hin & _); cbn; try lra; try reflexivity.
  - rewrite Edip, Eshift. unfold across. assert (E : deg (uniform 0 0 0) = 0) by (unfold deg, uniform; numR; lra). rewrite E, sin_0, cos_0.
    cbn [ex_cp p_x p_y p_z]. unfold uniform. numR. lra.
  - exists wr. split; [exact Hc|]. split; [exact H|]. destruct Hin as [<-|[]]. reflexivity.
Qed.

Example C42_channel_example :
  channel_write (ex_massive 1) 5 (ex_cp 0 0 8.5 0 0) = Ok (mkWrite 7 (Some 0) (Some 0) 5) /\
  channel_write (ex_massive 1) 5 (ex_cp 0 0 9.5 0 0) = Ok (mkWrite 3 (Some 0) (Some (uniform 0 0 0)) 5).
Proof.
  unfold channel_write. cbn [ex_massive ch_ztop ch_depth ch_lag ex_cp p_z ch_dipsets]. split.
  - destruct (Rltb 8.5 _) eqn:E; [reflexivity|apply Rltb_false in E; lra].
  - destruct (Rltb 9.5 _) eqn:E; [apply Rltb_true in E; lra|reflexivity].
Qed.

(** ** C48: what is false *)
Lemma mark_keeps d key x y k i j : d k i j = true -> mark d key x y k i j = true.
Proof. intros H. unfold mark. destruct (_ && _); auto. Qed.
Lemma fold_keeps {A} (f : marks -> A -> marks) (l : list A) k i j :
  (forall d a, d k i j = true -> f d a k i j = true) -> forall d, d k i j = true -> fold_left f l d k i j = true.
Proof. intros Hf. induction l as [|a l IH]; intros d H; cbn; auto. Qed.
Lemma fold_sets {A} (f : marks -> A -> marks) (l : list A) a k i j :
  (forall d a, d k i j = true -> f d a k i j = true) -> In a l -> (forall d, f d a k i j = true) -> forall d, fold_left f l d k i j = true.
Proof.
  intros Hk Ha Hs. induction l as [|b l IH]; intros d; [destruct Ha|]. cbn. destruct Ha as [->|Ha]; [|auto].
  apply fold_keeps; [assumption|]. apply Hs.
Qed.
(** Cells straight ahead in y are marked as if dy were 1. *)
Lemma disc_marks cg key x y radius d j : (x < cg_nx cg)%nat -> (j <= y)%nat -> (y + j < cg_ny cg)%nat ->
  (0 < Z.to_nat (ntrunc (radius / cg_dx cg)%R))%nat -> (j < Z.to_nat (ntrunc (sqrt (radius ^ 2 - (INR 0 * cg_dx cg) ^ 2))%R))%nat ->
  mark_disc cg key x y radius d key x (y + j)%nat = true.
Proof.
  intros Hx Hj Hy Hn Hm. unfold mark_disc.
  assert (Hrow : forall i n d k a b, d k a b = true -> mark_row cg key x y i n d k a b = true).
  { intros i n d0 k a b H. unfold mark_row. apply fold_keeps; [|assumption]. intros d1 e H1. destruct (_ && _); auto using mark_keeps. }
  apply (fold_sets _ _ 0%nat).
  - intros d0 a H. destruct (_ && _); auto.
  - apply in_seq. lia.
  - intros d0. rewrite Nat.add_0_r. cbn [Nat.leb andb]. destruct (Nat.ltb_spec x (cg_nx cg)); [|lia]. unfold mark_row.
    apply (fold_sets _ _ j).
    + intros d1 e H1. destruct (_ && _); auto using mark_keeps.
    + apply in_seq. lia.
    + intros d1. destruct (Nat.leb_spec j y); [|lia]. destruct (Nat.ltb_spec (y + j) (cg_ny cg)); [|lia]. cbn [andb].
      rewrite Nat.add_0_r, Nat.sub_0_r. do 1 apply mark_keeps. unfold mark at 1. rewrite !Nat.eqb_refl. reflexivity.
Qed.

(** Rows ten units apart, a channel of width 2 in the last one: the question
    whether it reaches the last but one row marks the last row, too. *)
Definition ex_wide : channel :=
  mkChannel [mkCP 0 60 1 0] 10 (10 - 1) 10 1 2 (4 * 1 / 2 ^ 2) (Rmin 1 10) 0 7 false 0 0 (uniform 0 0 0) 0 0 0 3 0 [].
Definition ex_wide_grid : cgrid := mkCGrid 1 7 1.
Lemma ex_wide_ok : new_channel (ex_ct (S_ "massive") 0) [mkCP 0 60 1 0] 10 2 1 1 10 ex_cd = Ok ex_wide.
Proof. reflexivity. Qed.
Lemma ex_wide_dist y : 60 - 10 <= y <= 60 -> xy_dist ex_wide 0 y = 60 - y.
Proof.
  intros H. unfold xy_dist. cbn [ex_wide ch_dipsets ch_line]. unfold nearest2. cbn [fold_left]. unfold dist2. cbn [cp_x cp_y].
  pose proof far_big. pose proof pow50. assert (E0 : 10 ^ 50 = 10 * 10 ^ 49) by (cbn; ring).
  assert (1 < 10 ^ 49) by (apply Rlt_pow_R1; [lra|lia]).
  destruct (Rltb _ far) eqn:E.
  - replace ((0 - 0) ^ 2 + (y - 60) ^ 2) with ((60 - y) ^ 2) by ring. apply sqrt_pow2. lra.
  - apply Rltb_false in E. exfalso. assert (far > 100) by nra. nra.
Qed.
Lemma trunc_IZR z : (0 <= z)%Z -> ntrunc (IZR z) = z.
Proof.
  intros H. unfold ntrunc. numR. destruct (Rleb_spec 0 (IZR z)) as [_|Hn]; [apply Int_part_unique; lra|].
  apply IZR_le in H. lra.
Qed.

Lemma ex_wide_row5 : forall d, d 0%nat 0%nat 5%nat = false ->
  exists d', channel_assign ex_wide_grid 0 ex_wide 5 d (ex_cp 0 50 9.5 0 5) = (d', Ok None) /\ d' 0%nat 0%nat 6%nat = true.
Proof.
  intros d Hd. unfold channel_assign. cbn [ex_cp p_x p_y p_z p_xi p_yi]. change (ch_ztop ex_wide) with 10.
  destruct (Rltb 0 (9.5 - 10)) eqn:E; [apply Rltb_true in E; lra|]. rewrite Hd. rewrite ex_wide_dist by lra.
  change (ch_width ex_wide) with 2. change (ch_min_dxdy ex_wide) with (Rmin 1 10).
  rewrite Rmin_left by lra. destruct (Rltb 1 (60 - 50 - 2)) eqn:E1; [|apply Rltb_false in E1; lra].
  unfold above_parabola. cbn [ex_wide ch_a ch_depth]. destruct (Rleb_spec (4 * 1 / 2 ^ 2 * (60 - 50) ^ 2 - 1) (9.5 - 10)); [lra|].
  eexists. split; [reflexivity|]. apply mark_keeps.
  replace (60 - 50 - 2) with (IZR 8) by lra. change 6%nat with (5 + 1)%nat. apply disc_marks; cbn [ex_wide_grid cg_nx cg_ny cg_dx]; try lia.
  - replace (8 / 1) with 8 by field. rewrite trunc_IZR by lia. cbn. lia.
  - replace (sqrt (8 ^ 2 - (INR 0 * 1) ^ 2)) with 8. { rewrite trunc_IZR by lia. cbn. lia. }
    replace (8 ^ 2 - (INR 0 * 1) ^ 2) with (8 ^ 2) by (cbn; ring). symmetry. apply sqrt_pow2. lra.
Qed.
Lemma ex_wide_row6 : forall d, d 0%nat 0%nat 6%nat = false ->
  snd (channel_assign ex_wide_grid 0 ex_wide 5 d (ex_cp 0 60 9.5 0 6)) = Ok (Some (mkWrite 3 (Some 0) (Some (uniform 0 0 0)) 5)).
Proof.
  intros d Hd. unfold channel_assign. cbn [ex_cp p_x p_y p_z p_xi p_yi]. change (ch_ztop ex_wide) with 10.
  destruct (Rltb 0 (9.5 - 10)) eqn:E; [apply Rltb_true in E; lra|]. rewrite Hd. rewrite ex_wide_dist by lra.
  unfold above_parabola. cbn [ex_wide ch_a ch_depth]. destruct (Rleb_spec (4 * 1 / 2 ^ 2 * (60 - 60) ^ 2 - 1) (9.5 - 10)); [|lra].
  cbn [snd]. unfold channel_write. cbn [ex_wide ch_ztop ch_depth ch_lag p_z ch_dipsets ch_facies ch_azim ch_dip ch_lag_facies ex_cp].
  destruct (Rltb 9.5 (10 - 1 + 0)) eqn:E2; [apply Rltb_true in E2; lra|]. reflexivity.
Qed.

Definition ex_wide_model : list (astrat R marks) :=
  [mkAstrat 0 [mkAelem 0 7 false (fun _ _ => 0) (fun _ _ => 20) 9 None None 0 [channel_obj ex_wide_grid 0 5 ex_wide]]].
Lemma ex_wide_tower d d' r p : 9 <= p_z p <= 10 -> channel_assign ex_wide_grid 0 ex_wide 5 d p = (d', Ok r) ->
  match r with Some w => w_facies w = 3%Z | None => True end ->
  fst (tower ex_wide_model [p] (0, 0, 0)%nat d) = d' /\
  map (option_map (fun r => i_facies (fst r))) (snd (tower ex_wide_model [p] (0, 0, 0)%nat d)) = [Some (match r with Some _ => 3 | None => 9 end)%Z].
Proof.
  intros Hz E Hr. cbn [tower]. unfold assign_cell. cbn [skipn ex_wide_model scan_strata t_zmin]. numR.
  destruct (Rleb_spec 0 (p_z p)); [|lra]. cbn [negb]. unfold assign_stratum. cbn [t_aes skipn scan_aes e_zmin]. numR.
  destruct (Rleb_spec 0 (p_z p)); [|lra]. cbn [negb]. unfold assign_ae. cbn [e_objs skipn scan_objs]. numR.
  change (o_zmax (channel_obj ex_wide_grid 0 5 ex_wide)) with 10. change (o_zmin (channel_obj ex_wide_grid 0 5 ex_wide)) with (10 - 1).
  destruct (Rleb_spec (p_z p) 10); [|lra]. cbn [negb]. destruct (Rleb_spec (10 - 1) (p_z p)); [|lra]. cbn [negb].
  cbn [channel_obj o_check]. rewrite E. destruct r as [[f a dd h]|].
  - cbn in Hr. subst f. cbn. auto.
  - cbn [do_write found i_facies reset Z.eqb negb e_sheet e_bottom e_top]. change (negb (Z.eqb (-1) (-1))) with false. cbv iota.
    destruct (Rleb_spec (p_z p) 0); [lra|]. destruct (Rleb_spec 20 (p_z p)); [lra|]. cbn. auto.
Qed.
Definition ex_row5 : list (point R) := [ex_cp 0 50 9.5 0 5].
Definition ex_row6 : list (point R) := [ex_cp 0 60 9.5 0 6].
Theorem C48_wide_cells_refuted :
  in_parabola [mkCP 0 60 1 0] 2 1 10 0 60 9.5 /\
  on_grid 0 0 1 10 1 7 (ex_cp 0 50 9.5 0 5) /\ on_grid 0 0 1 10 1 7 (ex_cp 0 60 9.5 0 6) /\
  map (map (option_map (fun r => i_facies (fst r)))) (towers ex_wide_model [ex_row5; ex_row6] unmarked) = [[Some 9%Z]; [Some 9%Z]] /\
  map (map (option_map (fun r => i_facies (fst r)))) (towers ex_wide_model [ex_row6; ex_row5] unmarked) = [[Some 3%Z]; [Some 9%Z]].
Proof.
  split. { split; [lra|]. exists (mkCP 0 60 1 0). split; [now left|]. cbn [cp_x cp_y]. split; [|lra]. intros q [<-|[]]. cbn. lra. }
  split. { repeat split; cbn [ex_cp p_x p_y p_xi p_yi INR]; try lra; lia. }
  split. { repeat split; cbn [ex_cp p_x p_y p_xi p_yi INR]; try lra; lia. }
  pose proof (ex_wide_row5 unmarked eq_refl) as (d5 & E5 & M5).
  pose proof (ex_wide_row6 unmarked eq_refl) as E6.
  assert (Hz : 9 <= 9.5 <= 10) by lra.
  assert (E6' : channel_assign ex_wide_grid 0 ex_wide 5 d5 (ex_cp 0 60 9.5 0 6) = (d5, Ok None)).
  { unfold channel_assign. change (p_xi (ex_cp 0 60 9.5 0 6)) with 0%nat. change (p_yi (ex_cp 0 60 9.5 0 6)) with 6%nat. rewrite M5.
    destruct (Rltb 0 _); reflexivity. }
  destruct (channel_assign ex_wide_grid 0 ex_wide 5 unmarked (ex_cp 0 60 9.5 0 6)) as [d6 r6] eqn:E6''. cbn [snd] in E6. subst r6.
  split.
  - cbn [towers]. destruct (ex_wide_tower _ _ _ (ex_cp 0 50 9.5 0 5) Hz E5 I) as [F1 F2]. unfold ex_row5, ex_row6.
    destruct (tower ex_wide_model [ex_cp 0 50 9.5 0 5] (0, 0, 0)%nat unmarked) as [d1 rs1]. cbn [fst snd] in F1, F2. subst d1.
    destruct (ex_wide_tower _ _ _ (ex_cp 0 60 9.5 0 6) Hz E6' I) as [F3 F4].
    destruct (tower ex_wide_model [ex_cp 0 60 9.5 0 6] (0, 0, 0)%nat d5) as [d1 rs2]. cbn [fst snd] in F4. cbn [map]. rewrite F2, F4. reflexivity.
  - cbn [towers]. destruct (ex_wide_tower _ _ _ (ex_cp 0 60 9.5 0 6) Hz E6'' eq_refl) as [F1 F2]. unfold ex_row5, ex_row6.
    destruct (tower ex_wide_model [ex_cp 0 60 9.5 0 6] (0, 0, 0)%nat unmarked) as [d1 rs1]. cbn [fst snd] in F1, F2. subst d1.
    assert (M6 : d6 0%nat 0%nat 5%nat = false).
    { revert E6''. unfold channel_assign. cbn [ex_cp p_x p_y p_z p_xi p_yi]. change (ch_ztop ex_wide) with 10.
      destruct (Rltb 0 (9.5 - 10)); [intros [= <-]; reflexivity|]. unfold unmarked at 1. rewrite ex_wide_dist by lra.
      change (ch_width ex_wide) with 2. change (ch_min_dxdy ex_wide) with (Rmin 1 10). rewrite Rmin_left by lra.
      destruct (Rltb 1 (60 - 60 - 2)) eqn:E1; [apply Rltb_true in E1; lra|].
      destruct (above_parabola _ _ _); intros [= <-]; reflexivity. }
    destruct (ex_wide_row5 d6 M6) as (d7 & E7 & _).
    destruct (ex_wide_tower _ _ _ (ex_cp 0 50 9.5 0 5) Hz E7 I) as [F3 F4].
    destruct (tower ex_wide_model [ex_cp 0 50 9.5 0 5] (0, 0, 0)%nat d6) as [d1 rs2]. cbn [fst snd] in F4. cbn [map]. rewrite F2, F4. reflexivity.
Qed.
Print Assumptions C48_wide_cells_refuted.

(** A model to which C36 and C48 apply. *)
Definition ex_chan (k : nat) : option (channel * Z) := match k with O => Some (ex_massive 0, 5%Z) | _ => None end.
Definition ex_cmodel : list (astrat R marks) :=
  [mkAstrat 0 [mkAelem 0 7 false (fun _ _ => 0) (fun _ _ => 20) 9 None None 0 [channel_obj (mkCGrid 3 9 1) 0 5 (ex_massive 0)]]].
Lemma ex_cmodel_ok : channel_model 1 1 (mkCGrid 3 9 1) ex_chan ex_cmodel.
Proof.
  split; [lra|]. split; [lra|]. split; [reflexivity|]. split.
  - intros [|k] c ha [= <- <-]. exists (ex_ct (S_ "massive") 0), ex_line, 10, 4, 2, ex_cd.
    split; [apply ex_massive_ok|]. split; [apply ex_width|lra].
  - intros s e o [<-|[]] [<-|[]] [<-|[]]. right.
    exists 0%nat, (ex_massive 0), 5%Z, (fun _ r => match r with Ok r => r | Err _ => None end). split; [reflexivity|].
    intros d p. cbn [o_check channel_obj]. now destruct (channel_assign _ _ _ _ _ _).
Qed.
Definition ex_ccols : list (nat * nat * list (point R)) :=
  [((1, 8)%nat, [ex_cp 1 8 9.5 1 8; ex_cp 1 8 9 1 8]); ((1, 0)%nat, [ex_cp 1 0 9.5 1 0; ex_cp 1 0 9 1 0])].
Example C36_channel_example :
  nth_error (towers ex_cmodel (map snd ex_ccols) unmarked) 1 =
  Some (snd (tower ex_cmodel [ex_cp 1 0 9.5 1 0; ex_cp 1 0 9 1 0] (0, 0, 0)%nat unmarked)).
Proof.
  apply (C36_with_channels 0 0 1 1 (mkCGrid 3 9 1) ex_chan ex_cmodel ex_cmodel_ok ex_ccols) with (c := (1, 0)%nat); [|reflexivity].
  split.
  - repeat constructor; cbn; intuition discriminate.
  - intros c ps [[= <- <-]|[[= <- <-]|[]]]; (split; [split; [repeat constructor|]; repeat constructor; cbn; lra|]);
      repeat constructor; unfold on_grid; cbn; try lra; lia.
Qed.

(** ** C80: where channels start *)

(** The point half the length of the domain plus half the width before the
    centre of the domain, in flow direction, and [ystart] to its left. *)
Definition upstream (flow x0 y0 lx ly width ystart : R) : R * R :=
  let s := (Rabs (lx * cos flow) + Rabs (ly * sin flow) + width) / 2 in
  (x0 + lx / 2 - s * cos flow - ystart * sin flow, y0 + ly / 2 - s * sin flow + ystart * cos flow).

(** The start is off by half the coordinates of the origin. *)
Theorem C80_start_partial flow x0 y0 lx ly width ystart :
  channel_start flow x0 y0 lx ly width ystart =
  (fst (upstream flow x0 y0 lx ly width ystart) - x0 / 2, snd (upstream flow x0 y0 lx ly width ystart) - y0 / 2).
Proof.
  unfold channel_start, upstream, domain_length. cbn [fst snd]. f_equal; field.
Qed.
Print Assumptions C80_start_partial.
Corollary C80_origin flow lx ly width ystart :
  channel_start flow 0 0 lx ly width ystart = upstream flow 0 0 lx ly width ystart.
Proof. rewrite C80_start_partial. destruct (upstream _ _ _ _ _ _ _). cbn [fst snd]. f_equal; lra. Qed.
Print Assumptions C80_origin.
(** A domain 100 long that begins at 1000: the channel starts 510 before it, but
    should start 10 before it. *)
Theorem C80_start_refuted : exists flow x0 y0 lx ly width ystart,
  0 < lx /\ 0 < ly /\ 0 < width /\
  fst (upstream flow x0 y0 lx ly width ystart) = x0 - 10 /\
  fst (channel_start flow x0 y0 lx ly width ystart) = x0 - 510 /\
  2 * domain_length flow lx ly < x0 - width - fst (channel_start flow x0 y0 lx ly width ystart).
Proof.
  exists 0, 1000, 0, 100, 50, 20, 0. unfold upstream, channel_start, domain_length. rewrite sin_0, cos_0. cbn [fst snd].
  replace (100 * 1) with 100 by lra. replace (50 * 0) with 0 by lra. rewrite Rabs_R0, Rabs_pos_eq by lra. repeat split; lra.
Qed.
Print Assumptions C80_start_refuted.

(** ** C81: the trend of the sizes *)
Theorem C81_size_trend_refuted fuel cp g bz tz us ds t : cc_trend cp = Some t -> generate_channels fuel cp g bz tz us ds = Err ValueError.
Proof. intros H. unfold generate_channels. rewrite H. reflexivity. Qed.
Print Assumptions C81_size_trend_refuted.

(** ** C82: the levels *)
Lemma channel_levels_spec dz zb : 0 < dz -> forall n z fuel,
  z - INR n * dz <= zb -> (forall k, (k < n)%nat -> zb < z - INR k * dz) -> (n <= fuel)%nat ->
  channel_levels fuel z dz zb = Ok (map (fun k => z - INR k * dz) (seq 0 n)).
Proof.
  intros Hdz. induction n as [|n IH]; intros z fuel Hn Hk Hf.
  - cbn in Hn. assert (E : Rltb zb z = false) by (apply Rltb_false; lra). destruct fuel; cbn [channel_levels]; rewrite E; reflexivity.
  - destruct fuel as [|fuel]; [lia|]. cbn [channel_levels].
    assert (H0 := Hk 0%nat ltac:(lia)). cbn in H0.
    assert (E : Rltb zb z = true) by (apply Rltb_true; lra). rewrite E.
    rewrite (IH (z - dz) fuel).
    + cbn [bind]. f_equal. cbn [seq map]. f_equal; [cbn; lra|]. rewrite <- seq_shift, map_map. apply map_ext. intros k. rewrite S_INR. lra.
    + rewrite S_INR in Hn. lra.
    + intros k Hkn. specialize (Hk (S k) ltac:(lia)). rewrite S_INR in Hk. lra.
    + lia.
Qed.
Lemma levels_count dz zb z : 0 < dz -> exists n : nat, z - INR n * dz <= zb /\ forall k, (k < n)%nat -> zb < z - INR k * dz.
Proof.
  intros Hdz. set (n := Z.to_nat (nceil ((z - zb) / dz)%R)). exists n. pose proof (nceil_R_spec ((z - zb) / dz)) as H.
  assert (E : z - zb = (z - zb) / dz * dz) by (field; lra). set (q := (z - zb) / dz) in *.
  split.
  - unfold n. rewrite INR_IZR_INZ. destruct (Z_le_dec 0 (nceil q)).
    + rewrite Z2Nat.id by assumption. nra.
    + rewrite Z2Nat.inj_neg || replace (Z.to_nat (nceil q)) with 0%nat by lia. cbn.
      assert (IZR (nceil q) <= 0) by (apply IZR_le; lia). nra.
  - intros k Hk. assert (Hk' : (Z.of_nat k < nceil q)%Z) by lia. assert (Hk1 : (Z.of_nat k + 1 <= nceil q)%Z) by lia.
    apply IZR_le in Hk1. rewrite plus_IZR, <- INR_IZR_INZ in Hk1. nra.
Qed.

Lemma make_level_spec cp g z : forall ys ds r, make_level cp g z ys ds = Ok r ->
  map ch_ztop (fst r) = repeat z (List.length ys) /\ List.length (snd r) = List.length ys /\
  Forall (fun c => ch_width c = cc_width cp /\ ch_depth c = cc_depth cp /\ ch_zmax c = z /\ ch_zmin c = z - cc_depth cp) (fst r).
Proof.
  induction ys as [|y ys IH]; intros ds r H.
  - destruct ds; cbn in H; injection H as <-; cbn; auto.
  - destruct ds as [|d ds]; [discriminate|]. cbn [make_level] in H.
    destruct (ld_curve d _ _) as [line|]; [|discriminate]. cbn [bind] in H.
    destruct (new_channel _ _ _ _ _ _ _ _) as [c|] eqn:Ec; [|discriminate]. cbn [bind] in H.
    destruct (make_level cp g z ys ds) as [r'|] eqn:Er; [|discriminate]. cbn [bind] in H. injection H as <-. cbn [fst snd map repeat List.length].
    destruct (IH _ _ Er) as (H1 & H2 & H3).
    destruct (new_channel_fields _ _ _ _ _ _ _ _ _ Ec) as (_ & Ez & Emax & Emin & Edp & Ew & _).
    rewrite H1, H2, Ez. repeat split; auto.
Qed.
Lemma make_channels_spec cp g : forall zs ys ds cs, make_channels cp g zs ys ds = Ok cs ->
  map ch_ztop cs = flat_map (fun z => repeat z (List.length ys)) zs /\
  Forall (fun c => ch_width c = cc_width cp /\ ch_depth c = cc_depth cp /\ ch_zmax c = ch_ztop c /\ ch_zmin c = ch_ztop c - cc_depth cp) cs.
Proof.
  induction zs as [|z zs IH]; intros ys ds cs H; cbn [make_channels] in H; [injection H as <-; split; constructor|].
  destruct (make_level cp g z ys (ds 0%nat)) as [[c1 ys1]|] eqn:E1; [|discriminate]. cbn [bind fst snd] in H.
  destruct (make_channels cp g zs ys1 (fun n => ds (S n))) as [rest|] eqn:E2; [|discriminate]. cbn [bind] in H. injection H as <-.
  destruct (make_level_spec _ _ _ _ _ _ E1) as (H1 & H2 & H3). cbn [fst snd] in *.
  destruct (IH _ _ _ E2) as [H4 H5]. split.
  - rewrite map_app, H1, H4, H2. reflexivity.
  - apply Forall_app. split; [|assumption].
    assert (Hz : Forall (fun c => ch_ztop c = z) c1).
    { apply Forall_forall. intros c Hc. apply (in_map ch_ztop) in Hc. rewrite H1 in Hc. now apply repeat_spec in Hc. }
    rewrite Forall_forall in *. intros c Hc. specialize (H3 c Hc). rewrite (Hz c Hc). exact H3.
Qed.

(** With a positive distance between the levels the loop ends ... *)
Theorem C82_levels_end agg zb tz : 0 < agg -> exists n, forall fuel, (n <= fuel)%nat -> exists zs,
  channel_levels fuel (tz - agg) agg zb = Ok zs /\
  forall z, In z zs <-> zb < z /\ exists k, (1 <= k)%nat /\ z = tz - INR k * agg.
Proof.
  intros Ha. destruct (levels_count agg zb (tz - agg) Ha) as (n & H1 & H2). exists n. intros fuel Hf.
  eexists. split; [apply (channel_levels_spec agg zb Ha n); assumption|].
  intros z. rewrite in_map_iff. split.
  - intros (k & <- & Hk). apply in_seq in Hk. split; [apply H2; lia|]. exists (S k). rewrite S_INR. split; [lia|lra].
  - intros (Hz & k & Hk & ->). exists (k - 1)%nat. assert (E : INR k = INR (k - 1) + 1).
    { rewrite <- S_INR. f_equal. lia. }
    rewrite E in *. split; [lra|]. apply in_seq. split; [lia|]. cbn. destruct (Nat.lt_ge_cases (k - 1) n) as [|Hge]; [assumption|].
    exfalso. apply le_INR in Hge. nra.
Qed.
Print Assumptions C82_levels_end.

(** ... and the channels are [channel_no] per level, from the top down, of the
    given size. *)
Theorem C82_channels fuel cp g bz tz us ds cs : 0 < cc_agg cp -> (cc_no cp <= List.length us)%nat ->
  generate_channels fuel cp g bz tz us ds = Ok cs ->
  exists zs, (forall z, In z zs <-> bz + cc_depth cp * cc_buffer cp < z /\ exists k, (1 <= k)%nat /\ z = tz - INR k * cc_agg cp) /\
  StronglySorted Rgt zs /\
  map ch_ztop cs = flat_map (fun z => repeat z (cc_no cp)) zs /\
  Forall (fun c => ch_width c = cc_width cp /\ ch_depth c = cc_depth cp /\ ch_zmax c = ch_ztop c /\ ch_zmin c = ch_ztop c - cc_depth cp) cs.
Proof.
  intros Ha Hu H. unfold generate_channels in H. destruct (cc_trend cp) as [t|]; [discriminate|]. cbn [first_zfactor bind] in H.
  rewrite Rmult_1_r in H. set (zb := bz + cc_depth cp * cc_buffer cp) in *.
  destruct (channel_levels fuel (tz - cc_agg cp) (cc_agg cp) zb) as [zs|] eqn:E; [|discriminate]. cbn [bind] in H.
  destruct (make_channels_spec _ _ _ _ _ _ H) as [H1 H2]. rewrite map_length, firstn_length_le in H1 by assumption.
  exists zs. assert (Hzs : exists n, zs = map (fun k => tz - cc_agg cp - INR k * cc_agg cp) (seq 0 n) /\
    tz - cc_agg cp - INR n * cc_agg cp <= zb /\ forall k, (k < n)%nat -> zb < tz - cc_agg cp - INR k * cc_agg cp).
  { clear - E. revert E. generalize (tz - cc_agg cp) as z. revert zs. induction fuel as [|fuel IH]; intros zs z E; cbn [channel_levels] in E.
    - destruct (Rltb zb z) eqn:El; [discriminate|]. apply Rltb_false in El. injection E as <-. exists 0%nat. cbn. split; [reflexivity|]. split; [lra|lia].
    - destruct (Rltb zb z) eqn:El.
      + apply Rltb_true in El. destruct (channel_levels fuel (z - cc_agg cp) (cc_agg cp) zb) as [zs'|] eqn:E'; [|discriminate].
        cbn [bind] in E. injection E as <-. destruct (IH _ _ E') as (n & -> & H1 & H2). exists (S n). split.
        { cbn [seq map]. f_equal; [cbn; lra|]. rewrite <- seq_shift, map_map. apply map_ext. intros k. rewrite S_INR. lra. }
        split; [rewrite S_INR; lra|]. intros [|k] Hk; [cbn; lra|]. rewrite S_INR. specialize (H2 k ltac:(lia)). lra.
      + apply Rltb_false in El. injection E as <-. exists 0%nat. cbn. split; [reflexivity|]. split; [lra|lia]. }
  destruct Hzs as (n & -> & Hn1 & Hn2). split; [|split; [|split; assumption]].
  - intros z. rewrite in_map_iff. split.
    + intros (k & <- & Hk). apply in_seq in Hk. split; [apply Hn2; lia|]. exists (S k). rewrite S_INR. split; [lia|lra].
    + intros (Hz & k & Hk & ->). exists (k - 1)%nat. assert (Ek : INR k = INR (k - 1) + 1).
      { rewrite <- S_INR. f_equal. lia. }
      rewrite Ek in Hz |- *. split; [lra|]. apply in_seq. split; [lia|]. cbn. destruct (Nat.lt_ge_cases (k - 1) n) as [|Hge]; [assumption|].
      exfalso. apply le_INR in Hge. nra.
  - clear - Ha. generalize 0%nat. induction n as [|n IH]; intros s; cbn; constructor; [apply IH|].
    apply Forall_forall. intros z Hz. apply in_map_iff in Hz as (k & <- & Hk). apply in_seq in Hk.
    assert (INR s + 1 <= INR k) by (rewrite <- S_INR; apply le_INR; lia). nra.
Qed.
Print Assumptions C82_channels.

(** Nothing rules out a distance of zero or less; the loop then never ends. *)
Theorem C82_nonpositive_agg agg zb tz fuel : agg <= 0 -> zb < tz - agg -> channel_levels fuel (tz - agg) agg zb = Err OutOfFuel.
Proof.
  intros Ha. generalize (tz - agg) as z. induction fuel as [|fuel IH]; intros z Hz; cbn [channel_levels];
    (destruct (Rltb zb z) eqn:E; [|apply Rltb_false in E; lra]); [reflexivity|].
  rewrite IH by lra. reflexivity.
Qed.
Print Assumptions C82_nonpositive_agg.

Definition ex_params (trend : option (R * R)) : channel_params :=
  mkCParams 2 0 3 4 2 (1 / 2) trend 0 (ex_ct (S_ "massive") 0).
Definition ex_ld : level_draw := mkLD (fun _ _ => Ok ex_line) 0 ex_cd.
Definition ex_grid : grid R := mkGrid 0 0 0 1 1 1 10 10 10 [] [] [].
Example C82_example : exists cs, generate_channels 5 (ex_params None) ex_grid 0 10 [0; 0] (fun _ => [ex_ld; ex_ld]) = Ok cs /\
  map ch_ztop cs = [10 - 3; 10 - 3; 10 - 3 - 3; 10 - 3 - 3].
Proof.
  unfold generate_channels. cbn [ex_params cc_trend first_zfactor bind cc_agg cc_depth cc_buffer channel_levels].
  do 3 (match goal with |- context [Rltb ?a ?b] =>
    first [replace (Rltb a b) with true by (symmetry; apply Rltb_true; lra) | replace (Rltb a b) with false by (symmetry; apply Rltb_false; lra)] end; cbn [channel_levels bind]).
  eexists. split; reflexivity.
Qed.
Example C81_example : generate_channels 5 (ex_params (Some (1, 2))) ex_grid 0 10 [0; 0] (fun _ => [ex_ld; ex_ld]) = Err ValueError.
Proof. now apply C81_size_trend_refuted with (t := (1, 2)). Qed.
