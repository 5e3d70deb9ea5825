(** C135 and C136: the loops that make elements and sheets, in double precision. *)
From Coq Require Import List ZArith Bool Ascii String Reals Lra Lia.
From Flocq Require Import Core Sterbenz.
From Verif Require Import Base Num OrderSpec OrderModel ParseModel ConfigModel SurfaceModel SurfaceSpec SurfaceProofs StrataModel StrataSpec
  StrataProofs StrataProofs2 StrataProofs3 AssignProps OrderProps SheetFloatSpec SheetFloatProofs.
Import ListNotations.
Local Open Scope R_scope.
Local Open Scope list_scope.

#[global] Existing Instance TrueOrderF.

Lemma copies_exist (st : store R) l : Forall (object_bounds st) l -> exists cp, mapM (copy_object st) l = Ok cp.
Proof.
  intros Hob. induction Hob as [|o l Ho Hob IH]; [eexists; reflexivity|]. destruct IH as (cp & IH). cbn [mapM]. rewrite IH.
  unfold object_bounds in Ho. unfold copy_object. destruct (ob_surfaces o) as [[x y]|]; [|eexists; reflexivity].
  destruct Ho as ((H1 & H2) & _). destruct (getS_some st x H1) as (s1 & -> & _). destruct (getS_some st y H2) as (s2 & -> & _).
  eexists. reflexivity.
Qed.
Lemma fl_m1 : fl (0 - 1) = -1.
Proof. replace (0 - 1) with (IZR (-1)) by lra. apply fl_int. reflexivity. Qed.
Lemma thickness_plain (g : grid R) lens lo hi : lens <> -1 -> sheet_thickness (H := NumF) g lens None lo hi = lens.
Proof.
  intros Hl. unfold sheet_thickness, neqb. cbn [n0 n1 nsub nleb NumF]. rewrite fl_m1.
  destruct (Rleb_spec lens (-1)), (Rleb_spec (-1) lens); try reflexivity. lra.
Qed.
Lemma thickness_massive (g : grid R) trend lo hi : sheet_thickness (H := NumF) g (-1) trend lo hi = fl (hi - lo).
Proof.
  unfold sheet_thickness, neqb. cbn [n0 n1 nsub nleb NumF]. rewrite fl_m1.
  destruct (Rleb_spec (-1) (-1)); [reflexivity|lra].
Qed.

(** Elements that end: the number of sheets is bounded. *)
Lemma new_ae_ends (g : grid R) fuel st ty kind sbg bottom top objs lens trend t sb stp eps N :
  (0 < columns g)%nat -> wf (columns g) st -> nth_error st bottom = Some sb -> nth_error st top = Some stp -> below st bottom top ->
  t_geometry ty = GSheet lens trend -> sheet_thickness (H := NumF) g lens trend (zmin sb) (zmax stp) = t ->
  0 < eps -> (forall z, zmin sb < z <= zmax stp -> fl (z - t) <= z - eps) -> fl (zmax stp - t) <= zmax stp ->
  fl (zmax stp - t) - zmin sb <= INR N * eps -> (N < fuel)%nat ->
  exists st' e, new_ae (H := NumF) g fuel st ty kind sbg bottom top objs = Ok (st', e) /\ (List.length (ae_objects e) <= S N)%nat.
Proof.
  intros Hn Hw Hb Ht Hbt Hg Eth He Hstep HM HN Hf.
  assert (Lb := nth_error_lt _ _ _ Hb). assert (Lt := nth_error_lt _ _ _ Ht).
  assert (Bb := proj2 (wf_nth _ _ _ _ Hw Hb)).
  unfold new_ae. unfold getS at 1 2. rewrite Hb, Ht. cbn [bind]. rewrite Hg, Eth.
  assert (Hv : Forall (fun v => zmin sb <= v) (vals sb)) by (revert Bb; apply Forall_impl; intros v; lra).
  destruct (sheet_loop_total (N := NumF) (columns g) bottom t eps (zmax stp) N fuel st top (fl (zmax stp - t)) [] (zmin sb) (zmax stp))
    as (st' & l & lo & hi & E & Hlen); try assumption; try exact Hstep.
  - intros s Hs. rewrite Hb in Hs. injection Hs as <-. lra.
  - intros k v Hk. destruct (col_like _ st st bottom _ _ _ Hw Hw Lb Hk) as (u & Hu).
    pose proof (Hbt _ _ _ Hu Hk). unfold col in Hu. rewrite Hb in Hu. pose proof (bounded_nth _ _ _ Bb Hu). lra.
  - intros s Hs. rewrite Hb in Hs. injection Hs as <-. assumption.
  - cbn [nsub NumF]. rewrite E. cbn [bind].
    assert (Hspec := E). apply (sheet_loop_spec (columns g) bottom (List.length st)) in Hspec; try assumption; try lia; [|intros _; assumption].
    destruct Hspec as (_ & _ & _ & _ & _ & _ & new & El & _ & _ & Hob & _). simpl in El. subst l.
    destruct (copies_exist _ _ Hob) as (cp & ->). cbn [bind]. do 2 eexists. split; [reflexivity|]. cbn [ae_objects]. simpl in Hlen. lia.
Qed.

(** ** C135: generation ends in double precision *)

(** Sheets: a thickness that counts against the elevations of the element is
    enough. *)
Theorem C135_sheets_end_partial :
  forall (g : grid R) fuel st ty kind sbg bottom top objs lens sb stp M N,
  (0 < columns g)%nat -> wf (columns g) st -> nth_error st bottom = Some sb -> nth_error st top = Some stp -> below st bottom top ->
  t_geometry ty = GSheet lens None -> 0 < lens ->
  Rabs (zmin sb) <= M -> Rabs (zmax stp) <= M -> counts M lens ->
  zmax stp - zmin sb <= INR (S N) * (lens / 2) -> (N < fuel)%nat ->
  exists st' e, new_ae (H := NumF) g fuel st ty kind sbg bottom top objs = Ok (st', e) /\ (List.length (ae_objects e) <= S N)%nat.
Proof.
  intros g fuel st ty kind sbg bottom top objs lens sb stp M N Hn Hw Hb Ht Hbt Hg Hl Hlo Hhi Hc HN Hf.
  assert (Hs : forall z, Rabs z <= M -> fl (z - lens) <= z - lens / 2) by (intros z Hz; now apply (fl_step M)).
  pose proof (Hs _ Hhi) as H0.
  apply (new_ae_ends g fuel st ty kind sbg bottom top objs lens None lens sb stp (lens / 2) N); try assumption; try lra.
  - apply thickness_plain. lra.
  - intros z Hz. apply Hs. unfold Rabs in *. destruct (Rcase_abs z), (Rcase_abs (zmin sb)), (Rcase_abs (zmax stp)); lra.
  - rewrite S_INR in HN. lra.
Qed.
Print Assumptions C135_sheets_end_partial.

(** It never ends for a thickness that is negligible against the top of the
    element. *)
Theorem C135_sheets_refuted :
  forall (g : grid R) fuel st ty kind sbg bottom top objs lens sb stp r,
  wf (columns g) st -> nth_error st bottom = Some sb -> nth_error st top = Some stp -> below st bottom top ->
  t_geometry ty = GSheet lens None -> 0 < lens -> is_double (zmax stp) -> 0 < zmax stp -> negligible lens (zmax stp) ->
  zmin sb < zmax stp ->
  new_ae (H := NumF) g fuel st ty kind sbg bottom top objs <> Ok r.
Proof.
  intros g fuel st ty kind sbg bottom top objs lens sb stp r Hw Hb Ht Hbt Hg Hl Hd Hp Hn Hz E.
  assert (Lb := nth_error_lt _ _ _ Hb). assert (Lt := nth_error_lt _ _ _ Ht).
  assert (Bb := proj2 (wf_nth _ _ _ _ Hw Hb)).
  unfold new_ae in E. unfold getS at 1 2 in E. rewrite Hb, Ht in E. cbn [bind] in E. rewrite Hg in E.
  rewrite thickness_plain in E by lra. cbn [nsub NumF] in E. rewrite (fl_negligible lens (zmax stp)) in E by assumption.
  apply bind_Ok in E as (x & Hx & _). revert Hx. apply sheet_loop_endless with (P := fun z => z = zmax stp); try assumption; try reflexivity.
  - intros z ->. cbn [nsub NumF]. now apply fl_negligible.
  - intros z ->. exact Hz.
  - intros k v Hk. destruct (col_like _ st st bottom _ _ _ Hw Hw Lb Hk) as (u & Hu).
    pose proof (Hbt _ _ _ Hu Hk). unfold col in Hu. rewrite Hb in Hu. pose proof (bounded_nth _ _ _ Bb Hu). lra.
Qed.
Print Assumptions C135_sheets_refuted.

(** Elements of a stratum. *)
Lemma next_depth_fl sp z d : next_depth (H := NumF) (sp_avul_prob sp) z d = fl (z - fl_net sp d).
Proof.
  unfold next_depth, fl_net. cbn [n0 nadd nsub nleb NumF]. unfold Rleb. destruct (Rle_dec (d_u d) (sp_avul_prob sp)); reflexivity.
Qed.

Theorem C135_elements_end_partial :
  forall (g : grid R) fuel sp first draws more st bottom top sb stp M eps,
  nth_error st bottom = Some sb -> nth_error st top = Some stp -> Rabs (zmean sb) <= M -> Rabs (zmean stp) <= M ->
  0 < eps -> Forall (fun d => eps <= fl_net sp d / 2 /\ counts M (fl_net sp d)) draws ->
  zmean stp - zmean sb <= INR (List.length draws) * eps ->
  new_stratum (H := NumF) g fuel sp first (draws ++ more) st bottom top = new_stratum (H := NumF) g fuel sp first draws st bottom top /\
  forall st' s, new_stratum (H := NumF) g fuel sp first (draws ++ more) st bottom top = Ok (st', s) ->
    (List.length (s_aes s) <= List.length draws)%nat.
Proof.
  intros g fuel sp first draws more st bottom top sb stp M eps Hb Ht Mb Mt He Hd Hn.
  assert (E : new_stratum (H := NumF) g fuel sp first (draws ++ more) st bottom top = new_stratum (H := NumF) g fuel sp first draws st bottom top).
  { unfold new_stratum. assert (Ht' := Ht). apply getS_Ok in Ht'. assert (Hb' := Hb). apply getS_Ok in Hb'. rewrite Hb', Ht'. cbn [bind].
    rewrite (stratum_loop_bounded g fuel sp bottom eps (zmean sb) (zmean stp) He _ _ _ _ _ _ _ _ _ sb); try assumption; try reflexivity; [|lra].
    revert Hd. apply Forall_impl. intros d [H1 H2] z Hz. rewrite next_depth_fl.
    apply Rle_trans with (z - fl_net sp d / 2); [|lra]. apply (fl_step M); [lra|assumption|].
    unfold Rabs in *. destruct (Rcase_abs z), (Rcase_abs (zmean sb)), (Rcase_abs (zmean stp)); lra. }
  split; [exact E|]. intros st' s Es. rewrite E in Es. unfold new_stratum in Es.
  apply bind_Ok in Es as (s1 & _ & Es). apply bind_Ok in Es as (s2 & _ & Es).
  apply bind_Ok in Es as ((st2 & (lo & hi) & aes) & Hl & Es). injection Es as <- <-. cbn [s_aes].
  apply stratum_loop_count in Hl. simpl in Hl. exact Hl.
Qed.
Print Assumptions C135_elements_end_partial.

Theorem C135_elements_refuted :
  forall (g : grid R) fuel sp first draws st bottom top sb stp r,
  nth_error st bottom = Some sb -> nth_error st top = Some stp -> zmean sb < zmean stp ->
  is_double (zmean stp) -> 0 < zmean stp ->
  Forall (fun d => negligible (fl_net sp d) (zmean stp)) draws ->
  new_stratum (H := NumF) g fuel sp first draws st bottom top <> Ok r.
Proof.
  intros g fuel sp first draws st bottom top sb stp r Hb Ht Hz Hf Hp Hd E. unfold new_stratum in E.
  unfold getS at 1 2 in E. rewrite Hb, Ht in E. cbn [bind] in E.
  apply bind_Ok in E as (x & Hx & _). revert Hx.
  apply (stratum_loop_endless _ _ _ _ (fun z => z = zmean stp) (zmean sb)) with (s := sb); try assumption; try reflexivity.
  - intros z ->. exact Hz.
  - revert Hd. apply Forall_impl. intros d Hd z ->. rewrite next_depth_fl. now apply fl_negligible.
Qed.
Print Assumptions C135_elements_refuted.

(** ** C136: an element with lens_thickness -1 is one sheet *)

(** How many sheets there are is decided by one comparison. *)
Theorem C136_whole_iff :
  forall (g : grid R) fuel st ty kind sbg bottom top objs trend sb stp st' e,
  nth_error st bottom = Some sb -> nth_error st top = Some stp -> t_geometry ty = GSheet (-1) trend ->
  new_ae (H := NumF) g fuel st ty kind sbg bottom top objs = Ok (st', e) ->
  (List.length (ae_objects e) = 1%nat <-> fl (zmax stp - fl (zmax stp - zmin sb)) <= zmin sb).
Proof.
  intros g fuel st ty kind sbg bottom top objs trend sb stp st' e Hb Ht Hg E. unfold new_ae in E.
  unfold getS at 1 2 in E. rewrite Hb, Ht in E. cbn [bind] in E. rewrite Hg, thickness_massive in E. cbn [nsub NumF] in E.
  apply bind_Ok in E as ((st1 & (l & lo) & hi) & Hl & E). apply bind_Ok in E as (cp & _ & E). injection E as _ <-. cbn [ae_objects].
  destruct fuel as [|fuel]; [discriminate|]. cbn [sheet_loop] in Hl. rewrite nleb_ord in Hl.
  destruct (Rleb_spec (fl (zmax stp - fl (zmax stp - zmin sb))) (zmin sb)) as [Hc|Hc]; cbn [negb] in Hl.
  - split; [tauto|]. intros _. apply bind_Ok in Hl as (s1 & _ & Hl). apply bind_Ok in Hl as (s2 & _ & Hl).
    rewrite add_object_eq in Hl. injection Hl as _ <- _ _. reflexivity.
  - split; [|lra]. intros H1. exfalso.
    apply bind_Ok in Hl as (s & _ & Hl). cbn [alloc] in Hl.
    apply bind_Ok in Hl as (st2 & _ & Hl). apply bind_Ok in Hl as (st3 & _ & Hl).
    apply bind_Ok in Hl as (sx & _ & Hl). apply bind_Ok in Hl as (sy & _ & Hl). rewrite add_object_eq in Hl.
    assert (G : forall n bot t fuel st top zb l lo hi st' l' lo' hi',
      sheet_loop (H := NumF) fuel n st bot top t zb (l, lo, hi) = Ok (st', (l', lo', hi')) -> (S (List.length l) <= List.length l')%nat).
    { clear. intros n bot t. induction fuel as [|fuel IH]; intros st top zb l lo hi st' l' lo' hi' E; [discriminate|]. cbn [sheet_loop] in E.
      destruct (lo <? zb)%num.
      - apply bind_Ok in E as (s & _ & E). cbn [alloc] in E.
        apply bind_Ok in E as (st2 & _ & E). apply bind_Ok in E as (st3 & _ & E).
        apply bind_Ok in E as (sx & _ & E). apply bind_Ok in E as (sy & _ & E). rewrite add_object_eq in E. apply IH in E.
        rewrite app_length in E. simpl in E. lia.
      - apply bind_Ok in E as (sx & _ & E). apply bind_Ok in E as (sy & _ & E). rewrite add_object_eq in E. injection E as _ <- _ _.
        rewrite app_length. simpl. lia. }
    apply G in Hl. simpl in Hl. lia.
Qed.
Print Assumptions C136_whole_iff.

(** One sheet if the thickness of the element is not rounded down; exact
    differences are such (Sterbenz: zmax <= 2 zmin; or zmin = 0). *)
Theorem C136_whole_partial :
  forall (g : grid R) fuel st ty kind sbg bottom top objs trend sb stp,
  nth_error st bottom = Some sb -> nth_error st top = Some stp -> t_geometry ty = GSheet (-1) trend ->
  is_double (zmin sb) -> is_double (zmax stp) ->
  zmax stp - zmin sb <= fl (zmax stp - zmin sb) \/ zmin sb = 0 \/ (zmin sb <= zmax stp <= 2 * zmin sb) ->
  exists e o, new_ae (H := NumF) g (S fuel) st ty kind sbg bottom top objs = Ok (st, e) /\
    ae_objects e = [o] /\ ob_surfaces o = Some (bottom, top).
Proof.
  intros g fuel st ty kind sbg bottom top objs trend sb stp Hb Ht Hg Dl Dh Hr.
  assert (Hr' : zmax stp - zmin sb <= fl (zmax stp - zmin sb)).
  { destruct Hr as [Hr|[Hr|Hr]]; [exact Hr| |].
    - rewrite Hr, Rminus_0_r, (fl_double _ Dh). lra.
    - rewrite fl_double; [lra|]. apply sterbenz; try assumption; [apply flt_valid|apply FLT_exp_monotone|lra]. }
  assert (Hc : fl (zmax stp - fl (zmax stp - zmin sb)) <= zmin sb).
  { apply Rle_trans with (fl (zmin sb)); [apply fl_le; lra|]. rewrite (fl_double _ Dl). lra. }
  unfold new_ae. unfold getS at 1 2. rewrite Hb, Ht. cbn [bind]. rewrite Hg, thickness_massive. cbn [nsub NumF sheet_loop]. rewrite nleb_ord.
  destruct (Rleb_spec (fl (zmax stp - fl (zmax stp - zmin sb))) (zmin sb)); [|lra]. cbn [negb].
  unfold getS at 1 2. rewrite Hb, Ht. cbn [bind]. rewrite add_object_eq. cbn [mapM copy_object ob_surfaces app].
  unfold copy_object. cbn [ob_surfaces]. unfold getS. rewrite Hb, Ht. cbn [bind].
  do 2 eexists. split; [reflexivity|]. split; reflexivity.
Qed.
Print Assumptions C136_whole_partial.

(** The element from 0.1 (the double) to 2 becomes two sheets. *)
Definition tenth : R := F2R (Float radix2 3602879701896397 (-55)).
Definition nearly : R := F2R (Float radix2 8556839292003942 (-52)).   (* 2 - tenth, rounded *)
Lemma double_float m e : (Z.abs m < 2 ^ 53)%Z -> (-1074 <= e)%Z -> is_double (F2R (Float radix2 m e)).
Proof. intros Hm He. apply generic_format_FLT. exists (Float radix2 m e); [reflexivity|exact Hm|exact He]. Qed.
Lemma two_minus_tenth : fl (2 - tenth) = nearly.
Proof.
  assert (V : 2 - tenth = F2R (Float radix2 68454714336031539 (-55))).
  { unfold tenth, F2R. cbn [Fnum Fexp]. replace 2 with (IZR (2 ^ 56) * bpow radix2 (-55)).
    - rewrite <- Rmult_minus_distr_r. f_equal. rewrite <- minus_IZR. reflexivity.
    - rewrite (IZR_Zpower radix2) by lia. rewrite <- bpow_plus. reflexivity. }
  assert (Mg : mag radix2 (2 - tenth) = 1%Z :> Z).
  { apply mag_unique. rewrite V. rewrite Rabs_pos_eq by (apply F2R_ge_0; cbn; lia). unfold F2R. cbn [Fnum Fexp]. 
    replace (bpow radix2 (1 - 1)) with (IZR (2 ^ 55) * bpow radix2 (-55)) by (rewrite (IZR_Zpower radix2) by lia; rewrite <- bpow_plus; reflexivity).
    replace (bpow radix2 1) with (IZR (2 ^ 56) * bpow radix2 (-55)) by (rewrite (IZR_Zpower radix2) by lia; rewrite <- bpow_plus; reflexivity).
    pose proof (bpow_gt_0 radix2 (-55)).
    split; [apply Rmult_le_compat_r; [lra|apply IZR_le]|apply Rmult_lt_compat_r; [lra|apply IZR_lt]]; reflexivity || (intro; discriminate). }
  unfold fl, round, nearly, scaled_mantissa, cexp. rewrite Mg. change (FLT_exp (-1074) 53 1) with (-52)%Z.
  f_equal. f_equal. apply Znearest_imp. rewrite V. unfold F2R. cbn [Fnum Fexp]. rewrite Rmult_assoc, <- bpow_plus.
  change (bpow radix2 (-55 + - -52)) with (/ 8). rewrite Rabs_pos_eq; lra.
Qed.
Lemma tenth_bounds : 0 < tenth < 1.
Proof. unfold tenth, F2R. cbn. lra. Qed.
Lemma two_minus_nearly : fl (2 - nearly) = 2 - nearly.
Proof.
  replace (2 - nearly) with (F2R (Float radix2 450359962737050 (-52))).
  - apply fl_double. apply double_float; [reflexivity|lia].
  - unfold nearly, F2R. cbn [Fnum Fexp]. replace 2 with (IZR (2 ^ 53) * bpow radix2 (-52)).
    + rewrite <- Rmult_minus_distr_r. f_equal. rewrite <- minus_IZR. reflexivity.
    + rewrite (IZR_Zpower radix2) by lia. rewrite <- bpow_plus. reflexivity.
Qed.
Definition msheet : ae_type R := mkType (mkContact (S_ "flat") None None) (GSheet (-1) None) (mkBg None None None).
Definition mstore : store R := [mkSurface [tenth] tenth tenth tenth; mkSurface [2] 2 2 2].

Lemma nearly_bounds : 1.8 < nearly < 2 /\ tenth < 2 - nearly < 0.2.
Proof. unfold nearly, tenth, F2R. cbn. lra. Qed.
Lemma counts_two t : 1/2 < t <= 2 -> counts 4 t.
Proof.
  intros Ht. unfold counts.
  assert (bpow radix2 (-52) < / 64) by (replace (/ 64) with (bpow radix2 (-6)) by (cbn; lra); apply bpow_lt; lia).
  assert (bpow radix2 (-1074) < / 64) by (replace (/ 64) with (bpow radix2 (-6)) by (cbn; lra); apply bpow_lt; lia).
  pose proof (bpow_gt_0 radix2 (-52)). nra.
Qed.
Theorem C136_refuted :
  exists (g : grid R) st ty kind sbg bottom top sb stp st' e,
  nth_error st bottom = Some sb /\ nth_error st top = Some stp /\ below st bottom top /\ wf (columns g) st /\
  is_double (zmin sb) /\ is_double (zmax stp) /\ t_geometry ty = GSheet (-1) None /\
  (forall fuel objs, (2 <= fuel)%nat -> new_ae (H := NumF) g fuel st ty kind sbg bottom top objs = Ok (st', e)) /\ List.length (ae_objects e) = 2%nat.
Proof.
  assert (W : wf (columns rg) mstore) by (repeat constructor; cbn; lra).
  assert (B : below mstore 0 1).
  { intros [|[|k]] x y; cbn; try discriminate. intros [= <-] [= <-]. pose proof tenth_bounds. lra. }
  pose proof nearly_bounds as Nb. pose proof tenth_bounds as Tb.
  destruct (new_ae_ends rg 2 mstore msheet 0 (mkSbg 3%Z None None) 0 1 [] (-1) None nearly (mkSurface [tenth] tenth tenth tenth) (mkSurface [2] 2 2 2) (nearly / 2) 1)
    as (st' & e & E & Hlen); try assumption; try reflexivity; try lia; try (cbn [zmin zmax]; lra).
  - cbn; lia.
  - rewrite thickness_massive. cbn [zmin zmax]. apply two_minus_tenth.
  - cbn [zmin zmax]. intros z Hz. apply (fl_step 4); [lra|apply counts_two; lra|rewrite Rabs_pos_eq; lra].
  - cbn [zmin zmax]. rewrite two_minus_nearly. lra.
  - cbn [zmin zmax]. rewrite two_minus_nearly. simpl INR. lra.
  - exists rg, mstore, msheet, 0%nat, (mkSbg 3%Z None None), 0%nat, 1%nat, (mkSurface [tenth] tenth tenth tenth), (mkSurface [2] 2 2 2), st', e.
    split; [reflexivity|]. split; [reflexivity|]. split; [exact B|]. split; [exact W|].
    split; [apply double_float; [reflexivity|lia]|]. split; [cbn [zmax]; rewrite <- (fl_int 2 ltac:(reflexivity)); apply double_fl|].
    split; [reflexivity|].
    assert (L2 : List.length (ae_objects e) = 2%nat).
    { assert (Hn1 : List.length (ae_objects e) <> 1%nat).
      { intros H1. apply (C136_whole_iff rg 2 mstore msheet 0 (mkSbg 3%Z None None) 0 1 [] None (mkSurface [tenth] tenth tenth tenth) (mkSurface [2] 2 2 2) st' e eq_refl eq_refl eq_refl E) in H1.
        cbn [zmin zmax] in H1. rewrite two_minus_tenth, two_minus_nearly in H1. lra. }
      assert (Hn0 : List.length (ae_objects e) <> 0%nat).
      { unfold new_ae in E. apply bind_Ok in E as (s1 & _ & E). apply bind_Ok in E as (s2 & _ & E).
        apply bind_Ok in E as ((st1 & (l & lo) & hi) & Hl & E). apply bind_Ok in E as (cp & _ & E). injection E as <- <-. cbn [ae_objects].
        cbn [t_geometry msheet] in Hl.
        eapply (sheet_loop_spec (columns rg) 0 (List.length mstore)) in Hl; try assumption; try (cbn; lia); [|intros _; assumption].
        destruct Hl as (_ & _ & _ & _ & _ & _ & new & -> & Hne & _). destruct new; [congruence|discriminate]. }
      lia. }
    split; [|exact L2]. intros fuel objs Hf. rewrite <- E.
    (* more fuel changes nothing *)
    assert (G : forall n bot t fuel st top zb a r, sheet_loop (H := NumF) fuel n st bot top t zb a = Ok r ->
      forall fuel', (fuel <= fuel')%nat -> sheet_loop (H := NumF) fuel' n st bot top t zb a = Ok r).
    { clear. intros n bot t. induction fuel as [|fuel IH]; intros st top zb a r E fuel' Hf; [discriminate|].
      destruct fuel' as [|fuel']; [lia|]. cbn [sheet_loop] in *. destruct a as ((l & lo) & hi). destruct (lo <? zb)%num; [|exact E].
      apply bind_Ok in E as (s & -> & E). cbn [bind alloc] in *.
      apply bind_Ok in E as (st2 & -> & E). cbn [bind]. apply bind_Ok in E as (st3 & -> & E). cbn [bind].
      apply bind_Ok in E as (sx & -> & E). cbn [bind]. apply bind_Ok in E as (sy & -> & E). cbn [bind]. apply IH; [exact E|lia]. }
    unfold new_ae in *. apply bind_Ok in E as (s1 & E1 & E). apply bind_Ok in E as (s2 & E2 & E).
    apply bind_Ok in E as ((st1 & (l & lo) & hi) & Hl & E). rewrite E1, E2. cbn [bind]. cbn [t_geometry msheet] in *.
    rewrite Hl. rewrite (G _ _ _ _ _ _ _ _ _ Hl _ Hf). reflexivity.
Qed.
Print Assumptions C136_refuted.

(** An element from 0 to 2: its sheets of 1 end (C135) and without lenses it is
    one sheet (C136). *)
Definition zstore : store R := [mkSurface [0] 0 0 0; mkSurface [2] 2 2 2].
Example C135_example :
  (exists st' e, new_ae (H := NumF) rg 9 zstore (mkType (mkContact (S_ "flat") None None) (GSheet 1 None) (mkBg None None None)) 0 (mkSbg 3%Z None None) 0 1 [] = Ok (st', e) /\
     (List.length (ae_objects e) <= 4)%nat) /\
  (* and sheets of 2^-60 do not *)
  (forall fuel r, new_ae (H := NumF) rg fuel zstore (mkType (mkContact (S_ "flat") None None) (GSheet (bpow radix2 (-60)) None) (mkBg None None None)) 0 (mkSbg 3%Z None None) 0 1 [] <> Ok r) /\
  exists e o, new_ae (H := NumF) rg 1 zstore msheet 0 (mkSbg 3%Z None None) 0 1 [] = Ok (zstore, e) /\ ae_objects e = [o].
Proof.
  assert (W : wf (columns rg) zstore) by (repeat constructor; cbn; lra).
  assert (B : below zstore 0 1).
  { intros [|[|k]] x y; cbn; try discriminate. intros [= <-] [= <-]. lra. }
  assert (D2 : is_double 2) by (rewrite <- (fl_int 2 ltac:(reflexivity)); apply double_fl).
  assert (D0 : is_double 0) by (rewrite <- (fl_int 0 ltac:(reflexivity)); apply double_fl).
  split; [|split].
  - apply (C135_sheets_end_partial rg 9 zstore _ 0 _ 0 1 [] 1 (mkSurface [0] 0 0 0) (mkSurface [2] 2 2 2) 4 3); try assumption; try reflexivity; try lra; try lia;
      cbn [zmin zmax]; try (rewrite Rabs_pos_eq; lra); try (apply counts_two; lra); try (cbn; lia). simpl INR. lra.
  - intros fuel r. apply (C135_sheets_refuted rg fuel zstore _ 0 _ 0 1 [] (bpow radix2 (-60)) (mkSurface [0] 0 0 0) (mkSurface [2] 2 2 2)); try assumption; try reflexivity; cbn [zmin zmax]; try lra.
    + apply bpow_gt_0.
    + split; [apply bpow_ge_0|]. replace 2 with (bpow radix2 1) by reflexivity. rewrite <- bpow_plus. apply bpow_le. lia.
  - destruct (C136_whole_partial rg 0 zstore msheet 0 (mkSbg 3%Z None None) 0 1 [] None (mkSurface [0] 0 0 0) (mkSurface [2] 2 2 2)) as (e & o & E & H & _); try assumption; try reflexivity.
    + right. left. reflexivity.
    + eauto.
Qed.
(** Elements of 1 in a stratum from 0 to 2: at most four. *)
Example C135_elements_example :
  let sp := mkSP (T := R) [msheet] 0 (mkSbg 3%Z None None) in
  let d := mkDraw 1 1 0 0 [0] [] in
  Forall (fun d => 1 / 2 <= fl_net sp d / 2 /\ counts 4 (fl_net sp d)) [d; d; d; d] /\ 2 - 0 <= INR 4 * (1 / 2) /\
  negligible (fl_net sp (mkDraw (bpow radix2 (-60)) 1 0 0 [0] [])) 2.
Proof.
  cbv zeta.
  assert (E : fl_net (mkSP (T := R) [msheet] 0 (mkSbg 3%Z None None)) (mkDraw 1 1 0 0 [0] []) = 1).
  { unfold fl_net. cbn [d_height d_u d_avul sp_avul_prob]. destruct (Rle_dec 1 0); [lra|]. rewrite Rplus_0_r. apply fl_int. reflexivity. }
  split; [repeat (apply Forall_cons; [rewrite E; split; [lra|apply counts_two; lra]|]); apply Forall_nil|]. split; [simpl; lra|].
  unfold fl_net. cbn [d_height d_u d_avul sp_avul_prob]. destruct (Rle_dec 1 0); [lra|]. rewrite Rplus_0_r.
  rewrite fl_double.
  - split; [apply bpow_ge_0|]. replace 2 with (bpow radix2 1) by reflexivity. rewrite <- bpow_plus. apply bpow_le. lia.
  - replace (bpow radix2 (-60)) with (F2R (Float radix2 1 (-60))) by (unfold F2R; cbn [Fnum Fexp]; lra). apply double_float; [reflexivity|lia].
Qed.
