(** C122: azimuth and dip of every cell, from the options of the ini-file. *)
From Coq Require Import List ZArith Bool Ascii String Reals Lia Lra Sorted.
From Verif Require Import Base Num ParseModel ConfigModel ConfigSpec ConfigProofs ConfigProofs2 DeprecatedModel DeprecatedSpec DeprecatedProofs SurfaceModel SurfaceSpec SurfaceProofs
  StrataModel StrataProofs StrataProofs2 StrataProps AssignModel AssignProps2 BuildModel BuildProofs2 FaciesModel TroughModel TroughSpec TroughProofs TroughProps SheetModel ChannelModel ChannelSpec ChannelProofs ChannelProps ChannelProps2
  FullModel FullSpec FullProofs FullProofs2 FullProofs3 FullProofs4 FullProofs5 FullProofs6 FullProps LinkModel LinkSpec LinkProofs LinkProps SizeSpec SizeProofs SizeProps AngleSpec.
Import ListNotations.
Local Open Scope string_scope.
Local Open Scope R_scope.

Local Ltac steps H := repeat match type of H with
  | bind _ _ = Ok _ => let v := fresh "v" in let E := fresh "E" in apply bind_Ok in H as (v & E & H)
  end.

(** ** Objects *)
Lemma clamp_abs m d : Rabs (clamp m d) <= Rabs m.
Proof.
  unfold clamp. destruct (Rltb m d) eqn:E1; [lra|]. destruct (Rltb d (- m)) eqn:E2; [rewrite Rabs_Ropp; lra|].
  apply Rltb_false in E1. apply Rltb_false in E2. apply Rabs_le. split; [|pose proof (Rle_abs m); lra]. pose proof (Rle_abs m). lra.
Qed.
Lemma atan_quot_range y x : - (PI / 2) <= atan_quot y x <= PI / 2.
Proof.
  pose proof PI_RGT_0. unfold atan_quot. destruct (Req_EM_T x 0); [destruct (Rltb 0 y); lra|]. pose proof (atan_bound (y / x)). lra.
Qed.
Lemma bulb_angles_any t dx dy dz a d : bulb_angles t dx dy dz = (a, d) -> -90 <= a <= 90 /\ Rabs d <= Rabs (tr_dip t).
Proof.
  unfold bulb_angles. destruct (match bulb_normal _ _ _ _ with Some _ => _ | None => _ end) as [az dp] eqn:E. intros [= <- <-]. split; [|apply clamp_abs].
  destruct (bulb_normal t dx dy dz) as [[[nx ny] nz]|]; [|injection E as <- _; lra].
  destruct (Req_EM_T _ 0); injection E as <- _; [lra|]. pose proof (atan_quot_range (sgn nx * ny) (Rabs nx)) as H. pose proof PI_RGT_0 as HP.
  unfold Rdiv. split.
  - replace (-90) with (- (PI / 2) * / PI * 180) by (field; lra). apply Rmult_le_compat_r; [lra|]. apply Rmult_le_compat_r; [left; now apply Rinv_0_lt_compat|lra].
  - replace 90 with (PI / 2 * / PI * 180) by (field; lra). apply Rmult_le_compat_r; [lra|]. apply Rmult_le_compat_r; [left; now apply Rinv_0_lt_compat|lra].
Qed.
Lemma atan2_range y x : - PI <= atan2 y x <= PI.
Proof.
  pose proof PI_RGT_0 as HP. unfold atan2. pose proof (atan_bound (y / x)) as H.
  destruct (Rltb 0 x) eqn:E1; [lra|]. destruct (Rltb x 0) eqn:E2.
  - apply Rltb_true in E2. destruct (Rleb_spec 0 y).
    + assert (y / x <= 0). { unfold Rdiv. apply Ropp_le_cancel. rewrite Ropp_0, Ropp_mult_distr_r. apply Rmult_le_pos; [lra|]. left. rewrite <- Rinv_opp. apply Rinv_0_lt_compat. lra. }
      assert (atan (y / x) <= 0) by (destruct (Req_dec (y / x) 0) as [->|]; [rewrite atan_0; lra|left; rewrite <- atan_0; apply atan_increasing; lra]). lra.
    + assert (0 < y / x). { unfold Rdiv. replace (y * / x) with (- y * / - x) by (field; lra). apply Rmult_lt_0_compat; [lra|apply Rinv_0_lt_compat; lra]. }
      assert (0 < atan (y / x)) by (rewrite <- atan_0; now apply atan_increasing). lra.
  - destruct (Rltb 0 y); [lra|]. destruct (Rltb y 0); lra.
Qed.
Lemma channel_azimuth_range c x y : -180 <= channel_azimuth c x y <= 180.
Proof.
  unfold channel_azimuth. set (n := find_near x y (ch_line c)). pose proof (atan2_range (nr_vy n / nr_sum n) (nr_vx n / nr_sum n)) as H. pose proof PI_RGT_0 as HP.
  unfold Rdiv at 1 4. split.
  - replace (-180) with (- PI * / PI * 180) by (field; lra). apply Rmult_le_compat_r; [lra|]. apply Rmult_le_compat_r; [left; now apply Rinv_0_lt_compat|lra].
  - replace 180 with (PI * / PI * 180) at 2 by (field; lra). apply Rmult_le_compat_r; [lra|]. apply Rmult_le_compat_r; [left; now apply Rinv_0_lt_compat|lra].
Qed.

Section Link.
Context {F : Type} (fin : F -> option R) (is_nan : F -> bool).
Notation dic := (dict F).

(** ** The structure *)
Lemma has_fun (e : dic) k v w : has e k v -> has e k w -> v = w.
Proof. unfold has. congruence. Qed.
Lemma type_params_given (e p : dic) s : type_params e = Ok p -> has p "structure" (Leaf (AStr s)) ->
  has e "structure" (Leaf (AStr s)) \/ has e "structure" (Leaf (AStr (S_ "flat"))) /\ s = S_ "massive".
Proof.
  unfold type_params. intros H Hs. apply bind_Ok in H as (v & Hv & H). apply Ok_inj' in H. subst p. destruct (is_str v "flat") eqn:E; [right|now left].
  unfold has in Hs. rewrite dget_dset, eqb_S in Hs. cbn [String.eqb Ascii.eqb Bool.eqb] in Hs. apply lookup_Ok in Hv.
  split; [|congruence]. destruct v as [[z| | | |]|]; try discriminate. cbn in E. apply pystr_eqb_eq in E. now subst z.
Qed.
Definition kind_structure (k : kind_params) : pystr :=
  match k with PSheets _ _ shp => st_structure shp | PTroughs tp _ _ _ _ => tt_structure (tp_type tp) | PChannels cp => ct_structure (cc_type cp) end.
Definition given (e : dic) (s : pystr) : Prop :=
  has e "structure" (Leaf (AStr s)) \/ has e "structure" (Leaf (AStr (S_ "flat"))) /\ s = S_ "massive".
Lemma link_type_structure id ec ft : link_type fin is_nan id ec = Ok ft -> given (fst ec) (kind_structure (ft_kind ft)).
Proof.
  unfold link_type. intros H. apply bind_Ok in H as (p & Hp & H). apply bind_Ok in H as (k & Hk & H). apply bind_Ok in H as (cm' & Hcm & H). apply bind_Ok in H as (bg & Hbg & H). apply bind_Ok in H as (kp & Hkp & H).
  apply Ok_inj' in H. subst ft. cbn [ft_kind]. apply (type_params_given _ p); [assumption|].
  destruct k; [unfold link_troughs in Hkp|unfold link_channels in Hkp|unfold link_sheets in Hkp]; steps Hkp; apply Ok_inj' in Hkp; subst kp; cbn [kind_structure tp_type tt_structure cc_type ct_structure st_structure];
    match goal with E : get structure_name _ _ = Ok _ |- _ => now apply get_name in E end.
Qed.

(** What the structure of an object says about the option. *)
Definition trough_structured (e : dic) (t : trough) : Prop :=
  (tr_structure t = 0%Z \/ tr_structure t = 1%Z) /\ structure_in e ["massive"; "flat"; "dip"; "random"] \/
  (tr_structure t = 2%Z \/ tr_structure t = 3%Z) /\ structure_in e ["bulb"; "bulb_sets"; "random"].
Definition channel_structured (e : dic) (c : channel) : Prop :=
  ch_azim c = 0 /\ if ch_dipsets c then structure_in e ["dip"] else ~ structure_in e ["dip"].

Lemma new_trough_structured (e : dic) tt x y z a b c alpha d t : given e (tt_structure tt) -> new_trough tt x y z a b c alpha d = Ok t -> trough_structured e t.
Proof.
  intros G H. apply new_trough_inv in H as (_ & _ & _ & _ & _ & _ & _ & _ & _ & _ & _ & _ & _ & _ & H & _).
  unfold structure_code in H. unfold trough_structured, structure_in.
  repeat match type of H with (if pystr_eqb ?s ?n then _ else _) = _ => destruct (pystr_eqb s n) eqn:?E end; try discriminate H;
    match goal with E : pystr_eqb _ _ = true |- _ => apply pystr_eqb_eq in E; rewrite E in G end; apply Ok_inj' in H; rewrite <- H;
    (destruct G as [G|[G G']]; [|try discriminate G']).
  - left. split; [auto|]. exists "massive". split; [cbn; tauto|assumption].
  - left. split; [auto|]. exists "flat". split; [cbn; tauto|assumption].
  - left. split; [auto|]. exists "dip". split; [cbn; tauto|assumption].
  - right. split; [auto|]. exists "bulb". split; [cbn; tauto|assumption].
  - right. split; [auto|]. exists "bulb_sets". split; [cbn; tauto|assumption].
  - pose proof (Nat.mod_upper_bound (td_structure d) 4 ltac:(lia)). destruct (Nat.le_gt_cases (td_structure d mod 4) 1).
    + left. split; [lia|]. exists "random". split; [cbn; tauto|assumption].
    + right. split; [lia|]. exists "random". split; [cbn; tauto|assumption].
Qed.
Lemma new_channel_structured (e : dic) ct line z w dp dx dy dr c : given e (ct_structure ct) -> new_channel ct line z w dp dx dy dr = Ok c -> channel_structured e c.
Proof.
  intros G H. unfold new_channel in H. destruct (pystr_eqb _ _) eqn:E; apply bind_Ok in H as (f & _ & H); apply Ok_inj' in H; subst c; (split; [reflexivity|]); cbn [ch_dipsets].
  - apply pystr_eqb_eq in E. rewrite E in G. exists "dip". split; [now left|]. destruct G as [G|[G G']]; [assumption|discriminate].
  - intros (s & [<-|[]] & Hs). assert (ct_structure ct <> S_ "dip") by (intros K; apply pystr_eqb_eq in K; congruence).
    destruct G as [G|[G G']]; pose proof (has_fun _ _ _ _ G Hs) as K; [congruence|discriminate K].
Qed.

Definition objects_structured (e : dic) (o : objects) : Prop :=
  match o with OSheets _ => True | OTroughs l => Forall (trough_structured e) l | OChannels l => Forall (channel_structured e) l end.
Lemma element_structured (e : dic) g fuel st ft kind sbg b t od st' ae o : given e (kind_structure (ft_kind ft)) ->
  full_ae g fuel st ft kind sbg b t od = Ok (st', (ae, o)) -> objects_structured e o.
Proof.
  intros G H. apply full_ae_inv in H as (sb & sp & _ & _ & o0 & Ho & _ & H). destruct (ft_kind ft) as [lens tr shp|tp buffer agg mig te0|cp]; cbn [kind_structure] in G.
  - destruct H as (l & _ & ->). exact I.
  - subst o0. cbn in Ho. apply bind_Ok in Ho as (te & Hte & Ho). apply bind_Ok in Ho as (l & Hl & Ho). injection Ho as <-.
    apply Forall_forall. intros s Hs. destruct (make_troughs_new _ _ s _ _ _ Hl Hs) as (x1 & y1 & z1 & a & b0 & c & al & dd & Hn). eapply new_trough_structured; eauto.
  - subst o0. cbn in Ho. apply bind_Ok in Ho as (l & Hl & Ho). injection Ho as <-.
    apply Forall_forall. intros s Hs. destruct (generate_channels_new _ _ _ _ _ _ _ s _ Hl Hs) as (z1 & line & dr & Hn). eapply new_channel_structured; eauto.
Qed.

(** ** What objects write *)
Lemma sheet_writes (e : dic) wild table num oi p l sh : nth_error table num = Some (OSheets l) -> nth_error l oi = Some sh -> sheet_as_written fin e sh ->
  exists a d, w_azim (look_of wild table num oi p) = Some a /\ w_dip (look_of wild table num oi p) = Some d /\ sheet_angles fin e a d.
Proof.
  intros Ht Hl [A D _]. exists (sh_azim sh), (sh_dip sh). unfold look_of. rewrite Ht, Hl. unfold sheet_write.
  destruct (sh_dipsets sh); [destruct (pyget _ _)|]; cbn; (split; [reflexivity|]); (split; [reflexivity|]); split; assumption.
Qed.
Lemma trough_writes (m e : dic) dm wild num oi t d p d' w : trough_as_written fin m e t -> trough_structured e t -> tr_zmin t <= p_z p ->
  trough_check dm wild num oi t d p = (d', Some w) ->
  exists a dp, w_azim w = Some a /\ w_dip w = Some dp /\ trough_angles fin e (w_facies w) a dp.
Proof.
  intros [_ (_ & Hz) _ (alpha & A1 & _ & _ & A2) D (L1 & L2) _ _] S Hp. unfold trough_check, trough_assign.
  destruct (offset dm t p) as [[dx dy] dz]. destruct (claims t dx dy dz); [|discriminate].
  unfold trough_write. destruct (Rltb _ _) eqn:El.
  { cbn. intros [= _ <-]. exists 0, 0. cbn. split; [reflexivity|]. split; [reflexivity|]. left. split; [split; [assumption|]|auto].
    exists (tr_lag t). split; [assumption|]. apply Rltb_true in El. lra. }
  destruct (Z.eqb_spec (tr_structure t) 0) as [E0|E0]; [|destruct (Z.eqb_spec (tr_structure t) 1) as [E1|E1]].
  - cbn. intros [= _ <-]. exists (tr_azim t), (tr_dip t). cbn. split; [reflexivity|]. split; [reflexivity|]. right. left.
    destruct S as [(_ & S)|([S|S] & _)]; [|lia|lia]. split; [assumption|]. split; [assumption|]. exists alpha. auto.
  - assert (K : forall f, exists a dp, Some (tr_azim t) = Some a /\ Some (tr_dip t) = Some dp /\ trough_angles fin e f a dp).
    { intros f. exists (tr_azim t), (tr_dip t). split; [reflexivity|]. split; [reflexivity|]. right. left.
      destruct S as [(_ & S)|([S|S] & _)]; [|lia|lia]. split; [assumption|]. split; [assumption|]. exists alpha. auto. }
    destruct (layer_facies _ _); cbn; intros [= _ <-]; apply K.
  - destruct (bulb_angles t dx dy dz) as [a dp] eqn:Eb. apply bulb_angles_any in Eb as [B1 B2].
    assert (K : forall f, exists a' dp', Some a = Some a' /\ Some dp = Some dp' /\ trough_angles fin e f a' dp').
    { intros f. exists a, dp. split; [reflexivity|]. split; [reflexivity|]. right. right.
      destruct S as [([S|S] & _)|(_ & S)]; [lia|lia|]. split; [assumption|]. split; [assumption|]. exists (tr_dip t). auto. }
    destruct (Z.eqb_spec (tr_structure t) 2); [|destruct (layer_facies _ _)]; cbn; intros [= _ <-]; apply K.
Qed.
Lemma channel_writes (e : dic) wild num oi c p : channel_as_written fin e c -> channel_structured e c -> ch_zmin c <= p_z p ->
  let w := channel_value c wild num oi p in exists a dp, w_azim w = Some a /\ w_dip w = Some dp /\ channel_angles fin e (w_facies w) a dp.
Proof.
  intros [_ (_ & Hz) D (L1 & L2) _] (Ea & S) Hp. cbv zeta. unfold channel_value, channel_write. destruct (Rltb _ _) eqn:El.
  { exists 0, 0. cbn. split; [reflexivity|]. split; [reflexivity|]. left. split; [split; [assumption|]|auto].
    exists (ch_lag c). split; [assumption|]. apply Rltb_true in El. lra. }
  destruct (ch_dipsets c).
  - exists (channel_azimuth c (p_x p) (p_y p)), (ch_dip c).
    destruct (channel_facies _ _); cbn; (split; [reflexivity|]); (split; [reflexivity|]); right; (split; [assumption|]); left; (split; [assumption|apply channel_azimuth_range]).
  - exists (ch_azim c), (ch_dip c). cbn. split; [reflexivity|]. split; [reflexivity|]. right. split; [assumption|]. right. auto.
Qed.

(** C122: azimuth and dip of every cell that was assigned are those an object of
    its element may have, or those of the background. *)
Theorem C122_angles : forall (cf : config F) lk fuel draws st strata,
  link fin is_nan cf = Ok lk -> Forall (fsd_ok (columns (lk_grid lk))) draws -> generate lk fuel draws = Ok (st, strata) ->
  (forall sd d, In sd draws -> In d (fsd_draws sd) -> unit_draws (fd_objects d)) ->
  forall wild xi yi zi x y z, nth_error (g_x (lk_grid lk)) xi = Some x -> nth_error (g_y (lk_grid lk)) yi = Some y -> nth_error (g_z (lk_grid lk)) zi = Some z ->
  exists v, arrays lk wild st strata xi yi zi = Some v /\
  (v = mkCell 0 0 (-1) (-1) (-1) (Some 0) (Some 0) \/
   exists si (fs : full_stratum) (e : ae R) sec, c_strata v = Z.of_nat si /\ nth_error strata si = Some fs /\ In e (s_aes (fst fs)) /\ section_of cf si e sec /\
     ((exists a d, c_azim v = Some a /\ c_dip v = Some d /\
        (geometry_is sec "sheet" /\ sheet_angles fin sec a d \/
         geometry_is sec "trough" /\ trough_angles fin sec (c_facies v) a d \/
         geometry_is sec "channel" /\ channel_angles fin sec (c_facies v) a d)) \/
      ~ geometry_is sec "sheet" /\ background_angle fin is_nan cf si sec "bg_azim" (c_azim v) /\ background_angle fin is_nan cf si sec "bg_dip" (c_dip v))).
Proof.
  intros cf lk fuel draws st strata Hlk Hd Hg HU wild xi yi zi x y z Ex Ey Ez.
  set (dm := lk_domain lk). set (cg := mkCGrid (List.length (g_x (lk_grid lk))) (List.length (g_y (lk_grid lk))) (g_dx (lk_grid lk))).
  destruct (C32_arrays marks (to_model (List.length (g_y (lk_grid lk))) (type_id_of (lk_params lk)) (look_of wild (object_table strata)) (probe_of dm cg wild (object_table strata)) st 0 0 (map fst strata))
    (g_x (lk_grid lk)) (g_y (lk_grid lk)) (g_z (lk_grid lk)) unmarked xi yi zi x y z Ex Ey Ez) as (v & Ev & Hv).
  exists v. split; [exact Ev|]. destruct Hv as [Hv|(Hf & sn & s & e & V1 & V2 & V3 & V4 & V5 & V6)]; [now left|right].
  apply to_model_nth in V2 as (s0 & Hs0 & ->). cbn [t_aes Nat.add] in V3.
  apply to_aelems_pos in V3 as (k & e0 & He0 & ->). rewrite nth_error_map in Hs0.
  match type of Hs0 with option_map _ ?x = _ => destruct x as [fs|] eqn:Efs end; [|discriminate]. cbn in Hs0. injection Hs0 as <-.
  change (nth_error strata sn = Some fs) in Efs.
  destruct (element_origin _ _ _ _ _ _ _ Hg Hd sn fs k e0 Efs He0) as (ob & fp & ft & od & Eo & Et & Hor).
  destruct (element_source fin is_nan _ _ _ _ _ _ Hlk Hd Hg _ _ _ _ _ Efs He0 Eo) as (sd & dd & n & sec & cm & t & names & ids & id & fp' & ft' & S1 & S2 & S3 & S4 & S5 & S6 & S7 & S8 & _ & st0 & st1 & S9 & _).
  destruct (C113_grid fin is_nan _ _ Hlk) as (_ & _ & G1 & _ & _ & _ & _ & _ & G2 & _).
  pose proof (element_written fin (cf_model cf) sec _ _ _ _ _ _ _ _ _ _ _ _ G1 G2 (link_type_written fin is_nan _ _ _ S8) (HU _ _ S1 S2) S9) as W.
  pose proof (element_structured sec _ _ _ _ _ _ _ _ _ _ _ _ (link_type_structure _ _ _ S8) S9) as S.
  exists sn, fs, e0, sec. split; [assumption|]. split; [assumption|]. split; [eapply nth_error_In; eauto|]. split; [exists n, cm, t, names; auto|].
  destruct Hor as (_ & _ & _ & _ & Hc).
  set (num := (before sn (map fst strata) + k)%nat) in *.
  destruct V6 as [(o & d1 & d2 & w & Ho & Hz & Hck & Ew & Ea & Edp & _)|(Hsh & _ & _ & Ea & Edp)].
  - left. rewrite Ew, Ea, Edp. cbn [to_aelem e_objs] in Ho. apply In_nth_error in Ho as [j Hj]. apply to_objs_nth in Hj as (o0 & cpy & Hl & _ & ->). cbn [o_check o_zmin o_zmax Nat.add] in Hck, Hz.
    destruct ob as [l|l|l]; cbn in Hc.
    + destruct Hc as (lens & tr & shp & Ek & Hok & Hlen & _).
      assert (exists sh, nth_error l j = Some sh) as [sh Esh].
      { destruct (nth_error l j) eqn:En; [eauto|]. apply nth_error_None in En. assert (j < List.length (ae_objects e0))%nat by (apply nth_error_Some; congruence). lia. }
      destruct (ob_surfaces o0) as [q|].
      2:{ unfold probe_of in Hck. rewrite Et in Hck. discriminate. }
      unfold sheet_probe in Hck. destruct (_ || _); [discriminate|].
      match type of Hck with (_, Some ?u) = (_, Some ?v) => assert (v = u) by congruence end. subst w. destruct W as [W1 W2]. rewrite Forall_forall in W2.
      destruct (sheet_writes sec wild _ num j (mkPoint x y z xi yi) l sh Et Esh (W2 _ (nth_error_In _ _ Esh))) as (a & d & A1 & A2 & A3). exists a, d. auto.
    + destruct Hc as (tp & buffer & agg & mig & te_xyz & te & zb & sp & Ek & _ & Hts & _ & _ & Eob).
      rewrite Eob, nth_error_map in Hl. destruct (nth_error l j) as [t0|] eqn:Etj; [|discriminate]. cbn in Hl. injection Hl as <-. cbn [ob_surfaces ob_zmin] in Hck, Hz.
      unfold probe_of in Hck. rewrite Et, Etj in Hck. destruct W as [W1 W2]. cbn in S. rewrite Forall_forall in W2, S. apply nth_error_In in Etj.
      destruct (trough_writes (cf_model cf) sec _ _ _ _ _ _ (mkPoint x y z xi yi) _ _ (W2 _ Etj) (S _ Etj) (proj1 Hz) Hck) as (a & d & A1 & A2 & A3). exists a, d. auto 8.
    + destruct Hc as (cp & sb & sp & Ek & Hcs & _ & Eob).
      rewrite Eob, nth_error_map in Hl. destruct (nth_error l j) as [t0|] eqn:Etj; [|discriminate]. cbn in Hl. injection Hl as <-. cbn [ob_surfaces ob_zmin] in Hck, Hz.
      unfold probe_of in Hck. rewrite Et, Etj in Hck. apply channel_check_value in Hck. subst w. destruct W as [W1 W2]. cbn in S. rewrite Forall_forall in W2, S. apply nth_error_In in Etj.
      destruct (channel_writes sec wild num j _ (mkPoint x y z xi yi) (W2 _ Etj) (S _ Etj) (proj1 Hz)) as (a & d & A1 & A2 & A3). exists a, d. auto 8.
  - right. destruct (background_source fin is_nan _ _ _ _ _ _ _ _ _ _ _ _ _ _ _ _ _ _ S7 S8 S9) as (i & fa & fd & _ & B2 & B3 & _ & B4 & B5).
    rewrite Ea, Edp. cbn [to_aelem e_bg_azim e_bg_dip]. split; [|split; [exists fa; auto|exists fd; auto]].
    intros Gm. cbn [to_aelem e_sheet] in Hsh. destruct ob as [l|l|l]; cbn in Hc.
    + destruct Hc as (_ & _ & _ & _ & Hok & _). rewrite (is_sheet_ok st e0 Hok) in Hsh. discriminate.
    + destruct W as [W1 _]. unfold geometry_is in *. pose proof (has_fun _ _ _ _ W1 Gm). discriminate.
    + destruct W as [W1 _]. unfold geometry_is in *. pose proof (has_fun _ _ _ _ W1 Gm). discriminate.
Qed.
End Link.
Print Assumptions C122_angles.

(** The documentation says that azimuths in extruded parabolas are the direction
    of the channel.  In a massive channel that runs along the y-axis the azimuth is
    0 instead of 90. *)
Definition north_line : list cpoint := [mkCP 0 0 0 1; mkCP 0 10 0 1].
Theorem C122_massive_channels_refuted : exists ct dr c w,
  new_channel ct north_line 10 4 2 1 1 dr = Ok c /\ ct_lag_height ct = 0 /\ (forall q, In q north_line -> cp_vx q = 0 /\ cp_vy q = 1) /\
  snd (channel_assign (mkCGrid 3 3 1) 0 c 0 unmarked (mkPoint 0 0 9 0 0)) = Ok (Some w) /\ w_azim w = Some 0.
Proof.
  destruct (new_channel (ex_ct (S_ "massive") 0) north_line 10 4 2 1 1 ex_cd) as [c|] eqn:Hc; [|discriminate].
  exists (ex_ct (S_ "massive") 0), ex_cd, c. pose proof (C47_parabola _ _ _ _ _ _ _ _ _ (mkCGrid 3 3 1) 0%nat 0%Z unmarked (mkPoint 0 0 9 0 0) Hc ex_width ltac:(lra) eq_refl) as [_ H].
  assert (Hin : in_parabola north_line 4 2 10 0 0 9).
  { split; [lra|]. exists (mkCP 0 0 0 1). split; [now left|]. cbn [cp_x cp_y]. split; [|lra]. intros q [<-|[<-|[]]]; cbn [cp_x cp_y]; nra. }
  specialize (H Hin). cbn in Hc. apply Ok_inj' in Hc. subst c. revert H. unfold channel_assign. cbn [p_x p_y p_z p_xi p_yi].
  destruct (Rltb 0 _); [cbn; congruence|]. unfold unmarked at 1 3. destruct (above_parabola _ _ _); [|cbn; congruence]. intros _.
  eexists. split; [reflexivity|]. split; [reflexivity|]. split; [intros q [<-|[<-|[]]]; auto|]. cbn [snd]. unfold channel_write. cbn [ch_ztop ch_depth ch_lag p_z ch_dipsets].
  destruct (Rltb 9 _) eqn:E; [apply Rltb_true in E; lra|]. split; reflexivity.
Qed.
Print Assumptions C122_massive_channels_refuted.
