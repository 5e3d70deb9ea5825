(** Where the objects of a generated model come from, and where an element of
    the model for assign_points comes from. *)
From Coq Require Import List ZArith Reals Lia Lra Bool Sorted.
From Verif Require Import Base Num ParseModel ConfigModel SurfaceModel SurfaceSpec SurfaceProofs StrataModel StrataSpec StrataProofs StrataProofs2
  StrataProofs3 AssignModel BuildModel BuildProofs FaciesModel FaciesSpec FaciesProps TroughModel TroughSpec SheetModel ChannelModel ChannelProofs
  FullModel FullSpec FullProofs.
Import ListNotations.
Local Open Scope R_scope.

(** ** Positions in the model *)
Section Positions.
Context {D : Type}.
Variable ny : nat.
Variable type_id : nat -> nat -> Z.
Variable look : nat -> nat -> point R -> write R.
Variable probe : nat -> nat -> D -> point R -> D * option (write R).
Variable st : store R.
Notation to_aelem := (to_aelem ny type_id look probe st).
Notation to_aelems := (to_aelems ny type_id look probe st).
Notation to_model := (to_model ny type_id look probe st).

Lemma to_aelems_pos si : forall l num e, In e (to_aelems si num l) ->
  exists k e0, nth_error l k = Some e0 /\ e = to_aelem si (num + k) e0.
Proof.
  induction l as [|x l IH]; intros num e Hin; [destruct Hin|]. destruct Hin as [<-|Hin].
  - exists 0%nat, x. rewrite Nat.add_0_r. auto.
  - apply IH in Hin as (k & e0 & H1 & ->). exists (S k), e0. split; [assumption|]. f_equal. lia.
Qed.
Definition before (k : nat) (l : list (stratum R)) : nat := List.length (List.concat (map s_aes (firstn k l))).
Lemma to_model_nth : forall l si num k s, nth_error (to_model si num l) k = Some s ->
  exists s0, nth_error l k = Some s0 /\ s = mkAstrat (s_zmin s0) (to_aelems (si + k) (num + before k l) (s_aes s0)).
Proof.
  induction l as [|x l IH]; intros si num k s Hin; [destruct k; discriminate|]. destruct k as [|k]; cbn in Hin.
  - injection Hin as <-. exists x. rewrite !Nat.add_0_r. auto.
  - apply IH in Hin as (s0 & H1 & ->). exists s0. split; [assumption|]. unfold before. cbn [firstn map List.concat].
    rewrite app_length. f_equal. f_equal; lia.
Qed.
End Positions.

Lemma table_nth : forall (strata : list full_stratum) k fs j,
  Forall (fun fs => List.length (s_aes (fst fs)) = List.length (snd fs)) strata ->
  nth_error strata k = Some fs -> (j < List.length (snd fs))%nat ->
  nth_error (object_table strata) (before k (map fst strata) + j) = nth_error (snd fs) j.
Proof.
  unfold object_table, before. induction strata as [|x l IH]; intros k fs j Hall Hk Hj; [destruct k; discriminate|].
  inversion Hall as [|? ? Hx Hl]; subst. destruct k as [|k]; cbn in Hk |- *.
  - injection Hk as ->. now rewrite nth_error_app1.
  - rewrite app_length, Hx, nth_error_app2 by lia. rewrite <- (IH k fs j Hl Hk Hj). f_equal. lia.
Qed.
Lemma concat_nth {A} : forall (ll : list (list A)) n x, nth_error (List.concat ll) n = Some x ->
  exists k l j, nth_error ll k = Some l /\ nth_error l j = Some x.
Proof.
  induction ll as [|l ll IH]; intros n x H; [destruct n; discriminate|]. cbn in H.
  destruct (Nat.lt_ge_cases n (List.length l)).
  - rewrite nth_error_app1 in H by assumption. exists 0%nat, l, n. auto.
  - rewrite nth_error_app2 in H by assumption. apply IH in H as (k & l' & j & H1 & H2). exists (S k), l', j. auto.
Qed.
Lemma combine_nth_error {A B} : forall (l : list A) (m : list B) k a b,
  nth_error l k = Some a -> nth_error m k = Some b -> nth_error (combine l m) k = Some (a, b).
Proof. induction l as [|x l IH]; intros [|y m] [|k] a b; cbn; try discriminate; [congruence|apply IH]. Qed.

(** ** Objects *)
Lemma fold_add_objects (objs : list (R * R)) : forall l lo hi l' lo' hi',
  fold_left (fun a o => add_object (mkObject (fst o) (snd o) None) a) objs (l, lo, hi) = (l', lo', hi') ->
  l' = (l ++ map (fun o => mkObject (fst o) (snd o) None) objs)%list.
Proof.
  induction objs as [|o objs IH]; intros l lo hi l' lo' hi' E; cbn [fold_left map] in E |- *.
  - injection E as <- _ _. now rewrite app_nil_r.
  - unfold add_object at 2 in E. apply IH in E. rewrite E, <- app_assoc. reflexivity.
Qed.
Lemma new_ae_plain (g : grid R) fuel st ty kind sbg b t objs st' e :
  new_ae g fuel st ty kind sbg b t objs = Ok (st', e) ->
  ae_bg_facies e = (match bg_facies (t_bg ty) with Some f => f | None => s_facies sbg end) /\
  (t_geometry ty = GObjects -> ae_objects e = map (fun o => mkObject (fst o) (snd o) None) objs).
Proof.
  unfold new_ae. intros E. apply bind_Ok in E as (sb & Hsb & E). apply bind_Ok in E as (sp & Hsp & E).
  apply bind_Ok in E as ((st1 & (l & lo) & hi) & Hg & E). apply bind_Ok in E as (cp & Hcp & E). injection E as <- <-. cbn.
  split; [reflexivity|]. intros Eg. rewrite Eg in Hg. injection Hg as _ Hg. apply fold_add_objects in Hg. exact Hg.
Qed.
Lemma make_sheets_inv g st shp : forall l ds r, make_sheets g st shp l ds = Ok r ->
  List.length r = List.length l /\ Forall (fun sh => exists zc d, In d ds /\ new_sheet shp g zc d = Ok sh) r.
Proof.
  induction l as [|o l IH]; intros ds r H; cbn [make_sheets] in H; [injection H as <-; auto|].
  destruct ds as [|d ds]; [discriminate|]. destruct (ob_surfaces o) as [[b t]|]; [|discriminate].
  apply bind_Ok in H as (s & _ & H). apply bind_Ok in H as (sh & Hsh & H). apply bind_Ok in H as (r' & Hr & [= <-]).
  destruct (IH _ _ Hr) as [H1 H2]. split; [cbn; congruence|]. constructor.
  - exists (zmean s), d. split; [now left|assumption].
  - revert H2. apply Forall_impl. intros x (zc & d' & I1 & I2). exists zc, d'. split; [now right|assumption].
Qed.

Lemma levels_sorted dz zb : 0 < dz -> forall fuel z zs, channel_levels fuel z dz zb = Ok zs ->
  StronglySorted (fun a b => b <= a) zs /\ Forall (fun x => zb < x <= z) zs.
Proof.
  intros Hdz. induction fuel as [|fuel IH]; intros z zs E; cbn [channel_levels] in E.
  - destruct (Rltb zb z) eqn:El; [discriminate|]. injection E as <-. repeat constructor.
  - destruct (Rltb zb z) eqn:El; [|injection E as <-; repeat constructor].
    apply Rltb_true in El. apply bind_Ok in E as (r & Hr & [= <-]). destruct (IH _ _ Hr) as [H1 H2].
    split; constructor; auto.
    + revert H2. apply Forall_impl. intros; lra.
    + lra.
    + revert H2. apply Forall_impl. intros; lra.
Qed.
Lemma make_level_inv cp g z : forall ys ds r, make_level cp g z ys ds = Ok r ->
  Forall (fun c => exists line dr, new_channel (cc_type cp) line z (cc_width cp) (cc_depth cp) (g_dx g) (g_dy g) dr = Ok c) (fst r).
Proof.
  induction ys as [|y ys IH]; intros ds r H.
  - destruct ds; cbn in H; injection H as <-; cbn; auto.
  - destruct ds as [|d ds]; [discriminate|]. cbn [make_level] in H.
    apply bind_Ok in H as (line & _ & H). apply bind_Ok in H as (c & Hc & H). apply bind_Ok in H as (r' & Hr & [= <-]).
    cbn [fst]. constructor; [eauto|eapply IH; eauto].
Qed.
Lemma make_channels_inv cp g : forall zs ys ds cs, make_channels cp g zs ys ds = Ok cs ->
  StronglySorted (fun a b => b <= a) zs ->
  Forall (fun c => exists z line dr, In z zs /\ new_channel (cc_type cp) line z (cc_width cp) (cc_depth cp) (g_dx g) (g_dy g) dr = Ok c) cs /\
  StronglySorted (fun c c' => ch_zmax c' <= ch_zmax c) cs.
Proof.
  induction zs as [|z zs IH]; intros ys ds cs H Hs; cbn [make_channels] in H; [injection H as <-; split; constructor|].
  apply bind_Ok in H as ([c1 ys1] & E1 & H). apply bind_Ok in H as (rest & E2 & [= <-]). cbn [fst snd] in *.
  inversion Hs as [|? ? Hs' Hz]; subst. destruct (IH _ _ _ E2 Hs') as [H1 H2]. apply make_level_inv in E1. cbn [fst] in E1. split.
  - apply Forall_app. split.
    + revert E1. apply Forall_impl. intros c (line & dr & Hc). exists z, line, dr. split; [now left|assumption].
    + revert H1. apply Forall_impl. intros c (z' & line & dr & Hin & Hc). exists z', line, dr. split; [now right|assumption].
  - clear - E1 H1 H2 Hz. induction E1 as [|c l (line & dr & Hc) Hl IHl]; cbn; [assumption|]. constructor; [assumption|].
    destruct (new_channel_fields _ _ _ _ _ _ _ _ _ Hc) as (_ & _ & Ec & _). apply Forall_app. split.
    + revert Hl. apply Forall_impl. intros c' (line' & dr' & Hc'). destruct (new_channel_fields _ _ _ _ _ _ _ _ _ Hc') as (_ & _ & Ec' & _). lra.
    + revert H1. apply Forall_impl. intros c' (z' & line' & dr' & Hin & Hc'). destruct (new_channel_fields _ _ _ _ _ _ _ _ _ Hc') as (_ & _ & Ec' & _).
      rewrite Forall_forall in Hz. specialize (Hz _ Hin). lra.
Qed.
Lemma generate_channels_inv fuel cp g bz tz us ds cs : 0 < cc_agg cp -> generate_channels fuel cp g bz tz us ds = Ok cs ->
  Forall (fun c => exists z line dr, bz + cc_depth cp * cc_buffer cp < z /\
            new_channel (cc_type cp) line z (cc_width cp) (cc_depth cp) (g_dx g) (g_dy g) dr = Ok c) cs /\
  StronglySorted (fun c c' => ch_zmax c' <= ch_zmax c) cs.
Proof.
  intros Ha H. unfold generate_channels in H. destruct (cc_trend cp) as [t|]; [discriminate|]. cbn [first_zfactor bind] in H.
  rewrite Rmult_1_r in H. apply bind_Ok in H as (zs & Ez & H). destruct (levels_sorted _ _ Ha _ _ _ Ez) as [Hs Hz].
  destruct (make_channels_inv _ _ _ _ _ _ H Hs) as [H1 H2]. split; [|assumption].
  revert H1. apply Forall_impl. intros c (z & line & dr & Hin & Hc). exists z, line, dr. split; [|assumption].
  rewrite Forall_forall in Hz. now apply Hz.
Qed.

(** The origin of the objects of an element. *)
Definition comes_from (g : grid R) (fuel : nat) (st : store R) (ft : full_type) (od : object_draws) (e : ae R) (o : objects) : Prop :=
  match o with
  | OSheets l => exists lens tr shp, ft_kind ft = PSheets lens tr shp /\
      sheets_ok st e /\ List.length l = List.length (ae_objects e) /\
      Forall (fun sh => exists zc d, In d (od_sheets od) /\ new_sheet shp g zc d = Ok sh) l
  | OTroughs l => exists tp buffer agg mig te_xyz te zb sp, ft_kind ft = PTroughs tp buffer agg mig te_xyz /\
      match te_xyz with Some t => te = t | None => trough_positions g zb (zmean sp) (tp_depth tp) buffer agg mig (od_planes od) = Ok te end /\
      make_troughs tp g te (od_troughs od) = Ok l /\
      (forall k v, col st (ae_bottom e) k = Some v -> v <= zb) /\
      nth_error st (ae_top e) = Some sp /\
      ae_objects e = map (fun t => mkObject (tr_zmin t) (tr_zmax t) None) l
  | OChannels l => exists cp sb sp, ft_kind ft = PChannels cp /\
      generate_channels fuel cp g (zmean sb) (zmean sp) (od_starts od) (od_levels od) = Ok l /\
      nth_error st (ae_bottom e) = Some sb /\
      ae_objects e = map (fun c => mkObject (ch_zmin c) (ch_zmax c) None) l
  end.
Lemma keeps_nth st st' a s : keeps st st' -> nth_error st a = Some s -> exists s', nth_error st' a = Some s' /\ zmean s' = zmean s /\ vals s' = vals s.
Proof.
  intros K E. assert (Ha : (a < List.length st)%nat) by (apply nth_error_Some; congruence).
  destruct (K a Ha) as (x & x' & X1 & X2 & X3 & X4). rewrite E in X1. injection X1 as <-. eauto.
Qed.
Lemma made_comes_from g fuel st fp ft od e o : made_from g fuel st fp ft od e o ->
  ae_bg_facies e = (match bg_facies (ft_bg ft) with Some f => f | None => s_facies (fp_bg fp) end) /\ comes_from g fuel st ft od e o.
Proof.
  intros (Hk & st0 & st1 & E & W & K0 & K1 & B). apply full_ae_inv in E as (sb & sp & Hsb & Hsp & o0 & Ho & E & Hm).
  destruct (new_ae_plain _ _ _ _ _ _ _ _ _ _ _ E) as [Hbg Hob]. split; [exact Hbg|].
  assert (Lb : (ae_bottom e < List.length st0)%nat) by (apply nth_error_Some; congruence).
  assert (Lt : (ae_top e < List.length st0)%nat) by (apply nth_error_Some; congruence).
  assert (OK := new_ae_objects g fuel st0 _ _ _ _ _ _ _ _ W Lb Lt B E).
  unfold base_type in Hob. cbn [t_geometry] in Hob.
  destruct (ft_kind ft) as [lens tr shp|tp buffer agg mig te_xyz|cp] eqn:Ek; cbn [make_objects] in Ho.
  - destruct Hm as (l & Hl & ->). cbn [comes_from]. apply make_sheets_inv in Hl as [L1 L2]. exists lens, tr, shp. split; [assumption|]. split; [|auto].
    apply (objects_ok_keeps _ _ _ K1) in OK. destruct OK as [OK|OK]; [assumption|exfalso].
    (* there is at least one sheet, with surfaces *)
    unfold new_ae in E. apply bind_Ok in E as (sb' & Hsb' & E). apply bind_Ok in E as (sp' & Hsp' & E).
    apply bind_Ok in E as ((st2 & (l' & lo) & hi) & Hg & E). apply bind_Ok in E as (cp & Hcp & E).
    unfold base_type in Hg. cbn [t_geometry] in Hg. rewrite Ek in Hg.
    apply (sheet_loop_spec _ _ (List.length st0)) in Hg; try assumption; try lia; [|auto].
    destruct Hg as (_ & _ & _ & _ & _ & _ & new & El & Hne & Hch & _). cbn in El. subst l'.
    assert (Ee : ae_objects e = new).
    { match type of E with Ok ?u = Ok ?v => assert (Ev : v = u) by congruence end. apply (f_equal (fun x => ae_objects (snd x))) in Ev. exact Ev. }
    rewrite Ee in OK. destruct new as [|x new]; [congruence|]. inversion OK; subst. destruct Hch as (b & Hb & _). congruence.
  - subst o. apply bind_Ok in Ho as (te & Hte & Ho). apply bind_Ok in Ho as (l & Hl & [= <-]). cbn [comes_from].
    destruct (keeps_nth _ _ _ _ K0 Hsp) as (sp' & Esp & Ezm & _).
    exists tp, buffer, agg, mig, te_xyz, te, (zmax sb), sp'. split; [assumption|]. split.
    { rewrite Ezm. destruct te_xyz; [now injection Hte|assumption]. }
    split; [assumption|]. split; [|split; [assumption|]].
    + intros k v Hv. rewrite (same_col _ _ _ _ (K0 _ Lb)) in Hv. unfold col in Hv. rewrite Hsb in Hv.
      unfold wf in W. rewrite Forall_forall in W. destruct (W sb (nth_error_In _ _ Hsb)) as [_ Hbd]. unfold bounded in Hbd. rewrite Forall_forall in Hbd.
      apply Hbd. eapply nth_error_In; eauto.
    + rewrite (Hob eq_refl). cbn [extents]. rewrite map_map. reflexivity.
  - subst o. apply bind_Ok in Ho as (l & Hl & [= <-]). cbn [comes_from].
    destruct (keeps_nth _ _ _ _ K0 Hsb) as (sb' & Esb & Ezb & _). destruct (keeps_nth _ _ _ _ K0 Hsp) as (sp' & Esp & Ezm & _).
    exists cp, sb', sp'. split; [assumption|]. rewrite Ezb, Ezm. split; [assumption|]. split; [assumption|].
    rewrite (Hob eq_refl). cbn [extents]. rewrite map_map. reflexivity.
Qed.

(** ** Every entry of the table, and every element of the model *)
Section Origin.
Variables (g : grid R) (fuel : nat) (contacts : list (contact R)) (params : list full_params) (draws : list full_stratum_draws)
  (st : store R) (strata : list full_stratum).
Hypothesis E : full_generate g fuel contacts params draws = Ok (st, strata).
Hypothesis Hd : Forall (fsd_ok (columns g)) draws.

Definition drawn (od : object_draws) : Prop := exists sd d, In sd draws /\ In d (fsd_draws sd) /\ od = fd_objects d.
Definition origin (si : nat) (e : ae R) (o : objects) (fp : full_params) (ft : full_type) (od : object_draws) : Prop :=
  pyget params (-1 - Z.of_nat si) = Ok fp /\ nth_error (fp_types fp) (ae_kind e) = Some ft /\ drawn od /\
  ae_bg_facies e = (match bg_facies (ft_bg ft) with Some f => f | None => s_facies (fp_bg fp) end) /\
  comes_from g fuel st ft od e o.

Lemma strata_lengths : Forall (fun fs => List.length (s_aes (fst fs)) = List.length (snd fs)) strata.
Proof.
  apply Forall_forall. intros fs Hin. apply In_nth_error in Hin as [k Hk].
  destruct (full_elements _ _ _ _ _ _ _ E Hd k fs Hk) as (sd & fp & _ & _ & H & _). exact H.
Qed.
Lemma element_origin si fs k e : nth_error strata si = Some fs -> nth_error (s_aes (fst fs)) k = Some e ->
  exists o fp ft od, nth_error (snd fs) k = Some o /\ nth_error (object_table strata) (before si (map fst strata) + k) = Some o /\
    origin si e o fp ft od.
Proof.
  intros Hs Hk. destruct (full_elements _ _ _ _ _ _ _ E Hd si fs Hs) as (sd & fp & H1 & H2 & H3 & H4).
  destruct (nth_error (snd fs) k) as [o|] eqn:Eo.
  2:{ apply nth_error_None in Eo. assert (k < List.length (s_aes (fst fs)))%nat by (apply nth_error_Some; congruence). lia. }
  rewrite Forall_forall in H4. destruct (H4 (e, o)) as (ft & d & I1 & I2).
  { eapply nth_error_In. apply combine_nth_error; eassumption. }
  cbn [fst snd] in I2. assert (I3 := I2). destruct I3 as (Hty & _). apply made_comes_from in I2 as [I2 I3].
  exists o, fp, ft, (fd_objects d). split; [reflexivity|]. split.
  - rewrite <- Eo. apply table_nth; [apply strata_lengths|assumption|apply nth_error_Some; congruence].
  - split; [assumption|]. split; [assumption|]. split; [exists sd, d; auto|]. auto.
Qed.
Lemma table_origin num o : nth_error (object_table strata) num = Some o ->
  exists si fs k e fp ft od, nth_error strata si = Some fs /\ nth_error (s_aes (fst fs)) k = Some e /\ origin si e o fp ft od.
Proof.
  intros H. apply concat_nth in H as (si & l & k & H1 & H2). rewrite nth_error_map in H1.
  match type of H1 with option_map _ ?x = _ => destruct x as [fs|] eqn:Es end; [|discriminate]. cbn in H1. injection H1 as <-.
  change (nth_error strata si = Some fs) in Es.
  destruct (full_elements _ _ _ _ _ _ _ E Hd si fs Es) as (_ & _ & _ & _ & H3 & _).
  destruct (nth_error (s_aes (fst fs)) k) as [e|] eqn:Ee.
  2:{ apply nth_error_None in Ee. assert (k < List.length (snd fs))%nat by (apply nth_error_Some; congruence). lia. }
  destruct (element_origin si fs k e Es Ee) as (o' & fp & ft & od & I1 & _ & I2). rewrite H2 in I1. injection I1 as <-.
  exists si, fs, k, e, fp, ft, od. auto.
Qed.
End Origin.
