(** C141: cells inside several troughs. *)
From Coq Require Import List ZArith Bool Ascii String Reals Lia Lra Sorted Classical.
From Verif Require Import Base Num ParseModel ConfigModel ConfigSpec ConfigProofs ConfigProofs2 DeprecatedModel DeprecatedSpec DeprecatedProofs SurfaceModel SurfaceSpec SurfaceProofs
  StrataModel StrataSpec StrataProofs StrataProofs2 StrataProps AssignModel AssignSpec AssignProofs AssignProofs2 AssignProps AssignProps2 BuildModel BuildSpec BuildProofs BuildProofs2 FaciesModel TroughModel TroughSpec TroughProofs TroughProps TroughBuildSpec TroughBuild SheetModel ChannelModel ChannelSpec ChannelProofs ChannelProps ChannelProps2
  FullModel FullSpec FullProofs FullProofs2 FullProofs3 FullProofs4 FullProofs5 FullProofs6 FullProps LinkModel LinkSpec LinkProofs LinkProps SizeSpec SizeProofs SizeProps PlaceSpec PlaceProps OverlapSpec OverlapProps.
Import ListNotations.
Local Open Scope R_scope.

Lemma clamp_abs m d : Rabs (clamp m d) <= Rabs m.
Proof.
  unfold clamp. destruct (Rltb_spec m d); [lra|]. destruct (Rltb_spec d (- m)).
  - rewrite Rabs_Ropp. lra.
  - apply Rle_trans with (1 := Rle_refl _). unfold Rabs. destruct (Rcase_abs d), (Rcase_abs m); lra.
Qed.
Lemma layer_facies_in t n f : layer_facies t n = Ok f -> In f (tr_array t).
Proof.
  unfold layer_facies. destruct (n <? 0)%Z; [discriminate|]. destruct (nth_error _ _) as [f'|] eqn:E; [|discriminate].
  intros H. assert (f' = f) by congruence. subst. eapply nth_error_In; eauto.
Qed.

Lemma write_shows tt x y z a b c alpha d t p dx dy dz w s : new_trough tt x y z a b c alpha d = Ok t ->
  trough_write t 0 (p_z p) dx dy dz = Ok w ->
  shows_trough t p (cell_of (Some (mkIds (w_facies w) 0 0 0 (w_azim w) (w_dip w), s))).
Proof.
  intros Hn H. unfold shows_trough. cbn [cell_of c_facies c_azim c_dip i_facies i_azim i_dip].
  assert (Hs : (tr_structure t = 0 \/ tr_structure t = 1 \/ tr_structure t = 2 \/ tr_structure t = 3)%Z).
  { apply new_trough_built in Hn as B. apply (b_str _ _ _ _ _ _ _ _ _ _ B). }
  unfold trough_write in H. destruct (Rltb_spec (p_z p) (tr_z t - tr_c t + tr_lag t)) as [L|L].
  - left. apply Ok_inj' in H. subst w. cbn. auto.
  - right. split; [assumption|]. destruct Hs as [Hs|[Hs|[Hs|Hs]]]; rewrite Hs in H; cbn [Z.eqb Pos.eqb] in H.
    + left. apply Ok_inj' in H. subst w. cbn. auto.
    + right. left. apply bind_Ok in H as (f & Hf & H). apply Ok_inj' in H. subst w. apply layer_facies_in in Hf. cbn. auto.
    + right. right. left. destruct (bulb_angles t dx dy dz) as [az dp] eqn:E. apply Ok_inj' in H. subst w. cbn.
      split; [assumption|]. split; [reflexivity|]. exists dp. split; [reflexivity|]. unfold bulb_angles in E.
      match type of E with (let '(_, _) := ?u in _) = _ => destruct u as [u1 u2] end. injection E as <- <-. apply clamp_abs.
    + right. right. right. destruct (bulb_angles t dx dy dz) as [az dp] eqn:E. apply bind_Ok in H as (f & Hf & H). apply Ok_inj' in H. subst w. apply layer_facies_in in Hf. cbn.
      split; [assumption|]. split; [assumption|]. exists dp. split; [reflexivity|]. unfold bulb_angles in E.
      match type of E with (let '(_, _) := ?u in _) = _ => destruct u as [u1 u2] end. injection E as <- <-. apply clamp_abs.
Qed.

Lemma classic_half tt x y z a b c alpha d t : new_trough tt x y z a b c alpha d = Ok t -> 0 < a -> 0 < b -> 0 < c -> forall (lx ly : R) (ha : Z) p,
  half_ellipsoid x y z a b c alpha (p_x p) (p_y p) (p_z p) \/ ~ half_ellipsoid x y z a b c alpha (p_x p) (p_y p) (p_z p).
Proof.
  intros Ht Ha Hb Hc lx ly ha p. apply new_trough_built in Ht as B.
  rewrite <- (l2_half _ _ _ _ _ _ _ _ _ _ B Ha Hb Hc (p_x p - x) (p_y p - y) (p_z p - z) _ _ _ eq_refl eq_refl eq_refl).
  rewrite <- (claims_iff _ _ _ _ _ _ _ _ _ _ B Ha Hb Hc). destruct (claims _ _ _ _); [left|right]; congruence.
Qed.

Lemma first_trough_shown :
  forall x0 y0 z0 dx dy dz lx ly lz g fuel contacts params draws st strata dm wild,
  grid_init x0 y0 z0 dx dy dz lx ly lz = Ok g -> 0 < dx -> 0 < dy -> 0 < dz ->
  Forall (fsd_ok (columns g)) draws -> params <> [] ->
  full_generate g fuel contacts params draws = Ok (st, strata) ->
  sensible g params draws st strata ->
  (forall num oi p, wild num oi p <> (-1)%Z) ->
  ((forall fp ft, In fp params -> In ft (fp_types fp) -> ~ is_channels ft) \/ dy <= 1) ->
  Forall (fun fs : full_stratum => s_aes (fst fs) <> []) strata ->
  Forall (fun z => z <= lz) (g_z g) ->
  (forall k a z, In z (g_z g) -> col st a k <> Some z) ->
  let cg := mkCGrid (List.length (g_x g)) (List.length (g_y g)) dx in
  forall xi yi zi x y z, nth_error (g_x g) xi = Some x -> nth_error (g_y g) yi = Some y -> nth_error (g_z g) zi = Some z ->
  forall si fs ei e l k t, nth_error strata si = Some fs -> nth_error (s_aes (fst fs)) ei = Some e -> nth_error (snd fs) ei = Some (OTroughs l) ->
  forall inside : trough -> Prop,
  (forall t' tt x1 y1 z1 al d, In t' l -> new_trough tt x1 y1 z1 (tr_a t') (tr_b t') (tr_c t') al d = Ok t' -> 0 < tr_a t' -> 0 < tr_b t' -> 0 < tr_c t' ->
     (trough_assign dm t' 0 (mkPoint x y z xi yi) = Ok None <-> ~ inside t')) ->
  nth_error l k = Some t -> inside t -> (forall j t', (j < k)%nat -> nth_error l j = Some t' -> ~ inside t') ->
  exists v, full_arrays dm cg wild params st strata (g_x g) (g_y g) (g_z g) xi yi zi = Some v /\
    ((0 <= c_strata v < Z.of_nat si)%Z \/
     c_strata v = Z.of_nat si /\
     let num := Z.of_nat (List.length (List.concat (map (fun fs : full_stratum => s_aes (fst fs)) (firstn si strata))) + ei) in
     ((0 <= c_ae v < num)%Z \/ c_ae v = num /\ shows_trough t (mkPoint x y z xi yi) v /\
       exists w, trough_assign dm t 0 (mkPoint x y z xi yi) = Ok (Some w) /\ c_facies v = w_facies w /\ c_azim v = w_azim w /\ c_dip v = w_dip w)).
Proof.
  intros x0 y0 z0 dx dy dz lx ly lz g fuel contacts params draws st strata dm wild G Hdx Hdy Hdz Hd Hne E HS Hwild Hch Haes Hz Hav cg
    xi yi zi x y z Ex Ey Ez si fs ei e l k t Hs He Ho inside Hio Hk Hpar Hbefore.
  destruct (C34_generated_partial _ _ _ _ _ _ _ _ _ _ _ _ _ _ _ _ dm wild G Hdx Hdy Hdz Hd Hne E HS Hwild Hch Haes Hz Hav xi yi zi x y z Ex Ey Ez) as (i & s & Hex & Har).
  fold cg in Har, Hex. exists (cell_of (Some (i, s))). split; [exact Har|].
  set (m := to_model _ _ _ _ _ _ _ _) in Hex. set (P := mkPoint x y z xi yi) in *.
  set (hit := fun (o : aobj R marks) p => snd (o_check o unmarked p)) in *.
  unfold exhaustive in Hex. destruct (search hit m P) as [[s' [a [j i']]]|] eqn:Hse; [|discriminate].
  assert (i' = i /\ s' = s) as [-> ->] by (split; congruence). clear Hex Har.
  destruct HS as (lo & hi & Hlo & Hhi & Hdr & Hty & Hreach).
  (* the element in the model *)
  set (num := (before si (map fst strata) + ei)%nat).
  set (ea := to_aelem (List.length (g_y g)) (type_id_of params) (look_of wild (object_table strata)) (probe_of dm cg wild (object_table strata)) st si num e).
  assert (Hms : nth_error m si = Some (mkAstrat (s_zmin (fst fs)) (to_aelems (List.length (g_y g)) (type_id_of params) (look_of wild (object_table strata)) (probe_of dm cg wild (object_table strata)) st si (before si (map fst strata)) (s_aes (fst fs))))).
  { unfold m. rewrite (to_model_at _ _ _ _ _ _ 0 0 si (fst fs)) by (now apply map_nth_error). reflexivity. }
  assert (Hme : nth_error (to_aelems (List.length (g_y g)) (type_id_of params) (look_of wild (object_table strata)) (probe_of dm cg wild (object_table strata)) st si (before si (map fst strata)) (s_aes (fst fs))) ei = Some ea).
  { now rewrite (to_aelems_at _ _ _ _ _ _ _ _ _ _ He). }
  destruct (element_origin _ _ _ _ _ _ _ E Hd si fs ei e Hs He) as (o' & fp & ft & od & Ho' & Ht & Hor). fold num in Ht. rewrite Ho in Ho'. injection Ho' as <-.
  assert (Hae : ae_ok st e).
  { destruct (wf_strata _ _ _ _ _ _ _ E Hd) as [_ Hok]. rewrite Forall_forall in Hok. destruct (Hok (fst fs)) as (_ & _ & _ & _ & Hall & _).
    - apply in_map. eapply nth_error_In; eauto.
    - rewrite Forall_forall in Hall. apply Hall. eapply nth_error_In; eauto. }
  assert (Hcp : List.length (ae_objects e) = List.length (ae_copies e)).
  { unfold ae_ok in Hae. decompose [and] Hae. match goal with H : Forall2 _ (ae_objects e) (ae_copies e) |- _ => clear - H; induction H; cbn; congruence end. }
  (* what the troughs do with the cell *)
  destruct (origin_in _ _ _ _ _ _ _ _ _ _ _ Hor) as [I1 I2]. assert (Hfit := proj1 (Hty fp ft I1 I2)).
  destruct Hor as (_ & _ & (sd & d0 & D1 & D2 & ->) & _ & Hc). specialize (Hdr sd d0 D1 D2).
  destruct Hc as (tp & buffer & agg & mig & te_xyz & te & zb & sp & Ek & Hte & Hts & Hzb & Hsp & Eob).
  unfold type_fits in Hfit. rewrite Ek in Hfit.
  assert (Hset : settings_ok (tp_type tp)) by apply Hfit.
  assert (Hxy : (xi * List.length (g_y g) + yi < columns g)%nat).
  { unfold columns. assert (xi < List.length (g_x g))%nat by (apply nth_error_Some; congruence). assert (yi < List.length (g_y g))%nat by (apply nth_error_Some; congruence). nia. }
  destruct (wf_strata _ _ _ _ _ _ _ E Hd) as [W _]. assert (Lb : (ae_bottom e < List.length st)%nat) by apply Hae.
  destruct (surf_col _ g st W xi yi Hxy (ae_bottom e) Lb) as (vb & Hvb & _).
  assert (Hzl : lo <= zb) by (specialize (Hzb _ _ Hvb); specialize (Hlo _ _ _ Hvb); lra).
  assert (Hzh : zmean sp <= hi) by (rewrite Forall_forall in Hhi; apply Hhi; eapply nth_error_In; eauto).
  assert (Hin : forall q t', nth_error l q = Some t' ->
    (exists w, trough_assign dm t' 0 P = Ok (Some w) /\ inside t' /\ w_facies w <> (-1)%Z /\
       shows_trough t' P (cell_of (Some (mkIds (w_facies w) 0 0 0 (w_azim w) (w_dip w), si)))) \/
    trough_assign dm t' 0 P = Ok None /\ ~ inside t').
  { intros q t' Hj.
    destruct (trough_facts g lo hi tp buffer agg mig te_xyz zb (zmean sp) te _ _ l t' Hzl Hzh Hfit Hdr Hte Hts (nth_error_In _ _ Hj)) as (pos & d & al & P1 & P2 & P3 & P4 & P5 & P6 & P7).
    destruct (C39_lookup_inside _ _ _ _ _ _ _ _ _ _ dm 0%Z P P7 P4 P5 P6 (proj1 Hset) P2) as [r Er].
    pose proof (Hio t' _ _ _ _ _ _ (nth_error_In _ _ Hj) P7 P4 P5 P6) as Hiff. rewrite Er in Hiff.
    destruct r as [w|].
    - left. exists w. split; [exact Er|]. split; [|split].
      + destruct (classic (inside t')) as [K|K]; [exact K|]. apply Hiff in K. discriminate.
      + eapply hit_facies; eauto.
      + unfold trough_assign in Er. destruct (offset dm t' P) as [[ox oy] oz]. destruct (claims t' ox oy oz); [|discriminate Er].
        destruct (trough_write t' 0 (p_z P) ox oy oz) as [w1|] eqn:Ew; [|discriminate Er]. cbn [bind] in Er. assert (w1 = w) by congruence. subst w1. eapply write_shows; eauto.
    - right. split; [exact Er|]. now apply Hiff. }
  assert (Hobj : forall q t', nth_error l q = Some t' ->
    nth_error (e_objs ea) q = Some (mkAobj (tr_zmin t') (tr_zmax t') (probe_of dm cg wild (object_table strata) num q))).
  { intros q t' Hj. cbn. rewrite (to_objs_at _ _ _ _ _ _ _ q (mkObject (tr_zmin t') (tr_zmax t') None)); [reflexivity| |assumption|reflexivity].
    rewrite Eob, nth_error_map, Hj. reflexivity. }
  destruct (Hin k t Hk) as [(w' & Ew & _ & Hw & Hsh)|[_ Hno]]; [|contradiction].
  assert (Hf : first (hits hit P) (e_objs ea) 0 = Some (k, w')).
  { apply (first_at _ _ _ _ _ (Hobj k t Hk)).
    - unfold hits, hit. cbn [o_check]. unfold probe_of. rewrite Ht, Hk. unfold trough_check. rewrite Ew. cbn [snd]. apply Z.eqb_neq in Hw. now rewrite Hw.
    - intros q ob Hj Ho'. assert (Hjl : (k < List.length l)%nat) by (apply nth_error_Some; congruence).
      destruct (nth_error l q) as [t'|] eqn:Ej; [|apply nth_error_None in Ej; lia].
      rewrite (Hobj q t' Ej) in Ho'. injection Ho' as <-. unfold hits, hit. cbn [o_check]. unfold probe_of. rewrite Ht, Ej. unfold trough_check.
      destruct (Hin q t' Ej) as [(w & _ & K & _)|[K _]]; [exfalso; apply (Hbefore q t' Hj Ej K)|]. rewrite K. reflexivity. }
  assert (Hsa : search_ae hit P ea = Some (Some k, mkIds (w_facies w') (e_num ea) (w_ha w') (e_type ea) (w_azim w') (w_dip w'))) by (unfold search_ae; now rewrite Hf).
  cbn [cell_of c_strata c_ae].
  destruct (Nat.lt_trichotomy s si) as [L|[L|L]]; [left; lia| |exfalso].
  - subst s. right. split; [reflexivity|]. rewrite <- number_before. fold num.
    pose proof (search_inv hit _ _ _ _ _ _ Hse) as (st' & e' & M1 & M2 & _ & M3 & _). rewrite Hms in M1. injection M1 as <-. cbn [t_aes] in M2.
    destruct (Nat.lt_trichotomy a ei) as [L|[L|L]].
    + left. destruct (nth_error (s_aes (fst fs)) a) as [e0|] eqn:Ea.
      2:{ apply nth_error_None in Ea. assert (ei < List.length (s_aes (fst fs)))%nat by (apply nth_error_Some; congruence). lia. }
      rewrite (to_aelems_at _ _ _ _ _ _ _ _ _ _ Ea) in M2. injection M2 as <-.
      assert (Hi : i_ae i = Z.of_nat (before si (map fst strata) + a)).
      { unfold search_ae in M3. match type of M3 with match ?u with _ => _ end = _ => destruct u as [[k0 w0]|] end;
          [|match type of M3 with (if ?u then _ else _) = _ => destruct u; [|discriminate M3] end];
        match type of M3 with Some (_, ?u) = Some (_, ?v) => assert (Ev : v = u) by congruence end; rewrite Ev; reflexivity. }
      rewrite Hi. unfold num. lia.
    + right. subst a. rewrite Hme in M2. injection M2 as <-. rewrite Hsa in M3. injection M3 as <- <-. cbn [i_ae]. split; [reflexivity|].
      split; [exact Hsh|]. exists w'. cbn. auto.
    + exfalso. rewrite (search_before hit _ _ _ _ _ _ si ei _ ea Hse Hms Hme) in Hsa by (right; auto). discriminate.
  - rewrite (search_before hit _ _ _ _ _ _ si ei _ ea Hse Hms Hme) in Hsa by (left; assumption). discriminate.
Qed.

(** A cell inside several troughs of an element shows the first one of the list,
    exactly as this trough alone would be shown, unless the cell belongs to an
    element above.  Models without periodic boundaries. *)
Theorem C141_first_trough_partial :
  forall x0 y0 z0 dx dy dz lx ly lz g fuel contacts params draws st strata dm wild,
  grid_init x0 y0 z0 dx dy dz lx ly lz = Ok g -> 0 < dx -> 0 < dy -> 0 < dz ->
  Forall (fsd_ok (columns g)) draws -> params <> [] ->
  full_generate g fuel contacts params draws = Ok (st, strata) ->
  sensible g params draws st strata ->
  (forall num oi p, wild num oi p <> (-1)%Z) ->
  ((forall fp ft, In fp params -> In ft (fp_types fp) -> ~ is_channels ft) \/ dy <= 1) ->
  Forall (fun fs : full_stratum => s_aes (fst fs) <> []) strata ->
  Forall (fun z => z <= lz) (g_z g) ->
  (forall k a z, In z (g_z g) -> col st a k <> Some z) ->
  dm_periodic dm = false ->
  let cg := mkCGrid (List.length (g_x g)) (List.length (g_y g)) dx in
  forall xi yi zi x y z, nth_error (g_x g) xi = Some x -> nth_error (g_y g) yi = Some y -> nth_error (g_z g) zi = Some z ->
  forall si fs ei e l k t, nth_error strata si = Some fs -> nth_error (s_aes (fst fs)) ei = Some e -> nth_error (snd fs) ei = Some (OTroughs l) ->
  first_trough l (mkPoint x y z xi yi) k t ->
  exists v, full_arrays dm cg wild params st strata (g_x g) (g_y g) (g_z g) xi yi zi = Some v /\
    ((0 <= c_strata v < Z.of_nat si)%Z \/
     c_strata v = Z.of_nat si /\
     let num := Z.of_nat (List.length (List.concat (map (fun fs : full_stratum => s_aes (fst fs)) (firstn si strata))) + ei) in
     ((0 <= c_ae v < num)%Z \/ c_ae v = num /\ shows_trough t (mkPoint x y z xi yi) v /\
       exists w, trough_assign dm t 0 (mkPoint x y z xi yi) = Ok (Some w) /\ c_facies v = w_facies w /\ c_azim v = w_azim w /\ c_dip v = w_dip w)).
Proof.
  intros x0 y0 z0 dx dy dz lx ly lz g fuel contacts params draws st strata dm wild G Hdx Hdy Hdz Hd Hne E HS Hwild Hch Haes Hz Hav Hper cg
    xi yi zi x y z Ex Ey Ez si fs ei e l k t Hs He Ho (Hk & Hpar & Hbefore).
  apply (first_trough_shown x0 y0 z0 dx dy dz lx ly lz g fuel contacts params draws st strata dm wild G Hdx Hdy Hdz Hd Hne E HS Hwild Hch Haes Hz Hav
    xi yi zi x y z Ex Ey Ez si fs ei e l k t Hs He Ho (fun t => in_trough t (mkPoint x y z xi yi))); auto.
  intros t' tt x1 y1 z1 al d _ Hn Ha Hb Hc.
  assert (Edm : dm = flat (dm_lx dm) (dm_ly dm)) by (destruct dm; cbn in *; now subst).
  pose proof (C38_half_ellipsoid _ _ _ _ _ _ _ _ _ _ (dm_lx dm) (dm_ly dm) 0%Z (mkPoint x y z xi yi) Hn Ha Hb Hc) as H38. rewrite <- Edm in H38. rewrite H38.
  apply new_trough_built in Hn as B. unfold in_trough, half_ellipsoid.
  rewrite (b_x _ _ _ _ _ _ _ _ _ _ B), (b_y _ _ _ _ _ _ _ _ _ _ B), (b_z _ _ _ _ _ _ _ _ _ _ B), (b_sin _ _ _ _ _ _ _ _ _ _ B), (b_cos _ _ _ _ _ _ _ _ _ _ B).
  split; intros H K; apply H; [destruct K as (al' & -> & -> & K); exact K|exists al; auto].
Qed.
Print Assumptions C141_first_trough_partial.

(** With periodic boundaries: the copies of a trough in the neighbouring domains
    count, for troughs not larger than half the domain and centres at most one
    and a half domains away from the cell (see C44 for the others). *)
Theorem C141_periodic_partial :
  forall x0 y0 z0 dx dy dz lx ly lz g fuel contacts params draws st strata wild,
  grid_init x0 y0 z0 dx dy dz lx ly lz = Ok g -> 0 < dx -> 0 < dy -> 0 < dz ->
  Forall (fsd_ok (columns g)) draws -> params <> [] ->
  full_generate g fuel contacts params draws = Ok (st, strata) ->
  sensible g params draws st strata ->
  (forall num oi p, wild num oi p <> (-1)%Z) ->
  ((forall fp ft, In fp params -> In ft (fp_types fp) -> ~ is_channels ft) \/ dy <= 1) ->
  Forall (fun fs : full_stratum => s_aes (fst fs) <> []) strata ->
  Forall (fun z => z <= lz) (g_z g) ->
  (forall k a z, In z (g_z g) -> col st a k <> Some z) ->
  let cg := mkCGrid (List.length (g_x g)) (List.length (g_y g)) dx in
  let dm := periodic lx ly in
  forall xi yi zi x y z, nth_error (g_x g) xi = Some x -> nth_error (g_y g) yi = Some y -> nth_error (g_z g) zi = Some z ->
  forall si fs ei e l k t, nth_error strata si = Some fs -> nth_error (s_aes (fst fs)) ei = Some e -> nth_error (snd fs) ei = Some (OTroughs l) ->
  (forall t', In t' l -> Rmax (tr_a t') (tr_b t') <= lx / 2 /\ Rmax (tr_a t') (tr_b t') <= ly / 2 /\
     Rabs (x - tr_x t') <= 3 / 2 * lx /\ Rabs (y - tr_y t') <= 3 / 2 * ly) ->
  first_trough_periodic lx ly l (mkPoint x y z xi yi) k t ->
  exists v, full_arrays dm cg wild params st strata (g_x g) (g_y g) (g_z g) xi yi zi = Some v /\
    ((0 <= c_strata v < Z.of_nat si)%Z \/
     c_strata v = Z.of_nat si /\
     let num := Z.of_nat (List.length (List.concat (map (fun fs : full_stratum => s_aes (fst fs)) (firstn si strata))) + ei) in
     ((0 <= c_ae v < num)%Z \/ c_ae v = num /\ shows_trough t (mkPoint x y z xi yi) v /\
       exists w, trough_assign dm t 0 (mkPoint x y z xi yi) = Ok (Some w) /\ c_facies v = w_facies w /\ c_azim v = w_azim w /\ c_dip v = w_dip w)).
Proof.
  intros x0 y0 z0 dx dy dz lx ly lz g fuel contacts params draws st strata wild G Hdx Hdy Hdz Hd Hne E HS Hwild Hch Haes Hz Hav cg dm
    xi yi zi x y z Ex Ey Ez si fs ei e l k t Hs He Ho Hnear (Hk & Hpar & Hbefore).
  apply (first_trough_shown x0 y0 z0 dx dy dz lx ly lz g fuel contacts params draws st strata dm wild G Hdx Hdy Hdz Hd Hne E HS Hwild Hch Haes Hz Hav
    xi yi zi x y z Ex Ey Ez si fs ei e l k t Hs He Ho (fun t => in_periodic_trough lx ly t (mkPoint x y z xi yi))); auto.
  intros t' tt x1 y1 z1 al d Hin Hn Ha Hb Hc. destruct (Hnear t' Hin) as (N1 & N2 & N3 & N4).
  pose proof (C43_periodic tt x1 y1 z1 _ _ _ al d t' lx ly 0%Z (mkPoint x y z xi yi) Hn Ha Hb Hc N1 N2) as H43.
  apply new_trough_built in Hn as B. unfold dm. cbn [p_x p_y p_z] in H43.
  rewrite (b_x _ _ _ _ _ _ _ _ _ _ B) in N3. rewrite (b_y _ _ _ _ _ _ _ _ _ _ B) in N4. rewrite (H43 N3 N4).
  unfold in_periodic_trough, in_trough, periodic_shape. cbn [p_x p_y p_z].
  rewrite (b_x _ _ _ _ _ _ _ _ _ _ B), (b_y _ _ _ _ _ _ _ _ _ _ B), (b_z _ _ _ _ _ _ _ _ _ _ B), (b_sin _ _ _ _ _ _ _ _ _ _ B), (b_cos _ _ _ _ _ _ _ _ _ _ B).
  split; intros H K; apply H.
  - destruct K as (i & j & al' & Es & Ec & K). exists (- i)%Z, (- j)%Z. unfold half_ellipsoid in *. rewrite !opp_IZR. unfold radians, deg in *. rewrite Es, Ec.
    destruct K as (K1 & u & v & w & K2 & K3 & K4 & K5). split; [exact K1|]. exists u, v, w. repeat split; lra.
  - destruct K as (i & j & K). exists (- i)%Z, (- j)%Z, al. split; [reflexivity|]. split; [reflexivity|]. unfold half_ellipsoid in *. rewrite !opp_IZR.
    destruct K as (K1 & u & v & w & K2 & K3 & K4 & K5). split; [exact K1|]. exists u, v, w. unfold radians, deg in *. repeat split; lra.
Qed.
Print Assumptions C141_periodic_partial.

(** The troughs of an element are listed from the highest centre to the lowest;
    with C141_first_trough the highest trough is shown, and of several at one
    height the first. *)
Theorem C141_highest_first :
  forall g fuel contacts params draws st strata,
  Forall (fsd_ok (columns g)) draws ->
  full_generate g fuel contacts params draws = Ok (st, strata) ->
  sensible g params draws st strata ->
  forall si fs ei e l, nth_error strata si = Some fs -> nth_error (s_aes (fst fs)) ei = Some e -> nth_error (snd fs) ei = Some (OTroughs l) ->
  forall i j t t', (i < j)%nat -> nth_error l i = Some t -> nth_error l j = Some t' -> tr_z t' <= tr_z t.
Proof.
  intros g fuel contacts params draws st strata Hd E (lo & hi & Hlo & Hhi & Hdr & Hty & Hreach) si fs ei e l Hs He Ho i j t t' Hij Hi Hj.
  destruct (element_origin _ _ _ _ _ _ _ E Hd si fs ei e Hs He) as (o' & fp & ft & od & Ho' & Ht & Hor). rewrite Ho in Ho'. injection Ho' as <-.
  destruct (origin_in _ _ _ _ _ _ _ _ _ _ _ Hor) as [I1 I2]. assert (Hfit := proj1 (Hty fp ft I1 I2)).
  destruct Hor as (_ & _ & _ & _ & (tp & buffer & agg & mig & te_xyz & te & zb & sp & Ek & Hte & Hts & _)).
  unfold type_fits in Hfit. rewrite Ek in Hfit. destruct Hfit as (Hagg & _ & _ & _ & _ & _ & _ & Hgiven).
  assert (Hsort : StronglySorted (fun p q : position R => snd q <= snd p) te).
  { destruct te_xyz as [te0|]; [subst te; now apply Hgiven|]. now destruct (C45_descending _ _ _ _ _ _ _ _ _ Hagg Hte). }
  destruct (TroughBuild.make_troughs_inv _ _ _ _ _ Hts) as [Ezm Hinv].
  assert (Hss : StronglySorted (fun t t' => tr_zmax t' <= tr_zmax t) l).
  { apply SS_map with (f := fun t => tr_zmax t) (Rl := fun u v => v <= u). rewrite Ezm. clear - Hsort.
    induction Hsort as [|p l H1 IH H2]; cbn; constructor; [assumption|]. now apply Forall_map. }
  assert (Hz : forall k t0, nth_error l k = Some t0 -> tr_z t0 = tr_zmax t0).
  { intros k t0 Hk. destruct (Hinv k t0 Hk) as (pos & d & al & _ & _ & _ & Hn). apply new_trough_built in Hn as B.
    now rewrite (b_z _ _ _ _ _ _ _ _ _ _ B), (b_zmax _ _ _ _ _ _ _ _ _ _ B). }
  rewrite (Hz _ _ Hi), (Hz _ _ Hj).
  clear - Hss Hij Hi Hj. revert i j Hij Hi Hj. induction Hss as [|u l H IH Hu]; intros i j Hij Hi Hj; [destruct i; discriminate|].
  destruct j as [|j]; [lia|]. destruct i as [|i]; cbn in *.
  - injection Hi as ->. rewrite Forall_forall in Hu. apply Hu. eapply nth_error_In; eauto.
  - apply (IH i j); auto. lia.
Qed.
Print Assumptions C141_highest_first.
