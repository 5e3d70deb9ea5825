(** C140: cells inside several channels. *)
From Coq Require Import List ZArith Bool Ascii String Reals Lia Lra Sorted.
From Verif Require Import Base Num ParseModel ConfigModel ConfigSpec ConfigProofs ConfigProofs2 DeprecatedModel DeprecatedSpec DeprecatedProofs SurfaceModel SurfaceSpec SurfaceProofs
  StrataModel StrataSpec StrataProofs StrataProofs2 StrataProps AssignModel AssignSpec AssignProofs AssignProofs2 AssignProps AssignProps2 BuildModel BuildSpec BuildProofs BuildProofs2 FaciesModel TroughModel TroughSpec TroughProofs TroughProps TroughBuildSpec TroughBuild SheetModel ChannelModel ChannelSpec ChannelProofs ChannelProps ChannelProps2
  FullModel FullSpec FullProofs FullProofs2 FullProofs3 FullProofs4 FullProofs5 FullProofs6 FullProps LinkModel LinkSpec LinkProofs LinkProps SizeSpec SizeProofs SizeProps PlaceSpec PlaceProps OverlapSpec.
Import ListNotations.
Local Open Scope R_scope.

Lemma first_at {A B} (f : A -> option B) l k a b : nth_error l k = Some a -> f a = Some b ->
  (forall j a', (j < k)%nat -> nth_error l j = Some a' -> f a' = None) -> first f l 0 = Some (k, b).
Proof.
  intros Ha Hb Hn. destruct (first f l 0) as [[k' b']|] eqn:E.
  - apply first_some in E as (_ & (a' & E1 & E2) & E3). rewrite Nat.sub_0_r in *.
    destruct (Nat.lt_trichotomy k k') as [L|[L|L]].
    + rewrite (E3 _ _ L Ha) in Hb. discriminate.
    + subst k'. congruence.
    + rewrite (Hn _ _ L E1) in E2. discriminate.
  - rewrite first_none in E. rewrite (E a) in Hb; [discriminate|]. eapply nth_error_In; eauto.
Qed.

Lemma value_shows c wild num k p s (w : write R) : channel_value c wild num k p = w ->
  shows c p (cell_of (Some (mkIds (w_facies w) 0 0 0 (w_azim w) (w_dip w), s))).
Proof.
  intros <-. unfold shows, channel_value, channel_write. cbn [cell_of c_facies c_azim c_dip i_facies i_azim i_dip].
  destruct (Rltb (p_z p) (ch_ztop c - ch_depth c + ch_lag c)) eqn:E.
  - left. apply Rltb_true in E. cbn. auto.
  - right. apply Rltb_false in E. destruct (ch_dipsets c); [right|left]; [|cbn; auto].
    destruct (channel_facies c _); cbn; auto.
Qed.

(** A cell inside several channels of an element shows the first one of the list,
    that is the highest and, among those of one level, the one generated first
    (C82), unless the cell belongs to an element above. *)
Theorem C140_first_channel_partial :
  forall x0 y0 z0 dx dy dz lx ly lz g fuel contacts params draws st strata dm wild,
  grid_init x0 y0 z0 dx dy dz lx ly lz = Ok g -> 0 < dx -> 0 < dy -> 0 < dz ->
  Forall (fsd_ok (columns g)) draws -> params <> [] ->
  full_generate g fuel contacts params draws = Ok (st, strata) ->
  sensible g params draws st strata ->
  (forall num oi p, wild num oi p <> (-1)%Z) ->
  ((forall fp ft, In fp params -> In ft (fp_types fp) -> ~ is_channels ft) \/ dy <= 1) ->
  Forall (fun fs : full_stratum => s_aes (fst fs) <> []) strata ->
  Forall (fun z => z <= lz) (g_z g) ->
  (forall k a z, In z (g_z g) -> col st a k <> Some z) ->
  let cg := mkCGrid (List.length (g_x g)) (List.length (g_y g)) dx in
  forall xi yi zi x y z, nth_error (g_x g) xi = Some x -> nth_error (g_y g) yi = Some y -> nth_error (g_z g) zi = Some z ->
  forall si fs ei e l k c, nth_error strata si = Some fs -> nth_error (s_aes (fst fs)) ei = Some e -> nth_error (snd fs) ei = Some (OChannels l) ->
  first_containing l (mkPoint x y z xi yi) k c ->
  exists v, full_arrays dm cg wild params st strata (g_x g) (g_y g) (g_z g) xi yi zi = Some v /\
    ((0 <= c_strata v < Z.of_nat si)%Z \/
     c_strata v = Z.of_nat si /\
     let num := Z.of_nat (List.length (List.concat (map (fun fs : full_stratum => s_aes (fst fs)) (firstn si strata))) + ei) in
     ((0 <= c_ae v < num)%Z \/ c_ae v = num /\ shows c (mkPoint x y z xi yi) v)).
Proof.
  intros x0 y0 z0 dx dy dz lx ly lz g fuel contacts params draws st strata dm wild G Hdx Hdy Hdz Hd Hne E HS Hwild Hch Haes Hz Hav cg
    xi yi zi x y z Ex Ey Ez si fs ei e l k c Hs He Ho (Hk & Hpar & Hbefore).
  destruct (C34_generated_partial _ _ _ _ _ _ _ _ _ _ _ _ _ _ _ _ dm wild G Hdx Hdy Hdz Hd Hne E HS Hwild Hch Haes Hz Hav xi yi zi x y z Ex Ey Ez) as (i & s & Hex & Har).
  fold cg in Har, Hex. exists (cell_of (Some (i, s))). split; [exact Har|].
  set (m := to_model _ _ _ _ _ _ _ _) in Hex. set (P := mkPoint x y z xi yi) in *.
  set (hit := fun (o : aobj R marks) p => snd (o_check o unmarked p)) in *.
  unfold exhaustive in Hex. destruct (search hit m P) as [[s' [a [j i']]]|] eqn:Hse; [|discriminate].
  assert (i' = i /\ s' = s) as [-> ->] by (split; congruence). clear Hex Har.
  destruct HS as (lo & hi & Hlo & Hhi & Hdr & Hty & Hreach).
  (* the element in the model *)
  set (num := (before si (map fst strata) + ei)%nat).
  set (ea := to_aelem (List.length (g_y g)) (type_id_of params) (look_of wild (object_table strata)) (probe_of dm cg wild (object_table strata)) st si num e).
  assert (Hms : nth_error m si = Some (mkAstrat (s_zmin (fst fs)) (to_aelems (List.length (g_y g)) (type_id_of params) (look_of wild (object_table strata)) (probe_of dm cg wild (object_table strata)) st si (before si (map fst strata)) (s_aes (fst fs))))).
  { unfold m. rewrite (to_model_at _ _ _ _ _ _ 0 0 si (fst fs)) by (now apply map_nth_error). reflexivity. }
  assert (Hme : nth_error (to_aelems (List.length (g_y g)) (type_id_of params) (look_of wild (object_table strata)) (probe_of dm cg wild (object_table strata)) st si (before si (map fst strata)) (s_aes (fst fs))) ei = Some ea).
  { now rewrite (to_aelems_at _ _ _ _ _ _ _ _ _ _ He). }
  destruct (element_origin _ _ _ _ _ _ _ E Hd si fs ei e Hs He) as (o' & fp & ft & od & Ho' & Ht & Hor). fold num in Ht. rewrite Ho in Ho'. injection Ho' as <-.
  assert (Hae : ae_ok st e).
  { destruct (wf_strata _ _ _ _ _ _ _ E Hd) as [_ Hok]. rewrite Forall_forall in Hok. destruct (Hok (fst fs)) as (_ & _ & _ & _ & Hall & _).
    - apply in_map. eapply nth_error_In; eauto.
    - rewrite Forall_forall in Hall. apply Hall. eapply nth_error_In; eauto. }
  assert (Hcp : List.length (ae_objects e) = List.length (ae_copies e)).
  { unfold ae_ok in Hae. decompose [and] Hae. match goal with H : Forall2 _ (ae_objects e) (ae_copies e) |- _ => clear - H; induction H; cbn; congruence end. }
  (* what the channels do with the cell *)
  destruct (origin_in _ _ _ _ _ _ _ _ _ _ _ Hor) as [I1 I2]. assert (Hfit := proj1 (Hty fp ft I1 I2)).
  destruct Hor as (_ & _ & (sd & d0 & D1 & D2 & ->) & _ & Hc). specialize (Hdr sd d0 D1 D2).
  destruct Hc as (cp & sb & sp & Ek & Hcs & Hsb & Eob). unfold type_fits in Hfit. rewrite Ek in Hfit. destruct Hfit as (Hagg & Hwd & Hdp & Hnf & Halt & Hlag).
  assert (Hin : forall q c', nth_error l q = Some c' -> (inside c' (p_x P) (p_y P) (p_z P) = true <-> in_channel c' P)).
  { intros q c' Hj. destruct (generate_channels_new _ _ _ _ _ _ _ _ _ Hcs (nth_error_In _ _ Hj)) as (zc & line & dr & P2).
    destruct (new_channel_fields _ _ _ _ _ _ _ _ _ P2) as (El & Ez' & Emax & Emin & Ed & Ewd & _).
    rewrite (inside_spec _ _ _ _ _ _ _ _ _ P2 (proj1 Hwd) Hdp _ _ _ (proj2 Hwd)). unfold in_channel. now rewrite El, Ez', Ed, Ewd. }
  assert (Hobj : forall q c', nth_error l q = Some c' ->
    nth_error (e_objs ea) q = Some (mkAobj (ch_zmin c') (ch_zmax c') (probe_of dm cg wild (object_table strata) num q))).
  { intros q c' Hj. cbn. rewrite (to_objs_at _ _ _ _ _ _ _ q (mkObject (ch_zmin c') (ch_zmax c') None)); [reflexivity| |assumption|reflexivity].
    rewrite Eob, nth_error_map, Hj. reflexivity. }
  assert (Hhit : forall q c', nth_error l q = Some c' ->
    hit (mkAobj (ch_zmin c') (ch_zmax c') (probe_of dm cg wild (object_table strata) num q)) P =
    if inside c' (p_x P) (p_y P) (p_z P) then Some (channel_value c' wild num q P) else None).
  { intros q c' Hj. unfold hit. cbn [o_check]. unfold probe_of. now rewrite Ht, Hj, clean_check. }
  set (w' := channel_value c wild num k P).
  assert (Hf : first (hits hit P) (e_objs ea) 0 = Some (k, w')).
  { apply (first_at _ _ _ _ _ (Hobj k c Hk)).
    - unfold hits. rewrite (Hhit k c Hk). assert (Hi := proj2 (Hin k c Hk) Hpar). rewrite Hi. fold w'.
      destruct (generate_channels_new _ _ _ _ _ _ _ _ _ Hcs (nth_error_In _ _ Hk)) as (zc & line & dr & P2).
      destruct (new_channel_fields _ _ _ _ _ _ _ _ _ P2) as (El & Ez' & Emax & Emin & Ed & Ewd & _).
      assert (Hw : w_facies w' <> (-1)%Z).
      { destruct (channel_value_facies _ _ _ _ _ _ _ _ _ P2 wild num k P Halt) as [H|[[H Hz']|[_ H]]]; fold w' in H.
        - intros C. rewrite C in H. contradiction.
        - rewrite H. destruct Hlag as [Hlag|Hlag]; [|assumption]. apply (inside_bounds _ _ _ _ _ _ _ _ _ P2) in Hi; [lra|lra|lra].
        - rewrite H. apply Hwild. }
      apply Z.eqb_neq in Hw. now rewrite Hw.
    - intros q ob Hj Ho'. assert (Hjl : (k < List.length l)%nat) by (apply nth_error_Some; congruence).
      destruct (nth_error l q) as [c'|] eqn:Ej; [|apply nth_error_None in Ej; lia].
      rewrite (Hobj q c' Ej) in Ho'. injection Ho' as <-. unfold hits. rewrite (Hhit q c' Ej).
      destruct (inside c' _ _ _) eqn:Ei; [|reflexivity]. exfalso. apply (Hbefore q c' Hj Ej). now apply (Hin q c' Ej). }
  assert (Hsa : search_ae hit P ea = Some (Some k, mkIds (w_facies w') (e_num ea) (w_ha w') (e_type ea) (w_azim w') (w_dip w'))) by (unfold search_ae; now rewrite Hf).
  cbn [cell_of c_strata c_ae].
  destruct (Nat.lt_trichotomy s si) as [L|[L|L]]; [left; lia| |exfalso].
  - subst s. right. split; [reflexivity|]. rewrite <- number_before. fold num.
    pose proof (search_inv hit _ _ _ _ _ _ Hse) as (st' & e' & M1 & M2 & _ & M3 & _). rewrite Hms in M1. injection M1 as <-. cbn [t_aes] in M2.
    destruct (Nat.lt_trichotomy a ei) as [L|[L|L]].
    + left. destruct (nth_error (s_aes (fst fs)) a) as [e0|] eqn:Ea.
      2:{ apply nth_error_None in Ea. assert (ei < List.length (s_aes (fst fs)))%nat by (apply nth_error_Some; congruence). lia. }
      rewrite (to_aelems_at _ _ _ _ _ _ _ _ _ _ Ea) in M2. injection M2 as <-.
      assert (Hi : i_ae i = Z.of_nat (before si (map fst strata) + a)).
      { unfold search_ae in M3. match type of M3 with match ?u with _ => _ end = _ => destruct u as [[k0 w0]|] end;
          [|match type of M3 with (if ?u then _ else _) = _ => destruct u; [|discriminate M3] end];
        match type of M3 with Some (_, ?u) = Some (_, ?v) => assert (Ev : v = u) by congruence end; rewrite Ev; reflexivity. }
      rewrite Hi. unfold num. lia.
    + right. subst a. rewrite Hme in M2. injection M2 as <-. rewrite Hsa in M3. injection M3 as <- <-. cbn [i_ae]. split; [reflexivity|].
      exact (value_shows c wild num k P si w' eq_refl).
    + exfalso. rewrite (search_before hit _ _ _ _ _ _ si ei _ ea Hse Hms Hme) in Hsa by (right; auto). discriminate.
  - rewrite (search_before hit _ _ _ _ _ _ si ei _ ea Hse Hms Hme) in Hsa by (left; assumption). discriminate.
Qed.
Print Assumptions C140_first_channel_partial.
