(** C125: troughs placed by hand, and cells inside objects. *)
From Coq Require Import List ZArith Bool Ascii String Reals Lia Lra Sorted.
From Verif Require Import Base Num ParseModel ConfigModel ConfigSpec ConfigProofs ConfigProofs2 DeprecatedModel DeprecatedSpec DeprecatedProofs SurfaceModel SurfaceSpec SurfaceProofs
  StrataModel StrataSpec StrataProofs StrataProofs2 StrataProps AssignModel AssignSpec AssignProofs AssignProofs2 AssignProps AssignProps2 BuildModel BuildSpec BuildProofs BuildProofs2 FaciesModel TroughModel TroughSpec TroughProofs TroughProps TroughBuildSpec TroughBuild SheetModel ChannelModel ChannelSpec ChannelProofs ChannelProps ChannelProps2
  FullModel FullSpec FullProofs FullProofs2 FullProofs3 FullProofs4 FullProofs5 FullProofs6 FullProps LinkModel LinkSpec LinkProofs LinkProps SizeSpec SizeProofs SizeProps PlaceSpec.
Import ListNotations.
Local Open Scope string_scope.
Local Open Scope R_scope.

(** ** Positions *)
Section Link.
Context {F : Type} (fin : F -> option R) (is_nan : F -> bool).
Notation dic := (dict F).

Lemma positions_each (e : dic) k te : get (positions_of fin) e k = Ok te ->
  has e k (Leaf ANone) /\ te = None \/
  exists l te', has e k (Node l) /\ te = Some te' /\
    Forall2 (fun v p => exists x y z, v = Node [Leaf (AFlt x); Leaf (AFlt y); Leaf (AFlt z)] /\
      fin x = Some (fst (fst p)) /\ fin y = Some (snd (fst p)) /\ fin z = Some (snd p)) l te'.
Proof.
  intros H. apply get_Ok in H as (v & Hv & H). destruct v as [[]|l]; try discriminate; [left; injection H as <-; auto|right].
  cbn in H. apply bind_Ok in H as (te' & H & E). injection E as <-. exists l, te'. split; [assumption|]. split; [reflexivity|].
  apply mapM_Ok in H. clear Hv. induction H as [|p q l te' P _ IH]; constructor; [|assumption]. unfold position_of in P.
  destruct p as [[]|ps]; try discriminate. destruct ps as [|a [|b [|c [|d ps]]]]; try discriminate.
  apply bind_Ok in P as (x' & Px & P). apply bind_Ok in P as (y' & Py & P). apply bind_Ok in P as (z' & Pz & P). apply Ok_inj' in P. subst q.
  apply real_Ok in Px as (fx & -> & Px). apply real_Ok in Py as (fy & -> & Py). apply real_Ok in Pz as (fz & -> & Pz). exists fx, fy, fz. auto.
Qed.
Lemma link_type_positions id (ec : dic * contact F) ft tp buffer agg mig te : link_type fin is_nan id ec = Ok ft -> ft_kind ft = PTroughs tp buffer agg mig te ->
  has (fst ec) "te_xyz" (Leaf ANone) /\ te = None \/
  exists l te', has (fst ec) "te_xyz" (Node l) /\ te = Some te' /\
    Forall2 (fun v p => exists x y z, v = Node [Leaf (AFlt x); Leaf (AFlt y); Leaf (AFlt z)] /\
      fin x = Some (fst (fst p)) /\ fin y = Some (snd (fst p)) /\ fin z = Some (snd p)) l te'.
Proof.
  unfold link_type. intros H Hft. apply bind_Ok in H as (p & Hp & H). apply bind_Ok in H as (k & Hk & H). apply bind_Ok in H as (cm' & Hcm & H). apply bind_Ok in H as (bg & Hbg & H). apply bind_Ok in H as (kp & Hkp & H).
  apply Ok_inj' in H. subst ft. cbn [ft_kind] in Hft. subst kp.
  assert (T : forall v, has p "te_xyz" v -> has (fst ec) "te_xyz" v) by (intros v Hv; refine (proj1 (type_params_has (fst ec) p "te_xyz" v Hp _) Hv); discriminate).
  destruct k.
  - unfold link_troughs in Hkp. repeat match type of Hkp with bind _ _ = Ok _ => let v := fresh "v" in let E := fresh "E" in apply bind_Ok in Hkp as (v & E & Hkp) end.
    match goal with E : get (positions_of fin) _ _ = Ok _ |- _ => apply positions_each in E; rename E into HP end. apply Ok_inj' in Hkp.
    match type of Hkp with _ = PTroughs _ _ _ _ ?t => match type of HP with _ \/ (exists l te', _ /\ ?u = _ /\ _) => assert (t = u) by congruence end end. subst te.
    destruct HP as [[P1 P2]|(l & te' & P1 & P2)]; [left|right]; eauto 6.
  - unfold link_channels in Hkp. repeat match type of Hkp with bind _ _ = Ok _ => let v := fresh "v" in let E := fresh "E" in apply bind_Ok in Hkp as (v & E & Hkp) end. discriminate Hkp.
  - unfold link_sheets in Hkp. repeat match type of Hkp with bind _ _ = Ok _ => let v := fresh "v" in let E := fresh "E" in apply bind_Ok in Hkp as (v & E & Hkp) end. discriminate Hkp.
Qed.
Lemma make_troughs_each tp g : forall te ds l, make_troughs tp g te ds = Ok l ->
  Forall2 (fun p t => tr_x t = fst (fst p) /\ tr_y t = snd (fst p) /\ tr_z t = snd p) te l.
Proof.
  induction te as [|pos te IH]; intros ds l H; cbn in H; [apply Ok_inj' in H; subst; constructor|].
  destruct ds as [|d ds]; [discriminate|]. apply bind_Ok in H as (t & Ht & H). apply bind_Ok in H as (r & Hr & H). apply Ok_inj' in H. subst l.
  constructor; [|eauto]. unfold make_trough in Ht. destruct pos as [[x y] z]. destruct (trough_size _ _ _ _ _ _ _) as [[a b] c].
  apply new_trough_inv in Ht as (E1 & E2 & E3 & _). auto.
Qed.

(** C125: in every element of a type with te_xyz there is one trough for each
    entry, in this order, with its centre at the given point; there are no
    other troughs. *)
Theorem C125_placed : forall (cf : config F) lk fuel draws st strata,
  link fin is_nan cf = Ok lk -> Forall (fsd_ok (columns (lk_grid lk))) draws -> generate lk fuel draws = Ok (st, strata) ->
  forall si fs ei e ts, nth_error strata si = Some fs -> nth_error (s_aes (fst fs)) ei = Some e -> nth_error (snd fs) ei = Some (OTroughs ts) ->
  exists sec, section_of cf si e sec /\ (has sec "te_xyz" (Leaf ANone) \/ centres_are fin sec ts).
Proof.
  intros cf lk fuel draws st strata Hlk Hd Hg si fs ei e ts Hs He Ho.
  destruct (element_source fin is_nan _ _ _ _ _ _ Hlk Hd Hg _ _ _ _ _ Hs He Ho) as (sd & d & n & sec & cm & t & names & ids & id & fp & ft & S1 & S2 & S3 & S4 & S5 & S6 & S7 & S8 & S9).
  exists sec. split; [exists n, cm, t, names; auto|].
  apply made_comes_from in S9 as [_ (tp & buffer & agg & mig & te_xyz & te & zb & sp & Ek & Hte & Hts & _)].
  destruct (link_type_positions _ _ _ _ _ _ _ _ S8 Ek) as [[P1 P2]|(l & te' & P1 & P2 & P3)]; [now left|right].
  subst te_xyz te'. exists l. split; [exact P1|]. apply make_troughs_each in Hts. clear - P3 Hts. revert l P3.
  induction Hts as [|p t te ts (E1 & E2 & E3) _ IH]; intros l P; inversion P as [|v p' l' te' Hv Hl]; subst; constructor; auto.
  unfold centre_is. destruct Hv as (x & y & z & -> & H1 & H2 & H4). exists x, y, z. rewrite E1, E2, E3. auto.
Qed.
End Link.
Print Assumptions C125_placed.

(** ** Cells inside objects *)
Section Forward.
Context {D : Type}.
Variable ny : nat.
Variable type_id : nat -> nat -> Z.
Variable look : nat -> nat -> point R -> write R.
Variable probe : nat -> nat -> D -> point R -> D * option (write R).
Variable st : store R.
Lemma to_aelems_at si : forall l num k e, nth_error l k = Some e ->
  nth_error (to_aelems ny type_id look probe st si num l) k = Some (to_aelem ny type_id look probe st si (num + k) e).
Proof.
  induction l as [|x l IH]; intros num [|k] e H; try discriminate; cbn in *.
  - injection H as ->. now rewrite Nat.add_0_r.
  - rewrite (IH (S num) k e H). do 2 f_equal. lia.
Qed.
Lemma to_model_at : forall l si num k s, nth_error l k = Some s ->
  nth_error (to_model ny type_id look probe st si num l) k = Some (mkAstrat (s_zmin s) (to_aelems ny type_id look probe st (si + k) (num + before k l) (s_aes s))).
Proof.
  induction l as [|x l IH]; intros si num [|k] s H; try discriminate; cbn [to_model nth_error] in *.
  - injection H as ->. unfold before. cbn. now rewrite !Nat.add_0_r.
  - rewrite (IH _ _ _ _ H). unfold before. cbn [firstn map List.concat]. rewrite app_length.
    replace (S si + k)%nat with (si + S k)%nat by lia.
    replace (num + List.length (s_aes x) + List.length (List.concat (map s_aes (firstn k l))))%nat with (num + (List.length (s_aes x) + List.length (List.concat (map s_aes (firstn k l)))))%nat by lia. reflexivity.
Qed.
Lemma to_objs_at num : forall l cs oi k o, nth_error l k = Some o -> List.length l = List.length cs -> ob_surfaces o = None ->
  nth_error (to_objs ny look probe num oi l cs) k = Some (mkAobj (ob_zmin o) (ob_zmax o) (probe num (oi + k)%nat)).
Proof.
  induction l as [|x l IH]; intros [|c cs] oi [|k] o H L Hn; try discriminate; cbn in *.
  - injection H as ->. now rewrite Hn, Nat.add_0_r.
  - rewrite (IH cs (S oi) k o H) by (auto; lia). replace (oi + S k)%nat with (S oi + k)%nat by lia. reflexivity.
Qed.
End Forward.

(** The number of element [ei] of stratum [si] in the results. *)
Lemma number_before (strata : list full_stratum) si : before si (map fst strata) = List.length (List.concat (map (fun fs : full_stratum => s_aes (fst fs)) (firstn si strata))).
Proof. unfold before. rewrite firstn_map, map_map. reflexivity. Qed.

Lemma trough_write_ha t ha z dx dy dz w : trough_write t ha z dx dy dz = Ok w -> w_ha w = ha.
Proof.
  unfold trough_write. intros H. destruct (Rltb z _); [apply Ok_inj' in H; now subst|]. destruct (_ =? 0)%Z; [apply Ok_inj' in H; now subst|].
  destruct (_ =? 1)%Z; [apply bind_Ok in H as (f & _ & H); apply Ok_inj' in H; now subst|].
  destruct (bulb_angles t dx dy dz) as [az dp]. destruct (_ =? 2)%Z; [apply Ok_inj' in H; now subst|].
  apply bind_Ok in H as (f & _ & H). apply Ok_inj' in H. now subst.
Qed.
Lemma trough_ha dm wild num oi t d p d' w : trough_check dm wild num oi t d p = (d', Some w) -> w_ha w = 0%Z.
Proof.
  unfold trough_check. intros H. apply (f_equal snd) in H. cbn [snd] in H. unfold trough_assign in H. destruct (offset dm t p) as [[dx dy] dz].
  destruct (claims t dx dy dz); [|discriminate H]. destruct (trough_write t 0 (p_z p) dx dy dz) as [w'|x] eqn:Ew; cbn [bind] in H.
  - apply trough_write_ha in Ew. congruence.
  - match type of H with context [let (_, _) := ?b in _] => destruct b end.
    match type of H with Some ?u = Some ?v => assert (Ev : v = u) by congruence end. rewrite Ev. reflexivity.
Qed.
Lemma channel_write_ha c ha p w : channel_write c ha p = Ok w -> w_ha w = ha.
Proof.
  unfold channel_write. intros H. destruct (Rltb _ _); [apply Ok_inj' in H; now subst|]. destruct (ch_dipsets c).
  - apply bind_Ok in H as (f & _ & H). apply Ok_inj' in H. now subst.
  - apply Ok_inj' in H. now subst.
Qed.
Lemma channel_ha cg wild num oi c d p d' w : channel_check cg wild num oi c d p = (d', Some w) -> w_ha w = 0%Z.
Proof.
  intros H. apply channel_check_value in H. subst w. unfold channel_value. destruct (channel_write c 0 p) eqn:E; [|reflexivity]. now apply channel_write_ha in E.
Qed.

(** C125: a cell inside a trough or channel is shown as part of an object of this
    element, never as its background, or it belongs to an element above.
    Models without periodic boundaries; given positions from the highest to the
    lowest (in [sensible]). *)
Theorem C125_shown_partial :
  forall x0 y0 z0 dx dy dz lx ly lz g fuel contacts params draws st strata dm wild,
  grid_init x0 y0 z0 dx dy dz lx ly lz = Ok g -> 0 < dx -> 0 < dy -> 0 < dz ->
  Forall (fsd_ok (columns g)) draws -> params <> [] ->
  full_generate g fuel contacts params draws = Ok (st, strata) ->
  sensible g params draws st strata ->
  (forall num oi p, wild num oi p <> (-1)%Z) ->
  ((forall fp ft, In fp params -> In ft (fp_types fp) -> ~ is_channels ft) \/ dy <= 1) ->
  Forall (fun fs : full_stratum => s_aes (fst fs) <> []) strata ->
  Forall (fun z => z <= lz) (g_z g) ->
  (forall k a z, In z (g_z g) -> col st a k <> Some z) ->
  dm_periodic dm = false ->
  let cg := mkCGrid (List.length (g_x g)) (List.length (g_y g)) dx in
  forall xi yi zi x y z, nth_error (g_x g) xi = Some x -> nth_error (g_y g) yi = Some y -> nth_error (g_z g) zi = Some z ->
  forall si fs ei e o, nth_error strata si = Some fs -> nth_error (s_aes (fst fs)) ei = Some e -> nth_error (snd fs) ei = Some o ->
  lies_in o (mkPoint x y z xi yi) ->
  exists v, full_arrays dm cg wild params st strata (g_x g) (g_y g) (g_z g) xi yi zi = Some v /\
    ((c_strata v < Z.of_nat si)%Z \/
     c_strata v = Z.of_nat si /\
     let num := Z.of_nat (List.length (List.concat (map (fun fs : full_stratum => s_aes (fst fs)) (firstn si strata))) + ei) in
     ((c_ae v < num)%Z \/ c_ae v = num /\ c_ha v = 0%Z)).
Proof.
  intros x0 y0 z0 dx dy dz lx ly lz g fuel contacts params draws st strata dm wild G Hdx Hdy Hdz Hd Hne E HS Hwild Hch Haes Hz Hav Hper cg
    xi yi zi x y z Ex Ey Ez si fs ei e o Hs He Ho Hin.
  destruct (C34_generated_partial _ _ _ _ _ _ _ _ _ _ _ _ _ _ _ _ dm wild G Hdx Hdy Hdz Hd Hne E HS Hwild Hch Haes Hz Hav xi yi zi x y z Ex Ey Ez) as (i & s & Hex & Har).
  fold cg in Har, Hex. exists (cell_of (Some (i, s))). split; [exact Har|].
  set (m := to_model _ _ _ _ _ _ _ _) in Hex. set (P := mkPoint x y z xi yi) in *.
  set (hit := fun (o : aobj R marks) p => snd (o_check o unmarked p)) in *.
  unfold exhaustive in Hex. destruct (search hit m P) as [[s' [a [j i']]]|] eqn:Hse; [|discriminate].
  assert (i' = i /\ s' = s) as [-> ->] by (split; congruence). clear Hex Har.
  destruct HS as (lo & hi & Hlo & Hhi & Hdr & Hty & Hreach).
  (* the element in the model *)
  set (num := (before si (map fst strata) + ei)%nat).
  set (ea := to_aelem (List.length (g_y g)) (type_id_of params) (look_of wild (object_table strata)) (probe_of dm cg wild (object_table strata)) st si num e).
  assert (Hms : nth_error m si = Some (mkAstrat (s_zmin (fst fs)) (to_aelems (List.length (g_y g)) (type_id_of params) (look_of wild (object_table strata)) (probe_of dm cg wild (object_table strata)) st si (before si (map fst strata)) (s_aes (fst fs))))).
  { unfold m. rewrite (to_model_at _ _ _ _ _ _ 0 0 si (fst fs)) by (now apply map_nth_error). reflexivity. }
  assert (Hme : nth_error (to_aelems (List.length (g_y g)) (type_id_of params) (look_of wild (object_table strata)) (probe_of dm cg wild (object_table strata)) st si (before si (map fst strata)) (s_aes (fst fs))) ei = Some ea).
  { now rewrite (to_aelems_at _ _ _ _ _ _ _ _ _ _ He). }
  destruct (element_origin _ _ _ _ _ _ _ E Hd si fs ei e Hs He) as (o' & fp & ft & od & Ho' & Ht & Hor). fold num in Ht. rewrite Ho in Ho'. injection Ho' as <-.
  assert (Hae : ae_ok st e).
  { destruct (wf_strata _ _ _ _ _ _ _ E Hd) as [_ Hok]. rewrite Forall_forall in Hok. destruct (Hok (fst fs)) as (_ & _ & _ & _ & Hall & _).
    - apply in_map. eapply nth_error_In; eauto.
    - rewrite Forall_forall in Hall. apply Hall. eapply nth_error_In; eauto. }
  assert (Hcp : List.length (ae_objects e) = List.length (ae_copies e)).
  { unfold ae_ok in Hae. decompose [and] Hae. match goal with H : Forall2 _ (ae_objects e) (ae_copies e) |- _ => clear - H; induction H; cbn; congruence end. }
  (* what every object of the element writes *)
  assert (Hha : forall ob w, In ob (e_objs ea) -> hit ob P = Some w -> w_ha w = 0%Z).
  { intros ob w Hob Hw. apply In_nth_error in Hob as [k Hk]. cbn in Hk. apply to_objs_nth in Hk as (o0 & c & Hl & _ & ->). cbn [Nat.add] in Hw. unfold hit in Hw. cbn [o_check] in Hw.
    destruct Hor as (_ & _ & _ & _ & Hc). destruct o as [l|l|l]; [destruct Hin| |].
    - destruct Hc as (tp & buffer & agg & mig & te_xyz & te & zb & sp & _ & _ & _ & _ & _ & Eob). rewrite Eob, nth_error_map in Hl.
      destruct (nth_error l k) as [t|] eqn:Etk; [|discriminate]. cbn in Hl. injection Hl as <-. cbn [ob_surfaces] in Hw.
      unfold probe_of in Hw. rewrite Ht, Etk in Hw. destruct (trough_check dm wild num k t unmarked P) as [d' r] eqn:Etc. cbn in Hw. subst r. now apply trough_ha in Etc.
    - destruct Hc as (cp & sb & sp & _ & _ & _ & Eob). rewrite Eob, nth_error_map in Hl.
      destruct (nth_error l k) as [t|] eqn:Etk; [|discriminate]. cbn in Hl. injection Hl as <-. cbn [ob_surfaces] in Hw.
      unfold probe_of in Hw. rewrite Ht, Etk in Hw. destruct (channel_check cg wild num k t unmarked P) as [d' r] eqn:Etc. cbn in Hw. subst r. now apply channel_ha in Etc. }
  (* the object with the cell *)
  assert (Hhit : exists ob w, In ob (e_objs ea) /\ hits hit P ob = Some w).
  { destruct (origin_in _ _ _ _ _ _ _ _ _ _ _ Hor) as [I1 I2]. assert (Hfit := proj1 (Hty fp ft I1 I2)).
    destruct Hor as (_ & _ & (sd & d0 & D1 & D2 & ->) & _ & Hc). specialize (Hdr sd d0 D1 D2).
    destruct o as [l|l|l]; [destruct Hin| |].
    - destruct Hin as (t & Htl & alpha & As & Ac & Hhalf). apply In_nth_error in Htl as [k Hk].
      destruct Hc as (tp & buffer & agg & mig & te_xyz & te & zb & sp & Ek & Hte & Hts & Hzb & Hsp & Eob).
      unfold type_fits in Hfit. rewrite Ek in Hfit.
      assert (Hset : settings_ok (tp_type tp)) by apply Hfit.
      assert (Hxy : (xi * List.length (g_y g) + yi < columns g)%nat).
      { unfold columns. assert (xi < List.length (g_x g))%nat by (apply nth_error_Some; congruence). assert (yi < List.length (g_y g))%nat by (apply nth_error_Some; congruence). nia. }
      destruct (wf_strata _ _ _ _ _ _ _ E Hd) as [W _]. assert (Lb : (ae_bottom e < List.length st)%nat) by apply Hae.
      destruct (surf_col _ g st W xi yi Hxy (ae_bottom e) Lb) as (vb & Hvb & _).
      assert (Hzl : lo <= zb) by (specialize (Hzb _ _ Hvb); specialize (Hlo _ _ _ Hvb); lra).
      assert (Hzh : zmean sp <= hi) by (rewrite Forall_forall in Hhi; apply Hhi; eapply nth_error_In; eauto).
      destruct (trough_facts g lo hi tp buffer agg mig te_xyz zb (zmean sp) te _ _ l t Hzl Hzh Hfit Hdr Hte Hts (nth_error_In _ _ Hk)) as (pos & d & al & P1 & P2 & P3 & P4 & P5 & P6 & P7).
      destruct (C39_lookup_inside _ _ _ _ _ _ _ _ _ _ dm 0%Z P P7 P4 P5 P6 (proj1 Hset) P2) as [r Er].
      exists (mkAobj (tr_zmin t) (tr_zmax t) (probe_of dm cg wild (object_table strata) num k)).
      assert (Hr : r <> None).
      { intros ->. assert (Edm : dm = flat (dm_lx dm) (dm_ly dm)) by (destruct dm; cbn in *; now subst). rewrite Edm in Er.
        apply (C38_half_ellipsoid _ _ _ _ _ _ _ _ _ _ _ _ _ _ P7 P4 P5 P6) in Er. apply Er. apply new_trough_built in P7 as B.
        unfold half_ellipsoid in *. rewrite <- (b_x _ _ _ _ _ _ _ _ _ _ B), <- (b_y _ _ _ _ _ _ _ _ _ _ B), <- (b_z _ _ _ _ _ _ _ _ _ _ B), <- (b_sin _ _ _ _ _ _ _ _ _ _ B), <- (b_cos _ _ _ _ _ _ _ _ _ _ B), As, Ac. exact Hhalf. }
      destruct r as [w|]; [|congruence]. exists w. split.
      + apply (nth_error_In _ k). cbn. rewrite (to_objs_at _ _ _ _ _ _ _ k (mkObject (tr_zmin t) (tr_zmax t) None)); [reflexivity| |assumption|reflexivity].
        rewrite Eob, nth_error_map, Hk. reflexivity.
      + unfold hits, hit. cbn [o_check]. unfold probe_of. rewrite Ht, Hk. unfold trough_check. rewrite Er. cbn [snd].
        assert (Hw : w_facies w <> (-1)%Z) by (eapply hit_facies; eauto). apply Z.eqb_neq in Hw. now rewrite Hw.
    - destruct Hin as (c & Hcl & Hpar). apply In_nth_error in Hcl as [k Hk].
      destruct Hc as (cp & sb & sp & Ek & Hcs & Hsb & Eob). unfold type_fits in Hfit. rewrite Ek in Hfit. destruct Hfit as (Hagg & Hwd & Hdp & Hnf & Halt & Hlag).
      destruct (generate_channels_new _ _ _ _ _ _ _ _ _ Hcs (nth_error_In _ _ Hk)) as (zc & line & dr & P2).
      destruct (new_channel_fields _ _ _ _ _ _ _ _ _ P2) as (El & Ez' & Emax & Emin & Ed & Ewd & _).
      assert (Hi : inside c (p_x P) (p_y P) (p_z P) = true).
      { rewrite (inside_spec _ _ _ _ _ _ _ _ _ P2 (proj1 Hwd) Hdp _ _ _ (proj2 Hwd)). unfold in_channel in Hpar. now rewrite El, Ez', Ed, Ewd in Hpar. }
      exists (mkAobj (ch_zmin c) (ch_zmax c) (probe_of dm cg wild (object_table strata) num k)), (channel_value c wild num k P). split.
      + apply (nth_error_In _ k). cbn. rewrite (to_objs_at _ _ _ _ _ _ _ k (mkObject (ch_zmin c) (ch_zmax c) None)); [reflexivity| |assumption|reflexivity].
        rewrite Eob, nth_error_map, Hk. reflexivity.
      + unfold hits, hit. cbn [o_check]. unfold probe_of. rewrite Ht, Hk, clean_check, Hi.
        assert (Hw : w_facies (channel_value c wild num k P) <> (-1)%Z).
        { destruct (channel_value_facies _ _ _ _ _ _ _ _ _ P2 wild num k P Halt) as [H|[[H Hz']|[_ H]]].
          - intros C. rewrite C in H. contradiction.
          - rewrite H. destruct Hlag as [Hlag|Hlag]; [|assumption]. apply (inside_bounds _ _ _ _ _ _ _ _ _ P2) in Hi; [lra|lra|lra].
          - rewrite H. apply Hwild. }
        apply Z.eqb_neq in Hw. now rewrite Hw. }
  destruct Hhit as (ob & w & Hob & Hw).
  assert (Hfirst : exists k w', first (hits hit P) (e_objs ea) 0 = Some (k, w')).
  { destruct (first (hits hit P) (e_objs ea) 0) as [[k w']|] eqn:Ef; [eauto|]. rewrite first_none in Ef. rewrite (Ef ob Hob) in Hw. discriminate. }
  destruct Hfirst as (k & w' & Hf).
  assert (Hsa : search_ae hit P ea = Some (Some k, mkIds (w_facies w') (e_num ea) (w_ha w') (e_type ea) (w_azim w') (w_dip w'))) by (unfold search_ae; now rewrite Hf).
  cbn [cell_of c_strata c_ae c_ha].
  destruct (Nat.lt_trichotomy s si) as [L|[L|L]]; [left; lia| |exfalso].
  - subst s. right. split; [reflexivity|]. rewrite <- number_before. fold num.
    pose proof (search_inv hit _ _ _ _ _ _ Hse) as (st' & e' & M1 & M2 & _ & M3 & _). rewrite Hms in M1. injection M1 as <-. cbn [t_aes] in M2.
    destruct (Nat.lt_trichotomy a ei) as [L|[L|L]].
    + left. destruct (nth_error (s_aes (fst fs)) a) as [e0|] eqn:Ea.
      2:{ apply nth_error_None in Ea. assert (ei < List.length (s_aes (fst fs)))%nat by (apply nth_error_Some; congruence). lia. }
      rewrite (to_aelems_at _ _ _ _ _ _ _ _ _ _ Ea) in M2. injection M2 as <-.
      assert (Hi : i_ae i = Z.of_nat (before si (map fst strata) + a)).
      { unfold search_ae in M3. match type of M3 with match ?u with _ => _ end = _ => destruct u as [[k0 w0]|] end;
          [|match type of M3 with (if ?u then _ else _) = _ => destruct u; [|discriminate M3] end];
        match type of M3 with Some (_, ?u) = Some (_, ?v) => assert (Ev : v = u) by congruence end; rewrite Ev; reflexivity. }
      rewrite Hi. unfold num. lia.
    + right. subst a. rewrite Hme in M2. injection M2 as <-. rewrite Hsa in M3. injection M3 as <- <-. cbn [i_ae i_ha]. split; [reflexivity|].
      apply first_some in Hf as (_ & (ob' & Q1 & Q2) & _). apply nth_error_In in Q1. apply (Hha ob' w' Q1).
      unfold hits in Q2. destruct (hit ob' P); [|discriminate]. destruct (_ =? _)%Z; congruence.
    + exfalso. rewrite (search_before hit _ _ _ _ _ _ si ei _ ea Hse Hms Hme) in Hsa by (right; auto). discriminate.
  - rewrite (search_before hit _ _ _ _ _ _ si ei _ ea Hse Hms Hme) in Hsa by (left; assumption). discriminate.
Qed.
Print Assumptions C125_shown_partial.
