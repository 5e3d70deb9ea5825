(** C34, C106: the cells of generated models. *)
From Coq Require Import List ZArith Reals Lia Lra Bool Sorted Arith.Cantor FunctionalExtensionality String.
From Verif Require Import Base Num ParseModel ConfigModel SurfaceModel SurfaceSpec SurfaceProofs SurfaceProps StrataModel StrataSpec StrataProofs StrataProofs2
  StrataProofs3 StrataProps AssignModel AssignSpec AssignProofs AssignProofs2 BuildModel BuildSpec BuildProofs BuildProofs2 AssignProps AssignProps2 FaciesModel FaciesSpec FaciesProofs FaciesProps
  TroughModel TroughSpec TroughProofs TroughProofs2 TroughProofs3 TroughProps TroughBuildSpec TroughBuild SheetModel SheetSpec SheetProps ChannelModel ChannelSpec ChannelProofs ChannelProps ChannelProps2
  FullModel FullSpec FullProofs FullProofs2 FullProofs3 FullProofs4 FullProofs5 FullProofs6.
Import ListNotations.
Local Open Scope R_scope.

Lemma centres_grid x0 dx lx l : 0 < dx -> centres x0 dx lx = Ok l ->
  (forall i c, nth_error l i = Some c -> c = x0 + dx / 2 + INR i * dx) /\ StronglySorted Rlt l.
Proof.
  intros Hd E. unfold centres in E. rewrite arange_R in E by assumption.
  assert (Etwo : @two R _ = 2) by (unfold two; numR; ring). rewrite Etwo in E.
  match type of E with Ok ?u = Ok ?v => assert (El : v = u) by congruence end. subst l. clear E. numR. split.
  - intros i c Hi. rewrite nth_error_map in Hi. destruct (nth_error (seq _ _) i) as [j|] eqn:Ej; [|discriminate].
    cbn in Hi. injection Hi as <-. pose proof Ej as Hl. apply nth_error_lt in Hl. rewrite seq_length in Hl.
    rewrite nth_error_nth' with (d := 0%nat) in Ej by (now rewrite seq_length). rewrite seq_nth in Ej by assumption. injection Ej as <-. cbn. lra.
  - generalize (Z.to_nat (nceil ((x0 + lx - (x0 + dx / 2)) / dx))) as n. intros n. generalize 0%nat as k. induction n as [|n IH]; intros k; cbn [seq map]; [constructor|].
    constructor; [apply IH|]. apply Forall_forall. intros v Hv. apply in_map_iff in Hv as (j & <- & Hj). apply in_seq in Hj.
    assert (INR (S k) <= INR j) by (apply le_INR; lia). rewrite S_INR in H. nra.
Qed.

(** C34.  Every cell of a generated model gets what the exhaustive search in the
    whole model finds.  All element types; cells as in the grid. *)
Theorem C34_generated_partial :
  forall x0 y0 z0 dx dy dz lx ly lz g fuel contacts params draws st strata dm wild,
  grid_init x0 y0 z0 dx dy dz lx ly lz = Ok g -> 0 < dx -> 0 < dy -> 0 < dz ->
  Forall (fsd_ok (columns g)) draws -> params <> [] ->
  full_generate g fuel contacts params draws = Ok (st, strata) ->
  sensible g params draws st strata ->
  (forall num oi p, wild num oi p <> (-1)%Z) ->
  (* no channels, or rows at most one metre apart *)
  ((forall fp ft, In fp params -> In ft (fp_types fp) -> ~ is_channels ft) \/ dy <= 1) ->
  Forall (fun fs : full_stratum => s_aes (fst fs) <> []) strata ->
  Forall (fun z => z <= lz) (g_z g) ->
  (forall k a z, In z (g_z g) -> col st a k <> Some z) ->
  let cg := mkCGrid (List.length (g_x g)) (List.length (g_y g)) dx in
  let m := to_model (List.length (g_y g)) (type_id_of params) (look_of wild (object_table strata)) (probe_of dm cg wild (object_table strata)) st 0 0 (map fst strata) in
  forall xi yi zi x y z, nth_error (g_x g) xi = Some x -> nth_error (g_y g) yi = Some y -> nth_error (g_z g) zi = Some z ->
  exists i si, exhaustive (fun o p => snd (o_check o unmarked p)) m (mkPoint x y z xi yi) = Some (i, si) /\
    full_arrays dm cg wild params st strata (g_x g) (g_y g) (g_z g) xi yi zi = Some (cell_of (Some (i, si))).
Proof.
  intros x0 y0 z0 dx dy dz lx ly lz g fuel contacts params draws st strata dm wild G Hdx Hdy Hdz Hd Hne E (lo & hi & Hlo & Hhi & Hdr & Hty & Hreach) Hwild Hch Haes Hz Hav cg m
    xi yi zi x y z Ex Ey Ez.
  unfold grid_init in G. apply bind_Ok in G as (gx & Gx & G). apply bind_Ok in G as (gy & Gy & G). apply bind_Ok in G as (gz & Gz & G).
  injection G as <-. cbn [g_x g_y g_z g_dx g_dy g_z0 g_lz] in *.
  destruct (centres_grid _ _ _ _ Hdx Gx) as [Cx _]. destruct (centres_grid _ _ _ _ Hdy Gy) as [Cy _]. destruct (centres_grid _ _ _ _ Hdz Gz) as [Cz Sz].
  destruct (full_every _ _ _ _ _ _ _ E Hd dm wild lo hi (fun fp ft H1 H2 => proj1 (Hty fp ft H1 H2)) (x0 + dx / 2) (y0 + dy / 2) Cx Cy Hdx Hdy gz Sz) with (xi := xi) (yi := yi) (zi := zi) (x := x) (y := y) (z := z) as [R1 R2]; auto.
  - destruct Hch as [Hch|Hch]; [left|now right]. intros fp ft H1 H2. specialize (Hch fp ft H1 H2). destruct (ft_kind ft) eqn:Ek; auto. apply Hch. now exists cp.
  - intros od (sd & d & H1 & H2 & ->). eauto.
  - intros fp ft H1 H2. exact (proj2 (Hty fp ft H1 H2)).
  - apply Forall_forall. intros v Hv. cbn [g_z0 g_lz]. rewrite Forall_forall in Hz. split; [|now apply Hz].
    apply In_nth_error in Hv as [i Hv]. rewrite (Cz i v Hv). pose proof (pos_INR i). nra.
  - cbv zeta in R1, R2. cbn [g_x g_y g_dx] in R1, R2. fold cg m in R1, R2. destruct (exhaustive _ m _) as [[i si]|]; [|now destruct R1]. eauto.
Qed.
Print Assumptions C34_generated_partial.

(** ** C106: facies of the element type that is reported *)
Lemma make_troughs_new tp g t : forall te ds l, make_troughs tp g te ds = Ok l -> In t l ->
  exists x y z a b c alpha d, new_trough (tp_type tp) x y z a b c alpha d = Ok t.
Proof.
  induction te as [|pos te IH]; intros ds l H Hin; cbn [make_troughs] in H; [injection H as <-; destruct Hin|].
  destruct ds as [|d ds]; [discriminate|]. apply bind_Ok in H as (t0 & Ht & H). apply bind_Ok in H as (r & Hr & [= <-]).
  destruct Hin as [->|Hin]; [|eauto]. unfold make_trough in Ht. destruct pos as [[x y] z]. destruct (trough_size _ _ _ _ _ _ _) as [[a b] c]. eauto 10.
Qed.
Lemma generate_channels_new fuel cp g bz tz us ds c : forall l, generate_channels fuel cp g bz tz us ds = Ok l -> In c l ->
  exists z line dr, new_channel (cc_type cp) line z (cc_width cp) (cc_depth cp) (g_dx g) (g_dy g) dr = Ok c.
Proof.
  intros l H Hin. unfold generate_channels in H. apply bind_Ok in H as (f & _ & H). apply bind_Ok in H as (zs & _ & H).
  revert H. generalize (map (uniform (- domain_width (cc_flow cp * PI / 180) (g_lx g) (g_ly g) / 2) (domain_width (cc_flow cp * PI / 180) (g_lx g) (g_ly g) / 2)) (firstn (cc_no cp) us)).
  intros ys H. revert ys ds l H Hin. induction zs as [|z zs IH]; intros ys ds l H Hin; cbn [make_channels] in H; [injection H as <-; destruct Hin|].
  apply bind_Ok in H as (r & Hr & H). apply bind_Ok in H as (rest & Hrest & [= <-]). apply in_app_or in Hin as [Hin|Hin]; [|eauto].
  apply make_level_inv in Hr. rewrite Forall_forall in Hr. destruct (Hr c Hin) as (line & dr & Hc). eauto.
Qed.
Lemma channel_check_value cg wild num oi c d p d' w : channel_check cg wild num oi c d p = (d', Some w) -> w = channel_value c wild num oi p.
Proof.
  unfold channel_check, channel_assign, channel_value. destruct (Rltb 0 _); [discriminate|]. destruct (d _ _ _); [discriminate|].
  destruct (above_parabola _ _ _); [|discriminate]. destruct (channel_write c 0 p); cbn; congruence.
Qed.

(** Every cell reports a type of its stratum, and a facies of the section of this
    type, or the background of this type.  Only types with layers may give
    something else: 0 for sheets, or what lies behind the table of layers. *)
Theorem C106_facies_of_type :
  forall g fuel contacts params draws st strata dm cg wild xs ys zs,
  Forall (fsd_ok (columns g)) draws -> full_generate g fuel contacts params draws = Ok (st, strata) ->
  forall xi yi zi x y z, nth_error xs xi = Some x -> nth_error ys yi = Some y -> nth_error zs zi = Some z ->
  exists v, full_arrays dm cg wild params st strata xs ys zs xi yi zi = Some v /\
  (v = mkCell 0 0 (-1) (-1) (-1) (Some 0) (Some 0) \/
   c_facies v <> (-1)%Z /\
   exists si fs e fp ft, c_strata v = Z.of_nat si /\ nth_error strata si = Some fs /\ In e (s_aes (fst fs)) /\
     nth_error params (List.length params - 1 - si) = Some fp /\ nth_error (fp_types fp) (ae_kind e) = Some ft /\ c_hat v = ft_id ft /\
     (In (c_facies v) (section_facies ft) \/ ~ is_sheets ft /\ c_facies v = own_background fp ft \/
      layered ft /\ (is_sheets ft /\ c_facies v = 0%Z \/ exists num oi, c_facies v = wild num oi (mkPoint x y z xi yi)))).
Proof.
  intros g fuel contacts params draws st strata dm cg wild xs ys zs Hd E xi yi zi x y z Ex Ey Ez.
  destruct (C32_arrays marks (to_model (List.length ys) (type_id_of params) (look_of wild (object_table strata)) (probe_of dm cg wild (object_table strata)) st 0 0 (map fst strata))
    xs ys zs unmarked xi yi zi x y z Ex Ey Ez) as (v & Ev & Hv).
  exists v. split; [exact Ev|]. destruct Hv as [Hv|(Hf & sn & s & e & V1 & V2 & V3 & V4 & V5 & V6)]; [now left|right]. split; [exact Hf|].
  pose proof V2 as V2'. apply to_model_nth in V2' as (s0 & Hs0 & ->). cbn [t_aes Nat.add] in V3.
  apply to_aelems_pos in V3 as (k & e0 & He0 & ->). rewrite nth_error_map in Hs0.
  match type of Hs0 with option_map _ ?x = _ => destruct x as [fs|] eqn:Efs end; [|discriminate]. cbn in Hs0. injection Hs0 as <-.
  change (nth_error strata sn = Some fs) in Efs.
  destruct (element_origin _ _ _ _ _ _ _ E Hd sn fs k e0 Efs He0) as (ob & fp & ft & od & _ & Et & Hor).
  destruct (origin_in _ _ _ _ _ _ _ _ _ _ _ Hor) as [I1 I2].
  destruct Hor as (Hfp & Hft & _ & Ebg & Hc). exists sn, fs, e0, fp, ft. split; [assumption|]. split; [assumption|]. split; [eapply nth_error_In; eauto|].
  split. { clear - Hfp. unfold pyget, pyidx in Hfp. destruct (_ && _) eqn:E1 in Hfp.
    - apply andb_true_iff in E1 as [E1 _]. apply Z.leb_le in E1. lia.
    - destruct (_ && _) eqn:E2 in Hfp; [|discriminate]. apply andb_true_iff in E2 as [E2 E3]. apply Z.leb_le in E2.
      match type of Hfp with context [nth_error params ?n] => replace n with (List.length params - 1 - sn)%nat in Hfp by lia end.
      destruct (nth_error params _); [congruence|discriminate]. }
  split; [assumption|]. split. { rewrite V5. cbn [to_aelem e_type]. unfold type_id_of. now rewrite Hfp, Hft. }
  set (num := (before sn (map fst strata) + k)%nat) in *.
  destruct V6 as [(o & d1 & d2 & w & Ho & _ & Hck & Ew & _)|(Hsh & _ & Ew & _)].
  - rewrite Ew. cbn [to_aelem e_objs] in Ho. apply In_nth_error in Ho as [j Hj]. apply to_objs_nth in Hj as (o0 & cpy & Hl & _ & ->). cbn [o_check Nat.add] in Hck.
    destruct ob as [l|l|l]; cbn in Hc.
    + destruct Hc as (lens & tr & shp & Ek & Hok & Hlen & Hall).
      assert (exists sh, nth_error l j = Some sh) as [sh Esh].
      { destruct (nth_error l j) eqn:En; [eauto|]. apply nth_error_None in En. assert (j < List.length (ae_objects e0))%nat by (apply nth_error_Some; congruence). lia. }
      rewrite Forall_forall in Hall. destruct (Hall sh (nth_error_In _ _ Esh)) as (zc & sd & _ & Hns).
      assert (is_sheets ft) by (now exists lens, tr, shp). unfold section_facies, listed_facies, layered. rewrite Ek.
      destruct (ob_surfaces o0) as [q|].
      2:{ unfold probe_of in Hck. rewrite Et in Hck. discriminate. }
      unfold sheet_probe in Hck. destruct (_ || _); [discriminate|].
      match type of Hck with (_, Some ?u) = (_, Some ?v) => assert (v = u) by congruence end. subst w.
      destruct (look_of_section _ _ _ _ _ _ wild num j (mkPoint x y z xi yi) _ Hns Et Esh) as [K|[K1 [K2|K2]]]; [now left|right; right; auto..].
      split; [assumption|]. right. eauto.
    + destruct Hc as (tp & buffer & agg & mig & te_xyz & te & zb & sp & Ek & _ & Hts & _ & _ & Eob).
      rewrite Eob, nth_error_map in Hl. destruct (nth_error l j) as [t|] eqn:Etj; [|discriminate]. cbn in Hl. injection Hl as <-. cbn [ob_surfaces] in Hck.
      unfold probe_of in Hck. rewrite Et, Etj in Hck.
      destruct (make_troughs_new _ _ t _ _ _ Hts (nth_error_In _ _ Etj)) as (x1 & y1 & z1 & a & b & c & al & dd & Hn).
      unfold section_facies, listed_facies, layered. rewrite Ek.
      destruct (trough_check_facies _ _ _ _ _ _ _ _ _ _ _ _ _ _ _ _ _ _ Hn Hck) as [K|[K1 K2]]; [now left|right; right; eauto].
    + destruct Hc as (cp & sb & sp & Ek & Hcs & _ & Eob).
      rewrite Eob, nth_error_map in Hl. destruct (nth_error l j) as [t|] eqn:Etj; [|discriminate]. cbn in Hl. injection Hl as <-. cbn [ob_surfaces] in Hck.
      unfold probe_of in Hck. rewrite Et, Etj in Hck. apply channel_check_value in Hck. subst w.
      destruct (generate_channels_new _ _ _ _ _ _ _ t _ Hcs (nth_error_In _ _ Etj)) as (z1 & line & dr & Hn).
      unfold section_facies, listed_facies, layered. rewrite Ek.
      destruct (channel_value_section _ _ _ _ _ _ _ _ _ wild num j (mkPoint x y z xi yi) Hn) as [K|[K1 K2]]; [now left|right; right; eauto].
  - right. left. rewrite Ew. cbn [to_aelem e_bg_facies]. rewrite Ebg. split; [|reflexivity].
    intros (lens & tr & shp & Ek). cbn [to_aelem e_sheet] in Hsh. destruct ob as [l|l|l]; cbn in Hc.
    + destruct Hc as (_ & _ & _ & _ & Hok & _). rewrite (is_sheet_ok st e0 Hok) in Hsh. discriminate.
    + destruct Hc as (tp & buffer & agg & mig & te_xyz & te & zb & sp & Ek' & _). congruence.
    + destruct Hc as (cp & sb & sp & Ek' & _). congruence.
Qed.
Print Assumptions C106_facies_of_type.

(** With well formed alternatives, [section_facies] are the listed facies. *)
Lemma section_listed ft : alternatives_listed ft -> incl (section_facies ft) (listed_facies ft).
Proof.
  unfold alternatives_listed, section_facies, listed_facies. intros H f Hf.
  destruct (ft_kind ft); [now apply alternatives_incl in H; apply H| |]; cbn in Hf |- *; (destruct Hf as [Hf|Hf]; [now left|right; now apply (alternatives_incl _ _ H)]).
Qed.

(** *** A model of channels over sheets

    One column, a stratum from 0 m to 10 m; the upper element holds a channel
    with its top at 8 m, the lower one, below 5 m, a massive sheet. *)
Definition fx_grid : grid R := mkGrid 0 0 0 1 1 1 1 1 10 [1/2] [1/2] (map (fun i => 1/2 + INR i) (seq 0 10)).
Definition fx_cp : channel_params := mkCParams 1 0 2 4 2 (1 / 2) None 0 (ex_ct (S_ "massive") 0).
Definition fx_sheet : sheet_type := mkSheetType (S_ "massive") [5%Z] None (0, 0) (0, 0) 0.
Definition fx_types : list full_type :=
  [mkFT 4 (mkContact (S_ "flat") None None) (mkBg None None None) (PChannels fx_cp);
   mkFT 9 (mkContact (S_ "flat") None None) (mkBg None None None) (PSheets (-1) None fx_sheet)].
Definition fx_params : list full_params := [mkFP fx_types 0 (mkSbg 8%Z None None)].
Definition fx_od : object_draws := mkOD [mkShD 0 0 0 0 (fun n => n)] [] [] [0] (fun _ => [ex_ld]).
Definition fx_draws : list full_stratum_draws :=
  [mkFSD [0] 0 [mkFD 5 1 0 1 [0] fx_od; mkFD 9 1 0 0 [0] fx_od]].
Definition fx_channel : channel :=
  mkChannel ex_line 8 (8 - 2) 8 2 4 (4 * 2 / 4 ^ 2) (Rmin 1 1) 0 7 false 0 0 (uniform 0 0 0) 0 0 0 3 0 [].
Definition flatS (z : R) : surface R := mkSurface [z] z z z.
Lemma fx_channel_ok : new_channel (ex_ct (S_ "massive") 0) ex_line 8 4 2 1 1 ex_cd = Ok fx_channel.
Proof. reflexivity. Qed.
Lemma fx_objects b : b = 5 -> make_objects fx_grid 5 (PChannels fx_cp) (flatS b) (flatS 10) fx_od = Ok (OChannels [fx_channel]).
Proof.
  intros ->. unfold make_objects, generate_channels. cbn [fx_cp cc_trend first_zfactor bind cc_agg cc_depth cc_buffer channel_levels flatS zmean].
  do 2 (match goal with |- context [Rltb ?a ?b] =>
    first [replace (Rltb a b) with true by (symmetry; apply Rltb_true; lra) | replace (Rltb a b) with false by (symmetry; apply Rltb_false; lra)] end; cbn [channel_levels bind]).
  replace (10 - 2) with 8 by lra. reflexivity.
Qed.
Definition z5 : R := 10 - (5 + 0).
Lemma z5_eq : z5 = 5. Proof. unfold z5. lra. Qed.
Definition fx_st0 : store R := [flatS 10; flatS 0; flatS z5].
Definition fx_ae1 : ae R := mkAE 2 0 z5 10 [mkObject (8 - 2) 8 None] [([], [])] 8 None None 0.
Definition fx_ae2 : ae R := mkAE 1 2 0 z5 [mkObject 0 z5 (Some (1, 2)%nat)] [([0], [z5])] 8 None None 1.
Lemma fx_full_ae1 : full_ae fx_grid 5 fx_st0 (nth 0 fx_types (mkFT 0 (flat_contact 0) (mkBg None None None) (PChannels fx_cp))) 0 (mkSbg 8%Z None None) 2 0 fx_od = Ok (fx_st0, (fx_ae1, OChannels [fx_channel])).
Proof.
  unfold full_ae. change (getS fx_st0 2) with (Ok (flatS z5)). change (getS fx_st0 0) with (Ok (flatS 10)). cbn [bind fx_types nth ft_kind].
  rewrite (fx_objects z5 z5_eq). cbn [bind extents map fx_channel ch_zmin ch_zmax].
  unfold new_ae. change (getS fx_st0 2) with (Ok (flatS z5)). change (getS fx_st0 0) with (Ok (flatS 10)). cbn [bind].
  cbn [base_type t_geometry ft_kind fold_left add_object fst snd flatS zmin zmax ob_zmin ob_zmax].
  unfold z5 at 1. reval. reflexivity.
Qed.
Lemma fx_full_ae2 : full_ae fx_grid 5 fx_st0 (nth 1 fx_types (mkFT 0 (flat_contact 0) (mkBg None None None) (PChannels fx_cp))) 1 (mkSbg 8%Z None None) 1 2 fx_od =
  Ok (fx_st0, (fx_ae2, OSheets [mkSheet false 0 0 0 0 0 (uniform 0 0 0) (uniform 0 0 0) 5 0 []])).
Proof.
  unfold full_ae. change (getS fx_st0 1) with (Ok (flatS 0)). change (getS fx_st0 2) with (Ok (flatS z5)). cbn [bind fx_types nth ft_kind make_objects extents].
  unfold new_ae. change (getS fx_st0 1) with (Ok (flatS 0)). change (getS fx_st0 2) with (Ok (flatS z5)). cbn [bind base_type t_geometry ft_kind].
  assert (Et : sheet_thickness fx_grid (-1) None (zmin (flatS 0)) (zmax (flatS z5)) = z5 - 0).
  { unfold sheet_thickness, neqb. numR. destruct (Rleb_spec (-1) (0 - 1)); [|lra]. destruct (Rleb_spec (0 - 1) (-1)); [|lra]. reflexivity. }
  rewrite Et.
  assert (El : sheet_loop 5 (columns fx_grid) fx_st0 1 2 (z5 - 0) (zmax (flatS z5) - (z5 - 0)) ([], zmin (flatS 0), zmax (flatS z5)) =
    Ok (fx_st0, ([mkObject 0 z5 (Some (1, 2)%nat)], 0, z5))).
  { cbn [sheet_loop flatS zmin zmax]. numR. destruct (Rleb_spec (z5 - (z5 - 0)) 0); [|lra]. cbn [negb].
    change (getS fx_st0 1) with (Ok (flatS 0)). change (getS fx_st0 2) with (Ok (flatS z5)). cbn [bind flatS zmin zmax add_object ob_zmin ob_zmax app]. numR.
    destruct (Rleb_spec 0 0); [|lra]. destruct (Rleb_spec z5 z5); [|lra]. reflexivity. }
  numR. rewrite El. reflexivity.
Qed.
Definition fx_strata : list full_stratum :=
  [(mkStratum 1 0 0 10 [fx_ae1; fx_ae2], [OChannels [fx_channel]; OSheets [mkSheet false 0 0 0 0 0 (uniform 0 0 0) (uniform 0 0 0) 5 0 []]])].
Lemma fx_runs : full_generate fx_grid 5 [] fx_params fx_draws = Ok (fx_st0, fx_strata).
Proof.
  unfold full_generate. cbn [fx_draws fx_params full_model_loop List.length Nat.eqb].
  assert (E1 : new_surface (columns fx_grid) (flat_contact (g_lz fx_grid)) [] = Ok (flatS 10)) by reflexivity. rewrite E1. cbn [bind alloc app List.length].
  assert (E2 : new_surface (columns fx_grid) (flat_contact (g_z0 fx_grid)) [] = Ok (flatS 0)) by reflexivity. rewrite E2. cbn [bind alloc app List.length].
  assert (E3 : use_lower [flatS 10; flatS 0] 1 0 = Ok [flatS 10; flatS 0]) by (reval; reflexivity).
  rewrite E3. cbn [bind pyget]. change (pyget fx_params (-1 - Z.of_nat 0)) with (Ok (mkFP fx_types 0 (mkSbg 8%Z None None))).
  cbn [bind]. unfold new_full_stratum. change (getS [flatS 10; flatS 0] 1) with (Ok (flatS 0)). change (getS [flatS 10; flatS 0] 0) with (Ok (flatS 10)). cbn [bind].
  cbn [fsd_draws fsd_first full_stratum_loop].
  change (getS [flatS 10; flatS 0] 1) with (Ok (flatS 0)). cbn [bind flatS zmean]. destruct (Rleb_spec 10 0); [lra|].
  change (choose (fp_types (mkFP fx_types 0 (mkSbg 8%Z None None))) 0) with (Ok (nth 0 fx_types (mkFT 0 (flat_contact 0) (mkBg None None None) (PChannels fx_cp)))).
  cbn [bind fd_next]. change (choose (fp_types (mkFP fx_types 0 (mkSbg 8%Z None None))) 1) with (Ok (nth 1 fx_types (mkFT 0 (flat_contact 0) (mkBg None None None) (PChannels fx_cp)))).
  assert (En : next_depth 0 10 (base_draw (mkFD 5 1 0 1 [0] fx_od) []) = z5).
  { unfold next_depth. cbn [base_draw d_height d_u d_avul fd_height fd_u fd_avul]. numR. destruct (Rleb_spec 1 0); [lra|]. reflexivity. }
  cbn [bind fp_avul_prob zmean flatS]. rewrite En. pose proof z5_eq. destruct (Rleb_spec z5 0); [lra|].
  assert (E4 : new_surface (columns fx_grid) (set_z (ft_contact (nth 1 fx_types (mkFT 0 (flat_contact 0) (mkBg None None None) (PChannels fx_cp)))) z5) [0] = Ok (flatS z5)) by reflexivity.
  cbn [fd_field]. rewrite E4. cbn [bind alloc app List.length]. fold (flatS 10) (flatS 0) (flatS z5). fold fx_st0.
  assert (E5 : use_lower fx_st0 2 0 = Ok fx_st0). { cbn. numR. destruct (Rleb_spec z5 10); [|lra]. cbn. reflexivity. } rewrite E5. cbn [bind].
  assert (E6 : use_higher fx_st0 2 1 = Ok fx_st0). { cbn. numR. destruct (Rleb_spec 0 z5); [|lra]. cbn. reflexivity. } rewrite E6. cbn [bind fp_bg fd_objects].
  rewrite fx_full_ae1. cbn [bind fst fx_ae1 ae_zmin ae_zmax].
  change (getS fx_st0 1) with (Ok (flatS 0)). cbn [bind flatS zmean zmin zmax]. destruct (Rleb_spec z5 0); [lra|].
  change (choose (fp_types (mkFP fx_types 0 (mkSbg 8%Z None None))) 1) with (Ok (nth 1 fx_types (mkFT 0 (flat_contact 0) (mkBg None None None) (PChannels fx_cp)))).
  cbn [bind fd_next]. change (choose (fp_types (mkFP fx_types 0 (mkSbg 8%Z None None))) 0) with (Ok (nth 0 fx_types (mkFT 0 (flat_contact 0) (mkBg None None None) (PChannels fx_cp)))).
  cbn [bind fp_avul_prob].
  assert (En2 : Rleb (next_depth 0 z5 (base_draw (mkFD 9 1 0 0 [0] fx_od) [])) 0 = true).
  { apply Rleb_true. unfold next_depth. cbn [base_draw d_height d_u d_avul fd_height fd_u fd_avul]. numR. destruct (Rleb_spec 1 0); lra. }
  rewrite En2. cbn [bind].
  assert (E7 : use_lower fx_st0 1 2 = Ok fx_st0). { cbn. numR. destruct (Rleb_spec 0 z5); [|lra]. cbn. reflexivity. } rewrite E7. cbn [bind].
  assert (E8 : use_higher fx_st0 1 1 = Ok fx_st0). { cbn. numR. destruct (Rleb_spec 0 0); [|lra]. cbn. reflexivity. } rewrite E8. cbn [bind fd_objects].
  rewrite fx_full_ae2. cbn [bind fst fx_ae2 ae_zmin ae_zmax app].
  change (getS fx_st0 1) with (Ok (flatS 0)). cbn [bind flatS zmean]. destruct (Rleb_spec 0 0); [|lra]. cbn [bind map fst snd app].
  unfold fx_strata. repeat match goal with |- context [Rltb ?a ?b] => match a with context [Rltb] => fail 1 | _ => match b with context [Rltb] => fail 1 | _ =>
    first [replace (Rltb a b) with true by (symmetry; apply Rltb_true; lra) | replace (Rltb a b) with false by (symmetry; apply Rltb_false; lra)] end end end.
  reflexivity.
Qed.

Lemma fx_centres n lx : INR n = lx -> centres 0 1 lx = Ok (map (fun i => 1/2 + INR i) (seq 0 n)).
Proof.
  intros <-. unfold centres. rewrite arange_R by lra.
  assert (Etwo : @two R _ = 2) by (unfold two; numR; ring). rewrite Etwo. numR.
  replace ((0 + INR n - (0 + 1 / 2)) / 1) with (INR n - / 2) by field.
  rewrite (nceil_R_unique _ (Z.of_nat n)) by (rewrite <- INR_IZR_INZ; lra). rewrite Nat2Z.id.
  f_equal. apply map_ext. intros i. lra.
Qed.
Lemma fx_grid_ok : grid_init 0 0 0 1 1 1 1 1 10 = Ok fx_grid.
Proof.
  unfold grid_init. rewrite (fx_centres 1 1) by reflexivity. rewrite (fx_centres 10 10) by (cbn; lra).
  assert (E : map (fun i => 1/2 + INR i) (seq 0 1) = [1/2]) by (cbn; f_equal; lra). rewrite E. reflexivity.
Qed.
Lemma fx_col a k v : col fx_st0 a k = Some v -> (v = 10 \/ v = 0 \/ v = z5) /\ (a < 3)%nat.
Proof.
  unfold col. destruct a as [|[|[|a]]]; cbn; try (destruct a; discriminate); destruct k as [|k]; cbn; try (destruct k; discriminate); intros [= <-]; auto.
Qed.
Lemma fx_sensible : sensible fx_grid fx_params fx_draws fx_st0 fx_strata.
Proof.
  pose proof z5_eq as H5. exists 0, 10. split; [|split; [|split; [|split]]].
  - intros a k v H. apply fx_col in H as [[->|[->| ->]] _]; lra.
  - repeat constructor; cbn; lra.
  - intros sd d [<-|[]] [<-|[<-|[]]]; constructor.
  - intros fp ft [<-|[]] [<-|[<-|[]]].
    + split; [|right; discriminate]. cbn. pose proof ex_width. cbn in *. repeat split; try lra; intuition discriminate.
    + split; [|left; repeat eexists]. cbn. split; [intuition discriminate|exact I].
  - intros si fs e fp ft Hs He Hp Hf. destruct si as [|si]; [|destruct si; discriminate]. injection Hs as <-. injection Hp as <-.
    destruct He as [<-|[<-|[]]]; cbn in Hf; injection Hf as <-; cbn; [|exact I].
    intros k v s [= <-] H. destruct k as [|k]; [|destruct k; discriminate]. injection H as <-. cbn. lra.
Qed.
Definition fx_cg : cgrid := mkCGrid 1 1 1.
Definition fx_m : list (astrat R marks) :=
  to_model 1 (type_id_of fx_params) (look_of (fun _ _ _ => 0%Z) (object_table fx_strata)) (probe_of (flat 1 1) fx_cg (fun _ _ _ => 0%Z) (object_table fx_strata)) fx_st0 0 0 (map fst fx_strata).

Example C34_generated_example : forall zi z, nth_error (g_z fx_grid) zi = Some z ->
  exists i si, exhaustive (fun o p => snd (o_check o unmarked p)) fx_m (mkPoint (1/2) (1/2) z 0 0) = Some (i, si) /\
    full_arrays (flat 1 1) fx_cg (fun _ _ _ => 0%Z) fx_params fx_st0 fx_strata (g_x fx_grid) (g_y fx_grid) (g_z fx_grid) 0 0 zi = Some (cell_of (Some (i, si))).
Proof.
  pose proof z5_eq as H5. assert (Hz : forall z, In z (g_z fx_grid) -> exists i, (i < 10)%nat /\ z = 1 / 2 + INR i).
  { intros z H. apply in_map_iff in H as (i & <- & H). apply in_seq in H. exists i. split; [lia|reflexivity]. }
  intros zi z Ez.
  apply (C34_generated_partial 0 0 0 1 1 1 1 1 10 fx_grid 5 [] fx_params fx_draws fx_st0 fx_strata (flat 1 1) (fun _ _ _ => 0%Z) fx_grid_ok); try lra; auto.
  - repeat constructor.
  - discriminate.
  - exact fx_runs.
  - exact fx_sensible.
  - discriminate.
  - repeat constructor; discriminate.
  - apply Forall_forall. intros v Hv. destruct (Hz v Hv) as (i & Hi & ->). assert (INR (S i) <= INR 10) by (apply le_INR; lia). rewrite S_INR in H. replace (INR 10) with 10 in H by (cbn; lra). lra.
  - intros k a v Hv Hc. apply fx_col in Hc as [Hc _]. destruct (Hz v Hv) as (i & Hi & ->).
    do 10 (destruct i as [|i]; [cbn in Hc; lra|]). lia.
Qed.
(** The cell at 7.5 m lies in the channel (facies 3, type 4). *)
Example C34_generated_example_cell : exists v,
  full_arrays (flat 1 1) fx_cg (fun _ _ _ => 0%Z) fx_params fx_st0 fx_strata (g_x fx_grid) (g_y fx_grid) (g_z fx_grid) 0 0 7 = Some v /\
  c_facies v = 3%Z /\ c_hat v = 4%Z /\ c_strata v = 0%Z /\ c_ae v = 0%Z.
Proof.
  destruct (C34_generated_example 7 (1/2 + INR 7) eq_refl) as (i & si & He & Hv).
  rewrite Hv. eexists. split; [reflexivity|].
  assert (Ei : inside fx_channel (1/2) (1/2) (1/2 + INR 7) = true).
  { apply (inside_spec _ _ _ _ _ _ _ _ _ fx_channel_ok); [lra|lra|exact (proj2 ex_width)|]. replace (INR 7) with 7 by (cbn; lra).
    split; [lra|]. exists (mkCP 0 0 1 0). split; [now left|]. cbn [cp_x cp_y]. split; [|lra]. intros q [<-|[<-|[]]]; cbn [cp_x cp_y]; lra. }
  assert (Ec : snd (channel_check fx_cg (fun _ _ _ => 0%Z) 0 0 fx_channel unmarked (mkPoint (1/2) (1/2) (1/2 + INR 7) 0 0)) =
    Some (channel_value fx_channel (fun _ _ _ => 0%Z) 0 0 (mkPoint (1/2) (1/2) (1/2 + INR 7) 0 0))).
  { rewrite clean_check. cbn [p_x p_y p_z]. now rewrite Ei. }
  assert (Ew : w_facies (channel_value fx_channel (fun _ _ _ => 0%Z) 0 0 (mkPoint (1/2) (1/2) (1/2 + INR 7) 0 0)) = 3%Z).
  { unfold channel_value. unfold channel_write. cbn [p_x p_y p_z fx_channel ch_ztop ch_depth ch_lag ch_dipsets ch_facies].
    replace (Rltb (1/2 + INR 7) (8 - 2 + 0)) with false; [reflexivity|]. symmetry. apply Rltb_false. replace (INR 7) with 7 by (cbn; lra). lra. }
  destruct (channel_value _ _ _ _ _) as [f az dp ha]. cbn [w_facies] in Ew. subst f.
  revert He. unfold exhaustive, search, fx_m. cbn [fx_strata map fst to_model first search_stratum t_aes s_aes to_aelems].
  unfold search_stratum. cbn [t_aes first]. unfold search_ae at 1. cbn [to_aelem e_objs fx_ae1 ae_objects ae_copies to_objs first ob_surfaces].
  unfold hits at 1. cbn [o_check]. unfold probe_of at 1.
  change (nth_error (object_table fx_strata) 0) with (Some (OChannels [fx_channel])). cbv iota.
  change (nth_error [fx_channel] 0) with (Some fx_channel). cbv iota. rewrite Ec. cbn [Z.eqb w_facies].
  intros [= <- <-]. cbn. repeat split.
Qed.

Example C106_example : exists v,
  full_arrays (flat 1 1) fx_cg (fun _ _ _ => 0%Z) fx_params fx_st0 fx_strata (g_x fx_grid) (g_y fx_grid) (g_z fx_grid) 0 0 7 = Some v /\
  c_hat v = 4%Z /\ In (c_facies v) (listed_facies (nth 0 fx_types (mkFT 0 (flat_contact 0) (mkBg None None None) (PChannels fx_cp)))) /\
  (v = mkCell 0 0 (-1) (-1) (-1) (Some 0) (Some 0) \/ c_facies v <> (-1)%Z /\
   exists si fs e fp ft, c_strata v = Z.of_nat si /\ nth_error fx_strata si = Some fs /\ In e (s_aes (fst fs)) /\
     nth_error fx_params (List.length fx_params - 1 - si) = Some fp /\ nth_error (fp_types fp) (ae_kind e) = Some ft /\ c_hat v = ft_id ft /\
     (In (c_facies v) (section_facies ft) \/ ~ is_sheets ft /\ c_facies v = own_background fp ft \/
      layered ft /\ (is_sheets ft /\ c_facies v = 0%Z \/ exists num oi : nat, c_facies v = 0%Z))).
Proof.
  destruct C34_generated_example_cell as (v & E & Ef & Eh & _). exists v. split; [exact E|]. split; [exact Eh|].
  split; [rewrite Ef; right; now left|].
  destruct (C106_facies_of_type fx_grid 5 [] fx_params fx_draws fx_st0 fx_strata (flat 1 1) fx_cg (fun _ _ _ => 0%Z) (g_x fx_grid) (g_y fx_grid) (g_z fx_grid)) with (xi := 0%nat) (yi := 0%nat) (zi := 7%nat) (x := 1/2) (y := 1/2) (z := 1/2 + INR 7) as (v' & E' & H);
    try reflexivity; [repeat constructor|exact fx_runs|].
  - assert (v' = v) as -> by congruence. exact H.
Qed.

(** *** C106 is false for sheets of dipping layers

    Two sheets of one element whose tables differ in length: the shorter one
    is padded with 0, and a cell of the domain reads the padding. *)
Definition pad_draw (u : R) : sheet_draw := mkShD 0 0 u 0 (fun n => n).
Definition pad_store : store R := [flatS 0; flatS (1/2); flatS 1].
Definition pad_objects : list (object R) := [mkObject (1/2) 1 (Some (1, 2)%nat); mkObject 0 (1/2) (Some (0, 1)%nat)].
Definition pad_point : point R := mkPoint (756 + 1/2) (1/2) (3/4) 756 0.
Lemma pad_sheet u zc n : (500 + u + 1 <= IZR n < 500 + u + 2) -> (0 <= n)%Z ->
  exists sh, new_sheet (steep 180) long_grid zc (pad_draw u) = Ok sh /\ sh_num sh = (n + 10)%Z /\ sh_dipsets sh = true /\ List.length (sh_array sh) = Z.to_nat (n + 10) /\
    forall p, sheet_layer sh p = (ntrunc (p_x p - 500 - u)%R + (n + 10) / 2)%Z.
Proof.
  intros Hn Hn0. unfold new_sheet. cbn [steep st_structure st_azimuth st_dip st_dipset_dist fst snd pad_draw shd_azim shd_dip shd_shift shd_array st_facies st_altfacies].
  rewrite pystr_eqb_refl, !deg_uniform, deg90, deg180, sin_PI2, cos_PI, sin_PI, cos_PI2, max3_ly.
  cbn [long_grid g_x0 g_y0 g_lx g_ly g_lz]. rewrite (Rmax_left 1 1) by lra.
  match goal with |- context [alternating_facies ?m] => replace m with (n + 10)%Z end.
  - destruct (C51_never_fails (n + 10) [2; 5]%Z None (fun n => n)) as [l El]; [lia|discriminate|exact I|]. rewrite El. cbn [bind].
    eexists. split; [reflexivity|]. cbn [sh_num sh_dipsets sh_array]. split; [reflexivity|]. split; [reflexivity|].
    split; [pose proof (proj1 (C51_sequence _ _ _ _ _ El)); lia|]. intros p. unfold sheet_layer. cbn [sh_nx sh_ny sh_nz sh_shift sh_layer_dist sh_num]. f_equal. f_equal. field.
  - f_equal. symmetry. apply nceil_R_unique. lra.
Qed.
Theorem C106_dip_sheets_refuted :
  exists l, make_sheets long_grid pad_store (steep 180) pad_objects [pad_draw 0; pad_draw (1/2)] = Ok l /\
    in_grid long_grid pad_point /\
    alternatives_listed (mkFT 9 (flat_contact 0) (mkBg None None None) (PSheets (1/2) None (steep 180))) /\
    listed_facies (mkFT 9 (flat_contact 0) (mkBg None None None) (PSheets (1/2) None (steep 180))) = [2; 5]%Z /\
    forall wild, w_facies (look_of wild [OSheets l] 0 0 pad_point) = 0%Z.
Proof.
  destruct (pad_sheet 0 (zmean (flatS (1/2))) 501) as (s1 & E1 & N1 & D1 & A1 & L1); [lra|lia|].
  destruct (pad_sheet (1/2) (zmean (flatS 0)) 502) as (s2 & E2 & N2 & D2 & A2 & L2); [lra|lia|].
  exists [s1; s2]. split.
  { unfold make_sheets, pad_objects. cbn [ob_surfaces]. change (getS pad_store 1) with (Ok (flatS (1/2))). change (getS pad_store 0) with (Ok (flatS 0)). cbn [bind].
    rewrite E1. cbn [bind]. rewrite E2. reflexivity. }
  split; [unfold in_grid; cbn; lra|]. split; [exact I|]. split; [reflexivity|]. intros wild. unfold look_of. cbn [nth_error].
  assert (Ew : row_width [s1; s2] = 512%Z) by (unfold row_width; cbn [map fold_right]; rewrite N1, N2; reflexivity). rewrite Ew.
  unfold sheet_write. rewrite D1, (L1 pad_point). cbn [pad_point p_x].
  assert (Et : ntrunc (756 + 1/2 - 500 - 0)%R = 256%Z).
  { unfold ntrunc. numR. destruct (Rleb_spec 0 (756 + 1/2 - 500 - 0)); [|lra]. apply Int_part_unique. lra. }
  rewrite Et. change (256 + (501 + 10) / 2)%Z with (Z.of_nat 511).
  assert (Er : nth_error (facies_row 512 s1) 511 = Some 0%Z).
  { unfold facies_row. rewrite nth_error_app2 by lia. rewrite A1, N1. reflexivity. }
  unfold pyget, pyidx. assert (Hlen : List.length (facies_row 512 s1) = 512%nat) by (unfold facies_row; rewrite app_length, repeat_length, A1, N1; reflexivity).
  rewrite Hlen. change (Z.to_nat (Z.of_nat 511)) with 511%nat. destruct (_ && _) eqn:Eb; [|discriminate]. change (Pos.to_nat 511) with 511%nat. rewrite Er. reflexivity.
Qed.
Print Assumptions C106_dip_sheets_refuted.
