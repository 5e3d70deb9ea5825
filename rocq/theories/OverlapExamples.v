(** C140: a model in which two channels of one level overlap. *)
From Coq Require Import List ZArith Bool Ascii String Reals Lia Lra Sorted.
From Verif Require Import Base Num ParseModel ConfigModel ConfigSpec ConfigProofs ConfigProofs2 DeprecatedModel DeprecatedSpec DeprecatedProofs SurfaceModel SurfaceSpec SurfaceProofs
  StrataModel StrataSpec StrataProofs StrataProofs2 StrataProps AssignModel AssignSpec AssignProofs AssignProofs2 AssignProps AssignProps2 BuildModel BuildSpec BuildProofs BuildProofs2 FaciesModel TroughModel TroughSpec TroughProofs TroughProps TroughBuildSpec TroughBuild SheetModel ChannelModel ChannelSpec ChannelProofs ChannelProps ChannelProps2
  FullModel FullSpec FullProofs FullProofs2 FullProofs3 FullProofs4 FullProofs5 FullProofs6 FullProps LinkModel LinkSpec LinkProofs LinkProps SizeSpec SizeProofs SizeProps PlaceSpec PlaceProps OverlapSpec OverlapProps.
Import ListNotations.
Local Open Scope R_scope.

(** The model of C34's example with two channels per level; the first one
    drawn has facies 3, the second one facies 6. *)
Definition ox_ct : channel_type := mkCType (S_ "massive") [3%Z; 6%Z] None (0, 0) 0 7 1.
Definition ox_ld (n : nat) : level_draw := mkLD (fun _ _ => Ok ex_line) 0 (mkCD 0 0 n (fun _ => 0%nat)).
Definition ox_cp : channel_params := mkCParams 2 0 2 4 2 (1 / 2) None 0 ox_ct.
Definition ox_types : list full_type :=
  [mkFT 4 (mkContact (S_ "flat") None None) (mkBg None None None) (PChannels ox_cp);
   mkFT 9 (mkContact (S_ "flat") None None) (mkBg None None None) (PSheets (-1) None fx_sheet)].
Definition ox_params : list full_params := [mkFP ox_types 0 (mkSbg 8%Z None None)].
Definition ox_od : object_draws := mkOD [mkShD 0 0 0 0 (fun n => n)] [] [] [0; 0] (fun _ => [ox_ld 0; ox_ld 1]).
Definition ox_draws : list full_stratum_draws :=
  [mkFSD [0] 0 [mkFD 5 1 0 1 [0] ox_od; mkFD 9 1 0 0 [0] ox_od]].
Definition ox_channel (f : Z) : channel :=
  mkChannel ex_line 8 (8 - 2) 8 2 4 (4 * 2 / 4 ^ 2) (Rmin 1 1) 0 7 false 0 0 (uniform 0 0 0) 0 0 0 f 0 [].
Lemma ox_channel_ok n f : nth_error [3%Z; 6%Z] n = Some f -> new_channel ox_ct ex_line 8 4 2 1 1 (ld_channel (ox_ld n)) = Ok (ox_channel f).
Proof. destruct n as [|[|[|n]]]; intros [= <-]; reflexivity. Qed.
Lemma ox_objects b : b = 5 -> make_objects fx_grid 5 (PChannels ox_cp) (flatS b) (flatS 10) ox_od = Ok (OChannels [ox_channel 3; ox_channel 6]).
Proof.
  intros ->. unfold make_objects, generate_channels. cbn [ox_cp cc_trend first_zfactor bind cc_agg cc_depth cc_buffer channel_levels flatS zmean].
  do 2 (match goal with |- context [Rltb ?a ?b] =>
    first [replace (Rltb a b) with true by (symmetry; apply Rltb_true; lra) | replace (Rltb a b) with false by (symmetry; apply Rltb_false; lra)] end; cbn [channel_levels bind]).
  replace (10 - 2) with 8 by lra. reflexivity.
Qed.
Definition ox_ae1 : ae R := mkAE 2 0 z5 10 [mkObject (8 - 2) 8 None; mkObject (8 - 2) 8 None] [([], []); ([], [])] 8 None None 0.
Definition ox_ae2 : ae R := mkAE 1 2 0 z5 [mkObject 0 z5 (Some (1, 2)%nat)] [([0], [z5])] 8 None None 1.
Lemma ox_full_ae1 : full_ae fx_grid 5 fx_st0 (nth 0 ox_types (mkFT 0 (flat_contact 0) (mkBg None None None) (PChannels ox_cp))) 0 (mkSbg 8%Z None None) 2 0 ox_od = Ok (fx_st0, (ox_ae1, OChannels [ox_channel 3; ox_channel 6])).
Proof.
  unfold full_ae. change (getS fx_st0 2) with (Ok (flatS z5)). change (getS fx_st0 0) with (Ok (flatS 10)). cbn [bind ox_types nth ft_kind].
  rewrite (ox_objects z5 z5_eq). cbn [bind extents map ox_channel ch_zmin ch_zmax].
  unfold new_ae. change (getS fx_st0 2) with (Ok (flatS z5)). change (getS fx_st0 0) with (Ok (flatS 10)). cbn [bind].
  cbn [base_type t_geometry ft_kind fold_left add_object fst snd flatS zmin zmax ob_zmin ob_zmax].
  assert (E0 : Rleb z5 (8 - 2) = true) by (apply Rleb_true; rewrite z5_eq; lra). reval. rewrite ?E0. reflexivity.
Qed.
Lemma ox_full_ae2 : full_ae fx_grid 5 fx_st0 (nth 1 ox_types (mkFT 0 (flat_contact 0) (mkBg None None None) (PChannels ox_cp))) 1 (mkSbg 8%Z None None) 1 2 ox_od =
  Ok (fx_st0, (ox_ae2, OSheets [mkSheet false 0 0 0 0 0 (uniform 0 0 0) (uniform 0 0 0) 5 0 []])).
Proof.
  unfold full_ae. change (getS fx_st0 1) with (Ok (flatS 0)). change (getS fx_st0 2) with (Ok (flatS z5)). cbn [bind ox_types nth ft_kind make_objects extents].
  unfold new_ae. change (getS fx_st0 1) with (Ok (flatS 0)). change (getS fx_st0 2) with (Ok (flatS z5)). cbn [bind base_type t_geometry ft_kind].
  assert (Et : sheet_thickness fx_grid (-1) None (zmin (flatS 0)) (zmax (flatS z5)) = z5 - 0).
  { unfold sheet_thickness, neqb. numR. destruct (Rleb_spec (-1) (0 - 1)); [|lra]. destruct (Rleb_spec (0 - 1) (-1)); [|lra]. reflexivity. }
  rewrite Et.
  assert (El : sheet_loop 5 (columns fx_grid) fx_st0 1 2 (z5 - 0) (zmax (flatS z5) - (z5 - 0)) ([], zmin (flatS 0), zmax (flatS z5)) =
    Ok (fx_st0, ([mkObject 0 z5 (Some (1, 2)%nat)], 0, z5))).
  { cbn [sheet_loop flatS zmin zmax]. numR. destruct (Rleb_spec (z5 - (z5 - 0)) 0); [|lra]. cbn [negb].
    change (getS fx_st0 1) with (Ok (flatS 0)). change (getS fx_st0 2) with (Ok (flatS z5)). cbn [bind flatS zmin zmax add_object ob_zmin ob_zmax app]. numR.
    destruct (Rleb_spec 0 0); [|lra]. destruct (Rleb_spec z5 z5); [|lra]. reflexivity. }
  numR. rewrite El. reflexivity.
Qed.
Definition ox_strata : list full_stratum :=
  [(mkStratum 1 0 0 10 [ox_ae1; ox_ae2], [OChannels [ox_channel 3; ox_channel 6]; OSheets [mkSheet false 0 0 0 0 0 (uniform 0 0 0) (uniform 0 0 0) 5 0 []]])].
Lemma ox_runs : full_generate fx_grid 5 [] ox_params ox_draws = Ok (fx_st0, ox_strata).
Proof.
  unfold full_generate. cbn [ox_draws ox_params full_model_loop List.length Nat.eqb].
  assert (E1 : new_surface (columns fx_grid) (flat_contact (g_lz fx_grid)) [] = Ok (flatS 10)) by reflexivity. rewrite E1. cbn [bind alloc app List.length].
  assert (E2 : new_surface (columns fx_grid) (flat_contact (g_z0 fx_grid)) [] = Ok (flatS 0)) by reflexivity. rewrite E2. cbn [bind alloc app List.length].
  assert (E3 : use_lower [flatS 10; flatS 0] 1 0 = Ok [flatS 10; flatS 0]) by (reval; reflexivity).
  rewrite E3. cbn [bind pyget]. change (pyget ox_params (-1 - Z.of_nat 0)) with (Ok (mkFP ox_types 0 (mkSbg 8%Z None None))).
  cbn [bind]. unfold new_full_stratum. change (getS [flatS 10; flatS 0] 1) with (Ok (flatS 0)). change (getS [flatS 10; flatS 0] 0) with (Ok (flatS 10)). cbn [bind].
  cbn [fsd_draws fsd_first full_stratum_loop].
  change (getS [flatS 10; flatS 0] 1) with (Ok (flatS 0)). cbn [bind flatS zmean]. destruct (Rleb_spec 10 0); [lra|].
  change (choose (fp_types (mkFP ox_types 0 (mkSbg 8%Z None None))) 0) with (Ok (nth 0 ox_types (mkFT 0 (flat_contact 0) (mkBg None None None) (PChannels ox_cp)))).
  cbn [bind fd_next]. change (choose (fp_types (mkFP ox_types 0 (mkSbg 8%Z None None))) 1) with (Ok (nth 1 ox_types (mkFT 0 (flat_contact 0) (mkBg None None None) (PChannels ox_cp)))).
  assert (En : next_depth 0 10 (base_draw (mkFD 5 1 0 1 [0] ox_od) []) = z5).
  { unfold next_depth. cbn [base_draw d_height d_u d_avul fd_height fd_u fd_avul]. numR. destruct (Rleb_spec 1 0); [lra|]. reflexivity. }
  cbn [bind fp_avul_prob zmean flatS]. rewrite En. pose proof z5_eq. destruct (Rleb_spec z5 0); [lra|].
  assert (E4 : new_surface (columns fx_grid) (set_z (ft_contact (nth 1 ox_types (mkFT 0 (flat_contact 0) (mkBg None None None) (PChannels ox_cp)))) z5) [0] = Ok (flatS z5)) by reflexivity.
  cbn [fd_field]. rewrite E4. cbn [bind alloc app List.length]. fold (flatS 10) (flatS 0) (flatS z5). fold fx_st0.
  assert (E5 : use_lower fx_st0 2 0 = Ok fx_st0). { cbn. numR. destruct (Rleb_spec z5 10); [|lra]. cbn. reflexivity. } rewrite E5. cbn [bind].
  assert (E6 : use_higher fx_st0 2 1 = Ok fx_st0). { cbn. numR. destruct (Rleb_spec 0 z5); [|lra]. cbn. reflexivity. } rewrite E6. cbn [bind fp_bg fd_objects].
  rewrite ox_full_ae1. cbn [bind fst ox_ae1 ae_zmin ae_zmax].
  change (getS fx_st0 1) with (Ok (flatS 0)). cbn [bind flatS zmean zmin zmax]. destruct (Rleb_spec z5 0); [lra|].
  change (choose (fp_types (mkFP ox_types 0 (mkSbg 8%Z None None))) 1) with (Ok (nth 1 ox_types (mkFT 0 (flat_contact 0) (mkBg None None None) (PChannels ox_cp)))).
  cbn [bind fd_next]. change (choose (fp_types (mkFP ox_types 0 (mkSbg 8%Z None None))) 0) with (Ok (nth 0 ox_types (mkFT 0 (flat_contact 0) (mkBg None None None) (PChannels ox_cp)))).
  cbn [bind fp_avul_prob].
  assert (En2 : Rleb (next_depth 0 z5 (base_draw (mkFD 9 1 0 0 [0] ox_od) [])) 0 = true).
  { apply Rleb_true. unfold next_depth. cbn [base_draw d_height d_u d_avul fd_height fd_u fd_avul]. numR. destruct (Rleb_spec 1 0); lra. }
  rewrite En2. cbn [bind].
  assert (E7 : use_lower fx_st0 1 2 = Ok fx_st0). { cbn. numR. destruct (Rleb_spec 0 z5); [|lra]. cbn. reflexivity. } rewrite E7. cbn [bind].
  assert (E8 : use_higher fx_st0 1 1 = Ok fx_st0). { cbn. numR. destruct (Rleb_spec 0 0); [|lra]. cbn. reflexivity. } rewrite E8. cbn [bind fd_objects].
  rewrite ox_full_ae2. cbn [bind fst ox_ae2 ae_zmin ae_zmax app].
  change (getS fx_st0 1) with (Ok (flatS 0)). cbn [bind flatS zmean]. destruct (Rleb_spec 0 0); [|lra]. cbn [bind map fst snd app].
  unfold ox_strata. repeat match goal with |- context [Rltb ?a ?b] => match a with context [Rltb] => fail 1 | _ => match b with context [Rltb] => fail 1 | _ =>
    first [replace (Rltb a b) with true by (symmetry; apply Rltb_true; lra) | replace (Rltb a b) with false by (symmetry; apply Rltb_false; lra)] end end end.
  reflexivity.
Qed.

Lemma ox_sensible : sensible fx_grid ox_params ox_draws fx_st0 ox_strata.
Proof.
  pose proof z5_eq as H5. exists 0, 10. split; [|split; [|split; [|split]]].
  - intros a k v H. apply fx_col in H as [[->|[->| ->]] _]; lra.
  - repeat constructor; cbn; lra.
  - intros sd d [<-|[]] [<-|[<-|[]]]; constructor.
  - intros fp ft [<-|[]] [<-|[<-|[]]].
    + split; [|right; discriminate]. cbn. pose proof ex_width. cbn in *. repeat split; try lra; intuition discriminate.
    + split; [|left; repeat eexists]. cbn. split; [intuition discriminate|exact I].
  - intros si fs e fp ft Hs He Hp Hf. destruct si as [|si]; [|destruct si; discriminate]. injection Hs as <-. injection Hp as <-.
    destruct He as [<-|[<-|[]]]; cbn in Hf; injection Hf as <-; cbn; [|exact I].
    intros k v s [= <-] H. destruct k as [|k]; [|destruct k; discriminate]. injection H as <-. cbn. lra.
Qed.

Lemma ox_contains f : in_channel (ox_channel f) (mkPoint (1/2) (1/2) (1/2 + INR 7) 0 0).
Proof.
  unfold in_channel. cbn [ox_channel ch_line ch_width ch_depth ch_ztop p_x p_y p_z]. replace (INR 7) with 7 by (cbn; lra).
  split; [lra|]. exists (mkCP 0 0 1 0). split; [now left|]. cbn [cp_x cp_y]. split; [|lra]. intros q [<-|[<-|[]]]; cbn [cp_x cp_y]; lra.
Qed.

Theorem C140_later_supersede_refuted : exists x0 y0 z0 dx dy dz lx ly lz g fuel params draws st strata dm wild x y z xi yi zi l c c' v,
  grid_init x0 y0 z0 dx dy dz lx ly lz = Ok g /\
  full_generate g fuel [] params draws = Ok (st, strata) /\ sensible g params draws st strata /\
  nth_error (g_x g) xi = Some x /\ nth_error (g_y g) yi = Some y /\ nth_error (g_z g) zi = Some z /\
  (* the first element has two channels, generated one after the other at one elevation *)
  (exists fs e, nth_error strata 0 = Some fs /\ nth_error (s_aes (fst fs)) 0 = Some e /\ nth_error (snd fs) 0 = Some (OChannels l)) /\
  nth_error l 0 = Some c /\ nth_error l 1 = Some c' /\ ch_ztop c = ch_ztop c' /\
  (* both contain the cell *)
  in_channel c (mkPoint x y z xi yi) /\ in_channel c' (mkPoint x y z xi yi) /\
  full_arrays dm (mkCGrid (List.length (g_x g)) (List.length (g_y g)) dz) wild params st strata (g_x g) (g_y g) (g_z g) xi yi zi = Some v /\
  shows c (mkPoint x y z xi yi) v /\ ~ shows c' (mkPoint x y z xi yi) v.
Proof.
  pose proof z5_eq as H5. assert (Hz : forall z, In z (g_z fx_grid) -> exists i, (i < 10)%nat /\ z = 1 / 2 + INR i).
  { intros z H. apply in_map_iff in H as (i & <- & H). apply in_seq in H. exists i. split; [lia|reflexivity]. }
  exists 0, 0, 0, 1, 1, 1, 1, 1, 10, fx_grid, 5%nat, ox_params, ox_draws, fx_st0, ox_strata, (flat 1 1), (fun _ _ _ => 0%Z), (1/2), (1/2), (1/2 + INR 7), 0%nat, 0%nat, 7%nat.
  destruct (C140_first_channel_partial 0 0 0 1 1 1 1 1 10 fx_grid 5 [] ox_params ox_draws fx_st0 ox_strata (flat 1 1) (fun _ _ _ => 0%Z) fx_grid_ok)
    with (xi := 0%nat) (yi := 0%nat) (zi := 7%nat) (x := 1/2) (y := 1/2) (z := 1/2 + INR 7) (si := 0%nat) (fs := nth 0 ox_strata (mkStratum 1 0 0 10 [], [])) (ei := 0%nat) (e := ox_ae1)
      (l := [ox_channel 3; ox_channel 6]) (k := 0%nat) (c := ox_channel 3) as (v & Ev & Hv); try lra; try reflexivity; auto.
  - repeat constructor.
  - discriminate.
  - exact ox_runs.
  - exact ox_sensible.
  - discriminate.
  - repeat constructor; discriminate.
  - apply Forall_forall. intros v Hv. destruct (Hz v Hv) as (i & Hi & ->). assert (INR (S i) <= INR 10) by (apply le_INR; lia). rewrite S_INR in H. replace (INR 10) with 10 in H by (cbn; lra). lra.
  - intros k a v Hv Hc. apply fx_col in Hc as [Hc _]. destruct (Hz v Hv) as (i & Hi & ->).
    do 10 (destruct i as [|i]; [cbn in Hc; lra|]). lia.
  - split; [reflexivity|]. split; [apply ox_contains|]. intros j c' Hj. lia.
  - exists [ox_channel 3; ox_channel 6], (ox_channel 3), (ox_channel 6), v.
    split; [exact fx_grid_ok|]. split; [exact ox_runs|]. split; [exact ox_sensible|]. do 3 (split; [reflexivity|]).
    split; [do 2 eexists; repeat split|]. do 3 (split; [reflexivity|]). do 2 (split; [apply ox_contains|]). split; [exact Ev|].
    cbn [map List.concat firstn List.length Nat.add Z.of_nat] in Hv.
    assert (Hs : shows (ox_channel 3) (mkPoint (1/2) (1/2) (1/2 + INR 7) 0 0) v) by (destruct Hv as [Hv|[_ [Hv|[_ Hv]]]]; [lia|lia|exact Hv]).
    split; [exact Hs|]. intros Hs'. unfold shows in Hs, Hs'. cbn [ox_channel ch_ztop ch_depth ch_lag ch_dipsets ch_facies p_z] in Hs, Hs'.
    replace (INR 7) with 7 in * by (cbn; lra).
    destruct Hs as [[Hs _]|[(_ & _ & Hs & _)|(_ & Hs & _)]]; [lra| |discriminate].
    destruct Hs' as [[Hs' _]|[(_ & _ & Hs' & _)|(_ & Hs' & _)]]; [lra| |discriminate]. congruence.
Qed.
Print Assumptions C140_later_supersede_refuted.
