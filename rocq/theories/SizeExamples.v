(** A file for C113 and C114: two strata, the upper one with a trough. *)
From Coq Require Import List ZArith Bool Ascii String Reals Lia Lra Sorted.
From Verif Require Import Base Num ParseModel ConfigModel ConfigSpec ConfigProofs2 ConfigProps DeprecatedModel DeprecatedSpec
  SurfaceModel SurfaceSpec SurfaceProps StrataModel AssignModel AssignSpec AssignProps BuildModel FaciesModel TroughModel SheetModel ChannelModel FullModel FullSpec FullProps LinkModel LinkSpec LinkProofs LinkProps LinkExamples ChannelProps2 SizeSpec SizeProps.
Import ListNotations.
Local Open Scope string_scope.
Local Open Scope R_scope.

Definition sz_trough :=
  (S_ "scour", [kv "geometry" "trough"; kv "structure" "massive"; kv "contact_model" "[flat]"; kv "facies" "[sand]";
     kv "length" "4"; kv "width" "2"; kv "depth" "3"; kv "size_ztrend" "[1, 3]"; kv "te_xyz" "[[0, 0, 8]]"; kv "paleoflow" "[0, 9]";
     kv "azimuth" "[0, 0]"; kv "dip" "[0, 6]"; kv "buffer" "0"; kv "agg" "1"; kv "trough_density" "1"; kv "lag_height" "0"]).
Definition sz_ini : inifile :=
  [ex_run; (S_ "model", [kv "dx" "1"; kv "lx" "1"; kv "ly" "1"; kv "lz" "10"]);
   (S_ "strata", [kv "strata" "[lower, upper]"; kv "strata_contact_models" "[[flat, 5]]"; kv "ae" "[mud, scour]";
     kv "ae_in_strata" "[[mud],[scour]]"; kv "ae_prob" "[[1],[1]]"; kv "ae_z_mean" "[[5],[5]]";
     kv "avul_prob" "[[0],[0]]"; kv "avul" "[[0,0],[0,0]]"; kv "bg_facies" "[sand, clay]"; kv "bg_azim" "0"; kv "bg_dip" "0"]);
   ex_hydraulics; lk_sheet "mud" "[clay]"; sz_trough].
Definition sz_cf : config Z := Eval vm_compute in match parse_inifile toyf sz_ini with Ok c => c | Err _ => mkConfig [] [] [] [] [] [] [] end.
Lemma sz_parse : parse_inifile toyf sz_ini = Ok sz_cf.
Proof. vm_compute. reflexivity. Qed.
Definition sz_tt : trough_type := mkTType (S_ "massive") [1%Z] None (0, 0) (0, 6) 0 (-1) 0 0.
Definition sz_type : full_type :=
  mkFT 1 (mkContact (S_ "flat") None None) (mkBg None None None)
    (PTroughs (mkTP 4 2 3 (Some (1, 3)) (0, 9) sz_tt) 0 1 false (Some [(0, 0, 8)])).
Definition sz_linked : linked :=
  mkLinked fx_grid (mkDomain false 1 1) [mkContact (S_ "flat") (Some 5) None]
    [mkFP [lk_type 0 0] 0 (mkSbg 1%Z (Some 0) (Some 0)); mkFP [sz_type] 0 (mkSbg 0%Z (Some 0) (Some 0))].
Lemma sz_link : link lk_fin lk_nan sz_cf = Ok sz_linked.
Proof. lazy -[IZR grid_init NumR fx_grid]. rewrite fx_grid_ok. reflexivity. Qed.

Definition sz_od : object_draws := mkOD [] [] [(1/3, mkTD 0 0 0 (1/2) 0 (fun n => n))] [] (fun _ => []).
Definition sz_draws : list full_stratum_draws := [mkFSD [0] 0 [mkFD 9 1 0 0 [0] sz_od]; mkFSD [0] 0 [mkFD 9 1 0 0 [0] lk_od]].
Definition sz_trough_made : trough :=
  match make_trough (mkTP 4 2 3 (Some (1, 3)) (0, 9) sz_tt) fx_grid (0, 0, 8) (1/3, mkTD 0 0 0 (1/2) 0 (fun n => n)) with
  | Ok t => t | Err _ => mkTrough 0 0 0 0 0 0 0 0 0 0 0 0 0 0 0 0 0 0 0 0 0 0 0 [] end.
Lemma sz_made : make_trough (mkTP 4 2 3 (Some (1, 3)) (0, 9) sz_tt) fx_grid (0, 0, 8) (1/3, mkTD 0 0 0 (1/2) 0 (fun n => n)) = Ok sz_trough_made.
Proof. reflexivity. Qed.
Lemma sz_zmin : tr_zmin sz_trough_made = 8 - 39/5.
Proof. cbn. unfold two. numR. field. Qed.
Lemma sz_zmax : tr_zmax sz_trough_made = 8.
Proof. reflexivity. Qed.
Definition sz_ae : ae R :=
  mkAE 1 0 (tr_zmin sz_trough_made) 10 [mkObject (tr_zmin sz_trough_made) (tr_zmax sz_trough_made) None] [([], [])] 0 (Some 0) (Some 0) 0.
Lemma sz_full_ae st : getS st 1 = Ok (flatS 5) -> getS st 0 = Ok (flatS 10) ->
  full_ae fx_grid 5 st sz_type 0 (mkSbg 0 (Some 0) (Some 0)) 1 0 sz_od = Ok (st, (sz_ae, OTroughs [sz_trough_made])).
Proof.
  intros Hb Ht. unfold full_ae. rewrite Hb, Ht. cbn [bind sz_type ft_kind make_objects make_troughs sz_od od_troughs]. rewrite sz_made.
  unfold new_ae, sz_type. rewrite Hb, Ht. cbn [bind base_type t_geometry ft_kind extents map fold_left flatS zmin zmax add_object ob_zmin ob_zmax fst snd app].
  pose proof sz_zmin as Z1. pose proof sz_zmax as Z2. unfold sz_ae.
  generalize dependent (tr_zmin sz_trough_made). intros a Za. generalize dependent (tr_zmax sz_trough_made). intros b Zb.
  numR. destruct (Rleb_spec 5 a); [lra|]. destruct (Rleb_spec b 10); [|lra]. cbn [negb]. reflexivity.
Qed.
Definition sz_strata : list full_stratum :=
  [(mkStratum 1 0 (tr_zmin sz_trough_made) 10 [sz_ae], [OTroughs [sz_trough_made]]); (mkStratum 2 1 0 5 [lk_ae 2 1 0 5 1], [OSheets [lk_one 0]])].
Lemma sz_new_stratum st : getS st 1 = Ok (flatS 5) -> getS st 0 = Ok (flatS 10) ->
  use_lower st 1 0 = Ok st -> use_higher st 1 1 = Ok st ->
  new_full_stratum fx_grid 5 (mkFP [sz_type] 0 (mkSbg 0 (Some 0) (Some 0))) 0 [mkFD 9 1 0 0 [0] sz_od] st 1 0 =
  Ok (st, (mkStratum 1 0 (tr_zmin sz_trough_made) 10 [sz_ae], [OTroughs [sz_trough_made]])).
Proof.
  intros Hb Ht Hl Hh. unfold new_full_stratum. rewrite Hb, Ht. cbn [bind full_stratum_loop]. rewrite Hb. cbn [bind flatS zmean].
  destruct (Rleb_spec 10 5); [lra|]. change (choose (fp_types (mkFP [sz_type] 0 (mkSbg 0 (Some 0) (Some 0)))) 0) with (Ok sz_type). cbn [bind fd_next].
  change (choose (fp_types (mkFP [sz_type] 0 (mkSbg 0 (Some 0) (Some 0)))) 0) with (Ok sz_type). cbn [bind fp_avul_prob].
  assert (En : Rleb (next_depth 0 10 (base_draw (mkFD 9 1 0 0 [0] sz_od) [])) 5 = true).
  { apply Rleb_true. unfold next_depth. cbn [base_draw d_height d_u d_avul fd_height fd_u fd_avul]. numR. destruct (Rleb_spec 1 0); lra. }
  rewrite En. cbn [bind]. rewrite Hl. cbn [bind]. rewrite Hh. cbn [bind fd_objects fp_bg]. rewrite (sz_full_ae _ Hb Ht).
  pose proof sz_zmin as Z1. pose proof sz_zmax as Z2. unfold sz_ae.
  cbn [bind fst ae_zmin ae_zmax app zmin zmax flatS]. rewrite Hb. cbn [bind flatS zmean]. destruct (Rleb_spec 5 5); [|lra]. cbn [bind map fst snd].
  replace (Rltb (tr_zmin sz_trough_made) 5) with true by (symmetry; apply Verif.TroughProofs.Rltb_true; lra). destruct (Rltb 10 10); reflexivity.
Qed.
Lemma sz_runs : generate sz_linked 5 sz_draws = Ok (lk_st, sz_strata).
Proof.
  unfold generate, full_generate. cbn [sz_linked lk_grid lk_contacts lk_params sz_draws full_model_loop List.length Nat.eqb].
  assert (E1 : new_surface (columns fx_grid) (flat_contact (g_lz fx_grid)) [] = Ok (flatS 10)) by reflexivity. rewrite E1. cbn [bind alloc app List.length].
  change (pyget [mkContact (S_ "flat") (Some 5) None] (-1 - Z.of_nat 0)) with (Ok (mkContact (S_ "flat") (Some 5) None)). cbn [bind fsd_field].
  assert (E2 : new_surface (columns fx_grid) (mkContact (S_ "flat") (Some 5) None) [0] = Ok (flatS 5)) by reflexivity. rewrite E2. cbn [bind alloc app List.length].
  assert (E3 : use_lower [flatS 10; flatS 5] 1 0 = Ok [flatS 10; flatS 5]) by (reval; reflexivity). rewrite E3. cbn [bind].
  match goal with |- context [pyget ?l (-1 - Z.of_nat 0)] => change (pyget l (-1 - Z.of_nat 0)) with (Ok (mkFP [sz_type] 0 (mkSbg 0%Z (Some 0) (Some 0)))) end.
  cbn [bind fsd_first fsd_draws]. rewrite (sz_new_stratum [flatS 10; flatS 5]); try reflexivity; [|exact E3|reval; reflexivity].
  cbn [bind].
  assert (E4 : new_surface (columns fx_grid) (flat_contact (g_z0 fx_grid)) [] = Ok (flatS 0)) by reflexivity. rewrite E4. cbn [bind alloc app List.length].
  assert (E5 : use_lower [flatS 10; flatS 5; flatS 0] 2 1 = Ok [flatS 10; flatS 5; flatS 0]) by (reval; reflexivity). rewrite E5. cbn [bind].
  match goal with |- context [pyget ?l (-1 - Z.of_nat 1)] => change (pyget l (-1 - Z.of_nat 1)) with (Ok (mkFP [lk_type 0 0] 0 (mkSbg 1%Z (Some 0) (Some 0)))) end.
  cbn [bind fsd_first fsd_draws]. rewrite (lk_new_stratum [flatS 10; flatS 5; flatS 0] 2 1 0 5 0 0 1); try reflexivity; try lra; [exact E5|reval; reflexivity].
Qed.
Lemma sz_unit : forall sd d, In sd sz_draws -> In d (fsd_draws sd) -> unit_draws (fd_objects d).
Proof.
  intros sd d [<-|[<-|[]]] [<-|[]]; cbn; unfold unit_draws, unit_draw; cbn; repeat split; try constructor; try constructor; cbn; lra.
Qed.

(** The trough at 8 m in a file with length 4 and factors 1 to 3 from 0 m to 10 m
    has the half axis 5.2 m. *)
Example C113_example : exists sec, section_of sz_cf 0 sz_ae sec /\ trough_as_written lk_fin (cf_model sz_cf) sec sz_trough_made /\
  tr_a sz_trough_made = 26/5 /\ tr_b sz_trough_made = 13/5 /\ tr_c sz_trough_made = 39/5 /\ tr_dip sz_trough_made = 3.
Proof.
  destruct (C113_objects lk_fin lk_nan sz_cf sz_linked 5 sz_draws lk_st sz_strata sz_link ltac:(repeat constructor) sz_runs sz_unit 0 _ 0 sz_ae (OTroughs [sz_trough_made]) eq_refl eq_refl eq_refl)
    as (sec & H1 & H2 & H3). inversion H3; subst. exists sec. split; [assumption|]. split; [assumption|].
  repeat split; cbn; unfold two, uniform; numR; field.
Qed.
Example C113_example_background : ae_bg_facies sz_ae = 0%Z /\ ae_bg_azim sz_ae = Some 0 /\
  exists sec i a d, section_of sz_cf 0 sz_ae sec /\ has sec "bg_facies" (Leaf (AInt i)) /\ has sec "bg_azim" (Leaf (AFlt a)) /\ has sec "bg_dip" (Leaf (AFlt d)).
Proof.
  split; [reflexivity|]. split; [reflexivity|].
  destruct (C113_background lk_fin lk_nan sz_cf sz_linked 5 sz_draws lk_st sz_strata sz_link ltac:(repeat constructor) sz_runs 0 _ 0 sz_ae (OTroughs [sz_trough_made]) eq_refl eq_refl eq_refl)
    as (sec & i & a & d & H1 & H2 & H3 & H4 & _). eauto 10.
Qed.
(** The boundary between the strata is at 5 m, the base at 0 m. *)
Example C114_example : col lk_st 1 0 = Some 5 /\ col lk_st 2 0 = Some 0 /\
  (exists cm, nth_error (cf_contacts sz_cf) 0 = Some cm /\ contact_height lk_fin cm [0] 0 5) /\ number_at lk_fin (cf_model sz_cf) "z0" 0.
Proof.
  split; [reflexivity|]. split; [reflexivity|]. split.
  - destruct (C114_boundaries lk_fin lk_nan sz_cf sz_linked 5 sz_draws lk_st sz_strata sz_link ltac:(repeat constructor) sz_runs 0 _ _ eq_refl eq_refl 0 5 eq_refl) as (u & t & E1 & E2 & cm & _ & H & K).
    cbn in E1. injection E1 as <-. exists cm. split; [exact H|].
    assert (u = 5). { unfold Rmin in E2. destruct (Rle_dec u 10); lra. } now subst.
  - destruct (C114_boundaries lk_fin lk_nan sz_cf sz_linked 5 sz_draws lk_st sz_strata sz_link ltac:(repeat constructor) sz_runs 1 _ _ eq_refl eq_refl 0 0 eq_refl) as (u & t & E1 & E2 & H).
    cbn in E1. injection E1 as <-. assert (u = 0). { unfold Rmin in E2. destruct (Rle_dec u 5); lra. } now subst.
Qed.

(** *** Channels and planes of troughs

    The same file with another element type in the upper stratum. *)
Definition up_draws (od : object_draws) : list full_stratum_draws := [mkFSD [0] 0 [mkFD 9 1 0 0 [0] od]; mkFSD [0] 0 [mkFD 9 1 0 0 [0] lk_od]].
Section Upper.
Variable ty : full_type.
Variable od : object_draws.
Variable e : ae R.
Variable o : objects.
Let up_linked : linked :=
  mkLinked fx_grid (mkDomain false 1 1) [mkContact (S_ "flat") (Some 5) None]
    [mkFP [lk_type 0 0] 0 (mkSbg 1%Z (Some 0) (Some 0)); mkFP [ty] 0 (mkSbg 0%Z (Some 0) (Some 0))].
Hypothesis made : full_ae fx_grid 5 [flatS 10; flatS 5] ty 0 (mkSbg 0 (Some 0) (Some 0)) 1 0 od = Ok ([flatS 10; flatS 5], (e, o)).
Lemma up_new_stratum : exists a b,
  new_full_stratum fx_grid 5 (mkFP [ty] 0 (mkSbg 0 (Some 0) (Some 0))) 0 [mkFD 9 1 0 0 [0] od] [flatS 10; flatS 5] 1 0 =
  Ok ([flatS 10; flatS 5], (mkStratum 1 0 a b [e], [o])).
Proof.
  eexists _, _. unfold new_full_stratum.
  change (getS [flatS 10; flatS 5] 1) with (Ok (flatS 5)). change (getS [flatS 10; flatS 5] 0) with (Ok (flatS 10)). cbn [bind full_stratum_loop].
  change (getS [flatS 10; flatS 5] 1) with (Ok (flatS 5)). cbn [bind flatS zmean].
  destruct (Rleb_spec 10 5); [lra|]. change (choose (fp_types (mkFP [ty] 0 (mkSbg 0 (Some 0) (Some 0)))) 0) with (Ok ty). cbn [bind fd_next].
  change (choose (fp_types (mkFP [ty] 0 (mkSbg 0 (Some 0) (Some 0)))) 0) with (Ok ty). cbn [bind fp_avul_prob].
  assert (En : Rleb (next_depth 0 10 (base_draw (mkFD 9 1 0 0 [0] od) [])) 5 = true).
  { apply Rleb_true. unfold next_depth. cbn [base_draw d_height d_u d_avul fd_height fd_u fd_avul]. numR. destruct (Rleb_spec 1 0); lra. }
  rewrite En. fold (flatS 10) (flatS 5). cbn [bind].
  assert (E3 : use_lower [flatS 10; flatS 5] 1 0 = Ok [flatS 10; flatS 5]) by (reval; reflexivity). rewrite E3. cbn [bind].
  assert (E4 : use_higher [flatS 10; flatS 5] 1 1 = Ok [flatS 10; flatS 5]) by (reval; reflexivity). rewrite E4. cbn [bind fd_objects fp_bg].
  rewrite made. cbn [bind fst app]. change (getS [flatS 10; flatS 5] 1) with (Ok (flatS 5)). cbn [bind flatS zmean]. destruct (Rleb_spec 5 5); [|lra]. cbn [bind map fst snd].
  reflexivity.
Qed.
Lemma up_runs : exists a b,
  generate up_linked 5 (up_draws od) = Ok (lk_st, [(mkStratum 1 0 a b [e], [o]); (mkStratum 2 1 0 5 [lk_ae 2 1 0 5 1], [OSheets [lk_one 0]])]).
Proof.
  destruct up_new_stratum as (a & b & Hs). exists a, b.
  unfold generate, full_generate, up_draws, up_linked. cbn [lk_grid lk_contacts lk_params full_model_loop List.length Nat.eqb].
  assert (E1 : new_surface (columns fx_grid) (flat_contact (g_lz fx_grid)) [] = Ok (flatS 10)) by reflexivity. rewrite E1. cbn [bind alloc app List.length].
  change (pyget [mkContact (S_ "flat") (Some 5) None] (-1 - Z.of_nat 0)) with (Ok (mkContact (S_ "flat") (Some 5) None)). cbn [bind fsd_field].
  assert (E2 : new_surface (columns fx_grid) (mkContact (S_ "flat") (Some 5) None) [0] = Ok (flatS 5)) by reflexivity. rewrite E2. cbn [bind alloc app List.length].
  assert (E3 : use_lower [flatS 10; flatS 5] 1 0 = Ok [flatS 10; flatS 5]) by (reval; reflexivity). rewrite E3. cbn [bind].
  match goal with |- context [pyget ?l (-1 - Z.of_nat 0)] => change (pyget l (-1 - Z.of_nat 0)) with (Ok (mkFP [ty] 0 (mkSbg 0%Z (Some 0) (Some 0)))) end.
  cbn [bind fsd_first fsd_draws]. rewrite Hs. cbn [bind].
  assert (E4 : new_surface (columns fx_grid) (flat_contact (g_z0 fx_grid)) [] = Ok (flatS 0)) by reflexivity. rewrite E4. cbn [bind alloc app List.length].
  assert (E5 : use_lower [flatS 10; flatS 5; flatS 0] 2 1 = Ok [flatS 10; flatS 5; flatS 0]) by (reval; reflexivity). rewrite E5. cbn [bind].
  match goal with |- context [pyget ?l (-1 - Z.of_nat 1)] => change (pyget l (-1 - Z.of_nat 1)) with (Ok (mkFP [lk_type 0 0] 0 (mkSbg 1%Z (Some 0) (Some 0)))) end.
  cbn [bind fsd_first fsd_draws]. rewrite (lk_new_stratum [flatS 10; flatS 5; flatS 0] 2 1 0 5 0 0 1); try reflexivity; try lra; [exact E5|reval; reflexivity].
Qed.
End Upper.
Definition sz_file (name : string) (sec : _) : inifile :=
  [ex_run; (S_ "model", [kv "dx" "1"; kv "lx" "1"; kv "ly" "1"; kv "lz" "10"]);
   (S_ "strata", [kv "strata" "[lower, upper]"; kv "strata_contact_models" "[[flat, 5]]"; kv "ae" ("[mud, " ++ name ++ "]");
     kv "ae_in_strata" ("[[mud],[" ++ name ++ "]]"); kv "ae_prob" "[[1],[1]]"; kv "ae_z_mean" "[[5],[5]]";
     kv "avul_prob" "[[0],[0]]"; kv "avul" "[[0,0],[0,0]]"; kv "bg_facies" "[sand, clay]"; kv "bg_azim" "0"; kv "bg_dip" "0"]);
   ex_hydraulics; lk_sheet "mud" "[clay]"; sec].

(** Channels at distance 2 m below 10 m, down to 5 m. *)
Definition ch_section :=
  (S_ "braid", [kv "geometry" "channel"; kv "structure" "massive"; kv "contact_model" "[flat]"; kv "facies" "[sand]";
     kv "channel_no" "1"; kv "width" "4"; kv "depth" "1"; kv "h" "1"; kv "k" "1"; kv "ds" "1"; kv "eps_factor" "1"; kv "flow_angle" "0";
     kv "dip" "[0, 0]"; kv "buffer" "0"; kv "agg" "2"; kv "lag_height" "0"]).
Definition ch_cf : config Z := Eval vm_compute in match parse_inifile toyf (sz_file "braid" ch_section) with Ok c => c | Err _ => mkConfig [] [] [] [] [] [] [] end.
Lemma ch_parse : parse_inifile toyf (sz_file "braid" ch_section) = Ok ch_cf.
Proof. vm_compute. reflexivity. Qed.
Definition ch_ct : channel_type := mkCType (S_ "massive") [1%Z] None (0, 0) 0 (-1) 0.
Definition ch_cp : channel_params := mkCParams 1 0 2 4 1 0 None 0 ch_ct.
Definition ch_type : full_type := mkFT 1 (mkContact (S_ "flat") None None) (mkBg None None None) (PChannels ch_cp).
Definition ch_linked : linked :=
  mkLinked fx_grid (mkDomain false 1 1) [mkContact (S_ "flat") (Some 5) None]
    [mkFP [lk_type 0 0] 0 (mkSbg 1%Z (Some 0) (Some 0)); mkFP [ch_type] 0 (mkSbg 0%Z (Some 0) (Some 0))].
Lemma ch_link : link lk_fin lk_nan ch_cf = Ok ch_linked.
Proof. lazy -[IZR grid_init NumR fx_grid]. rewrite fx_grid_ok. reflexivity. Qed.
Definition ch_od : object_draws := mkOD [] [] [] [0] (fun _ => [ex_ld]).
Definition ch_at (z : R) : channel := mkChannel ex_line z (z - 1) z 1 4 (4 * 1 / 4 ^ 2) (Rmin 1 1) 0 (-1) false 0 0 (uniform 0 0 0) 0 0 0 1 0 [].
Lemma ch_objects : make_objects fx_grid 5 (PChannels ch_cp) (flatS 5) (flatS 10) ch_od = Ok (OChannels [ch_at (10 - 2); ch_at (10 - 2 - 2)]).
Proof.
  unfold make_objects, generate_channels. cbn [ch_cp cc_trend first_zfactor bind cc_agg cc_depth cc_buffer channel_levels flatS zmean].
  do 3 (match goal with |- context [Rltb ?a ?b] =>
    first [replace (Rltb a b) with true by (symmetry; apply Verif.TroughProofs.Rltb_true; lra) | replace (Rltb a b) with false by (symmetry; apply Verif.TroughProofs.Rltb_false; lra)] end; cbn [channel_levels bind]).
  reflexivity.
Qed.
Definition ch_ae : ae R :=
  mkAE 1 0 5 10 [mkObject (10 - 2 - 1) (10 - 2) None; mkObject (10 - 2 - 2 - 1) (10 - 2 - 2) None] [([], []); ([], [])] 0 (Some 0) (Some 0) 0.
Lemma ch_full_ae : full_ae fx_grid 5 [flatS 10; flatS 5] ch_type 0 (mkSbg 0 (Some 0) (Some 0)) 1 0 ch_od =
  Ok ([flatS 10; flatS 5], (ch_ae, OChannels [ch_at (10 - 2); ch_at (10 - 2 - 2)])).
Proof.
  unfold full_ae. change (getS [flatS 10; flatS 5] 1) with (Ok (flatS 5)). change (getS [flatS 10; flatS 5] 0) with (Ok (flatS 10)). cbn [bind ch_type ft_kind].
  rewrite ch_objects. cbn [bind extents map ch_at ch_zmin ch_zmax].
  unfold new_ae. change (getS [flatS 10; flatS 5] 1) with (Ok (flatS 5)). change (getS [flatS 10; flatS 5] 0) with (Ok (flatS 10)). cbn [bind].
  cbn [base_type t_geometry ft_kind fold_left add_object fst snd flatS zmin zmax ob_zmin ob_zmax].
  reval. reflexivity.
Qed.
Lemma ch_only e sec : section_of ch_cf 0 e sec -> ae_kind e = 0%nat -> has sec "agg" (Leaf (AFlt 2%Z)) /\ has sec "channel_no" (Leaf (AInt 1)).
Proof.
  intros (n & cm & t & names & (w & l & W1 & W2 & W3 & W4) & T1 & T2 & T3) He. rewrite He in T2.
  unfold has in W1. vm_compute in W1. injection W1 as <-. cbn in W2. injection W2 as <-. cbn in W4. injection W4 as <-. cbn in T1. injection T1 as <-. cbn in T2. injection T2 as <-.
  destruct T3 as [T3|[T3|[]]]; apply pair_equal_spec in T3 as [T3 T4]; [discriminate|]. apply pair_equal_spec in T4 as [<- _]. split; reflexivity.
Qed.
Example C113_example_channels : exists sec depth buffer zs, section_of ch_cf 0 ch_ae sec /\
  number_at lk_fin sec "depth" depth /\ number_at lk_fin sec "buffer" buffer /\
  (forall z, In z zs <-> 5 + depth * buffer < z /\ exists k, (1 <= k)%nat /\ z = 10 - INR k * 2) /\
  StronglySorted Rgt zs /\ zs = [10 - 2; 10 - 2 - 2].
Proof.
  destruct (up_runs ch_type ch_od _ _ ch_full_ae) as (a & b & Hg).
  destruct (C113_channel_levels lk_fin lk_nan ch_cf ch_linked 5 (up_draws ch_od) lk_st _ ch_link ltac:(repeat constructor) Hg 0 _ 0 ch_ae _ eq_refl eq_refl eq_refl)
    as (sec & no & agg & depth & buffer & sb & sp & H1 & H2 & H3 & H4 & H5 & H6 & H7 & H8).
  cbn in H6, H7. injection H6 as <-. injection H7 as <-.
  destruct (ch_only _ _ H1 eq_refl) as [K1 K2]. destruct H3 as (f & K3 & K4). unfold has in K1, K2, K3, H2. rewrite K1 in K3. injection K3 as <-. cbn in K4. injection K4 as <-.
  rewrite K2 in H2. injection H2 as H2. assert (no = 1%nat) by lia. subst no.
  destruct H8 as (zs & Z1 & Z2 & Z3); [lra| |].
  - intros sd d [<-|[<-|[]]] [<-|[]]; cbn; lia.
  - exists sec, depth, buffer, zs. split; [assumption|]. split; [assumption|]. split; [assumption|]. split; [exact Z1|]. split; [assumption|].
    cbn [map ch_at ch_ztop] in Z3. rewrite Z3. clear. induction zs; cbn; [reflexivity|]. now f_equal.
Qed.
Definition pl_section :=
  (S_ "pools", [kv "geometry" "trough"; kv "structure" "massive"; kv "contact_model" "[flat]"; kv "facies" "[sand]";
     kv "length" "4"; kv "width" "2"; kv "depth" "1"; kv "paleoflow" "[0, 0]";
     kv "azimuth" "[0, 0]"; kv "dip" "[0, 0]"; kv "buffer" "1"; kv "agg" "4"; kv "trough_density" "1"; kv "lag_height" "0"]).
(** Planes of troughs at distance 4 m from 10 m, above 5 m + 1 m. *)
Definition pl_cf : config Z := Eval vm_compute in match parse_inifile toyf (sz_file "pools" pl_section) with Ok c => c | Err _ => mkConfig [] [] [] [] [] [] [] end.
Lemma pl_parse : parse_inifile toyf (sz_file "pools" pl_section) = Ok pl_cf.
Proof. vm_compute. reflexivity. Qed.
Definition pl_tp : trough_params := mkTP 4 2 1 None (0, 0) (mkTType (S_ "massive") [1%Z] None (0, 0) (0, 0) 0 (-1) 0 0).
Definition pl_type : full_type := mkFT 1 (mkContact (S_ "flat") None None) (mkBg None None None) (PTroughs pl_tp 1 4 false None).
Definition pl_linked : linked :=
  mkLinked fx_grid (mkDomain false 1 1) [mkContact (S_ "flat") (Some 5) None]
    [mkFP [lk_type 0 0] 0 (mkSbg 1%Z (Some 0) (Some 0)); mkFP [pl_type] 0 (mkSbg 0%Z (Some 0) (Some 0))].
Lemma pl_link : link lk_fin lk_nan pl_cf = Ok pl_linked.
Proof. lazy -[IZR grid_init NumR fx_grid]. rewrite fx_grid_ok. reflexivity. Qed.
Definition pl_draw : R * trough_draw := (1/3, mkTD 0 0 0 (1/2) 0 (fun n => n)).
Definition pl_od : object_draws := mkOD [] [mkPlane [(1/4, 3/4)] (fun _ => (0, 0))] [pl_draw] [] (fun _ => []).
Lemma pl_objects : exists t, make_objects fx_grid 5 (ft_kind pl_type) (flatS 5) (flatS 10) pl_od = Ok (OTroughs [t]) /\ tr_zmin t = 9 /\ tr_zmax t = 10.
Proof.
  unfold make_objects, pl_type. cbn [ft_kind]. unfold trough_positions.
  assert (E : trough_planes (zmax (flatS 5)) (zmean (flatS 10)) (tp_depth pl_tp) 1 4 = Ok [10]).
  { unfold trough_planes, arange. cbn [flatS zmax zmean pl_tp tp_depth]. numR. destruct (Rleb_spec (0 - 4) 0); [|lra]. destruct (Rleb_spec 0 (0 - 4)); [lra|]. cbn [andb].
    replace ((5 + 1 * 1 - 10) / (0 - 4)) with 1 by field. rewrite (nceil_R_unique 1 1) by lra. change (Ok [10 + 0 * (0 - 4)] = Ok [10]). do 2 f_equal. ring. }
  rewrite E. cbn [bind plane_loop pl_od od_planes Nat.eqb orb pd_uniform map app List.length].
  eexists. split; [reflexivity|]. split; cbn; unfold two; numR; lra.
Qed.
Lemma pl_full_ae : exists e t, full_ae fx_grid 5 [flatS 10; flatS 5] pl_type 0 (mkSbg 0 (Some 0) (Some 0)) 1 0 pl_od =
  Ok ([flatS 10; flatS 5], (e, OTroughs [t])) /\ ae_kind e = 0%nat /\ ae_top e = 0%nat /\ ae_bottom e = 1%nat /\ tr_zmax t = 10.
Proof.
  destruct pl_objects as (t & Ht & Z1 & Z2). eexists _, t. split; [|split; [|split; [|split]]].
  - unfold full_ae. change (getS [flatS 10; flatS 5] 1) with (Ok (flatS 5)). change (getS [flatS 10; flatS 5] 0) with (Ok (flatS 10)). cbn [bind]. rewrite Ht.
    cbn [bind extents map]. unfold new_ae. change (getS [flatS 10; flatS 5] 1) with (Ok (flatS 5)). change (getS [flatS 10; flatS 5] 0) with (Ok (flatS 10)). cbn [bind pl_type].
    cbn [base_type t_geometry ft_kind map fold_left add_object fst snd flatS zmin zmax ob_zmin ob_zmax]. rewrite Z1, Z2. reval. reflexivity.
  - reflexivity.
  - reflexivity.
  - reflexivity.
  - exact Z2.
Qed.
Lemma pl_only e sec : section_of pl_cf 0 e sec -> ae_kind e = 0%nat ->
  has sec "agg" (Leaf (AFlt 4%Z)) /\ has sec "te_xyz" (Leaf ANone) /\ has sec "migrate" (Leaf ANone) /\ has sec "depth" (Leaf (AFlt 1%Z)) /\ has sec "buffer" (Leaf (AFlt 1%Z)).
Proof.
  intros (n & cm & t & names & (w & l & W1 & W2 & W3 & W4) & T1 & T2 & T3) He. rewrite He in T2.
  unfold has in W1. vm_compute in W1. injection W1 as <-. cbn in W2. injection W2 as <-. cbn in W4. injection W4 as <-. cbn in T1. injection T1 as <-. cbn in T2. injection T2 as <-.
  destruct T3 as [T3|[T3|[]]]; apply pair_equal_spec in T3 as [T3 T4]; [discriminate|]. apply pair_equal_spec in T4 as [<- _]. repeat split; reflexivity.
Qed.
Lemma number_known (sec : dict Z) k f r : has sec k (Leaf (AFlt f)) -> number_at lk_fin sec k r -> r = IZR f.
Proof. intros H (g & K1 & K2). unfold has in *. rewrite H in K1. injection K1 as <-. unfold lk_fin in K2. destruct (_ =? _)%Z; [discriminate|]. now injection K2 as <-. Qed.
Example C113_example_planes : exists (e : ae R) (t : trough) (st : store R) (strata : list full_stratum), generate pl_linked 5 (up_draws pl_od) = Ok (st, strata) /\
  nth_error (map snd strata) 0 = Some [OTroughs [t]] /\ (exists k, tr_z t = 10 - INR k * 4) /\
  (forall k v, col st (ae_bottom e) k = Some v -> v + 1 * 1 < tr_z t) /\ 0 <= tr_x t <= 0 + 1 /\ 0 <= tr_y t <= 0 + 1.
Proof.
  destruct pl_full_ae as (e & t & E & K0 & K1 & K2 & K3).
  destruct (up_runs pl_type pl_od _ _ E) as (a & b & Hg). exists e, t. eexists _, _. split; [exact Hg|]. split; [reflexivity|].
  destruct (C113_trough_planes lk_fin lk_nan pl_cf pl_linked 5 (up_draws pl_od) lk_st _ pl_link ltac:(repeat constructor) Hg 0 _ 0 e _ eq_refl eq_refl eq_refl)
    as (sec & agg & depth & buffer & sp & H1 & H2 & H3 & H4 & H5 & H6).
  destruct (pl_only _ _ H1 K0) as (A1 & A2 & A3 & A4 & A5).
  rewrite K1 in H5. cbn in H5. injection H5 as <-.
  apply (number_known _ _ _ _ A1) in H2. apply (number_known _ _ _ _ A4) in H3. apply (number_known _ _ _ _ A5) in H4. subst agg depth buffer.
  specialize (H6 A2 ltac:(lra)). inversion H6 as [|? ? (B1 & B2 & B3) _]; subst. split; [exact B1|]. split; [exact B2|].
  destruct (B3 A3) as (x0 & lx & y0 & ly & X1 & X2 & X3 & X4 & X5).
  - intros sd d pd u [<-|[<-|[]]] [<-|[]]; cbn; [intros [<-|[]] [<-|[]]|contradiction]; unfold unit_draw; cbn; lra.
  - apply (number_known _ _ 0%Z) in X1; [|reflexivity]. apply (number_known _ _ 1%Z) in X2; [|reflexivity]. apply (number_known _ _ 0%Z) in X3; [|reflexivity]. apply (number_known _ _ 1%Z) in X4; [|reflexivity].
    subst. apply X5; lra.
Qed.
