(** C141: a periodic model in which two troughs overlap. *)
From Coq Require Import List ZArith Bool Ascii String Reals Lia Lra Sorted.
From Verif Require Import Base Num ParseModel ConfigModel ConfigSpec ConfigProofs ConfigProofs2 DeprecatedModel DeprecatedSpec DeprecatedProofs SurfaceModel SurfaceSpec SurfaceProofs
  StrataModel StrataSpec StrataProofs StrataProofs2 StrataProps AssignModel AssignSpec AssignProofs AssignProofs2 AssignProps AssignProps2 BuildModel BuildSpec BuildProofs BuildProofs2 FaciesModel TroughModel TroughSpec TroughProofs TroughProps TroughBuildSpec TroughBuild SheetModel ChannelModel ChannelSpec ChannelProofs ChannelProps ChannelProps2
  FullModel FullSpec FullProofs FullProofs2 FullProofs3 FullProofs4 FullProofs5 FullProofs6 FullProps LinkModel LinkSpec LinkProofs LinkProps SizeSpec SizeProofs SizeProps PlaceSpec PlaceProps OverlapSpec OverlapProps OverlapTroughs.
Import ListNotations.
Local Open Scope R_scope.

(** The model of C141's example with smaller troughs, half a domain outside. *)
Definition op_tt : trough_type := mkTType (S_ "massive") [3%Z; 6%Z] None (0, 0) (0, 0) 0 7 1 1.
Definition op_tp : trough_params := mkTP 1 1 3 None (0, 0) op_tt.
Definition op_draw (n : nat) : R * trough_draw := (0, mkTD 0 n 0 0 0 (fun n => n)).
Definition op_kind : kind_params := PTroughs op_tp 0 1 false (Some [(3/2, 1/2, 10); (3/2, 1/2, 9)]).
Definition op_types : list full_type :=
  [mkFT 4 (mkContact (S_ "flat") None None) (mkBg None None None) op_kind;
   mkFT 9 (mkContact (S_ "flat") None None) (mkBg None None None) (PSheets (-1) None fx_sheet)].
Definition op_params : list full_params := [mkFP op_types 0 (mkSbg 8%Z None None)].
Definition op_od : object_draws := mkOD [mkShD 0 0 0 0 (fun n => n)] [] [op_draw 0; op_draw 1] [] (fun _ => []).
Definition op_draws : list full_stratum_draws :=
  [mkFSD [0] 0 [mkFD 5 1 0 1 [0] op_od; mkFD 9 1 0 0 [0] op_od]].
Definition op_trough (z : R) (n : nat) : trough :=
  match make_trough op_tp fx_grid (3/2, 1/2, z) (op_draw n) with
  | Ok t => t | Err _ => mkTrough 0 0 0 0 0 0 0 0 0 0 0 0 0 0 0 0 0 0 0 0 0 0 0 [] end.
Lemma op_size z n : (n < 2)%nat -> tr_zmin (op_trough z n) = z - 3 /\ tr_zmax (op_trough z n) = z /\ tr_a (op_trough z n) = 1/2 /\ tr_b (op_trough z n) = 1/2 /\ tr_c (op_trough z n) = 3.
Proof. intros H. destruct n as [|[|n]]; [| |lia]; cbn; unfold two; numR; repeat split; try field; reflexivity. Qed.
Definition op_objects : objects := OTroughs [op_trough 10 0; op_trough 9 1].
Lemma op_make b : make_objects fx_grid 5 op_kind (flatS b) (flatS 10) op_od = Ok op_objects.
Proof. reflexivity. Qed.
Definition op_ae1 : ae R := mkAE 2 0 z5 10 [mkObject (tr_zmin (op_trough 10 0)) (tr_zmax (op_trough 10 0)) None; mkObject (tr_zmin (op_trough 9 1)) (tr_zmax (op_trough 9 1)) None] [([], []); ([], [])] 8 None None 0.
Definition op_ae2 : ae R := mkAE 1 2 0 z5 [mkObject 0 z5 (Some (1, 2)%nat)] [([0], [z5])] 8 None None 1.
Lemma op_full_ae1 : full_ae fx_grid 5 fx_st0 (nth 0 op_types (mkFT 0 (flat_contact 0) (mkBg None None None) op_kind)) 0 (mkSbg 8%Z None None) 2 0 op_od = Ok (fx_st0, (op_ae1, op_objects)).
Proof.
  unfold full_ae. change (getS fx_st0 2) with (Ok (flatS z5)). change (getS fx_st0 0) with (Ok (flatS 10)). cbn [bind op_types nth ft_kind].
  rewrite op_make. unfold op_objects at 1. cbn [bind extents map].
  unfold new_ae. change (getS fx_st0 2) with (Ok (flatS z5)). change (getS fx_st0 0) with (Ok (flatS 10)). cbn [bind].
  unfold op_kind at 1. cbn [base_type t_geometry ft_kind fold_left add_object fst snd flatS zmin zmax ob_zmin ob_zmax].
  destruct (op_size 10 0 ltac:(lia)) as (A1 & A2 & _). destruct (op_size 9 1 ltac:(lia)) as (B1 & B2 & _). unfold op_ae1. pose proof z5_eq as H5.
  generalize dependent (tr_zmin (op_trough 10 0)). intros a Ha. generalize dependent (tr_zmax (op_trough 10 0)). intros b Hb.
  generalize dependent (tr_zmin (op_trough 9 1)). intros c Hc. generalize dependent (tr_zmax (op_trough 9 1)). intros d Hd.
  numR. destruct (Rleb_spec z5 a); [|lra]. destruct (Rleb_spec b 10); [|lra]. cbn [negb].
  destruct (Rleb_spec z5 c); [|lra]. destruct (Rleb_spec d 10); [|lra]. reflexivity.
Qed.
Lemma op_full_ae2 : full_ae fx_grid 5 fx_st0 (nth 1 op_types (mkFT 0 (flat_contact 0) (mkBg None None None) op_kind)) 1 (mkSbg 8%Z None None) 1 2 op_od =
  Ok (fx_st0, (op_ae2, OSheets [mkSheet false 0 0 0 0 0 (uniform 0 0 0) (uniform 0 0 0) 5 0 []])).
Proof.
  unfold full_ae. change (getS fx_st0 1) with (Ok (flatS 0)). change (getS fx_st0 2) with (Ok (flatS z5)). cbn [bind op_types nth ft_kind make_objects extents].
  unfold new_ae. change (getS fx_st0 1) with (Ok (flatS 0)). change (getS fx_st0 2) with (Ok (flatS z5)). cbn [bind base_type t_geometry ft_kind].
  assert (Et : sheet_thickness fx_grid (-1) None (zmin (flatS 0)) (zmax (flatS z5)) = z5 - 0).
  { unfold sheet_thickness, neqb. numR. destruct (Rleb_spec (-1) (0 - 1)); [|lra]. destruct (Rleb_spec (0 - 1) (-1)); [|lra]. reflexivity. }
  rewrite Et.
  assert (El : sheet_loop 5 (columns fx_grid) fx_st0 1 2 (z5 - 0) (zmax (flatS z5) - (z5 - 0)) ([], zmin (flatS 0), zmax (flatS z5)) =
    Ok (fx_st0, ([mkObject 0 z5 (Some (1, 2)%nat)], 0, z5))).
  { cbn [sheet_loop flatS zmin zmax]. numR. destruct (Rleb_spec (z5 - (z5 - 0)) 0); [|lra]. cbn [negb].
    change (getS fx_st0 1) with (Ok (flatS 0)). change (getS fx_st0 2) with (Ok (flatS z5)). cbn [bind flatS zmin zmax add_object ob_zmin ob_zmax app]. numR.
    destruct (Rleb_spec 0 0); [|lra]. destruct (Rleb_spec z5 z5); [|lra]. reflexivity. }
  numR. rewrite El. reflexivity.
Qed.
Definition op_strata : list full_stratum :=
  [(mkStratum 1 0 0 10 [op_ae1; op_ae2], [op_objects; OSheets [mkSheet false 0 0 0 0 0 (uniform 0 0 0) (uniform 0 0 0) 5 0 []]])].
Lemma op_runs : full_generate fx_grid 5 [] op_params op_draws = Ok (fx_st0, op_strata).
Proof.
  unfold full_generate. cbn [op_draws op_params full_model_loop List.length Nat.eqb].
  assert (E1 : new_surface (columns fx_grid) (flat_contact (g_lz fx_grid)) [] = Ok (flatS 10)) by reflexivity. rewrite E1. cbn [bind alloc app List.length].
  assert (E2 : new_surface (columns fx_grid) (flat_contact (g_z0 fx_grid)) [] = Ok (flatS 0)) by reflexivity. rewrite E2. cbn [bind alloc app List.length].
  assert (E3 : use_lower [flatS 10; flatS 0] 1 0 = Ok [flatS 10; flatS 0]) by (reval; reflexivity).
  rewrite E3. cbn [bind pyget]. change (pyget op_params (-1 - Z.of_nat 0)) with (Ok (mkFP op_types 0 (mkSbg 8%Z None None))).
  cbn [bind]. unfold new_full_stratum. change (getS [flatS 10; flatS 0] 1) with (Ok (flatS 0)). change (getS [flatS 10; flatS 0] 0) with (Ok (flatS 10)). cbn [bind].
  cbn [fsd_draws fsd_first full_stratum_loop].
  change (getS [flatS 10; flatS 0] 1) with (Ok (flatS 0)). cbn [bind flatS zmean]. destruct (Rleb_spec 10 0); [lra|].
  change (choose (fp_types (mkFP op_types 0 (mkSbg 8%Z None None))) 0) with (Ok (nth 0 op_types (mkFT 0 (flat_contact 0) (mkBg None None None) op_kind))).
  cbn [bind fd_next]. change (choose (fp_types (mkFP op_types 0 (mkSbg 8%Z None None))) 1) with (Ok (nth 1 op_types (mkFT 0 (flat_contact 0) (mkBg None None None) op_kind))).
  assert (En : next_depth 0 10 (base_draw (mkFD 5 1 0 1 [0] op_od) []) = z5).
  { unfold next_depth. cbn [base_draw d_height d_u d_avul fd_height fd_u fd_avul]. numR. destruct (Rleb_spec 1 0); [lra|]. reflexivity. }
  cbn [bind fp_avul_prob zmean flatS]. rewrite En. pose proof z5_eq. destruct (Rleb_spec z5 0); [lra|].
  assert (E4 : new_surface (columns fx_grid) (set_z (ft_contact (nth 1 op_types (mkFT 0 (flat_contact 0) (mkBg None None None) op_kind))) z5) [0] = Ok (flatS z5)) by reflexivity.
  cbn [fd_field]. rewrite E4. cbn [bind alloc app List.length]. fold (flatS 10) (flatS 0) (flatS z5). fold fx_st0.
  assert (E5 : use_lower fx_st0 2 0 = Ok fx_st0). { cbn. numR. destruct (Rleb_spec z5 10); [|lra]. cbn. reflexivity. } rewrite E5. cbn [bind].
  assert (E6 : use_higher fx_st0 2 1 = Ok fx_st0). { cbn. numR. destruct (Rleb_spec 0 z5); [|lra]. cbn. reflexivity. } rewrite E6. cbn [bind fp_bg fd_objects].
  rewrite op_full_ae1. cbn [bind fst op_ae1 ae_zmin ae_zmax].
  change (getS fx_st0 1) with (Ok (flatS 0)). cbn [bind flatS zmean zmin zmax]. destruct (Rleb_spec z5 0); [lra|].
  change (choose (fp_types (mkFP op_types 0 (mkSbg 8%Z None None))) 1) with (Ok (nth 1 op_types (mkFT 0 (flat_contact 0) (mkBg None None None) op_kind))).
  cbn [bind fd_next]. change (choose (fp_types (mkFP op_types 0 (mkSbg 8%Z None None))) 0) with (Ok (nth 0 op_types (mkFT 0 (flat_contact 0) (mkBg None None None) op_kind))).
  cbn [bind fp_avul_prob].
  assert (En2 : Rleb (next_depth 0 z5 (base_draw (mkFD 9 1 0 0 [0] op_od) [])) 0 = true).
  { apply Rleb_true. unfold next_depth. cbn [base_draw d_height d_u d_avul fd_height fd_u fd_avul]. numR. destruct (Rleb_spec 1 0); lra. }
  rewrite En2. cbn [bind].
  assert (E7 : use_lower fx_st0 1 2 = Ok fx_st0). { cbn. numR. destruct (Rleb_spec 0 z5); [|lra]. cbn. reflexivity. } rewrite E7. cbn [bind].
  assert (E8 : use_higher fx_st0 1 1 = Ok fx_st0). { cbn. numR. destruct (Rleb_spec 0 0); [|lra]. cbn. reflexivity. } rewrite E8. cbn [bind fd_objects].
  rewrite op_full_ae2. cbn [bind fst op_ae2 ae_zmin ae_zmax app].
  change (getS fx_st0 1) with (Ok (flatS 0)). cbn [bind flatS zmean]. destruct (Rleb_spec 0 0); [|lra]. cbn [bind map fst snd app].
  unfold op_strata. repeat match goal with |- context [Rltb ?a ?b] => match a with context [Rltb] => fail 1 | _ => match b with context [Rltb] => fail 1 | _ =>
    first [replace (Rltb a b) with true by (symmetry; apply Rltb_true; lra) | replace (Rltb a b) with false by (symmetry; apply Rltb_false; lra)] end end end.
  reflexivity.
Qed.

Lemma op_sensible : sensible fx_grid op_params op_draws fx_st0 op_strata.
Proof.
  pose proof z5_eq as H5. exists 0, 10. split; [|split; [|split; [|split]]].
  - intros a k v H. apply fx_col in H as [[->|[->| ->]] _]; lra.
  - repeat constructor; cbn; lra.
  - intros sd d [<-|[]] [<-|[<-|[]]]; unfold trough_draws_ok; repeat constructor; cbn; lra.
  - intros fp ft [<-|[]] [<-|[<-|[]]].
    + split; [|right; discriminate]. cbn. split; [lra|]. split; [lra|].
      split. { split; [split; cbn; lra|]. split; [cbn; intuition discriminate|]. split; [exact I|left; cbn; lra]. }
      split; [lra|]. split; [lra|]. split; [lra|]. split; [intros; numR; lra|]. intros te [= <-]. split; [repeat constructor; cbn; lra|repeat constructor; cbn; lra].
    + split; [|left; repeat eexists]. cbn. split; [intuition discriminate|exact I].
  - intros si fs e fp ft Hs He Hp Hf. destruct si as [|si]; [|destruct si; discriminate]. injection Hs as <-. injection Hp as <-.
    destruct He as [<-|[<-|[]]]; cbn in Hf; injection Hf as <-; cbn; [|exact I].
    intros te k v [= <-] H. destruct k as [|k]; [|destruct k; discriminate]. injection H as <-. repeat constructor; cbn; lra.
Qed.

Lemma op_contains z n : (n < 2)%nat -> 17/2 <= z <= 10 -> in_periodic_trough 1 1 (op_trough z n) (mkPoint (1/2) (1/2) (1/2 + INR 8) 0 0).
Proof.
  intros Hn Hz. exists 1%Z, 0%Z, 0. destruct (op_size z n Hn) as (_ & _ & A1 & A2 & A3). rewrite A1, A2, A3.
  assert (Es : TroughModel.uniform 0 0 0 = 0) by (unfold TroughModel.uniform; numR; field).
  assert (Ef : tr_sin (op_trough z n) = sin (TroughModel.deg (TroughModel.uniform 0 0 0)) /\ tr_cos (op_trough z n) = cos (TroughModel.deg (TroughModel.uniform 0 0 0)) /\
    tr_x (op_trough z n) = 3/2 /\ tr_y (op_trough z n) = 1/2 /\ tr_z (op_trough z n) = z) by (destruct n as [|[|n]]; [| |lia]; repeat split; reflexivity).
  destruct Ef as (-> & -> & -> & -> & ->). rewrite Es. split; [reflexivity|]. split; [reflexivity|].
  cbn [p_x p_y p_z]. replace (INR 8) with 8 by (cbn; lra).
  split; [lra|]. exists 0, 0, ((17/2 - z)/3). unfold radians. replace (0 * PI / 180) with 0 by field. rewrite sin_0, cos_0. repeat split; try lra. nra.
Qed.
Lemma op_not_itself z n : (n < 2)%nat -> ~ in_trough (op_trough z n) (mkPoint (1/2) (1/2) (1/2 + INR 8) 0 0).
Proof.
  intros Hn (al & Hs & Hc & _ & u & v & w & H1 & H2 & _). destruct (op_size z n Hn) as (_ & _ & A1 & A2 & _).
  assert (tr_x (op_trough z n) = 3/2) as Ex by (destruct n as [|[|n]]; [| |lia]; reflexivity).
  rewrite Ex, A1, A2 in H2. cbn [p_x] in H2. set (c := cos _) in *. set (s := sin _) in *.
  assert (s * s + c * c = 1) by apply sin2_cos2.
  assert (u * c - v * s = -2) as K by lra.
  assert ((u * c - v * s) * (u * c - v * s) <= (u * u + v * v) * (s * s + c * c)) by (assert (0 <= (u * s + v * c) * (u * s + v * c)) by apply Rle_0_sqr; nra).
  assert (0 <= w * w) by apply Rle_0_sqr. rewrite K, H in H0. lra.
Qed.

(** The cell at 8.5 m lies in copies of both troughs, but in neither trough
    itself; it has the facies of the upper one. *)
Example C141_periodic_example : exists v,
  full_arrays (periodic 1 1) (mkCGrid 1 1 1) (fun _ _ _ => 0%Z) op_params fx_st0 op_strata (g_x fx_grid) (g_y fx_grid) (g_z fx_grid) 0 0 8 = Some v /\
  ~ in_trough (op_trough 10 0) (mkPoint (1/2) (1/2) (1/2 + INR 8) 0 0) /\ ~ in_trough (op_trough 9 1) (mkPoint (1/2) (1/2) (1/2 + INR 8) 0 0) /\
  c_facies v = 3%Z.
Proof.
  pose proof z5_eq as H5. assert (Hz : forall z, In z (g_z fx_grid) -> exists i, (i < 10)%nat /\ z = 1 / 2 + INR i).
  { intros z H. apply in_map_iff in H as (i & <- & H). apply in_seq in H. exists i. split; [lia|reflexivity]. }
  destruct (C141_periodic_partial 0 0 0 1 1 1 1 1 10 fx_grid 5 [] op_params op_draws fx_st0 op_strata (fun _ _ _ => 0%Z) fx_grid_ok)
    with (xi := 0%nat) (yi := 0%nat) (zi := 8%nat) (x := 1/2) (y := 1/2) (z := 1/2 + INR 8) (si := 0%nat) (fs := nth 0 op_strata (mkStratum 1 0 0 10 [], [])) (ei := 0%nat) (e := op_ae1)
      (l := [op_trough 10 0; op_trough 9 1]) (k := 0%nat) (t := op_trough 10 0) as (v & Ev & Hv); try lra; try reflexivity; auto.
  - repeat constructor.
  - discriminate.
  - exact op_runs.
  - exact op_sensible.
  - discriminate.
  - repeat constructor; discriminate.
  - apply Forall_forall. intros v Hv. destruct (Hz v Hv) as (i & Hi & ->). assert (INR (S i) <= INR 10) by (apply le_INR; lia). rewrite S_INR in H. replace (INR 10) with 10 in H by (cbn; lra). lra.
  - intros k a v Hv Hc. apply fx_col in Hc as [Hc _]. destruct (Hz v Hv) as (i & Hi & ->).
    do 10 (destruct i as [|i]; [cbn in Hc; lra|]). lia.
  - assert (K : forall z n, (n < 2)%nat -> Rmax (tr_a (op_trough z n)) (tr_b (op_trough z n)) <= 1 / 2 /\ Rmax (tr_a (op_trough z n)) (tr_b (op_trough z n)) <= 1 / 2 /\
      Rabs (1 / 2 - tr_x (op_trough z n)) <= 3 / 2 * 1 /\ Rabs (1 / 2 - tr_y (op_trough z n)) <= 3 / 2 * 1).
    { intros z n Hn. destruct (op_size z n Hn) as (_ & _ & -> & -> & _). rewrite Rmax_left by lra.
      assert (tr_x (op_trough z n) = 3/2 /\ tr_y (op_trough z n) = 1/2) as [-> ->] by (destruct n as [|[|n]]; [| |lia]; split; reflexivity).
      repeat split; try lra; apply Rabs_le; lra. }
    intros t' [<-|[<-|[]]]; apply K; lia.
  - split; [reflexivity|]. split; [apply op_contains; [lia|lra]|]. intros j c' Hj. lia.
  - exists v. split; [exact Ev|]. do 2 (split; [apply op_not_itself; lia|]).
    cbn [map List.concat firstn List.length Nat.add Z.of_nat] in Hv.
    assert (Hs : shows_trough (op_trough 10 0) (mkPoint (1/2) (1/2) (1/2 + INR 8) 0 0) v) by (destruct Hv as [Hv|[_ [Hv|(_ & Hv & _)]]]; [lia|lia|exact Hv]).
    destruct (op_size 10 0 ltac:(lia)) as (_ & _ & _ & _ & A). unfold shows_trough in *. rewrite A in *.
    change (tr_z (op_trough 10 0)) with 10 in *. change (tr_lag (op_trough 10 0)) with 0 in *. change (tr_structure (op_trough 10 0)) with 0%Z in *. change (tr_facies (op_trough 10 0)) with 3%Z in *.
    cbn [p_z] in *. replace (INR 8) with 8 in * by (cbn; lra).
    destruct Hs as [[Hs _]|[_ [(_ & Hs & _)|[(Hs & _)|[(Hs & _)|(Hs & _)]]]]]; [lra|exact Hs|discriminate|discriminate|discriminate].
Qed.
