(** A file for C107: two strata, each filled by one sheet. *)
From Coq Require Import List ZArith Bool Ascii String Reals Lia Lra.
From Verif Require Import Base Num ParseModel ConfigModel ConfigSpec ConfigProofs2 ConfigProps DeprecatedModel DeprecatedSpec
  SurfaceModel SurfaceSpec SurfaceProps StrataModel AssignModel AssignSpec AssignProps BuildModel FaciesModel TroughModel SheetModel ChannelModel FullModel FullSpec FullProps LinkModel LinkSpec LinkProofs LinkProps.
Import ListNotations.
Local Open Scope string_scope.
Local Open Scope R_scope.

Definition lk_sheet (n facies : string) :=
  (S_ n, [kv "geometry" "sheet"; kv "structure" "massive"; kv "contact_model" "[flat]"; kv "facies" facies; kv "lens_thickness" "5"]).
Definition lk_ini : inifile :=
  [ex_run; (S_ "model", [kv "dx" "1"; kv "lx" "1"; kv "ly" "1"; kv "lz" "10"]);
   (S_ "strata", [kv "strata" "[lower, upper]"; kv "strata_contact_models" "[[flat, 5]]"; kv "ae" "[mud, gravel]";
     kv "ae_in_strata" "[[mud],[gravel]]"; kv "ae_prob" "[[1],[1]]"; kv "ae_z_mean" "[[5],[5]]";
     kv "avul_prob" "[[0],[0]]"; kv "avul" "[[0,0],[0,0]]"; kv "bg_facies" "[sand, clay]"; kv "bg_azim" "0"; kv "bg_dip" "0"]);
   ex_hydraulics; lk_sheet "mud" "[clay]"; lk_sheet "gravel" "[sand]"].
(** -1 stands for NaN. *)
Definition lk_fin (z : Z) : option R := if (z =? -1)%Z then None else Some (IZR z).
Definition lk_nan (z : Z) : bool := (z =? -1)%Z.
Definition lk_cf : config Z := Eval vm_compute in match parse_inifile toyf lk_ini with Ok c => c | Err _ => mkConfig [] [] [] [] [] [] [] end.
Lemma lk_parse : parse_inifile toyf lk_ini = Ok lk_cf.
Proof. vm_compute. reflexivity. Qed.
Definition lk_type (id f : Z) : full_type :=
  mkFT id (mkContact (S_ "flat") None None) (mkBg None None None) (PSheets 5 None (mkSheetType (S_ "massive") [f] None (0, 0) (0, 0) 0)).
Definition lk_linked : linked :=
  mkLinked fx_grid (mkDomain false 1 1) [mkContact (S_ "flat") (Some 5) None]
    [mkFP [lk_type 0 0] 0 (mkSbg 1%Z (Some 0) (Some 0)); mkFP [lk_type 1 1] 0 (mkSbg 0%Z (Some 0) (Some 0))].
Lemma lk_link : link lk_fin lk_nan lk_cf = Ok lk_linked.
Proof. lazy -[IZR grid_init NumR fx_grid]. rewrite fx_grid_ok. reflexivity. Qed.

Definition lk_od : object_draws := mkOD [mkShD 0 0 0 0 (fun n => n)] [] [] [0] (fun _ => []).
Definition lk_draws : list full_stratum_draws := [mkFSD [0] 0 [mkFD 9 1 0 0 [0] lk_od]; mkFSD [0] 0 [mkFD 9 1 0 0 [0] lk_od]].
Definition lk_st : store R := [flatS 10; flatS 5; flatS 0].
Definition lk_one (f : Z) : sheet := mkSheet false 0 0 0 0 0 (uniform 0 0 0) (uniform 0 0 0) f 0 [].
Definition lk_ae (bi ti : nat) (b t : R) (f : Z) : ae R := mkAE bi ti b t [mkObject b t (Some (bi, ti))] [([b], [t])] f (Some 0) (Some 0) 0.
Lemma lk_full_ae st bi ti b t id f sb : getS st bi = Ok (flatS b) -> getS st ti = Ok (flatS t) -> t = b + 5 ->
  full_ae fx_grid 5 st (lk_type id f) 0 (mkSbg sb (Some 0) (Some 0)) bi ti lk_od = Ok (st, (lk_ae bi ti b t sb, OSheets [lk_one f])).
Proof.
  intros Hb Ht E. unfold full_ae. rewrite Hb, Ht. cbn [bind lk_type ft_kind make_objects extents].
  unfold new_ae, lk_type. rewrite Hb, Ht. cbn [bind base_type t_geometry ft_kind].
  assert (Et : sheet_thickness fx_grid 5 None (zmin (flatS b)) (zmax (flatS t)) = 5).
  { unfold sheet_thickness, neqb. numR. destruct (Rleb_spec 5 (0 - 1)); [lra|]. reflexivity. }
  rewrite Et.
  assert (El : sheet_loop 5 (columns fx_grid) st bi ti 5 (zmax (flatS t) - 5) ([], zmin (flatS b), zmax (flatS t)) =
    Ok (st, ([mkObject b t (Some (bi, ti))], b, t))).
  { cbn [sheet_loop flatS zmin zmax]. numR. destruct (Rleb_spec (t - 5) b); [|lra]. cbn [negb].
    rewrite Hb, Ht. cbn [bind flatS zmin zmax add_object ob_zmin ob_zmax app]. numR.
    destruct (Rleb_spec b b); [|lra]. destruct (Rleb_spec t t); [|lra]. reflexivity. }
  numR. rewrite El. cbn [bind base_type ft_bg map]. cbn. rewrite Hb, Ht. cbn. rewrite ?Hb, ?Ht. cbn. reflexivity.
Qed.
Definition lk_strata : list full_stratum :=
  [(mkStratum 1 0 5 10 [lk_ae 1 0 5 10 0], [OSheets [lk_one 1]]); (mkStratum 2 1 0 5 [lk_ae 2 1 0 5 1], [OSheets [lk_one 0]])].
Lemma lk_new_stratum st bi ti b t id f sb : getS st bi = Ok (flatS b) -> getS st ti = Ok (flatS t) -> t = b + 5 -> b <> t ->
  use_lower st bi ti = Ok st -> use_higher st bi bi = Ok st ->
  new_full_stratum fx_grid 5 (mkFP [lk_type id f] 0 (mkSbg sb (Some 0) (Some 0))) 0 [mkFD 9 1 0 0 [0] lk_od] st bi ti =
  Ok (st, (mkStratum bi ti b t [lk_ae bi ti b t sb], [OSheets [lk_one f]])).
Proof.
  intros Hb Ht E Hn Hl Hh. unfold new_full_stratum. rewrite Hb, Ht. cbn [bind full_stratum_loop]. rewrite Hb. cbn [bind flatS zmean].
  destruct (Rleb_spec t b); [lra|]. change (choose (fp_types (mkFP [lk_type id f] 0 (mkSbg sb (Some 0) (Some 0)))) 0) with (Ok (lk_type id f)). cbn [bind fd_next].
  change (choose (fp_types (mkFP [lk_type id f] 0 (mkSbg sb (Some 0) (Some 0)))) 0) with (Ok (lk_type id f)). cbn [bind fp_avul_prob].
  assert (En : Rleb (next_depth 0 t (base_draw (mkFD 9 1 0 0 [0] lk_od) [])) b = true).
  { apply Rleb_true. unfold next_depth. cbn [base_draw d_height d_u d_avul fd_height fd_u fd_avul]. numR. destruct (Rleb_spec 1 0); lra. }
  rewrite En. cbn [bind]. rewrite Hl. cbn [bind]. rewrite Hh. cbn [bind fd_objects fp_bg]. rewrite (lk_full_ae _ _ _ _ _ _ _ _ Hb Ht E).
  cbn [bind fst lk_ae ae_zmin ae_zmax app zmin zmax flatS]. rewrite Hb. cbn [bind flatS zmean]. destruct (Rleb_spec b b); [|lra]. cbn [bind map fst snd].
  destruct (Rltb b b), (Rltb t t); reflexivity.
Qed.
Lemma lk_runs : generate lk_linked 5 lk_draws = Ok (lk_st, lk_strata).
Proof.
  unfold generate, full_generate. cbn [lk_linked lk_grid lk_contacts lk_params lk_draws full_model_loop List.length Nat.eqb].
  assert (E1 : new_surface (columns fx_grid) (flat_contact (g_lz fx_grid)) [] = Ok (flatS 10)) by reflexivity. rewrite E1. cbn [bind alloc app List.length].
  change (pyget [mkContact (S_ "flat") (Some 5) None] (-1 - Z.of_nat 0)) with (Ok (mkContact (S_ "flat") (Some 5) None)). cbn [bind fsd_field].
  assert (E2 : new_surface (columns fx_grid) (mkContact (S_ "flat") (Some 5) None) [0] = Ok (flatS 5)) by reflexivity. rewrite E2. cbn [bind alloc app List.length].
  assert (E3 : use_lower [flatS 10; flatS 5] 1 0 = Ok [flatS 10; flatS 5]) by (reval; reflexivity). rewrite E3. cbn [bind].
  match goal with |- context [pyget ?l (-1 - Z.of_nat 0)] => change (pyget l (-1 - Z.of_nat 0)) with (Ok (mkFP [lk_type 1 1] 0 (mkSbg 0%Z (Some 0) (Some 0)))) end.
  cbn [bind fsd_first fsd_draws]. rewrite (lk_new_stratum [flatS 10; flatS 5] 1 0 5 10 1 1 0); try reflexivity; try lra; [|exact E3|reval; reflexivity].
  cbn [bind].
  assert (E4 : new_surface (columns fx_grid) (flat_contact (g_z0 fx_grid)) [] = Ok (flatS 0)) by reflexivity. rewrite E4. cbn [bind alloc app List.length].
  assert (E5 : use_lower [flatS 10; flatS 5; flatS 0] 2 1 = Ok [flatS 10; flatS 5; flatS 0]) by (reval; reflexivity). rewrite E5. cbn [bind].
  match goal with |- context [pyget ?l (-1 - Z.of_nat 1)] => change (pyget l (-1 - Z.of_nat 1)) with (Ok (mkFP [lk_type 0 0] 0 (mkSbg 1%Z (Some 0) (Some 0)))) end.
  cbn [bind fsd_first fsd_draws]. rewrite (lk_new_stratum [flatS 10; flatS 5; flatS 0] 2 1 0 5 0 0 1); try reflexivity; try lra; [exact E5|reval; reflexivity].
Qed.
Lemma lk_col a k v : col lk_st a k = Some v -> v = 10 \/ v = 5 \/ v = 0.
Proof.
  unfold col. destruct a as [|[|[|a]]]; cbn; try (destruct a; discriminate); destruct k as [|k]; cbn; try (destruct k; discriminate); intros [= <-]; auto.
Qed.
Lemma lk_sensible : sensible fx_grid (lk_params lk_linked) lk_draws lk_st lk_strata.
Proof.
  exists 0, 10. split; [|split; [|split; [|split]]].
  - intros a k v H. apply lk_col in H as [->|[->| ->]]; lra.
  - repeat constructor; cbn; lra.
  - intros sd d [<-|[<-|[]]] [<-|[]]; constructor.
  - intros fp ft [<-|[<-|[]]] [<-|[]]; (split; [cbn; split; [intuition discriminate|exact I]|left; repeat eexists]).
  - intros si fs e fp ft Hs He Hp Hf. destruct si as [|[|si]]; [| |destruct si; discriminate]; injection Hs as <-; injection Hp as <-; destruct He as [<-|[]]; cbn in Hf; injection Hf as <-; exact I.
Qed.
Lemma lk_cell zi z : nth_error (g_z fx_grid) zi = Some z ->
  exists i si, exhaustive (fun o p => snd (o_check o unmarked p)) 
     (to_model 1 (type_id_of (lk_params lk_linked)) (look_of (fun _ _ _ => 0%Z) (object_table lk_strata)) (probe_of (mkDomain false 1 1) fx_cg (fun _ _ _ => 0%Z) (object_table lk_strata)) lk_st 0 0 (map fst lk_strata))
     (mkPoint (1/2) (1/2) z 0 0) = Some (i, si) /\
    arrays lk_linked (fun _ _ _ => 0%Z) lk_st lk_strata 0 0 zi = Some (cell_of (Some (i, si))).
Proof.
  assert (Hz : forall z, In z (g_z fx_grid) -> exists i, (i < 10)%nat /\ z = 1 / 2 + INR i).
  { intros v H. apply in_map_iff in H as (i & <- & H). apply in_seq in H. exists i. split; [lia|reflexivity]. }
  intros Ez.
  apply (C34_generated_partial 0 0 0 1 1 1 1 1 10 fx_grid 5 (lk_contacts lk_linked) (lk_params lk_linked) lk_draws lk_st lk_strata (mkDomain false 1 1) (fun _ _ _ => 0%Z) fx_grid_ok); try lra; auto.
  - repeat constructor.
  - discriminate.
  - exact lk_runs.
  - exact lk_sensible.
  - discriminate.
  - repeat constructor; discriminate.
  - apply Forall_forall. intros v Hv. destruct (Hz v Hv) as (i & Hi & ->). assert (INR (S i) <= INR 10) by (apply le_INR; lia). rewrite S_INR in H. replace (INR 10) with 10 in H by (cbn; lra). lra.
  - intros k a v Hv Hc. apply lk_col in Hc. destruct (Hz v Hv) as (i & Hi & ->).
    do 10 (destruct i as [|i]; [cbn in Hc; lra|]). lia.
Qed.
(** The cell at 7.5 m: sand, type gravel, in the upper stratum.  The cell at
    2.5 m: clay, type mud, in the lower stratum. *)
Example C107_example_upper : exists v, arrays lk_linked (fun _ _ _ => 0%Z) lk_st lk_strata 0 0 7 = Some v /\ c_facies v = 1%Z /\ c_hat v = 1%Z /\ c_strata v = 0%Z.
Proof.
  destruct (lk_cell 7 (1/2 + INR 7) eq_refl) as (i & si & He & Hv). rewrite Hv. eexists. split; [reflexivity|].
  replace (INR 7) with 7 in He by (cbn; lra). revert He. unfold exhaustive, search. cbn [lk_strata map fst to_model first search_stratum t_aes s_aes to_aelems].
  unfold search_stratum. cbn [t_aes first]. unfold search_ae at 1. cbn [to_aelem e_objs lk_ae ae_objects ae_copies to_objs first ob_surfaces].
  unfold hits at 1. reval.
  match goal with |- context [sheet_probe ?ny ?c ?w ?d ?p] => assert (Es : sheet_probe ny c w d p = (d, Some (w p))) end.
  { unfold sheet_probe. cbn [p_xi p_yi p_z Nat.mul Nat.add fst snd nth]. numR. destruct (Rleb_spec 5 (1/2 + 7)); [|lra]. destruct (Rleb_spec (1/2 + 7) 10); [|lra]. reflexivity. }
  rewrite Es. cbn. intros [= <- <-]. repeat split.
Qed.

Example C107_example : exists v hf,
  arrays lk_linked (fun _ _ _ => 0%Z) lk_st lk_strata 0 0 7 = Some v /\ c_facies v = 1%Z /\ c_hat v = 1%Z /\ c_strata v = 0%Z /\
  has (cf_hydraulics lk_cf) "hydrofacies" (Node hf) /\ List.length hf = 2%nat /\ (0 <= c_facies v < Z.of_nat (List.length hf))%Z.
Proof.
  destruct C107_example_upper as (v & E & E1 & E2 & E3).
  destruct (C107_valid_facies _ toyf lk_fin lk_nan lk_ini lk_cf lk_linked 5 lk_draws lk_st lk_strata (fun _ _ _ => 0%Z) lk_parse lk_link) with (xi := 0%nat) (yi := 0%nat) (zi := 7%nat) (x := 1/2) (y := 1/2) (z := 1/2 + INR 7)
    as (v' & hf & E' & Hf & _); try reflexivity; [repeat constructor|exact lk_runs|].
  assert (v' = v) as -> by congruence.
  exists v, hf. repeat split; auto; try (rewrite E1; lia); vm_compute in Hf; injection Hf as <-; [reflexivity|rewrite E1; reflexivity].
Qed.
(** The sections of this file: C108. *)
Example C108_example : exists q, In (S_ "mud", (q, mkContact (S_ "flat") None None)) (cf_elements lk_cf) /\ complete q (keys_of "sheet") /\ ~ complete q (keys_of "trough").
Proof.
  eexists. split; [left; reflexivity|]. split.
  - intros k K. vm_compute in K. repeat (destruct K as [<-|K]; [eexists; vm_compute; reflexivity|]). destruct K.
  - intros H. destruct (H "paleoflow") as (v & Hv); [vm_compute; tauto|vm_compute in Hv; discriminate].
Qed.
