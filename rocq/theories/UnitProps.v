(** C148: the unit of length. *)
From Coq Require Import List ZArith Bool Ascii String Reals Lra Lia.
From Verif Require Import Base Num ParseModel ConfigModel FaciesModel SurfaceModel StrataModel AssignModel TensorModel TroughModel SheetModel ChannelModel FullModel
  TroughProps FullProps LinkProps OverlapExamples2 OriginProofs UnitSpec UnitProofs UnitProofs2.
Import ListNotations.
Local Open Scope R_scope.

(** A model of troughs and sheets with all lengths in another unit: the grid has
    the same cells, the surfaces, elements and strata are the same in the other
    unit, and all arrays agree cell by cell.  A run that fails fails in the
    same way. *)
Theorem C148_unit (c x0 y0 z0 dx dy dz lx ly lz : R) g : 0 < c ->
  grid_init x0 y0 z0 dx dy dz lx ly lz = Ok g ->
  exists g', grid_init (c * x0) (c * y0) (c * z0) (c * dx) (c * dy) (c * dz) (c * lx) (c * ly) (c * lz) = Ok g' /\
  g_x g' = map (Rmult c) (g_x g) /\ g_y g' = map (Rmult c) (g_y g) /\ g_z g' = map (Rmult c) (g_z g) /\
  forall fuel contacts params draws, Forall (fun fp => Forall measured (fp_types fp)) params ->
    (forall e, full_generate g fuel contacts params draws = Err e ->
       full_generate g' fuel (map (contact_in c) contacts) (map (params_in c) params) (map (draws_in c) draws) = Err e) /\
    (forall st strata, full_generate g fuel contacts params draws = Ok (st, strata) ->
       exists strata', full_generate g' fuel (map (contact_in c) contacts) (map (params_in c) params) (map (draws_in c) draws) =
                         Ok (map (surface_in c) st, strata') /\
         map fst strata' = map (stratum_in c) (map fst strata) /\
         forall dm cg cg' wild wild', (forall num oi p, wild' num oi (point_in c p) = wild num oi p) ->
         forall i j k, full_arrays (domain_in c dm) cg' wild' (map (params_in c) params) (map (surface_in c) st) strata' (g_x g') (g_y g') (g_z g') i j k =
                       full_arrays dm cg wild params st strata (g_x g) (g_y g) (g_z g) i j k).
Proof.
  intros Hc Hg. exists (grid_in c g). rewrite grid_sc by exact Hc. rewrite Hg. split; [reflexivity|]. do 3 (split; [reflexivity|]).
  intros fuel contacts params draws F. rewrite full_generate_sc by assumption. split.
  - intros e ->. reflexivity.
  - intros st strata E. rewrite E. cbn [bind]. exists (map (fs_in c) strata). split; [reflexivity|]. split; [rewrite !map_map; reflexivity|].
    intros dm cg cg' wild wild' W i j k. apply arrays_sc; [exact Hc|exact W|]. eapply generate_objects; eassumption.
Qed.
Print Assumptions C148_unit.

(** The thickness -1 is the exception among the lengths: multiplied like the
    others it would be a thickness below zero, not "one sheet". *)
Example C148_lens c g lo hi : 0 < c -> c <> 1 ->
  sheet_thickness g (lens_in c (-1)) None (c * lo) (c * hi) = c * (hi - lo) /\ sheet_thickness g (c * -1) None (c * lo) (c * hi) = - c.
Proof.
  intros Hc H1. unfold sheet_thickness, lens_in, neqb. numR. destruct (Req_EM_T (-1) (-1)) as [_|N]; [|contradiction]. split.
  - assert (Rleb (-1) (0 - 1) = true) as -> by (apply Rleb_true; lra). assert (Rleb (0 - 1) (-1) = true) as -> by (apply Rleb_true; lra). cbn [andb]. ring.
  - destruct (Rleb_spec (c * -1) (0 - 1)), (Rleb_spec (0 - 1) (c * -1)); cbn [andb]; try lra; exfalso; apply H1; lra.
Qed.

(** The model of C141's example in millimetres: the same cells, among them one
    of a trough. *)
Example C148_example : exists g' st' strata', grid_init (1000 * 0) (1000 * 0) (1000 * 0) (1000 * 1) (1000 * 1) (1000 * 1) (1000 * 1) (1000 * 1) (1000 * 10) = Ok g' /\
  full_generate g' 5 [] (map (params_in 1000) ot_params) (map (draws_in 1000) ot_draws) = Ok (st', strata') /\
  exists v, full_arrays (domain_in 1000 (flat 1 1)) (mkCGrid 1 1 1) (fun _ _ _ => 0%Z) (map (params_in 1000) ot_params) st' strata' (g_x g') (g_y g') (g_z g') 0 0 8 = Some v /\
  c_facies v = 3%Z.
Proof.
  destruct (C148_unit 1000 0 0 0 1 1 1 1 1 10 fx_grid ltac:(lra) fx_grid_ok) as (g' & Eg & _ & _ & _ & K). exists g', (map (surface_in 1000) fx_st0).
  destruct (K 5%nat [] ot_params ot_draws) as [_ K2].
  { constructor; [|constructor]. constructor; [exact I|]. constructor; [left; reflexivity|constructor]. }
  destruct (K2 _ _ ot_runs) as (strata' & E & _ & A). exists strata'. split; [exact Eg|]. split; [exact E|].
  destruct C141_example as (v & Ev & _ & _ & _ & _ & Hf & _). exists v. split; [|exact Hf].
  rewrite <- Ev. apply A. reflexivity.
Qed.
