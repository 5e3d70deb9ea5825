(** C122: a cell of the upper sheet of the file in LinkExamples. *)
From Coq Require Import List ZArith Bool Ascii String Reals Lia Lra.
From Verif Require Import Base Num ParseModel ConfigModel ConfigSpec ConfigProps DeprecatedModel DeprecatedSpec SurfaceModel SurfaceSpec SurfaceProps
  StrataModel AssignModel FaciesModel TroughModel SheetModel ChannelModel FullModel FullSpec FullProps LinkModel LinkSpec LinkProofs LinkProps LinkExamples SizeSpec SizeProps AngleSpec AngleProps.
Import ListNotations.
Local Open Scope string_scope.
Local Open Scope R_scope.

Example C122_example : exists v si (fs : full_stratum) (e : ae R) sec, arrays lk_linked (fun _ _ _ => 0%Z) lk_st lk_strata 0 0 7 = Some v /\ c_facies v = 1%Z /\
  c_strata v = Z.of_nat si /\ nth_error lk_strata si = Some fs /\ In e (s_aes (fst fs)) /\ section_of lk_cf si e sec.
Proof.
  destruct C107_example_upper as (v & E & E1 & E2 & E3).
  assert (U : forall sd d, In sd lk_draws -> In d (fsd_draws sd) -> unit_draws (fd_objects d)).
  { intros sd d [<-|[<-|[]]] [<-|[]]; cbn; unfold unit_draws, unit_draw; cbn; repeat split; try constructor; try constructor; cbn; lra. }
  destruct (C122_angles lk_fin lk_nan lk_cf lk_linked 5 lk_draws lk_st lk_strata lk_link ltac:(repeat constructor) lk_runs U (fun _ _ _ => 0%Z) 0 0 7 (1/2) (1/2) (1/2 + INR 7) eq_refl eq_refl eq_refl)
    as (v' & E' & H). assert (v' = v) by congruence. subst v'. destruct H as [H|(si & fs & e & sec & H1 & H2 & H3 & H4 & _)].
  - subst v. discriminate E1.
  - exists v, si, fs, e, sec. auto 10.
Qed.
