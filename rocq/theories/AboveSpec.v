(** What it means that two models have the same uppermost strata. *)
From Coq Require Import List ZArith Reals.
From Verif Require Import Base Num SurfaceModel SurfaceSpec StrataModel AssignModel FullModel.
Import ListNotations.

(** The last k entries of two lists are the same. *)
Definition same_last {A} (k : nat) (l l' : list A) : Prop :=
  exists a a' c, l = a ++ c /\ l' = a' ++ c /\ List.length c = k.
(** The first k entries of two lists are the same. *)
Definition same_first {A} (k : nat) (l l' : list A) : Prop :=
  exists c b b', l = c ++ b /\ l' = c ++ b' /\ List.length c = k.

(** The surfaces of a stratum and of its elements. *)
Definition surface_of (fs : full_stratum) (a : nat) : Prop :=
  a = s_bottom (fst fs) \/ a = s_top (fst fs) \/ exists e, In e (s_aes (fst fs)) /\ (a = ae_bottom e \/ a = ae_top e).
