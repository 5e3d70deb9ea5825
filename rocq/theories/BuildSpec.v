(** Conditions on troughs and channels for statements about generated models. *)
From Coq Require Import List ZArith Reals Sorted.
From Verif Require Import Base Num AssignModel AssignSpec.
Import ListNotations.
Local Open Scope R_scope.

(** Elements that do not consist of sheets have a background facies; their
    objects have no state, report a facies, lie in their vertical bounds, have
    their top above the bottom of the element, are sorted by their top and hang
    down from it (for the cells [ps] of one column). *)
Definition objects_fit {D} (hit : aobj R D -> point R -> option (write R)) (m : list (astrat R D)) (ps : list (point R)) : Prop :=
  forall s e, In s m -> In e (t_aes s) -> e_sheet e = false ->
    e_bg_facies e <> (-1)%Z /\
    (forall o p w, In o (e_objs e) -> In p ps -> hit o p = Some w ->
       w_facies w <> (-1)%Z /\ o_zmin o <= p_z p <= o_zmax o /\ e_bottom e (p_xi p) (p_yi p) <= o_zmax o) /\
    (forall o d p, In o (e_objs e) -> o_check o d p = (d, hit o p)) /\
    StronglySorted (fun o o' => o_zmax o' <= o_zmax o) (e_objs e) /\
    (forall o p p', In o (e_objs e) -> In p ps -> In p' ps -> p_z p' < p_z p <= o_zmax o ->
       hits hit p o = None -> hits hit p' o = None).
