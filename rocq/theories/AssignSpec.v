(** Vocabulary for statements about the assignment of cells (real numbers). *)
From Coq Require Import List ZArith Reals Sorted Bool.
From Verif Require Import Base Num AssignModel.
Import ListNotations.
Local Open Scope R_scope.

Section Spec.
Context {D : Type}.
Notation aobj := (aobj R D).
Notation aelem := (aelem R D).
Notation astrat := (astrat R D).
Notation point := (point R).
Notation write := (write R).
Notation ids := (ids R).

(** ** A cell really lies where it is reported *)
Definition in_object (e : aelem) (p : point) (i : ids) : Prop :=
  exists o d d' w, In o (e_objs e) /\ o_zmin o <= p_z p <= o_zmax o /\ o_check o d p = (d', Some w) /\
    i_facies i = w_facies w /\ i_azim i = w_azim w /\ i_dip i = w_dip w /\ i_ha i = w_ha w.
Definition in_background (e : aelem) (p : point) (i : ids) : Prop :=
  e_sheet e = false /\ e_bottom e (p_xi p) (p_yi p) < p_z p < e_top e (p_xi p) (p_yi p) /\
  i_facies i = e_bg_facies e /\ i_azim i = e_bg_azim e /\ i_dip i = e_bg_dip e.
Definition located (m : list astrat) (p : point) (i : ids) (si : nat) : Prop :=
  i_facies i <> (-1)%Z /\
  exists s e, nth_error m si = Some s /\ In e (t_aes s) /\ t_zmin s <= p_z p /\ e_zmin e <= p_z p /\
    i_ae i = e_num e /\ i_hat i = e_type e /\ (in_object e p i \/ in_background e p i).

(** ** Exhaustive search

    [hit] says what an object does with a point independently of any state. *)
Variable hit : aobj -> point -> option write.

Fixpoint first {A B} (f : A -> option B) (l : list A) (i : nat) : option (nat * B) :=
  match l with
  | [] => None
  | a :: r => match f a with Some b => Some (i, b) | None => first f r (S i) end
  end.

Definition hits (p : point) (o : aobj) : option write :=
  match hit o p with
  | Some w => if Z.eqb (w_facies w) (-1) then None else Some w
  | None => None
  end.
Definition within (e : aelem) (p : point) : bool :=
  if Rlt_dec (e_bottom e (p_xi p) (p_yi p)) (p_z p) then
    if Rlt_dec (p_z p) (e_top e (p_xi p) (p_yi p)) then true else false
  else false.

(** The first object containing the point, otherwise the background. *)
Definition search_ae (p : point) (e : aelem) : option (option nat * ids) :=
  match first (hits p) (e_objs e) 0 with
  | Some (j, w) => Some (Some j, mkIds (w_facies w) (e_num e) (w_ha w) (e_type e) (w_azim w) (w_dip w))
  | None =>
      if negb (e_sheet e) && within e p && negb (Z.eqb (e_bg_facies e) (-1)) then
        Some (None, mkIds (e_bg_facies e) (e_num e) (-1) (e_type e) (e_bg_azim e) (e_bg_dip e))
      else None
  end.
Definition search_stratum (p : point) (s : astrat) : option (nat * (option nat * ids)) :=
  first (search_ae p) (t_aes s) 0.
Definition search (m : list astrat) (p : point) : option (nat * (nat * (option nat * ids))) :=
  first (search_stratum p) m 0.
Definition exhaustive (m : list astrat) (p : point) : option (ids * nat) :=
  match search m p with Some (s, (_, (_, i))) => Some (i, s) | None => None end.

(** ** Well-formed models *)

(** The objects behave as [hit] says and never report facies -1. *)
Definition every_obj (m : list astrat) (P : aobj -> Prop) : Prop :=
  forall s e o, In s m -> In e (t_aes s) -> In o (e_objs e) -> P o.
Definition pure (m : list astrat) : Prop := every_obj m (fun o => forall d p, o_check o d p = (d, hit o p)).
Definition no_lost_facies (m : list astrat) (ps : list point) : Prop :=
  every_obj m (fun o => forall p w, In p ps -> hit o p = Some w -> w_facies w <> (-1)%Z).

(** The vertical bounds of objects, elements and strata cover what they
    contain of the cells [ps], and no object reaches above the top of an
    earlier one (which is the case if the objects are sorted by their top). *)
Definition bounds_cover (m : list astrat) (ps : list point) : Prop :=
  every_obj m (fun o => forall p w, In p ps -> hit o p = Some w -> o_zmin o <= p_z p <= o_zmax o) /\
  (forall s e p r, In s m -> In e (t_aes s) -> In p ps -> search_ae p e = Some r -> e_zmin e <= p_z p) /\
  (forall s p r, In s m -> In p ps -> search_stratum p s = Some r -> t_zmin s <= p_z p).
Definition tops_in_order (m : list astrat) (ps : list point) : Prop :=
  forall s e, In s m -> In e (t_aes s) ->
    StronglySorted (fun o o' => forall p w, In p ps -> hit o' p = Some w -> p_z p <= o_zmax o) (e_objs e).
Definition objects_sorted (m : list astrat) : Prop :=
  forall s e, In s m -> In e (t_aes s) -> StronglySorted (fun o o' => o_zmax o' <= o_zmax o) (e_objs e).

(** Cells of one column from top to bottom. *)
Definition column (c : nat * nat) (ps : list point) : Prop :=
  Forall (fun p => (p_xi p, p_yi p) = c) ps /\ StronglySorted (fun p p' => p_z p' < p_z p) ps.

(** No object is entered again: below a cell found in object [j] of an element
    no cell is found in an earlier object of the same element. *)
Definition objects_left_once (m : list astrat) (ps : list point) : Prop :=
  forall p p' s a j i j' i', In p ps -> In p' ps -> p_z p' < p_z p ->
    search m p = Some (s, (a, (Some j, i))) -> search m p' = Some (s, (a, (Some j', i'))) -> (j <= j')%nat.
(** A sufficient condition: an object hangs down from its top, so in a column
    where it is left downwards it does not occur again. *)
Definition hanging (m : list astrat) (ps : list point) : Prop :=
  every_obj m (fun o => forall p p', In p ps -> In p' ps -> p_z p' < p_z p <= o_zmax o ->
                                     hits p o = None -> hits p' o = None).
(** No element is entered again: below a cell found in element [a] of stratum
    [s] no cell is found in an earlier element. *)
Definition elements_left_once (m : list astrat) (ps : list point) : Prop :=
  forall p p' s a j i s' a' j' i', In p ps -> In p' ps -> p_z p' < p_z p ->
    search m p = Some (s, (a, (j, i))) -> search m p' = Some (s', (a', (j', i'))) ->
    (s < s' \/ s = s' /\ a <= a')%nat.

(** Sufficient: nothing in an element lies above its top, what lies below its
    bottom is connected to the bottom, and no element starts above the bottom
    of an earlier one. *)
Definition stacked (m : list astrat) (ps : list point) : Prop :=
  (forall s e p r, In s m -> In e (t_aes s) -> In p ps -> search_ae p e = Some r ->
     p_z p <= e_top e (p_xi p) (p_yi p) /\
     forall p', In p' ps -> p_z p < p_z p' <= e_bottom e (p_xi p) (p_yi p) -> search_ae p' e <> None) /\
  StronglySorted (fun e e' => forall p, In p ps -> e_top e' (p_xi p) (p_yi p) <= e_bottom e (p_xi p) (p_yi p)) (flat_map t_aes m).

(** Sufficient as well: every cell lies between the surfaces of an element in
    which it is found (objects may also reach beyond the surfaces). *)
Definition tiled (m : list astrat) (ps : list point) : Prop :=
  (forall p, In p ps -> exists s e, In s m /\ In e (t_aes s) /\
     e_bottom e (p_xi p) (p_yi p) <= p_z p <= e_top e (p_xi p) (p_yi p) /\ search_ae p e <> None) /\
  (forall s e p p', In s m -> In e (t_aes s) -> In p ps -> In p' ps -> search_ae p e <> None ->
     p_z p < p_z p' <= e_bottom e (p_xi p) (p_yi p) -> search_ae p' e <> None) /\
  StronglySorted (fun e e' => forall p, In p ps -> e_top e' (p_xi p) (p_yi p) <= e_bottom e (p_xi p) (p_yi p)) (flat_map t_aes m).

(** Once a cell is not found, nor are the ones below. *)
Fixpoint until_missed {A} (l : list (option A)) : list (option A) :=
  match l with
  | [] => []
  | Some a :: r => Some a :: until_missed r
  | None :: r => None :: map (fun _ => None) r
  end.

(** ** State shared between the objects

    [Inv d c z]: in column [c], at elevation [z] and below, the objects of the
    model behave as [hit] says.  [P] are the points that occur. *)
Definition transparent (m : list astrat) (P : point -> Prop) (Inv : D -> nat * nat -> R -> Prop) : Prop :=
  every_obj m (fun o => forall d p, P p -> Inv d (p_xi p, p_yi p) (p_z p) ->
     snd (o_check o d p) = hit o p /\ Inv (fst (o_check o d p)) (p_xi p, p_yi p) (p_z p) /\
     forall c z, c <> (p_xi p, p_yi p) -> Inv d c z -> Inv (fst (o_check o d p)) c z) /\
  (forall d c z z', z' <= z -> Inv d c z -> Inv d c z').
(** The same model with objects that have no state. *)
Definition pure_obj (o : aobj) : aobj := mkAobj (o_zmin o) (o_zmax o) (fun d p => (d, hit o p)).
Definition pure_ae (e : aelem) : aelem :=
  mkAelem (e_num e) (e_type e) (e_sheet e) (e_bottom e) (e_top e) (e_bg_facies e) (e_bg_azim e) (e_bg_dip e)
    (e_zmin e) (map pure_obj (e_objs e)).
Definition pure_model (m : list astrat) : list astrat :=
  map (fun s => mkAstrat (t_zmin s) (map pure_ae (t_aes s))) m.

End Spec.
