(** The generated model as assign_points sees it: the enumeration at the end
    of generate_model (hyvr/geo/model.py l. 140-149) and the arrays of the
    elements (hyvr/geo/ae_realization.py l. 105-140, sheet_ae.py l. 15-45), and
    maybe_assign_points_to_object of sheets (sheet_ae.py l. 107-160).
    No proofs here. *)
From Coq Require Import List ZArith Bool.
From Verif Require Import Base Num SurfaceModel StrataModel AssignModel.
Import ListNotations.
Local Open Scope num_scope.

Section Build.
Context {T : Type} `{Num T} {D : Type}.

(** Elevation of surface [a] in column (i,j), number i*ny+j. *)
Definition elevation (ny : nat) (st : store T) (a : nat) (i j : nat) : T :=
  match nth_error st a with
  | Some s => nth (i * ny + j) (vals s) n0
  | None => n0
  end.

(** sheet_ae.py l. 136-160.  [c] are the copied surfaces of the sheet, [w] what
    it writes for a point inside (facies, angles and number). *)
Definition sheet_probe (ny : nat) (c : list T * list T) (w : point T -> write T) (d : D) (p : point T) : D * option (write T) :=
  let k := (p_xi p * ny + p_yi p)%nat in
  if (p_z p <? nth k (fst c) n0) || (nth k (snd c) n0 <? p_z p) then (d, None) else (d, Some (w p)).

(** isinstance(ae, SheetAE): only sheets have surfaces, and an element of
    sheets has at least one. *)
Definition is_sheet (e : ae T) : bool :=
  match ae_objects e with
  | o :: _ => match ob_surfaces o with Some _ => true | None => false end
  | [] => false
  end.

(** What the objects of element number [num] do: [look] for a point in a sheet,
    [probe] for troughs and channels. *)
Variable ny : nat.
Variable type_id : nat -> nat -> Z.
Variable look : nat -> nat -> point T -> write T.
Variable probe : nat -> nat -> D -> point T -> D * option (write T).

Fixpoint to_objs (num oi : nat) (l : list (object T)) (cs : list (list T * list T)) : list (aobj T D) :=
  match l, cs with
  | o :: l, c :: cs =>
      mkAobj (ob_zmin o) (ob_zmax o)
        (match ob_surfaces o with
         | Some _ => sheet_probe ny c (look num oi)
         | None => probe num oi
         end) :: to_objs num (S oi) l cs
  | _, _ => []
  end.

Definition to_aelem (st : store T) (si num : nat) (e : ae T) : aelem T D :=
  mkAelem (Z.of_nat num) (type_id si (ae_kind e)) (is_sheet e)
    (elevation ny st (ae_bottom e)) (elevation ny st (ae_top e))
    (ae_bg_facies e) (ae_bg_azim e) (ae_bg_dip e) (ae_zmin e)
    (to_objs num 0 (ae_objects e) (ae_copies e)).

(** l. 141-146: the elements are numbered in order through all strata. *)
Fixpoint to_aelems (st : store T) (si num : nat) (l : list (ae T)) : list (aelem T D) :=
  match l with
  | [] => []
  | e :: l => to_aelem st si num e :: to_aelems st si (S num) l
  end.
Fixpoint to_model (st : store T) (si num : nat) (l : list (stratum T)) : list (astrat T D) :=
  match l with
  | [] => []
  | s :: l => mkAstrat (s_zmin s) (to_aelems st si num (s_aes s)) :: to_model st (S si) (num + List.length (s_aes s)) l
  end.
End Build.

(** ** Numbers of the objects

    A Trough, Channel or Sheet (Cython class) starts with num_ha = 0.  The
    array object_num_ha of an element is filled when the element is created
    (ae_realization.py l. 123-130), the objects get their number at the end of
    generate_model (model.py l. 139-149); maybe_assign_points_to_object writes
    object_num_ha[oi]. *)
Record numbered_ae := mkNumAE { na_num : Z; na_objs : list Z; na_array : list Z }.
Definition new_numbered (n : nat) : numbered_ae :=
  let objs := repeat 0%Z n in mkNumAE 0 objs objs.
(** [ids n i]: the numbers i, i+1, ..., i+n-1 *)
Definition number_objs (ha : Z) (l : list Z) : list Z * Z :=
  (map (fun i => ha + Z.of_nat i)%Z (seq 0 (List.length l)), (ha + Z.of_nat (List.length l))%Z).
Fixpoint number_aes (num ha : Z) (l : list numbered_ae) : list numbered_ae * Z * Z :=
  match l with
  | [] => ([], num, ha)
  | e :: l =>
      let (objs, ha) := number_objs ha (na_objs e) in
      let '(r, num', ha) := number_aes (num + 1) ha l in
      (mkNumAE num objs (na_array e) :: r, num', ha)
  end.
Fixpoint number_strata (num ha : Z) (l : list (list numbered_ae)) : list (list numbered_ae) :=
  match l with
  | [] => []
  | s :: l =>
      let '(r, num, ha) := number_aes num ha s in r :: number_strata num ha l
  end.
(** The numbers in a generated model with the given numbers of objects per
    element, per stratum. *)
Definition numbers (counts : list (list nat)) : list (list numbered_ae) :=
  number_strata 0 0 (map (map new_numbered) counts).
