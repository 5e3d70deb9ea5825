(** What users rely on for facies sequences. *)
From Coq Require Import List ZArith.
Import ListNotations.

(** [v] may follow [u]: it is among the alternatives listed at the (first)
    place of [u] in the element's facies; without alternatives any facies of
    the element may follow. *)
Definition may_follow (facies : list Z) (alt : option (list (list Z))) (u v : Z) : Prop :=
  match alt with
  | None => In v facies
  | Some alt => exists k l, nth_error facies k = Some u /\ (forall j, (j < k)%nat -> nth_error facies j <> Some u) /\
                  nth_error alt k = Some l /\ In v l
  end.

(** A facies sequence of an element. *)
Definition facies_sequence (facies : list Z) (alt : option (list (list Z))) (l : list Z) : Prop :=
  (exists v r, l = v :: r /\ In v facies) /\
  forall i u v, nth_error l i = Some u -> nth_error l (S i) = Some v -> may_follow facies alt u v.

(** Well formed alternatives: one non-empty list of element facies per facies. *)
Definition alternatives_ok (facies : list Z) (alt : option (list (list Z))) : Prop :=
  match alt with
  | None => True
  | Some alt => length alt = length facies /\ forall l, In l alt -> l <> [] /\ incl l facies
  end.
