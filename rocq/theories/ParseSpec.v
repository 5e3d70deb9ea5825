(** Specification vocabulary for the ini parser, independent of ParseModel's
    functions (only the value type is shared). *)
From Coq Require Import List ZArith Bool Ascii String.
From Verif Require Import Base ParseModel.
Import ListNotations.
Local Open Scope char_scope.

(** A token: a non-empty text without space, comma or brackets. *)
Definition plain_char (c : ascii) : Prop :=
  c <> " " /\ c <> "," /\ c <> "[" /\ c <> "]".
Definition token (t : pystr) : Prop := t <> [] /\ Forall plain_char t.

(** A value all of whose leaves are [d] levels deep, without empty lists. *)
Fixpoint depth_is {A} (d : nat) (v : val A) : Prop :=
  match d, v with
  | O, Leaf _ => True
  | S d, Node l => l <> [] /\ Forall (depth_is d) l
  | _, _ => False
  end.

(** All leaves are tokens; defined together with the depth. *)
Fixpoint literal (d : nat) (v : val pystr) : Prop :=
  match d, v with
  | O, Leaf t => token t
  | S d, Node l => l <> [] /\ Forall (literal d) l
  | _, _ => False
  end.

(** The usual way to write a nested list. *)
Fixpoint join_comma (l : list pystr) : pystr :=
  match l with
  | [] => []
  | [x] => x
  | x :: r => x ++ "," :: join_comma r
  end.
Fixpoint render (v : val pystr) : pystr :=
  match v with
  | Leaf t => t
  | Node l => "[" :: join_comma (map render l) ++ ["]"]
  end.

(** [spaced s t]: [t] is [s] with spaces inserted anywhere. *)
Inductive spaced : pystr -> pystr -> Prop :=
  | sp_nil : spaced [] []
  | sp_space s t : spaced s t -> spaced s (" " :: t)
  | sp_cons c s t : spaced s t -> spaced (c :: s) (c :: t).

(** Conversion of all leaves of a value, left to right, first failure wins. *)
Fixpoint convert_all {A B} (f : A -> res B) (v : val A) : res (val B) :=
  match v with
  | Leaf a => let* b := f a in Ok (Leaf b)
  | Node l => let* l' := (fix go (l : list (val A)) : res (list (val B)) :=
                            match l with
                            | [] => Ok []
                            | x :: r => let* y := convert_all f x in
                                        let* ys := go r in Ok (y :: ys)
                            end) l in Ok (Node l')
  end.

(** [v] is a nested list with the dimensions [dims]; -1 is any length. *)
Fixpoint has_shape {A} (dims : list Z) (v : val A) : Prop :=
  match dims, v with
  | [], Leaf _ => True
  | n :: ns, Node l => (n = (-1)%Z \/ Z.of_nat (List.length l) = n) /\ Forall (has_shape ns) l
  | _, _ => False
  end.

(** Two nested lists of the same form. *)
Inductive same_shape {A B} : val A -> val B -> Prop :=
  | ss_leaf a b : same_shape (Leaf a) (Leaf b)
  | ss_node l m : Forall2 same_shape l m -> same_shape (Node l) (Node m).

(** [all_leaves a v]: every leaf of v is a. *)
Inductive all_leaves {A} (a : A) : val A -> Prop :=
  | al_leaf : all_leaves a (Leaf a)
  | al_node l : Forall (all_leaves a) l -> all_leaves a (Node l).

(** [copies v k w]: [w] consists of [k] levels of lists around copies of [v]. *)
Inductive copies {A} (v : val A) : nat -> val A -> Prop :=
  | cp_0 : copies v 0 v
  | cp_S k l : Forall (copies v k) l -> copies v (S k) (Node l).
