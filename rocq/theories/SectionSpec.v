(** Specification vocabulary for options, sections and booleans, independent
    of the functions of ParseModel except [dget], the lookup of a key. *)
From Coq Require Import List ZArith Bool Ascii String.
From Verif Require Import Base ParseModel.
Import ListNotations.

(** Value under the first of the given names that is present. *)
Fixpoint first_of {F} (d : dict F) (names : list pystr) : option (val (atom F)) :=
  match names with
  | [] => None
  | n :: r => match dget d n with Some v => Some v | None => first_of d r end
  end.

(** All names under which an option may be given. *)
Definition names {F} (o : option_ F) : list pystr := o_name o :: o_alts o.

(** Same word up to the case of letters (the second word is written in lower
    case). *)
Definition letter_ci (x y : ascii) : Prop :=
  x = y \/ (65 <= nat_of_ascii x <= 90 /\ nat_of_ascii y = nat_of_ascii x + 32)%nat.
Definition word_ci (s w : pystr) : Prop := Forall2 letter_ci s w.
Definition numeral (s : pystr) : Prop :=
  s <> [] /\ Forall (fun c => 48 <= nat_of_ascii c <= 57)%nat s.
Definition all_zero (s : pystr) : Prop := Forall (eq "0"%char) s.

Definition means_true (s : pystr) : Prop :=
  word_ci s (S_ "true") \/ word_ci s (S_ "yes") \/ (numeral s /\ ~ all_zero s).
Definition means_false (s : pystr) : Prop :=
  word_ci s (S_ "false") \/ word_ci s (S_ "no") \/ (numeral s /\ all_zero s).

(** The number a dimension of a declared shape stands for: itself, or the
    length of the list stored under the given name. *)
Inductive dim_value {F} (d : dict F) : dim -> Z -> Prop :=
  | dv_num z : dim_value d (DVal (Leaf z)) z
  | dv_name n l : dget d n = Some (Node l) -> dim_value d (DName n) (Z.of_nat (List.length l)).
