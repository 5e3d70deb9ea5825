(** Specification: a parameter file with one more element type. *)
From Coq Require Import List ZArith Bool Ascii String.
From Verif Require Import Base ParseModel ConfigModel.
Import ListNotations.
Local Open Scope string_scope.
Local Open Scope list_scope.

(** The value of option [k] in a section *)
Fixpoint option_text (t : list (pystr * pystr)) (k : pystr) : option pystr :=
  match t with
  | [] => None
  | (k', v) :: r => if pystr_eqb k k' then Some v else option_text r k
  end.

(** The file [p'] is [p] with the section [n] of text [t] at its end; the list of
    element types (option ae in the section strata) may be another one. *)
Definition one_more (p : inifile) (n : pystr) (t : list (pystr * pystr)) (p' : inifile) : Prop :=
  ~ In n (map fst p) /\ ~ In n (map S_ ["run"; "model"; "strata"; "hydraulics"; "flowtrans"]) /\
  exists q, p' = q ++ [(n, t)] /\
    Forall2 (fun s s' => fst s = fst s' /\
      (fst s <> S_ "strata" -> snd s = snd s') /\
      (forall k, k <> S_ "ae" -> option_text (snd s) k = option_text (snd s') k)) p q.

(** The types of [cf] as the first entries of the list of types, then [n]. *)
Definition listed_last {F} (n : pystr) (cf cf' : config F) : Prop :=
  exists l, dget (cf_strata cf) (S_ "ae") = Some (Node l) /\ dget (cf_strata cf') (S_ "ae") = Some (Node (l ++ [Leaf (AStr n)])).
