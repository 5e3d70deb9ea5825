(** Specification: a parameter file with its sections, and the options of each
    section, in another order. *)
From Coq Require Import List Permutation ZArith.
From Verif Require Import Base ParseModel ConfigModel.
Import ListNotations.

(** Each section once, each option once in its section; configparser refuses
    other files. *)
Definition each_once (p : inifile) : Prop :=
  NoDup (map fst p) /\ Forall (fun s => NoDup (map fst (snd s))) p.

Definition reordered (p p' : inifile) : Prop :=
  exists q, Permutation p q /\ Forall2 (fun s s' => fst s = fst s' /\ Permutation (snd s) (snd s')) q p'.

(** The same value under each key *)
Definition same_values {F} (d d' : dict F) : Prop := forall k, dget d k = dget d' k.

(** The same settings; the element types may come in another order. *)
Definition same_config {F} (cf cf' : config F) : Prop :=
  same_values (cf_run cf) (cf_run cf') /\ same_values (cf_model cf) (cf_model cf') /\
  same_values (cf_strata cf) (cf_strata cf') /\ cf_contacts cf = cf_contacts cf' /\
  same_values (cf_hydraulics cf) (cf_hydraulics cf') /\ same_values (cf_flowtrans cf) (cf_flowtrans cf') /\
  exists l, Permutation (cf_elements cf) l /\
    Forall2 (fun e e' => fst e = fst e' /\ same_values (fst (snd e)) (fst (snd e')) /\ snd (snd e) = snd (snd e'))
      l (cf_elements cf').
