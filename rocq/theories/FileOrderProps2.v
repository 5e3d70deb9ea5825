(** C150 for both formats of the parameter file. *)
From Coq Require Import List Permutation ZArith Bool Ascii String Reals.
From Verif Require Import Base Num ParseModel ConfigModel ConfigSpec ConfigProofs2 ParseProps ConfigProps DeprecatedModel DeprecatedSpec
  DeprecatedProps LinkModel HydroLinkModel FileOrderSpec FileOrderProofs FileOrderProofs2 FileOrderProofs3 FileOrderProps.
Import ListNotations.
Local Open Scope string_scope.
Local Open Scope list_scope.

(** What parameters.py makes of a file in either format, under the names of the
    new one. *)
Theorem C150_either_format : forall F (fo : fops F) trunc p p', each_once p -> reordered p p' ->
  match read_config fo trunc p, read_config fo trunc p' with
  | Ok cf, Ok cf' => same_config cf cf'
  | Err _, Err _ => True
  | _, _ => False
  end.
Proof.
  intros F fo trunc p p' H1 H2. pose proof (reordered_alike F p p' H1 H2) as A. pose proof (alike_sym F p p' A) as A'.
  destruct (read_config fo trunc p) as [cf|] eqn:E, (read_config fo trunc p') as [cf'|] eqn:E'; auto.
  - destruct (read_alike fo trunc p p' A cf E) as (c & K & S). rewrite E' in K. now injection K as <-.
  - destruct (read_alike fo trunc p p' A cf E) as (c & K & _). congruence.
  - destruct (read_alike fo trunc p' p A' cf' E') as (c & K & _). congruence.
Qed.
Print Assumptions C150_either_format.

Theorem C150_either_model : forall F (fo : fops F) trunc p p' cf cf' fin is_nan, each_once p -> reordered p p' ->
  read_config fo trunc p = Ok cf -> read_config fo trunc p' = Ok cf' ->
  (forall lk, link fin is_nan cf = Ok lk <-> link fin is_nan cf' = Ok lk) /\
  (forall lk wild st strata draw ae_draw r,
     run_hydraulics fin cf lk wild st strata draw ae_draw = Ok r <-> run_hydraulics fin cf' lk wild st strata draw ae_draw = Ok r).
Proof.
  intros F fo trunc p p' cf cf' fin is_nan H1 H2 E E'.
  pose proof (reordered_alike F p p' H1 H2) as A. pose proof (alike_sym F p p' A) as A'.
  destruct (read_alike fo trunc p p' A cf E) as (c1 & K1 & S1). rewrite E' in K1. injection K1 as <-.
  destruct (read_alike fo trunc p' p A' cf' E') as (c2 & K2 & S2). rewrite E in K2. injection K2 as <-.
  assert (N1 : NoDup (map fst (cf_elements cf))) by exact (read_names fo trunc p cf (proj1 H1) E).
  assert (N2 : NoDup (map fst (cf_elements cf'))).
  { apply (read_names fo trunc p'); [|exact E']. exact (Permutation_NoDup (proj1 A) (proj1 H1)). }
  destruct (same_config_model fin is_nan cf cf' S1 N1) as [A1 B1]. destruct (same_config_model fin is_nan cf' cf S2 N2) as [A2 B2].
  split; intros; split; auto.
Qed.
Print Assumptions C150_either_model.

(** *** Example: a file of the old format backwards *)
Example C150_old_example : let p := old_ini old_run [] old_elements in
  each_once p /\ reordered p (backwards p) /\
  exists cf cf', read_config toyf ztrunc p = Ok cf /\ read_config toyf ztrunc (backwards p) = Ok cf' /\
    map fst (cf_elements cf') = rev (map fst (cf_elements cf)) /\ List.length (cf_elements cf) = 3%nat.
Proof.
  cbv zeta. split; [|split; [apply backwards_reordered|]].
  - split; [apply nodupb_NoDup; vm_compute; reflexivity|].
    repeat (apply Forall_cons; [apply nodupb_NoDup; vm_compute; reflexivity|]); apply Forall_nil.
  - eexists. eexists. split; [vm_compute; reflexivity|]. split; [vm_compute; reflexivity|].
    split; reflexivity.
Qed.
