(** C150: the order of the sections of the parameter file, and of the options of
    a section. *)
From Coq Require Import List Permutation ZArith Bool Ascii String Reals.
From Verif Require Import Base Num ParseModel ConfigModel ConfigSpec ConfigProofs2 ParseProps ConfigProps LinkModel HydroLinkModel
  FileOrderSpec FileOrderProofs FileOrderProofs2.
Import ListNotations.
Local Open Scope string_scope.
Local Open Scope list_scope.

Lemma alike_once {F} (fo : fops F) p p' cf cf' : each_once p -> reordered p p' ->
  parse_inifile fo p = Ok cf -> parse_inifile fo p' = Ok cf' ->
  same_config cf cf' /\ same_config cf' cf /\ NoDup (map fst (cf_elements cf)) /\ NoDup (map fst (cf_elements cf')).
Proof.
  intros H1 H2 E E'. pose proof (reordered_alike F p p' H1 H2) as A. pose proof (alike_sym F p p' A) as A'.
  destruct (parse_alike fo p p' A cf E) as (c1 & K1 & S1). rewrite E' in K1. injection K1 as <-.
  destruct (parse_alike fo p' p A' cf' E') as (c2 & K2 & S2). rewrite E in K2. injection K2 as <-.
  repeat split; try assumption; try apply S1; try apply S2.
  - apply (fs_elements fo p cf (parse_inifile_inv fo p cf E)). apply H1.
  - apply (fs_elements fo p' cf' (parse_inifile_inv fo p' cf' E')).
    apply (Permutation_NoDup (proj1 A)). apply H1.
Qed.

(** A file is accepted if and only if it is accepted in another order, and the
    settings are the same. *)
Theorem C150_settings : forall F (fo : fops F) p p', each_once p -> reordered p p' ->
  match parse_inifile fo p, parse_inifile fo p' with
  | Ok cf, Ok cf' => same_config cf cf'
  | Err _, Err _ => True
  | _, _ => False
  end.
Proof.
  intros F fo p p' H1 H2. pose proof (reordered_alike F p p' H1 H2) as A. pose proof (alike_sym F p p' A) as A'.
  destruct (parse_inifile fo p) as [cf|] eqn:E, (parse_inifile fo p') as [cf'|] eqn:E'; auto.
  - exact (proj1 (alike_once fo p p' cf cf' H1 H2 E E')).
  - destruct (parse_alike fo p p' A cf E) as (c & K & _). congruence.
  - destruct (parse_alike fo p' p A' cf' E') as (c & K & _). congruence.
Qed.
Print Assumptions C150_settings.

Lemma same_config_model {F} (fin : F -> option R) is_nan (c c' : config F) : same_config c c' -> NoDup (map fst (cf_elements c)) ->
  (forall lk, link fin is_nan c = Ok lk -> link fin is_nan c' = Ok lk) /\
  (forall lk wild st strata draw ae_draw r,
   run_hydraulics fin c lk wild st strata draw ae_draw = Ok r -> run_hydraulics fin c' lk wild st strata draw ae_draw = Ok r).
Proof.
  intros S N. split.
    - intros lk K. destruct (link_same fin is_nan c c' N S lk K) as (b & Kb & <-). exact Kb.
    - intros lk wild st strata draw ae_draw r K.
      assert (Q : fw eq (run_hydraulics fin c lk wild st strata draw ae_draw) (run_hydraulics fin c' lk wild st strata draw ae_draw)).
      { unfold run_hydraulics. apply (fw_bind eq _ _ _ _ _ (hydraulics_same fin c c' S)). intros h h' <-.
        apply (fw_bind eq _ _ _ _ _ (settings_same c c' S)). intros s s' <-.
        apply (fw_bind eq _ _ _ _ _ (hydro_elements_same fin c c' strata N S 0 0)). intros a a' <-. apply fw_refl. }
      destruct (Q r K) as (b & Kb & <-). exact Kb.
Qed.

(** The model that is generated from the settings is the same, and so are its
    hydraulic parameters. *)
Theorem C150_model : forall F (fo : fops F) p p' cf cf' fin is_nan, each_once p -> reordered p p' ->
  parse_inifile fo p = Ok cf -> parse_inifile fo p' = Ok cf' ->
  (forall lk, link fin is_nan cf = Ok lk <-> link fin is_nan cf' = Ok lk) /\
  (forall lk wild st strata draw ae_draw r,
     run_hydraulics fin cf lk wild st strata draw ae_draw = Ok r <-> run_hydraulics fin cf' lk wild st strata draw ae_draw = Ok r).
Proof.
  intros F fo p p' cf cf' fin is_nan H1 H2 E E'.
  destruct (alike_once fo p p' cf cf' H1 H2 E E') as (S1 & S2 & N1 & N2).
  destruct (same_config_model fin is_nan cf cf' S1 N1) as [A1 B1]. destruct (same_config_model fin is_nan cf' cf S2 N2) as [A2 B2].
  split; intros; split; auto.
Qed.
Print Assumptions C150_model.

(** *** Example: a file backwards *)
Definition backwards (p : inifile) : inifile := map (fun s => (fst s, rev (snd s))) (rev p).
Lemma backwards_reordered p : reordered p (backwards p).
Proof.
  exists (rev p). split; [apply Permutation_rev|]. unfold backwards.
  induction (rev p) as [|s l IH]; constructor; [|exact IH]. split; [reflexivity|]. apply Permutation_rev.
Qed.
Example C150_example : each_once (ex_ini "massive" []) /\ reordered (ex_ini "massive" []) (backwards (ex_ini "massive" [])) /\
  exists cf cf', parse_inifile toyf (ex_ini "massive" []) = Ok cf /\ parse_inifile toyf (backwards (ex_ini "massive" [])) = Ok cf' /\
    map fst (cf_elements cf) = [S_ "scour"; S_ "sheets"] /\ map fst (cf_elements cf') = [S_ "sheets"; S_ "scour"] /\
    map fst (cf_model cf) <> map fst (cf_model cf').
Proof.
  split; [|split; [apply backwards_reordered|]].
  - split; [apply nodupb_NoDup; vm_compute; reflexivity|]. repeat (apply Forall_cons; [apply nodupb_NoDup; vm_compute; reflexivity|]); apply Forall_nil.
  - eexists. eexists. split; [vm_compute; reflexivity|]. split; [vm_compute; reflexivity|].
    split; [reflexivity|]. split; [reflexivity|]. vm_compute. discriminate.
Qed.

(** Which exception is raised for a file with several mistakes does depend on the
    order. *)
Definition two_mistakes : inifile :=
  ex_ini "massive" [] ++ [(S_ "a", [kv "geometry" "dune"]); (S_ "b", [kv "facies" "[sand]"])].
Theorem C150_exception_refuted : ~ forall F (fo : fops F) p p', each_once p -> reordered p p' ->
  forall e, parse_inifile fo p = Err e -> parse_inifile fo p' = Err e.
Proof.
  intros H.
  assert (K : parse_inifile toyf (backwards two_mistakes) = Err ValueError).
  { apply (H Z toyf two_mistakes); [|apply backwards_reordered|vm_compute; reflexivity].
    split; [apply nodupb_NoDup; vm_compute; reflexivity|]. repeat (apply Forall_cons; [apply nodupb_NoDup; vm_compute; reflexivity|]); apply Forall_nil. }
  vm_compute in K. discriminate.
Qed.
Print Assumptions C150_exception_refuted.
