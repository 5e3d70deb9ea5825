(** C130: what the fields of the output hold. *)
From Coq Require Import List ZArith Bool Ascii String Lia Reals QArith.
From Verif Require Import Base Num ParseModel ConfigModel SurfaceModel StrataModel StrataProps DirsModel AssignModel HydraulicsModel RunModel RunProofs RunProps FieldsModel DefaultsSpec.
Import ListNotations.
Local Open Scope list_scope.
Local Open Scope string_scope.

Definition field_of {A} (d : RunModel.data A) (k : string) : option A := option_map snd (find (fun x => String.eqb k (fst x)) d).

Section Runs.
Context {T : Type} `{Num T} {X : Type}.
Variable (g : grid T) (sheet_fuel : nat) (contacts : list (contact T)) (ets : list (element_type (T := T))) (params : list (type_refs (T := T))).
Variable (strata_draws : X -> list (stratum_draws T)).
Variable (assign : store T * list (stratum T) -> X -> res (cells (T := T))).
Variable (hydraulics : list (field T) -> X -> res HydraulicsModel.data).
Variable (save : path -> RunModel.data (field T) -> res unit).
Variable (with_hydraulics : bool).
(** A run in which both stages store their arrays as the code does. *)
Definition fields_run (rundir : path) (h : heap (T := T)) (xs : list X) : res (list (path * RunModel.data (field T))) :=
  run (fun h x => generate_model_h g sheet_fuel contacts ets params (strata_draws x) h)
    (fun m x => let* c := assign m x in Ok (geology_fields c))
    (fun a x => let* d := hydraulics a x in Ok (parameter_fields d)) save with_hydraulics rundir h xs.
End Runs.

Lemma mapM_nth {A B} (f : A -> res B) : forall l r i y, mapM f l = Ok r -> nth_error r i = Some y -> exists x, nth_error l i = Some x /\ f x = Ok y.
Proof.
  induction l as [|x l IH]; intros r i y Hm Hi.
  - cbn in Hm. injection Hm as <-. destruct i; discriminate Hi.
  - cbn [mapM] in Hm. apply bind_Ok in Hm as (b & Hb & Hm). apply bind_Ok in Hm as (r' & Hr & Hm).
    assert (E : r = b :: r') by congruence. subst r. destruct i as [|i]; cbn in Hi |- *; [exists x; split; [reflexivity|congruence]|]. now apply (IH r' i y).
Qed.

Lemma combine_seq_nth {A} (l : list A) : forall n i p, nth_error (combine (seq n (List.length l)) l) i = Some p -> nth_error l i = Some (snd p).
Proof.
  induction l as [|x l IH]; intros n i p Hi; [destruct i; discriminate Hi|].
  destruct i as [|i]; cbn in Hi |- *; [injection Hi as <-; reflexivity|]. now apply (IH (S n) i p).
Qed.

(** C130.  Every realization of a run saves the facies, the angles, the stratum
    and the identifiers of its own cells under the names "facies", "azim",
    "dip", "strata", "ae", "ha" and "hat", and its own parameters under
    "k_iso", "poros", "anirat" and "ktensors"; there are no other fields. *)
Theorem C130_fields_partial :
  forall (T : Type) (N : Num T) (X : Type) (g : grid T) (sheet_fuel : nat) (contacts : list (contact T)) (ets : list element_type)
    (params : list type_refs) (strata_draws : X -> list (stratum_draws T))
    (assign : store T * list (stratum T) -> X -> res (cells (T := T))) (hydraulics : list (field T) -> X -> res HydraulicsModel.data)
    (save : path -> RunModel.data (field T) -> res unit) (with_hydraulics : bool) (rundir : path) (h : heap) (xs : list X)
    (saved : list (path * RunModel.data (field T))) (i : nat) (dir : path) (d : RunModel.data (field T)),
  fields_run g sheet_fuel contacts ets params strata_draws assign hydraulics save with_hydraulics rundir h xs = Ok saved ->
  nth_error saved i = Some (dir, d) ->
  exists x h' m c,
    nth_error xs i = Some x /\ generate_model_h g sheet_fuel contacts ets params (strata_draws x) h = Ok (h', m) /\ assign m x = Ok c /\
    field_of d "facies" = Some (Ints (fun x y z => option_map c_facies (c x y z))) /\
    field_of d "azim" = Some (Floats (fun x y z => option_map c_azim (c x y z))) /\
    field_of d "dip" = Some (Floats (fun x y z => option_map c_dip (c x y z))) /\
    field_of d "strata" = Some (Ints (fun x y z => option_map c_strata (c x y z))) /\
    field_of d "ae" = Some (Ints (fun x y z => option_map c_ae (c x y z))) /\
    field_of d "ha" = Some (Ints (fun x y z => option_map c_ha (c x y z))) /\
    field_of d "hat" = Some (Ints (fun x y z => option_map c_hat (c x y z))) /\
    (if with_hydraulics then
       exists p, hydraulics (geology_fields c) x = Ok p /\
         field_of d "k_iso" = Some (Values (d_k p)) /\ field_of d "poros" = Some (Values (d_n p)) /\
         field_of d "anirat" = Some (Values (d_ratio p)) /\ field_of d "ktensors" = Some (Tensors (d_tensors p)) /\
         (List.length d = 11)%nat
     else (List.length d = 7)%nat).
Proof.
  intros T N X g sf cs ets ps sd assign hyd save wh rundir h xs saved i dir d Hrun Hi.
  unfold fields_run in Hrun. rewrite C69_independent in Hrun.
  2: { split.
       - intros m x a E. apply bind_Ok in E as (c & _ & E). assert (Q : a = geology_fields c) by congruence. now rewrite Q.
       - intros a x p E. apply bind_Ok in E as (c & _ & E). assert (Q : p = parameter_fields c) by congruence. now rewrite Q. }
  destruct (mapM_nth _ _ _ _ _ Hrun Hi) as ([n x] & Hx & E). apply combine_seq_nth in Hx. cbn [snd fst] in Hx, E.
  apply bind_Ok in E as ([s sv] & E & Esv). assert (Q : sv = (dir, d)) by congruence. subst sv. clear Esv.
  unfold realization in E. apply bind_Ok in E as ([h' m] & Hg & E). apply bind_Ok in E as (geo & Ha & E).
  apply bind_Ok in Ha as (c & Ha & Hc). assert (Q : geo = geology_fields c) by congruence. subst geo. clear Hc.
  exists x, h', m, c. split; [exact Hx|]. split; [exact Hg|]. split; [exact Ha|].
  apply bind_Ok in E as (d' & Hd' & E). apply bind_Ok in E as (u & _ & E).
  assert (Q : d' = d) by congruence. subst d'. clear E.
  destruct wh.
  - apply bind_Ok in Hd' as (q & Hq & Hd'). apply bind_Ok in Hq as (p & Hp & Hq). assert (Q : q = parameter_fields p) by congruence. subst q. clear Hq.
    match type of Hd' with Ok ?u = Ok _ => assert (Q : d = u) by congruence end. subst d. clear -Hp.
    cbn. repeat (split; [reflexivity|]). exists p. repeat (split; [assumption||reflexivity|]). reflexivity.
  - match type of Hd' with Ok ?u = Ok _ => assert (Q : d = u) by congruence end. subst d. cbn. repeat (split; [reflexivity|]). reflexivity.
Qed.
Print Assumptions C130_fields_partial.

(** Example: the run of C69 with two realizations; the azimuth is the draw, the
    dip half of it. *)
Definition fd_assign (m : store Q * list (stratum Q)) (x : Q) : res (cells (T := Q)) :=
  Ok (fun _ _ _ => Some (mkCell 3 1 2 5 7 (Some x) (Some (x / 2)%Q))).
Definition fd_hydraulics (a : list (field Q)) (x : Q) : res HydraulicsModel.data :=
  Ok (mkData (fun _ => 1%R) (fun _ => 2%R) (fun _ => 3%R) (fun _ _ _ => 4%R)).
Definition fd_run (with_hydraulics : bool) :=
  fields_run (exg 0 6) 20 [rand_cm 2] ex_types ex_refs ex_draws fd_assign fd_hydraulics (fun _ _ => Ok tt) with_hydraulics [S_ "out"] ex_heap [1; 2]%Q.
Example C130_example :
  exists a b, fd_run true = Ok [a; b] /\ fst b = [S_ "out"; S_ "real_002"] /\
    field_of (snd b) "azim" = Some (Floats (fun _ _ _ => Some (Some 2%Q))) /\
    field_of (snd a) "dip" = Some (Floats (fun _ _ _ => Some (Some (1 / 2)%Q))).
Proof.
  do 2 eexists. split; [vm_compute; reflexivity|]. split; [reflexivity|]. split; reflexivity.
Qed.

(** Two of the documented names are never used: the facies are not under "fac"
    and the anisotropy ratios not under "ani_rat". *)
Theorem C130_names_refuted :
  (forall (T : Type) (N : Num T) (X : Type) (g : grid T) (sheet_fuel : nat) (contacts : list (contact T)) (ets : list element_type)
    (params : list type_refs) (strata_draws : X -> list (stratum_draws T))
    (assign : store T * list (stratum T) -> X -> res (cells (T := T))) (hydraulics : list (field T) -> X -> res HydraulicsModel.data)
    (save : path -> RunModel.data (field T) -> res unit) (with_hydraulics : bool) (rundir : path) (h : heap) (xs : list X)
    (saved : list (path * RunModel.data (field T))) (dir : path) (d : RunModel.data (field T)),
  fields_run g sheet_fuel contacts ets params strata_draws assign hydraulics save with_hydraulics rundir h xs = Ok saved ->
  In (dir, d) saved ->
  exists missing, In missing documented_fields /\ field_of d missing = None /\ field_of d "fac" = None /\ field_of d "ani_rat" = None) /\
  exists r1 r2, fd_run true = Ok [r1; r2] /\ fd_run true <> fd_run false.
Proof.
  split.
  - intros T N X g sf cs ets ps sd assign hyd save wh rundir h xs saved dir d Hrun Hin.
    apply In_nth_error in Hin as (i & Hi).
    exists "fac". split; [cbn; tauto|].
    assert (K : Forall (fun k => ~ In k ["fac"; "ani_rat"]) (map fst d)).
    { apply Forall_forall. intros k Hk. revert Hk. assert (E : map fst d = geology_keys \/ map fst d = (geology_keys ++ parameter_keys)%list).
      { unfold fields_run in Hrun. rewrite C69_independent in Hrun.
        2: { split.
             - intros m x a E. apply bind_Ok in E as (c & _ & E). assert (Q : a = geology_fields c) by congruence. now rewrite Q.
             - intros a x p E. apply bind_Ok in E as (c & _ & E). assert (Q : p = parameter_fields c) by congruence. now rewrite Q. }
        destruct (mapM_nth _ _ _ _ _ Hrun Hi) as ([n x] & Hx & E). cbn [snd fst] in E.
        apply bind_Ok in E as ([s sv] & E & Esv). assert (Q : sv = (dir, d)) by congruence. subst sv. clear Esv.
        unfold realization in E. apply bind_Ok in E as ([h' m] & Hg & E). apply bind_Ok in E as (geo & Ha & E).
        apply bind_Ok in Ha as (c & Ha & Hc). assert (Q : geo = geology_fields c) by congruence. subst geo. clear Hc.
        apply bind_Ok in E as (d' & Hd' & E). apply bind_Ok in E as (u & _ & E).
        assert (Q : d' = d) by congruence. subst d'. clear E.
        destruct wh.
        - apply bind_Ok in Hd' as (q & Hq & Hd'). apply bind_Ok in Hq as (p & Hp & Hq). assert (Q : q = parameter_fields p) by congruence. subst q.
          match type of Hd' with Ok ?u = Ok _ => assert (Q : d = u) by congruence end. subst d. right. reflexivity.
        - match type of Hd' with Ok ?u = Ok _ => assert (Q : d = u) by congruence end. subst d. left. reflexivity. }
      destruct E as [-> | ->]; cbn [geology_keys parameter_keys app In]; intros Hk Hb; repeat destruct Hk as [Hk|Hk]; try contradiction; subst k;
        cbn [In] in Hb; repeat destruct Hb as [Hb|Hb]; try contradiction; discriminate Hb. }
    assert (none : forall k, In k ["fac"; "ani_rat"] -> field_of d k = None).
    { intros k Hk. unfold field_of. destruct (find (fun x => String.eqb k (fst x)) d) as [[k' v]|] eqn:E; [|reflexivity]. exfalso.
      apply find_some in E as [E1 E2]. cbn in E2. apply String.eqb_eq in E2. subst k'.
      rewrite Forall_forall in K. apply (K k); [|exact Hk]. apply in_map_iff. now exists (k, v). }
    split; [apply none; cbn; tauto|]. split; apply none; cbn; tauto.
  - do 2 eexists. split; [vm_compute; reflexivity|].
    intros E. apply (f_equal (fun r => match r with Ok (x :: _) => List.length (snd x) | _ => 0%nat end)) in E. vm_compute in E. discriminate E.
Qed.
Print Assumptions C130_names_refuted.
