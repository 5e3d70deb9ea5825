(** C69: realizations do not depend on earlier realizations. *)
From Coq Require Import List ZArith Bool Ascii String Lia QArith Reals.
From Verif Require Import Base Num ParseModel ConfigModel SurfaceModel StrataModel StrataProps DirsModel RunModel RunProofs.
Import ListNotations.
Local Open Scope list_scope.

Section Run.
Context {T : Type} `{Num T} {A X : Type}.
Variable (g : grid T) (sheet_fuel : nat) (contacts : list (contact T)) (ets : list (element_type (T := T))) (params : list (type_refs (T := T))).
Variable (strata_draws : X -> list (stratum_draws T)).
Variable (assign : store T * list (stratum T) -> X -> res (list A)).
Variable (hydraulics : list A -> X -> res (list A)).
Variable (save : path -> data A -> res unit).
Variable (with_hydraulics : bool).

Definition generate (h : heap (T := T)) (x : X) := generate_model_h g sheet_fuel contacts ets params (strata_draws x) h.
Notation one := (realization generate assign hydraulics save with_hydraulics).
Notation all := (realizations generate assign hydraulics save with_hydraulics).

(** The arrays written have the keys of the code: seven of assign_points, four
    of generate_hydraulic_parameters. *)
Definition well_keyed : Prop :=
  (forall m x a, assign m x = Ok a -> List.length a = 7%nat) /\ (forall a x p, hydraulics a x = Ok p -> List.length p = 4%nat).

(** What the dictionary can be before a realization. *)
Definition possible (d : data A) : Prop :=
  d = [] \/ exists a p, List.length a = 7%nat /\ (if with_hydraulics then List.length p = 4%nat else p = []) /\
    d = combine geology_keys a ++ combine parameter_keys p.

Lemma keys_distinct : NoDup (geology_keys ++ parameter_keys).
Proof. repeat constructor; cbn; intuition discriminate. Qed.

Lemma geology_distinct : NoDup geology_keys.
Proof. repeat constructor; cbn; intuition discriminate. Qed.

Lemma put_geology d a : possible d -> List.length a = 7%nat ->
  exists p, (if with_hydraulics then List.length p = 4%nat \/ p = [] else p = []) /\
    put_keys d (combine geology_keys a) = combine geology_keys a ++ combine parameter_keys p.
Proof.
  intros [->|(a0 & p & La & Lp & ->)] L.
  - exists []. split; [destruct with_hydraulics; auto|]. rewrite put_keys_new; [cbn; now rewrite app_nil_r| |assumption].
    cbn. exact geology_distinct.
  - exists p. split; [destruct with_hydraulics; auto|].
    apply (put_keys_replace geology_keys [] _ a0 a); [|assumption|assumption].
    cbn [keys map app]. unfold keys.
    destruct with_hydraulics.
    + destruct p as [|p1 [|p2 [|p3 [|p4 [|]]]]]; try discriminate. apply keys_distinct.
    + subst p. cbn [combine parameter_keys map]. rewrite app_nil_r. exact geology_distinct.
Qed.
Lemma put_parameters (a p q : list A) : List.length a = 7%nat -> List.length p = 4%nat \/ p = [] -> List.length q = 4%nat ->
  put_keys (combine geology_keys a ++ combine parameter_keys p) (combine parameter_keys q) = combine geology_keys a ++ combine parameter_keys q.
Proof.
  intros La Lp Lq. assert (K : keys (combine geology_keys a) = geology_keys).
  { destruct a as [|? [|? [|? [|? [|? [|? [|? [|]]]]]]]]; try discriminate. reflexivity. }
  destruct Lp as [Lp| ->].
  - replace (combine geology_keys a ++ combine parameter_keys p) with (combine geology_keys a ++ combine parameter_keys p ++ []) by now rewrite app_nil_r.
    rewrite put_keys_replace; [now rewrite app_nil_r| |assumption|assumption]. rewrite K. cbn [keys map]. rewrite app_nil_r. apply keys_distinct.
  - replace (combine parameter_keys (@nil A)) with (@nil (string * A)) by reflexivity. rewrite app_nil_r. rewrite put_keys_new; [reflexivity| |assumption]. rewrite K. apply keys_distinct.
Qed.

(** One realization after others and the same one in a fresh run. *)
Lemma realization_fresh numsim rundir h0 h d sim x : well_keyed -> same_heap h0 h -> possible d ->
  match one numsim rundir (h, d) sim x, one numsim rundir (h0, []) sim x with
  | Ok ((h1, d1), s1), Ok (_, s2) => s1 = s2 /\ same_heap h0 h1 /\ possible d1
  | Err e1, Err e2 => e1 = e2
  | _, _ => False
  end.
Proof.
  intros [Ka Kh] Hh Hd. unfold realization, generate.
  pose proof (generate_agree g sheet_fuel contacts ets params (strata_draws x) h0 h Hh) as Q.
  destruct (generate_model_h _ _ _ _ _ _ h0) as [[h2 m2]|], (generate_model_h _ _ _ _ _ _ h) as [[h1 m1]|]; cbn in Q; try contradiction; cbn [bind]; [|congruence].
  destruct Q as (-> & H2 & H1).
  destruct (assign m1 x) as [a|] eqn:Ea; cbn [bind]; [|reflexivity]. apply Ka in Ea.
  destruct (put_geology d a Hd Ea) as (p & Lp & ->). destruct (put_geology [] a (or_introl eq_refl) Ea) as (p' & Lp' & ->).
  destruct with_hydraulics eqn:W.
  - destruct (hydraulics a x) as [q|] eqn:Eq; cbn [bind]; [|reflexivity]. apply Kh in Eq. rewrite !put_parameters by assumption.
    destruct (save _ _); cbn [bind]; [|reflexivity]. split; [reflexivity|]. split; [assumption|]. right. exists a, q. rewrite W. auto.
  - subst p p'. cbn [bind]. destruct (save _ _); cbn [bind]; [|reflexivity]. split; [reflexivity|]. split; [assumption|]. right. exists a, []. rewrite W. auto.
Qed.

Lemma realizations_fresh numsim rundir h0 : well_keyed -> forall xs h d sim, same_heap h0 h -> possible d ->
  all numsim rundir (h, d) sim xs =
  mapM (fun y => let* (_, saved) := one numsim rundir (h0, []) (fst y) (snd y) in Ok saved) (combine (seq sim (List.length xs)) xs).
Proof.
  intros K. induction xs as [|x xs IH]; intros h d sim Hh Hd; [reflexivity|].
  cbn [realizations List.length seq combine mapM fst snd].
  pose proof (realization_fresh numsim rundir h0 h d sim x K Hh Hd) as Q.
  destruct (one numsim rundir (h, d) sim x) as [[[h1 d1] s1]|], (one numsim rundir (h0, []) sim x) as [[[h2 d2] s2]|]; try contradiction; cbn [bind]; [|congruence].
  destruct Q as (-> & H1 & D1). rewrite (IH h1 d1 (S sim) H1 D1). reflexivity.
Qed.
End Run.

(** C69.  A run saves for every realization exactly what a run would save that
    makes only this realization, with the same random draws, starting from the
    configuration: all results, in the same places, with the same failures. *)
Theorem C69_independent :
  forall (T : Type) (N : Num T) (A X : Type) (g : grid T) (sheet_fuel : nat) (contacts : list (contact T)) (ets : list element_type)
    (params : list type_refs) (strata_draws : X -> list (stratum_draws T)) (assign : store T * list (stratum T) -> X -> res (list A))
    (hydraulics : list A -> X -> res (list A)) (save : path -> data A -> res unit) (with_hydraulics : bool)
    (rundir : path) (h : heap) (xs : list X),
  well_keyed assign hydraulics ->
  let gen := fun h x => generate_model_h g sheet_fuel contacts ets params (strata_draws x) h in
  run gen assign hydraulics save with_hydraulics rundir h xs =
  mapM (fun y => let* (_, saved) := realization gen assign hydraulics save with_hydraulics (List.length xs) rundir (h, []) (fst y) (snd y) in Ok saved)
    (combine (seq 1 (List.length xs)) xs).
Proof.
  intros. apply (realizations_fresh g sheet_fuel contacts ets params strata_draws); [assumption|apply same_refl|now left].
Qed.
Print Assumptions C69_independent.

(** The strata of every realization are those that StrataModel.generate_model
    gives for its draws, whatever depths earlier realizations have left in the
    contact models. *)
Theorem C69_strata :
  forall (T : Type) (N : Num T) (g : grid T) (sheet_fuel : nat) (contacts : list (contact T)) (ets : list element_type)
    (params : list type_refs) (params' : list (stratum_params T)) (h0 h : heap) (draws : list (stratum_draws T)),
  Forall2 (resolves ets h0) params params' -> same_heap h0 h ->
  (let* (_, m) := generate_model_h g sheet_fuel contacts ets params draws h in Ok m) = generate_model g sheet_fuel contacts params' draws.
Proof.
  intros T N g sf cs ets ps ps' h0 h draws HP Hh. pose proof (generate_refines g sf cs ets h0 ps ps' draws h HP Hh) as Q.
  destruct (generate_model_h _ _ _ _ _ _ h) as [[h1 m]|], (generate_model _ _ _ _ _) as [m'|]; cbn in Q; try contradiction; cbn [bind].
  - destruct Q as [-> _]. reflexivity.
  - now rewrite Q.
Qed.
Print Assumptions C69_strata.

(** Example: two strata whose elements have uneven contacts; the first
    realization leaves a depth in a contact model, the second one ignores it. *)
Definition ex_types : list (element_type (T := Q)) := [mkET GObjects nobg; mkET GObjects nobg; mkET (GSheet 1%Q None) nobg].
Definition ex_heap : heap (T := Q) := [flat_cm; mkContact (S_ "random") None (Some (1, 1, 1)%Q); flat_cm].
Definition ex_refs : list (type_refs (T := Q)) :=
  [mkRefs [2%nat] 0%Q (mkSbg 3%Z (Some 4%Q) None); mkRefs [0%nat; 1%nat] 0%Q (mkSbg 3%Z (Some 4%Q) None)].
Definition ex_draws (a : Q) : list (stratum_draws Q) :=
  [mkSD [-1; 1]%Q 0 [dr a 1 [-4; 4]%Q [(1, 2)%Q]; dr 9 0 [0; 0]%Q []]; mkSD [0; 0]%Q 0 [dr 7 0 [0; 0]%Q []]].
Definition ex_gen (h : heap (T := Q)) (a : Q) := generate_model_h (exg 0 6) 20 [rand_cm 2] ex_types ex_refs (ex_draws a) h.
Definition ex_assign_model (m : store Q * list (stratum Q)) (x : Q) : res (list (list Q)) :=
  Ok (firstn 7 (map vals (fst m) ++ repeat [x] 7)).
Definition ex_hydraulics (a : list (list Q)) (x : Q) : res (list (list Q)) := Ok (repeat [x] 4).
Definition ex_run := run ex_gen ex_assign_model ex_hydraulics (fun _ _ => Ok tt) true [S_ "out"] ex_heap [1; 2]%Q.

Example C69_example :
  well_keyed ex_assign_model ex_hydraulics /\
  Forall2 (resolves ex_types ex_heap) ex_refs [exsp [sheet_type 1]; exsp [trough_type; rtrough_type]] /\
  (exists m, ex_gen ex_heap 1%Q = Ok ([flat_cm; mkContact (S_ "random") (Some 5%Q) (Some (1, 1, 1)%Q); flat_cm], m)) /\
  exists a b, ex_run = Ok [([S_ "out"; S_ "real_001"], a); ([S_ "out"; S_ "real_002"], b)] /\ a <> b /\
    map fst b = ["facies"; "azim"; "dip"; "strata"; "ae"; "ha"; "hat"; "k_iso"; "poros"; "anirat"; "ktensors"]%string.
Proof.
  split; [|split; [|split]].
  - split; [|intros a x p E; injection E as <-; reflexivity].
    intros m x a E. unfold ex_assign_model in E. match type of E with Ok ?u = Ok ?v => assert (Q : v = u) by congruence end. rewrite Q, firstn_length, app_length, repeat_length. lia.
  - repeat constructor; vm_compute; reflexivity.
  - eexists. vm_compute. reflexivity.
  - do 2 eexists. split; [vm_compute; reflexivity|]. split; [discriminate|reflexivity].
Qed.
