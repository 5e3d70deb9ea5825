(** Model of hyvr/sim.py run (l. 34-66): the loop over the realizations with
    everything that one realization leaves behind for the next.  No proofs here.

    The objects that live through all realizations are the element types with
    their parameters (model.py l. 71-78), whose contact models are changed by
    stratum.py l. 78-79, and the dictionary model.data.  The strata are new in
    every realization (model.py l. 94). *)
From Coq Require Import List ZArith Bool Ascii String.
From Verif Require Import Base Num ParseModel ConfigModel SurfaceModel StrataModel DirsModel.
Import ListNotations.
Local Open Scope num_scope.

Section Generation.
Context {T : Type} `{Num T}.

(** An element type without its contact model; the contact models are in a
    list [heap] with the same indices.  A stratum refers to types by number
    (model.py l. 121: self.ae_types[...]). *)
Record element_type := mkET { et_geometry : geometry (T := T); et_bg : background (T := T) }.
Record type_refs := mkRefs { r_types : list nat; r_avul_prob : T; r_bg : stratum_bg (T := T) }.
Definition heap := list (contact T).

(** stratum.py l. 51-107 as in StrataModel, with the assignment
    bottom_surface_params['z'] = znow to the shared contact model. *)
Fixpoint stratum_loop_h (g : grid T) (sheet_fuel : nat) (ets : list element_type) (sp : type_refs) (bot : nat)
  (draws : list (draw T)) (h : heap) (st : store T) (top : nat) (curr : nat) (znow : T)
  (lo hi : T) (aes : list (ae T)) : res (heap * (store T * (T * T * list (ae T)))) :=
  let* sbot := getS st bot in
  if znow <=? zmean sbot then Ok (h, (st, (lo, hi, aes)))
  else
    match draws with
    | [] => Err OutOfFuel
    | d :: draws =>
        let* ty := choose (r_types sp) curr in
        let* et := choose ets ty in
        let* cm := choose h ty in
        let znow := next_depth (r_avul_prob sp) znow d in
        let* next := choose (r_types sp) (d_next d) in
        let* _ := choose ets next in
        let* ncm := choose h next in
        let* (znow, st, ae_bot, h) :=
          (if znow <=? zmean sbot then Ok (zmean sbot, st, bot, h)
           else
             let h := upd h next (set_z ncm znow) in
             let* ncm := choose h next in
             let* s := new_surface (columns g) ncm (d_field d) in
             let (st, b) := alloc st s in Ok (znow, st, b, h)) in
        let* st := use_lower st ae_bot top in
        let* st := use_higher st ae_bot bot in
        let* (st, e) := new_ae g sheet_fuel st (mkType cm (et_geometry et) (et_bg et)) curr (r_bg sp) ae_bot top (d_objs d) in
        let lo := if ae_zmin e <? lo then ae_zmin e else lo in
        let hi := if hi <? ae_zmax e then ae_zmax e else hi in
        stratum_loop_h g sheet_fuel ets sp bot draws h st ae_bot (d_next d) znow lo hi (aes ++ [e])%list
    end.

Definition new_stratum_h (g : grid T) (sheet_fuel : nat) (ets : list element_type) (sp : type_refs) (first : nat) (draws : list (draw T))
  (h : heap) (st : store T) (bottom top : nat) : res (heap * (store T * stratum T)) :=
  let* sb := getS st bottom in
  let* stp := getS st top in
  let* (h, (st, (lo, hi, aes))) :=
    stratum_loop_h g sheet_fuel ets sp bottom draws h st top first (zmean stp) (zmin sb) (zmax stp) [] in
  Ok (h, (st, mkStratum bottom top lo hi aes)).

(** model.py l. 109-138 *)
Fixpoint model_loop_h (g : grid T) (sheet_fuel : nat) (contacts : list (contact T)) (ets : list element_type) (params : list type_refs)
  (n : nat) (draws : list (stratum_draws T)) (si : nat) (h : heap) (st : store T) (top : nat) (strata : list (stratum T))
  : res (heap * (store T * list (stratum T))) :=
  match draws with
  | [] => if Nat.eqb si n then Ok (h, (st, strata)) else Err OutOfModel
  | sd :: draws =>
      let* s := (if Nat.eqb (S si) n then new_surface (columns g) (flat_contact (g_z0 g)) []
                 else let* cm := pyget contacts (-1 - Z.of_nat si) in new_surface (columns g) cm (sd_field sd)) in
      let (st, bottom) := alloc st s in
      let* st := use_lower st bottom top in
      let* sp := pyget params (-1 - Z.of_nat si) in
      let* (h, (st, str)) := new_stratum_h g sheet_fuel ets sp (sd_first sd) (sd_draws sd) h st bottom top in
      model_loop_h g sheet_fuel contacts ets params n draws (S si) h st bottom (strata ++ [str])%list
  end.
Definition generate_model_h (g : grid T) (sheet_fuel : nat) (contacts : list (contact T)) (ets : list element_type) (params : list type_refs)
  (draws : list (stratum_draws T)) (h : heap) : res (heap * (store T * list (stratum T))) :=
  let* s := new_surface (columns g) (flat_contact (g_lz g)) [] in
  let (st, top) := alloc [] s in
  model_loop_h g sheet_fuel contacts ets params (List.length params) draws 0 h st top [].
End Generation.

(** ** The dictionary model.data *)
Section Data.
Context {A : Type}.
Definition data := list (string * A).
Fixpoint put_key (d : data) (k : string) (v : A) : data :=
  match d with
  | [] => [(k, v)]
  | (k', v') :: r => if String.eqb k k' then (k, v) :: r else (k', v') :: put_key r k v
  end.
Definition put_keys (d : data) (kv : list (string * A)) : data := fold_left (fun d x => put_key d (fst x) (snd x)) kv d.
End Data.
Arguments data A : clear implicits.

(** assign_points.py l. 149-155 and model.py l. 177-183, 292 *)
Definition geology_keys : list string := ["facies"; "azim"; "dip"; "strata"; "ae"; "ha"; "hat"]%string.
Definition parameter_keys : list string := ["k_iso"; "poros"; "anirat"; "ktensors"]%string.

Section Run.
(** [assign] and [hydraulics] stand for assign_points and
    generate_hydraulic_parameters, which read nothing of what earlier
    realizations have left: the strata are new, all arrays are created (see
    AssignModel, HydraulicsModel).  [X] are the draws of one realization. *)
Context {T : Type} `{Num T} {A X : Type}.
Variable (generate : heap (T := T) -> X -> res (heap (T := T) * (store T * list (stratum T)))).
Variable (assign : store T * list (stratum T) -> X -> res (list A)).
Variable (hydraulics : list A -> X -> res (list A)).
Variable (save : path -> data A -> res unit).
Variable (with_hydraulics : bool).

(** sim.py l. 36-58: realization [sim] of [numsim].  The result is the state
    left behind and what was saved where. *)
Definition realization (numsim : nat) (rundir : path) (s : heap (T := T) * data A) (sim : nat) (x : X)
  : res (heap (T := T) * data A * (path * data A)) :=
  let (h, d) := s in
  let* (h, m) := generate h x in
  let* geo := assign m x in
  let d := put_keys d (combine geology_keys geo) in
  let* d := (if with_hydraulics then
               let* par := hydraulics geo x in Ok (put_keys d (combine parameter_keys par))
             else Ok d) in
  let dir := realdir numsim rundir sim in
  let* _ := save dir d in
  Ok ((h, d), (dir, d)).

(** The loop, l. 34: realizations [sim], [sim]+1, ... *)
Fixpoint realizations (numsim : nat) (rundir : path) (s : heap (T := T) * data A) (sim : nat) (xs : list X)
  : res (list (path * data A)) :=
  match xs with
  | [] => Ok []
  | x :: xs =>
      let* (s, saved) := realization numsim rundir s sim x in
      let* rest := realizations numsim rundir s (S sim) xs in
      Ok (saved :: rest)
  end.
(** The whole run; the list of draws has the length numsim. *)
Definition run (rundir : path) (h : heap (T := T)) (xs : list X) : res (list (path * data A)) :=
  realizations (List.length xs) rundir (h, []) 1 xs.
End Run.
