(** Elements of a generated model that consist of generated troughs. *)
From Coq Require Import List ZArith Reals.
From Verif Require Import Base Num FaciesSpec SurfaceModel StrataModel AssignModel TroughModel TroughSpec.
Import ListNotations.
Local Open Scope R_scope.

(** Sensible settings of a trough element: positive distances, facies other
    than -1, and a lag facies if there is a lag. *)
Definition settings_ok (tt : trough_type) : Prop :=
  type_ok tt /\ ~ In (-1)%Z (tt_facies tt) /\ alternatives_ok (tt_facies tt) (tt_altfacies tt) /\
  (tt_lag_height tt <= 0 \/ tt_lag_facies tt <> (-1)%Z).

(** Element [e], number [num], consists of troughs generated between its
    surfaces, and the code examines them one by one. *)
Definition trough_element {D : Type} (dm : domain) (g : grid R) (st : store R) (probe : nat -> nat -> D -> point R -> D * option (write R))
  (num : nat) (e : ae R) : Prop :=
  exists tp buffer agg migrate te pds tds ts sb sp ha,
    nth_error st (ae_bottom e) = Some sb /\ nth_error st (ae_top e) = Some sp /\
    0 < agg /\ 0 <= tp_depth tp * buffer /\
    trough_positions g (zmax sb) (zmean sp) (tp_depth tp) buffer agg migrate pds = Ok te /\
    make_troughs tp g te tds = Ok ts /\
    settings_ok (tp_type tp) /\ Forall (fun d => draw_ok (snd d)) tds /\
    Forall (fun t => 0 < tr_a t /\ 0 < tr_b t /\ 0 < tr_c t) ts /\
    map (fun o => (ob_zmin o, ob_zmax o, ob_surfaces o)) (ae_objects e) = map (fun t => (tr_zmin t, tr_zmax t, None)) ts /\
    forall oi t, nth_error ts oi = Some t -> probe num oi = o_check (trough_obj dm (ha oi) t).
