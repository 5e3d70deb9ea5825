(** Words for C135 and C136. *)
From Coq Require Import Reals.
From Flocq Require Import Core.
From Verif Require Import OrderModel StrataModel.
Local Open Scope R_scope.

(** A number of double precision. *)
Definition is_double (x : R) : Prop := generic_format radix2 (FLT_exp (-1074) 53) x.
(** [t] is not negligible against elevations up to [M]: at least about the
    spacing of the doubles there. *)
Definition counts (M t : R) : Prop := bpow radix2 (-52) * (M + t) + bpow radix2 (-1074) <= t.
(** [t] is negligible against the elevation [z]. *)
Definition negligible (t z : R) : Prop := 0 <= t <= bpow radix2 (-55) * z.
(** The thickness of an element, as stratum.py l. 57-66 computes it: the height
    less the avulsion depth, each result rounded. *)
Definition fl_net (sp : stratum_params R) (d : draw R) : R :=
  fl (d_height d + (if Rle_dec (d_u d) (sp_avul_prob sp) then fl (0 - d_avul d) else 0)).
