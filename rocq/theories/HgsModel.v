(** Model of the text of the HydroGeoSphere files (hyvr/postprocess/output.py
    l. 433-449): np.savetxt with the formats '%u %1.3e ...' and '%u %1.3f'.  No
    proofs here.

    The rows are those of [to_hgs] (OutputModel).  Python formats with %e and %f
    the exact value of the double, rounded to the nearest decimal, ties to the
    even one; here the value is a real number (no negative zero, no nan). *)
From Coq Require Import List ZArith Bool Ascii String Reals.
From Flocq Require Import Core.
From Verif Require Import Base Num DirsModel TensorModel SurfaceModel OutputModel.
Import ListNotations.
Local Open Scope R_scope.
Local Open Scope list_scope.

Definition ten : radix := Build_radix 10 eq_refl.
Definition pad (w : nat) (s : pystr) : pystr := repeat "0"%char (w - List.length s) ++ s.
Definition minus_sign (x : R) : pystr := if Rlt_dec x 0 then S_ "-" else [].
(** Three decimals of a number of thousandths. *)
Definition thousandths (m : Z) : pystr :=
  let n := Z.to_nat (Z.abs m) in
  decimal (Nat.div n 1000) ++ S_ "." ++ pad 3 (decimal (Nat.modulo n 1000)).

(** '%1.3e' % x: four digits and the exponent. *)
Definition sci3 (x : R) : Z * Z :=
  if Req_EM_T x 0 then (0, 0)%Z
  else
    let e := (mag ten x - 1)%Z in
    let m := ZnearestE (x * bpow ten (3 - e)) in
    if (Z.abs m =? 10000)%Z then (Z.sgn m * 1000, e + 1)%Z else (m, e).
Definition fmt_e3 (x : R) : pystr :=
  let (m, e) := sci3 x in
  minus_sign x ++ thousandths m ++ S_ "e" ++ (if (e <? 0)%Z then S_ "-" else S_ "+") ++ pad 2 (decimal (Z.to_nat (Z.abs e))).
(** '%1.3f' % x *)
Definition fmt_f3 (x : R) : pystr := minus_sign x ++ thousandths (ZnearestE (x * 1000)).

(** One line of np.savetxt: fmt % tuple(row) + newline. *)
Definition row_text (fmt : R -> pystr) (id : nat) (xs : list R) : pystr :=
  decimal id ++ flat_map (fun x => S_ " " ++ fmt x) xs ++ [ascii_of_nat 10].

(** The texts of ktensors.txt and porosity.txt *)
Definition hgs_text (g : grid R) (d : model_data) : res (pystr * pystr) :=
  let* (ts, ps) := to_hgs g d in
  Ok (flat_map (fun r => row_text fmt_e3 (fst r) (snd r)) ts, flat_map (fun r => row_text fmt_f3 (fst r) [snd r]) ps).
