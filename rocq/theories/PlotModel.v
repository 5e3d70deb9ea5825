(** Model of hyvr/postprocess/plotting.py cross_section_pcolor (l. 9-79).  No
    proofs here.

    Modelled: the positions asked for, the index of the row of cells, the data
    given to pcolor, the warning.  Not modelled: the drawing itself (figures,
    titles, axis limits, colour maps).  The argument [log] (l. 9) is not used by
    the code. *)
From Coq Require Import List ZArith Bool.
From Verif Require Import Base Num SurfaceModel.
Import ListNotations.
Local Open Scope num_scope.

Section Plot.
Context {T : Type} `{Num T}.

(** [np.round]: to the nearest integer, halves to the even one. *)
Definition nround (x : T) : Z :=
  let f := nfloor x in
  let r := x - nofZ f in
  let half := n1 / (n1 + n1) in
  if half <=? r then if r <=? half then (if Z.even f then f else f + 1)%Z else (f + 1)%Z else f.

(** The arguments x and y: None, a number or a sequence. *)
Inductive places := PDefault | POne (v : T) | PMany (l : list T).
(** l. 38-45 *)
Definition asked (x0 lx : T) (p : places) : list T :=
  match p with PDefault => [x0 + lx / (n1 + n1)] | POne v => [v] | PMany l => l end.
(** l. 49 and l. 66 *)
Definition row_index (x0 dx v : T) : Z := nround (v - (x0 + dx / (n1 + n1)) / dx).

(** What is shown for one position: a table of (horizontal, vertical coordinate,
    value), or the warning of l. 62 and 79. *)
Inductive shown (A : Type) := Picture (cells : list (list (T * T * A))) | NotInDomain.
Arguments Picture {A}. Arguments NotInDomain {A}.

Definition zip3 {A} (a : T) (zs : list T) (vs : list A) : list (T * T * A) := map (fun zv => (a, fst zv, snd zv)) (combine zs vs).

(** l. 47-62: [field] is model.data[field], indexed [i][j][k]. *)
Definition y_section {A} (g : grid T) (field : list (list (list A))) (v : T) : shown A :=
  let j := row_index (g_y0 g) (g_dy g) v in
  if ((0 <=? j) && (j <? Z.of_nat (List.length (g_y g))))%Z then
    Picture (map (fun xp => zip3 (fst xp) (g_z g) (nth (Z.to_nat j) (snd xp) [])) (combine (g_x g) field))
  else NotInDomain.
(** l. 64-79 *)
Definition x_section {A} (g : grid T) (field : list (list (list A))) (v : T) : shown A :=
  let i := row_index (g_x0 g) (g_dx g) v in
  if ((0 <=? i) && (i <? Z.of_nat (List.length (g_x g))))%Z then
    Picture (map (fun yp => zip3 (fst yp) (g_z g) (snd yp)) (combine (g_y g) (nth (Z.to_nat i) field [])))
  else NotInDomain.
Definition cross_sections {A} (g : grid T) (field : list (list (list A))) (y x : places) : list (T * shown A) * list (T * shown A) :=
  (map (fun v => (v, y_section g field v)) (asked (g_y0 g) (g_ly g) y),
   map (fun v => (v, x_section g field v)) (asked (g_x0 g) (g_lx g) x)).
End Plot.
Arguments places : clear implicits.
Arguments shown : clear implicits.
Arguments Picture {T A}. Arguments NotInDomain {T A}.
