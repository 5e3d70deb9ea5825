(** Decimal numbers as a program reads them. *)
From Coq Require Import List ZArith Ascii String Reals.
From Verif Require Import Base.
Import ListNotations.
Local Open Scope R_scope.
Local Open Scope list_scope.

Inductive numeral : pystr -> nat -> Prop :=
  | numeral_digit d : (d < 10)%nat -> numeral [ascii_of_nat (48 + d)] d
  | numeral_more s n d : numeral s n -> (d < 10)%nat -> numeral (s ++ [ascii_of_nat (48 + d)]) (10 * n + d).

(** [-]a.f *)
Inductive fixed_point : pystr -> R -> Prop :=
  | fixed_plus a f na nf : numeral a na -> numeral f nf ->
      fixed_point (a ++ S_ "." ++ f) (INR na + INR nf / 10 ^ List.length f)
  | fixed_minus s v : fixed_point s v -> fixed_point (S_ "-" ++ s) (- v).

(** [-]a.fe+x, [-]a.fe-x *)
Inductive scientific : pystr -> R -> Prop :=
  | scientific_plus s v e ne : fixed_point s v -> numeral e ne -> scientific (s ++ S_ "e+" ++ e) (v * 10 ^ ne)
  | scientific_minus s v e ne : fixed_point s v -> numeral e ne -> scientific (s ++ S_ "e-" ++ e) (v / 10 ^ ne).

(** A line: identifier and columns separated by single blanks; a file of lines. *)
Definition columns_of (id : nat) (words : list pystr) (line : pystr) : Prop :=
  exists w, numeral w id /\ line = w ++ List.concat (map (fun s => S_ " " ++ s) words).
Definition file_of_lines (ls : list pystr) (text : pystr) : Prop :=
  text = List.concat (map (fun l => l ++ [ascii_of_nat 10]) ls).

(** The symmetric matrix given by xx, yy, zz, xy, xz, yz. *)
Definition symmetric6 (xx yy zz xy xz yz : R) : nat -> nat -> R := fun i j =>
  match i, j with
  | 0, 0 => xx | 1, 1 => yy | 2, 2 => zz
  | 0, 1 | 1, 0 => xy | 0, 2 | 2, 0 => xz | _, _ => yz
  end%nat.
