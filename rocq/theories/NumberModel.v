(** What [float] and [int] of Python make of a text, as exact numbers: used for
    the files that come with the project.  Blanks around the number, a sign,
    digits with a point, an exponent; [inf], [nan] and underscores between
    digits are not modelled (they are refused here). *)
From Coq Require Import List ZArith Bool Ascii String QArith.
From Verif Require Import Base ParseModel ConfigModel IniModel.
Import ListNotations.
Local Open Scope list_scope.

Definition digit (c : ascii) : Z := Z.of_nat (nat_of_ascii c - 48).
(** Digits at the beginning of [s], appended to the number [acc], with their
    count and the rest. *)
Fixpoint leading_digits (s : pystr) (acc : Z) (k : nat) : Z * nat * pystr :=
  match s with
  | c :: r => if is_digit c then leading_digits r (10 * acc + digit c)%Z (S k) else (acc, k, s)
  | [] => (acc, k, [])
  end.
Definition sign (s : pystr) : bool * pystr :=
  match s with
  | c :: r => if Ascii.eqb c "-"%char then (true, r) else if Ascii.eqb c "+"%char then (false, r) else (false, s)
  | [] => (false, [])
  end.
Definition power10 (e : Z) : Q :=
  match e with Z0 => 1 | Zpos p => inject_Z (10 ^ Zpos p) | Zneg p => 1 # (10 ^ p)%positive end.

Definition decimal_exponent (m : Q) (s : pystr) : res Q :=
  match s with
  | [] => Ok (Qred m)
  | c :: r =>
      if Ascii.eqb c "e"%char || Ascii.eqb c "E"%char then
        let (neg, r) := sign r in
        let '(e, k, r) := leading_digits r 0%Z 0%nat in
        match r with
        | [] => if Nat.eqb k 0 then Err ValueError else Ok (Qred (m * power10 (if neg then - e else e)%Z))
        | _ => Err ValueError
        end
      else Err ValueError
  end.
Definition py_float (s : pystr) : res Q :=
  let (neg, s) := sign (strip_sp s) in
  let '(a, k, s) := leading_digits s 0%Z 0%nat in
  let '(a, k2, s) := match s with
                     | c :: r => if Ascii.eqb c "."%char then leading_digits r a 0%nat else (a, 0%nat, s)
                     | [] => (a, 0%nat, [])
                     end in
  if Nat.eqb (k + k2) 0 then Err ValueError
  else decimal_exponent ((if neg then - inject_Z a else inject_Z a) * power10 (- Z.of_nat k2)) s.
Definition py_int (s : pystr) : res Z :=
  let (neg, s) := sign (strip_sp s) in
  let '(a, k, s) := leading_digits s 0%Z 0%nat in
  match s with
  | [] => if Nat.eqb k 0 then Err ValueError else Ok (if neg then - a else a)%Z
  | _ => Err ValueError
  end.

(** Numbers and NaN. *)
Definition exact : fops (option Q) :=
  mkFops (mkConv py_int (fun s => let* q := py_float s in Ok (Some q))) (Some 0) None
    (fun x => match x with Some q => Z.eqb (Qnum q) 0 | None => false end).
Definition exact_trunc (x : option Q) : res Z :=
  match x with Some q => Ok (Z.quot (Qnum q) (Zpos (Qden q))) | None => Err ValueError end.
