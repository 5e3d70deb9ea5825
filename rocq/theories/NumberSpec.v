(** Numbers as they are written: sign, digits, point, exponent; and their value. *)
From Coq Require Import List ZArith Bool Ascii String QArith.
From Verif Require Import Base.
Import ListNotations.
Local Open Scope list_scope.

Definition digit_chars : list ascii := ["0"; "1"; "2"; "3"; "4"; "5"; "6"; "7"; "8"; "9"]%char.
Definition numeral (c : ascii) : Z := Z.of_nat (nat_of_ascii c - nat_of_ascii "0").

Record number := mkNumber {
  nu_sign : option bool;                            (* Some true: -, Some false: + *)
  nu_whole : pystr;
  nu_frac : option pystr;                           (* what follows the point *)
  nu_exp : option (ascii * option bool * pystr) }.

Definition sign_text (s : option bool) : pystr :=
  match s with None => [] | Some true => ["-"%char] | Some false => ["+"%char] end.
Definition number_text (n : number) : pystr :=
  sign_text (nu_sign n) ++ nu_whole n ++
  match nu_frac n with None => [] | Some f => "."%char :: f end ++
  match nu_exp n with None => [] | Some (c, s, e) => c :: sign_text s ++ e end.

Definition digits_only (s : pystr) : Prop := forall c, In c s -> In c digit_chars.
Definition written (n : number) : Prop :=
  digits_only (nu_whole n) /\ (forall f, nu_frac n = Some f -> digits_only f) /\
  (nu_whole n <> [] \/ exists f, nu_frac n = Some f /\ f <> []) /\
  (forall c s e, nu_exp n = Some (c, s, e) -> (c = "e"%char \/ c = "E"%char) /\ digits_only e /\ e <> []).

(** The digits count ones, tens, hundreds ... from the right, and tenths,
    hundredths ... behind the point. *)
Fixpoint whole_value (s : pystr) : Z :=
  match s with
  | [] => 0
  | c :: r => numeral c * 10 ^ Z.of_nat (List.length r) + whole_value r
  end%Z.
Fixpoint frac_value (s : pystr) : Q :=
  match s with
  | [] => 0
  | c :: r => (inject_Z (numeral c) + frac_value r) / 10
  end.
Definition signed (s : option bool) (z : Z) : Z := match s with Some true => - z | _ => z end.
Definition number_value (n : number) : Q :=
  inject_Z (signed (nu_sign n) 1) *
  (inject_Z (whole_value (nu_whole n)) + match nu_frac n with None => 0 | Some f => frac_value f end) *
  Qpower 10 (match nu_exp n with None => 0 | Some (_, s, e) => signed s (whole_value e) end).

(** Blanks, tabs, line breaks and the other separators python strips. *)
Definition blank (s : pystr) : Prop := forall c, In c s -> In (nat_of_ascii c) [9; 10; 11; 12; 13; 28; 29; 30; 31; 32]%nat.
