(** Arithmetic in double precision as numbers of the model: every result is
    rounded to the nearest double (binary64 without overflow, NaN and the sign
    of zero).  Nothing here models code of the repository. *)
From Coq Require Import Reals ZArith Bool.
From Flocq Require Import Core.
From Verif Require Import Num.
Local Open Scope R_scope.

Definition fl (x : R) : R := round radix2 (FLT_exp (-1074) 53) ZnearestE x.
Definition NumF : Num R := {|
  n0 := 0; n1 := 1;
  nadd x y := fl (x + y); nsub x y := fl (x - y); nmul x y := fl (x * y); ndiv x y := fl (x / y);
  nleb := Rleb; nofZ z := fl (IZR z); nfloor := Int_part |}.
