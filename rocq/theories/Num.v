(** Numbers of the model.  The code computes with IEEE doubles; the model is
    exact.  Code that only compares and uses the four operations is written
    once over [Num T]; the instance at Q computes (witnesses and examples), the
    instance at R carries the theorems.  Nothing here models code of the
    repository. *)
From Coq Require Import List ZArith QArith Qround Reals Lra Lia Bool.
Import ListNotations.

Class Num (T : Type) := {
  n0 : T;
  n1 : T;
  nadd : T -> T -> T;
  nsub : T -> T -> T;
  nmul : T -> T -> T;
  ndiv : T -> T -> T;
  nleb : T -> T -> bool;
  nofZ : Z -> T;
  nfloor : T -> Z }.

Declare Scope num_scope.
Delimit Scope num_scope with num.
Infix "+" := nadd : num_scope.
Infix "-" := nsub : num_scope.
Infix "*" := nmul : num_scope.
Infix "/" := ndiv : num_scope.
Infix "<=?" := nleb : num_scope.
Notation "x <? y" := (negb (nleb y x)) : num_scope.

(** [math.ceil], [int] (towards zero) *)
Definition nceil {T} `{Num T} (x : T) : Z := (- nfloor (n0 - x)%num)%Z.
Definition ntrunc {T} `{Num T} (x : T) : Z := if (n0 <=? x)%num then nfloor x else nceil x.
Definition nmin {T} `{Num T} (x y : T) : T := if (x <=? y)%num then x else y.
Definition nmax {T} `{Num T} (x y : T) : T := if (x <=? y)%num then y else x.
Definition nabs {T} `{Num T} (x : T) : T := if (n0 <=? x)%num then x else (n0 - x)%num.

#[global] Instance NumQ : Num Q := {
  n0 := 0%Q; n1 := 1%Q;
  nadd x y := Qred (x + y)%Q; nsub x y := Qred (x - y)%Q;
  nmul x y := Qred (x * y)%Q; ndiv x y := Qred (x / y)%Q;
  nleb := Qle_bool; nofZ := inject_Z; nfloor := Qfloor }.

Definition Rleb (x y : R) : bool := if Rle_dec x y then true else false.
#[global] Instance NumR : Num R := {
  n0 := 0%R; n1 := 1%R;
  nadd := Rplus; nsub := Rminus; nmul := Rmult; ndiv := Rdiv;
  nleb := Rleb; nofZ := IZR; nfloor := Int_part }.

Local Open Scope R_scope.
Lemma Rleb_true x y : Rleb x y = true <-> x <= y.
Proof. unfold Rleb. destruct (Rle_dec x y); split; intros; auto; discriminate. Qed.
Lemma Rleb_false x y : Rleb x y = false <-> y < x.
Proof. unfold Rleb. destruct (Rle_dec x y); split; intros; auto; try discriminate; lra. Qed.
Lemma Rleb_spec x y : BoolSpec (x <= y) (y < x) (Rleb x y).
Proof. destruct (Rleb x y) eqn:E; constructor; [now apply Rleb_true|now apply Rleb_false]. Qed.

Lemma nleb_R (x y : R) : nleb x y = Rleb x y. Proof. reflexivity. Qed.

Lemma Int_part_spec x : IZR (Int_part x) <= x < IZR (Int_part x) + 1.
Proof. pose proof (base_Int_part x). lra. Qed.
Lemma Int_part_unique x z : IZR z <= x < IZR z + 1 -> Int_part x = z.
Proof.
  intros H. pose proof (Int_part_spec x) as H2.
  assert (IZR z < IZR (Int_part x + 1)) by (rewrite plus_IZR; lra).
  assert (IZR (Int_part x) < IZR (z + 1)) by (rewrite plus_IZR; lra).
  apply lt_IZR in H0, H1. lia.
Qed.
Lemma nceil_R_spec (x : R) : IZR (nceil x) - 1 < x <= IZR (nceil x).
Proof.
  unfold nceil. cbn [nfloor NumR nsub n0]. pose proof (Int_part_spec (0 - x)). rewrite opp_IZR. lra.
Qed.
Lemma nceil_R_unique (x : R) z : IZR z - 1 < x <= IZR z -> nceil x = z.
Proof.
  intros H. unfold nceil. cbn [nfloor NumR nsub n0]. rewrite (Int_part_unique (0 - x) (- z)); [lia|].
  rewrite opp_IZR. lra.
Qed.
Lemma nmin_R (x y : R) : nmin x y = Rmin x y.
Proof. unfold nmin, Rmin. rewrite nleb_R. unfold Rleb. destruct (Rle_dec x y); reflexivity. Qed.
Lemma nmax_R (x y : R) : nmax x y = Rmax x y.
Proof. unfold nmax, Rmax. rewrite nleb_R. unfold Rleb. destruct (Rle_dec x y); reflexivity. Qed.

(** Case split on a comparison in the goal or a hypothesis. *)
Ltac rcase :=
  match goal with
  | |- context [Rleb ?x ?y] => destruct (Rleb_spec x y)
  | H : context [Rleb ?x ?y] |- _ => destruct (Rleb_spec x y)
  end.
Ltac numR := cbn [n0 n1 nadd nsub nmul ndiv nleb nofZ nfloor NumR] in *.
