(** Arithmetic of which nothing is known but that comparisons are right: sums,
    products and quotients may be rounded in any way.  Doubles (without NaN and
    infinities) are such numbers. *)
From Coq Require Import Reals Bool.
From Verif Require Import Num.
Local Open Scope R_scope.

Class TrueOrder (N : Num R) : Prop := true_order : forall x y : R, nleb x y = Rleb x y.
#[global] Instance TrueOrderR : TrueOrder NumR.
Proof. intros x y. reflexivity. Qed.

Section Order.
Context {N : Num R} {O : TrueOrder N}.
Lemma nleb_ord (x y : R) : nleb x y = Rleb x y. Proof. apply true_order. Qed.
Lemma nmin_ord (x y : R) : nmin x y = Rmin x y.
Proof. unfold nmin, Rmin. rewrite nleb_ord. unfold Rleb. destruct (Rle_dec x y); reflexivity. Qed.
Lemma nmax_ord (x y : R) : nmax x y = Rmax x y.
Proof. unfold nmax, Rmax. rewrite nleb_ord. unfold Rleb. destruct (Rle_dec x y); reflexivity. Qed.
End Order.
