(** Shared infrastructure: Python exceptions as values, sequencing, and a few
    list helpers that mirror Python built-ins.  Nothing here models code of
    the repository; everything is used by the model files. *)
From Coq Require Import List ZArith Bool Ascii String Lia.
Import ListNotations.

(** Exceptions that occur in the modelled code.  [OutOfFuel] is not a Python
    exception: it marks that a bounded unrolling of a loop was too short.
    [OutOfModel] marks a branch the model does not describe. *)
Inductive exn :=
  | ValueError | IndexError | KeyError | TypeError | AttributeError
  | NameError | ImportError | ZeroDivisionError | ShapeError | MissingOptionError
  | MissingSectionError | FileExistsError | FileNotFoundError | OSError
  | MissingSectionHeaderError | DuplicateSectionError | DuplicateOptionError
  | ParsingError | InterpolationError
  | OutOfFuel | OutOfModel.

Inductive res (A : Type) :=
  | Ok (a : A)
  | Err (e : exn).
Arguments Ok {A} a.
Arguments Err {A} e.

Definition bind {A B} (r : res A) (f : A -> res B) : res B :=
  match r with Ok a => f a | Err e => Err e end.

Notation "'let*' x := r 'in' k" := (bind r (fun x => k))
  (at level 200, x pattern, r at level 100, k at level 200, right associativity).

(** [list(map(f, l))] where [f] may raise: the first exception wins. *)
Fixpoint mapM {A B} (f : A -> res B) (l : list A) : res (list B) :=
  match l with
  | [] => Ok []
  | x :: r => let* y := f x in let* ys := mapM f r in Ok (y :: ys)
  end.

(** A loop over a list with a state, where the body may raise. *)
Fixpoint foldM {A S} (f : S -> A -> res S) (s : S) (l : list A) : res S :=
  match l with
  | [] => Ok s
  | x :: r => let* s' := f s x in foldM f s' r
  end.

(** Python list indexing with a possibly negative index. *)
Definition pyidx (len : nat) (i : Z) : option nat :=
  let n := Z.of_nat len in
  if (0 <=? i)%Z && (i <? n)%Z then Some (Z.to_nat i)
  else if (- n <=? i)%Z && (i <? 0)%Z then Some (Z.to_nat (i + n))
  else None.

Definition pyget {A} (l : list A) (i : Z) : res A :=
  match pyidx (List.length l) i with
  | Some k => match nth_error l k with Some a => Ok a | None => Err IndexError end
  | None => Err IndexError
  end.

Fixpoint upd {A} (l : list A) (k : nat) (a : A) : list A :=
  match l, k with
  | [], _ => []
  | _ :: r, O => a :: r
  | x :: r, S k => x :: upd r k a
  end.

Definition pyset {A} (l : list A) (i : Z) (a : A) : res (list A) :=
  match pyidx (List.length l) i with
  | Some k => Ok (upd l k a)
  | None => Err IndexError
  end.

(** [l[-k:]] for k >= 1. *)
Definition lastn {A} (k : nat) (l : list A) : list A :=
  skipn (List.length l - k) l.

(** Python strings (restricted to 8-bit characters). *)
Definition pystr := list ascii.
Definition S_ (s : string) : pystr := list_ascii_of_string s.

Fixpoint pystr_eqb (a b : pystr) : bool :=
  match a, b with
  | [], [] => true
  | x :: a, y :: b => Ascii.eqb x y && pystr_eqb a b
  | _, _ => false
  end.

Lemma pystr_eqb_eq a b : pystr_eqb a b = true <-> a = b.
Proof.
  revert b; induction a as [|x a IH]; intros [|y b]; simpl; split; try easy.
  - intros H. apply andb_true_iff in H as [H1 H2].
    apply Ascii.eqb_eq in H1. apply IH in H2. now subst.
  - intros [= -> ->]. rewrite Ascii.eqb_refl. simpl. now apply IH.
Qed.

Lemma pystr_eqb_refl a : pystr_eqb a a = true.
Proof. now apply pystr_eqb_eq. Qed.

Lemma pystr_eqb_neq a b : pystr_eqb a b = false <-> a <> b.
Proof.
  rewrite <- (pystr_eqb_eq a b). destruct (pystr_eqb a b); split; congruence.
Qed.

Lemma pystr_dec (a b : pystr) : {a = b} + {a <> b}.
Proof.
  destruct (pystr_eqb a b) eqn:E; [left|right];
    [now apply pystr_eqb_eq | now apply pystr_eqb_neq].
Qed.

(** List facts used throughout. *)
Lemma upd_length {A} (l : list A) k a : List.length (upd l k a) = List.length l.
Proof. revert k; induction l; intros [|k]; simpl; auto. Qed.

Lemma nth_error_upd_same {A} (l : list A) k a :
  k < List.length l -> nth_error (upd l k a) k = Some a.
Proof. revert k; induction l; intros [|k] H; simpl in *; auto; try lia. apply IHl; lia. Qed.

Lemma nth_error_upd_other {A} (l : list A) k j a :
  k <> j -> nth_error (upd l k a) j = nth_error l j.
Proof. revert k j; induction l; intros [|k] [|j] H; simpl in *; auto; try lia. Qed.

Lemma nth_upd_same {A} (l : list A) k a d :
  k < List.length l -> nth k (upd l k a) d = a.
Proof. intros H. apply nth_error_nth. now apply nth_error_upd_same. Qed.

Lemma nth_upd_other {A} (l : list A) k j a d :
  k <> j -> nth j (upd l k a) d = nth j l d.
Proof. revert k j; induction l; intros [|k] [|j] H; simpl in *; auto; try lia. Qed.

Lemma mapM_Ok {A B} (f : A -> res B) l ys :
  mapM f l = Ok ys <-> Forall2 (fun x y => f x = Ok y) l ys.
Proof.
  revert ys; induction l as [|x l IH]; intros ys; simpl.
  - split; [intros [= <-]; constructor | inversion 1; reflexivity].
  - destruct (f x) eqn:E; simpl.
    + destruct (mapM f l) eqn:E2; simpl.
      * split.
        -- intros [= <-]. constructor; [assumption|]. now apply IH.
        -- inversion 1 as [|? b ? l' H1 H2]; subst.
           apply IH in H2. congruence.
      * split; [discriminate|].
        inversion 1 as [|? b ? l' H1 H2]; subst. apply IH in H2. discriminate.
    + split; [discriminate|]. inversion 1; congruence.
Qed.

Lemma mapM_total {A B} (f : A -> res B) (g : A -> B) l :
  (forall x, In x l -> f x = Ok (g x)) -> mapM f l = Ok (map g l).
Proof.
  induction l as [|x l IH]; intros H; simpl; [reflexivity|].
  rewrite (H x (or_introl eq_refl)); simpl. rewrite IH; [reflexivity|].
  intros y Hy. apply H. now right.
Qed.

Lemma mapM_length {A B} (f : A -> res B) l ys :
  mapM f l = Ok ys -> List.length ys = List.length l.
Proof.
  intros H. apply mapM_Ok in H. induction H; simpl; auto.
Qed.

Lemma bind_Ok {A B} (r : res A) (f : A -> res B) b :
  bind r f = Ok b <-> exists a, r = Ok a /\ f a = Ok b.
Proof.
  destruct r; simpl; split.
  - intros H. eauto.
  - intros (x & [= <-] & H). exact H.
  - discriminate.
  - intros (x & H & _). discriminate.
Qed.

Lemma pyget_nat {A} (l : list A) (k : nat) a :
  nth_error l k = Some a -> pyget l (Z.of_nat k) = Ok a.
Proof.
  intros H. assert (k < List.length l) by (apply nth_error_Some; congruence).
  unfold pyget, pyidx.
  replace (0 <=? Z.of_nat k)%Z with true by (symmetry; apply Z.leb_le; lia).
  replace (Z.of_nat k <? Z.of_nat (List.length l))%Z with true by (symmetry; apply Z.ltb_lt; lia).
  simpl. rewrite Nat2Z.id, H. reflexivity.
Qed.
