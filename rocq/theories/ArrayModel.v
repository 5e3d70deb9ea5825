(** Arrays over the cells of the grid as numpy handles them: shapes, boolean
    masks, selection and assignment by mask, np.unique, np.linspace.  Nothing
    here models code of the repository; the model files that follow use it. *)
From Coq Require Import List ZArith Bool Reals.
From Verif Require Import Base Num.
Import ListNotations.

Definition cell : Type := nat * nat * nat.
Definition shape : Type := nat * nat * nat.
Definition array (A : Type) : Type := cell -> A.
Definition mask : Type := array bool.

Definition cx (c : cell) : nat := fst (fst c).
Definition cy (c : cell) : nat := snd (fst c).
Definition cz (c : cell) : nat := snd c.
Definition cell_eqb (a b : cell) : bool :=
  Nat.eqb (cx a) (cx b) && Nat.eqb (cy a) (cy b) && Nat.eqb (cz a) (cz b).

(** All index triples, the last index running fastest (C order). *)
Definition cells (s : shape) : list cell :=
  flat_map (fun i => flat_map (fun j => map (fun k => (i, j, k)) (seq 0 (cz s))) (seq 0 (cy s))) (seq 0 (cx s)).

(** a[i, j, k] = v *)
Definition set1 {A} (a : array A) (c : cell) (v : A) : array A := fun d => if cell_eqb d c then v else a d.

(** a[m] *)
Definition select {A} (s : shape) (m : mask) (a : array A) : list A := map a (filter m (cells s)).
(** a[m] = v for a single value *)
Definition fill {A} (m : mask) (v : A) (a : array A) : array A := fun c => if m c then v else a c.
(** a[m] = vs for a flat array: as many values as selected cells, or one. *)
Fixpoint put_list {A} (cs : list cell) (vs : list A) (a : array A) : array A :=
  match cs, vs with
  | c :: cs, v :: vs => put_list cs vs (set1 a c v)
  | _, _ => a
  end.
Definition put {A} (s : shape) (m : mask) (vs : list A) (a : array A) : res (array A) :=
  let cs := filter m (cells s) in
  if Nat.eqb (List.length vs) (List.length cs) then Ok (put_list cs vs a)
  else match vs with [v] => Ok (fill m v a) | _ => Err ValueError end.

(** np.unique: sorted, without repetition *)
Fixpoint insert_unique (x : Z) (l : list Z) : list Z :=
  match l with
  | [] => [x]
  | y :: r => if (x <? y)%Z then x :: l else if (x =? y)%Z then l else y :: insert_unique x r
  end.
Definition unique (l : list Z) : list Z := fold_right insert_unique [] l.

(** np.linspace(a, b, n) for n >= 1: n values from a to b; only a for n = 1 *)
Definition linspace (a b : R) (n : nat) (i : nat) : R :=
  (a + INR i * ((b - a) / INR (n - 1)))%R.
