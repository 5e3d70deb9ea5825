(** Model of get_alternating_facies (hyvr/utils.py l. 390-405).  No proofs here. *)
From Coq Require Import List ZArith Bool.
From Verif Require Import Base.
Import ListNotations.

(** [np.random.choice(l)]: any entry, chosen by the draw [u]; ValueError for an
    empty list. *)
Definition choice (l : list Z) (u : nat) : res Z :=
  match nth_error l (u mod List.length l) with
  | Some v => Ok v
  | None => Err ValueError
  end.

(** [l.index(v)] *)
Fixpoint index_of (v : Z) (l : list Z) : res nat :=
  match l with
  | [] => Err ValueError
  | x :: r => if Z.eqb x v then Ok 0 else let* i := index_of v r in Ok (S i)
  end.

(** l. 398-404: the loop for [n] further entries after [prev]. *)
Fixpoint alternate (facies : list Z) (alt : option (list (list Z))) (n : nat) (us : nat -> nat) (prev : Z) : res (list Z) :=
  match n with
  | O => Ok []
  | S n =>
      let* v := match alt with
                | Some alt =>
                    let* i := index_of prev facies in
                    match nth_error alt i with
                    | Some l => choice l (us 0)
                    | None => Err IndexError
                    end
                | None => choice facies (us 0)
                end in
      let* r := alternate facies alt n (fun i => us (S i)) v in
      Ok (v :: r)
  end.

(** l. 390-405.  np.zeros of a negative length raises ValueError, facies[0] of
    an empty array IndexError (after the choice). *)
Definition alternating_facies (num : Z) (facies : list Z) (alt : option (list (list Z))) (us : nat -> nat) : res (list Z) :=
  if (num <? 0)%Z then Err ValueError
  else
    let* v := choice facies (us 0) in
    if (num =? 0)%Z then Err IndexError
    else
      let* r := alternate facies alt (Z.to_nat num - 1) (fun i => us (S i)) v in
      Ok (v :: r).
