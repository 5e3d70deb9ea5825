(** Model of hyvr/input/option_parsing.py (list literals, shapes, options,
    sections).  No proofs here.  Line numbers refer to that file. *)
From Coq Require Import List ZArith Bool Ascii String.
From Verif Require Import Base.
Import ListNotations.
Local Open Scope char_scope.

(** Python values that the parser handles: a scalar or a list of values.
    Tuples do not occur. *)
Inductive val (A : Type) :=
  | Leaf (a : A)
  | Node (l : list (val A)).
Arguments Leaf {A} a.
Arguments Node {A} l.

(** [string.replace(' ', '')] (l. 469). *)
Definition remove_spaces (s : pystr) : pystr :=
  filter (fun c => negb (Ascii.eqb c " ")) s.

(** [s[1:-1]] (l. 471). *)
Definition slice_1_m1 (s : pystr) : pystr := removelast (tl s).

(** One more character in front of the first part (for [split], l. 474-480). *)
Definition cons_head (c : ascii) (l : list pystr) : list pystr :=
  match l with
  | [] => [[c]]
  | h :: t => (c :: h) :: t
  end.

(** [s.split(',')] (l. 480): never empty. *)
Fixpoint split1 (c : ascii) (s : pystr) : list pystr :=
  match s with
  | [] => [[]]
  | x :: r => if Ascii.eqb x c then [] :: split1 c r else cons_head x (split1 c r)
  end.

(** [s.split('],')] (l. 475). *)
Fixpoint split2 (c d : ascii) (s : pystr) : list pystr :=
  match s with
  | [] => [[]]
  | x :: r =>
      match r with
      | [] => [[x]]
      | y :: r' =>
          if Ascii.eqb x c && Ascii.eqb y d then [] :: split2 c d r'
          else cons_head x (split2 c d r)
      end
  end.

(** l. 476-477: the closing bracket is put back on all but the last piece. *)
Fixpoint close_brackets (l : list pystr) : list pystr :=
  match l with
  | [] => []
  | [x] => [x]
  | x :: r => (x ++ ["]"]) :: close_brackets r
  end.

(** [parse_list] (l. 451-482).  The recursion is on the length of the text;
    [n] bounds it. *)
Fixpoint parse_list_f {A} (n : nat) (dtype : pystr -> res A) (string : pystr) : res (val A) :=
  match n with
  | O => Err OutOfFuel
  | S n =>
      let s := remove_spaces string in
      match s with
      | [] => Err IndexError
      | c :: _ =>
          if Ascii.eqb c "[" then
            let s := slice_1_m1 s in
            match s with
            | [] => Err IndexError
            | c :: _ =>
                if Ascii.eqb c "[" then
                  let* l := mapM (parse_list_f n dtype) (close_brackets (split2 "]" "," s)) in
                  Ok (Node l)
                else
                  let* l := mapM dtype (split1 "," s) in
                  Ok (Node (map Leaf l))
            end
          else let* a := dtype s in Ok (Leaf a)
      end
  end.

Definition parse_list {A} (dtype : pystr -> res A) (string : pystr) : res (val A) :=
  parse_list_f (S (List.length string)) dtype string.

(** [numdim] (l. 308-318): looks at the last element only; [l[-1]] of an empty
    list raises IndexError. *)
Fixpoint numdim {A} (v : val A) : res nat :=
  match v with
  | Leaf _ => Ok 0
  | Node l =>
      (fix last_dim (l : list (val A)) : res nat :=
         match l with
         | [] => Err IndexError
         | x :: r =>
             match r with
             | [] => match x with
                     | Leaf _ => Ok 1
                     | Node _ => let* n := numdim x in Ok (S n)
                     end
             | _ :: _ => last_dim r
             end
         end) l
  end.

(** [_get_shape] (l. 321-328). *)
Fixpoint get_shape1 {A} (v : val A) : res (val Z) :=
  match v with
  | Leaf _ => Ok (Leaf (-1)%Z)
  | Node l =>
      let* d := numdim v in
      match d with
      | 1 => Ok (Leaf (Z.of_nat (List.length l)))
      | _ => let* r := (fix go (l : list (val A)) : res (list (val Z)) :=
                          match l with
                          | [] => Ok []
                          | x :: r => let* y := get_shape1 x in
                                      let* ys := go r in Ok (y :: ys)
                          end) l in
             Ok (Node r)
      end
  end.

(** The loop of [get_shape] (l. 347-349): [n] more levels. *)
Fixpoint shape_levels (n : nat) (s : val Z) : res (list (val Z)) :=
  match n with
  | O => Ok []
  | S n => let* s' := get_shape1 s in
           let* r := shape_levels n s' in Ok (s' :: r)
  end.

(** [get_shape] (l. 330-350).  A scalar gives the integer 1, everything else a
    list ([shape[::-1]]). *)
Definition get_shape {A} (v : val A) : res (val Z) :=
  let* s := get_shape1 v in
  match s with
  | Leaf z => if Z.eqb z (-1) then Ok (Leaf 1%Z) else Ok (Node [s])
  | Node _ =>
      let* n := numdim s in
      let* more := shape_levels n s in
      Ok (Node (rev (s :: more)))
  end.

(** [is_flat] (l. 352-353); [all(map(...))] stops at the first False. *)
Fixpoint is_flat (l : list (val Z)) : res bool :=
  match l with
  | [] => Ok true
  | x :: r => let* d := numdim x in
              match d with O => is_flat r | S _ => Ok false end
  end.

(** [unroll] (l. 380-389). *)
Fixpoint unroll (v : val Z) : res (list (val Z)) :=
  match v with
  | Leaf _ => Ok [v]
  | Node l =>
      let* d := numdim v in
      match d with
      | 1 => Ok l
      | _ => (fix go (l : list (val Z)) : res (list (val Z)) :=
                match l with
                | [] => Ok []
                | x :: r => let* y := unroll x in
                            let* ys := go r in Ok (y ++ ys)%list
                end) l
      end
  end.

(** [all_true] (l. 444-448). *)
Fixpoint all_true {A} (f : A -> bool) (v : val A) : bool :=
  match v with
  | Leaf a => f a
  | Node l => (fix go (l : list (val A)) : bool :=
                 match l with
                 | [] => true
                 | x :: r => all_true f x && go r
                 end) l
  end.

(** [==] of lists and numbers (l. 360). *)
Fixpoint val_eqb (a b : val Z) : bool :=
  match a, b with
  | Leaf x, Leaf y => Z.eqb x y
  | Node l, Node m =>
      (fix go (l m : list (val Z)) : bool :=
         match l, m with
         | [], [] => true
         | x :: l, y :: m => val_eqb x y && go l m
         | _, _ => false
         end) l m
  | _, _ => false
  end.

(** The flat entry computed for one level in [try_flattening_shape]
    (l. 359-363): the common value or -1. *)
Definition flatten_level (v : val Z) : res Z :=
  let* fl := unroll v in
  match fl with
  | [] => Err IndexError
  | f :: _ =>
      if all_true (fun x => val_eqb (Leaf x) f) (Node fl) then
        match f with Leaf z => Ok z | Node _ => Err OutOfModel end
      else Ok (-1)%Z
  end.

(** [try_flattening_shape] (l. 355-364).  [shape[0]] is always an integer here
    (see [get_shape]). *)
Definition try_flattening_shape (shape : list (val Z)) : res (list Z) :=
  let* depth := numdim (Node shape) in
  match shape with
  | Leaf z :: rest =>
      let* more := mapM flatten_level (firstn (depth - 1) rest) in
      if (depth - 1 <=? List.length rest)%nat then Ok (z :: more) else Err IndexError
  | Node _ :: _ => Err OutOfModel
  | [] => Err IndexError
  end.

(** [get_positive_shape] (l. 366-375); [file_rev] is the reversed shape of the
    value, [i] the loop counter. *)
Fixpoint positive_loop (shape : list Z) (i : nat) (file_rev : list Z) : res (list Z) :=
  match file_rev with
  | [] => Ok shape
  | f :: r =>
      let idx := (Z.of_nat (List.length shape) - 1 - Z.of_nat i)%Z in
      let* x := pyget shape idx in
      let* shape' := (if Z.eqb x (-1) then pyset shape idx f else Ok shape) in
      positive_loop shape' (S i) r
  end.
Definition get_positive_shape (shape file : list Z) : res (list Z) :=
  positive_loop shape 0 (rev file).

(** [[a]*n] for an int n (l. 392-406): empty for n < 0. *)
Definition zrepeat {A} (a : A) (n : Z) : list A := repeat a (Z.to_nat n).

(** [expand_shape] (l. 392-407), one level: [next = [shape[i]] * shape[i-1]],
    then wrapped for j = 1 .. i-1. *)
Definition expand_level (shape : list Z) (i : nat) : val Z :=
  fold_left (fun next j => Node (zrepeat next (nth j shape 0%Z)))
            (seq 1 (i - 1))
            (Node (zrepeat (Leaf (nth i shape 0%Z)) (nth (i - 1) shape 0%Z))).
Definition expand_shape (shape : list Z) : res (list (val Z)) :=
  match shape with
  | [] => Err IndexError
  | z :: _ => Ok (Leaf z :: map (expand_level shape) (seq 1 (List.length shape - 1)))
  end.

(** [_expand_to_shape] (l. 415-420). *)
Fixpoint expand_to1 {A} (shape : val Z) (v : val A) : val A :=
  match shape with
  | Leaf n => Node (zrepeat v n)
  | Node l => Node (map (fun s => expand_to1 s v) l)
  end.

(** [expand_to_shape] (l. 409-413). *)
Definition expand_to_shape {A} (shape : list (val Z)) (v : val A) : res (val A) :=
  let* depth := numdim v in
  if (depth =? List.length shape)%nat then Ok v
  else let* s := pyget shape (-1 - Z.of_nat depth)%Z in Ok (expand_to1 s v).

(** The loop over the entries of both lists (l. 433-436). *)
Fixpoint compare_entries (l1 l2 : list (val Z)) : bool :=
  match l1, l2 with
  | a :: l1, b :: l2 =>
      if negb (val_eqb a b) && negb (val_eqb a (Leaf (-1)%Z)) && negb (val_eqb b (Leaf (-1)%Z))
      then false else compare_entries l1 l2
  | _, _ => true
  end.

(** [compare_shapes] (l. 422-436). *)
Definition compare_shapes (s1 s2 : val Z) : res bool :=
  let* d1 := numdim s1 in
  let* d2 := numdim s2 in
  if negb (d1 =? d2)%nat then Ok false
  else
    let* l1 := unroll s1 in
    let* l2 := unroll s2 in
    if negb (List.length l1 =? List.length l2)%nat then Ok false
    else Ok (compare_entries l1 l2).

(** [shape.index(-1)] (l. 292), [None] if there is none (l. 290). *)
Fixpoint index_of_neg (l : list Z) : option nat :=
  match l with
  | [] => None
  | z :: r => if Z.eqb z (-1) then Some 0
              else match index_of_neg r with Some k => Some (S k) | None => None end
  end.

(** A flat shape as a list of integers. *)
Fixpoint leaves_of (l : list (val Z)) : list Z :=
  match l with
  | [] => []
  | Leaf z :: r => z :: leaves_of r
  | Node _ :: r => leaves_of r
  end.

(** [==] of lists of numbers (l. 284). *)
Fixpoint list_Z_eqb (l m : list Z) : bool :=
  match l, m with
  | [], [] => true
  | x :: l, y :: m => Z.eqb x y && list_Z_eqb l m
  | _, _ => false
  end.

(** l. 267-296: only for flat shapes, and only if the value is a list.
    Returns the (expanded) shape. *)
Definition resolve_flat {A} (shape : list (val Z)) (value : val A) : res (list (val Z)) :=
  let* flat := is_flat shape in
  if flat then
    let* real := get_shape value in
    match real with
    | Leaf _ => Ok shape
    | Node real =>
        let* fsv := try_flattening_shape real in
        let* sh := get_positive_shape (leaves_of shape) fsv in
        if negb (list_Z_eqb fsv (lastn (List.length fsv) sh)) then Err ShapeError
        else
          let* _ := (match index_of_neg sh with
                     | None => Ok tt
                     | Some k =>
                         let* depth := numdim value in
                         if (depth <? List.length sh - k + 1)%nat then Err ValueError else Ok tt
                     end) in
          expand_shape sh
    end
  else Ok shape.

(** l. 298-304. *)
Definition fit_shape {A} (shape : list (val Z)) (value : val A) : res (val A) :=
  let* sh := resolve_flat shape value in
  let* v := expand_to_shape sh value in
  let* real := get_shape v in
  let* ok := compare_shapes (Node sh) real in
  if ok then Ok v else Err ShapeError.

(** ** Options and sections *)

(** Scalars of a section dictionary.  [F] is the type of floating point
    numbers; converters from text are parameters of the model. *)
Inductive atom (F : Type) :=
  | AStr (s : pystr)
  | AInt (z : Z)
  | AFlt (f : F)
  | ABool (b : bool)
  | ANone.
Arguments AStr {F} s.
Arguments AInt {F} z.
Arguments AFlt {F} f.
Arguments ABool {F} b.
Arguments ANone {F}.

(** The element types str, int, float (l. 160, 224, 231). *)
Inductive scalar_type := TStr | TInt | TFloat.

(** One entry of a declared shape: an integer, a nested list of integers, or
    the name of another option (l. 113-147, 257-259). *)
Inductive dim := DVal (v : val Z) | DName (s : pystr).
Inductive oshape := ShInt (z : Z) | ShName (s : pystr) | ShList (l : list dim).

Inductive otype := OBool | OScalar (t : scalar_type) | OList (t : scalar_type).

(** [Option] (l. 88-178). *)
Record option_ (F : Type) := mkOption {
  o_name : pystr;
  o_type : otype;
  o_optional : bool;
  o_default : val (atom F);
  o_shape : oshape;
  o_valid : atom F -> bool;
  o_alts : list pystr }.
Arguments o_name {F}. Arguments o_type {F}. Arguments o_optional {F}.
Arguments o_default {F}. Arguments o_shape {F}. Arguments o_valid {F}.
Arguments o_alts {F}. Arguments mkOption {F}.

(** Dictionaries: insertion-ordered association lists. *)
Definition dict (F : Type) := list (pystr * val (atom F)).

Fixpoint dget {F} (d : dict F) (k : pystr) : option (val (atom F)) :=
  match d with
  | [] => None
  | (k', v) :: r => if pystr_eqb k k' then Some v else dget r k
  end.
Fixpoint dset {F} (d : dict F) (k : pystr) (v : val (atom F)) : dict F :=
  match d with
  | [] => [(k, v)]
  | (k', v') :: r => if pystr_eqb k k' then (k, v) :: r else (k', v') :: dset r k v
  end.
Definition ddel {F} (d : dict F) (k : pystr) : dict F :=
  filter (fun kv => negb (pystr_eqb k (fst kv))) d.
Definition dmem {F} (d : dict F) (k : pystr) : bool :=
  match dget d k with Some _ => true | None => false end.

Definition lower (c : ascii) : ascii :=
  let n := nat_of_ascii c in
  if (65 <=? n)%nat && (n <=? 90)%nat then ascii_of_nat (n + 32) else c.
Definition str_lower (s : pystr) : pystr := map lower s.

Definition is_digit (c : ascii) : bool :=
  let n := nat_of_ascii c in (48 <=? n)%nat && (n <=? 57)%nat.
(** [str.isdigit]: non-empty and only digits (ASCII). *)
Definition isdigit (s : pystr) : bool :=
  match s with [] => false | _ => forallb is_digit s end.
Definition digits_value (s : pystr) : Z :=
  fold_left (fun acc c => (10 * acc + (Z.of_nat (nat_of_ascii c) - 48))%Z) s 0%Z.

(** [parse_bool] (l. 484-498); a non-string has no [lower]. *)
Definition parse_bool {F} (v : val (atom F)) : res bool :=
  match v with
  | Leaf (AStr s) =>
      let l := str_lower s in
      if pystr_eqb l (S_ "true") || pystr_eqb l (S_ "yes") then Ok true
      else if pystr_eqb l (S_ "false") || pystr_eqb l (S_ "no") then Ok false
      else if isdigit s then Ok (negb (Z.eqb (digits_value s) 0))
      else Err ValueError
  | _ => Err AttributeError
  end.

(** Conversion of text by [str], [int], [float].  [str] never fails. *)
Record converters (F : Type) := mkConv {
  to_int : pystr -> res Z;
  to_float : pystr -> res F }.
Arguments to_int {F}. Arguments to_float {F}. Arguments mkConv {F}.

Definition convert {F} (c : converters F) (t : scalar_type) (s : pystr) : res (atom F) :=
  match t with
  | TStr => Ok (AStr s)
  | TInt => let* z := to_int c s in Ok (AInt z)
  | TFloat => let* f := to_float c s in Ok (AFlt f)
  end.

(** l. 207-213: the first alternative name that is present is renamed. *)
Fixpoint find_alternative {F} (d : dict F) (name : pystr) (alts : list pystr) : dict F :=
  match alts with
  | [] => d
  | a :: r =>
      if dmem d name then d
      else match dget d a with
           | Some v => ddel (dset d name v) a
           | None => find_alternative d name r
           end
  end.

(** [len(section.dict[name])] (l. 259): works for lists and strings. *)
Definition py_len {F} (v : val (atom F)) : res Z :=
  match v with
  | Node l => Ok (Z.of_nat (List.length l))
  | Leaf (AStr s) => Ok (Z.of_nat (List.length s))
  | Leaf _ => Err TypeError
  end.

Definition resolve_dim {F} (d : dict F) (x : dim) : res (val Z) :=
  match x with
  | DVal v => Ok v
  | DName n => match dget d n with
               | None => Err KeyError
               | Some v => let* k := py_len v in Ok (Leaf k)
               end
  end.

(** l. 238-304. *)
Definition apply_shape {F} (d : dict F) (sh : oshape) (value : val (atom F)) : res (val (atom F)) :=
  match sh with
  | ShInt z =>
      if Z.eqb z (-1) then
        match value with Leaf _ => Ok (Node [value]) | Node _ => Ok value end
      else fit_shape [Leaf z] value
  | ShName n =>
      match dget d n with
      | None => Err ValueError
      | Some v =>
          let* s := get_shape v in
          match s with
          | Leaf z => fit_shape [Leaf z] value
          | Node l => fit_shape l value
          end
      end
  | ShList l => let* l' := mapM (resolve_dim d) l in fit_shape l' value
  end.

(** [Option.parse] (l. 185-304): new dictionary (after renaming an
    alternative) and value. *)
Definition option_parse {F} (c : converters F) (o : option_ F) (d : dict F)
  : res (dict F * val (atom F)) :=
  let d := find_alternative d (o_name o) (o_alts o) in
  match dget d (o_name o) with
  | None => if o_optional o then Ok (d, o_default o) else Err MissingOptionError
  | Some raw =>
      match o_type o with
      | OBool =>
          let* b := parse_bool raw in
          if o_valid o (ABool b) then Ok (d, Leaf (ABool b)) else Err ValueError
      | OScalar t =>
          match raw with
          | Leaf (AStr s) =>
              let* a := convert c t s in
              if o_valid o a then Ok (d, Leaf a) else Err ValueError
          | _ => Err OutOfModel
          end
      | OList t =>
          match raw with
          | Leaf (AStr s) =>
              let* value := parse_list (convert c t) s in
              if all_true (o_valid o) value then
                let* v := apply_shape d (o_shape o) value in Ok (d, v)
              else Err ValueError
          | _ => Err AttributeError
          end
      end
  end.

(** [Section.parse] (l. 49-78); the warnings about unknown options are
    in WarnModel. *)
Definition section_parse {F} (c : converters F) (os : list (option_ F)) (d : dict F) : res (dict F) :=
  foldM (fun d o => let* (d', v) := option_parse c o d in Ok (dset d' (o_name o) v)) d os.
