(** What internal heterogeneity means in terms of the ini-file (C132). *)
From Coq Require Import List ZArith Bool Ascii String Reals.
From Verif Require Import Base Num ParseModel ConfigModel DeprecatedSpec LinkSpec SizeSpec SurfaceModel StrataModel AssignModel FullModel
  ArrayModel SpecsimModel SpecsimSpec.
Import ListNotations.
Local Open Scope string_scope.
Local Open Scope R_scope.
Section Spec.
Context {F : Type} (fin : F -> option R).
(** The entry for facies number [f] of the list option [k]: a number or three
    correlation lengths. *)
Definition facies_entry (d : dict F) (k : string) (f : Z) (v : val (atom F)) : Prop :=
  exists l, has d k (Node l) /\ (0 <= f)%Z /\ nth_error l (Z.to_nat f) = Some v.
Definition facies_value (d : dict F) (k : string) (f : Z) (x : R) : Prop :=
  exists a, facies_entry d k f (Leaf (AFlt a)) /\ fin a = Some x.
Definition facies_lengths (d : dict F) (k : string) (f : Z) (x : R * R * R) : Prop :=
  exists a b c, facies_entry d k f (Node [Leaf (AFlt a); Leaf (AFlt b); Leaf (AFlt c)]) /\
    fin a = Some (fst (fst x)) /\ fin b = Some (snd (fst x)) /\ fin c = Some (snd x).
(** A trend: None or the factors at both ends. *)
Definition trend_at (d : dict F) (k : string) (t : option (R * R)) : Prop :=
  has d k (Leaf ANone) /\ t = None \/ exists a b, range_at fin d k a b /\ t = Some (a, b).
End Spec.
(** The factor of a trend at index [i] of [n]. *)
Definition along (t : option (R * R)) (n i : nat) : R :=
  match t with None => 1 | Some (a, b) => a + (b - a) * (INR i / INR (n - 1)) end.
Definition product (l : list R) : R := fold_right Rmult 1 l.
(** [u] is the value at cell [c] of a field with exponential covariance on the
    smallest box around the cells of [m]. *)
Definition simulated (s : shape) (co : coords) (sig : R) (cl : R * R * R) (m : mask) (e : noise) (c : cell) (u : R) : Prop :=
  exists lo hi y, smallest_box s m lo hi /\ specsim_field co Exponential sig cl (mkBox lo hi) e = Ok y /\ u = y (relative lo c).
(** The coordinates are the cell centres of the grid. *)
Definition grid_coords (g : grid R) (co : coords) : Prop :=
  (forall i x, nth_error (g_x g) i = Some x -> co_x co i = x) /\
  (forall i x, nth_error (g_y g) i = Some x -> co_y co i = x) /\
  (forall i x, nth_error (g_z g) i = Some x -> co_z co i = x).
(** All elements with the index of their stratum, in the order of their numbers. *)
Fixpoint elements_from (si : nat) (strata : list full_stratum) : list (nat * ae R) :=
  match strata with
  | [] => []
  | s :: r => map (pair si) (s_aes (fst s)) ++ elements_from (S si) r
  end.
(** Cells of the first object of all, in element [j]. *)
Definition first_cells (at_ : cell -> cell_values (T := R)) (j : nat) : mask :=
  fun c => (c_ha (at_ c) =? 0)%Z && (c_ae (at_ c) =? Z.of_nat j)%Z.
(** Facies, cells, draws and first element whose trends act on cell [c]. *)
Inductive source (strata : list full_stratum) (at_ : cell -> cell_values (T := R)) (draw : Z -> Z -> bool -> noise) (ae_draw : nat -> bool -> noise) (c : cell) :
  Z -> mask -> (bool -> noise) -> nat -> Prop :=
  | of_element j si e : nth_error (elements_from 0 strata) j = Some (si, e) -> first_cells at_ j c = true ->
      source strata at_ draw ae_draw c (ae_bg_facies e) (first_cells at_ j) (ae_draw j) j
  | of_object : (forall j, (j < List.length (elements_from 0 strata))%nat -> first_cells at_ j c = false) ->
      source strata at_ draw ae_draw c (c_facies (at_ c))
        (fun c' => (c_ha (at_ c') =? c_ha (at_ c))%Z && (c_facies (at_ c') =? c_facies (at_ c))%Z) (draw (c_ha (at_ c)) (c_facies (at_ c))) 0.
(** The factor of all trends of elements from number [first] on that have cells
    of the first object. *)
Definition element_factors (s : shape) (at_ : cell -> cell_values (T := R)) (ts : list (option (R * R) * option (R * R))) (first : nat) (c : cell) : R :=
  product (map (fun jt => if existsb (first_cells at_ (fst jt)) (cells s)
                          then along (fst (snd jt)) (cz s) (cz c) * along (snd (snd jt)) (cx s) (cx c) else 1)
    (skipn first (combine (seq 0 (List.length ts)) ts))).
