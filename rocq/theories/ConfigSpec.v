(** Specification vocabulary for configurations. *)
From Coq Require Import List ZArith Bool Ascii String.
From Verif Require Import Base ParseModel SectionSpec ConfigModel.
Import ListNotations.

Definition quote_char (a : ascii) : Prop := a = """"%char \/ a = "'"%char.

(** [w] is [m] without the quotes around it. *)
Definition unquoted (m w : pystr) : Prop :=
  exists pre post, m = pre ++ w ++ post /\ Forall quote_char pre /\ Forall quote_char post /\
    (forall a r, w = a :: r -> ~ quote_char a) /\ (forall r a, w = r ++ [a] -> ~ quote_char a).

(** The contact models: flat, or random with variance and two correlation
    lengths; strata give a depth after the mode. *)
Inductive contact_spec {F} (to_float : pystr -> res F) : bool -> list pystr -> contact F -> Prop :=
  | cs_flat m w :
      unquoted m w -> word_ci w (S_ "flat") ->
      contact_spec to_float false [m] (mkContact w None None)
  | cs_flat_depth m w zt z :
      unquoted m w -> word_ci w (S_ "flat") -> to_float zt = Ok z ->
      contact_spec to_float true [m; zt] (mkContact w (Some z) None)
  | cs_random m w vt xt yt v x y :
      unquoted m w -> word_ci w (S_ "random") ->
      to_float vt = Ok v -> to_float xt = Ok x -> to_float yt = Ok y ->
      contact_spec to_float false [m; vt; xt; yt] (mkContact w None (Some (v, x, y)))
  | cs_random_depth m w zt vt xt yt z v x y :
      unquoted m w -> word_ci w (S_ "random") -> to_float zt = Ok z ->
      to_float vt = Ok v -> to_float xt = Ok x -> to_float yt = Ok y ->
      contact_spec to_float true [m; zt; vt; xt; yt] (mkContact w (Some z) (Some (v, x, y))).

(** [i] is the first position of the name [x] in the list [l]. *)
Definition position {F} (l : list (val (atom F))) (x : val (atom F)) (i : Z) : Prop :=
  exists k, i = Z.of_nat k /\ nth_error l k = Some x /\ forall j, (j < k)%nat -> nth_error l j <> Some x.

(** A list of names and the list of their positions. *)
Definition positions {F} (hf : list (val (atom F))) (names idx : val (atom F)) : Prop :=
  exists ns ks, names = Node ns /\ idx = Node (map (fun k => Leaf (AInt k)) ks) /\ Forall2 (position hf) ns ks.

Definition text {F} (s : string) : val (atom F) := Leaf (AStr (S_ s)).
