(** Properties C01-C07 and C72: the ini option parser.  Statements only; the
    proofs are in ParseProofs, ShapeProofs*, SectionProofs, OptionProofs. *)
From Coq Require Import List ZArith Bool Ascii String Lia.
From Verif Require Import Base ParseModel ParseSpec SectionSpec ParseProofs ShapeProofs ShapeProofs2 ShapeProofs3
  SectionProofs OptionProofs.
Import ListNotations.

(** Toy converters for the examples: a float is written as a numeral. *)
Definition toy : converters Z :=
  mkConv (fun s => if isdigit s then Ok (digits_value s) else Err ValueError)
         (fun s => if isdigit s then Ok (digits_value s) else Err ValueError).

(** C01.  Reading back a one- or two-level list literal with spaces anywhere. *)
Theorem C01_list_literal_round_trip :
  forall (A : Type) (dtype : pystr -> res A) (d : nat) (v : val pystr) (s : pystr),
  (d <= 2)%nat -> literal d v -> spaced (render v) s ->
  parse_list dtype s = convert_all dtype v.
Proof. exact @parse_list_literal. Qed.
Print Assumptions C01_list_literal_round_trip.

Example C01_example :
  literal 2 (Node [Node [Leaf (S_ "12"); Leaf (S_ "7")]; Node [Leaf (S_ "3")]]) /\
  spaced (render (Node [Node [Leaf (S_ "12"); Leaf (S_ "7")]; Node [Leaf (S_ "3")]])) (S_ "[ [1 2, 7],[ 3 ]]") /\
  parse_list (to_float toy) (S_ "[ [1 2, 7],[ 3 ]]") = Ok (Node [Node [Leaf 12%Z; Leaf 7%Z]; Node [Leaf 3%Z]]).
Proof.
  split; [|split; [|vm_compute; reflexivity]].
  - repeat (first [split | constructor | discriminate]); vm_compute; intuition discriminate.
  - vm_compute. repeat constructor.
Qed.

(** C02.  The same for three levels is false: the brackets are torn apart. *)
Definition C02_statement : Prop :=
  forall (A : Type) (dtype : pystr -> res A) (d : nat) (v : val pystr) (s : pystr),
  literal d v -> spaced (render v) s -> parse_list dtype s = convert_all dtype v.
Theorem C02_three_levels_refuted :
  ~ C02_statement /\
  exists v w : val pystr,
    literal 3 v /\ parse_list (fun t => Ok t) (render v) = Ok w /\ v <> w.
Proof.
  set (v := Node [Node [Node [Leaf (S_ "1"); Leaf (S_ "2")]; Node [Leaf (S_ "3"); Leaf (S_ "4")]]]).
  assert (Hlit : literal 3 v).
  { repeat (first [split | constructor | discriminate]); vm_compute; intuition discriminate. }
  assert (Hw : exists w, parse_list (fun t => Ok t) (render v) = Ok w /\ v <> w).
  { eexists. split; [vm_compute; reflexivity|discriminate]. }
  destruct Hw as (w & Hw & Hne). split; [|now exists v, w].
  intros H. specialize (H _ (fun t => Ok t) 3%nat v (render v) Hlit).
  rewrite Hw in H. apply Hne. assert (Hsp : spaced (render v) (render v)).
  { generalize (render v). intros l. induction l; constructor; auto. }
  specialize (H Hsp). transitivity v; [reflexivity|].
  change (convert_all (fun t : pystr => Ok t) v) with (Ok v) in H. injection H as H. symmetry. exact H.
Qed.
Print Assumptions C02_three_levels_refuted.

(** C03.  An accepted list option has the declared shape; [partial] because the
    value as read must have a uniform nesting depth without empty lists, and
    at most two levels may be added to it (the option tables have at most two
    dimensions altogether). *)
Theorem C03_accepted_shape_partial :
  forall (F : Type) (c : converters F) (o : option_ F) (d d' : dict F) t sh dims text (pv v : val (atom F)) k,
  o_type o = OList t -> o_shape o = ShList sh -> Forall2 (dim_value d) sh dims ->
  dget d (o_name o) = Some (Leaf (AStr text)) ->
  parse_list (convert c t) text = Ok pv -> depth_is k pv ->
  (k = 0 \/ List.length dims <= k + 2)%nat ->
  option_parse c o d = Ok (d', v) ->
  has_shape dims v /\ copies pv (List.length dims - k) v.
Proof.
  intros F c o d d' t sh dims text pv v k Ht Hsh Hd Hg Hp Hk Hl H.
  apply (list_option_value c o d d' t text pv v Ht Hg Hp) in H.
  rewrite Hsh, (apply_shape_list d sh dims pv Hd) in H.
  destruct (fit_flat_sound dims k pv v Hk Hl H) as (H1 & H2 & _). auto.
Qed.
Print Assumptions C03_accepted_shape_partial.

(** The shape given by the name of another list option. *)
Theorem C03_accepted_named_shape_partial :
  forall (F : Type) (c : converters F) (o : option_ F) (d d' : dict F) t n (w : val (atom F)) text (pv v : val (atom F)) j k,
  o_type o = OList t -> o_shape o = ShName n -> dget d n = Some w -> depth_is (S j) w ->
  dget d (o_name o) = Some (Leaf (AStr text)) ->
  parse_list (convert c t) text = Ok pv -> depth_is k pv ->
  option_parse c o d = Ok (d', v) ->
  same_shape w v /\ copies pv (S j - k) v.
Proof.
  intros F c o d d' t n w text pv v j k Ht Hsh Hn Hw Hg Hp Hk H.
  apply (list_option_value c o d d' t text pv v Ht Hg Hp) in H. rewrite Hsh in H.
  cbn [apply_shape] in H. rewrite Hn in H. destruct (get_shape_node j w Hw) as (ss & Hss).
  rewrite Hss in H. cbn [bind] in H. eapply named_shape; eauto.
Qed.
Print Assumptions C03_accepted_named_shape_partial.

Definition ex_strata : option_ Z :=
  mkOption (S_ "ae_in_strata") (OList TStr) false (Leaf ANone) (ShList [DName (S_ "strata"); DVal (Leaf (-1)%Z)]) (fun _ => true) [].
Definition ex_prob : option_ Z :=
  mkOption (S_ "ae_prob") (OList TFloat) false (Leaf ANone) (ShName (S_ "ae_in_strata")) (fun _ => true) [].
Definition ex_dict : dict Z :=
  [(S_ "strata", Node [Leaf (AStr (S_ "a")); Leaf (AStr (S_ "b"))]);
   (S_ "ae_in_strata", Leaf (AStr (S_ "[[t, c],[s]]"))); (S_ "ae_prob", Leaf (AStr (S_ "[[3,7],[10]]")))].

Example C03_example :
  Forall2 (dim_value ex_dict) [DName (S_ "strata"); DVal (Leaf (-1)%Z)] [2%Z; (-1)%Z] /\
  exists d' d'' v v', option_parse toy ex_strata ex_dict = Ok (d', v) /\ depth_is 2 v /\
    option_parse toy ex_prob (dset d' (o_name ex_strata) v) = Ok (d'', v').
Proof.
  split.
  - constructor; [|constructor; [constructor|constructor]].
    exact (dv_name ex_dict (S_ "strata") [Leaf (AStr (S_ "a")); Leaf (AStr (S_ "b"))] eq_refl).
  - do 4 eexists. split; [vm_compute; reflexivity|]. split; [|vm_compute; reflexivity].
    repeat (first [split | constructor | discriminate]).
Qed.

(** Without the uniform depth the property is false: a list of a list and a
    number is accepted for a one-dimensional shape, and stored as it is. *)
Theorem C03_mixed_depth_refuted :
  exists (o : option_ Z) (d d' : dict Z) (v : val (atom Z)),
    o_type o = OList TFloat /\ o_shape o = ShList [DVal (Leaf 2%Z)] /\
    dget d (o_name o) = Some (Leaf (AStr (S_ "[[1,2],3]"))) /\
    option_parse toy o d = Ok (d', v) /\ ~ has_shape [2%Z] v.
Proof.
  exists (mkOption (S_ "hin") (OList TFloat) false (Leaf ANone) (ShList [DVal (Leaf 2%Z)]) (fun _ => true) []).
  exists [(S_ "hin", Leaf (AStr (S_ "[[1,2],3]")))].
  do 2 eexists. split; [reflexivity|]. split; [reflexivity|]. split; [reflexivity|].
  split; [vm_compute; reflexivity|].
  intros [_ H]. inversion H; subst. assumption.
Qed.
Print Assumptions C03_mixed_depth_refuted.

(** C04.  What one- and two-dimensional shapes do to a value, for values of
    uniform depth: exactly these are accepted. *)
Theorem C04_replication_2d :
  forall (F : Type) (d : dict F) sh n m k (v v' : val (atom F)),
  Forall2 (dim_value d) sh [n; m] -> (0 < n)%Z -> (0 < m)%Z -> depth_is k v ->
  (apply_shape d (ShList sh) v = Ok v' <->
   (k = 2%nat /\ has_shape [n; m] v /\ v' = v) \/
   (k = 1%nat /\ has_shape [m] v /\ v' = Node (repeat v (Z.to_nat n)))).
Proof.
  intros F d sh n m k v v' Hd Hn Hm Hk. rewrite (apply_shape_list d sh [n; m] v Hd). now apply fit_2d_iff.
Qed.
Print Assumptions C04_replication_2d.

Theorem C04_replication_1d :
  forall (F : Type) (d : dict F) sh n k (v v' : val (atom F)),
  Forall2 (dim_value d) sh [n] -> (0 < n)%Z -> depth_is k v ->
  (apply_shape d (ShList sh) v = Ok v' <->
   (k = 1%nat /\ has_shape [n] v /\ v' = v) \/ (k = 0%nat /\ v' = Node (repeat v (Z.to_nat n)))).
Proof.
  intros F d sh n k v v' Hd Hn Hk. rewrite (apply_shape_list d sh [n] v Hd). now apply fit_1d_iff.
Qed.
Print Assumptions C04_replication_1d.

(** The option level: an accepted option stores the value so obtained. *)
Theorem C04_option_stores_it :
  forall (F : Type) (c : converters F) (o : option_ F) (d : dict F) t text (pv : val (atom F)),
  o_type o = OList t -> dget d (o_name o) = Some (Leaf (AStr text)) ->
  parse_list (convert c t) text = Ok pv ->
  option_parse c o d = if all_true (o_valid o) pv
                       then let* v := apply_shape d (o_shape o) pv in Ok (d, v)
                       else Err ValueError.
Proof. exact @list_option_parse. Qed.
Print Assumptions C04_option_stores_it.

Example C04_example :
  apply_shape ex_dict (ShList [DName (S_ "strata"); DVal (Leaf 3%Z)])
    (Node [Leaf (AFlt 5%Z); Leaf (AFlt 6%Z); Leaf (AFlt 7%Z)]) =
  Ok (Node [Node [Leaf (AFlt 5%Z); Leaf (AFlt 6%Z); Leaf (AFlt 7%Z)];
            Node [Leaf (AFlt 5%Z); Leaf (AFlt 6%Z); Leaf (AFlt 7%Z)]]).
Proof. vm_compute. reflexivity. Qed.

(** C05.  A single value is never accepted for a declared shape of two or more
    dimensions, although the documentation says it is expanded. *)
Theorem C05_scalar_refuted :
  forall (F : Type) (d : dict F) sh z0 z1 dims (a : atom F) v',
  Forall2 (dim_value d) sh (z0 :: z1 :: dims) ->
  apply_shape d (ShList sh) (Leaf a) <> Ok v'.
Proof.
  intros F d sh z0 z1 dims a v' Hd. rewrite (apply_shape_list d sh _ (Leaf a) Hd). apply fit_scalar_multi.
Qed.
Print Assumptions C05_scalar_refuted.

Example C05_witness :
  apply_shape ex_dict (ShList [DVal (Leaf 2%Z); DVal (Leaf 3%Z)]) (Leaf (AFlt 18%Z)) = Err ShapeError.
Proof. vm_compute. reflexivity. Qed.

(** It is expanded for one dimension (C04_replication_1d) and for a shape copied
    from another option with at least two levels. *)
Theorem C05_scalar_partial :
  forall (F : Type) (d : dict F) n (w : val (atom F)) j (a : atom F),
  dget d n = Some w -> depth_is (S (S j)) w ->
  exists v, apply_shape d (ShName n) (Leaf a) = Ok v /\ same_shape w v /\ all_leaves a v.
Proof.
  intros F d n w j a Hn Hw. cbn [apply_shape]. rewrite Hn.
  destruct (get_shape_node _ w Hw) as (ss & Hss). rewrite Hss. cbn [bind].
  destruct (fit_named_scalar j w ss a Hw Hss) as (v & Hv & Hs). exists v. split; [exact Hv|]. split; [exact Hs|].
  destruct (named_shape (S j) 0 w (Leaf a) v ss Hw I Hss Hv) as [_ Hc].
  remember (S (S j) - 0)%nat as k eqn:E. clear -Hc. revert v Hc.
  induction k as [|k IH]; intros v Hc; inversion Hc as [|? l Hl]; subst; constructor.
  eapply Forall_impl; [|exact Hl]. auto.
Qed.
Print Assumptions C05_scalar_partial.

(** C06.  Lookup of options in a section. *)
Theorem C06_option_lookup :
  forall (F : Type) (c : converters F) (os : list (option_ F)) (d d' : dict F),
  NoDup (flat_map names os) -> section_parse c os d = Ok d' ->
  (forall k, ~ In k (flat_map names os) -> dget d' k = dget d k) /\
  (forall pre o post, os = pre ++ o :: post ->
     exists d1 v,
       match first_of d (names o) with
       | None => o_optional o = true /\ v = o_default o
       | Some raw => dget d1 (o_name o) = Some raw /\ option_parse c o d1 = Ok (d1, v)
       end /\
       dget d' (o_name o) = Some v /\
       (forall o', In o' pre -> dget d1 (o_name o') = dget d' (o_name o')) /\
       (forall k, ~ In k (flat_map names os) -> dget d1 k = dget d k)).
Proof. exact @section_parse_spec. Qed.
Print Assumptions C06_option_lookup.

Theorem C06_missing_required :
  forall (F : Type) (c : converters F) (os pre post : list (option_ F)) (d d1 : dict F) o,
  NoDup (flat_map names os) -> os = pre ++ o :: post ->
  o_optional o = false -> first_of d (names o) = None ->
  section_parse c pre d = Ok d1 ->
  section_parse c os d = Err MissingOptionError.
Proof. intros F c os pre post d d1 o. exact (section_missing c os d pre o post d1). Qed.
Print Assumptions C06_missing_required.

Theorem C06_missing_required_never_ok :
  forall (F : Type) (c : converters F) (os : list (option_ F)) (d d' : dict F) o,
  NoDup (flat_map names os) -> In o os -> o_optional o = false -> first_of d (names o) = None ->
  section_parse c os d <> Ok d'.
Proof. intros F c os d d' o H1 H2 H3 H4. now apply (section_missing_any c os d o). Qed.
Print Assumptions C06_missing_required_never_ok.

Example C06_example :
  let os := [mkOption (S_ "n") (OScalar TInt) true (Leaf (AInt 4%Z)) (ShInt (-1)%Z) (fun _ => true) [S_ "m"; S_ "k"];
             mkOption (S_ "x") (OScalar TFloat) true (Leaf (AFlt 9%Z)) (ShInt (-1)%Z) (fun _ => true) []] in
  NoDup (flat_map names os) /\
  section_parse toy os [(S_ "k", Leaf (AStr (S_ "3"))); (S_ "m", Leaf (AStr (S_ "2"))); (S_ "u", Leaf ANone)] =
  Ok [(S_ "k", Leaf (AStr (S_ "3"))); (S_ "u", Leaf ANone); (S_ "n", Leaf (AInt 2%Z)); (S_ "x", Leaf (AFlt 9%Z))].
Proof.
  split; [|vm_compute; reflexivity].
  simpl. repeat (constructor; [simpl; intuition discriminate|]). constructor.
Qed.

(** C07.  Booleans. *)
Theorem C07_parse_bool :
  forall (F : Type) (s : pystr),
  (means_true s -> parse_bool (F := F) (Leaf (AStr s)) = Ok true) /\
  (means_false s -> parse_bool (F := F) (Leaf (AStr s)) = Ok false) /\
  (~ means_true s -> ~ means_false s -> parse_bool (F := F) (Leaf (AStr s)) = Err ValueError).
Proof. exact @parse_bool_spec. Qed.
Print Assumptions C07_parse_bool.

Example C07_example : means_true (S_ "yEs") /\ means_true (S_ "010") /\ means_false (S_ "00") /\ means_false (S_ "No").
Proof.
  assert (H1 : word_ci (S_ "yEs") (S_ "yes")).
  { unfold word_ci. cbn. repeat (apply Forall2_cons; [first [left; reflexivity | right; vm_compute; lia]|]). constructor. }
  assert (H2 : word_ci (S_ "No") (S_ "no")).
  { unfold word_ci. cbn. repeat (apply Forall2_cons; [first [left; reflexivity | right; vm_compute; lia]|]). constructor. }
  assert (H3 : numeral (S_ "010")). { split; [discriminate|]. repeat constructor; vm_compute; lia. }
  assert (H4 : numeral (S_ "00")). { split; [discriminate|]. repeat constructor; vm_compute; lia. }
  repeat split.
  - right. left. exact H1.
  - right. right. split; [exact H3|]. intros H. inversion H as [|? ? ? H']; subst. inversion H'; discriminate.
  - right. right. split; [exact H4|]. repeat constructor.
  - right. left. exact H2.
Qed.

(** C72.  A list of lists broken over lines is misread: configparser keeps the
    line break, and only spaces are removed. *)
Definition newline : ascii := ascii_of_nat 10.
Theorem C72_line_break_refuted :
  parse_list (fun t => Ok t) (S_ "[[a],[b]]") = Ok (Node [Node [Leaf (S_ "a")]; Node [Leaf (S_ "b")]]) /\
  parse_list (fun t => Ok t) (S_ "[[a]," ++ newline :: S_ "[b]]") =
    Ok (Node [Node [Leaf (S_ "a")]; Leaf (newline :: S_ "[b]")]) /\
  parse_list (to_float toy) (S_ "[[1]," ++ newline :: S_ "[2]]") = Err ValueError.
Proof. vm_compute. auto. Qed.
Print Assumptions C72_line_break_refuted.
