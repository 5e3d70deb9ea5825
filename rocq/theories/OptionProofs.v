(** Consequences of the shape lemmas for whole options. *)
From Coq Require Import List ZArith Bool Ascii String Lia.
From Verif Require Import Base ParseModel ParseSpec SectionSpec ParseProofs ShapeProofs ShapeProofs2 ShapeProofs3
  SectionProofs.
Import ListNotations.

Lemma resolve_dims {F} (d : dict F) sh dims :
  Forall2 (dim_value d) sh dims -> mapM (resolve_dim d) sh = Ok (flat_shape dims).
Proof.
  induction 1 as [|x z sh dims Hx H IH]; [reflexivity|].
  cbn [mapM]. rewrite IH. destruct Hx as [z|n l Hl]; [reflexivity|]. simpl. now rewrite Hl.
Qed.

Lemma dim_value_find {F} (d : dict F) n alts sh dims raw :
  dget d n = Some raw -> Forall2 (dim_value d) sh dims ->
  Forall2 (dim_value (find_alternative d n alts)) sh dims.
Proof. intros H. now rewrite (find_alternative_id d n alts raw H). Qed.

(** Parsing a list option whose text is found under its own name. *)
Lemma list_option_parse {F} (c : converters F) o d t text pv :
  o_type o = OList t -> dget d (o_name o) = Some (Leaf (AStr text)) ->
  parse_list (convert c t) text = Ok pv ->
  option_parse c o d = if all_true (o_valid o) pv
                       then let* v := apply_shape d (o_shape o) pv in Ok (d, v)
                       else Err ValueError.
Proof.
  intros Ht Hd Hp. unfold option_parse. rewrite (find_alternative_id d _ _ _ Hd), Hd, Ht, Hp. reflexivity.
Qed.

Lemma list_option_value {F} (c : converters F) o d d' t text pv v :
  o_type o = OList t -> dget d (o_name o) = Some (Leaf (AStr text)) ->
  parse_list (convert c t) text = Ok pv -> option_parse c o d = Ok (d', v) ->
  apply_shape d (o_shape o) pv = Ok v.
Proof.
  intros Ht Hd Hp H. rewrite (list_option_parse c o d t text pv Ht Hd Hp) in H.
  destruct (all_true _ _); [|discriminate]. apply bind_Ok in H as (w & H & [= _ <-]). exact H.
Qed.

Lemma apply_shape_list {F} (d : dict F) sh dims (v : val (atom F)) :
  Forall2 (dim_value d) sh dims -> apply_shape d (ShList sh) v = fit_shape (flat_shape dims) v.
Proof. intros H. cbn [apply_shape]. now rewrite (resolve_dims d sh dims H). Qed.

Lemma has_shape_same {A B} (l : list (val A)) (v : val B) :
  Forall (depth_is 0) l -> has_shape [Z.of_nat (List.length l)] v -> same_shape (Node l) v.
Proof.
  intros Hl Hs. destruct v as [b|m]; [destruct Hs|]. simpl in Hs. destruct Hs as [Hlen Hm].
  constructor. assert (E : List.length l = List.length m) by lia. clear Hlen.
  revert m E Hm. induction Hl as [|x l Hx Hl IH]; intros [|y m] E Hm; try discriminate; constructor.
  - destruct x; [|destruct Hx]. inversion Hm; subst. destruct y; [constructor|destruct H1].
  - apply IH; [now injection E|now inversion Hm].
Qed.

Lemma get_shape_1 {A} (l : list (val A)) :
  depth_is 1 (Node l) -> get_shape (Node l) = Ok (Node [Leaf (Z.of_nat (List.length l))]).
Proof.
  intros H. destruct (get_shape_spec 0 (Node l) H) as (ss & Hg & HF). rewrite Hg. do 2 f_equal.
  inversion HF as [|? s ? ss' H1 H2]; subst. inversion H2; subst. f_equal.
  clear -Hg H. unfold get_shape in Hg. destruct (get_shape1_depth _ _ H) as (s' & Hs & _).
  unfold get_shape1 in Hg. rewrite (numdim_depth 1 _ H) in Hg. cbn [bind] in Hg.
  destruct (Z.eqb_spec (Z.of_nat (List.length l)) (-1)); [lia|]. injection Hg as <-. reflexivity.
Qed.

(** A shape taken from another option. *)
Lemma named_shape {A B} k j (w : val B) (v v' : val A) ss :
  depth_is (S k) w -> depth_is j v -> get_shape w = Ok (Node ss) -> fit_shape ss v = Ok v' ->
  same_shape w v' /\ copies v (S k - j) v'.
Proof.
  intros Hw Hv Hg H. destruct k as [|k].
  - destruct w as [|l]; [destruct Hw|]. rewrite (get_shape_1 l Hw) in Hg. injection Hg as <-.
    change [Leaf (Z.of_nat (List.length l))] with (flat_shape [Z.of_nat (List.length l)]) in H.
    apply (fit_flat_sound _ j) in H; [|assumption|simpl; lia]. destruct H as (Hs & Hc & _).
    split; [|exact Hc]. apply has_shape_same; [apply Hw|exact Hs].
  - eapply fit_named_sound; eauto.
Qed.

Lemma get_shape_node {A} k (w : val A) : depth_is (S k) w -> exists ss, get_shape w = Ok (Node ss).
Proof. intros H. destruct (get_shape_spec k w H) as (ss & Hg & _). eauto. Qed.

(** Exactly what a two-dimensional shape accepts. *)
Lemma forall_copies_repeat {A} (v : val A) l n :
  Forall (copies v 0) l -> Z.of_nat (List.length l) = n -> l = zrepeat v n.
Proof.
  intros H <-. unfold zrepeat. rewrite Nat2Z.id.
  induction H as [|x l Hx H IH]; [reflexivity|]. inversion Hx; subst. cbn [List.length repeat]. now f_equal.
Qed.

Lemma fit_2d_iff {A} n m k (v v' : val A) :
  (0 < n)%Z -> (0 < m)%Z -> depth_is k v ->
  (fit_shape (flat_shape [n; m]) v = Ok v' <->
   (k = 2%nat /\ has_shape [n; m] v /\ v' = v) \/
   (k = 1%nat /\ has_shape [m] v /\ v' = Node (repeat v (Z.to_nat n)))).
Proof.
  intros Hn Hm Hv. split.
  - intros H. destruct k as [|k]; [destruct v; [|destruct Hv]; exfalso; eapply fit_scalar_multi; eauto|].
    destruct (fit_flat_sound [n; m] (S k) v v' Hv ltac:(simpl; lia) H) as (Hs & Hc & Hd).
    destruct k as [|[|k]].
    + right. split; [reflexivity|]. simpl in Hc. inversion Hc as [|j l Hl]; subst.
      destruct Hs as [[Hneg|Hlen] Hs]; [lia|]. rewrite (forall_copies_repeat v l n Hl Hlen) in *. split; [|reflexivity].
      unfold zrepeat in Hs. destruct (Z.to_nat n) eqn:E; [lia|]. simpl in Hs. now inversion Hs.
    + left. simpl in Hc. inversion Hc; subst. auto.
    + exfalso. simpl in Hc. inversion Hc; subst. clear -Hd Hv. destruct v' as [|l]; [destruct Hv|].
      destruct Hd as [Hne Hd], Hv as [_ Hv]. destruct l as [|x l]; [congruence|].
      inversion Hd as [|? ? Hx _]; inversion Hv as [|? ? Hx' _]; subst.
      destruct x as [|lx]; [destruct Hx|]. destruct Hx as [Hnx Hx], Hx' as [_ Hx'].
      destruct lx as [|y lx]; [congruence|]. inversion Hx; inversion Hx'; subst.
      destruct y; simpl in *; auto.
  - intros [(-> & Hs & ->)|(-> & Hs & ->)].
    + destruct v; [destruct Hv|]. now apply fit_table.
    + destruct v as [|l]; [destruct Hv|]. apply fit_row; [assumption..|]. right.
      destruct Hs as [[|] _]; [lia|assumption].
Qed.

Lemma fit_1d_iff {A} n k (v v' : val A) :
  (0 < n)%Z -> depth_is k v ->
  (fit_shape (flat_shape [n]) v = Ok v' <->
   (k = 1%nat /\ has_shape [n] v /\ v' = v) \/ (k = 0%nat /\ v' = Node (repeat v (Z.to_nat n)))).
Proof.
  intros Hn Hv. split.
  - intros H. destruct (fit_flat_sound [n] k v v' Hv ltac:(simpl; lia) H) as (Hs & Hc & Hd).
    destruct k as [|[|k]].
    + right. split; [reflexivity|]. simpl in Hc. inversion Hc as [|j l Hl]; subst.
      destruct Hs as [[Hneg|Hlen] _]; [lia|]. now rewrite (forall_copies_repeat v l n Hl Hlen).
    + left. simpl in Hc. inversion Hc; subst. auto.
    + exfalso. simpl in Hc. inversion Hc; subst. destruct v' as [|l]; [destruct Hv|].
      destruct Hd as [Hne Hd], Hv as [_ Hv]. destruct l as [|x l]; [congruence|].
      inversion Hd as [|? ? Hx _]; inversion Hv as [|? ? Hx' _]; subst. destruct x; simpl in *; auto.
  - intros [(-> & Hs & ->)|(-> & ->)].
    + destruct v as [|l]; [destruct Hv|]. apply fit_vec; [assumption|]. apply Hs.
    + destruct v; [|destruct Hv]. now apply fit_scalar.
Qed.
