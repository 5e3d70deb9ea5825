(** Facts about arrays. *)
From Coq Require Import List ZArith Bool Reals Lia Sorting.Sorted Logic.FinFun.
From Verif Require Import Base Num ArrayModel.
Import ListNotations.

Lemma cell_eqb_eq a b : cell_eqb a b = true <-> a = b.
Proof.
  destruct a as [[a1 a2] a3], b as [[b1 b2] b3]. unfold cell_eqb, cx, cy, cz. cbn [fst snd].
  rewrite !andb_true_iff, !Nat.eqb_eq. split; [intros [[-> ->] ->]; reflexivity|intros [= -> -> ->]; auto].
Qed.
Lemma cell_eqb_refl a : cell_eqb a a = true.
Proof. now apply cell_eqb_eq. Qed.
Lemma cell_eqb_spec a b : reflect (a = b) (cell_eqb a b).
Proof. apply iff_reflect. symmetry. apply cell_eqb_eq. Qed.

Lemma in_cells s c : In c (cells s) <-> (cx c < cx s /\ cy c < cy s /\ cz c < cz s)%nat.
Proof.
  unfold cells. rewrite in_flat_map. split.
  - intros (i & Hi & H). apply in_flat_map in H as (j & Hj & H). apply in_map_iff in H as (k & <- & Hk).
    apply in_seq in Hi, Hj, Hk. cbn. lia.
  - intros (H1 & H2 & H3). exists (cx c). split; [apply in_seq; lia|]. apply in_flat_map. exists (cy c).
    split; [apply in_seq; lia|]. apply in_map_iff. exists (cz c). split; [destruct c as [[? ?] ?]; reflexivity|apply in_seq; lia].
Qed.

Lemma NoDup_flat_map {A B} (f : A -> list B) l :
  NoDup l -> (forall x, In x l -> NoDup (f x)) ->
  (forall x y b, In x l -> In y l -> In b (f x) -> In b (f y) -> x = y) -> NoDup (flat_map f l).
Proof.
  induction l as [|x l IH]; intros Hl Hf Hd; cbn; [constructor|].
  inversion_clear Hl as [|? ? Hx Hl']. 
  assert (G : NoDup (flat_map f l)) by (apply IH; [assumption|intros; apply Hf; now right|intros; eapply Hd; eauto; now right]).
  assert (Hfx : NoDup (f x)) by (apply Hf; now left).
  assert (D : forall b, In b (f x) -> ~ In b (flat_map f l)).
  { intros b Hb H. apply in_flat_map in H as (y & Hy & H). assert (x = y) by (eapply Hd; eauto; [now left|now right]). now subst. }
  induction (f x) as [|b r IHr]; cbn; [assumption|]. inversion_clear Hfx.
  constructor; [rewrite in_app_iff; intros [?|?]; [contradiction|eapply D; eauto; now left]|].
  apply IHr; [assumption|intros; apply D; now right].
Qed.

Lemma cells_NoDup s : NoDup (cells s).
Proof.
  unfold cells. apply NoDup_flat_map; [apply seq_NoDup| |].
  - intros i _. apply NoDup_flat_map; [apply seq_NoDup| |].
    + intros j _. apply Injective_map_NoDup; [intros a b; congruence|apply seq_NoDup].
    + intros x y b _ _ H1 H2. apply in_map_iff in H1 as (? & <- & _), H2 as (? & H2 & _). congruence.
  - intros x y b _ _ H1 H2. apply in_flat_map in H1 as (? & _ & H1), H2 as (? & _ & H2).
    apply in_map_iff in H1 as (? & <- & _), H2 as (? & H2 & _). congruence.
Qed.

Lemma flat_map_length_const {A B} (f : A -> list B) n l :
  (forall x, In x l -> List.length (f x) = n) -> List.length (flat_map f l) = (List.length l * n)%nat.
Proof.
  induction l as [|x l IH]; intros H; cbn; [reflexivity|]. rewrite app_length, IH, H; auto; [now left|intros; apply H; now right].
Qed.
Lemma cells_length s : List.length (cells s) = (cx s * cy s * cz s)%nat.
Proof.
  unfold cells. rewrite (flat_map_length_const _ (cy s * cz s)).
  - rewrite seq_length. lia.
  - intros i _. rewrite (flat_map_length_const _ (cz s)); [now rewrite seq_length|].
    intros j _. now rewrite map_length, seq_length.
Qed.

Lemma set1_same {A} (a : array A) c v : set1 a c v c = v.
Proof. unfold set1. now rewrite cell_eqb_refl. Qed.
Lemma set1_other {A} (a : array A) c d v : d <> c -> set1 a c v d = a d.
Proof. intros H. unfold set1. destruct (cell_eqb_spec d c); congruence. Qed.

(** Assignment by mask. *)
Lemma put_list_other {A} cs (vs : list A) a c : ~ In c cs -> put_list cs vs a c = a c.
Proof.
  revert vs a. induction cs as [|d cs IH]; intros [|v vs] a H; cbn [put_list]; auto.
  rewrite IH; [|intros ?; apply H; now right]. apply set1_other. intros ->. apply H. now left.
Qed.
Lemma put_list_nth {A} cs (vs : list A) a k c v : NoDup cs ->
  nth_error cs k = Some c -> nth_error vs k = Some v -> put_list cs vs a c = v.
Proof.
  revert vs a k. induction cs as [|d cs IH]; intros [|w vs] a [|k] Hd Hc Hv; try discriminate; cbn in Hc, Hv; cbn [put_list]; inversion_clear Hd.
  - injection Hc as ->. injection Hv as ->. rewrite put_list_other by assumption. apply set1_same.
  - eapply IH; eauto.
Qed.
Lemma put_map {A} cs (f : cell -> A) a c : NoDup cs -> In c cs -> put_list cs (map f cs) a c = f c.
Proof.
  intros Hd Hc. apply In_nth_error in Hc as (k & Hk). eapply put_list_nth; eauto. now apply map_nth_error.
Qed.

Lemma filter_NoDup {A} (f : A -> bool) l : NoDup l -> NoDup (filter f l).
Proof. apply NoDup_filter. Qed.

(** np.unique *)
Lemma insert_unique_in x l y : In y (insert_unique x l) <-> y = x \/ In y l.
Proof.
  induction l as [|z l IH]; cbn [insert_unique].
  - cbn. split; intros [H|[]]; auto. 
  - destruct (Z.ltb_spec x z); [cbn; split; intros [?|?]; auto|].
    destruct (Z.eqb_spec x z) as [->|]; [cbn; split; [auto|intros [->|?]; auto]|].
    cbn [In]. rewrite IH. tauto.
Qed.
Lemma unique_in l x : In x (unique l) <-> In x l.
Proof.
  induction l as [|y l IH]; [reflexivity|]. change (unique (y :: l)) with (insert_unique y (unique l)).
  rewrite insert_unique_in, IH. cbn. split; intros [?|?]; auto.
Qed.
Lemma insert_unique_sorted x l : StronglySorted Z.lt l -> StronglySorted Z.lt (insert_unique x l).
Proof.
  induction l as [|z l IH]; intros H; cbn [insert_unique]; [repeat constructor|].
  inversion_clear H as [|? ? Hs Hz]. destruct (Z.ltb_spec x z).
  - constructor; [constructor; assumption|]. constructor; [assumption|]. eapply Forall_impl; [|exact Hz]. cbn. lia.
  - destruct (Z.eqb_spec x z); [constructor; assumption|]. constructor; [auto|].
    apply Forall_forall. intros y Hy. apply insert_unique_in in Hy as [->|Hy]; [lia|]. rewrite Forall_forall in Hz. auto.
Qed.
Lemma unique_sorted l : StronglySorted Z.lt (unique l).
Proof.
  induction l as [|y l IH]; [constructor|]. change (unique (y :: l)) with (insert_unique y (unique l)). now apply insert_unique_sorted.
Qed.
Lemma sorted_NoDup l : StronglySorted Z.lt l -> NoDup l.
Proof.
  induction 1 as [|a l _ IH H]; constructor; [|assumption]. intros Ha. rewrite Forall_forall in H. specialize (H _ Ha). lia.
Qed.
Lemma unique_NoDup l : NoDup (unique l).
Proof. apply sorted_NoDup, unique_sorted. Qed.
