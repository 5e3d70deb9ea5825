(** C150: the order of the sections and options does not reach the model. *)
From Coq Require Import List Permutation ZArith Bool Ascii String Lia Reals.
From Verif Require Import Base Num ParseModel ConfigModel ConfigProofs2 DeprecatedModel LinkModel HydroLinkModel
  SurfaceModel StrataModel FullModel HydraulicsModel WarnProps FileOrderSpec FileOrderProofs.
Import ListNotations.
Local Open Scope string_scope.
Local Open Scope list_scope.

Lemma assoc_perm {A} (l l' : list (pystr * A)) n : NoDup (map fst l) -> Permutation l l' -> assoc l n = assoc l' n.
Proof.
  intros Hn H. induction H as [|[k v] l l' H IH|[k v] [k' v'] l|l l' l'' H1 IH1 H2 IH2].
  - reflexivity.
  - inversion_clear Hn as [|? ? N1 N2]. cbn. destruct (pystr_eqb n k); [reflexivity|]. now apply IH.
  - cbn. destruct (pystr_eqb n k) eqn:E1, (pystr_eqb n k') eqn:E2; auto.
    apply pystr_eqb_eq in E1, E2. subst. inversion_clear Hn as [|? ? N1 N2]. exfalso. apply N1. now left.
  - rewrite (IH1 Hn). apply IH2. apply (Permutation_NoDup (l := map fst l)); [now apply Permutation_map|exact Hn].
Qed.
Lemma assoc_rel {A B} (R : A -> B -> Prop) (l : list (pystr * A)) l' n :
  Forall2 (fun e e' => fst e = fst e' /\ R (snd e) (snd e')) l l' -> fw R (assoc l n) (assoc l' n).
Proof.
  induction 1 as [|[k v] [k' v'] l l' [E K] _ IH]; cbn in *; [intros a Ea; discriminate|]. subst k'.
  destruct (pystr_eqb n k); [now apply fw_ok|exact IH].
Qed.

Lemma mapM_same {A B} (f g : A -> res B) l : (forall x, fw eq (f x) (g x)) -> fw eq (mapM f l) (mapM g l).
Proof.
  intros H r E. destruct (fw_mapM eq eq f g l l (Forall2_eq l)) with (a := r) as (r' & E' & K); [|exact E|].
  - intros x y <-. apply H.
  - apply Forall2_eq_inv in K. subst r'. eauto.
Qed.

Section Link.
Context {F : Type} (fin : F -> option R) (is_nan : F -> bool).

Lemma get_same {A} (conv : val (atom F) -> res A) d d' k : same_values d d' -> get conv d k = get conv d' k.
Proof. intros H. unfold get. now rewrite (same_lookup _ _ k H). Qed.
Lemma item_same (d d' : dict F) k i : same_values d d' -> item d k i = item d' k i.
Proof. intros H. unfold item. now rewrite (same_lookup _ _ k H). Qed.

Ltac steps H := repeat (apply fw_eq;
  [first [reflexivity | now apply (get_same _ _ _ _ H) | now apply (item_same _ _ _ _ H) | now apply (same_lookup _ _ _ H)]|intros ? _]).

Lemma background_same e e' : same_values e e' -> fw eq (link_background fin is_nan e) (link_background fin is_nan e').
Proof. intros H. unfold link_background. steps H. apply fw_refl. Qed.
Lemma sheets_same e e' : same_values e e' -> fw eq (link_sheets fin e) (link_sheets fin e').
Proof. intros H. unfold link_sheets. steps H. apply fw_refl. Qed.
Lemma troughs_same e e' : same_values e e' -> fw eq (link_troughs fin e) (link_troughs fin e').
Proof. intros H. unfold link_troughs. steps H. apply fw_refl. Qed.
Lemma channels_same e e' : same_values e e' -> fw eq (link_channels fin e) (link_channels fin e').
Proof. intros H. unfold link_channels. steps H. apply fw_refl. Qed.
Lemma type_same id ec ec' : same_entry ec ec' -> fw eq (link_type fin is_nan id ec) (link_type fin is_nan id ec').
Proof.
  intros [H E]. unfold link_type. rewrite <- E.
  apply (fw_bind same_values).
  { unfold type_params. steps H. apply fw_ok. destruct (is_str _ _); [now apply same_dset|exact H]. }
  intros e e' He. apply (fw_bind eq).
  { unfold realization_kind. steps He. apply fw_refl. }
  intros k k' <-. apply fw_eq; [reflexivity|]. intros cm _.
  apply (fw_bind eq _ _ _ _ _ (background_same e e' He)). intros bg bg' <-.
  apply (fw_bind eq).
  { destruct k; [now apply troughs_same|now apply channels_same|now apply sheets_same]. }
  intros kp kp' <-. apply fw_refl.
Qed.

Lemma ids_same (cf cf' : config F) : same_config cf cf' -> fw (@Permutation (pystr * Z)) (ae_ids cf) (ae_ids cf').
Proof.
  intros (_ & _ & H3 & _ & _ & _ & l & P & HF). unfold ae_ids. steps H3.
  intros r E. apply (mapM_perm _ _ _ P) in E as (r1 & E1 & P1).
  match type of E1 with mapM ?f l = _ =>
    destruct (fw_mapM (fun (e e' : pystr * (dict F * contact F)) => fst e = fst e') eq f f l (cf_elements cf')) with (a := r1) as (r2 & E2 & K2) end.
  - apply (Forall2_imp' _ _ _ _ HF). now intros x y [E _].
  - intros x y <-. apply fw_refl.
  - exact E1.
  - apply Forall2_eq_inv in K2. subst r2. exists r1. auto.
Qed.

Lemma elements_same (cf cf' : config F) n : NoDup (map fst (cf_elements cf)) -> same_config cf cf' ->
  fw same_entry (assoc (cf_elements cf) n) (assoc (cf_elements cf') n).
Proof.
  intros Hn (_ & _ & _ & _ & _ & _ & l & P & HF). rewrite (assoc_perm _ _ n Hn P).
  apply assoc_rel. apply (Forall2_imp' _ _ _ _ HF). intros x y (E & K1 & K2). repeat split; assumption.
Qed.

Lemma link_same (cf cf' : config F) : NoDup (map fst (cf_elements cf)) -> same_config cf cf' ->
  fw eq (link fin is_nan cf) (link fin is_nan cf').
Proof.
  intros Hn H. pose proof (fun n => elements_same cf cf' n Hn H) as HE. pose proof (ids_same cf cf' H) as HI.
  destruct H as (_ & H2 & H3 & H4 & _). unfold link.
  intros lk E. destruct (ae_ids cf) as [ids|] eqn:Ei; [|discriminate]. destruct (HI ids eq_refl) as (ids' & Ei' & Pi).
  assert (Hni : NoDup (map fst ids)).
  { replace (map fst ids) with (map fst (cf_elements cf)); [exact Hn|]. clear - Ei. unfold ae_ids in Ei.
    destruct (lookup _ _) as [ae|]; [|discriminate]. cbn [bind] in Ei. revert ids Ei.
    induction (cf_elements cf) as [|x l IH]; cbn; intros ids Ei; [now injection Ei as <-|].
    destruct (list_index ae _); [|discriminate]. cbn in Ei. destruct (mapM _ l) as [r|]; [|discriminate]. cbn in Ei.
    injection Ei as <-. cbn. f_equal. now apply IH. }
  rewrite Ei'. revert lk E. cbn [bind].
  match goal with |- forall lk, ?r = Ok lk -> exists b, ?r' = Ok b /\ lk = b => change (fw eq r r') end.
  steps H2. rewrite <- H4. apply fw_eq; [reflexivity|]. intros contacts _. steps H3.
  apply (fw_bind eq); [|intros ps ps' <-; apply fw_refl].
  apply mapM_same. intros i. unfold link_stratum. steps H3.
  apply (fw_bind eq); [|intros ts ts' <-; apply fw_refl].
  apply mapM_same. intros v. unfold named_type. destruct v as [[n| | | |]|]; try (intros x Ex; discriminate).
  apply (fw_bind _ _ _ _ _ _ (HE n)). intros ec ec' Hec.
  apply fw_eq; [now apply assoc_perm|]. intros id _. now apply type_same.
Qed.

Lemma hydraulics_same (cf cf' : config F) : same_config cf cf' -> fw eq (link_hydraulics fin cf) (link_hydraulics fin cf').
Proof.
  intros (_ & _ & _ & _ & H & _). unfold link_hydraulics. steps H.
  apply (fw_bind eq).
  { unfold link_trends. steps H. apply fw_refl. }
  intros t t' <-. rewrite (H (S_ "hydro")). apply fw_refl.
Qed.
Lemma settings_same (cf cf' : config F) : same_config cf cf' -> fw eq (link_settings cf) (link_settings cf').
Proof. intros (_ & H & _). unfold link_settings. steps H. apply fw_refl. Qed.
Lemma hydro_elements_same (cf cf' : config F) strata : NoDup (map fst (cf_elements cf)) -> same_config cf cf' ->
  forall si num, fw eq (hydro_elements fin cf si num strata) (hydro_elements fin cf' si num strata).
Proof.
  intros Hn H. pose proof (fun n => elements_same cf cf' n Hn H) as HE. destruct H as (_ & _ & H3 & _).
  assert (G : forall si l num, fw eq (stratum_elements fin cf si num l) (stratum_elements fin cf' si num l)).
  { intros si l. induction l as [|e l IH]; intros num; [apply fw_refl|]. cbn [stratum_elements].
    apply (fw_bind eq).
    - unfold hydro_element. steps H3. destruct (nth_error _ _) as [[[n| | | |]|]|]; try (intros x Ex; discriminate).
      apply (fw_bind _ _ _ _ _ _ (HE n)). intros ec ec' [He _]. steps He. apply fw_refl.
    - intros x x' <-. apply (fw_bind eq _ _ _ _ _ (IH (S num))). intros r r' <-. apply fw_refl. }
  induction strata as [|s r IH]; intros si num; [apply fw_refl|]. cbn [hydro_elements].
  apply (fw_bind eq _ _ _ _ _ (G si _ num)). intros x x' <-.
  apply (fw_bind eq _ _ _ _ _ (IH (S si) _)). intros y y' <-. apply fw_refl.
Qed.
End Link.
