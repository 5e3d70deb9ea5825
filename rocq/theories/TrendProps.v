(** C56: after an element with a trend in x, nothing more is stored. *)
From Coq Require Import List ZArith Bool Reals Lra Lia.
From Verif Require Import Base Num ArrayModel ArrayProofs TensorModel SpecsimModel SpecsimProps HydraulicsModel HydraulicsSpec HydraulicsProofs HydraulicsProps HydraulicsProps2.
Import ListNotations.
Local Open Scope list_scope.
Local Open Scope R_scope.

Lemma fold_app {A B} (f : A -> B -> res A) a l m : foldM f a (l ++ m) = let* b := foldM f a l in foldM f b m.
Proof. revert a. induction l as [|x l IH]; intros a; [reflexivity|]. cbn [app foldM]. destruct (f a x); [apply IH|reflexivity]. Qed.
Lemma combine_app {A B} (l l' : list A) (m m' : list B) : List.length l = List.length m -> combine (l ++ l') (m ++ m') = combine l m ++ combine l' m'.
Proof. revert m. induction l as [|x l IH]; intros [|y m] H; try discriminate; [reflexivity|]. cbn. rewrite IH; [reflexivity|]. now injection H. Qed.

Lemma element_keeps s co h g ae_draw p ie p' : element_step s co h g ae_draw p ie = Ok p' -> p_k_shared p = false ->
  p_k_shared p' = false /\ p_stored_k p' = p_stored_k p.
Proof.
  destruct ie as [i e]. unfold element_step. intros H Hs. destruct (existsb _ _); [|injection H as <-; auto].
  destruct (internal_k _ _ _ _ _ _ p) as [p1|] eqn:E1; [|discriminate]. cbn [bind] in H.
  destruct (internal_n _ _ _ _ _ _ p1) as [p2|] eqn:E2; [|discriminate]. cbn [bind] in H.
  destruct (pyget (h_ratio h) (a_bg e)) as [r|]; [|discriminate]. cbn [bind] in H. injection H as <-.
  apply internal_k_spec in E1 as (k & a & _ & -> & _). apply internal_n_spec in E2 as (n & b & _ & -> & _).
  destruct (tr_kz _) as [[? ?]|], (tr_kx _) as [[? ?]|]; cbn; rewrite ?Hs; auto.
Qed.
Lemma elements_keep s co h g ae_draw l p p' : foldM (element_step s co h g ae_draw) p l = Ok p' -> p_k_shared p = false ->
  p_k_shared p' = false /\ p_stored_k p' = p_stored_k p.
Proof.
  revert p. induction l as [|ie l IH]; intros p H Hs; cbn [foldM] in H; [injection H as <-; auto|].
  destruct (element_step s co h g ae_draw p ie) as [p1|] eqn:E; [|discriminate]. cbn [bind] in H.
  apply element_keeps in E as [E1 E2]; [|assumption]. rewrite <- E2. now apply IH.
Qed.
Lemma element_parts s co h g ae_draw p i e p' : element_step s co h g ae_draw p (i, e) = Ok p' ->
  tr_kx (a_trends e) <> None -> existsb (ae_mask g e) (cells s) = true -> p_k_shared p' = false.
Proof.
  unfold element_step. intros H Hx Hm. rewrite Hm in H.
  destruct (internal_k _ _ _ _ _ _ p) as [p1|] eqn:E1; [|discriminate]. cbn [bind] in H.
  destruct (internal_n _ _ _ _ _ _ p1) as [p2|] eqn:E2; [|discriminate]. cbn [bind] in H.
  destruct (pyget (h_ratio h) (a_bg e)) as [r|]; [|discriminate]. cbn [bind] in H. injection H as <-.
  destruct (tr_kx _) as [[? ?]|]; [reflexivity|contradiction].
Qed.

(** The conductivity stored in the end does not depend on the elements after one
    with a trend in x, nor on the trends of the whole model: their values reach the
    tensors only. *)
Theorem C56_nothing_more_stored_refuted : forall s co h g draw ae_draw an before e later later' t t' p p',
  tr_kx (a_trends e) <> None -> (exists c, In c (cells s) /\ g_ha g c = 0%Z /\ g_ae g c = a_num e) ->
  assign_parameters s co (with_trends h t) g draw ae_draw (mkSettings true Internal an) (before ++ e :: later) = Ok p ->
  assign_parameters s co (with_trends h t') g draw ae_draw (mkSettings true Internal an) (before ++ e :: later') = Ok p' ->
  p_stored_k p = p_stored_k p'.
Proof.
  intros s co h g draw ae_draw an before e later later' t t' p p' Hx (c & Hc & C1 & C2) H H'.
  assert (Hm : existsb (ae_mask g e) (cells s) = true).
  { apply existsb_exists. exists c. split; [exact Hc|]. unfold ae_mask. rewrite C1, C2, !Z.eqb_refl. reflexivity. }
  unfold assign_parameters in H, H'. cbn [s_het s_level] in H, H'.
  change (object_step s co (with_trends h t)) with (object_step s co h) in H.
  change (object_step s co (with_trends h t')) with (object_step s co h) in H'.
  change (element_step s co (with_trends h t)) with (element_step s co h) in H.
  change (element_step s co (with_trends h t')) with (element_step s co h) in H'.
  destruct (foldM (object_step _ _ _ _ _ _) _ _) as [q|]; [|discriminate]. cbn [bind] in H, H'.
  assert (S : forall m, combine (seq 0 (List.length (before ++ e :: m))) (before ++ e :: m) =
    combine (seq 0 (List.length before)) before ++ (List.length before, e) :: combine (seq (S (List.length before)) (List.length m)) m).
  { intros m. rewrite app_length, seq_app, combine_app by apply seq_length. reflexivity. }
  rewrite S, fold_app in H. rewrite S, fold_app in H'. clear S.
  destruct (foldM _ q _) as [q1|]; [|discriminate]. cbn [bind foldM] in H, H'.
  destruct (element_step s co h g ae_draw q1 (List.length before, e)) as [q2|] eqn:E; [|discriminate]. cbn [bind] in H, H'.
  apply element_parts in E; try assumption.
  assert (G : forall l tr r, (let* r := foldM (element_step s co h g ae_draw) q2 l in Ok (global_trends s (with_trends h tr) r)) = Ok r -> p_stored_k r = p_stored_k q2).
  { intros l tr r K. destruct (foldM _ q2 l) as [q3|] eqn:E3; [|discriminate]. cbn [bind] in K. injection K as <-.
    apply elements_keep in E3 as [K1 K2]; [|assumption]. rewrite <- K2. unfold global_trends. cbn [h_trends with_trends].
    destruct (tr_kz tr) as [[? ?]|], (tr_kx tr) as [[? ?]|], (tr_nz tr) as [[? ?]|], (tr_nx tr) as [[? ?]|]; cbn; rewrite ?K1; reflexivity. }
  rewrite (G _ _ _ H), (G _ _ _ H'). reflexivity.
Qed.
Print Assumptions C56_nothing_more_stored_refuted.

(** A model of one cell with and without a second element in this cell: it is
    accepted in both cases. *)
Example C56_nothing_more_example : exists p p',
  assign_parameters one line3 (two_facies no_trends None) (one_cell 0) quiet ae_quiet (mkSettings true Internal true)
    [plain 0 (mkTrends None (Some (2, 2)) None None); plain 1 no_trends] = Ok p /\
  assign_parameters one line3 (two_facies no_trends None) (one_cell 0) quiet ae_quiet (mkSettings true Internal true)
    [plain 0 (mkTrends None (Some (2, 2)) None None)] = Ok p' /\ p_stored_k p = p_stored_k p'.
Proof.
  assert (N : forall aes, (forall e, In e aes -> (0 <= a_bg e < 2)%Z) ->
    exists p, assign_parameters one line3 (two_facies no_trends None) (one_cell 0) quiet ae_quiet (mkSettings true Internal true) aes = Ok p).
  { intros aes Ha. apply C55_never_fails with (n := 2%nat); [apply two_complete|intros c _; cbn; lia|exact Ha]. }
  destruct (N [plain 0 (mkTrends None (Some (2, 2)) None None); plain 1 no_trends]) as (p & E).
  { intros e [<-|[<-|[]]]; cbn; lia. }
  destruct (N [plain 0 (mkTrends None (Some (2, 2)) None None)]) as (p' & E').
  { intros e [<-|[]]; cbn; lia. }
  exists p, p'. split; [exact E|]. split; [exact E'|].
  apply (C56_nothing_more_stored_refuted one line3 (two_facies no_trends None) (one_cell 0) quiet ae_quiet true []
    (plain 0 (mkTrends None (Some (2, 2)) None None)) [plain 1 no_trends] [] no_trends no_trends); try assumption; [discriminate|].
  exists (0, 0, 0)%nat. split; [apply in_cells; cbn; lia|]. split; reflexivity.
Qed.
