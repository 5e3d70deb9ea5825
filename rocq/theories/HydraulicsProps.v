(** Properties of hydraulic parameters. *)
From Coq Require Import List ZArith Bool Lia Reals Lra Psatz.
From Verif Require Import Base Num ArrayModel ArrayProofs TensorModel TensorSpec TensorProps SpecsimModel SpecsimSpec SpecsimProofs SpecsimProps HydraulicsModel HydraulicsSpec HydraulicsProofs.
Import ListNotations.
Local Open Scope R_scope.

(** ** C54: facies level *)
Theorem C54_facies_level s co h g draw ae_draw an aes p :
  assign_parameters s co h g draw ae_draw (mkSettings true FaciesLevel an) aes = Ok p ->
  forall c, In c (cells s) -> (0 <= g_fac g c)%Z ->
  listed (h_k h) (g_fac g c) (p_stored_k p c) /\ listed (h_n h) (g_fac g c) (p_stored_n p c) /\ listed (h_ratio h) (g_fac g c) (p_anirat p c).
Proof.
  unfold assign_parameters. cbn [s_het s_level]. intros H c Hc Hf.
  destruct (foldM _ _ _) as [q|] eqn:E; [|discriminate]. cbn [bind] in H. injection H as <-.
  apply objects_done in E as [(_ & Ek & _ & En) H]. specialize (H c Hc). unfold at_cell, cell_values in H. destruct H as (H1 & H2 & H3).
  rewrite Ek, En. repeat split; try assumption; apply pyget_listed; assumption.
Qed.
(** The current and the stored arrays agree, so that the tensors use the stored
    values. *)
Theorem C54_stored s co h g draw ae_draw an aes p :
  assign_parameters s co h g draw ae_draw (mkSettings true FaciesLevel an) aes = Ok p -> p_stored_k p = p_k p /\ p_stored_n p = p_n p.
Proof.
  unfold assign_parameters. cbn [s_het s_level]. intros H. destruct (foldM _ _ _) as [q|] eqn:E; [|discriminate]. cbn [bind] in H. injection H as <-.
  apply objects_done in E as [(_ & Ek & _ & En) _]. auto.
Qed.
(** It succeeds if every cell has a facies and the lists are complete. *)
Theorem C54_never_fails s co h g draw ae_draw an aes n : complete h n -> facies_ok s g n ->
  exists p, assign_parameters s co h g draw ae_draw (mkSettings true FaciesLevel an) aes = Ok p.
Proof.
  intros Hh Hf. unfold assign_parameters. cbn [s_het s_level].
  destruct (foldM_ok (object_step s co h g draw FaciesLevel) (pairs s g) initial) as (p & ->); [|cbn [bind]; eauto].
  intros p q Hq. eapply object_step_total; eauto.
Qed.
(** Cells without facies (-1) silently get the values of the last facies. *)
Theorem C54_unassigned_cells s co h g draw ae_draw an aes p c :
  assign_parameters s co h g draw ae_draw (mkSettings true FaciesLevel an) aes = Ok p ->
  In c (cells s) -> g_fac g c = (-1)%Z -> exists k, h_k h = (removelast (h_k h) ++ [k])%list /\ p_stored_k p c = k.
Proof.
  unfold assign_parameters. cbn [s_het s_level]. intros H Hc Hf. destruct (foldM _ _ _) as [q|] eqn:E; [|discriminate]. cbn [bind] in H. injection H as <-.
  apply objects_done in E as [(_ & Ek & _ & En) H]. specialize (H c Hc). unfold at_cell, cell_values in H. destruct H as (_ & H2 & _).
  rewrite Hf in H2. rewrite Ek. unfold pyget, pyidx in H2. 
  destruct (exists_last (l := h_k h)) as (l & x & El); [intros E0; rewrite E0 in H2; discriminate|]. rewrite El in H2 |- *.
  rewrite app_length in H2. cbn [List.length] in H2.
  assert (E1 : ((0 <=? -1)%Z && (-1 <? Z.of_nat (List.length l + 1))%Z)%bool = false) by reflexivity. rewrite E1 in H2.
  destruct (Z.leb_spec (- Z.of_nat (List.length l + 1)) (-1)); [|lia]. cbn [andb Z.ltb Z.compare] in H2.
  replace (Z.to_nat (-1 + Z.of_nat (List.length l + 1))) with (List.length l) in H2 by lia.
  rewrite nth_error_app2, Nat.sub_diag in H2 by lia. cbn in H2. injection H2 as <-. exists x. rewrite removelast_last. auto.
Qed.

(** ** C55: internal heterogeneity uses the facies of the cell

    True for all cells that are not part of the first object. *)
Lemma element_loop_ratio s co h g ae_draw l p p' : foldM (element_step s co h g ae_draw) p l = Ok p' ->
  forall c, g_ha g c <> 0%Z -> p_anirat p' c = p_anirat p c.
Proof.
  revert p. induction l as [|ie l IH]; intros p H c Hc; cbn [foldM] in H; [injection H as <-; reflexivity|].
  destruct (element_step s co h g ae_draw p ie) as [p1|] eqn:E; [|discriminate]. cbn [bind] in H. rewrite (IH _ H c Hc).
  apply element_step_ratio with (c := c) in E as [E _]. apply E. unfold ae_mask. destruct (Z.eqb_spec (g_ha g c) 0); [contradiction|reflexivity].
Qed.
Lemma global_ratio s h p : p_anirat (global_trends s h p) = p_anirat p.
Proof.
  unfold global_trends. destruct (tr_kz _) as [[? ?]|], (tr_kx _) as [[? ?]|], (tr_nz _) as [[? ?]|], (tr_nx _) as [[? ?]|]; reflexivity.
Qed.

Theorem C55_ratio_partial s co h g draw ae_draw an aes p :
  assign_parameters s co h g draw ae_draw (mkSettings true Internal an) aes = Ok p ->
  forall c, In c (cells s) -> (0 <= g_fac g c)%Z -> g_ha g c <> 0%Z -> listed (h_ratio h) (g_fac g c) (p_anirat p c).
Proof.
  unfold assign_parameters. cbn [s_het s_level]. intros H c Hc Hf Hha.
  destruct (foldM (object_step _ _ _ _ _ _) _ _) as [q|] eqn:E; [|discriminate]. cbn [bind] in H.
  destruct (foldM (element_step _ _ _ _ _) _ _) as [q2|] eqn:E2; [|discriminate]. cbn [bind] in H. injection H as <-.
  rewrite global_ratio, (element_loop_ratio _ _ _ _ _ _ _ _ E2 c Hha).
  apply objects_done in E as [_ H]. destruct (H c Hc) as [H1 _]. now apply pyget_listed.
Qed.

(** In the cells of the first object of an element it is that of the
    background. *)
Theorem C55_first_object s co h g draw ae_draw an aes p e :
  assign_parameters s co h g draw ae_draw (mkSettings true Internal an) aes = Ok p ->
  In e aes -> (forall e', In e' aes -> a_num e' = a_num e -> e' = e) -> (0 <= a_bg e)%Z ->
  forall c, In c (cells s) -> g_ha g c = 0%Z -> g_ae g c = a_num e -> listed (h_ratio h) (a_bg e) (p_anirat p c).
Proof.
  unfold assign_parameters. cbn [s_het s_level]. intros H He Hu Hb c Hc Hha Hae.
  destruct (foldM (object_step _ _ _ _ _ _) _ _) as [q|] eqn:E; [|discriminate]. cbn [bind] in H.
  destruct (foldM (element_step _ _ _ _ _) _ _) as [q2|] eqn:E2; [|discriminate]. cbn [bind] in H. injection H as <-.
  rewrite global_ratio. apply pyget_listed; [assumption|]. clear E.
  assert (G : forall l p p', foldM (element_step s co h g ae_draw) p l = Ok p' -> incl (map snd l) aes ->
     In e (map snd l) \/ pyget (h_ratio h) (a_bg e) = Ok (p_anirat p c) -> pyget (h_ratio h) (a_bg e) = Ok (p_anirat p' c)).
  { clear q q2 E2. induction l as [|ie l IH]; intros p p' H Hi Hor; cbn [foldM] in H.
    - injection H as <-. destruct Hor as [[]|?]. assumption.
    - destruct (element_step s co h g ae_draw p ie) as [p1|] eqn:E; [|discriminate]. cbn [bind] in H. apply (IH _ _ H).
      + intros x Hx. apply Hi. now right.
      + apply element_step_ratio with (c := c) in E as [E1 E2]. unfold ae_mask in E1, E2. rewrite Hha, Hae in E1, E2. cbn [Z.eqb andb] in E1, E2.
        destruct (Z.eqb_spec (a_num e) (a_num (snd ie))) as [En|En].
        * right. assert (snd ie = e) as Ee by (apply Hu; [apply Hi; now left|auto]). rewrite Ee in E2. apply E2; [assumption|].
          reflexivity.
        * rewrite E1 by reflexivity. destruct Hor as [[Hq|Hq]|Hq]; auto. congruence. }
  eapply G; [exact E2| |].
  - intros x Hx. apply in_map_iff in Hx as ([i y] & <- & Hx). now apply in_combine_r in Hx.
  - left. apply in_map_iff. destruct (In_nth_error _ _ He) as (k & Hk). exists (k, e). split; [reflexivity|].
    assert (Hlen : (k < List.length aes)%nat) by (apply nth_error_Some; congruence).
    apply nth_error_In with k.
    assert (K : forall (l : list element) b j, nth_error l j = Some e -> nth_error (combine (seq b (List.length l)) l) j = Some ((b + j)%nat, e)).
    { clear. induction l as [|x l IH]; intros b [|j] H; cbn in H |- *; try discriminate; [injection H as ->; do 2 f_equal; lia|].
      rewrite IH by assumption. do 2 f_equal. lia. }
    exact (K aes 0%nat k Hk).
Qed.

(** The property is false: a model of one cell, which is part of the first
    object and has facies 1, in an element with background facies 0. *)
Definition one : shape := (1, 1, 1)%nat.
Definition line3 : coords := mkCoords INR INR INR.
Definition two_facies (t : trends) (old : option nat) : hydro :=
  mkHydro [1; 2] [1; 10] [/ 4; / 5] [1; 1] [1; 1] [(1, 1, 1); (1, 1, 1)] [(1, 1, 1); (1, 1, 1)] t old.
Definition one_cell (fac : Z) : geology := mkGeology (fun _ => 0%Z) (fun _ => fac) (fun _ => 0%Z) (fun _ => 0) (fun _ => 0).
Definition quiet : Z -> Z -> bool -> noise := fun _ _ _ => mkNoise (fun _ => 1) (fun _ => 0).
Definition ae_quiet : nat -> bool -> noise := fun _ _ => mkNoise (fun _ => 1) (fun _ => 0).
Definition plain (bg : Z) (t : trends) : element := mkElement 0 bg t.

Lemma two_complete t old : complete (two_facies t old) 2.
Proof. repeat split. Qed.

(** It succeeds for all models in which every cell has a facies. *)
Theorem C55_never_fails s co h g draw ae_draw an aes n : complete h n -> facies_ok s g n ->
  (forall e, In e aes -> (0 <= a_bg e < Z.of_nat n)%Z) ->
  exists p, assign_parameters s co h g draw ae_draw (mkSettings true Internal an) aes = Ok p.
Proof.
  intros Hh Hf Hb. unfold assign_parameters. cbn [s_het s_level].
  destruct (foldM_ok (object_step s co h g draw Internal) (pairs s g) initial) as (p & ->).
  { intros p q Hq. eapply object_step_total; eauto. }
  cbn [bind]. destruct (foldM_ok (element_step s co h g ae_draw) (combine (seq 0 (List.length aes)) aes) p) as (p2 & ->); [|cbn [bind]; eauto].
  intros p2 [i e] He. eapply element_step_total; eauto. cbn [snd]. apply Hb. now apply in_combine_r in He.
Qed.

Theorem C55_ratio_refuted : exists p,
  assign_parameters one line3 (two_facies no_trends None) (one_cell 1) quiet ae_quiet (mkSettings true Internal true) [plain 0 no_trends] = Ok p /\
  In (0, 0, 0)%nat (cells one) /\ listed (h_ratio (two_facies no_trends None)) 1 10 /\ p_anirat p (0, 0, 0)%nat = 1.
Proof.
  destruct (C55_never_fails one line3 (two_facies no_trends None) (one_cell 1) quiet ae_quiet true [plain 0 no_trends] 2) as (p & H).
  - apply two_complete.
  - intros c _. cbn. lia.
  - intros e [<-|[]]. cbn. lia.
  - exists p. split; [exact H|]. split; [apply in_cells; cbn; lia|]. split; [split; [lia|reflexivity]|].
    destruct (C55_first_object _ _ _ _ _ _ _ _ _ (plain 0 no_trends) H) with (c := (0, 0, 0)%nat) as [_ E].
    + now left.
    + intros e' [<-|[]] _. reflexivity.
    + cbn. lia.
    + apply in_cells. cbn. lia.
    + reflexivity.
    + reflexivity.
    + cbn in E. congruence.
Qed.

(** ** C58: positive conductivities *)
Theorem C58_positive s co h g draw ae_draw st aes p n :
  assign_parameters s co h g draw ae_draw st aes = Ok p -> s_level st <> OtherLevel -> facies_ok s g n -> 
  (s_het st = false -> h_hydro h = Some n) ->
  Forall (fun k => 0 < k) (h_k h) -> positive_trends (h_trends h) -> (forall e, In e aes -> positive_trends (a_trends e)) ->
  forall c, In c (cells s) -> 0 < p_k p c /\ 0 < p_stored_k p c.
Proof.
  intros H Hl Hf Hn Hk [Ht1 Ht2] Ha.
  assert (Kpos : forall f k, pyget (h_k h) f = Ok k -> 0 < k).
  { intros f k Ek. unfold pyget in Ek. destruct (pyidx _ _); [|discriminate]. destruct (nth_error _ _) eqn:En; [|discriminate]. injection Ek as <-.
    rewrite Forall_forall in Hk. apply Hk. eapply nth_error_In; eauto. }
  unfold assign_parameters in H. destruct (s_het st).
  - destruct (foldM (object_step _ _ _ _ _ _) _ _) as [q|] eqn:E; [|discriminate]. cbn [bind] in H. apply objects_done in E as [(_ & Ek & _) E].
    assert (Hq : positive s q).
    { intros c Hc. rewrite Ek. specialize (E c Hc). unfold at_cell, cell_values in E. destruct E as [_ E]. destruct (s_level st); [| |congruence].
      - destruct E as [(k0 & u & E1 & ->) _]. specialize (Kpos _ _ E1). assert (0 < exp u * k0) by (apply Rmult_lt_0_compat; [apply exp_pos|assumption]). auto.
      - destruct E as [E _]. specialize (Kpos _ _ E). auto. }
    destruct (s_level st); [|injection H as <-; exact Hq|injection H as <-; exact Hq].
    destruct (foldM (element_step _ _ _ _ _) _ _) as [q2|] eqn:E2; [|discriminate]. cbn [bind] in H. injection H as <-.
    assert (Hq2 : positive s q2).
    { assert (Hin : forall ie, In ie (combine (seq 0 (List.length aes)) aes) -> positive_trends (a_trends (snd ie))).
      { intros [i e] Hie. apply Ha. now apply in_combine_r in Hie. }
      revert q E2 Hq Hin Ek E. generalize (combine (seq 0 (List.length aes)) aes). induction l as [|ie l IH]; intros q E2 Hq Hin Ek E; cbn [foldM] in E2; [injection E2 as <-; assumption|].
      destruct (element_step s co h g ae_draw q ie) as [q1|] eqn:E1; [|discriminate]. cbn [bind] in E2.
      assert (Hq1 : positive s q1) by (eapply positive_element; eauto; apply Hin; now left).
      clear IH E Ek. revert q1 E2 Hq1 E1. intros q1 E2 Hq1 _. assert (Hin' : forall ie, In ie l -> positive_trends (a_trends (snd ie))) by (intros; apply Hin; now right).
      clear Hin. revert q1 E2 Hq1. induction l as [|ie' l IH]; intros q1 E2 Hq1; cbn [foldM] in E2; [injection E2 as <-; assumption|].
      destruct (element_step s co h g ae_draw q1 ie') as [q3|] eqn:E3; [|discriminate]. cbn [bind] in E2. eapply IH; eauto.
      - intros; apply Hin'; now right.
      - eapply positive_element; eauto. apply Hin'; now left. }
    unfold global_trends. intros c Hc.
    assert (Hg : positive s (k_xtrend s (tr_kx (h_trends h)) (k_ztrend s (tr_kz (h_trends h)) q2))) by (now apply positive_xtrend, positive_ztrend).
    specialize (Hg c Hc). destruct (tr_nz _) as [[? ?]|], (tr_nx _) as [[? ?]|]; exact Hg.
  - rewrite (Hn eq_refl) in H.
    assert (G : forall m b q p, foldM (homogeneous_step h g) q (seq b m) = Ok p -> p_k_shared q = true -> p_stored_k q = p_k q ->
       p_stored_k p = p_k p /\
       (forall c, (exists i, (b <= i < b + m)%nat /\ g_fac g c = Z.of_nat i) \/ 0 < p_k q c -> 0 < p_k p c)).
    { clear H. induction m as [|m IH]; intros b q p' H Hs Es; cbn [seq foldM] in H.
      - injection H as <-. split; [assumption|]. intros c [(i & Hi & _)|?]; [lia|assumption].
      - unfold homogeneous_step in H at 1.
        destruct (pyget (h_k h) (Z.of_nat b)) as [k|] eqn:Ek; [|discriminate]. cbn [bind] in H.
        destruct (pyget (h_n h) (Z.of_nat b)) as [nn|] eqn:En; [|discriminate]. cbn [bind] in H.
        destruct (pyget (h_ratio h) (Z.of_nat b)) as [r|] eqn:Er; [|discriminate]. cbn [bind] in H.
        destruct (IH _ _ _ H) as [G1 G2]; [cbn; assumption|cbn; now rewrite Hs|]. split; [assumption|]. intros c Hc. apply G2. cbn. unfold fill.
        specialize (Kpos _ _ Ek). destruct (Z.eqb_spec (g_fac g c) (Z.of_nat b)) as [Eb|Eb]; [right; assumption|].
        destruct Hc as [(i & Hi & Ei)|Hc]; [|right; assumption]. left. exists i. split; [|assumption].
        destruct (Nat.eq_dec i b); [subst; contradiction|lia]. }
    destruct (G _ _ _ _ H eq_refl eq_refl) as [G1 G2]. intros c Hc. rewrite G1.
    assert (0 < p_k p c); [|auto]. apply G2. left. specialize (Hf c Hc). exists (Z.to_nat (g_fac g c)). lia.
Qed.
