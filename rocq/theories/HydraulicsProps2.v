(** Properties of hydraulic parameters: trends, homogeneous models, settings
    that are ignored, porosity. *)
From Coq Require Import List ZArith Bool Lia Reals Lra Psatz.
From Verif Require Import Base Num ArrayModel ArrayProofs TensorModel TensorSpec TensorProps SpecsimModel SpecsimSpec SpecsimProofs SpecsimProps HydraulicsModel HydraulicsSpec HydraulicsProofs HydraulicsProps.
Import ListNotations.
Local Open Scope R_scope.

(** ** C56: trends are stored

    False for trends in x: the stored arrays are the same as without them,
    while the arrays used for the tensors contain the factor. *)
Theorem C56_xtrend_not_stored_refuted s co h g draw ae_draw an aes kz kx nz nx p :
  assign_parameters s co (with_trends h (mkTrends kz (Some kx) nz (Some nx))) g draw ae_draw (mkSettings true Internal an) aes = Ok p ->
  exists p0, assign_parameters s co (with_trends h (mkTrends kz None nz None)) g draw ae_draw (mkSettings true Internal an) aes = Ok p0 /\
    p_stored_k p = p_stored_k p0 /\ p_stored_n p = p_stored_n p0 /\
    exists fk fn, linear_factor (fst kx) (snd kx) (cx s) fk /\ linear_factor (fst nx) (snd nx) (cx s) fn /\
    forall c, p_k p c = p_k p0 c * fk (cx c) /\ p_n p c = p_n p0 c * fn (cx c).
Proof.
  unfold assign_parameters. cbn [s_het s_level].
  change (object_step s co (with_trends h (mkTrends kz (Some kx) nz (Some nx)))) with (object_step s co h).
  change (object_step s co (with_trends h (mkTrends kz None nz None))) with (object_step s co h).
  destruct (foldM (object_step _ _ _ _ _ _) _ _) as [q|] eqn:E; [|discriminate]. cbn [bind].
  change (element_step s co (with_trends h (mkTrends kz (Some kx) nz (Some nx)))) with (element_step s co h).
  change (element_step s co (with_trends h (mkTrends kz None nz None))) with (element_step s co h).
  destruct (foldM (element_step _ _ _ _ _) _ _) as [q2|] eqn:E2; [|discriminate]. cbn [bind]. intros [= <-].
  eexists. split; [reflexivity|]. destruct kx as [a b], nx as [a' b'].
  split; [|split].
  - unfold global_trends. cbn [with_trends h_trends tr_kz tr_kx tr_nz tr_nx]. destruct nz as [[? ?]|]; reflexivity.
  - unfold global_trends. cbn [with_trends h_trends tr_kz tr_kx tr_nz tr_nx]. destruct kz as [[? ?]|], nz as [[? ?]|]; reflexivity.
  - exists (linspace a b (cx s)), (linspace a' b' (cx s)). cbn [fst snd]. split; [apply linspace_factor|]. split; [apply linspace_factor|].
    intros c. unfold global_trends. cbn [with_trends h_trends tr_kz tr_kx tr_nz tr_nx]. destruct kz as [[? ?]|], nz as [[? ?]|]; split; reflexivity.
Qed.
(** A model in which the stored conductivity lacks the factor. *)
Theorem C56_xtrend_refuted : exists p,
  assign_parameters one line3 (two_facies (mkTrends None (Some (2, 2)) None (Some (1, 1))) None) (one_cell 0) quiet ae_quiet (mkSettings true Internal true) [] = Ok p /\
  0 < p_stored_k p (0, 0, 0)%nat /\ p_k p (0, 0, 0)%nat = 2 * p_stored_k p (0, 0, 0)%nat.
Proof.
  destruct (C55_never_fails one line3 (two_facies (mkTrends None (Some (2, 2)) None (Some (1, 1))) None) (one_cell 0) quiet ae_quiet true [] 2) as (p & H).
  - apply two_complete.
  - intros c _. cbn. lia.
  - intros e [].
  - exists p. split; [exact H|]. assert (Hc : In (0, 0, 0)%nat (cells one)) by (apply in_cells; cbn; lia).
    assert (P : 0 < p_k p (0, 0, 0)%nat /\ 0 < p_stored_k p (0, 0, 0)%nat).
    { apply (C58_positive _ _ _ _ _ _ _ _ _ 2 H); try assumption; cbn; try discriminate.
      - intros c _. cbn. lia.
      - repeat constructor; lra.
      - cbn. split; cbn; lra.
      - intros e []. }
    split; [apply P|].
    change (two_facies (mkTrends None (Some (2, 2)) None (Some (1, 1))) None) with (with_trends (two_facies no_trends None) (mkTrends None (Some (2, 2)) None (Some (1, 1)))) in H.
    pose proof (C56_xtrend_not_stored_refuted _ _ _ _ _ _ _ _ _ _ _ _ _ H) as (p0 & H0 & Es & _ & fk & fn & (F1 & _) & _ & F).
    destruct (F (0, 0, 0)%nat) as [F2 _]. cbn [cx fst snd] in F2. rewrite F2, F1, Es. cbn [fst].
    unfold assign_parameters in H0. cbn [s_het s_level] in H0. destruct (foldM _ _ _) as [q|] eqn:E; [|discriminate]. cbn [bind] in H0.
    apply objects_done in E as [(_ & Ek & _) _]. cbn in H0. injection H0 as <-. rewrite Ek. ring.
Qed.
(** True for trends in z, if no element has a trend in x. *)
Definition no_xtrend (e : element) : Prop := tr_kx (a_trends e) = None.
Lemma element_shared s co h g ae_draw p ie p' : element_step s co h g ae_draw p ie = Ok p' -> no_xtrend (snd ie) -> shared p -> shared p'.
Proof.
  destruct ie as [i e]. unfold element_step, no_xtrend. cbn [snd]. intros H Hx Hs. rewrite Hx in H. clear Hx. destruct (existsb _ _); [|now injection H as <-].
  destruct (internal_k _ _ _ _ _ _ p) as [p1|] eqn:E1; [|discriminate]. cbn [bind] in H.
  destruct (internal_n _ _ _ _ _ _ p1) as [p2|] eqn:E2; [|discriminate]. cbn [bind] in H.
  destruct (pyget (h_ratio h) (a_bg e)) as [r|]; [|discriminate]. cbn [bind] in H. injection H as <-.
  apply internal_k_spec in E1 as (k & a & _ & -> & _). apply internal_n_spec in E2 as (n & b & _ & -> & _).
  cbn [k_xtrend]. assert (K : shared (change_ratio (change_n (change_k p a) b) (fill (ae_mask g e) r (p_anirat p)))) by (now apply shared_ratio, shared_n, shared_k).
  destruct (tr_kz _) as [[? ?]|]; [now apply shared_k|exact K].
Qed.
Lemma elements_shared s co h g ae_draw l p p' : foldM (element_step s co h g ae_draw) p l = Ok p' -> Forall (fun ie => no_xtrend (snd ie)) l -> shared p -> shared p'.
Proof.
  revert p. induction l as [|ie l IH]; intros p H Hl Hs; cbn [foldM] in H; [injection H as <-; assumption|].
  destruct (element_step s co h g ae_draw p ie) as [p1|] eqn:E; [|discriminate]. cbn [bind] in H. inversion_clear Hl.
  eapply IH; eauto. eapply element_shared; eauto.
Qed.
Theorem C56_ztrend_stored_partial s co h g draw ae_draw an aes kz nz p :
  assign_parameters s co (with_trends h (mkTrends (Some kz) None (Some nz) None)) g draw ae_draw (mkSettings true Internal an) aes = Ok p ->
  Forall no_xtrend aes ->
  exists p0, assign_parameters s co (with_trends h no_trends) g draw ae_draw (mkSettings true Internal an) aes = Ok p0 /\
    exists fk fn, linear_factor (fst kz) (snd kz) (cz s) fk /\ linear_factor (fst nz) (snd nz) (cz s) fn /\
    forall c, p_stored_k p c = p_stored_k p0 c * fk (cz c) /\ p_stored_n p c = p_stored_n p0 c * fn (cz c) /\
              p_k p c = p_stored_k p c /\ p_n p c = p_stored_n p c.
Proof.
  unfold assign_parameters. cbn [s_het s_level]. intros H Hx.
  change (object_step s co (with_trends h (mkTrends (Some kz) None (Some nz) None))) with (object_step s co h) in H.
  change (object_step s co (with_trends h no_trends)) with (object_step s co h).
  destruct (foldM (object_step _ _ _ _ _ _) _ _) as [q|] eqn:E; [|discriminate]. cbn [bind] in H |- *.
  change (element_step s co (with_trends h (mkTrends (Some kz) None (Some nz) None))) with (element_step s co h) in H.
  change (element_step s co (with_trends h no_trends)) with (element_step s co h).
  destruct (foldM (element_step _ _ _ _ _) _ _) as [q2|] eqn:E2; [|discriminate]. cbn [bind] in H |- *. injection H as <-.
  apply objects_done in E as [Hs _].
  apply elements_shared in E2; [|apply Forall_forall; intros [i e] He; cbn; rewrite Forall_forall in Hx; apply Hx; now apply in_combine_r in He|assumption].
  destruct E2 as (S1 & S2 & S3 & S4).
  eexists. split; [reflexivity|]. destruct kz as [a b], nz as [a' b'].
  exists (linspace a b (cz s)), (linspace a' b' (cz s)). split; [apply linspace_factor|]. split; [apply linspace_factor|].
  intros c. unfold global_trends. cbn. rewrite S1, S2, S3, S4. auto.
Qed.

(** ** C57: homogeneous models

    False for the current format: the key 'hydro' does not exist. *)
Theorem C57_key_error_refuted s co h g draw ae_draw lv an aes : h_hydro h = None ->
  assign_parameters s co h g draw ae_draw (mkSettings false lv an) aes = Err KeyError.
Proof. intros H. unfold assign_parameters. cbn [s_het]. now rewrite H. Qed.

(** True for the old format. *)
Lemma homogeneous_loop h g m b q p : foldM (homogeneous_step h g) q (seq b m) = Ok p -> shared q ->
  shared p /\ forall c, let f := g_fac g c in
    ((exists i, (b <= i < b + m)%nat /\ f = Z.of_nat i) \/ (pyget (h_k h) f = Ok (p_k q c) /\ pyget (h_n h) f = Ok (p_n q c) /\ pyget (h_ratio h) f = Ok (p_anirat q c))) ->
    pyget (h_k h) f = Ok (p_k p c) /\ pyget (h_n h) f = Ok (p_n p c) /\ pyget (h_ratio h) f = Ok (p_anirat p c).
Proof.
  revert b q. induction m as [|m IH]; intros b q H Hs; cbn [seq foldM] in H.
  - injection H as <-. split; [assumption|]. intros c f [(i & Hi & _)|?]; [lia|assumption].
  - unfold homogeneous_step in H at 1.
    destruct (pyget (h_k h) (Z.of_nat b)) as [k|] eqn:Ek; [|discriminate]. cbn [bind] in H.
    destruct (pyget (h_n h) (Z.of_nat b)) as [nn|] eqn:En; [|discriminate]. cbn [bind] in H.
    destruct (pyget (h_ratio h) (Z.of_nat b)) as [r|] eqn:Er; [|discriminate]. cbn [bind] in H.
    destruct (IH _ _ H) as [G1 G2]; [now apply shared_ratio, shared_n, shared_k|]. split; [assumption|]. intros c f Hc. apply G2. cbn. unfold fill.
    destruct (Z.eqb_spec (g_fac g c) (Z.of_nat b)) as [Eb|Eb]; [right; rewrite Eb; auto|].
    destruct Hc as [(i & Hi & Ei)|Hc]; [|right; assumption]. left. exists i. split; [|assumption].
    destruct (Nat.eq_dec i b); [subst; contradiction|lia].
Qed.
Theorem C57_homogeneous_partial s co h g draw ae_draw lv an aes n p : h_hydro h = Some n -> facies_ok s g n ->
  assign_parameters s co h g draw ae_draw (mkSettings false lv an) aes = Ok p ->
  forall c, In c (cells s) ->
  listed (h_k h) (g_fac g c) (p_stored_k p c) /\ listed (h_n h) (g_fac g c) (p_stored_n p c) /\ listed (h_ratio h) (g_fac g c) (p_anirat p c).
Proof.
  intros Hn Hf H c Hc. unfold assign_parameters in H. cbn [s_het] in H. rewrite Hn in H.
  apply homogeneous_loop in H as [(_ & Ek & _ & En) H]; [|exact initial_shared]. rewrite Ek, En. specialize (Hf c Hc).
  destruct (H c) as (H1 & H2 & H3); [left; exists (Z.to_nat (g_fac g c)); lia|].
  repeat split; try lia; apply pyget_listed; auto; lia.
Qed.

(** ** C83: the trend of an element changes the cells of this element

    False: it is applied to the whole grid, and only if the element contains
    the first object. *)
Definition without_trends (e : element) : element := mkElement (a_num e) (a_bg e) no_trends.
Definition has_first_object (s : shape) (g : geology) (e : element) : Prop :=
  exists c, In c (cells s) /\ g_ha g c = 0%Z /\ g_ae g c = a_num e.
(** The factor of a trend. *)
Definition is_factor (t : option (R * R)) (n : nat) (f : nat -> R) : Prop :=
  match t with Some (a, b) => linear_factor a b n f | None => forall i, f i = 1 end.

Lemma no_object_step s co h g ae_draw p i e : ~ has_first_object s g e -> element_step s co h g ae_draw p (i, e) = Ok p.
Proof.
  intros H. unfold element_step. destruct (existsb _ _) eqn:E; [|reflexivity]. exfalso. apply H. apply existsb_exists in E as (c & Hc & Hm).
  exists c. split; [assumption|]. unfold ae_mask in Hm. apply andb_true_iff in Hm as [H1 H2]. apply Z.eqb_eq in H1, H2. auto.
Qed.
Definition trend_of (s : shape) (t : option (R * R)) (n : nat) (i : nat) : R := match t with Some (a, b) => linspace a b n i | None => 1 end.
Lemma trend_of_factor s t n : is_factor t n (trend_of s t n).
Proof. destruct t as [[a b]|]; cbn; [apply linspace_factor|reflexivity]. Qed.

Lemma with_object_step s co h g ae_draw p i e p' : element_step s co h g ae_draw p (i, e) = Ok p' -> has_first_object s g e ->
  exists p0, element_step s co h g ae_draw p (i, without_trends e) = Ok p0 /\
    forall c, p_k p' c = p_k p0 c * trend_of s (tr_kz (a_trends e)) (cz s) (cz c) * trend_of s (tr_kx (a_trends e)) (cx s) (cx c).
Proof.
  intros H (c0 & Hc0 & Hh & Ha). unfold element_step in H |- *. change (ae_mask g (without_trends e)) with (ae_mask g e).
  assert (Ex : existsb (ae_mask g e) (cells s) = true).
  { apply existsb_exists. exists c0. split; [assumption|]. unfold ae_mask. rewrite Hh, Ha, !Z.eqb_refl. reflexivity. }
  rewrite Ex in H |- *. cbn [without_trends a_bg].
  destruct (internal_k _ _ _ _ _ _ p) as [p1|] eqn:E1; [|discriminate]. cbn [bind] in H |- *.
  destruct (internal_n _ _ _ _ _ _ p1) as [p2|] eqn:E2; [|discriminate]. cbn [bind] in H |- *.
  destruct (pyget (h_ratio h) (a_bg e)) as [r|]; [|discriminate]. cbn [bind] in H |- *. injection H as <-.
  eexists. split; [reflexivity|]. intros c. cbn [a_trends no_trends tr_kz tr_kx k_xtrend k_ztrend].
  destruct (tr_kz (a_trends e)) as [[a b]|], (tr_kx (a_trends e)) as [[a' b']|]; cbn; ring.
Qed.
Lemma skip_steps s co h g ae_draw l p : (forall ie, In ie l -> ~ has_first_object s g (snd ie)) -> foldM (element_step s co h g ae_draw) p l = Ok p.
Proof.
  induction l as [|[i e] l IH]; intros H; cbn [foldM]; [reflexivity|]. rewrite no_object_step by (apply (H (i, e)); now left). cbn [bind].
  apply IH. intros; apply H. now right.
Qed.
Lemma foldM_app {A S} (f : S -> A -> res S) l1 l2 x : foldM f x (l1 ++ l2) = (let* y := foldM f x l1 in foldM f y l2).
Proof. revert x. induction l1 as [|a l1 IH]; intros x; cbn [app foldM]; [reflexivity|]. destruct (f x a); cbn [bind]; [apply IH|reflexivity]. Qed.
Lemma combine_app' {A B} (l1 l2 : list A) (r1 r2 : list B) : List.length l1 = List.length r1 -> combine (l1 ++ l2) (r1 ++ r2) = (combine l1 r1 ++ combine l2 r2)%list.
Proof. revert r1. induction l1 as [|x l1 IH]; intros [|y r1] H; cbn in *; try lia; [reflexivity|]. now rewrite IH by lia. Qed.

(** [e] is the element with the first object; the others have other cells. *)
Theorem C83_whole_grid_refuted s co h g draw ae_draw an pre e post p :
  assign_parameters s co h g draw ae_draw (mkSettings true Internal an) (pre ++ e :: post) = Ok p ->
  has_first_object s g e -> (forall e', In e' (pre ++ post) -> ~ has_first_object s g e') ->
  exists p0, assign_parameters s co h g draw ae_draw (mkSettings true Internal an) (map without_trends (pre ++ e :: post)) = Ok p0 /\
    exists fz fx, is_factor (tr_kz (a_trends e)) (cz s) fz /\ is_factor (tr_kx (a_trends e)) (cx s) fx /\
    forall c, p_k p c = p_k p0 c * fz (cz c) * fx (cx c).
Proof.
  intros H He Ho. unfold assign_parameters in H |- *. cbn [s_het s_level] in H |- *.
  destruct (foldM (object_step _ _ _ _ _ _) _ _) as [q|] eqn:E; [|discriminate]. cbn [bind] in H |- *.
  assert (Sk : forall b m l q, List.length l = m -> (forall e', In e' l -> ~ has_first_object s g e') -> foldM (element_step s co h g ae_draw) q (combine (seq b m) l) = Ok q).
  { intros b m l q0 _ Hl. apply skip_steps. intros [i e'] Hie. apply Hl. now apply in_combine_r in Hie. }
  rewrite map_app. cbn [map]. rewrite !app_length in *. cbn [List.length] in *. rewrite !map_length in *.
  rewrite !seq_app, !combine_app' in * by (now rewrite seq_length, ?map_length). cbn [seq combine] in *. rewrite foldM_app in H |- *.
  assert (Ho' : forall l, (forall e', In e' l -> ~ has_first_object s g e') -> forall e', In e' (map without_trends l) -> ~ has_first_object s g e').
  { intros l Hl e' Hin. apply in_map_iff in Hin as (e2 & <- & Hin). exact (Hl _ Hin). }
  assert (Hpre : forall e', In e' pre -> ~ has_first_object s g e') by (intros; apply Ho, in_app_iff; auto).
  assert (Hpost : forall e', In e' post -> ~ has_first_object s g e') by (intros; apply Ho, in_app_iff; auto).
  rewrite Sk in H by auto. rewrite Sk by (rewrite ?map_length; auto; intros e' Hin; now apply (Ho' pre Hpre)). cbn [bind foldM] in H |- *.
  destruct (element_step s co h g ae_draw q _) as [q1|] eqn:E1; [|discriminate]. cbn [bind] in H.
  destruct (with_object_step _ _ _ _ _ _ _ _ _ E1 He) as (q0 & E0 & F). rewrite E0. cbn [bind].
  rewrite Sk in H by auto. rewrite Sk by (rewrite ?map_length; auto; intros e' Hin; now apply (Ho' post Hpost)). cbn [bind] in H |- *. injection H as <-.
  eexists. split; [reflexivity|]. exists (trend_of s (tr_kz (a_trends e)) (cz s)), (trend_of s (tr_kx (a_trends e)) (cx s)).
  split; [apply trend_of_factor|]. split; [apply trend_of_factor|]. intros c. unfold global_trends.
  destruct (tr_kz (h_trends h)) as [[? ?]|], (tr_kx (h_trends h)) as [[? ?]|], (tr_nz (h_trends h)) as [[? ?]|], (tr_nx (h_trends h)) as [[? ?]|]; cbn; rewrite F; ring.
Qed.

(** ** C84: trends are applied at every level of heterogeneity

    False: they are ignored unless the level is 'internal'. *)
Theorem C84_trends_ignored_refuted s co h g draw ae_draw het lv an aes aes' t : (het = true -> lv <> Internal) ->
  assign_parameters s co (with_trends h t) g draw ae_draw (mkSettings het lv an) aes =
  assign_parameters s co h g draw ae_draw (mkSettings het lv an) aes'.
Proof. intros H. destruct het; [|reflexivity]. destruct lv; [now destruct H|reflexivity|reflexivity]. Qed.

(** ** C85: the porosity trends of an element are applied

    False: they are never used. *)
Definition with_n_trends (nz nx : option (R * R)) (e : element) : element :=
  mkElement (a_num e) (a_bg e) (mkTrends (tr_kz (a_trends e)) (tr_kx (a_trends e)) nz nx).
Theorem C85_porosity_trends_refuted s co h g draw ae_draw st aes nz nx :
  assign_parameters s co h g draw ae_draw st (map (with_n_trends nz nx) aes) = assign_parameters s co h g draw ae_draw st aes.
Proof.
  unfold assign_parameters. destruct (s_het st); [|reflexivity]. destruct (foldM (object_step _ _ _ _ _ _) _ _) as [q|]; [|reflexivity]. cbn [bind].
  destruct (s_level st); [|reflexivity|reflexivity]. rewrite map_length.
  assert (G : forall l b q, foldM (element_step s co h g ae_draw) q (combine (seq b (List.length l)) (map (with_n_trends nz nx) l)) =
                            foldM (element_step s co h g ae_draw) q (combine (seq b (List.length l)) l)).
  { induction l as [|e l IH]; intros b q0; cbn [List.length seq map combine foldM]; [reflexivity|].
    change (element_step s co h g ae_draw q0 (b, with_n_trends nz nx e)) with (element_step s co h g ae_draw q0 (b, e)).
    destruct (element_step _ _ _ _ _ q0 _); cbn [bind]; [apply IH|reflexivity]. }
  now rewrite G.
Qed.

(** ** C86: without anisotropy the tensors are isotropic

    False: the setting is never read. *)
Theorem C86_setting_ignored_refuted s co h g draw ae_draw nm het lv an an' aes :
  generate_hydraulic_parameters s co h g draw ae_draw nm (mkSettings het lv an) aes =
  generate_hydraulic_parameters s co h g draw ae_draw nm (mkSettings het lv an') aes.
Proof. reflexivity. Qed.
Theorem C86_isotropic_refuted : exists d,
  generate_hydraulic_parameters one line3 (two_facies no_trends None) (one_cell 1) quiet ae_quiet imported_names (mkSettings true FaciesLevel false) [] = Ok d /\
  d_tensors d (0, 0, 0)%nat 0%nat 0%nat = 2 /\ d_tensors d (0, 0, 0)%nat 2%nat 2%nat = 2 / 10.
Proof.
  unfold generate_hydraulic_parameters.
  destruct (C54_never_fails one line3 (two_facies no_trends None) (one_cell 1) quiet ae_quiet false [] 2) as (p & H); [apply two_complete|intros c _; cbn; lia|].
  rewrite H. cbn [bind].
  assert (Hc : In (0, 0, 0)%nat (cells one)) by (apply in_cells; cbn; lia).
  destruct (C53_completes_partial one (fun _ _ _ => 0) (p_k p) (fun c => g_azim (one_cell 1) c * PI / 180) (fun c => g_dip (one_cell 1) c * PI / 180) (p_anirat p)) as (kt & Hk & _).
  rewrite Hk. cbn [bind]. eexists. split; [reflexivity|]. cbn [d_tensors].
  destruct (C54_facies_level _ _ _ _ _ _ _ _ _ H _ Hc) as ((_ & E1) & _ & (_ & E2)); [cbn; lia|].
  destruct (C54_stored _ _ _ _ _ _ _ _ _ H) as [E3 _]. cbn in E1, E2. rewrite E3 in E1. injection E1 as E1. injection E2 as E2.
  rewrite !(C52_documented_tensor_partial _ _ _ _ _ _ _ Hk _ Hc) by lia.
  rewrite <- E1, <- E2. cbn [one_cell g_azim g_dip]. replace (0 * PI / 180) with 0 by field.
  unfold documented_tensor, times, transposed, diagonal, rotation, sum3. cbn [Nat.eqb]. rewrite sin_0, cos_0. split; field.
Qed.
