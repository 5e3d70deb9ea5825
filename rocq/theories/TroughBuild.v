(** Generated models of sheets and troughs: all cells are assigned. *)
From Coq Require Import List ZArith Reals Sorting.Sorted Lia Lra Psatz Bool.
From Verif Require Import Base Num FaciesModel FaciesSpec FaciesProps ConfigModel SurfaceModel SurfaceSpec SurfaceProofs StrataModel StrataSpec StrataProofs StrataProofs2
  StrataProofs3 StrataProps AssignModel AssignSpec AssignProofs AssignProofs2 BuildModel BuildSpec BuildProofs BuildProofs2 AssignProps
  TroughModel TroughSpec TroughProofs TroughProofs2 TroughProofs3 TroughProps TroughBuildSpec.
Import ListNotations.
Local Open Scope R_scope.

(** ** One trough *)
Section Trough.
Variables (tt : trough_type) (x y z a b c alpha : R) (d : trough_draw) (t : trough).
Hypothesis (Ht : new_trough tt x y z a b c alpha d = Ok t).
Hypotheses (Ha : 0 < a) (Hb : 0 < b) (Hc : 0 < c).
Variable dm : domain.

Lemma hit_bounds ha p w : trough_assign dm t ha p = Ok (Some w) -> tr_zmin t <= p_z p <= tr_zmax t.
Proof.
  apply new_trough_built in Ht as B. unfold trough_assign.
  assert (E : snd (offset dm t p) = p_z p - z) by (unfold offset; cbn; now rewrite (b_z _ _ _ _ _ _ _ _ _ _ B)).
  destruct (offset dm t p) as [[dx dy] dz]. cbn in E. subst dz. destruct (claims t dx dy (p_z p - z)) eqn:Ec; [|discriminate]. intros _.
  apply (claims_iff _ _ _ _ _ _ _ _ _ _ B Ha Hb Hc) in Ec as [Hz Hl].
  destruct (unit_ball_far _ _ _ _ _ _ _ _ _ _ B Ha Hb Hc _ _ _ Hl) as (_ & K & _).
  rewrite (b_zmin _ _ _ _ _ _ _ _ _ _ B), (b_zmax _ _ _ _ _ _ _ _ _ _ B). apply sq_le_abs in K; lra.
Qed.

Lemma hit_facies ha p w : settings_ok tt -> trough_assign dm t ha p = Ok (Some w) -> w_facies w <> (-1)%Z.
Proof.
  intros (Hty & Hf & Halt & Hlag) Hw.
  destruct Hlag as [Hlag|Hlag].
  - destruct (C42_no_lag _ _ _ _ _ _ _ _ _ _ 0%Z dm ha p Ht Ha Hb Hc Hlag) as (t' & Ht' & E).
    rewrite <- E in Hw. destruct (C39_assigned_facies _ _ _ _ _ _ _ _ _ _ dm ha p w Ht' Halt Hw) as [_ [K|K]]; cbn in K.
    + intros C. apply Hf. now rewrite <- C.
    + rewrite K. discriminate.
  - destruct (C39_assigned_facies _ _ _ _ _ _ _ _ _ _ dm ha p w Ht Halt Hw) as [_ [K|K]].
    + intros C. apply Hf. now rewrite <- C.
    + congruence.
Qed.

(** A trough hangs down from its top. *)
Lemma hit_hanging ha p p' : p_x p' = p_x p -> p_y p' = p_y p -> p_z p' < p_z p <= tr_zmax t ->
  trough_assign dm t ha p = Ok None -> trough_assign dm t ha p' = Ok None.
Proof.
  intros Ex Ey Hz. rewrite <- !assign_none. apply new_trough_built in Ht as B.
  assert (E : offset dm t p' = (fst (fst (offset dm t p)), snd (fst (offset dm t p)), p_z p' - z)).
  { unfold offset. cbn. rewrite Ex, Ey, (b_z _ _ _ _ _ _ _ _ _ _ B). reflexivity. }
  assert (E2 : snd (offset dm t p) = p_z p - z) by (unfold offset; cbn; now rewrite (b_z _ _ _ _ _ _ _ _ _ _ B)).
  rewrite E. destruct (offset dm t p) as [[dx dy] dz]. cbn in E2 |- *. subst dz. intros Hc1.
  destruct (claims t dx dy (p_z p' - z)) eqn:Ec; [exfalso|reflexivity].
  apply (claims_iff _ _ _ _ _ _ _ _ _ _ B Ha Hb Hc) in Ec as [Hz1 Hl].
  assert (claims t dx dy (p_z p - z) = true); [|congruence].
  apply (claims_iff _ _ _ _ _ _ _ _ _ _ B Ha Hb Hc). rewrite (b_zmax _ _ _ _ _ _ _ _ _ _ B) in Hz. split; [lra|].
  unfold l2 in *. assert (norm_z t (p_z p - z) ^ 2 <= norm_z t (p_z p' - z) ^ 2); [|lra].
  unfold norm_z. rewrite (b_c _ _ _ _ _ _ _ _ _ _ B). unfold Rdiv. rewrite !Rpow_mult_distr.
  apply Rmult_le_compat_r; [apply pow2_ge_0|]. nra.
Qed.
End Trough.

(** ** The troughs of an element *)
Lemma make_trough_inv tp g pos d t : make_trough tp g pos d = Ok t ->
  exists alpha, new_trough (tp_type tp) (fst (fst pos)) (snd (fst pos)) (snd pos) (tr_a t) (tr_b t) (tr_c t) alpha (snd d) = Ok t /\ tr_zmax t = snd pos.
Proof.
  destruct pos as [[x y] z]. unfold make_trough. destruct (trough_size _ _ _ _ _ _ _) as [[a b] c]. cbn [fst snd].
  intros H. apply new_trough_built in H as B. eexists.
  rewrite (b_a _ _ _ _ _ _ _ _ _ _ B), (b_b _ _ _ _ _ _ _ _ _ _ B), (b_c _ _ _ _ _ _ _ _ _ _ B). split; [exact H|apply (b_zmax _ _ _ _ _ _ _ _ _ _ B)].
Qed.
Lemma make_troughs_inv tp g : forall te ds ts, make_troughs tp g te ds = Ok ts ->
  map (fun t => tr_zmax t) ts = map snd te /\
  forall i t, nth_error ts i = Some t -> exists pos d alpha, In pos te /\ In d ds /\ tr_zmax t = snd pos /\
    new_trough (tp_type tp) (fst (fst pos)) (snd (fst pos)) (snd pos) (tr_a t) (tr_b t) (tr_c t) alpha (snd d) = Ok t.
Proof.
  induction te as [|pos te IH]; intros ds ts; cbn [make_troughs].
  - intros [= <-]. split; [reflexivity|]. intros [|i] t; discriminate.
  - destruct ds as [|d ds]; [discriminate|]. destruct (make_trough tp g pos d) as [t|] eqn:Et; [|discriminate]. cbn [bind].
    destruct (make_troughs tp g te ds) as [r|] eqn:Er; [|discriminate]. cbn [bind]. intros [= <-].
    apply make_trough_inv in Et as (alpha & Et & Ez). destruct (IH _ _ Er) as [H1 H2]. split; [cbn; congruence|].
    intros [|i] t0; cbn.
    + intros [= <-]. exists pos, d, alpha. repeat (split; [solve [auto]|]). exact Et.
    + intros H. destruct (H2 i t0 H) as (pos' & d' & al & K1 & K2 & K3). exists pos', d', al. repeat (split; [solve [auto]|]). exact K3.
Qed.

Lemma SS_map {A B} (f : A -> B) (Rl : B -> B -> Prop) l : StronglySorted Rl (map f l) -> StronglySorted (fun u v => Rl (f u) (f v)) l.
Proof.
  induction l as [|u l IH]; cbn; intros H; constructor; inversion H as [|? ? H1 H2]; subst; [now apply IH|]. rewrite Forall_map in H2. exact H2.
Qed.

Lemma sorted_of_nth {A} (Rel : A -> A -> Prop) l :
  (forall i j a b, (i < j)%nat -> nth_error l i = Some a -> nth_error l j = Some b -> Rel a b) -> StronglySorted Rel l.
Proof.
  induction l as [|x l IH]; intros H; constructor.
  - apply IH. intros i j a b Hij Ha Hb. apply (H (S i) (S j)); [lia|assumption|assumption].
  - apply Forall_forall. intros b Hb. apply In_nth_error in Hb as [j Hj]. apply (H 0%nat (S j)); [lia|reflexivity|assumption].
Qed.

Section Fit.
Context {D : Type}.
Variable d0 : D.
Variable dm : domain.
Variable ny : nat.
Variable type_id : nat -> nat -> Z.
Variable look : nat -> nat -> point R -> write R.
Variable probe : nat -> nat -> D -> point R -> D * option (write R).
Variables (g : grid R) (st : store R) (strata : list (stratum R)).
Hypothesis W : wf (columns g) st.
Hypothesis Hok : Forall (stratum_ok st) strata.
Hypothesis Hobj : Forall (fun s => Forall (objects_ok st) (s_aes s)) strata.
Variables xi yi : nat.
Hypothesis Hk : (xi * ny + yi < columns g)%nat.
Variable ps : list (point R).
Hypothesis Hps : forall p, In p ps -> p_xi p = xi /\ p_yi p = yi.
Variables px py : R.
Hypothesis Hxy : forall p, In p ps -> p_x p = px /\ p_y p = py.
Notation hit := (fun (o : aobj R D) p => snd (o_check o d0 p)).
Notation m := (to_model ny type_id look probe st 0 0 strata).

(** Every element of the model that has no sheets is an element of troughs
    with a background facies. *)
Hypothesis Htr : forall s e si num, In s strata -> In e (s_aes s) -> is_sheet e = false ->
  In (to_aelem ny type_id look probe st si num e) (flat_map t_aes m) ->
  ae_bg_facies e <> (-1)%Z /\ trough_element dm g st probe num e.

Lemma troughs_fit : objects_fit hit m ps.
Proof.
  intros s e Hs He Hsh.
  destruct (elem_of ny type_id look probe st strata Hok Hobj s e Hs He) as (s0 & e0 & si & num & Hs0 & He0 & -> & _ & Hae & _ & _).
  destruct (Htr s0 e0 si num Hs0 He0) as [Hbg Hte].
  { exact Hsh. }
  { apply in_flat_map. exists s. auto. }
  destruct Hte as (tp & buffer & agg & migrate & te & pds & tds & ts & sb & sp & ha & Esb & Esp & Hagg & Hbuf & Ete & Ets & Hset & Htds & Hpos & Eob & Hpr).
  destruct (C45_descending _ _ _ _ _ _ _ _ _ Hagg Ete) as [Hsort Hrange].
  destruct (make_troughs_inv _ _ _ _ _ Ets) as [Ezm Hinv].
  (* the objects are the troughs *)
  assert (Hobjs : forall j o, nth_error (e_objs (to_aelem ny type_id look probe st si num e0)) j = Some o ->
     exists t, nth_error ts j = Some t /\ o = trough_obj dm (ha j) t).
  { intros j o Hj. cbn in Hj. apply to_objs_nth in Hj as (o0 & c & Hl & _ & ->).
    assert (K : nth_error (map (fun o => (ob_zmin o, ob_zmax o, ob_surfaces o)) (ae_objects e0)) j = Some (ob_zmin o0, ob_zmax o0, ob_surfaces o0)) by (rewrite nth_error_map, Hl; reflexivity).
    rewrite Eob, nth_error_map in K. destruct (nth_error ts j) as [t|] eqn:Et; [|discriminate]. cbn in K. injection K as K1 K2 K3.
    exists t. split; [reflexivity|]. rewrite <- K1, <- K2, <- K3. cbn [Nat.add]. rewrite (Hpr j t Et). reflexivity. }
  assert (Hin : forall o, In o (e_objs (to_aelem ny type_id look probe st si num e0)) ->
     exists t hj pos d alpha, In t ts /\ o = trough_obj dm hj t /\ In pos te /\ In d tds /\ tr_zmax t = snd pos /\ (0 < tr_a t /\ 0 < tr_b t /\ 0 < tr_c t) /\
       new_trough (tp_type tp) (fst (fst pos)) (snd (fst pos)) (snd pos) (tr_a t) (tr_b t) (tr_c t) alpha (snd d) = Ok t).
  { intros o Ho. apply In_nth_error in Ho as [j Hj]. destruct (Hobjs j o Hj) as (t & Et & ->).
    destruct (Hinv j t Et) as (pos & d & alpha & P1 & P2 & P3 & P4). exists t, (ha j), pos, d, alpha.
    assert (Int : In t ts) by (eapply nth_error_In; eauto). rewrite Forall_forall in Hpos.
    split; [exact Int|]. split; [reflexivity|]. split; [exact P1|]. split; [exact P2|]. split; [exact P3|]. split; [apply Hpos, Int|exact P4]. }
  assert (Htot : forall t pos d alpha, In d tds -> 0 < tr_a t /\ 0 < tr_b t /\ 0 < tr_c t ->
     new_trough (tp_type tp) (fst (fst pos)) (snd (fst pos)) (snd pos) (tr_a t) (tr_b t) (tr_c t) alpha (snd d) = Ok t ->
     forall h p, exists r, trough_assign dm t h p = Ok r).
  { intros t pos d alpha Hd (P1 & P2 & P3) Hn h p. rewrite Forall_forall in Htds.
    eapply C39_lookup_inside; eauto. apply Hset. }
  split; [exact Hbg|]. split; [|split; [|split]].
  - intros o p w Ho Hp Hw. destruct (Hin o Ho) as (t & hj & pos & d & alpha & Int & -> & Hpt & Hd & Ez & (P1 & P2 & P3) & Hn).
    cbn [trough_obj o_check snd] in Hw. destruct (Htot t pos d alpha Hd (conj P1 (conj P2 P3)) Hn hj p) as [r Er]. rewrite Er in Hw. subst r.
    split; [eapply hit_facies; eauto|]. split; [cbn; eapply hit_bounds; eauto|].
    cbn [o_zmax trough_obj e_bottom to_aelem].
    destruct (Hps p Hp) as [-> ->].
    assert (Lb : (ae_bottom e0 < List.length st)%nat) by (apply nth_error_Some; congruence).
    destruct (surf_col ny g st W xi yi Hk (ae_bottom e0) Lb) as (v & Hv & ->).
    assert (Hvz : v <= zmax sb).
    { unfold wf in W. rewrite Forall_forall in W. destruct (W sb (nth_error_In _ _ Esb)) as [_ Hbd]. unfold bounded in Hbd. rewrite Forall_forall in Hbd.
      unfold col in Hv. rewrite Esb in Hv. apply Hbd. eapply nth_error_In; eauto. }
    rewrite Ez. rewrite Forall_forall in Hrange. specialize (Hrange pos Hpt). lra.
  - intros o d p Ho. destruct (Hin o Ho) as (t & hj & pos & dd & alpha & _ & -> & _). reflexivity.
  - assert (Hss : StronglySorted (fun t t' => tr_zmax t' <= tr_zmax t) ts).
    { apply SS_map with (f := fun t => tr_zmax t) (Rl := fun u v => v <= u). rewrite Ezm. clear - Hsort.
      induction Hsort as [|p l H1 IH H2]; cbn; constructor; [assumption|]. now apply Forall_map. }
    apply sorted_of_nth. intros i j o o' Hij Hi Hj. destruct (Hobjs i o Hi) as (t & Et & ->). destruct (Hobjs j o' Hj) as (t' & Et' & ->). cbn.
    clear - Hss Hij Et Et'. revert i j Hij Et Et'. induction Hss as [|u l H IH Hu]; intros i j Hij Hi Hj; [destruct i; discriminate|].
    destruct j as [|j]; [lia|]. destruct i as [|i]; cbn in *.
    + injection Hi as ->. rewrite Forall_forall in Hu. apply Hu. eapply nth_error_In; eauto.
    + apply (IH i j); auto. lia.
  - intros o p p' Ho Hp Hp' Hz Hm. destruct (Hin o Ho) as (t & hj & pos & d & alpha & Int & -> & Hpt & Hd & Ez & (P1 & P2 & P3) & Hn).
    unfold hits in *. cbn [trough_obj o_check snd o_zmax] in Hm, Hz |- *.
    destruct (Htot t pos d alpha Hd (conj P1 (conj P2 P3)) Hn hj p) as [r Er]. rewrite Er in Hm.
    destruct r as [w|].
    { exfalso. assert (w_facies w <> (-1)%Z) by (eapply hit_facies; eauto). apply Z.eqb_neq in H. rewrite H in Hm. discriminate. }
    assert (E' : trough_assign dm t hj p' = Ok None).
    { destruct (Hxy p Hp) as [X1 Y1]. destruct (Hxy p' Hp') as [X2 Y2].
      apply (hit_hanging _ _ _ _ _ _ _ _ _ _ Hn P1 P2 P3 dm hj p p'); congruence || assumption. }
    now rewrite E'.
Qed.
End Fit.

(** C34 for generated models of sheets and troughs: every cell not on a surface
    is assigned, and as an exhaustive search would. *)
Theorem C34_sheets_and_troughs :
  forall (D : Type) (d0 : D) dm (g : grid R) fuel contacts params draws st strata ny type_id look probe xi yi px py ps,
  Forall (sd_ok (columns g)) draws -> params <> [] ->
  generate_model g fuel contacts params draws = Ok (st, strata) ->
  Forall (fun s => s_aes s <> []) strata ->
  (xi * ny + yi < columns g)%nat -> column (xi, yi) ps ->
  (forall p, In p ps -> p_x p = px /\ p_y p = py) ->
  Forall (fun p => g_z0 g <= p_z p <= g_lz g) ps ->
  (forall p a, In p ps -> col st a (xi * ny + yi) <> Some (p_z p)) ->
  (forall num oi p, w_facies (look num oi p) <> (-1)%Z) ->
  let m := to_model ny type_id look probe st 0 0 strata in
  let hit := fun (o : aobj R D) p => snd (o_check o d0 p) in
  (forall s e si num, In s strata -> In e (s_aes s) -> is_sheet e = false ->
     In (to_aelem ny type_id look probe st si num e) (flat_map t_aes m) ->
     ae_bg_facies e <> (-1)%Z /\ trough_element dm g st probe num e) ->
  forall d,
  snd (tower m ps (0, 0, 0)%nat d) = map (exhaustive hit m) ps /\
  Forall (fun r => r <> None) (snd (tower m ps (0, 0, 0)%nat d)).
Proof.
  intros D d0 dm g fuel contacts params draws st strata ny type_id look probe xi yi px py ps Hd Hne E Haes Hk Hcol Hxy Hz Hav Hlook m hit Htr d.
  destruct (generate_strata_ok _ _ _ _ _ _ _ Hd E) as (W & Hok).
  pose proof (generate_objects_ok _ _ _ _ _ _ _ Hd E) as Hobj.
  assert (Hps : forall p, In p ps -> p_xi p = xi /\ p_yi p = yi).
  { intros p Hp. destruct Hcol as [Hc _]. rewrite Forall_forall in Hc. specialize (Hc p Hp). now injection Hc. }
  apply (C34_every_cell_partial D d0 g fuel contacts params draws st strata ny type_id look probe xi yi ps Hd Hne E Haes Hk Hcol Hz Hav Hlook).
  eapply troughs_fit; eauto.
Qed.
Print Assumptions C34_sheets_and_troughs.
