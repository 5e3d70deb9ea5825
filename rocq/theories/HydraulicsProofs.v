(** Proofs about hydraulic parameters. *)
From Coq Require Import List ZArith Bool Lia Reals Lra Psatz.
From Verif Require Import Base Num ArrayModel ArrayProofs TensorModel TensorProps SpecsimModel SpecsimSpec SpecsimProps HydraulicsModel HydraulicsSpec.
Import ListNotations.
Local Open Scope R_scope.

(** The entry read for an index that is not negative. *)
Lemma pyget_listed (l : list R) f v : (0 <= f)%Z -> pyget l f = Ok v -> listed l f v.
Proof.
  intros Hf H. unfold pyget, pyidx in H. destruct (Z.leb_spec 0 f); [|lia].
  destruct (Z.ltb_spec f (Z.of_nat (List.length l))); cbn [andb] in H.
  - destruct (nth_error l (Z.to_nat f)) eqn:E; [|discriminate]. injection H as <-. now split.
  - destruct (Z.ltb_spec f 0); [lia|]. rewrite andb_false_r in H. discriminate.
Qed.
Lemma pyget_total {A} (l : list A) f : (0 <= f < Z.of_nat (List.length l))%Z -> exists v, pyget l f = Ok v /\ nth_error l (Z.to_nat f) = Some v.
Proof.
  intros Hf. unfold pyget, pyidx. destruct (Z.leb_spec 0 f); [|lia]. destruct (Z.ltb_spec f (Z.of_nat (List.length l))); [|lia]. cbn [andb].
  destruct (nth_error l (Z.to_nat f)) eqn:E; [eauto|]. apply nth_error_None in E. lia.
Qed.

Lemma linspace_factor a b n : linear_factor a b n (linspace a b n).
Proof.
  unfold linear_factor, linspace. split; [cbn; ring|]. split.
  - intros Hn. assert (INR (n - 1) <> 0) by (apply not_0_INR; lia). field. assumption.
  - intros i _. rewrite !S_INR. ring.
Qed.
Lemma linspace_pos a b n i : 0 < a -> 0 < b -> (i < n)%nat -> 0 < linspace a b n i.
Proof.
  intros Ha Hb Hi. unfold linspace. destruct n as [|[|n]]; [lia| |].
  - assert (i = 0%nat) as -> by lia. cbn. lra.
  - replace (S (S n) - 1)%nat with (S n) by lia. assert (Hn : 0 < INR (S n)) by (apply lt_0_INR; lia).
    assert (Hi1 : 0 <= INR i) by apply pos_INR. assert (Hi2 : INR i <= INR (S n)) by (apply le_INR; lia).
    replace (a + INR i * ((b - a) / INR (S n))) with ((a * (INR (S n) - INR i) + b * INR i) / INR (S n)) by (field; lra).
    apply Rdiv_lt_0_compat; [|assumption]. destruct (Req_dec (INR i) 0) as [E|E]; [rewrite E; nra|]. nra.
Qed.

Section Proofs.
Variables (s : shape) (co : coords) (h : hydro) (g : geology) (draw : Z -> Z -> bool -> noise) (ae_draw : nat -> bool -> noise).

Definition at_cell (p : params) (c : cell) : R * R * R := (p_k p c, p_n p c, p_anirat p c).
(** As long as no trend in x is applied the stored arrays are the current ones. *)
Definition shared (p : params) : Prop :=
  p_k_shared p = true /\ p_stored_k p = p_k p /\ p_n_shared p = true /\ p_stored_n p = p_n p.
Lemma initial_shared : shared initial. Proof. repeat split. Qed.
Lemma shared_k p a : shared p -> shared (change_k p a).
Proof. intros (H1 & H2 & H3 & H4). unfold shared, change_k. cbn. rewrite H1. auto. Qed.
Lemma shared_n p a : shared p -> shared (change_n p a).
Proof. intros (H1 & H2 & H3 & H4). unfold shared, change_n. cbn. rewrite H3. auto. Qed.
Lemma shared_ratio p a : shared p -> shared (change_ratio p a).
Proof. intros (H1 & H2 & H3 & H4). unfold shared, change_ratio. cbn. auto. Qed.

(** One field of conductivities. *)
Lemma internal_k_spec m fi e p p' : internal_k s co h m fi e p = Ok p' ->
  exists k a, pyget (h_k h) fi = Ok k /\ p' = change_k p a /\
    (forall c, In c (cells s) -> m c = true -> exists v, a c = exp v * k) /\
    (forall c, ~ In c (cells s) \/ m c = false -> a c = p_k p c).
Proof.
  unfold internal_k. destruct (pyget (h_sigy h) fi) as [sy|]; [|discriminate]. cbn [bind].
  destruct (pyget (h_ycorl h) fi) as [cl|]; [|discriminate]. cbn [bind].
  destruct (specsim s co Exponential sy cl m e) as [y|] eqn:Ey; [|discriminate]. cbn [bind].
  destruct (pyget (h_k h) fi) as [k|] eqn:Ek; [|discriminate]. cbn [bind].
  destruct (C67_values_on_cells _ _ _ _ _ _ _ _ (fun v => exp v * k) (p_k p) Ey) as (lo & hi & f & a & _ & _ & Ep & Ha).
  rewrite Ep. cbn [bind]. intros [= <-]. exists k, a. split; [reflexivity|]. split; [reflexivity|].
  split; intros c; [intros Hc Hm; rewrite (proj1 (Ha c) Hc Hm); eauto|apply Ha].
Qed.
Lemma internal_n_spec m fi e p p' : internal_n s co h m fi e p = Ok p' ->
  exists n a, pyget (h_n h) fi = Ok n /\ p' = change_n p a /\
    (forall c, In c (cells s) -> m c = true -> exists v, a c = v + n) /\
    (forall c, ~ In c (cells s) \/ m c = false -> a c = p_n p c).
Proof.
  unfold internal_n. destruct (pyget (h_sign h) fi) as [sn|]; [|discriminate]. cbn [bind].
  destruct (pyget (h_ncorl h) fi) as [cl|]; [|discriminate]. cbn [bind].
  destruct (specsim s co Exponential sn cl m e) as [y|] eqn:Ey; [|discriminate]. cbn [bind].
  destruct (pyget (h_n h) fi) as [n|] eqn:En; [|discriminate]. cbn [bind].
  destruct (C67_values_on_cells _ _ _ _ _ _ _ _ (fun v => v + n) (p_n p) Ey) as (lo & hi & f & a & _ & _ & Ep & Ha).
  rewrite Ep. cbn [bind]. intros [= <-]. exists n, a. split; [reflexivity|]. split; [reflexivity|].
  split; intros c; [intros Hc Hm; rewrite (proj1 (Ha c) Hc Hm); eauto|apply Ha].
Qed.

(** ** The loop over objects and facies *)

(** What a cell must hold afterwards. *)
Definition cell_values (lv : level) (f : Z) (v : R * R * R) : Prop :=
  let '(k, n, r) := v in
  pyget (h_ratio h) f = Ok r /\
  match lv with
  | Internal => (exists k0 u, pyget (h_k h) f = Ok k0 /\ k = exp u * k0) /\ (exists n0 u, pyget (h_n h) f = Ok n0 /\ n = u + n0)
  | FaciesLevel => pyget (h_k h) f = Ok k /\ pyget (h_n h) f = Ok n
  | OtherLevel => True
  end.

Lemma mifi_true mi fi c : mifi g mi fi c = true <-> g_ha g c = mi /\ g_fac g c = fi.
Proof. unfold mifi. rewrite andb_true_iff, !Z.eqb_eq. reflexivity. Qed.

Lemma object_step_spec lv p q p' : object_step s co h g draw lv p q = Ok p' -> shared p ->
  shared p' /\ forall c, (mifi g (fst q) (snd q) c = false -> at_cell p' c = at_cell p c) /\
                         (In c (cells s) -> mifi g (fst q) (snd q) c = true -> cell_values lv (g_fac g c) (at_cell p' c)).
Proof.
  destruct q as [mi fi]. cbn [fst snd]. unfold object_step. intros H Hs. set (m := mifi g mi fi) in *.
  match type of H with bind ?r _ = _ => destruct r as [p1|] eqn:E1; [|discriminate] end. cbn [bind] in H.
  destruct (pyget (h_ratio h) fi) as [r|] eqn:Er; [|discriminate]. cbn [bind] in H. injection H as <-.
  assert (K : shared p1 /\ forall c, (m c = false -> at_cell p1 c = at_cell p c) /\ p_anirat p1 = p_anirat p /\
     (In c (cells s) -> m c = true -> forall r, pyget (h_ratio h) fi = Ok r -> cell_values lv fi (p_k p1 c, p_n p1 c, r))).
  { destruct lv.
    - destruct (internal_k s co h m fi (draw mi fi true) p) as [p2|] eqn:Ek; [|discriminate]. cbn [bind] in E1.
      apply internal_k_spec in Ek as (k & a & Hk & -> & A1 & A2). apply internal_n_spec in E1 as (n & b & Hn & -> & B1 & B2).
      split; [now apply shared_n, shared_k|]. intros c. split; [|split; [reflexivity|]].
      + intros Hc. unfold at_cell. cbn. rewrite A2, B2 by auto. reflexivity.
      + intros Hc Hm r' Hr'. cbn. split; [assumption|]. destruct (A1 c Hc Hm) as (u & ->). destruct (B1 c Hc Hm) as (w & ->). eauto 8.
    - destruct (pyget (h_k h) fi) as [k|] eqn:Ek; [|discriminate]. cbn [bind] in E1.
      destruct (pyget (h_n h) fi) as [n|] eqn:En; [|discriminate]. cbn [bind] in E1. injection E1 as <-.
      split; [now apply shared_n, shared_k|]. intros c. split; [|split; [reflexivity|]].
      + intros Hc. unfold at_cell. cbn. unfold fill. now rewrite Hc.
      + intros Hc Hm r' Hr'. cbn. unfold fill. rewrite Hm. auto.
    - injection E1 as <-. split; [assumption|]. intros c. split; [reflexivity|split; [reflexivity|]]. cbn. auto. }
  destruct K as [K1 K2]. split; [now apply shared_ratio|]. intros c. destruct (K2 c) as (K3 & K4 & K5). split.
  - intros Hc. specialize (K3 Hc). unfold at_cell in K3 |- *. cbn. unfold fill. rewrite Hc. rewrite K4 in K3. rewrite K4. exact K3.
  - intros Hc Hm. pose proof Hm as Hm'. unfold m in Hm'. apply mifi_true in Hm' as [_ ->]. unfold at_cell. cbn [change_ratio p_k p_n p_anirat]. unfold fill. rewrite Hm.
    apply K5; assumption.
Qed.

Lemma object_loop lv l p p' : foldM (object_step s co h g draw lv) p l = Ok p' -> shared p ->
  shared p' /\ forall c, In c (cells s) ->
    (In (g_ha g c, g_fac g c) l \/ cell_values lv (g_fac g c) (at_cell p c) -> cell_values lv (g_fac g c) (at_cell p' c)).
Proof.
  revert p. induction l as [|q l IH]; intros p H Hs; cbn [foldM] in H.
  - injection H as <-. split; [assumption|]. intros c Hc [[]|?]. assumption.
  - destruct (object_step s co h g draw lv p q) as [p1|] eqn:E1; [|discriminate]. cbn [bind] in H.
    destruct (object_step_spec _ _ _ _ E1 Hs) as [Hs1 K]. destruct (IH _ H Hs1) as [Hs2 L]. split; [assumption|].
    intros c Hc Hor. apply (L c Hc). destruct (K c) as [K1 K2]. destruct (mifi g (fst q) (snd q) c) eqn:Em.
    + right. apply K2; auto.
    + rewrite K1 by reflexivity. destruct Hor as [[Hq|Hq]|Hq]; auto. subst q. cbn [fst snd] in Em. exfalso.
      assert (mifi g (g_ha g c) (g_fac g c) c = true) by (apply mifi_true; auto). congruence.
Qed.

Lemma pairs_complete c : In c (cells s) -> In (g_ha g c, g_fac g c) (pairs s g).
Proof.
  intros Hc. unfold pairs. apply in_flat_map. exists (g_ha g c). split; [apply unique_in, in_map, Hc|].
  apply in_map, unique_in. unfold select. apply in_map, filter_In. split; [assumption|]. apply Z.eqb_refl.
Qed.
Lemma pairs_sound q : In q (pairs s g) -> exists c, In c (cells s) /\ g_ha g c = fst q /\ g_fac g c = snd q.
Proof.
  unfold pairs. intros H. apply in_flat_map in H as (mi & _ & H). apply in_map_iff in H as (fi & <- & H). rewrite unique_in in H.
  unfold select in H. apply in_map_iff in H as (c & E & H). apply filter_In in H as [H1 H2]. apply Z.eqb_eq in H2. cbn. eauto.
Qed.

Lemma objects_done lv p : foldM (object_step s co h g draw lv) initial (pairs s g) = Ok p ->
  shared p /\ forall c, In c (cells s) -> cell_values lv (g_fac g c) (at_cell p c).
Proof.
  intros H. apply object_loop in H as [Hs H]; [|exact initial_shared]. split; [assumption|]. intros c Hc. apply H; [assumption|].
  left. now apply pairs_complete.
Qed.

(** ** It succeeds *)
Lemma internal_k_total m fi e p n c : complete h n -> (0 <= fi < Z.of_nat n)%Z -> In c (cells s) -> m c = true ->
  exists p', internal_k s co h m fi e p = Ok p'.
Proof.
  intros (L1 & L2 & L3 & L4 & L5 & L6 & L7) Hf Hc Hm. unfold internal_k.
  destruct (pyget_total (h_sigy h) fi) as (sy & -> & _); [lia|]. cbn [bind].
  destruct (pyget_total (h_ycorl h) fi) as (cl & -> & _); [lia|]. cbn [bind].
  destruct (C67_never_fails s co Exponential sy cl m e c Hc Hm) as (vs & Ev & _); [discriminate|]. rewrite Ev. cbn [bind].
  destruct (pyget_total (h_k h) fi) as (k & -> & _); [lia|]. cbn [bind].
  destruct (C67_values_on_cells _ _ _ _ _ _ _ _ (fun v => exp v * k) (p_k p) Ev) as (lo & hi & f & a & _ & _ & -> & _). cbn [bind]. eauto.
Qed.
Lemma internal_n_total m fi e p n c : complete h n -> (0 <= fi < Z.of_nat n)%Z -> In c (cells s) -> m c = true ->
  exists p', internal_n s co h m fi e p = Ok p'.
Proof.
  intros (L1 & L2 & L3 & L4 & L5 & L6 & L7) Hf Hc Hm. unfold internal_n.
  destruct (pyget_total (h_sign h) fi) as (sy & -> & _); [lia|]. cbn [bind].
  destruct (pyget_total (h_ncorl h) fi) as (cl & -> & _); [lia|]. cbn [bind].
  destruct (C67_never_fails s co Exponential sy cl m e c Hc Hm) as (vs & Ev & _); [discriminate|]. rewrite Ev. cbn [bind].
  destruct (pyget_total (h_n h) fi) as (k & -> & _); [lia|]. cbn [bind].
  destruct (C67_values_on_cells _ _ _ _ _ _ _ _ (fun v => v + k) (p_n p) Ev) as (lo & hi & f & a & _ & _ & -> & _). cbn [bind]. eauto.
Qed.

Lemma object_step_total lv p q n : complete h n -> facies_ok s g n -> In q (pairs s g) ->
  exists p', object_step s co h g draw lv p q = Ok p'.
Proof.
  intros Hh Hf Hq. apply pairs_sound in Hq as (c & Hc & E1 & E2). destruct q as [mi fi]. cbn [fst snd] in E1, E2.
  pose proof (Hf c Hc) as Hfi. rewrite E2 in Hfi. assert (Hm : mifi g mi fi c = true) by (apply mifi_true; auto).
  unfold object_step. pose proof Hh as (L1 & L2 & L3 & L4 & L5 & L6 & L7).
  destruct (pyget_total (h_ratio h) fi) as (r & Er & _); [lia|].
  destruct lv.
  - destruct (internal_k_total (mifi g mi fi) fi (draw mi fi true) p n c Hh Hfi Hc Hm) as (p1 & ->). cbn [bind].
    destruct (internal_n_total (mifi g mi fi) fi (draw mi fi false) p1 n c Hh Hfi Hc Hm) as (p2 & ->). cbn [bind]. rewrite Er. cbn [bind]. eauto.
  - destruct (pyget_total (h_k h) fi) as (k & -> & _); [lia|]. cbn [bind]. destruct (pyget_total (h_n h) fi) as (k' & -> & _); [lia|]. cbn [bind].
    rewrite Er. cbn [bind]. eauto.
  - cbn [bind]. rewrite Er. cbn [bind]. eauto.
Qed.

(** ** Elements *)
Lemma existsb_cells m : existsb m (cells s) = true -> exists c, In c (cells s) /\ m c = true.
Proof. intros H. apply existsb_exists in H. exact H. Qed.

Lemma element_step_total p ie n : complete h n -> (0 <= a_bg (snd ie) < Z.of_nat n)%Z ->
  exists p', element_step s co h g ae_draw p ie = Ok p'.
Proof.
  intros Hh Hb. destruct ie as [i e]. cbn [snd] in Hb. unfold element_step. destruct (existsb _ _) eqn:Ex; [|eauto].
  apply existsb_cells in Ex as (c & Hc & Hm).
  destruct (internal_k_total _ (a_bg e) (ae_draw i true) p n c Hh Hb Hc Hm) as (p1 & ->). cbn [bind].
  destruct (internal_n_total _ (a_bg e) (ae_draw i false) p1 n c Hh Hb Hc Hm) as (p2 & ->). cbn [bind].
  destruct Hh as (L1 & L2 & _). destruct (pyget_total (h_ratio h) (a_bg e)) as (r & -> & _); [lia|]. cbn [bind]. eauto.
Qed.

(** The anisotropy ratio is changed in cells of object 0 only. *)
Lemma trends_ratio t p : p_anirat (k_xtrend s (tr_kx t) (k_ztrend s (tr_kz t) p)) = p_anirat p.
Proof. destruct (tr_kz t) as [[? ?]|], (tr_kx t) as [[? ?]|]; reflexivity. Qed.
Lemma element_step_ratio p ie p' : element_step s co h g ae_draw p ie = Ok p' ->
  forall c, (ae_mask g (snd ie) c = false -> p_anirat p' c = p_anirat p c) /\
            (In c (cells s) -> ae_mask g (snd ie) c = true -> pyget (h_ratio h) (a_bg (snd ie)) = Ok (p_anirat p' c)).
Proof.
  destruct ie as [i e]. cbn [snd]. unfold element_step. destruct (existsb _ _) eqn:Ex.
  - destruct (internal_k _ _ _ _ _ _ p) as [p1|] eqn:E1; [|discriminate]. cbn [bind].
    destruct (internal_n _ _ _ _ _ _ p1) as [p2|] eqn:E2; [|discriminate]. cbn [bind].
    destruct (pyget (h_ratio h) (a_bg e)) as [r|] eqn:Er; [|discriminate]. cbn [bind]. intros [= <-]. 
    apply internal_k_spec in E1 as (k & a & _ & -> & _). apply internal_n_spec in E2 as (n & b & _ & -> & _).
    intros c. rewrite trends_ratio. cbn. unfold fill. split; [intros ->; reflexivity|intros _ ->; reflexivity].
  - intros [= <-] c. split; [reflexivity|]. intros Hc Hm. exfalso. assert (existsb (ae_mask g e) (cells s) = true) by (apply existsb_exists; eauto). congruence.
Qed.

(** Positivity. *)
Definition positive (p : params) : Prop := forall c, In c (cells s) -> 0 < p_k p c /\ 0 < p_stored_k p c.
Lemma positive_ztrend t p : positive_trend t -> positive p -> positive (k_ztrend s t p).
Proof.
  destruct t as [[a b]|]; [|auto]. intros [Ha Hb] Hp c Hc. cbn. destruct (Hp c Hc) as [H1 H2].
  assert (H3 : 0 < linspace a b (cz s) (cz c)) by (apply linspace_pos; auto; now apply in_cells in Hc).
  assert (0 < p_k p c * linspace a b (cz s) (cz c)) by (now apply Rmult_lt_0_compat). destruct (p_k_shared p); auto.
Qed.
Lemma positive_xtrend t p : positive_trend t -> positive p -> positive (k_xtrend s t p).
Proof.
  destruct t as [[a b]|]; [|auto]. intros [Ha Hb] Hp c Hc. cbn. destruct (Hp c Hc) as [H1 H2].
  assert (H3 : 0 < linspace a b (cx s) (cx c)) by (apply linspace_pos; auto; now apply in_cells in Hc).
  split; [now apply Rmult_lt_0_compat|assumption].
Qed.
Lemma positive_internal m fi e p p' : Forall (fun k => 0 < k) (h_k h) -> internal_k s co h m fi e p = Ok p' -> positive p -> positive p'.
Proof.
  intros Hk H Hp. apply internal_k_spec in H as (k & a & Ek & -> & A1 & A2).
  assert (Hk0 : 0 < k).
  { unfold pyget in Ek. destruct (pyidx _ _); [|discriminate]. destruct (nth_error _ _) eqn:En; [|discriminate]. injection Ek as <-.
    rewrite Forall_forall in Hk. apply Hk. eapply nth_error_In; eauto. }
  intros c Hc. destruct (Hp c Hc) as [H1 H2]. cbn. assert (Ha : 0 < a c).
  { destruct (m c) eqn:Em; [destruct (A1 c Hc Em) as (v & ->); apply Rmult_lt_0_compat; [apply exp_pos|assumption]|rewrite A2 by auto; assumption]. }
  destruct (p_k_shared p); auto.
Qed.
Lemma positive_n p a : positive p -> positive (change_n p a). Proof. auto. Qed.

Lemma positive_element p ie p' : Forall (fun k => 0 < k) (h_k h) -> positive_trends (a_trends (snd ie)) ->
  element_step s co h g ae_draw p ie = Ok p' -> positive p -> positive p'.
Proof.
  intros Hk [Hz Hx]. destruct ie as [i e]. cbn [snd] in Hz, Hx. unfold element_step. destruct (existsb _ _); [|intros [= <-]; auto].
  destruct (internal_k _ _ _ _ _ _ p) as [p1|] eqn:E1; [|discriminate]. cbn [bind].
  destruct (internal_n _ _ _ _ _ _ p1) as [p2|] eqn:E2; [|discriminate]. cbn [bind].
  destruct (pyget (h_ratio h) (a_bg e)) as [r|] eqn:Er; [|discriminate]. cbn [bind]. intros [= <-] Hp.
  apply positive_xtrend, positive_ztrend; auto. intros c Hc. cbn.
  apply internal_n_spec in E2 as (n & b & _ & -> & _). cbn. eapply positive_internal; eauto.
Qed.
End Proofs.
