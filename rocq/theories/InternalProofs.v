(** Proofs for C132. *)
From Coq Require Import List ZArith Bool Ascii String Reals Lia Lra.
From Verif Require Import Base Num ArrayModel ArrayProofs SpecsimModel SpecsimSpec SpecsimProofs SpecsimProps HydraulicsModel HydraulicsSpec HydraulicsProofs HydraulicsProps
  InternalSpec.
Import ListNotations.
Local Open Scope R_scope.

Section Parameters.
Variables (s : shape) (co : coords) (h : hydro) (g : geology) (draw : Z -> Z -> bool -> noise) (ae_draw : nat -> bool -> noise).

Definition k_value (fi : Z) (m : mask) (e : noise) (c : cell) (v : R) : Prop :=
  exists k sy cl u, pyget (h_k h) fi = Ok k /\ pyget (h_sigy h) fi = Ok sy /\ pyget (h_ycorl h) fi = Ok cl /\ simulated s co sy cl m e c u /\ v = exp u * k.
Definition n_value (fi : Z) (m : mask) (e : noise) (c : cell) (v : R) : Prop :=
  exists n sn cl u, pyget (h_n h) fi = Ok n /\ pyget (h_sign h) fi = Ok sn /\ pyget (h_ncorl h) fi = Ok cl /\ simulated s co sn cl m e c u /\ v = u + n.
Definition kshared (p : params) : Prop := p_k_shared p = true /\ p_stored_k p = p_k p.
Definition nshared (p : params) : Prop := p_n_shared p = true /\ p_stored_n p = p_n p.

Lemma internal_k_at m fi e p p' : internal_k s co h m fi e p = Ok p' ->
  p_n p' = p_n p /\ (kshared p -> kshared p') /\ (nshared p -> nshared p') /\
  forall c, (In c (cells s) -> m c = true -> k_value fi m e c (p_k p' c)) /\ (m c = false -> p_k p' c = p_k p c).
Proof.
  unfold internal_k. intros H. apply bind_Ok in H as (sy & E1 & H). apply bind_Ok in H as (cl & E2 & H). apply bind_Ok in H as (y & E3 & H).
  apply bind_Ok in H as (k & E4 & H). apply bind_Ok in H as (a & E5 & H). injection H as <-.
  destruct (C67_values_on_cells _ _ _ _ _ _ _ _ (fun v => exp v * k) (p_k p) E3) as (lo & hi & f & a' & B & Ef & Ea & HA). rewrite Ea in E5. injection E5 as <-.
  split; [reflexivity|]. split; [intros [K1 K2]; split; cbn; [assumption|now rewrite K1]|]. split; [intros K; exact K|]. intros c. cbn [change_k p_k]. split.
  - intros Hc Hm. rewrite (proj1 (HA c) Hc Hm). exists k, sy, cl, (f (relative lo c)). repeat split; try assumption. exists lo, hi, f. auto.
  - intros Hm. apply (proj2 (HA c)). now right.
Qed.
Lemma internal_n_at m fi e p p' : internal_n s co h m fi e p = Ok p' ->
  p_k p' = p_k p /\ (kshared p -> kshared p') /\ (nshared p -> nshared p') /\
  forall c, (In c (cells s) -> m c = true -> n_value fi m e c (p_n p' c)) /\ (m c = false -> p_n p' c = p_n p c).
Proof.
  unfold internal_n. intros H. apply bind_Ok in H as (sy & E1 & H). apply bind_Ok in H as (cl & E2 & H). apply bind_Ok in H as (y & E3 & H).
  apply bind_Ok in H as (k & E4 & H). apply bind_Ok in H as (a & E5 & H). injection H as <-.
  destruct (C67_values_on_cells _ _ _ _ _ _ _ _ (fun v => v + k) (p_n p) E3) as (lo & hi & f & a' & B & Ef & Ea & HA). rewrite Ea in E5. injection E5 as <-.
  split; [reflexivity|]. split; [intros K; exact K|]. split; [intros [K1 K2]; split; cbn; [assumption|now rewrite K1]|]. intros c. cbn [change_n p_n]. split.
  - intros Hc Hm. rewrite (proj1 (HA c) Hc Hm). exists k, sy, cl, (f (relative lo c)). repeat split; try assumption. exists lo, hi, f. auto.
  - intros Hm. apply (proj2 (HA c)). now right.
Qed.

(** All objects. *)
Definition object_values (p : params) (c : cell) : Prop :=
  k_value (g_fac g c) (mifi g (g_ha g c) (g_fac g c)) (draw (g_ha g c) (g_fac g c) true) c (p_k p c) /\
  n_value (g_fac g c) (mifi g (g_ha g c) (g_fac g c)) (draw (g_ha g c) (g_fac g c) false) c (p_n p c).
Lemma object_step_at p q p' : object_step s co h g draw Internal p q = Ok p' ->
  (kshared p -> kshared p') /\ (nshared p -> nshared p') /\
  forall c, In c (cells s) -> (q = (g_ha g c, g_fac g c) \/ object_values p c) -> object_values p' c.
Proof.
  destruct q as [mi fi]. unfold object_step. intros H. apply bind_Ok in H as (p2 & H & H2). apply bind_Ok in H as (p1 & H1 & H).
  apply bind_Ok in H2 as (r & _ & H2). injection H2 as <-.
  destruct (internal_k_at _ _ _ _ _ H1) as (N1 & KS1 & NS1 & K1). destruct (internal_n_at _ _ _ _ _ H) as (N2 & KS2 & NS2 & K2).
  split; [intros K; apply KS2, KS1, K|]. split; [intros K; apply NS2, NS1, K|].
  intros c Hc Hor. unfold object_values. cbn [change_ratio p_k p_n]. destruct (mifi g mi fi c) eqn:Em.
  - assert (Q := proj1 (K1 c) Hc Em). assert (Q2 := proj1 (K2 c) Hc Em). apply mifi_true in Em as [<- <-]. rewrite N2. auto.
  - rewrite N2, (proj2 (K1 c) Em), (proj2 (K2 c) Em), N1. destruct Hor as [[= -> ->]|Hor]; [|exact Hor].
    assert (mifi g (g_ha g c) (g_fac g c) c = true) by (now apply mifi_true). congruence.
Qed.
Lemma object_loop_at l : forall p p', foldM (object_step s co h g draw Internal) p l = Ok p' ->
  (kshared p -> kshared p') /\ (nshared p -> nshared p') /\
  forall c, In c (cells s) -> (In (g_ha g c, g_fac g c) l \/ object_values p c) -> object_values p' c.
Proof.
  induction l as [|q l IH]; intros p p' H; cbn [foldM] in H.
  - injection H as <-. split; [auto|]. split; [auto|]. intros c _ [[]|H]. exact H.
  - apply bind_Ok in H as (p1 & H1 & H). destruct (object_step_at _ _ _ H1) as (A & B & C). destruct (IH _ _ H) as (A' & B' & C').
    split; [auto|]. split; [auto|]. intros c Hc Hor. apply C'; [assumption|]. destruct Hor as [[->|Hin]|Hv]; [right|left; exact Hin|right]; apply C; auto.
Qed.

(** Trends. *)
Lemma linspace_along a b n i : linspace a b n i = along (Some (a, b)) n i.
Proof. unfold linspace, along, Rdiv. ring. Qed.
Lemma ktrends_at t p c :
  p_k (k_xtrend s (tr_kx t) (k_ztrend s (tr_kz t) p)) c = p_k p c * (along (tr_kz t) (cz s) (cz c) * along (tr_kx t) (cx s) (cx c)) /\
  p_n (k_xtrend s (tr_kx t) (k_ztrend s (tr_kz t) p)) = p_n p /\
  (nshared p -> nshared (k_xtrend s (tr_kx t) (k_ztrend s (tr_kz t) p))) /\
  (tr_kx t = None -> kshared p -> kshared (k_xtrend s (tr_kx t) (k_ztrend s (tr_kz t) p))).
Proof.
  destruct (tr_kz t) as [[a b]|], (tr_kx t) as [[a' b']|]; cbn [k_xtrend k_ztrend change_k rebind_k p_k p_n]; rewrite ?linspace_along;
    (split; [cbn [along]; ring|]); (split; [reflexivity|]); (split; [intros K; exact K|]); intros E [K1 K2]; try discriminate; (split; cbn; [assumption|rewrite ?K1; auto]).
Qed.
Lemma ntrends_at t p c :
  p_n (n_xtrend s (tr_nx t) (n_ztrend s (tr_nz t) p)) c = p_n p c * (along (tr_nz t) (cz s) (cz c) * along (tr_nx t) (cx s) (cx c)) /\
  p_k (n_xtrend s (tr_nx t) (n_ztrend s (tr_nz t) p)) = p_k p /\
  (kshared p -> kshared (n_xtrend s (tr_nx t) (n_ztrend s (tr_nz t) p))) /\
  (tr_nx t = None -> nshared p -> nshared (n_xtrend s (tr_nx t) (n_ztrend s (tr_nz t) p))).
Proof.
  destruct (tr_nz t) as [[a b]|], (tr_nx t) as [[a' b']|]; cbn [n_xtrend n_ztrend change_n rebind_n p_k p_n]; rewrite ?linspace_along;
    (split; [cbn [along]; ring|]); (split; [reflexivity|]); (split; [intros K; exact K|]); intros E [K1 K2]; try discriminate; (split; cbn; [assumption|rewrite ?K1; auto]).
Qed.

(** All elements. *)
Definition factor_of (c : cell) (e : element) : R :=
  if existsb (ae_mask g e) (cells s) then along (tr_kz (a_trends e)) (cz s) (cz c) * along (tr_kx (a_trends e)) (cx s) (cx c) else 1.
Lemma element_step_at p i e p' : element_step s co h g ae_draw p (i, e) = Ok p' ->
  (nshared p -> nshared p') /\ (tr_kx (a_trends e) = None -> kshared p -> kshared p') /\
  forall c, In c (cells s) ->
    (ae_mask g e c = false -> p_k p' c = p_k p c * factor_of c e /\ p_n p' c = p_n p c) /\
    (ae_mask g e c = true -> exists v, k_value (a_bg e) (ae_mask g e) (ae_draw i true) c v /\ p_k p' c = v * factor_of c e /\
       n_value (a_bg e) (ae_mask g e) (ae_draw i false) c (p_n p' c)).
Proof.
  unfold element_step, factor_of. destruct (existsb (ae_mask g e) (cells s)) eqn:Ex; intros H.
  - apply bind_Ok in H as (p1 & H1 & H). apply bind_Ok in H as (p2 & H2 & H). apply bind_Ok in H as (r & _ & H). injection H as <-.
    destruct (internal_k_at _ _ _ _ _ H1) as (N1 & KS1 & NS1 & K1). destruct (internal_n_at _ _ _ _ _ H2) as (N2 & KS2 & NS2 & K2).
    set (q := change_ratio p2 (fill (ae_mask g e) r (p_anirat p2))).
    split; [intros K; apply (ktrends_at (a_trends e) q (0, 0, 0)%nat), NS2, NS1, K|].
    split; [intros Ee K; apply (ktrends_at (a_trends e) q (0, 0, 0)%nat); [exact Ee|]; apply KS2, KS1, K|].
    intros c Hc. destruct (ktrends_at (a_trends e) q c) as (T1 & T2 & _). rewrite T1, T2. subst q. cbn [change_ratio p_k p_n]. rewrite N2. split; intros Hm.
    + rewrite (proj2 (K1 c) Hm), (proj2 (K2 c) Hm), N1. auto.
    + exists (p_k p1 c). split; [exact (proj1 (K1 c) Hc Hm)|]. split; [reflexivity|]. exact (proj1 (K2 c) Hc Hm).
  - injection H as <-. split; [auto|]. split; [auto|]. intros c Hc. split; intros Hm; [split; [ring|reflexivity]|].
    exfalso. assert (existsb (ae_mask g e) (cells s) = true); [|congruence]. apply existsb_exists. eauto.
Qed.
Lemma element_loop_at l : forall p p', foldM (element_step s co h g ae_draw) p l = Ok p' ->
  (nshared p -> nshared p') /\ (Forall (fun ie => tr_kx (a_trends (snd ie)) = None) l -> kshared p -> kshared p') /\
  forall c, In c (cells s) -> Forall (fun ie => ae_mask g (snd ie) c = false) l ->
    p_k p' c = p_k p c * product (map (fun ie => factor_of c (snd ie)) l) /\ p_n p' c = p_n p c.
Proof.
  induction l as [|[i e] l IH]; intros p p' H; cbn [foldM] in H.
  - injection H as <-. split; [auto|]. split; [auto|]. intros c _ _. cbn. split; [ring|reflexivity].
  - apply bind_Ok in H as (p1 & H1 & H). destruct (element_step_at _ _ _ _ H1) as (A & B & C). destruct (IH _ _ H) as (A' & B' & C').
    split; [auto|]. split; [intros K; inversion K; subst; auto|]. intros c Hc K. inversion K as [|? ? K1 K2]; subst. cbn [snd] in K1.
    destruct (C' c Hc K2) as (Q1 & Q2). destruct (proj1 (C c Hc) K1) as (R1 & R2). rewrite Q1, Q2, R1, R2. cbn [map product fold_right snd]. fold (product (map (fun ie => factor_of c (snd ie)) l)). split; [ring|reflexivity].
Qed.

Lemma foldM_app {A B} (f : A -> B -> res A) l1 : forall l2 a r, foldM f a (l1 ++ l2) = Ok r -> exists b, foldM f a l1 = Ok b /\ foldM f b l2 = Ok r.
Proof.
  induction l1 as [|x l1 IH]; intros l2 a r H; cbn [foldM app] in *; [eauto|]. apply bind_Ok in H as (b & Hb & H). rewrite Hb. cbn [bind]. eauto.
Qed.

Definition numbered (aes : list element) : Prop := forall i e, nth_error aes i = Some e -> a_num e = Z.of_nat i.
Definition global_k (c : cell) : R := along (tr_kz (h_trends h)) (cz s) (cz c) * along (tr_kx (h_trends h)) (cx s) (cx c).
Definition global_n (c : cell) : R := along (tr_nz (h_trends h)) (cz s) (cz c) * along (tr_nx (h_trends h)) (cx s) (cx c).
Lemma ae_mask_num e e' c : ae_mask g e c = true -> a_num e <> a_num e' -> ae_mask g e' c = false.
Proof. unfold ae_mask. intros H Hn. apply andb_true_iff in H as [-> H]. apply Z.eqb_eq in H. cbn [andb]. apply Z.eqb_neq. congruence. Qed.
Lemma combine_seq_nth {A} (l : list A) : forall k a i x, nth_error (combine (seq a (List.length l)) l) k = Some (i, x) <-> i = (a + k)%nat /\ nth_error l k = Some x.
Proof.
  induction l as [|y l IH]; intros [|k] a i x; cbn; try (split; [discriminate|intros [_ ?]; discriminate]).
  - split; [intros [= <- <-]; split; [lia|reflexivity]|intros [-> [= ->]]; f_equal; f_equal; lia].
  - rewrite IH. split; intros [H1 H2]; (split; [lia|exact H2]).
Qed.
Theorem internal_values an aes p :
  assign_parameters s co h g draw ae_draw (mkSettings true Internal an) aes = Ok p -> numbered aes ->
  (tr_kx (h_trends h) = None -> Forall (fun e => tr_kx (a_trends e) = None) aes -> p_stored_k p = p_k p) /\
  (tr_nx (h_trends h) = None -> p_stored_n p = p_n p) /\
  forall c, In c (cells s) ->
  (forall j e, nth_error aes j = Some e -> ae_mask g e c = true ->
     exists v w, k_value (a_bg e) (ae_mask g e) (ae_draw j true) c v /\ n_value (a_bg e) (ae_mask g e) (ae_draw j false) c w /\
       p_k p c = v * product (map (factor_of c) (skipn j aes)) * global_k c /\ p_n p c = w * global_n c) /\
  ((forall j e, nth_error aes j = Some e -> ae_mask g e c = false) ->
     exists v w, k_value (g_fac g c) (mifi g (g_ha g c) (g_fac g c)) (draw (g_ha g c) (g_fac g c) true) c v /\
       n_value (g_fac g c) (mifi g (g_ha g c) (g_fac g c)) (draw (g_ha g c) (g_fac g c) false) c w /\
       p_k p c = v * product (map (factor_of c) aes) * global_k c /\ p_n p c = w * global_n c).
Proof.
  unfold assign_parameters. cbn [s_het s_level]. intros H Hnum. apply bind_Ok in H as (p0 & H0 & H). apply bind_Ok in H as (p1 & H1 & H). injection H as <-.
  destruct (object_loop_at _ _ _ H0) as (KS0 & NS0 & V0). destruct (element_loop_at _ _ _ H1) as (NS1 & KS1 & V1).
  set (t := h_trends h) in *. unfold global_trends. fold t. set (p2 := k_xtrend s (tr_kx t) (k_ztrend s (tr_kz t) p1)).
  assert (I0 : kshared initial) by (split; reflexivity). assert (J0 : nshared initial) by (split; reflexivity).
  assert (Hsnd : forall P : element -> Prop, Forall P aes -> Forall (fun ie => P (snd ie)) (combine (seq 0 (List.length aes)) aes)).
  { intros P HP. apply Forall_forall. intros [i e] Hi. apply in_combine_r in Hi. rewrite Forall_forall in HP. now apply HP. }
  assert (Hmap : forall (f : element -> R) l (a : nat), map (fun ie : nat * element => f (snd ie)) (combine (seq a (List.length l)) l) = map f l).
  { intros f l. induction l as [|x l IH]; intros a; cbn; [reflexivity|]. now rewrite IH. }
  split; [|split].
  - intros Ex Ha. apply (ntrends_at t p2 (0, 0, 0)%nat). apply (ktrends_at t p1 (0, 0, 0)%nat); [exact Ex|]. apply KS1; [|auto]. apply (Hsnd (fun e => tr_kx (a_trends e) = None)), Ha.
  - intros Ex. apply (ntrends_at t p2 (0, 0, 0)%nat); [exact Ex|]. apply (ktrends_at t p1 (0, 0, 0)%nat). auto.
  - intros c Hc. destruct (ntrends_at t p2 c) as (N1 & N2 & _). destruct (ktrends_at t p1 c) as (K1 & K2 & _). fold p2 in K1, K2.
    rewrite N1, N2, K1, K2. split.
    + intros j e He Hm.
      assert (Hsplit : exists l1 l2, combine (seq 0 (List.length aes)) aes = l1 ++ (j, e) :: l2 /\ List.length l1 = j).
      { apply nth_error_split. apply combine_seq_nth. auto. }
      destruct Hsplit as (l1 & l2 & El & Lj). rewrite El in H1. apply foldM_app in H1 as (q & Hq & H1). cbn [foldM] in H1. apply bind_Ok in H1 as (q1 & Hq1 & H1).
      destruct (element_step_at _ _ _ _ Hq1) as (_ & _ & C). destruct (element_loop_at _ _ _ H1) as (_ & _ & C').
      destruct (proj2 (C c Hc) Hm) as (v & V & Ev & W).
      assert (Hl2 : Forall (fun ie => ae_mask g (snd ie) c = false) l2).
      { apply Forall_forall. intros [i e'] Hi. cbn [snd]. apply (ae_mask_num e); [exact Hm|]. apply In_nth_error in Hi as (k & Hk).
        assert (Hk' : nth_error (combine (seq 0 (List.length aes)) aes) (j + S k) = Some (i, e')).
        { rewrite El, nth_error_app2 by lia. replace (j + S k - List.length l1)%nat with (S k) by lia. exact Hk. }
        apply combine_seq_nth in Hk' as [_ Hk']. rewrite (Hnum _ _ He), (Hnum _ _ Hk'). lia. }
      destruct (C' c Hc Hl2) as (Q1 & Q2). exists v, (p_n q1 c). split; [exact V|]. split; [exact W|].
      assert (Es : skipn j aes = e :: map snd l2).
      { assert (Ea : aes = map snd (combine (seq 0 (List.length aes)) aes)).
        { clear. generalize 0%nat. induction aes as [|x l IH]; intros a; cbn; [reflexivity|]. now rewrite <- IH. }
        rewrite Ea, El, map_app. cbn [map snd]. rewrite skipn_app, skipn_all2 by (rewrite map_length; lia). rewrite map_length. replace (j - List.length l1)%nat with 0%nat by lia. reflexivity. }
      rewrite Es. cbn [map product fold_right]. fold (product (map (factor_of c) (map snd l2))). rewrite map_map. unfold global_k, global_n. fold t.
      rewrite Q1, Q2, Ev. split; ring.
    + intros Hno. destruct (V0 c Hc (or_introl (pairs_complete _ _ _ Hc))) as (A & B).
      assert (Hall : Forall (fun e => ae_mask g e c = false) aes).
      { apply Forall_forall. intros e He. apply In_nth_error in He as (j & Hj). eauto. }
      destruct (V1 c Hc (Hsnd (fun e => ae_mask g e c = false) Hall)) as (Q1 & Q2). rewrite (Hmap (factor_of c)) in Q1.
      exists (p_k p0 c), (p_n p0 c). split; [exact A|]. split; [exact B|]. rewrite Q1, Q2. unfold global_k, global_n. fold t. split; ring.
Qed.
End Parameters.
