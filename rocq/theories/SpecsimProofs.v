(** Proofs about random fields. *)
From Coq Require Import List ZArith Bool Lia Reals Lra.
From Verif Require Import Base Num ArrayModel ArrayProofs SpecsimModel SpecsimSpec.
Import ListNotations.
Local Open Scope R_scope.

(** ** Boxes *)
Lemma min_list_spec l x : (min_list x l <= x)%nat /\ (forall y, In y l -> (min_list x l <= y)%nat) /\ In (min_list x l) (x :: l).
Proof.
  unfold min_list. revert x. induction l as [|z l IH]; intros x; cbn [fold_left].
  - split; [lia|]. split; [intros y []|now left].
  - destruct (IH (Nat.min x z)) as (H1 & H2 & H3). split; [lia|]. split; [intros y [->|Hy]; [lia|auto]|].
    destruct H3 as [H3|H3]; [|cbn; auto]. rewrite <- H3. destruct (Nat.min_spec x z) as [[_ E]|[_ E]]; rewrite E in H3 |- *; cbn; auto.
Qed.
Lemma max_list_spec l x : (x <= max_list x l)%nat /\ (forall y, In y l -> (y <= max_list x l)%nat) /\ In (max_list x l) (x :: l).
Proof.
  unfold max_list. revert x. induction l as [|z l IH]; intros x; cbn [fold_left].
  - split; [lia|]. split; [intros y []|now left].
  - destruct (IH (Nat.max x z)) as (H1 & H2 & H3). split; [lia|]. split; [intros y [->|Hy]; [lia|auto]|].
    destruct H3 as [H3|H3]; [|cbn; auto]. rewrite <- H3. destruct (Nat.max_spec x z) as [[_ E]|[_ E]]; rewrite E in H3 |- *; cbn; auto.
Qed.
Lemma bounds_spec l lo hi : bounds l = Some (lo, hi) -> (forall y, In y l -> (lo <= y <= hi)%nat) /\ In lo l /\ In hi l.
Proof.
  destruct l as [|x l]; [discriminate|]. cbn [bounds]. intros [= <- <-].
  destruct (min_list_spec l x) as (A1 & A2 & A3), (max_list_spec l x) as (B1 & B2 & B3).
  split; [|auto]. intros y [->|Hy]; [lia|]. specialize (A2 y Hy). specialize (B2 y Hy). lia.
Qed.

Lemma bounding_box_smallest s m b : bounding_box s m = Some b -> smallest_box s m (bx_lo b) (bx_hi b).
Proof.
  unfold bounding_box. destruct (bounds (map cx _)) as [[x0 x1]|] eqn:Ex; [|discriminate].
  destruct (bounds (map cy _)) as [[y0 y1]|] eqn:Ey; [|discriminate]. destruct (bounds (map cz _)) as [[z0 z1]|] eqn:Ez; [|discriminate].
  intros [= <-]. cbn [bx_lo bx_hi].
  apply bounds_spec in Ex as (Hx & X0 & X1), Ey as (Hy & Y0 & Y1), Ez as (Hz & Z0 & Z1).
  assert (K : forall f v, In v (map f (filter m (cells s))) -> exists c, In c (cells s) /\ m c = true /\ f c = v :> nat).
  { intros f v H. apply in_map_iff in H as (c & <- & H). apply filter_In in H as [H1 H2]. eauto. }
  assert (L : forall f c, In c (cells s) -> m c = true -> In (f c) (map (B := nat) f (filter m (cells s)))).
  { intros f c H1 H2. apply in_map, filter_In. auto. }
  unfold smallest_box. cbn [cx cy cz fst snd]. split; [intros c Hc Hm; auto|]. repeat split; apply K; assumption.
Qed.
Lemma bounding_box_some s m c : In c (cells s) -> m c = true -> exists b, bounding_box s m = Some b.
Proof.
  intros Hc Hm. assert (H : In c (filter m (cells s))) by (apply filter_In; auto).
  unfold bounding_box. destruct (filter m (cells s)) as [|d l]; [destruct H|]. cbn. eauto.
Qed.

(** The selected cells of the box, moved to their places in the grid, are the
    selected cells of the grid in the same order. *)
Lemma flat_map_restrict {B} (f : nat -> list B) n lo hi : (lo <= hi)%nat -> (hi < n)%nat ->
  (forall i, (i < n)%nat -> (i < lo \/ hi < i)%nat -> f i = []) ->
  flat_map f (seq 0 n) = flat_map (fun i => f (i + lo)%nat) (seq 0 (hi + 1 - lo)).
Proof.
  intros Hlh Hn H.
  replace (seq 0 n) with (seq 0 lo ++ seq lo (hi + 1 - lo) ++ seq (hi + 1) (n - (hi + 1)))%list.
  - rewrite !flat_map_app.
    assert (E : forall l, (forall i, In i l -> f i = []) -> flat_map f l = []).
    { induction l as [|i l IH]; intros K; cbn; [reflexivity|]. rewrite (K i (or_introl eq_refl)), IH; [reflexivity|intros; apply K; now right]. }
    rewrite (E (seq 0 lo)), (E (seq (hi + 1) _)), app_nil_r; cbn [app].
    + rewrite !flat_map_concat_map. f_equal.
      rewrite <- (map_map (fun i => (i + lo)%nat) f). f_equal.
      replace (map (fun i => (i + lo)%nat) (seq 0 (hi + 1 - lo))) with (map (fun i => (lo + i)%nat) (seq 0 (hi + 1 - lo))).
      * generalize (hi + 1 - lo)%nat. clear. intros n. rewrite <- (Nat.add_0_r lo) at 1. generalize 0%nat.
        induction n as [|n IH]; intros k; cbn; [reflexivity|]. rewrite <- IH. do 2 f_equal. lia.
      * apply map_ext. intros; lia.
    + intros i Hi. apply in_seq in Hi. apply H; lia.
    + intros i Hi. apply in_seq in Hi. apply H; lia.
  - replace n with (lo + ((hi + 1 - lo) + (n - (hi + 1))))%nat at 2 by lia. rewrite !seq_app. f_equal. f_equal. f_equal. lia.
Qed.

Definition leaf {B} (g : cell -> B) (m : mask) (c : cell) : list B := if m c then [g c] else [].
Lemma select_leaf {B} (g : cell -> B) (m : mask) s :
  map g (filter m (cells s)) =
  flat_map (fun i => flat_map (fun j => flat_map (fun k => leaf g m (i, j, k)) (seq 0 (cz s))) (seq 0 (cy s))) (seq 0 (cx s)).
Proof.
  assert (E : forall l, map g (filter m l) = flat_map (leaf g m) l).
  { induction l as [|c l IH]; [reflexivity|]. cbn [filter flat_map]. unfold leaf at 1. destruct (m c); cbn [map app]; now rewrite IH. }
  rewrite E. unfold cells.
  assert (F : forall (A B C : Type) (f : A -> list B) (h : B -> list C) l, flat_map h (flat_map f l) = flat_map (fun x => flat_map h (f x)) l).
  { intros A C D f h l. induction l as [|x l IH]; cbn; [reflexivity|]. now rewrite flat_map_app, IH. }
  rewrite F. apply flat_map_ext. intros i. rewrite F. apply flat_map_ext. intros j.
  rewrite flat_map_concat_map, map_map, <- flat_map_concat_map. reflexivity.
Qed.
Lemma flat_map_nil {A B} (f : A -> list B) l : (forall x, In x l -> f x = []) -> flat_map f l = [].
Proof. induction l as [|x l IH]; intros H; cbn; [reflexivity|]. rewrite (H x (or_introl eq_refl)), IH; [reflexivity|intros; apply H; now right]. Qed.

Lemma select_box {A} s m b (y : array A) : bounding_box s m = Some b ->
  select (box_shape b) (crop b m) y = map (fun c => y (relative (bx_lo b) c)) (filter m (cells s)).
Proof.
  intros H. pose proof (bounding_box_smallest _ _ _ H) as (Hin & (cx0 & X1 & X2 & X3) & (cx1 & X4 & X5 & X6) & (cy0 & Y1 & Y2 & Y3) & (cy1 & Y4 & Y5 & Y6) & (cz0 & Z1 & Z2 & Z3) & (cz1 & Z4 & Z5 & Z6)).
  unfold select. rewrite !select_leaf. set (g := fun c => y (relative (bx_lo b) c)).
  assert (Bx : (cx (bx_lo b) <= cx (bx_hi b) < cx s)%nat) by (pose proof (Hin _ X4 X5); apply in_cells in X4; lia).
  assert (By : (cy (bx_lo b) <= cy (bx_hi b) < cy s)%nat) by (pose proof (Hin _ Y4 Y5); apply in_cells in Y4; lia).
  assert (Bz : (cz (bx_lo b) <= cz (bx_hi b) < cz s)%nat) by (pose proof (Hin _ Z4 Z5); apply in_cells in Z4; lia).
  assert (N : forall i j k, (i < cx s)%nat -> (j < cy s)%nat -> (k < cz s)%nat ->
     (i < cx (bx_lo b) \/ cx (bx_hi b) < i \/ j < cy (bx_lo b) \/ cy (bx_hi b) < j \/ k < cz (bx_lo b) \/ cz (bx_hi b) < k)%nat -> leaf g m (i, j, k) = []).
  { intros i j k Hi Hj Hk Ho. unfold leaf. destruct (m (i, j, k)) eqn:E; [|reflexivity]. exfalso.
    assert (Hc : In (i, j, k) (cells s)) by (apply in_cells; cbn; lia). pose proof (Hin _ Hc E) as K. cbn in K. lia. }
  symmetry. rewrite (flat_map_restrict _ (cx s) (cx (bx_lo b)) (cx (bx_hi b))); [|lia|lia|].
  2:{ intros i Hi Ho. apply flat_map_nil. intros j Hj. apply flat_map_nil. intros k Hk. apply in_seq in Hj, Hk. apply N; lia. }
  cbn [box_shape cx cy cz fst snd].
  assert (G : forall (A B : Type) (f h : A -> list B) l, (forall x, In x l -> f x = h x) -> flat_map f l = flat_map h l).
  { clear. intros A B f h l K. induction l as [|x l IH]; cbn; [reflexivity|]. rewrite (K x (or_introl eq_refl)), IH; [reflexivity|intros; apply K; now right]. }
  apply G. intros i Hi. apply in_seq in Hi.
  rewrite (flat_map_restrict _ (cy s) (cy (bx_lo b)) (cy (bx_hi b))); [|lia|lia|].
  2:{ intros j Hj Ho. apply flat_map_nil. intros k Hk. apply in_seq in Hk. apply N; lia. }
  apply G. intros j Hj. apply in_seq in Hj.
  rewrite (flat_map_restrict _ (cz s) (cz (bx_lo b)) (cz (bx_hi b))); [|lia|lia|].
  2:{ intros k Hk Ho. apply N; lia. }
  apply G. intros k Hk. unfold leaf, crop, shift_cell. cbn [cx cy cz fst snd].
  match goal with |- (if m ?c then _ else _) = _ => destruct (m c); [|reflexivity] end. unfold g, relative. cbn [cx cy cz fst snd]. now rewrite !Nat.add_sub.
Qed.

(** ** Sums *)
Lemma sumn_ext n f g : (forall i, (i < n)%nat -> f i = g i) -> sumn n f = sumn n g.
Proof. induction n as [|n IH]; intros H; cbn; [reflexivity|]. rewrite IH, H by (intros; try apply H; lia). reflexivity. Qed.
Lemma sumn_zero n f : (forall i, (i < n)%nat -> f i = 0) -> sumn n f = 0.
Proof. induction n as [|n IH]; intros H; cbn; [reflexivity|]. rewrite IH, H by (intros; try apply H; lia). ring. Qed.
Lemma sumn_plus n f g : sumn n (fun i => f i + g i) = sumn n f + sumn n g.
Proof. induction n as [|n IH]; cbn; [ring|]. rewrite IH. ring. Qed.
Lemma sumn_scale n a f : sumn n (fun i => a * f i) = a * sumn n f.
Proof. induction n as [|n IH]; cbn; [ring|]. rewrite IH. ring. Qed.
Lemma sumn_swap n k f : sumn n (fun i => sumn k (fun j => f i j)) = sumn k (fun j => sumn n (fun i => f i j)).
Proof.
  induction n as [|n IH]; cbn.
  - induction k; cbn; [reflexivity|]. rewrite <- IHk. ring.
  - rewrite IH, <- sumn_plus. reflexivity.
Qed.
Lemma sum_cells_swap s n f : sumn n (fun i => sum_cells s (fun c => f i c)) = sum_cells s (fun c => sumn n (fun i => f i c)).
Proof.
  unfold sum_cells. rewrite sumn_swap. apply sumn_ext. intros i _. rewrite sumn_swap. apply sumn_ext. intros j _. apply sumn_swap.
Qed.
Lemma sum_cells_zero s f : (forall c, In c (cells s) -> f c = 0) -> sum_cells s f = 0.
Proof. intros H. unfold sum_cells. apply sumn_zero. intros i Hi. apply sumn_zero. intros j Hj. apply sumn_zero. intros k Hk. apply H, in_cells. cbn. lia. Qed.

Lemma line_sum_sumn n y j k : line_sum n y j k = sumn n (fun i => y (i, j, k)).
Proof.
  unfold line_sum. replace (sumn n (fun i => y (i, j, k))) with (sumn n (fun i => y ((0 + i)%nat, j, k))) by reflexivity.
  generalize 0%nat as b. induction n as [|n IH]; intros b; cbn; [reflexivity|].
  rewrite IH. clear IH. rewrite Rplus_comm.
  assert (E : forall m (f : nat -> R), sumn m (fun i => f (S i)) + f 0%nat = sumn m f + f m).
  { induction m as [|m IHm]; intros f; cbn; [ring|]. rewrite <- (IHm f). ring. }
  specialize (E n (fun i => y ((b + i)%nat, j, k))). cbn beta in E. rewrite Nat.add_0_r in E. rewrite <- E. f_equal.
  apply sumn_ext. intros i _. now rewrite <- plus_n_Sm.
Qed.

(** Whole periods of cos and sin sum up to zero. *)
Lemma telescope al ph n :
  2 * sin (al / 2) * sumn n (fun i => cos (al * INR i + ph)) = sin (al * INR n - al / 2 + ph) - sin (ph - al / 2).
Proof.
  induction n as [|n IH].
  - cbn [sumn INR]. replace (al * 0 - al / 2 + ph) with (ph - al / 2) by ring. ring.
  - cbn [sumn]. rewrite Rmult_plus_distr_l, IH.
    replace (al * INR (S n) - al / 2 + ph) with ((al * INR n + ph) + al / 2) by (rewrite S_INR; field).
    replace (al * INR n - al / 2 + ph) with ((al * INR n + ph) - al / 2) by ring.
    rewrite sin_plus, sin_minus. ring.
Qed.
Lemma period_sum n f ph : (0 < f < n)%nat -> sumn n (fun i => cos (2 * PI * (INR f * INR i / INR n) + ph)) = 0.
Proof.
  intros [Hf Hn]. assert (Hn' : 0 < INR n) by (apply lt_0_INR; lia). assert (Hf' : 0 < INR f) by (apply lt_0_INR; lia).
  assert (Hfn : INR f < INR n) by (apply lt_INR; lia).
  set (al := 2 * PI * INR f / INR n).
  assert (E : sumn n (fun i => cos (2 * PI * (INR f * INR i / INR n) + ph)) = sumn n (fun i => cos (al * INR i + ph))).
  { apply sumn_ext. intros i _. do 2 f_equal. unfold al. field. lra. }
  rewrite E. pose proof (telescope al ph n) as H.
  assert (E2 : al * INR n - al / 2 + ph = (ph - al / 2) + 2 * INR f * PI) by (unfold al; field; lra).
  rewrite E2, sin_period in H.
  assert (Hs : 0 < sin (al / 2)).
  { pose proof PI_RGT_0. assert (E3 : al / 2 = PI * (INR f / INR n)) by (unfold al; field; lra). rewrite E3.
    assert (Hq0 : 0 < INR f / INR n) by (apply Rdiv_lt_0_compat; lra).
    assert (Hq1 : INR f / INR n < 1) by (apply (Rmult_lt_reg_r (INR n)); [lra|]; unfold Rdiv; rewrite Rmult_assoc, Rinv_l by lra; lra).
    apply sin_gt_0; nra. }
  nra.
Qed.
