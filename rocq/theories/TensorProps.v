(** Properties of conductivity tensors. *)
From Coq Require Import List ZArith Bool Lia Reals Lra Psatz.
From Verif Require Import Base Num ArrayModel ArrayProofs TroughSpec SheetSpec TensorModel TensorSpec.
Import ListNotations.
Local Open Scope R_scope.

Lemma sin2_cos2' x : sin x ^ 2 + cos x ^ 2 = 1.
Proof. pose proof (sin2_cos2 x). unfold Rsqr in H. nra. Qed.

(** The cells of a loop that sets each of them. *)
Lemma foldM_set1 {A} (f : cell -> res A) l a b : NoDup l ->
  foldM (fun a c => let* v := f c in Ok (set1 a c v)) a l = Ok b ->
  (forall c, In c l -> f c = Ok (b c)) /\ (forall c, ~ In c l -> b c = a c).
Proof.
  revert a. induction l as [|d l IH]; intros a Hn H; cbn [foldM] in H.
  - injection H as <-. split; [intros c []|reflexivity].
  - inversion_clear Hn as [|? ? Hd Hn']. destruct (f d) as [v|] eqn:E; [|discriminate]. cbn [bind] in H.
    destruct (IH _ Hn' H) as (H1 & H2). split.
    + intros c [->|Hc]; [|auto]. rewrite (H2 _ Hd), set1_same. exact E.
    + intros c Hc. rewrite H2; [|intros ?; apply Hc; now right]. apply set1_other. intros ->. apply Hc. now left.
Qed.

Lemma foldM_ok {A S} (f : S -> A -> res S) l s : (forall s x, In x l -> exists s', f s x = Ok s') -> exists s', foldM f s l = Ok s'.
Proof.
  revert s. induction l as [|x l IH]; intros s H; cbn [foldM]; [eauto|].
  destruct (H s x (or_introl eq_refl)) as (s' & ->). cbn [bind]. apply IH. intros; apply H. now right.
Qed.

Lemma sin_difference k p : sin (k + 2 * p) - sin (k - 2 * p) = 4 * cos k * sin p * cos p.
Proof. rewrite sin_plus, sin_minus, sin_2a. ring. Qed.
Lemma cos_difference k p : cos (k - 2 * p) - cos (k + 2 * p) = 4 * sin k * sin p * cos p.
Proof. rewrite cos_plus, cos_minus, sin_2a. ring. Qed.

(** The value of one cell in terms of the normal of the bedding. *)
Lemma cell_tensor_documented kappa psi r k t :
  cell_tensor imported_names kappa psi r k = Ok t ->
  forall i j, (i < 3)%nat -> (j < 3)%nat -> t i j = documented_tensor k r kappa psi i j.
Proof.
  intros H i j Hi Hj. unfold cell_tensor in H. cbn [imported_names nm_sin nm_cos lookup bind] in H.
  rewrite sin_difference, cos_difference in H. injection H as <-.
  pose proof (sin2_cos2' kappa) as Hk. pose proof (sin2_cos2' psi) as Hp.
  set (a := 1 / r). unfold documented_tensor, times, transposed, diagonal, rotation, sum3, mk_tensor. fold a.
  set (sk := sin kappa) in *. set (ck := cos kappa) in *. set (sp := sin psi) in *. set (cp := cos psi) in *.
  assert (E1 : sk ^ 2 = 1 - ck ^ 2) by lra. assert (E2 : sp ^ 2 = 1 - cp ^ 2) by lra.
  destruct i as [|[|[|i]]]; [| | |lia]; (destruct j as [|[|[|j]]]; [| | |lia]); cbn [Nat.eqb]; field_simplify; rewrite ?E1, ?E2; 
    try ring; nra.
Qed.

(** ** C52: the tensors are those of the documentation

    For a module that imports sin and cos; as written the function fails (C53). *)
Theorem C52_documented_tensor_partial s kt k_iso azim dip anirat kt' :
  set_anisotropic_ktensor imported_names s kt k_iso azim dip anirat = Ok kt' ->
  forall c, In c (cells s) ->
  forall i j, (i < 3)%nat -> (j < 3)%nat -> kt' c i j = documented_tensor (k_iso c) (anirat c) (azim c) (dip c) i j.
Proof.
  intros H c Hc i j Hi Hj. unfold set_anisotropic_ktensor in H. apply foldM_set1 in H as (H1 & _); [|apply cells_NoDup].
  eapply cell_tensor_documented; eauto.
Qed.

(** The documented tensor is the identity minus a part across the bedding. *)
Lemma documented_normal k r kappa psi i j : (i < 3)%nat -> (j < 3)%nat ->
  documented_tensor k r kappa psi i j =
  k * ((if Nat.eqb i j then 1 else 0) - (1 - 1 / r) * (rotation kappa psi i 2%nat * rotation kappa psi j 2%nat)).
Proof.
  intros Hi Hj. pose proof (sin2_cos2' kappa) as Hk. pose proof (sin2_cos2' psi) as Hp.
  set (a := 1 / r). unfold documented_tensor, times, transposed, diagonal, rotation, sum3. fold a.
  set (sk := sin kappa) in *. set (ck := cos kappa) in *. set (sp := sin psi) in *. set (cp := cos psi) in *.
  assert (E1 : sk ^ 2 = 1 - ck ^ 2) by lra. assert (E2 : sp ^ 2 = 1 - cp ^ 2) by lra.
  destruct i as [|[|[|i]]]; [| | |lia]; (destruct j as [|[|[|j]]]; [| | |lia]); cbn [Nat.eqb]; field_simplify; rewrite ?E1, ?E2;
    try ring; nra.
Qed.

Lemma normal_unit kappa psi : inner (fun i => rotation kappa psi i 2%nat) (fun i => rotation kappa psi i 2%nat) = 1.
Proof.
  pose proof (sin2_cos2' kappa) as Hk. pose proof (sin2_cos2' psi) as Hp. unfold inner, sum3, rotation.
  set (sk := sin kappa) in *. set (ck := cos kappa) in *. set (sp := sin psi) in *. set (cp := cos psi) in *.
  transitivity ((sk ^ 2 + ck ^ 2) * sp ^ 2 + cp ^ 2); [ring|]. rewrite Hk, Rmult_1_l. exact Hp.
Qed.

Lemma apply_documented k r kappa psi v i : (i < 3)%nat ->
  apply (documented_tensor k r kappa psi) v i =
  k * (v i - (1 - 1 / r) * inner (fun i => rotation kappa psi i 2%nat) v * rotation kappa psi i 2%nat).
Proof.
  intros Hi. unfold apply, sum3. rewrite !documented_normal by lia. unfold inner, sum3.
  destruct i as [|[|[|i]]]; [| | |lia]; cbn [Nat.eqb]; ring.
Qed.

(** What the tensor does: symmetric; conductivity k in the plane of the
    bedding, k/r across it; positive definite; the identity for r = 1. *)
Theorem C52_symmetric k r kappa psi i j : (i < 3)%nat -> (j < 3)%nat ->
  documented_tensor k r kappa psi i j = documented_tensor k r kappa psi j i.
Proof. intros. rewrite !documented_normal by assumption. rewrite Nat.eqb_sym. ring. Qed.

Theorem C52_principal_directions k r az dip :
  (forall v, inner (tensor_normal az dip) v = 0 -> same3 (apply (documented_tensor k r (radians az) (radians dip)) v) (scale k v)) /\
  same3 (apply (documented_tensor k r (radians az) (radians dip)) (tensor_normal az dip)) (scale (k * (1 / r)) (tensor_normal az dip)).
Proof.
  split.
  - intros v Hv i Hi. rewrite apply_documented by assumption. unfold tensor_normal in Hv. rewrite Hv. unfold scale. ring.
  - intros i Hi. rewrite apply_documented by assumption. unfold tensor_normal. rewrite normal_unit. unfold scale. ring.
Qed.

Lemma cauchy_schwarz (u v : vector) : inner u v ^ 2 <= inner u u * inner v v.
Proof.
  unfold inner, sum3.
  pose proof (Rle_0_sqr (u 0%nat * v 1%nat - u 1%nat * v 0%nat)).
  pose proof (Rle_0_sqr (u 0%nat * v 2%nat - u 2%nat * v 0%nat)).
  pose proof (Rle_0_sqr (u 1%nat * v 2%nat - u 2%nat * v 1%nat)). unfold Rsqr in *. nra.
Qed.

Theorem C52_positive_definite k r kappa psi v : 0 < k -> 0 < r ->
  (exists i, (i < 3)%nat /\ v i <> 0) -> 0 < inner v (apply (documented_tensor k r kappa psi) v).
Proof.
  intros Hk Hr Hv. set (n := fun i => rotation kappa psi i 2%nat). set (s := inner n v).
  assert (E : inner v (apply (documented_tensor k r kappa psi) v) = k * ((inner v v - s ^ 2) + (1 / r) * s ^ 2)).
  { unfold inner at 1, sum3. rewrite !apply_documented by lia. fold n. fold s.
    change (rotation kappa psi 0%nat 2%nat) with (n 0%nat). change (rotation kappa psi 1%nat 2%nat) with (n 1%nat). change (rotation kappa psi 2%nat 2%nat) with (n 2%nat).
    transitivity (k * (inner v v - (1 - 1 / r) * s * inner n v)); [unfold inner, sum3; ring|fold s; ring]. }
  rewrite E. apply Rmult_lt_0_compat; [assumption|].
  assert (Hn : inner n n = 1) by apply normal_unit.
  pose proof (cauchy_schwarz n v) as HC. fold s in HC. rewrite Hn, Rmult_1_l in HC.
  assert (Hr' : 0 < 1 / r) by (apply Rdiv_lt_0_compat; lra).
  assert (Hp : 0 < inner v v).
  { destruct Hv as (i & Hi & Hv). unfold inner, sum3.
    pose proof (Rle_0_sqr (v 0%nat)). pose proof (Rle_0_sqr (v 1%nat)). pose proof (Rle_0_sqr (v 2%nat)).
    pose proof (Rsqr_pos_lt _ Hv). unfold Rsqr in *. destruct i as [|[|[|i]]]; [| | |lia]; lra. }
  destruct (Req_dec s 0) as [Hs|Hs]; [rewrite Hs; nra|].
  assert (0 < s ^ 2) by (pose proof (Rsqr_pos_lt _ Hs); unfold Rsqr in *; nra). nra.
Qed.

Theorem C52_isotropic k kappa psi i j : (i < 3)%nat -> (j < 3)%nat ->
  documented_tensor k 1 kappa psi i j = if Nat.eqb i j then k else 0.
Proof. intros Hi Hj. rewrite documented_normal by assumption. replace (1 / 1) with 1 by field. destruct (Nat.eqb i j); ring. Qed.

(** A bedding that dips by 90 degrees towards east (azimuth 0): with ratio 10
    the conductivity in the x direction is a tenth. *)
Example C52_example : exists t, cell_tensor imported_names (radians 0) (radians 90) 10 5 = Ok t /\ t 0%nat 0%nat = 1 / 2 /\ t 2%nat 2%nat = 5.
Proof.
  eexists. split; [reflexivity|]. unfold radians. replace (0 * PI / 180) with 0 by field. replace (90 * PI / 180) with (PI / 2) by field.
  unfold mk_tensor. rewrite sin_0, cos_0, sin_PI2, cos_PI2. split; field.
Qed.

(** ** C53: computing the tensors does not fail

    False: sin and cos are not defined in optimized.py. *)
Theorem C53_name_error_refuted s kt k_iso azim dip anirat : (0 < cx s)%nat -> (0 < cy s)%nat -> (0 < cz s)%nat ->
  set_anisotropic_ktensor optimized_names s kt k_iso azim dip anirat = Err NameError.
Proof.
  intros Hx Hy Hz. unfold set_anisotropic_ktensor. destruct (cells s) as [|c l] eqn:E.
  - assert (In (0%nat, 0%nat, 0%nat) (cells s)) as H by (apply in_cells; cbn; auto). rewrite E in H. destruct H.
  - reflexivity.
Qed.
(** With both names imported it completes for every grid. *)
Theorem C53_completes_partial s kt k_iso azim dip anirat :
  exists kt', set_anisotropic_ktensor imported_names s kt k_iso azim dip anirat = Ok kt' /\ forall c, ~ In c (cells s) -> kt' c = kt c.
Proof.
  destruct (foldM_ok (fun kt c => let* t := cell_tensor imported_names (azim c) (dip c) (anirat c) (k_iso c) in Ok (set1 kt c t)) (cells s) kt) as (kt' & H).
  { intros; cbn [cell_tensor imported_names nm_sin nm_cos lookup bind]. eauto. }
  exists kt'. split; [exact H|]. apply foldM_set1 in H as (_ & H); [exact H|apply cells_NoDup].
Qed.

Print Assumptions C52_documented_tensor_partial.
Print Assumptions C52_symmetric.
Print Assumptions C52_principal_directions.
Print Assumptions C52_positive_definite.
Print Assumptions C52_isotropic.
Print Assumptions C53_name_error_refuted.
Print Assumptions C53_completes_partial.
