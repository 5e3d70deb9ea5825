(** C120 (number and migration of troughs) and C121 (deviations of channels). *)
From Coq Require Import List ZArith Reals Lra Lia.
From Verif Require Import Base Num SurfaceModel SurfaceProofs TroughModel TroughProofs CurveModel ChoiceModel NoiseModel.
Import ListNotations.
Local Open Scope R_scope.

(** ** C120: troughs

    Specification: the troughs of all planes, from the top down.  A plane without
    migration holds as many as the Poisson number for density times area, at the
    drawn places of the domain; with migration every plane but the first holds
    those of the plane above, moved by [step]. *)
Definition scattered (x0 y0 lx ly density z : R) (r : raw_plane) (pl : list (position R)) : Prop :=
  rp_poisson r (density * (lx * ly)) = Ok (List.length pl) /\
  forall k p, nth_error pl k = Some p -> p = (x0 + lx * fst (rp_uniform r k), y0 + ly * snd (rp_uniform r k), z).
Definition moved (step : R * R -> R * R) (z : R) (r : raw_plane) (above pl : list (position R)) : Prop :=
  List.length pl = List.length above /\
  forall k p q, nth_error above k = Some p -> nth_error pl k = Some q ->
    q = (fst (fst p) + fst (step (rp_normal r k)), snd (fst p) + snd (step (rp_normal r k)), z).
Fixpoint scattered_planes (x0 y0 lx ly density : R) (zs : list R) (raws : list raw_plane) (pls : list (list (position R))) : Prop :=
  match zs, raws, pls with
  | [], _, [] => True
  | z :: zs, r :: raws, pl :: pls => scattered x0 y0 lx ly density z r pl /\ scattered_planes x0 y0 lx ly density zs raws pls
  | _, _, _ => False
  end.
Fixpoint moved_planes (step : R * R -> R * R) (above : list (position R)) (zs : list R) (raws : list raw_plane) (pls : list (list (position R))) : Prop :=
  match zs, raws, pls with
  | [], _, [] => True
  | z :: zs, r :: raws, pl :: pls => moved step z r above pl /\ moved_planes step pl zs raws pls
  | _, _, _ => False
  end.

Lemma random_scattered (g : grid R) density z r n :
  rp_poisson r (plane_lambda density (g_lx g) (g_ly g)) = Ok n ->
  scattered (g_x0 g) (g_y0 g) (g_lx g) (g_ly g) density z r
    (map (fun u => (uniform (g_x0 g) (g_x0 g + g_lx g) (fst u), uniform (g_y0 g) (g_y0 g + g_ly g) (snd u), z)) (map (rp_uniform r) (seq 0 n))).
Proof.
  intros H. unfold scattered. rewrite !map_length, seq_length. split.
  - rewrite <- H. f_equal. unfold plane_lambda. ring.
  - intros k p K. rewrite !nth_error_map in K. destruct (nth_error (seq 0 n) k) as [j|] eqn:E; [|discriminate].
    assert (k < n)%nat by (rewrite <- (seq_length n 0); apply nth_error_Some; congruence).
    rewrite nth_error_nth' with (d := 0%nat) in E by (now rewrite seq_length). rewrite seq_nth in E by assumption. injection E as <-. cbn in K. injection K as <-.
    unfold uniform. apply f_equal2; [apply f_equal2; numR; ring|reflexivity].
Qed.

Lemma loop_random (g : grid R) density : forall zs raws i total total' te te' ds,
  draw_planes density (g_lx g) (g_ly g) None (firstn (List.length zs) raws) i total = Ok ds ->
  plane_loop g false zs ds i total' te = Ok te' ->
  exists pls, te' = (te ++ List.concat pls)%list /\ scattered_planes (g_x0 g) (g_y0 g) (g_lx g) (g_ly g) density zs raws pls.
Proof.
  induction zs as [|z zs IH]; intros raws i total total' te te' ds Hd Hl; cbn [plane_loop] in Hl.
  - injection Hl as <-. exists []. cbn. now rewrite app_nil_r.
  - destruct raws as [|r raws]; [cbn in Hd; injection Hd as <-; discriminate|]. cbn [List.length firstn draw_planes] in Hd.
    assert (Hd' : (let* n := rp_poisson r (plane_lambda density (g_lx g) (g_ly g)) in
      let* rest := draw_planes density (g_lx g) (g_ly g) None (firstn (List.length zs) raws) (S i) n in
      Ok (mkPlane (map (rp_uniform r) (seq 0 n)) (fun _ => (0, 0)) :: rest)) = Ok ds) by (destruct i; exact Hd).
    apply bind_Ok in Hd' as (n & Hn & Hd'). apply bind_Ok in Hd' as (rest & Hr & Hd'). injection Hd' as <-.
    rewrite Bool.orb_true_r in Hl. cbn [pd_uniform] in Hl. destruct (IH _ _ _ _ _ _ _ Hr Hl) as (pls & -> & K).
    eexists (_ :: pls). cbn [List.concat]. rewrite app_assoc. split; [reflexivity|]. split; [now apply random_scattered|assumption].
Qed.

Lemma migrate_plane_Ok i total z d : forall n k te te', (i <> 0)%nat ->
  migrate_plane (T := R) i total z d n k te = Ok te' -> exists pl, te' = (te ++ pl)%list /\ List.length pl = n /\
  forall j q, nth_error pl j = Some q -> exists p, nth_error (te ++ pl) (k + j + (i - 1) * total) = Some p /\
    q = (fst (fst p) + fst (d (k + j)%nat), snd (fst p) + snd (d (k + j)%nat), z).
Proof.
  induction n as [|n IH]; intros k te te' Hi H; cbn [migrate_plane] in H.
  - injection H as <-. exists []. rewrite app_nil_r. split; [reflexivity|]. split; [reflexivity|]. intros [|j]; discriminate.
  - destruct (nth_error te (k + (i - 1) * total)) as [[[x y] zz]|] eqn:E; [|discriminate]. apply IH in H as (pl & -> & L & K); [|assumption].
    exists ((x + fst (d k), y + snd (d k), z) :: pl). rewrite <- app_assoc. cbn [List.length app]. split; [reflexivity|]. split; [now rewrite L|].
    intros [|j] q; cbn [nth_error]; intros Hq.
    + injection Hq as <-. exists (x, y, zz). rewrite Nat.add_0_r. split; [|reflexivity]. rewrite nth_error_app1; [assumption|]. apply nth_error_Some. congruence.
    + destruct (K j q Hq) as (p & P1 & P2). exists p. replace (k + S j)%nat with (S k + j)%nat by lia. split; [|assumption].
      rewrite <- app_assoc in P1. exact P1.
Qed.

Lemma Forall2_nth_l {A B} (P : A -> B -> Prop) l m k a : Forall2 P l m -> nth_error l k = Some a -> exists b, nth_error m k = Some b /\ P a b.
Proof. intros H. revert k. induction H; intros [|k]; cbn; try discriminate; [intros [= <-]; eauto|auto]. Qed.
Lemma displacement_Ok mx sx my sy n p : displacement [mx; sx; my; sy] n = Ok p -> p = (mx + sx * fst n, my + sy * snd n) /\ 0 <= sx /\ 0 <= sy.
Proof.
  unfold displacement, normal. cbn [bind pyget pyidx List.length nth_error Z.of_nat]. 
  change (pyget [mx; sx; my; sy] 0) with (@Ok R mx). change (pyget [mx; sx; my; sy] 1) with (@Ok R sx).
  change (pyget [mx; sx; my; sy] 2) with (@Ok R my). change (pyget [mx; sx; my; sy] 3) with (@Ok R sy). cbn [bind].
  destruct (Rltb_spec sx 0); [discriminate|]. cbn [bind]. destruct (Rltb_spec sy 0); [discriminate|]. cbn [bind]. intros [= <-]. split; [reflexivity|]. lra.
Qed.

Lemma loop_moved (g : grid R) density mx sx my sy : forall zs raws i total above te te' ds,
  draw_planes density (g_lx g) (g_ly g) (Some [mx; sx; my; sy]) (firstn (List.length zs) raws) (S i) total = Ok ds ->
  (exists first, te = (first ++ above)%list /\ List.length above = total /\ List.length first = (i * total)%nat) ->
  plane_loop g true zs ds (S i) total te = Ok te' ->
  exists pls, te' = (te ++ List.concat pls)%list /\ moved_planes (fun n => (mx + sx * fst n, my + sy * snd n)) above zs raws pls.
Proof.
  induction zs as [|z zs IH]; intros raws i total above te te' ds Hd Ha Hl; cbn [plane_loop] in Hl.
  - injection Hl as <-. exists []. cbn. now rewrite app_nil_r.
  - destruct raws as [|r raws]; [cbn in Hd; injection Hd as <-; discriminate|]. cbn [List.length firstn draw_planes] in Hd.
    apply bind_Ok in Hd as (l & Hm & Hd). apply bind_Ok in Hd as (rest & Hr & Hd). injection Hd as <-.
    cbn [Nat.eqb orb negb pd_normal] in Hl. apply bind_Ok in Hl as (te1 & H1 & Hl).
    apply migrate_plane_Ok in H1 as (pl & -> & Lp & K); [|lia].
    destruct Ha as (first & -> & La & Lf).
    destruct (IH raws (S i) total pl ((first ++ above) ++ pl)%list te' rest Hr) as (pls & -> & Q).
    { exists (first ++ above)%list. split; [reflexivity|]. split; [assumption|]. rewrite app_length. cbn. lia. }
    { exact Hl. }
    exists (pl :: pls). cbn [List.concat]. rewrite <- !app_assoc. split; [reflexivity|]. split; [|assumption].
    split; [congruence|]. intros k p q Hp Hq. destruct (K k q Hq) as (p' & P1 & P2). cbn [Nat.add] in P1, P2.
    assert (k < total)%nat by (rewrite <- La; apply nth_error_Some; congruence).
    replace (k + (S i - 1) * total)%nat with (List.length first + k)%nat in P1 by (rewrite Lf; cbn; lia).
    rewrite <- app_assoc, nth_error_app2 in P1 by lia. replace (List.length first + k - List.length first)%nat with k in P1 by lia.
    rewrite nth_error_app1 in P1 by lia. rewrite Hp in P1. injection P1 as <-. rewrite P2.
    unfold displacements in Hm. apply mapM_Ok in Hm. assert (E : nth_error (seq 0 total) k = Some k).
    { rewrite nth_error_nth' with (d := 0%nat) by (now rewrite seq_length). now rewrite seq_nth. }
    destruct (Forall2_nth_l _ _ _ _ _ Hm E) as (v & V1 & V2). apply displacement_Ok in V2 as (-> & _).
    rewrite (nth_error_nth _ _ _ V1). reflexivity.
Qed.

(** C120: number and places of the troughs, without migration ... *)
Theorem C120_scattered : forall (g : grid R) density zmax top depth buffer agg raws te,
  raw_positions g density zmax top depth buffer agg None raws = Ok te ->
  exists zs pls, trough_planes zmax top depth buffer agg = Ok zs /\ te = List.concat pls /\
    scattered_planes (g_x0 g) (g_y0 g) (g_lx g) (g_ly g) density zs raws pls.
Proof.
  intros g density zmax top depth buffer agg raws te H. unfold raw_positions in H. apply bind_Ok in H as (zs & Hz & H).
  apply bind_Ok in H as (ds & Hd & H). unfold trough_positions in H. rewrite Hz in H. cbn [bind] in H.
  destruct (loop_random _ _ _ _ _ _ _ _ _ _ Hd H) as (pls & -> & K). exists zs, pls. auto.
Qed.
(** ... and with migration, the option being [mx, sx, my, sy]. *)
Theorem C120_moved : forall (g : grid R) density zmax top depth buffer agg mx sx my sy raws te,
  raw_positions g density zmax top depth buffer agg (Some [mx; sx; my; sy]) raws = Ok te -> te <> [] ->
  exists z zs r rs first pls, trough_planes zmax top depth buffer agg = Ok (z :: zs) /\ raws = r :: rs /\ te = List.concat (first :: pls) /\
    scattered (g_x0 g) (g_y0 g) (g_lx g) (g_ly g) density z r first /\
    moved_planes (fun n => (mx + sx * fst n, my + sy * snd n)) first zs rs pls.
Proof.
  intros g density zmax top depth buffer agg mx sx my sy raws te H Hne. unfold raw_positions in H. apply bind_Ok in H as (zs & Hz & H).
  apply bind_Ok in H as (ds & Hd & H). unfold trough_positions in H. rewrite Hz in H. cbn [bind] in H.
  destruct zs as [|z zs]; [cbn in H; injection H as <-; contradiction|].
  destruct raws as [|r rs]; [cbn in Hd; injection Hd as <-; discriminate|]. cbn [List.length firstn draw_planes] in Hd.
  apply bind_Ok in Hd as (n & Hn & Hd). apply bind_Ok in Hd as (rest & Hr & Hd). injection Hd as <-.
  cbn [plane_loop Nat.eqb orb pd_uniform app] in H. rewrite map_length, seq_length in H.
  match type of H with plane_loop _ _ _ _ _ _ ?f = _ => set (first := f) in * end.
  destruct (loop_moved g density mx sx my sy zs rs 0 n first first te rest Hr) as (pls & -> & K).
  { exists []. split; [reflexivity|]. unfold first. rewrite !map_length, seq_length. auto. }
  { exact H. }
  exists z, zs, r, rs, first, pls. split; [exact Hz|]. split; [reflexivity|]. split; [reflexivity|]. split; [now apply random_scattered|exact K].
Qed.

(** The documentation calls the second and fourth number variances: the step
    would be mean + sqrt(variance) * n.  With [0, 4, 0, 4] and a normal number 1
    in x the trough moves by 4, not by 2. *)
Definition documented_step (m : R * R * R * R) (n : R * R) : R * R :=
  let '(mx, vx, my, vy) := m in (mx + sqrt vx * fst n, my + sqrt vy * snd n).
Theorem C120_variance_refuted : exists (g : grid R) raws te first pls z zs,
  trough_planes 0 2 1 0 1 = Ok (z :: zs) /\
  raw_positions g (1 / 16) 0 2 1 0 1 (Some [0; 4; 0; 4]) raws = Ok te /\ te = List.concat (first :: pls) /\
  List.length first = 1%nat /\ List.length pls = List.length zs /\ Forall (fun pl => List.length pl = 1%nat) pls /\
  ~ moved_planes (documented_step (0, 4, 0, 4)) first zs (tl raws) pls.
Proof.
  set (g := mkGrid 0 0 0 1 1 1 4 4 4 [] [] []).
  set (r := mkRP (fun lam => Ok 1%nat) (fun _ => (0, 0)) (fun _ => (1, 0))).
  assert (Z : trough_planes 0 2 1 0 1 = Ok [2; 1]).
  { unfold trough_planes, SurfaceModel.arange. numR.
    assert (C : nceil ((0 + 1 * 0 - 2) / (0 - 1))%R = 2%Z) by (apply nceil_R_unique; cbn; lra).
    replace (Rleb 0 (0 - 1)) with false by (symmetry; apply Rleb_false; lra). rewrite Bool.andb_false_r, C. change (Z.to_nat 2) with 2%nat. cbn [seq map]. do 2 f_equal; [|f_equal]; cbn; lra. }
  assert (D : displacement [0; 4; 0; 4] (1, 0) = Ok (4, 0)).
  { unfold displacement, normal. change (pyget [0; 4; 0; 4] 0) with (@Ok R 0). change (pyget [0; 4; 0; 4] 1) with (@Ok R 4).
    change (pyget [0; 4; 0; 4] 2) with (@Ok R 0). change (pyget [0; 4; 0; 4] 3) with (@Ok R 4). cbn [bind].
    destruct (Rltb_spec 4 0); [lra|]. cbn [bind fst snd]. do 2 f_equal; lra. }
  assert (P : exists p q, raw_positions g (1 / 16) 0 2 1 0 1 (Some [0; 4; 0; 4]) [r; r] = Ok [p; q] /\ fst (fst q) = fst (fst p) + 4).
  { unfold raw_positions, trough_positions. rewrite Z. cbn -[displacement]. unfold displacements. cbn -[displacement]. rewrite D.
    cbn. do 2 eexists. split; [reflexivity|]. reflexivity. }
  destruct P as (p & q & P & Q). exists g, [r; r], [p; q], [p], [[q]], 2, [1]. split; [exact Z|]. split; [exact P|].
  do 3 (split; [reflexivity|]). split; [repeat constructor|]. intros (K & _). destruct K as [_ K]. specialize (K 0%nat _ _ eq_refl eq_refl). cbn in K. subst q. cbn in Q.
  replace (sqrt 4) with 2 in Q by (symmetry; replace 4 with (2 * 2) by lra; apply sqrt_square; lra). lra.
Qed.
(** As documented if the variances are 0 or 1. *)
Theorem C120_variance_partial : forall mx sx my sy n, (sx = 0 \/ sx = 1) -> (sy = 0 \/ sy = 1) ->
  documented_step (mx, sx, my, sy) n = (mx + sx * fst n, my + sy * snd n).
Proof. intros mx sx my sy n [-> | ->] [-> | ->]; unfold documented_step; rewrite ?sqrt_0, ?sqrt_1; reflexivity. Qed.
(** A negative number there is accepted in the ini-file and raises ValueError
    when the second plane is made. *)
Theorem C120_negative_scale : forall mx sx my sy n, sx < 0 \/ sy < 0 -> displacement [mx; sx; my; sy] n = Err ValueError.
Proof.
  intros mx sx my sy n H. unfold displacement, normal. change (pyget [mx; sx; my; sy] 0) with (@Ok R mx). change (pyget [mx; sx; my; sy] 1) with (@Ok R sx).
  change (pyget [mx; sx; my; sy] 2) with (@Ok R my). change (pyget [mx; sx; my; sy] 3) with (@Ok R sy). cbn [bind].
  destruct (Rltb_spec sx 0); [reflexivity|]. cbn [bind]. destruct (Rltb_spec sy 0); [reflexivity|]. lra.
Qed.

(** ** C121: deviations of channels *)

(** Without deviations (all normal numbers 0) the directions should all be 0, and
    the opposite numbers should give the opposite directions. *)
Definition opposite (a b : list R) : Prop := Forall2 (fun x y => x = - y) a b.

Theorem C121_bias_refuted : forall eps_factor k h, eps_factor <> 0 ->
  ~ Forall (fun th => th = 0) (raw_theta 3 (fun _ => 0) eps_factor k h) /\
  exists n, ~ opposite (raw_theta 3 n eps_factor k h) (raw_theta 3 (fun i => - n i) eps_factor k h).
Proof.
  intros e k h He. unfold raw_theta, ferguson_theta. split.
  - intros K. inversion_clear K as [|? ? _ K1]. inversion_clear K1 as [|? ? _ K2]. inversion_clear K2 as [|? ? K3 _].
    unfold deviation, thetaAR2 in K3. rewrite ?Rmult_0_r, ?Rplus_0_r, ?Rplus_0_l, ?Rmult_0_l in K3. ring_simplify in K3. contradiction.
  - exists (fun _ => 0). intros K. inversion_clear K as [|? ? ? ? _ K1]. inversion_clear K1 as [|? ? ? ? _ K2]. inversion_clear K2 as [|? ? ? ? K3 _].
    unfold deviation, thetaAR2 in K3. rewrite Ropp_0 in K3. ring_simplify in K3. lra.
Qed.

(** The deviations are symmetric around the directions of a channel whose normal
    numbers are all 0. *)
Lemma thetas_middle e k h (n : nat -> R) : forall m i a1 a2 b1 b2 c1 c2, a1 + b1 = 2 * c1 -> a2 + b2 = 2 * c2 ->
  forall j x y z, nth_error (thetas m i a1 a2 (deviation n) e k h) j = Some x ->
    nth_error (thetas m i b1 b2 (deviation (fun i => - n i)) e k h) j = Some y ->
    nth_error (thetas m i c1 c2 (deviation (fun _ => 0)) e k h) j = Some z -> x + y = 2 * z.
Proof.
  induction m as [|m IH]; intros i a1 a2 b1 b2 c1 c2 H1 H2 [|j] x y z; cbn [thetas nth_error]; try discriminate.
  - intros [= <-] [= <-] [= <-]. unfold thetaAR2. replace a1 with (2 * c1 - b1) by lra. replace a2 with (2 * c2 - b2) by lra.
    destruct i as [|[|i]]; cbn [deviation]; ring.
  - apply IH; [|assumption]. unfold thetaAR2. replace a1 with (2 * c1 - b1) by lra. replace a2 with (2 * c2 - b2) by lra.
    destruct i as [|[|i]]; cbn [deviation]; ring.
Qed.
Theorem C121_symmetric_partial : forall m n e k h j x y z,
  nth_error (raw_theta m n e k h) j = Some x -> nth_error (raw_theta m (fun i => - n i) e k h) j = Some y ->
  nth_error (raw_theta m (fun _ => 0) e k h) j = Some z -> x + y = 2 * z.
Proof. intros m n e k h j x y z. apply thetas_middle; lra. Qed.
(** The first two directions are as they should be. *)
Theorem C121_start : forall m e k h, Forall (fun th => th = 0) (firstn 2 (raw_theta m (fun _ => 0) e k h)).
Proof.
  intros [|[|m]] e k h; cbn [raw_theta ferguson_theta thetas firstn]; repeat constructor; unfold deviation, thetaAR2; ring.
Qed.
(** The directions follow Ferguson's recurrence, with k and h as they are named,
    except for the 1 that is added to every deviation but the first two. *)
Theorem C121_recurrence : forall (m : nat) (n : nat -> R) (e k h : R),
  List.length (raw_theta m n e k h) = m /\
  (forall x, nth_error (raw_theta m n e k h) 0 = Some x -> x = 0) /\
  (forall x y, nth_error (raw_theta m n e k h) 0 = Some x -> nth_error (raw_theta m n e k h) 1 = Some y ->
     y = e * n 1%nat + 2 * exp (- (k * h)) * cos (k * asin h) * x) /\
  (forall i x y z, nth_error (raw_theta m n e k h) i = Some x -> nth_error (raw_theta m n e k h) (S i) = Some y ->
     nth_error (raw_theta m n e k h) (S (S i)) = Some z ->
     z = e * (1 + n (S (S i))) + 2 * exp (- (k * h)) * cos (k * asin h) * y - exp (- (2 * k * h)) * x).
Proof.
  intros m n e k h. unfold raw_theta, ferguson_theta.
  replace (- (k * h)) with (- k * h) by ring. replace (- (2 * k * h)) with (-2 * k * h) by ring.
  split.
  { assert (forall m i t1 t2, List.length (thetas m i t1 t2 (deviation n) e k h) = m) as L; [|apply L].
    clear m. induction m as [|m IH]; intros i t1 t2; cbn [thetas List.length]; [reflexivity|]. now rewrite IH. }
  split. { destruct m; [discriminate|]. intros x [= <-]. unfold thetaAR2. ring. }
  split. { destruct m as [|[|m]]; [discriminate..|]. intros x y [= <-] [= <-]. unfold thetaAR2, deviation. ring. }
  assert (G : forall m i t1 t2 j x y z, let l := thetas m i t1 t2 (deviation n) e k h in
    nth_error l j = Some x -> nth_error l (S j) = Some y -> nth_error l (S (S j)) = Some z ->
    z = e * (1 + n (S (S (j + i)))) + 2 * exp (- k * h) * cos (k * asin h) * y - exp (-2 * k * h) * x).
  { clear m. induction m as [|m IH]; intros i t1 t2 j x y z; cbn zeta; [destruct j; discriminate|]. destruct j as [|j].
    - destruct m as [|[|m]]; cbn [thetas nth_error]; [discriminate..|]. intros [= <-] [= <-] [= <-]. unfold thetaAR2 at 1. cbn [deviation Nat.add]. ring.
    - cbn [thetas nth_error]. intros H1 H2 H3. replace (S j + i)%nat with (j + S i)%nat by lia. exact (IH _ _ _ _ _ _ _ H1 H2 H3). }
  intros i x y z H1 H2 H3. rewrite (G _ _ _ _ _ _ _ _ H1 H2 H3), Nat.add_0_r. reflexivity.
Qed.
Print Assumptions C121_recurrence.
Example noise_case : nth_error (raw_theta 3 (fun _ => 0) 1 1 1) 2 = Some 1.
Proof. cbn [raw_theta ferguson_theta thetas nth_error]. unfold deviation, thetaAR2. f_equal. ring. Qed.

Print Assumptions C120_scattered.
Print Assumptions C120_moved.
Print Assumptions C120_variance_refuted.
Print Assumptions C120_variance_partial.
Print Assumptions C120_negative_scale.
Print Assumptions C121_bias_refuted.
Print Assumptions C121_symmetric_partial.
Print Assumptions C121_start.
