(** C115: the pictures of cross sections. *)
From Coq Require Import List ZArith QArith Reals Lra Lia Bool.
From Verif Require Import Base Num SurfaceModel SurfaceProofs SurfaceProps PlotModel PlotSpec.
Import ListNotations.
Local Open Scope R_scope.

(** np.round is off by at most a half. *)
Lemma nround_R (x : R) : IZR (nround x) - 1 / 2 <= x <= IZR (nround x) + 1 / 2.
Proof.
  unfold nround. cbn [nfloor NumR nleb nsub nofZ n1 ndiv nadd]. pose proof (Int_part_spec x) as K.
  set (f := Int_part x) in *. destruct (Rleb_spec (1 / (1 + 1)) (x - IZR f)).
  - destruct (Rleb_spec (x - IZR f) (1 / (1 + 1))); [destruct (Z.even f)|]; rewrite ?plus_IZR; lra.
  - lra.
Qed.

Lemma row_scaled (x0 dx v : R) : 0 < dx -> IZR (row_index x0 dx v) * dx <= dx * v - x0 <= (IZR (row_index x0 dx v) + 1) * dx.
Proof.
  intros Hd. unfold row_index. pose proof (nround_R ((v - (x0 + dx / (n1 + n1)) / dx)%num)) as K.
  set (z := nround _) in *. revert K. numR. intros K.
  assert (E : (v - (x0 + dx / (1 + 1)) / dx) * dx = dx * v - x0 - dx / 2) by (field; lra).
  destruct K as [K1 K2]. apply (Rmult_le_compat_r dx) in K1; [|lra]. apply (Rmult_le_compat_r dx) in K2; [|lra].
  rewrite E in K1, K2. lra.
Qed.

Lemma combine_nth_error_iff {A B} (l : list A) : forall (m : list B) i a b,
  nth_error (combine l m) i = Some (a, b) <-> nth_error l i = Some a /\ nth_error m i = Some b.
Proof.
  induction l as [|x l IH]; intros m i a b.
  - cbn. split; [destruct i; discriminate|]. intros [K _]. destruct i; discriminate.
  - destruct m as [|y m]; cbn.
    + split; [destruct i; discriminate|]. intros [_ K]. destruct i; discriminate.
    + destruct i as [|i]; cbn; [|apply IH]. split; [intros [= <- <-]; auto|]. intros [[= <-] [= <-]]. reflexivity.
Qed.
Lemma zip3_nth {A} (a : R) zs (vs : list A) k x z w :
  nth_error (zip3 a zs vs) k = Some (x, z, w) <-> x = a /\ nth_error zs k = Some z /\ nth_error vs k = Some w.
Proof.
  unfold zip3. rewrite nth_error_map. destruct (nth_error (combine zs vs) k) as [[z' w']|] eqn:E; cbn.
  - apply combine_nth_error_iff in E as [E1 E2]. rewrite E1, E2. split; [intros [= <- <- <-]; auto|]. intros (-> & [= ->] & [= ->]). reflexivity.
  - split; [discriminate|]. intros (_ & K1 & K2).
    assert (K : nth_error (combine zs vs) k = Some (z, w)) by (apply combine_nth_error_iff; auto). congruence.
Qed.
Lemma nth_nil_error {A} (l : list (list A)) j k : nth_error (nth j l []) k = match nth_error l j with Some c => nth_error c k | None => None end.
Proof.
  destruct (nth_error l j) as [c|] eqn:E.
  - now rewrite (nth_error_nth _ _ _ E).
  - rewrite nth_overflow by now apply nth_error_None. now destruct k.
Qed.
Lemma y_entries {A} (g : grid R) (field : list (list (list A))) j i k x z a :
  entry2 (map (fun xp => zip3 (fst xp) (g_z g) (nth j (snd xp) [])) (combine (g_x g) field)) i k = Some (x, z, a) <->
  nth_error (g_x g) i = Some x /\ nth_error (g_z g) k = Some z /\ at3 field i j k = Some a.
Proof.
  unfold entry2, at3. rewrite nth_error_map. destruct (nth_error (combine (g_x g) field) i) as [[x' p]|] eqn:E; cbn [option_map fst snd].
  - apply combine_nth_error_iff in E as [-> ->]. rewrite zip3_nth, nth_nil_error. split; [intros (-> & ? & ?); auto|]. intros ([= ->] & ? & ?); auto.
  - split; [discriminate|]. intros (K1 & _ & K2). destruct (nth_error field i) as [p|] eqn:Ep; [|discriminate].
    assert (K : nth_error (combine (g_x g) field) i = Some (x, p)) by (apply combine_nth_error_iff; auto). congruence.
Qed.
Lemma x_entries {A} (g : grid R) (field : list (list (list A))) i j k y z a :
  entry2 (map (fun yp => zip3 (fst yp) (g_z g) (snd yp)) (combine (g_y g) (nth i field []))) j k = Some (y, z, a) <->
  nth_error (g_y g) j = Some y /\ nth_error (g_z g) k = Some z /\ at3 field i j k = Some a.
Proof.
  unfold entry2, at3. rewrite nth_error_map. destruct (nth_error (combine (g_y g) (nth i field [])) j) as [[y' p]|] eqn:E; cbn [option_map fst snd].
  - apply combine_nth_error_iff in E as [-> E]. rewrite nth_nil_error in E. destruct (nth_error field i); [|discriminate]. rewrite E, zip3_nth.
    split; [intros (-> & ? & ?); auto|]. intros ([= ->] & ? & ?); auto.
  - split; [discriminate|]. intros (K1 & _ & K2). destruct (nth_error field i) as [q|] eqn:Eq; [|discriminate].
    destruct (nth_error q j) as [p|] eqn:Ep; [|discriminate].
    assert (K : nth_error (combine (g_y g) (nth i field [])) j = Some (y, p)) by (apply combine_nth_error_iff; rewrite nth_nil_error, Eq; auto). congruence.
Qed.

(** Centres of the cells of a grid. *)
Lemma centres_at (x0 dx lx : R) l : 0 < dx -> 0 < lx -> centres x0 dx lx = Ok l ->
  forall i c, nth_error l i = Some c -> c = x0 + (INR i + 1 / 2) * dx.
Proof. intros Hd Hl E i c K. destruct (C20_any_size x0 dx lx Hd Hl) as (l' & E' & H' & _). rewrite E in E'. injection E' as <-. now apply (H' i c K). Qed.
Lemma grid_axes x0 y0 z0 dx dy dz lx ly lz (g : grid R) : grid_init x0 y0 z0 dx dy dz lx ly lz = Ok g ->
  centres (g_x0 g) (g_dx g) (g_lx g) = Ok (g_x g) /\ centres (g_y0 g) (g_dy g) (g_ly g) = Ok (g_y g) /\
  g_dx g = dx /\ g_dy g = dy /\ g_lx g = lx /\ g_ly g = ly /\ g_x0 g = x0 /\ g_y0 g = y0.
Proof.
  unfold grid_init. intros E. apply bind_Ok in E as (a & Ha & E). apply bind_Ok in E as (b & Hb & E). apply bind_Ok in E as (c & Hc & E).
  injection E as <-. cbn [g_x0 g_y0 g_dx g_dy g_lx g_ly g_x g_y]. auto 10.
Qed.

Lemma row_in (x0 dx v : R) n : 0 < dx -> inside x0 dx n (dx * v) -> (0 <= row_index x0 dx v < Z.of_nat n)%Z.
Proof.
  intros Hd [H1 H2]. destruct (row_scaled x0 dx v Hd) as [K1 K2]. set (z := row_index x0 dx v) in *.
  assert (-1 < IZR z) by (apply (Rmult_lt_reg_r dx); lra). assert (IZR z < INR n) by (apply (Rmult_lt_reg_r dx); lra).
  rewrite INR_IZR_INZ in H0. split; [|now apply lt_IZR]. assert ((-1) < z)%Z by (apply lt_IZR; assumption). lia.
Qed.
Lemma row_out (x0 dx v : R) n : 0 < dx -> outside x0 dx n (dx * v) -> ~ (0 <= row_index x0 dx v < Z.of_nat n)%Z.
Proof.
  intros Hd H [L1 L2]. destruct (row_scaled x0 dx v Hd) as [K1 K2]. set (z := row_index x0 dx v) in *.
  apply IZR_le in L1. assert (L3 : IZR z + 1 <= INR n) by (rewrite INR_IZR_INZ, <- plus_IZR; apply IZR_le; lia).
  destruct H as [H|H].
  - assert (0 <= IZR z * dx) by (apply Rmult_le_pos; lra). lra.
  - apply (Rmult_le_compat_r dx) in L3; lra.
Qed.
Lemma row_centre (x0 dx lx v : R) l : 0 < dx -> 0 < lx -> centres x0 dx lx = Ok l -> (0 <= row_index x0 dx v < Z.of_nat (List.length l))%Z ->
  exists c, nth_error l (Z.to_nat (row_index x0 dx v)) = Some c /\ c - dx / 2 <= dx * v <= c + dx / 2.
Proof.
  intros Hd Hl E Hz. destruct (row_scaled x0 dx v Hd) as [K1 K2]. set (z := row_index x0 dx v) in *.
  destruct (nth_error l (Z.to_nat z)) as [c|] eqn:Ec; [|apply nth_error_None in Ec; lia].
  exists c. split; [reflexivity|]. rewrite (centres_at _ _ _ _ Hd Hl E _ _ Ec), INR_IZR_INZ, Z2Nat.id by lia. lra.
Qed.

(** C115: the section titled y = v runs through the cells that contain the
    position dy*v, not v: the closing parenthesis is at the wrong place in l. 48. *)
Theorem C115_scaled_position : forall A x0 y0 z0 dx dy dz lx ly lz (g : grid R) (field : list (list (list A))) v,
  grid_init x0 y0 z0 dx dy dz lx ly lz = Ok g -> 0 < dx -> 0 < dy -> 0 < lx -> 0 < ly ->
  (inside y0 dy (List.length (g_y g)) (dy * v) -> exists cells, y_section g field v = Picture cells /\ shows_y g field (dy * v) cells) /\
  (outside y0 dy (List.length (g_y g)) (dy * v) -> y_section g field v = NotInDomain) /\
  (inside x0 dx (List.length (g_x g)) (dx * v) -> exists cells, x_section g field v = Picture cells /\ shows_x g field (dx * v) cells) /\
  (outside x0 dx (List.length (g_x g)) (dx * v) -> x_section g field v = NotInDomain).
Proof.
  intros A x0 y0 z0 dx dy dz lx ly lz g field v Hg Hdx Hdy Hlx Hly.
  destruct (grid_axes _ _ _ _ _ _ _ _ _ _ Hg) as (Cx & Cy & E1 & E2 & E3 & E4 & E5 & E6).
  assert (B : forall z n, (0 <= z < n)%Z <-> ((0 <=? z) && (z <? n))%Z = true) by (intros; lia).
  unfold y_section, x_section. rewrite E1, E2, E5, E6.
  split; [|split; [|split]]; intros K.
  - apply row_in in K; [|assumption]. pose proof K as K'. apply B in K'. rewrite K'. eexists. split; [reflexivity|].
    destruct (row_centre y0 dy ly v (g_y g)) as (c & C1 & C2); try assumption; [congruence|].
    exists (Z.to_nat (row_index y0 dy v)), c. rewrite E2. split; [assumption|]. split; [assumption|]. intros. apply y_entries.
  - apply row_out in K; [|assumption]. destruct ((0 <=? _) && _)%Z eqn:E; [|reflexivity]. apply B in E. contradiction.
  - apply row_in in K; [|assumption]. pose proof K as K'. apply B in K'. rewrite K'. eexists. split; [reflexivity|].
    destruct (row_centre x0 dx lx v (g_x g)) as (c & C1 & C2); try assumption; [congruence|].
    exists (Z.to_nat (row_index x0 dx v)), c. rewrite E1. split; [assumption|]. split; [assumption|]. intros. apply x_entries.
  - apply row_out in K; [|assumption]. destruct ((0 <=? _) && _)%Z eqn:E; [|reflexivity]. apply B in E. contradiction.
Qed.

(** C115 for cells of unit size: the section titled v runs through the cells
    that contain v, and positions outside give the warning.  Missing: other cell
    sizes (refuted below). *)
Theorem C115_cross_section_partial : forall A x0 y0 z0 dz lx ly lz (g : grid R) (field : list (list (list A))) v,
  grid_init x0 y0 z0 1 1 dz lx ly lz = Ok g -> 0 < lx -> 0 < ly ->
  (inside y0 1 (List.length (g_y g)) v -> exists cells, y_section g field v = Picture cells /\ shows_y g field v cells) /\
  (outside y0 1 (List.length (g_y g)) v -> y_section g field v = NotInDomain) /\
  (inside x0 1 (List.length (g_x g)) v -> exists cells, x_section g field v = Picture cells /\ shows_x g field v cells) /\
  (outside x0 1 (List.length (g_x g)) v -> x_section g field v = NotInDomain).
Proof.
  intros A x0 y0 z0 dz lx ly lz g field v Hg Hlx Hly.
  pose proof (C115_scaled_position A _ _ _ _ _ _ _ _ _ g field v Hg Rlt_0_1 Rlt_0_1 Hlx Hly) as K. now rewrite Rmult_1_l in K.
Qed.

(** C115: one result for every position asked for, in this order; without an
    argument for the centre of the domain, with an empty list none. *)
Theorem C115_positions : forall A (g : grid R) (field : list (list (list A))) py px,
  map fst (fst (cross_sections g field py px)) = (match py with PDefault => [g_y0 g + g_ly g / 2] | POne v => [v] | PMany l => l end) /\
  map fst (snd (cross_sections g field py px)) = (match px with PDefault => [g_x0 g + g_lx g / 2] | POne v => [v] | PMany l => l end) /\
  Forall (fun r => snd r = y_section g field (fst r)) (fst (cross_sections g field py px)) /\
  Forall (fun r => snd r = x_section g field (fst r)) (snd (cross_sections g field py px)).
Proof.
  intros A g field py px. unfold cross_sections. cbn [fst snd]. rewrite !map_map. cbn [fst]. rewrite !map_id.
  assert (E : forall x0 lx p, asked x0 lx p = match p with PDefault => [x0 + lx / 2] | POne v => [v] | PMany l => l end).
  { intros x0 lx []; reflexivity. }
  split; [apply E|]. split; [apply E|]. split; apply Forall_forall; intros r Hr; apply in_map_iff in Hr as (v & <- & _); reflexivity.
Qed.

(** C115 is false in general.  In a grid with dy = 4, ly = 40 the picture through
    the centre is missing: the warning says that y = 20 is not in the domain. *)
Theorem C115_centre_missing_refuted : exists (g : grid R),
  grid_init 0 0 0 1 4 1 2 40 1 = Ok g /\ List.length (g_y g) = 10%nat /\ inside 0 4 (List.length (g_y g)) 20 /\
  forall A (field : list (list (list A))), fst (cross_sections g field PDefault (PMany [])) = [(0 + 40 / 2, NotInDomain)].
Proof.
  destruct (C20_exact_tiling 0 1 2 Rlt_0_1) as (xs & X1 & X2 & _). replace (INR 2 * 1) with 2 in X1 by (cbn; ring).
  destruct (C20_exact_tiling 0 4 10) as (ys & Y1 & Y2 & _); [lra|]. replace (INR 10 * 4) with 40 in Y1 by (cbn; ring).
  destruct (C20_exact_tiling 0 1 1 Rlt_0_1) as (zs & Z1 & Z2 & _). replace (INR 1 * 1) with 1 in Z1 by (cbn; ring).
  assert (G : grid_init 0 0 0 1 4 1 2 40 1 = Ok (mkGrid 0 0 0 1 4 1 2 40 1 xs ys zs)) by (unfold grid_init; rewrite X1; cbn [bind]; rewrite Y1; cbn [bind]; rewrite Z1; reflexivity).
  eexists. split; [exact G|]. cbn [g_y]. split; [assumption|]. rewrite Y2. split; [unfold inside; cbn; lra|].
  intros A field. unfold cross_sections. cbn [fst asked map g_y0 g_ly]. numR. replace (1 + 1) with 2 by ring. do 2 f_equal.
  refine (proj1 (proj2 (C115_scaled_position A _ _ _ _ _ _ _ _ _ _ field _ G _ _ _ _)) _); try lra.
  cbn [g_y]. rewrite Y2. right. cbn. lra.
Qed.

(** In the grid of tests/full_testcases/made.ini (dy = 0.5, ly = 20) the picture
    titled y = 10 shows other cells. *)
Theorem C115_wrong_row_refuted : exists (g : grid R) (field : list (list (list nat))) cells,
  grid_init 0 0 0 (1/2) (1/2) (1/10) 40 20 11 = Ok g /\ inside 0 (1/2) (List.length (g_y g)) 10 /\
  y_section g field 10 = Picture cells /\ ~ shows_y g field 10 cells.
Proof.
  destruct (C20_exact_tiling 0 (1/2) 80) as (xs & X1 & X2 & _); [lra|]. replace (INR 80 * (1/2)) with 40 in X1 by (rewrite INR_IZR_INZ; cbn; lra).
  destruct (C20_exact_tiling 0 (1/2) 40) as (ys & Y1 & Y2 & _); [lra|]. replace (INR 40 * (1/2)) with 20 in Y1 by (rewrite INR_IZR_INZ; cbn; lra).
  destruct (C20_exact_tiling 0 (1/10) 110) as (zs & Z1 & Z2 & _); [lra|]. replace (INR 110 * (1/10)) with 11 in Z1 by (rewrite INR_IZR_INZ; cbn; lra).
  assert (G : grid_init 0 0 0 (1/2) (1/2) (1/10) 40 20 11 = Ok (mkGrid 0 0 0 (1/2) (1/2) (1/10) 40 20 11 xs ys zs)) by (unfold grid_init; rewrite X1; cbn [bind]; rewrite Y1; cbn [bind]; rewrite Z1; reflexivity).
  set (g := mkGrid 0 0 0 (1/2) (1/2) (1/10) 40 20 11 xs ys zs) in *.
  (* every cell holds the number of its row *)
  set (field := [map (fun j => [j]) (seq 0 40)]).
  destruct (C115_scaled_position nat _ _ _ _ _ _ _ _ _ g field 10 G) as (K & _); try lra.
  assert (I40 : INR 40 = 40) by (rewrite INR_IZR_INZ; reflexivity).
  destruct K as (cells & E & j & c & Hj & Hc & Hcells); [cbn [g_y g]; rewrite Y2; unfold inside; rewrite I40; lra|].
  exists g, field, cells. split; [exact G|]. split; [cbn [g_y g]; rewrite Y2; unfold inside; rewrite I40; lra|]. split; [assumption|].
  intros (j' & c' & Hj' & Hc' & Hcells').
  assert (Hx : exists x, nth_error (g_x g) 0 = Some x).
  { destruct (nth_error (g_x g) 0) eqn:Ex; [eauto|]. apply nth_error_None in Ex. cbn [g_x g] in Ex. rewrite X2 in Ex. lia. }
  assert (Hz : exists z, nth_error (g_z g) 0 = Some z).
  { destruct (nth_error (g_z g) 0) eqn:Ex; [eauto|]. apply nth_error_None in Ex. cbn [g_z g] in Ex. rewrite Z2 in Ex. lia. }
  destruct Hx as (x & Hx), Hz as (z & Hz).
  assert (Hlt : (j < 40)%nat) by (rewrite <- Y2; apply nth_error_Some; cbn [g_y g] in Hj; congruence).
  assert (Ha : at3 field 0 j 0 = Some j).
  { unfold at3, field. cbn [nth_error]. rewrite nth_error_map. rewrite (nth_error_nth' _ 0%nat) by (rewrite seq_length; lia). rewrite seq_nth by lia. reflexivity. }
  destruct (proj1 (Hcells' 0%nat 0%nat x z j) (proj2 (Hcells _ _ _ _ _) (conj Hx (conj Hz Ha)))) as (_ & _ & Ha').
  assert (j' = j).
  { unfold at3, field in Ha'. cbn [nth_error] in Ha'. rewrite nth_error_map in Ha'.
    destruct (nth_error (seq 0 40) j') as [q|] eqn:Eq; [|discriminate]. cbn in Ha'. injection Ha' as ->.
    assert (L : (j' < 40)%nat) by (rewrite <- (seq_length 40 0); apply nth_error_Some; congruence).
    rewrite (nth_error_nth' _ 0%nat) in Eq by (rewrite seq_length; lia). rewrite seq_nth in Eq by lia. injection Eq. lia. }
  subst j'. rewrite Hj in Hj'. injection Hj' as <-. cbn [g_dy g] in *. lra.
Qed.

(** A unit grid: the section at y = 3/2 shows the second row; outside, the
    warning. *)
Example plot_case :
  match (grid_init 0 0 0 1 1 1 2 3 2)%Q with
  | Ok g => cross_sections g [[[1; 2]; [3; 4]; [5; 6]]; [[7; 8]; [9; 10]; [11; 12]]]%nat (PMany [(3#2); (7#2)])%Q (POne (1#4))%Q =
      ([((3#2)%Q, Picture [[((1#2), (1#2), 3%nat); ((1#2), (3#2), 4%nat)]; [((3#2), (1#2), 9%nat); ((3#2), (3#2), 10%nat)]]); ((7#2)%Q, NotInDomain)]%Q,
       [((1#4)%Q, Picture [[((1#2), (1#2), 1%nat); ((1#2), (3#2), 2%nat)]; [((3#2), (1#2), 3%nat); ((3#2), (3#2), 4%nat)]; [((5#2), (1#2), 5%nat); ((5#2), (3#2), 6%nat)]])]%Q)
  | Err _ => False
  end.
Proof. vm_compute. reflexivity. Qed.

Print Assumptions C115_scaled_position.
Print Assumptions C115_cross_section_partial.
Print Assumptions C115_positions.
Print Assumptions C115_centre_missing_refuted.
Print Assumptions C115_wrong_row_refuted.

(** A position on the border between two rows shows the one with the even
    number. *)
Lemma row_border (x0 dx v : R) n : 0 < dx -> dx * v = x0 + INR n * dx ->
  row_index x0 dx v = if Nat.even n then Z.of_nat n else (Z.of_nat n - 1)%Z.
Proof.
  intros Hd E. unfold row_index, nround. cbn [nfloor NumR nleb nsub nofZ n1 ndiv nadd].
  assert (Ev : v - (x0 + dx / (1 + 1)) / dx = IZR (Z.of_nat n - 1) + 1 / 2).
  { rewrite minus_IZR, <- INR_IZR_INZ. apply (Rmult_eq_reg_l dx); [|lra]. rewrite Rmult_minus_distr_l, E. field. lra. }
  rewrite Ev. rewrite (Int_part_unique _ (Z.of_nat n - 1)) by lra.
  replace (IZR (Z.of_nat n - 1) + 1 / 2 - IZR (Z.of_nat n - 1)) with (1 / (1 + 1)) by lra.
  destruct (Rleb_spec (1 / (1 + 1)) (1 / (1 + 1))); [|lra].
  rewrite Z.even_sub. change (Z.even 1) with false.
  assert (Z.even (Z.of_nat n) = Nat.even n) as ->.
  { destruct (Nat.even n) eqn:En.
    - apply Nat.even_spec in En as [m ->]. apply Z.even_spec. exists (Z.of_nat m). lia.
    - destruct (Z.even (Z.of_nat n)) eqn:Ez; [|reflexivity]. apply Z.even_spec in Ez as [m Hm].
      assert (Nat.even n = true) by (apply Nat.even_spec; exists (Z.to_nat m); lia). congruence. }
  destruct (Nat.even n); cbn; lia.
Qed.
Theorem C115_border : forall A x0 y0 z0 dx dy dz lx ly lz (g : grid R) (field : list (list (list A))) v n,
  grid_init x0 y0 z0 dx dy dz lx ly lz = Ok g -> 0 < dx -> 0 < dy ->
  (dy * v = y0 + INR n * dy -> (0 < n < List.length (g_y g))%nat -> exists cells j, y_section g field v = Picture cells /\
     Nat.even j = true /\ (j = n \/ S j = n) /\
     forall i k x z a, entry2 cells i k = Some (x, z, a) <-> nth_error (g_x g) i = Some x /\ nth_error (g_z g) k = Some z /\ at3 field i j k = Some a) /\
  (dx * v = x0 + INR n * dx -> (0 < n < List.length (g_x g))%nat -> exists cells i, x_section g field v = Picture cells /\
     Nat.even i = true /\ (i = n \/ S i = n) /\
     forall j k y z a, entry2 cells j k = Some (y, z, a) <-> nth_error (g_y g) j = Some y /\ nth_error (g_z g) k = Some z /\ at3 field i j k = Some a).
Proof.
  intros A x0 y0 z0 dx dy dz lx ly lz g field v n Hg Hdx Hdy.
  destruct (grid_axes _ _ _ _ _ _ _ _ _ _ Hg) as (_ & _ & E1 & E2 & _ & _ & E5 & E6).
  assert (Nat.even n = false -> (0 < n)%nat -> Nat.even (n - 1) = true) as Hev.
  { intros H K. destruct n as [|n]; [lia|]. cbn [Nat.sub]. rewrite Nat.sub_0_r, <- Nat.odd_succ, <- Nat.negb_even, H. reflexivity. }
  unfold y_section, x_section. rewrite E1, E2, E5, E6.
  split; intros K Hn; rewrite (row_border _ _ _ n) by assumption.
  - destruct (Nat.even n) eqn:En.
    + replace _ with true by (symmetry; lia). rewrite Nat2Z.id. eexists _, n. split; [reflexivity|]. split; [exact En|]. split; [auto|]. intros. apply y_entries.
    + replace _ with true by (symmetry; lia). replace (Z.to_nat (Z.of_nat n - 1)) with (n - 1)%nat by lia.
      eexists _, (n - 1)%nat. split; [reflexivity|]. split; [apply Hev; [reflexivity|lia]|]. split; [lia|]. intros. apply y_entries.
  - destruct (Nat.even n) eqn:En.
    + replace _ with true by (symmetry; lia). rewrite Nat2Z.id. eexists _, n. split; [reflexivity|]. split; [exact En|]. split; [auto|]. intros. apply x_entries.
    + replace _ with true by (symmetry; lia). replace (Z.to_nat (Z.of_nat n - 1)) with (n - 1)%nat by lia.
      eexists _, (n - 1)%nat. split; [reflexivity|]. split; [apply Hev; [reflexivity|lia]|]. split; [lia|]. intros. apply x_entries.
Qed.
Print Assumptions C115_border.
Example plot_border_case :
  match (grid_init 0 0 0 1 1 1 2 3 2)%Q with
  | Ok g => cross_sections g [[[1; 2]; [3; 4]; [5; 6]]; [[7; 8]; [9; 10]; [11; 12]]]%nat (PMany [1; 2])%Q (PMany [])%Q =
      ([(1%Q, Picture [[((1#2), (1#2), 1%nat); ((1#2), (3#2), 2%nat)]; [((3#2), (1#2), 7%nat); ((3#2), (3#2), 8%nat)]]);
        (2%Q, Picture [[((1#2), (1#2), 5%nat); ((1#2), (3#2), 6%nat)]; [((3#2), (1#2), 11%nat); ((3#2), (3#2), 12%nat)]])]%Q, [])
  | Err _ => False
  end.
Proof. vm_compute. reflexivity. Qed.
