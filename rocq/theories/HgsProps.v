(** Property C127: the files for HydroGeoSphere. *)
From Coq Require Import List ZArith Bool Ascii String Reals Lia Lra.
From Flocq Require Import Core.
From Verif Require Import Base Num TroughSpec SheetSpec ArrayModel DirsModel TensorModel TensorSpec TensorProps SurfaceModel OutputModel OutputProps2 HgsModel HgsSpec HgsProofs.
Import ListNotations.
Local Open Scope R_scope.
Local Open Scope list_scope.

Definition close_to (x : R) (s : pystr) : Prop := exists v, scientific s v /\ Rabs (v - x) <= Rabs x / 2000.
Definition near_to (x : R) (s : pystr) : Prop := exists v, fixed_point s v /\ Rabs (v - x) <= 1 / 2000.

Lemma file_rows (fmt : R -> pystr) (rows : list (nat * list R)) :
  file_of_lines (map (fun r => decimal (fst r) ++ flat_map (fun x => S_ " " ++ fmt x) (snd r)) rows)
    (flat_map (fun r => row_text fmt (fst r) (snd r)) rows).
Proof.
  unfold file_of_lines. induction rows as [|r rows IH]; [reflexivity|]. cbn [flat_map map List.concat]. rewrite IH. f_equal.
  unfold row_text. now rewrite app_assoc.
Qed.
Lemma row_columns (fmt : R -> pystr) id (xs : list R) : columns_of id (map fmt xs) (decimal id ++ flat_map (fun x => S_ " " ++ fmt x) xs).
Proof. exists (decimal id). split; [apply decimal_numeral|]. now rewrite map_map, <- flat_map_concat_map. Qed.

(** Both files have a line for every cell, with the numbers 1, 2, 3, ... in the
    order of the cells; the six columns are the entries of the tensor to four
    digits, the column of the other file is the porosity to three decimals. *)
Theorem C127_files :
  forall (g : grid R) (d : model_data) (tensors porosity : pystr), hgs_text g d = Ok (tensors, porosity) ->
  exists h cs tl pl, o_hydraulic d = Some h /\ NoDup cs /\ (forall c, In c cs <-> (cx c < nx g /\ cy c < ny g /\ cz c < nz g)%nat) /\
    file_of_lines tl tensors /\ file_of_lines pl porosity /\
    List.length tl = (nx g * ny g * nz g)%nat /\ List.length pl = (nx g * ny g * nz g)%nat /\
    forall n c, nth_error cs n = Some c ->
      let k := o_tensors h c in
      (exists line words, nth_error tl n = Some line /\ columns_of (S n) words line /\
         Forall2 close_to [k 0 0; k 1 1; k 2 2; k 0 1; k 0 2; k 1 2]%nat words) /\
      (exists line word, nth_error pl n = Some line /\ columns_of (S n) [word] line /\ near_to (o_poros h c) word).
Proof.
  intros g d tt pt H. unfold hgs_text in H. apply bind_Ok in H as ([ts ps] & H & E). injection E as <- <-.
  destruct (C62_rows g d ts ps H) as (h & cs & Hh & Hn & Hi & T1 & P1 & Hrows).
  exists h, cs. do 2 eexists. split; [exact Hh|]. split; [exact Hn|]. split; [exact Hi|]. split; [apply file_rows|].
  split. { pose proof (file_rows fmt_f3 (map (fun r => (fst r, [snd r])) ps)) as F. rewrite flat_map_concat_map, !map_map, <- flat_map_concat_map in F. exact F. }
  rewrite !map_length. split; [rewrite <- (map_length fst), T1; apply seq_length|]. split; [rewrite <- (map_length fst), P1; apply seq_length|].
  intros n c Hc k. destruct (Hrows n c Hc) as [R1 R2]. fold k in R1. split.
  - eexists. eexists. rewrite nth_error_map, R1. split; [reflexivity|]. split; [apply row_columns|].
    repeat constructor; apply fmt_e3_value.
  - eexists. eexists. rewrite nth_error_map, R2. split; [reflexivity|]. split; [apply (row_columns fmt_f3 (S n) [o_poros h c])|]. apply fmt_f3_value.
Qed.
Print Assumptions C127_files.

(** ** The written tensors can be used in a flow model: positive definite
    matrices.  True for ratios up to 1000. *)
Lemma weighted a b t : 0 < t -> Rabs (a * b) <= t / 2 * a ^ 2 + b ^ 2 / (2 * t).
Proof.
  intros H. assert (0 <= (t * Rabs a - Rabs b) ^ 2) by apply pow2_ge_0. rewrite Rabs_mult.
  rewrite <- (pow2_abs a), <- (pow2_abs b).
  apply (Rmult_le_reg_l (2 * t)); [lra|]. replace (2 * t * (t / 2 * Rabs a ^ 2 + Rabs b ^ 2 / (2 * t))) with (t ^ 2 * Rabs a ^ 2 + Rabs b ^ 2) by (field; lra). nra.
Qed.
Lemma off_by e k w : Rabs e <= Rabs k / 2000 -> - (Rabs (k * w) / 2000) <= e * w.
Proof.
  intros H. assert (Rabs (e * w) <= Rabs (k * w) / 2000).
  { rewrite !Rabs_mult. pose proof (Rabs_pos w). nra. }
  pose proof (Rle_abs (- (e * w))) as G. rewrite Rabs_Ropp in G. lra.
Qed.
Theorem C127_definite_partial :
  forall (k r kappa psi : R) (words : list pystr) (v : vector),
  0 < k -> 1 <= r <= 1000 ->
  let t := documented_tensor k r kappa psi in
  Forall2 close_to [t 0 0; t 1 1; t 2 2; t 0 1; t 0 2; t 1 2]%nat words ->
  (exists i, (i < 3)%nat /\ v i <> 0) ->
  exists xx yy zz xy xz yz, Forall2 scientific words [xx; yy; zz; xy; xz; yz] /\
    0 < inner v (apply (symmetric6 xx yy zz xy xz yz) v).
Proof.
  intros k r kappa psi words v Hk Hr t Hw Hv.
  repeat match goal with H : Forall2 close_to _ _ |- _ => inversion H as [|? ? ? ? (?x & ?S & ?A) ?F]; subst; clear H end.
  match goal with S0 : scientific ?w0 ?a, A0 : Rabs (?a - t 0%nat 0%nat) <= _ |- _ => rename a into xx end.
  match goal with A0 : Rabs (?a - t 1%nat 1%nat) <= _ |- _ => rename a into yy end.
  match goal with A0 : Rabs (?a - t 2%nat 2%nat) <= _ |- _ => rename a into zz end.
  match goal with A0 : Rabs (?a - t 0%nat 1%nat) <= _ |- _ => rename a into xy end.
  match goal with A0 : Rabs (?a - t 0%nat 2%nat) <= _ |- _ => rename a into xz end.
  match goal with A0 : Rabs (?a - t 1%nat 2%nat) <= _ |- _ => rename a into yz end.
  exists xx, yy, zz, xy, xz, yz. split; [repeat (constructor; [assumption|]); constructor|].
  set (n := fun i => rotation kappa psi i 2%nat). set (c := 1 - 1 / r).
  assert (Hn : inner n n = 1) by apply normal_unit.
  assert (Hc : 0 <= c <= 999 / 1000).
  { unfold c. assert (1 / 1000 <= 1 / r <= 1); [|lra]. split; [apply Rmult_le_compat_l; [lra|]; apply Rinv_le_contravar; lra|].
    apply (Rmult_le_reg_r r); [lra|]. unfold Rdiv. rewrite Rmult_assoc, Rinv_l by lra. lra. }
  assert (Ht : forall i j, (i < 3)%nat -> (j < 3)%nat -> t i j = k * ((if Nat.eqb i j then 1 else 0) - c * (n i * n j))).
  { intros i j Hi Hj. unfold t. now rewrite documented_normal. }
  set (X := inner v v). assert (HX : 0 < X).
  { destruct Hv as (i & Hi & Hv). unfold X, inner, sum3. pose proof (Rle_0_sqr (v 0%nat)). pose proof (Rle_0_sqr (v 1%nat)). pose proof (Rle_0_sqr (v 2%nat)).
    pose proof (Rsqr_pos_lt _ Hv). unfold Rsqr in *. destruct i as [|[|[|]]]; try lia; lra. }
  pose proof (cauchy_schwarz n v) as HC. rewrite Hn, Rmult_1_l in HC. fold X in HC.
  unfold inner, apply, sum3, symmetric6.
  rewrite !Ht in * by lia. cbn [Nat.eqb] in *. unfold inner, sum3 in Hn, HC, X.
  set (n0 := n 0%nat) in *. set (n1 := n 1%nat) in *. set (n2 := n 2%nat) in *. set (a := v 0%nat) in *. set (b := v 1%nat) in *. set (d := v 2%nat) in *.
  set (K0 := k * (1 - c * (n0 * n0))) in *. set (K1 := k * (1 - c * (n1 * n1))) in *. set (K2 := k * (1 - c * (n2 * n2))) in *.
  set (K3 := k * (0 - c * (n0 * n1))) in *. set (K4 := k * (0 - c * (n0 * n2))) in *. set (K5 := k * (0 - c * (n1 * n2))) in *.
  assert (EX : X = a * a + b * b + d * d) by reflexivity. set (s := n0 * a + n1 * b + n2 * d) in *.
  (* the form of the true tensor *)
  assert (Q : K0 * (a * a) + K1 * (b * b) + K2 * (d * d) + 2 * (K3 * (a * b)) + 2 * (K4 * (a * d)) + 2 * (K5 * (b * d)) = k * (X - c * s ^ 2)).
  { rewrite EX. unfold K0, K1, K2, K3, K4, K5, s. ring. }
  assert (Q2 : k * X / 1000 <= k * (X - c * s ^ 2)).
  { unfold Rdiv. rewrite Rmult_assoc. apply Rmult_le_compat_l; [lra|]. assert (0 <= s ^ 2) by apply pow2_ge_0. nra. }
  (* the size of its entries *)
  assert (F : K0 ^ 2 + K1 ^ 2 + K2 ^ 2 + 2 * K3 ^ 2 + 2 * K4 ^ 2 + 2 * K5 ^ 2 <= 3 * k ^ 2).
  { replace (K0 ^ 2 + K1 ^ 2 + K2 ^ 2 + 2 * K3 ^ 2 + 2 * K4 ^ 2 + 2 * K5 ^ 2) with (k ^ 2 * (3 - 2 * c * (n0 * n0 + n1 * n1 + n2 * n2) + c ^ 2 * (n0 * n0 + n1 * n1 + n2 * n2) ^ 2)) by (unfold K0, K1, K2, K3, K4, K5; ring).
    rewrite Hn. assert (0 <= k ^ 2) by apply pow2_ge_0. nra. }
  set (t0 := 4 * X / (7 * k)). assert (Ht0 : 0 < t0) by (unfold t0; apply Rdiv_lt_0_compat; lra).
  pose proof (weighted K0 (a * a) t0 Ht0) as W0. pose proof (weighted K1 (b * b) t0 Ht0) as W1. pose proof (weighted K2 (d * d) t0 Ht0) as W2.
  pose proof (weighted K3 (a * b) t0 Ht0) as W3. pose proof (weighted K4 (a * d) t0 Ht0) as W4. pose proof (weighted K5 (b * d) t0 Ht0) as W5.
  assert (Sum : Rabs (K0 * (a * a)) + Rabs (K1 * (b * b)) + Rabs (K2 * (d * d)) + 2 * Rabs (K3 * (a * b)) + 2 * Rabs (K4 * (a * d)) + 2 * Rabs (K5 * (b * d)) <= 97 / 56 * (k * X)).
  { apply Rle_trans with (t0 / 2 * (K0 ^ 2 + K1 ^ 2 + K2 ^ 2 + 2 * K3 ^ 2 + 2 * K4 ^ 2 + 2 * K5 ^ 2) + X ^ 2 / (2 * t0)).
    - replace (X ^ 2) with ((a * a) ^ 2 + (b * b) ^ 2 + (d * d) ^ 2 + 2 * (a * b) ^ 2 + 2 * (a * d) ^ 2 + 2 * (b * d) ^ 2) by (rewrite EX; ring). unfold Rdiv in *. lra.
    - apply Rle_trans with (t0 / 2 * (3 * k ^ 2) + X ^ 2 / (2 * t0)); [apply Rplus_le_compat_r, Rmult_le_compat_l; lra|].
      apply Req_le. unfold t0. field. lra. }
  repeat match goal with A : Rabs (_ - ?K) <= Rabs ?K / 2000 |- _ => let w := match K with K0 => constr:(a * a) | K1 => constr:(b * b) | K2 => constr:(d * d) | K3 => constr:(a * b) | K4 => constr:(a * d) | K5 => constr:(b * d) end in apply (off_by _ _ w) in A end.
  assert (HkX : 0 < k * X) by (apply Rmult_lt_0_compat; lra).
  clearbody K0 K1 K2 K3 K4 K5. nra.
Qed.
Print Assumptions C127_definite_partial.

(** False in general: with a ratio of 20000 and layers dipping by 45 degrees the
    written matrix is singular. *)
Lemma sci3_eq x m e : bpow ten e <= Rabs x < bpow ten (e + 1) -> Rabs (x * bpow ten (3 - e) - IZR m) < / 2 -> (Z.abs m <> 10000)%Z -> sci3 x = (m, e).
Proof.
  intros [H1 H2] H3 H4. unfold sci3. destruct (Req_EM_T x 0) as [->|Hx].
  - exfalso. rewrite Rabs_R0 in H1. pose proof (bpow_gt_0 ten e). lra.
  - assert (E : (mag ten x - 1)%Z = e).
    { rewrite (mag_unique ten x (e + 1)); [lia|]. replace (e + 1 - 1)%Z with e by lia. split; assumption. }
    rewrite E. cbv zeta. rewrite (Znearest_imp (fun z => negb (Z.even z)) _ m H3).
    destruct (Z.eqb_spec (Z.abs m) 10000); [now exfalso|reflexivity].
Qed.
Lemma sign_plus x : 0 <= x -> minus_sign x = [].
Proof. intros H. unfold minus_sign. destruct (Rlt_dec x 0); [lra|reflexivity]. Qed.
Lemma sign_minus x : x < 0 -> minus_sign x = S_ "-".
Proof. intros H. unfold minus_sign. destruct (Rlt_dec x 0); [reflexivity|lra]. Qed.
Lemma text_zero : fmt_e3 0 = S_ "0.000e+00".
Proof. unfold fmt_e3, sci3. rewrite sign_plus by lra. destruct (Req_EM_T 0 0); [reflexivity|lra]. Qed.
Lemma text_one : fmt_e3 1 = S_ "1.000e+00".
Proof.
  unfold fmt_e3. rewrite (sci3_eq 1 1000 0); [|rewrite Rabs_R1; cbn; lra| |discriminate].
  - rewrite sign_plus by lra. reflexivity.
  - change (bpow ten (3 - 0)) with (IZR 1000). replace (1 * IZR 1000 - IZR 1000) with 0 by lra. rewrite Rabs_R0. lra.
Qed.
Lemma text_half x : 20001 / 40000 = x -> fmt_e3 x = S_ "5.000e-01".
Proof.
  intros <-. unfold fmt_e3. rewrite (sci3_eq _ 5000 (-1)); [| | |discriminate].
  - rewrite sign_plus by lra. reflexivity.
  - rewrite Rabs_pos_eq by lra. change (bpow ten (-1)) with (/ 10). change (bpow ten (-1 + 1)) with 1. lra.
  - change (bpow ten (3 - -1)) with 10000. apply Rabs_def1; lra.
Qed.
Lemma text_minus_half x : - (19999 / 40000) = x -> fmt_e3 x = S_ "-5.000e-01".
Proof.
  intros <-. unfold fmt_e3. rewrite (sci3_eq _ (-5000) (-1)); [| | |discriminate].
  - rewrite sign_minus by lra. reflexivity.
  - rewrite Rabs_left by lra. change (bpow ten (-1)) with (/ 10). change (bpow ten (-1 + 1)) with 1. lra.
  - change (bpow ten (3 - -1)) with 10000. apply Rabs_def1; lra.
Qed.
Lemma text_quarter : fmt_f3 (/ 4) = S_ "0.250".
Proof.
  unfold fmt_f3. rewrite sign_plus by lra. assert (E : ZnearestE (/ 4 * 1000) = 250%Z) by (apply Znearest_imp; apply Rabs_def1; lra). rewrite E. reflexivity.
Qed.
Definition one_cell : grid R := mkGrid 0 0 0 1 1 1 1 1 1 [1 / 2] [1 / 2] [1 / 2].
Definition steep : matrix := documented_tensor 1 20000 (radians 0) (radians 45).
Definition steep_data : model_data :=
  mkMData (fun _ => radians 0) (fun _ => radians 45) (Some (mkHData (fun _ => 1) (fun _ => 20000) (fun _ => / 4) (fun _ => steep))).
Lemma steep_entries : steep 0%nat 0%nat = 20001 / 40000 /\ steep 1%nat 1%nat = 1 /\ steep 2%nat 2%nat = 20001 / 40000 /\
  steep 0%nat 1%nat = 0 /\ steep 0%nat 2%nat = - (19999 / 40000) /\ steep 1%nat 2%nat = 0.
Proof.
  assert (E0 : radians 0 = 0) by (unfold radians; field). assert (E45 : radians 45 = PI / 4) by (unfold radians; field).
  assert (Hs : sin (PI / 4) * sin (PI / 4) = 1 / 2). { rewrite sin_PI4. pose proof (sqrt_sqrt 2 ltac:(lra)). pose proof (sqrt_lt_R0 2 ltac:(lra)). apply (Rmult_eq_reg_l (sqrt 2 * sqrt 2)); [|nra]. field_simplify; [|lra]. lra. }
  assert (Hc : cos (PI / 4) = sin (PI / 4)) by now rewrite sin_PI4, cos_PI4.
  unfold steep. rewrite !documented_normal by lia. cbn [Nat.eqb rotation]. rewrite E0, E45, sin_0, cos_0, Hc.
  set (s := sin (PI / 4)) in *. repeat split; try nra; lra.
Qed.
Theorem C127_definite_refuted :
  (forall c, exists h, o_hydraulic steep_data = Some h /\ o_tensors h c = documented_tensor (o_k h c) (o_anirat h c) (o_azim steep_data c) (o_dip steep_data c)) /\
  hgs_text one_cell steep_data =
    Ok (S_ "1 5.000e-01 1.000e+00 5.000e-01 0.000e+00 -5.000e-01 0.000e+00" ++ [ascii_of_nat 10], S_ "1 0.250" ++ [ascii_of_nat 10]) /\
  Forall2 scientific [S_ "5.000e-01"; S_ "1.000e+00"; S_ "5.000e-01"; S_ "0.000e+00"; S_ "-5.000e-01"; S_ "0.000e+00"] [1 / 2; 1; 1 / 2; 0; - (1 / 2); 0] /\
  exists v : vector, v 0%nat = 1 /\ inner v (apply (symmetric6 (1 / 2) 1 (1 / 2) 0 (- (1 / 2)) 0) v) = 0.
Proof.
  destruct steep_entries as (K0 & K1 & K2 & K3 & K4 & K5). split; [|split; [|split]].
  - intros c. eexists. split; reflexivity.
  - unfold hgs_text, to_hgs, steep_data. cbn [o_hydraulic o_tensors o_poros].
    change (flatten (grid_shape one_cell) (fun _ : nat * nat * nat => / 4)) with [/ 4].
    change (grid_shape one_cell) with (1, 1, 1)%nat. cbn [flatten cells List.length map seq column_stack combine nth].
    cbn. rewrite K0, K1, K2, K3, K4, K5. unfold row_text. cbn [flat_map].
    rewrite (text_half (20001 / 40000) eq_refl), text_one, text_zero, (text_minus_half (- (19999 / 40000)) eq_refl), text_quarter. reflexivity.
  - assert (Z : forall d, (d < 10)%nat -> numeral (S_ "00" ++ [ascii_of_nat (48 + d)]) d).
    { intros d Hd. change (numeral (pad 3 [ascii_of_nat (48 + d)]) d). apply pad_numeral. now constructor. }
    assert (N : forall d, (d < 10)%nat -> numeral ("0"%char :: [ascii_of_nat (48 + d)]) d) by (intros d Hd; apply numeral_zero; now constructor).
    assert (V : forall d, (d < 10)%nat -> fixed_point ([ascii_of_nat (48 + d)] ++ S_ "." ++ S_ "000") (INR d)).
    { intros d Hd. replace (INR d) with (INR d + INR 0 / 10 ^ List.length (S_ "000")) by (change (INR 0) with 0; unfold Rdiv; ring). constructor; [now constructor|]. apply (Z 0%nat). lia. }
    assert (Half : scientific (S_ "5.000e-01") (1 / 2)).
    { replace (1 / 2) with (INR 5 / 10 ^ 1) by (cbn; lra). apply (scientific_minus (S_ "5.000") (INR 5) (S_ "01") 1); [apply (V 5%nat); lia|apply (N 1%nat); lia]. }
    assert (One : scientific (S_ "1.000e+00") 1).
    { replace 1 with (INR 1 * 10 ^ 0) by (cbn; lra). apply (scientific_plus (S_ "1.000") (INR 1) (S_ "00") 0); [apply (V 1%nat); lia|apply (N 0%nat); lia]. }
    assert (Zero : scientific (S_ "0.000e+00") 0).
    { replace 0 with (INR 0 * 10 ^ 0) by (cbn; lra). apply (scientific_plus (S_ "0.000") (INR 0) (S_ "00") 0); [apply (V 0%nat); lia|apply (N 0%nat); lia]. }
    assert (Minus : scientific (S_ "-5.000e-01") (- (1 / 2))).
    { replace (- (1 / 2)) with (- INR 5 / 10 ^ 1) by (cbn; lra). apply (scientific_minus (S_ "-5.000") (- INR 5) (S_ "01") 1); [apply (fixed_minus (S_ "5.000")), (V 5%nat); lia|apply (N 1%nat); lia]. }
    repeat constructor; assumption.
  - exists (fun i => match i with 1%nat => 0 | _ => 1 end). split; [reflexivity|]. unfold inner, apply, sum3, symmetric6. lra.
Qed.
Print Assumptions C127_definite_refuted.
(** The hypotheses of [C127_definite_partial]. *)
Example C127_example : let t := documented_tensor 1 10 0 0 in
  exists words, Forall2 close_to [t 0 0; t 1 1; t 2 2; t 0 1; t 0 2; t 1 2]%nat words /\ nth_error words 1 = Some (S_ "1.000e+00").
Proof.
  intros t. exists (map fmt_e3 [t 0 0; t 1 1; t 2 2; t 0 1; t 0 2; t 1 2]%nat). split.
  - cbn [map]. repeat constructor; apply fmt_e3_value.
  - cbn [map nth_error]. assert (E : t 1%nat 1%nat = 1).
    { unfold t. rewrite documented_normal by lia. cbn [Nat.eqb rotation]. rewrite sin_0. lra. }
    now rewrite E, text_one.
Qed.
