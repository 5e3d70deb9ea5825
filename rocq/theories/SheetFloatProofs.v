(** Subtracting a thickness in double precision. *)
From Coq Require Import List ZArith Bool Reals Lra Lia.
From Flocq Require Import Core Relative.
From Verif Require Import Base Num OrderSpec OrderModel SheetFloatSpec.
Local Open Scope R_scope.

#[global] Instance flt_valid : Valid_exp (FLT_exp (-1074) 53).
Proof. apply FLT_exp_valid. reflexivity. Qed.

Lemma fl_double x : is_double x -> fl x = x.
Proof. intros H. apply round_generic; [apply valid_rnd_N|exact H]. Qed.
Lemma double_fl x : is_double (fl x).
Proof. apply generic_format_round; [apply flt_valid|apply valid_rnd_N]. Qed.
Lemma fl_le x y : x <= y -> fl x <= fl y.
Proof. apply round_le; [apply flt_valid|apply valid_rnd_N]. Qed.
Lemma fl_int z : (Z.abs z < 2 ^ 53)%Z -> fl (IZR z) = IZR z.
Proof.
  intros Hz. apply fl_double. apply generic_format_FLT. exists (Float radix2 z 0); [|exact Hz|cbn; lia].
  unfold F2R. cbn. lra.
Qed.

(** What counts is subtracted, up to half of it. *)
Lemma fl_step M t z : 0 < t -> counts M t -> Rabs z <= M -> fl (z - t) <= z - t / 2.
Proof.
  intros Ht Hc Hz. unfold counts in Hc.
  destruct (error_N_FLT radix2 (-1074) 53 ltac:(reflexivity) (fun n => negb (Z.even n)) (z - t)) as (e & h & He & Hh & _ & E).
  unfold fl. change ZnearestE with (Znearest (fun n => negb (Z.even n))). rewrite E.
  change (-53 + 1)%Z with (-52)%Z in He.
  assert (Ha : Rabs (z - t) <= M + t).
  { unfold Rabs in *. destruct (Rcase_abs (z - t)), (Rcase_abs z); lra. }
  assert (H1 : Rabs ((z - t) * e) <= / 2 * (bpow radix2 (-52) * (M + t))).
  { rewrite Rabs_mult. replace (/ 2 * (bpow radix2 (-52) * (M + t))) with ((M + t) * (/ 2 * bpow radix2 (-52))) by ring.
    apply Rmult_le_compat; try apply Rabs_pos; assumption. }
  pose proof (Rle_abs ((z - t) * e)). pose proof (Rle_abs h). lra.
Qed.

(** Doubles below a positive double are not close to it. *)
Lemma double_gap f z : is_double f -> is_double z -> f < z -> 0 < z -> bpow radix2 (-54) * z < z - f.
Proof.
  intros Hf Hz Hl Hp.
  assert (P : f <= pred radix2 (FLT_exp (-1074) 53) z) by (apply pred_ge_gt; try assumption; apply flt_valid).
  pose proof (pred_plus_ulp radix2 (FLT_exp (-1074) 53) z Hp Hz) as E.
  set (p := pred radix2 (FLT_exp (-1074) 53) z) in *.
  assert (Hpp : 0 <= p) by (apply pred_ge_0; [apply flt_valid|exact Hp|exact Hz]).
  assert (U : p * bpow radix2 (-53) <= ulp radix2 (FLT_exp (-1074) 53) p).
  { destruct (Req_dec p 0) as [->|Hn].
    - rewrite Rmult_0_l. apply ulp_ge_0.
    - pose proof (ulp_FLT_gt radix2 (-1074) 53 (prec_gt_0_ := eq_refl) p) as G. rewrite (Rabs_pos_eq p Hpp) in G. apply Rlt_le in G. exact G. }
  assert (B : bpow radix2 (-53) = 2 * bpow radix2 (-54)) by (change (-53)%Z with (1 + -54)%Z; rewrite bpow_plus; reflexivity).
  assert (B54 : 0 < bpow radix2 (-54) < / 4).
  { split; [apply bpow_gt_0|]. replace (/ 4) with (bpow radix2 (-2)) by (cbn; lra). apply bpow_lt. lia. }
  set (b := bpow radix2 (-54)) in *. set (u := ulp radix2 (FLT_exp (-1074) 53) p) in *.
  assert (Hu : 0 < u). { destruct (Req_dec p 0) as [Hp0|Hn]; [lra|]. assert (0 < p) by lra. assert (0 < p * bpow radix2 (-53)) by (apply Rmult_lt_0_compat; [lra|apply bpow_gt_0]). lra. }
  nra.
Qed.

(** What is negligible is not subtracted. *)
Lemma fl_negligible t z : is_double z -> 0 < z -> negligible t z -> fl (z - t) = z.
Proof.
  intros Hz Hp [H0 H1].
  destruct (round_N_pt radix2 (FLT_exp (-1074) 53) (fun n => negb (Z.even n)) (z - t)) as [Hf Hn].
  specialize (Hn z Hz). fold (fl (z - t)) in *. change (round radix2 (FLT_exp (-1074) 53) (Znearest (fun n => negb (Z.even n))) (z - t)) with (fl (z - t)) in *.
  assert (Hle : fl (z - t) <= z) by (apply Rle_trans with (fl z); [apply fl_le; lra|rewrite (fl_double z Hz); lra]).
  destruct (Rle_lt_or_eq_dec _ _ Hle) as [Hl|He]; [|exact He]. exfalso.
  pose proof (double_gap _ _ Hf Hz Hl Hp) as G.
  replace (z - (z - t)) with t in Hn by ring. rewrite (Rabs_pos_eq t H0) in Hn.
  assert (B : bpow radix2 (-54) = 2 * bpow radix2 (-55)) by (change (-54)%Z with (1 + -55)%Z; rewrite bpow_plus; reflexivity).
  rewrite B in G. assert (0 < bpow radix2 (-55) * z) by (apply Rmult_lt_0_compat; [apply bpow_gt_0|exact Hp]).
  unfold Rabs in Hn. destruct (Rcase_abs (fl (z - t) - (z - t))); lra.
Qed.
