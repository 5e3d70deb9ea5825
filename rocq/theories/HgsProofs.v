(** Proofs about the text of numbers. *)
From Coq Require Import List ZArith Bool Ascii String Reals Lia Lra Arith.
From Flocq Require Import Core.
From Verif Require Import Base Num DirsModel TensorModel SurfaceModel OutputModel HgsModel HgsSpec.
Import ListNotations.
Local Open Scope R_scope.
Local Open Scope list_scope.

Lemma digits_acc f : forall n acc, digits f n acc = digits f n [] ++ acc.
Proof.
  induction f as [|f IH]; intros n acc; [reflexivity|]. cbn [digits]. destruct (Nat.ltb n 10); [reflexivity|].
  rewrite IH. rewrite (IH _ [_]). now rewrite <- app_assoc.
Qed.
Lemma digits_numeral f : forall n, (n <= f)%nat -> numeral (digits f n []) n.
Proof.
  induction f as [|f IH]; intros n Hn.
  - assert (n = 0)%nat as -> by lia. cbn [digits]. change (0 mod 10)%nat with 0%nat. constructor. lia.
  - cbn [digits]. destruct (Nat.ltb_spec n 10) as [H|H].
    + rewrite Nat.mod_small by exact H. now constructor.
    + rewrite digits_acc. rewrite (Nat.div_mod n 10) at 3 by lia. constructor; [|apply Nat.mod_upper_bound; lia].
      apply IH. assert (n / 10 < n)%nat by (apply Nat.div_lt; lia). lia.
Qed.
Lemma decimal_numeral n : numeral (decimal n) n.
Proof. apply digits_numeral. lia. Qed.
Lemma numeral_zero s n : numeral s n -> numeral ("0"%char :: s) n.
Proof.
  induction 1 as [d Hd|s n d _ IH Hd].
  - change ["0"%char; ascii_of_nat (48 + d)] with ([ascii_of_nat (48 + 0)] ++ [ascii_of_nat (48 + d)]).
    replace d with (10 * 0 + d)%nat at 2 by lia. constructor; [constructor; lia|exact Hd].
  - rewrite app_comm_cons. now constructor.
Qed.
Lemma pad_numeral w s n : numeral s n -> numeral (pad w s) n.
Proof. intros H. unfold pad. induction (w - List.length s)%nat as [|k IH]; [exact H|]. cbn [repeat app]. now apply numeral_zero. Qed.
Lemma pad_length w s : (List.length s <= w)%nat -> List.length (pad w s) = w.
Proof. intros H. unfold pad. rewrite app_length, repeat_length. lia. Qed.
Lemma digits_length f : forall n k, (n <= f)%nat -> (n < 10 ^ S k)%nat -> (List.length (digits f n []) <= S k)%nat.
Proof.
  induction f as [|f IH]; intros n k Hn Hk; [cbn; lia|]. cbn [digits]. destruct (Nat.ltb_spec n 10) as [H|H]; [cbn; lia|].
  destruct k as [|k]; [cbn in Hk; lia|]. rewrite digits_acc, app_length. cbn [List.length].
  assert (n / 10 < n)%nat by (apply Nat.div_lt; lia).
  assert (List.length (digits f (n / 10) []) <= S k)%nat; [|lia]. apply IH; [lia|]. apply Nat.div_lt_upper_bound; [lia|]. exact Hk.
Qed.
Lemma thousandths_value m : fixed_point (thousandths m) (IZR (Z.abs m) / 1000).
Proof.
  unfold thousandths. set (n := Z.to_nat (Z.abs m)).
  assert (Hl : List.length (pad 3 (decimal (n mod 1000))) = 3%nat).
  { apply pad_length. apply (digits_length _ _ 2); [lia|]. change (10 ^ 3)%nat with 1000%nat. apply Nat.mod_upper_bound. lia. }
  assert (E : IZR (Z.abs m) / 1000 = INR (n / 1000) + INR (n mod 1000) / 10 ^ List.length (pad 3 (decimal (n mod 1000)))).
  { rewrite Hl. replace (IZR (Z.abs m)) with (INR n) by (unfold n; rewrite INR_IZR_INZ, Z2Nat.id; [reflexivity|lia]).
    rewrite (Nat.div_mod n 1000) at 1 by lia. rewrite plus_INR, mult_INR. replace (INR 1000) with 1000 by (rewrite INR_IZR_INZ; reflexivity). field. }
  rewrite E. constructor; [apply decimal_numeral|apply pad_numeral, decimal_numeral].
Qed.
Lemma signed_thousandths x m : (x < 0 -> (m <= 0)%Z) -> (0 <= x -> (0 <= m)%Z) -> fixed_point (minus_sign x ++ thousandths m) (IZR m / 1000).
Proof.
  intros H1 H2. pose proof (thousandths_value m) as H. unfold minus_sign. destruct (Rlt_dec x 0) as [Hx|Hx].
  - replace (IZR m / 1000) with (- (IZR (Z.abs m) / 1000)); [now constructor|]. rewrite Z.abs_neq by auto. rewrite opp_IZR. field.
  - rewrite Z.abs_eq in H by (apply H2; lra). exact H.
Qed.
Lemma nearest_sign y : (y < 0 -> (ZnearestE y <= 0)%Z) /\ (0 <= y -> (0 <= ZnearestE y)%Z).
Proof.
  split; intros H.
  - rewrite <- (Zrnd_IZR ZnearestE 0). apply Zrnd_le; [apply valid_rnd_N|lra].
  - rewrite <- (Zrnd_IZR ZnearestE 0). apply Zrnd_le; [apply valid_rnd_N|lra].
Qed.
Lemma fmt_f3_value x : exists v, fixed_point (fmt_f3 x) v /\ Rabs (v - x) <= 1 / 2000.
Proof.
  exists (IZR (ZnearestE (x * 1000)) / 1000). split.
  - unfold fmt_f3. destruct (nearest_sign (x * 1000)) as [H1 H2]. apply signed_thousandths; intros H; [apply H1|apply H2]; lra.
  - pose proof (Znearest_half (fun z => negb (Z.even z)) (x * 1000)) as H. fold ZnearestE in H. set (m := IZR (ZnearestE (x * 1000))) in *.
    replace (m / 1000 - x) with (- ((x * 1000 - m) / 1000)) by field. rewrite Rabs_Ropp. unfold Rdiv at 1. rewrite Rabs_mult, (Rabs_pos_eq (/ 1000)) by lra. lra.
Qed.
Lemma bpow_powerRZ e : bpow ten e = powerRZ 10 e.
Proof. apply bpow_powerRZ. Qed.
Lemma bpow_nat n : bpow ten (Z.of_nat n) = 10 ^ n.
Proof. rewrite bpow_powerRZ. now rewrite <- pow_powerRZ. Qed.
Lemma with_exponent s v e : fixed_point s v ->
  scientific (s ++ S_ "e" ++ (if (e <? 0)%Z then S_ "-" else S_ "+") ++ pad 2 (decimal (Z.to_nat (Z.abs e)))) (v * bpow ten e).
Proof.
  intros H. pose proof (pad_numeral 2 _ _ (decimal_numeral (Z.to_nat (Z.abs e)))) as Hn. destruct (Z.ltb_spec e 0) as [He|He].
  - change (S_ "e" ++ S_ "-" ++ pad 2 (decimal (Z.to_nat (Z.abs e)))) with (S_ "e-" ++ pad 2 (decimal (Z.to_nat (Z.abs e)))).
    replace (v * bpow ten e) with (v / 10 ^ Z.to_nat (Z.abs e)); [now constructor|].
    replace e with (- Z.of_nat (Z.to_nat (Z.abs e)))%Z at 2 by lia. now rewrite bpow_opp, bpow_nat.
  - change (S_ "e" ++ S_ "+" ++ pad 2 (decimal (Z.to_nat (Z.abs e)))) with (S_ "e+" ++ pad 2 (decimal (Z.to_nat (Z.abs e)))).
    replace (v * bpow ten e) with (v * 10 ^ Z.to_nat (Z.abs e)); [now constructor|].
    replace e with (Z.of_nat (Z.to_nat (Z.abs e)))%Z at 2 by lia. now rewrite bpow_nat.
Qed.
Lemma sci3_value x : let (m, e) := sci3 x in
  (x < 0 -> (m <= 0)%Z) /\ (0 <= x -> (0 <= m)%Z) /\ Rabs (IZR m / 1000 * bpow ten e - x) <= Rabs x / 2000.
Proof.
  unfold sci3. destruct (Req_EM_T x 0) as [->|Hx].
  - split; [lia|]. split; [lia|]. rewrite Rabs_R0. unfold Rdiv. rewrite !Rmult_0_l, Rminus_0_r, Rabs_R0. lra.
  - set (e := (mag ten x - 1)%Z). set (y := x * bpow ten (3 - e)). set (m := ZnearestE y).
    assert (Hp : 0 < bpow ten (3 - e)) by apply bpow_gt_0.
    assert (Hs : (x < 0 -> (m <= 0)%Z) /\ (0 <= x -> (0 <= m)%Z)).
    { destruct (nearest_sign y) as [H1 H2]. split; intros H; [apply H1|apply H2]; unfold y; nra. }
    assert (Hv : Rabs (IZR m / 1000 * bpow ten e - x) <= Rabs x / 2000).
    { pose proof (Znearest_half (fun z => negb (Z.even z)) y) as H. fold ZnearestE in H. fold m in H.
      assert (Ex : x = y * bpow ten (e - 3)).
      { unfold y. rewrite Rmult_assoc, <- bpow_plus. replace (3 - e + (e - 3))%Z with 0%Z by lia. cbn. ring. }
      assert (Ee : bpow ten e = 1000 * bpow ten (e - 3)).
      { replace e with (3 + (e - 3))%Z at 1 by lia. rewrite bpow_plus. f_equal. }
      rewrite Ee. replace (IZR m / 1000 * (1000 * bpow ten (e - 3)) - x) with (- ((y - IZR m) * bpow ten (e - 3))) by (rewrite Ex at 1; field).
      rewrite Rabs_Ropp, Rabs_mult, (Rabs_pos_eq (bpow ten (e - 3))) by apply bpow_ge_0.
      pose proof (bpow_mag_le ten x Hx) as Hle. fold e in Hle. rewrite Ee in Hle. pose proof (bpow_ge_0 ten (e - 3)). nra. }
    destruct (Z.eqb_spec (Z.abs m) 10000) as [Hm|Hm]; [|tauto].
    split; [|split].
    + intros H. destruct Hs as [Hs _]. specialize (Hs H). lia.
    + intros H. destruct Hs as [_ Hs]. specialize (Hs H). lia.
    + replace (IZR (Z.sgn m * 1000) / 1000 * bpow ten (e + 1)) with (IZR m / 1000 * bpow ten e); [exact Hv|].
      rewrite bpow_plus. replace (bpow ten 1) with 10 by reflexivity. 
      assert (E : IZR m = IZR (Z.sgn m) * 10000) by (rewrite <- mult_IZR; f_equal; lia). rewrite mult_IZR, E. field.
Qed.
Lemma fmt_e3_value x : exists v, scientific (fmt_e3 x) v /\ Rabs (v - x) <= Rabs x / 2000.
Proof.
  unfold fmt_e3. pose proof (sci3_value x) as H. destruct (sci3 x) as [m e]. destruct H as (H1 & H2 & H3).
  exists (IZR m / 1000 * bpow ten e). split; [|exact H3].
  rewrite (app_assoc (minus_sign x)). apply with_exponent. now apply signed_thousandths.
Qed.
