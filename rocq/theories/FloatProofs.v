(** Rounding errors of the operations of FloatModel. *)
From Coq Require Import List ZArith Bool Reals Lia Lra Psatz.
From Flocq Require Import Core BinarySingleNaN Relative.
From Verif Require Import Base FloatModel.
Import ListNotations.
Local Open Scope R_scope.

Definition rnd (x : R) : R := round radix2 (FLT_exp (-1074) 53) ZnearestE x.
Definition u : R := / 9007199254740992.
Definition eta : R := bpow radix2 (-1075).

Lemma rnd_err x M : Rabs x <= M -> Rabs (rnd x - x) <= u * M + eta.
Proof.
  intros H. destruct (relative_error_N_FLT'_ex radix2 (-1074) 53 eq_refl (fun x => negb (Z.even x)) x) as (e & h & H1 & H2 & _ & H3).
  unfold rnd. rewrite H3. replace (x * (1 + e) + h - x) with (x * e + h) by ring. eapply Rle_trans; [apply Rabs_triang|]. apply Rplus_le_compat.
  - rewrite Rabs_mult, Rmult_comm. apply Rmult_le_compat; try apply Rabs_pos; [|exact H]. eapply Rle_trans; [exact H1|].
    unfold u_ro. unfold Rdiv. assert (E : / 2 * bpow radix2 (- (53) + 1) = u) by (unfold u; cbn; lra). rewrite E.
    assert (0 < u) by (unfold u; lra). assert (/ (1 + u) <= 1). { rewrite <- Rinv_1 at 2. apply Rinv_le_contravar; lra. } nra.
  - eapply Rle_trans; [exact H2|]. unfold eta. change (/ 2) with (bpow radix2 (-1)). rewrite <- bpow_plus. now right.
Qed.
Lemma rnd_le x e : (-1074 <= e)%Z -> Rabs x <= bpow radix2 e -> Rabs (rnd x) <= bpow radix2 e.
Proof.
  intros He H. apply abs_round_le_generic; auto with typeclass_instances. apply generic_format_FLT_bpow; [reflexivity|exact He].
Qed.
Lemma rnd_generic x : generic_format radix2 (FLT_exp (-1074) 53) x -> rnd x = x.
Proof. intros H. apply round_generic; auto with typeclass_instances. Qed.

(** The operations without overflow. *)
Definition fin (x : b64) : Prop := is_finite x = true.
Definition big : R := bpow radix2 1000.
Lemma no_overflow x : Rabs x <= big -> Rlt_bool (Rabs (round radix2 (SpecFloat.fexp 53 1024) (round_mode mode_NE) x)) (bpow radix2 1024) = true.
Proof.
  intros H. apply Rlt_bool_true. eapply Rle_lt_trans; [apply (rnd_le x 1000); [lia|exact H]|]. apply bpow_lt. lia.
Qed.
Lemma fadd_R x y : fin x -> fin y -> Rabs (B2R x + B2R y) <= big -> fin (fadd x y) /\ B2R (fadd x y) = rnd (B2R x + B2R y).
Proof.
  intros Hx Hy H. assert (C := Bplus_correct 53 1024 _ _ mode_NE x y Hx Hy). rewrite (no_overflow _ H) in C. destruct C as (C1 & C2 & _). split; [exact C2|exact C1].
Qed.
Lemma fsub_R x y : fin x -> fin y -> Rabs (B2R x - B2R y) <= big -> fin (fsub x y) /\ B2R (fsub x y) = rnd (B2R x - B2R y).
Proof.
  intros Hx Hy H. assert (C := Bminus_correct 53 1024 _ _ mode_NE x y Hx Hy). rewrite (no_overflow _ H) in C. destruct C as (C1 & C2 & _). split; [exact C2|exact C1].
Qed.
Lemma fmul_R x y : fin x -> fin y -> Rabs (B2R x * B2R y) <= big -> fin (fmul x y) /\ B2R (fmul x y) = rnd (B2R x * B2R y).
Proof.
  intros Hx Hy H. assert (C := Bmult_correct 53 1024 _ _ mode_NE x y). rewrite (no_overflow _ H) in C. destruct C as (C1 & C2 & _). split; [|exact C1].
  unfold fin, fmul in *. rewrite C2, Hx, Hy. reflexivity.
Qed.
Lemma fdiv_R x y : fin x -> B2R y <> 0 -> Rabs (B2R x / B2R y) <= big -> fin (fdiv x y) /\ B2R (fdiv x y) = rnd (B2R x / B2R y).
Proof.
  intros Hx Hy H. assert (C := Bdiv_correct 53 1024 _ _ mode_NE x y Hy). rewrite (no_overflow _ H) in C. destruct C as (C1 & C2 & _). split; [|exact C1].
  unfold fin, fdiv in *. rewrite C2. exact Hx.
Qed.
Lemma fopp_R x : fin x -> fin (fopp x) /\ B2R (fopp x) = - B2R x.
Proof. intros H. split; [unfold fin, fopp; now rewrite is_finite_Bopp|apply B2R_Bopp]. Qed.
Lemma IZR_format z : (Z.abs z <= 2 ^ 53)%Z -> generic_format radix2 (FLT_exp (-1074) 53) (IZR z).
Proof.
  intros H. destruct (Z.eq_dec (Z.abs z) (2 ^ 53)) as [E|E].
  - assert (Hz : z = (2 ^ 53)%Z \/ z = (- 2 ^ 53)%Z) by lia. destruct Hz as [-> | ->].
    + change (IZR (2 ^ 53)) with (bpow radix2 53). apply generic_format_FLT_bpow; [reflexivity|lia].
    + rewrite opp_IZR. apply generic_format_opp. change (IZR (2 ^ 53)) with (bpow radix2 53). apply generic_format_FLT_bpow; [reflexivity|lia].
  - apply generic_format_FLT. exists (Float radix2 z 0); cbn [Fnum Fexp]; [unfold F2R; cbn; ring| |lia]. change (Z.abs z < 2 ^ 53)%Z. lia.
Qed.
Lemma fofZ_R z : (Z.abs z <= 2 ^ 53)%Z -> fin (fofZ z) /\ B2R (fofZ z) = IZR z.
Proof.
  intros H. assert (C := binary_normalize_correct 53 1024 _ _ mode_NE z 0 false). cbv zeta in C.
  assert (E : F2R (Float radix2 z 0) = IZR z) by (unfold F2R; cbn; ring). rewrite E in C.
  assert (B : Rabs (IZR z) <= big).
  { rewrite <- abs_IZR. apply Rle_trans with (IZR (2 ^ 53)); [now apply IZR_le|]. change (IZR (2 ^ 53)) with (bpow radix2 53). apply bpow_le. lia. }
  rewrite (no_overflow _ B) in C. destruct C as (C1 & C2 & _). split; [exact C2|]. unfold fofZ. rewrite C1. apply rnd_generic. now apply IZR_format.
Qed.
Lemma fceil_R x : fin x -> fceil x = Ok (Zceil (B2R x)).
Proof.
  destruct x as [s|s| |s m e B]; try discriminate; intros _.
  - cbn. f_equal. change 0 with (IZR 0). now rewrite Zceil_IZR.
  - cbn [fceil B2R]. f_equal. set (z := cond_Zopp s (Z.pos m)). unfold F2R. cbn [Fnum Fexp]. destruct (Z.leb_spec 0 e).
    + rewrite <- IZR_Zpower by assumption. rewrite <- mult_IZR, Zceil_IZR. reflexivity.
    + unfold Zceil. f_equal. replace (- (IZR z * bpow radix2 e)) with (IZR (- z) / IZR (2 ^ (- e))).
      * rewrite Zfloor_div; [reflexivity|]. apply Z.pow_nonzero; lia.
      * rewrite opp_IZR. replace (IZR (2 ^ - e)) with (bpow radix2 (- e)) by (rewrite <- IZR_Zpower by lia; reflexivity). rewrite bpow_opp. unfold Rdiv. rewrite Rinv_inv. ring.
Qed.
Lemma is_zero_R x : fin x -> is_zero x = true <-> B2R x = 0.
Proof.
  destruct x as [s|s| |s m e B]; try discriminate; intros _; cbn; split; try easy.
  intros H. exfalso. apply (F2R_neq_0 radix2 (Float radix2 (cond_Zopp s (Z.pos m)) e)) in H; [exact H|]. destruct s; discriminate.
Qed.

(** The number of entries of np.arange. *)
Lemma arange_len_R start stop step : fin start -> fin stop -> fin step -> B2R step <> 0 ->
  let d := rnd (B2R stop - B2R start) in let q := rnd (d / B2R step) in
  Rabs (B2R stop - B2R start) <= big -> Rabs (d / B2R step) <= big -> q <> 0 -> arange_len start stop step = Ok (Zceil q).
Proof.
  intros H1 H2 H3 H4 d q B1 B2 Hq. destruct (fsub_R _ _ H2 H1 B1) as [F1 E1]. fold d in E1.
  destruct (fdiv_R (fsub stop start) step F1 H4) as [F2 E2]; [now rewrite E1|]. rewrite E1 in E2. fold q in E2.
  unfold arange_len. destruct (is_zero (fdiv (fsub stop start) step)) eqn:E.
  - apply is_zero_R in E; [|exact F2]. congruence.
  - cbn [andb]. rewrite (fceil_R _ F2), E2. reflexivity.
Qed.
Lemma arange_length start stop step z : arange_len start stop step = Ok z -> exists l, arange start stop step = Ok l /\ List.length l = Z.to_nat z.
Proof. intros H. unfold arange. rewrite H. cbn [bind]. eexists. split; [reflexivity|]. now rewrite map_length, seq_length. Qed.

(** Everything in units of the cell size [D]. *)
Section Units.
Variable D : R.
Hypothesis D_lo : bpow radix2 (-900) <= D.
Hypothesis D_hi : D <= bpow radix2 900.
Lemma D_pos : 0 < D.
Proof. eapply Rlt_le_trans; [apply bpow_gt_0|exact D_lo]. Qed.
Lemma eta_D : eta <= u * D.
Proof.
  apply Rle_trans with (u * bpow radix2 (-900)).
  - unfold u. change (/ 9007199254740992) with (bpow radix2 (-53)). rewrite <- bpow_plus. apply bpow_le. lia.
  - apply Rmult_le_compat_l; [unfold u; lra|exact D_lo].
Qed.
Lemma rnd_D x C : 0 <= C -> Rabs x <= C * D -> x - u * (C + 1) * D <= rnd x <= x + u * (C + 1) * D.
Proof. intros HC H. apply rnd_err in H. apply Rabs_le_inv in H || (unfold Rabs in H; destruct (Rcase_abs _)); assert (E := eta_D); lra. Qed.
Lemma big_D x C : C <= 4503599627370496 -> Rabs x <= C * D -> Rabs x <= big.
Proof.
  intros HC H. eapply Rle_trans; [exact H|]. apply Rle_trans with (bpow radix2 52 * bpow radix2 900).
  - assert (P := D_pos). apply Rle_trans with (bpow radix2 52 * D); [|apply Rmult_le_compat_l; [apply bpow_ge_0|exact D_hi]].
    apply Rmult_le_compat_r; [lra|]. exact HC.
  - rewrite <- bpow_plus. apply bpow_le. lia.
Qed.
End Units.
Lemma rnd_1 x C : 0 <= C -> Rabs x <= C -> x - u * (C + 1) <= rnd x <= x + u * (C + 1).
Proof.
  intros HC H. assert (E := rnd_D 1). specialize (E ltac:(change 1 with (bpow radix2 0); apply bpow_le; lia) x C HC). lra.
Qed.
Lemma big_1 x C : C <= 4503599627370496 -> Rabs x <= C -> Rabs x <= big.
Proof.
  intros HC H. eapply Rle_trans; [exact H|]. eapply Rle_trans; [exact HC|]. change 4503599627370496 with (bpow radix2 52). apply bpow_le. lia.
Qed.
Lemma Rabs_le_iff x y : Rabs x <= y <-> - y <= x <= y.
Proof. split; [intros H; unfold Rabs in H; destruct (Rcase_abs x); lra|intros H; now apply Rabs_le]. Qed.
Lemma Zceil_between q n : IZR (n - 1) < q <= IZR n -> Zceil q = n.
Proof. intros H. apply Zceil_imp. exact H. Qed.

(** ** Steps of the programs *)
Section Step.
Variables (D : R) (C : R).
Hypothesis D_lo : bpow radix2 (-900) <= D.
Hypothesis D_hi : D <= bpow radix2 900.
Hypothesis C_lo : 0 <= C.
Hypothesis C_hi : C <= 4503599627370496.
Lemma step_add x y : fin x -> fin y -> Rabs (B2R x + B2R y) <= C * D ->
  fin (fadd x y) /\ B2R x + B2R y - u * (C + 1) * D <= B2R (fadd x y) <= B2R x + B2R y + u * (C + 1) * D.
Proof.
  intros Hx Hy H. destruct (fadd_R x y Hx Hy) as [F E]; [eapply big_D; eassumption|]. split; [exact F|]. rewrite E. now apply rnd_D.
Qed.
Lemma step_sub x y : fin x -> fin y -> Rabs (B2R x - B2R y) <= C * D ->
  fin (fsub x y) /\ B2R x - B2R y - u * (C + 1) * D <= B2R (fsub x y) <= B2R x - B2R y + u * (C + 1) * D.
Proof.
  intros Hx Hy H. destruct (fsub_R x y Hx Hy) as [F E]; [eapply big_D; eassumption|]. split; [exact F|]. rewrite E. now apply rnd_D.
Qed.
Lemma step_mul x y : fin x -> fin y -> Rabs (B2R x * B2R y) <= C * D ->
  fin (fmul x y) /\ B2R x * B2R y - u * (C + 1) * D <= B2R (fmul x y) <= B2R x * B2R y + u * (C + 1) * D.
Proof.
  intros Hx Hy H. destruct (fmul_R x y Hx Hy) as [F E]; [eapply big_D; eassumption|]. split; [exact F|]. rewrite E. now apply rnd_D.
Qed.
Lemma step_half x : fin x -> Rabs (B2R x) <= C * D ->
  fin (fdiv x (fofZ 2)) /\ B2R x / 2 - u * (C + 1) * D <= B2R (fdiv x (fofZ 2)) <= B2R x / 2 + u * (C + 1) * D.
Proof.
  intros Hx H. destruct (fofZ_R 2) as [F2 E2]; [lia|]. assert (B : Rabs (B2R x / 2) <= C * D).
  { assert (P := D_pos D D_lo). apply Rabs_le_iff in H. apply Rabs_le_iff. assert (0 <= C * D) by nra. lra. }
  destruct (fdiv_R x (fofZ 2) Hx) as [F E]; [rewrite E2; lra|rewrite E2; eapply big_D; eassumption|]. split; [exact F|]. rewrite E, E2. now apply rnd_D.
Qed.
End Step.

(** The quotient of np.arange: at most [C] steps *)
Lemma arange_len_near start stop step D C : bpow radix2 (-900) <= D -> D <= bpow radix2 900 -> fin start -> fin stop -> fin step ->
  (B2R step = D \/ B2R step = - D) -> 0 <= C -> C <= 4503599627370495 ->
  Rabs (B2R stop - B2R start) <= C * D ->
  exists q, Rabs (q - (B2R stop - B2R start) / B2R step) <= 3 * u * (C + 1) /\ (q <> 0 -> arange_len start stop step = Ok (Zceil q)).
Proof.
  intros D1 D2 H1 H2 H3 HD HC HC' B. assert (P := D_pos D D1).
  assert (Hn : B2R step <> 0) by (destruct HD; lra).
  assert (Ha : Rabs (B2R step) = D) by (destruct HD as [-> | ->]; [apply Rabs_pos_eq; lra|rewrite Rabs_Ropp; apply Rabs_pos_eq; lra]).
  assert (E1 := rnd_D D D1 (B2R stop - B2R start) C HC B). set (d0 := B2R stop - B2R start) in *. set (d := rnd d0) in *.
  assert (Ed : Rabs (d - d0) <= u * (C + 1) * D) by (apply Rabs_le_iff; lra).
  assert (Ed' : Rabs (d / B2R step - d0 / B2R step) <= u * (C + 1)).
  { replace (d / B2R step - d0 / B2R step) with ((d - d0) / B2R step) by (field; exact Hn). unfold Rdiv. rewrite Rabs_mult, Rabs_inv, Ha.
    apply Rmult_le_reg_r with D; [exact P|]. rewrite Rmult_assoc, Rinv_l by lra. lra. }
  assert (Bq0 : Rabs (d0 / B2R step) <= C).
  { unfold Rdiv. rewrite Rabs_mult, Rabs_inv, Ha. apply Rmult_le_reg_r with D; [exact P|]. rewrite Rmult_assoc, Rinv_l by lra. lra. }
  assert (Hu' : 0 <= u * (C + 1) <= 1 / 2 + / 1000000) by (unfold u; lra).
  assert (Hu : 0 < u < / 1000000) by (unfold u; lra).
  assert (Bq : Rabs (d / B2R step) <= C + 1).
  { replace (d / B2R step) with ((d / B2R step - d0 / B2R step) + d0 / B2R step) by ring. eapply Rle_trans; [apply Rabs_triang|]. lra. }
  assert (E2 := rnd_1 (d / B2R step) (C + 1) ltac:(lra) Bq).
  exists (rnd (d / B2R step)). split.
  - replace (rnd (d / B2R step) - d0 / B2R step) with ((rnd (d / B2R step) - d / B2R step) + (d / B2R step - d0 / B2R step)) by ring.
    eapply Rle_trans; [apply Rabs_triang|]. assert (E3 : Rabs (rnd (d / B2R step) - d / B2R step) <= u * (C + 1 + 1)) by (apply Rabs_le_iff; lra).
    assert (0 <= u * C) by nra. lra.
  - intros Hq. apply arange_len_R; try assumption.
    + eapply big_D with (C := C); try eassumption. lra.
    + eapply big_1 with (C := C + 1); [lra|]. exact Bq.
Qed.
Lemma quotient_between a b D lo hi : 0 < D -> (b = D \/ b = - D) -> lo * D <= (if Rle_dec 0 b then a else - a) <= hi * D -> lo <= a / b <= hi.
Proof.
  intros P HD H. assert (E : a / b = (if Rle_dec 0 b then a else - a) / D).
  { destruct HD as [-> | ->]; destruct (Rle_dec _ _); try lra; field; lra. }
  rewrite E. unfold Rdiv. split; apply Rmult_le_reg_r with D; try exact P; rewrite Rmult_assoc, Rinv_l by lra; lra.
Qed.

(** The entries of np.arange *)
Definition entry (start step : b64) (i : nat) : b64 :=
  match i with
  | O => start
  | 1%nat => fadd start step
  | _ => fadd start (fmul (fofZ (Z.of_nat i)) (fsub (fadd start step) start))
  end.
Lemma arange_nth start stop step l i : arange start stop step = Ok l -> (i < List.length l)%nat -> nth_error l i = Some (entry start step i).
Proof.
  unfold arange. intros H. apply bind_Ok in H. destruct H as (z & _ & H2). 
  assert (E : l = map (entry start step) (seq 0 (Z.to_nat z))) by (unfold entry; congruence). subst l. rewrite map_length, seq_length. intros Hi.
  rewrite nth_error_map, nth_error_nth' with (d := O) by now rewrite seq_length. rewrite seq_nth by assumption. reflexivity.
Qed.
Lemma entry_near start step D i : bpow radix2 (-900) <= D -> D <= bpow radix2 900 -> fin start -> fin step ->
  (B2R step = D \/ B2R step = - D) -> Rabs (B2R start) <= 134217728 * D -> (Z.of_nat i <= 2 ^ 21)%Z ->
  fin (entry start step i) /\ Rabs (B2R (entry start step i) - (B2R start + INR i * B2R step)) <= D / 31.
Proof.
  intros D1 D2 H1 H2 HD B Hi. assert (P := D_pos D D1). apply Rabs_le_iff in B.
  destruct (step_add D 134217729 D1 D2 ltac:(lra) ltac:(lra) start step H1 H2) as [Fn En]; [apply Rabs_le_iff; destruct HD; lra|].
  unfold u in En.
  destruct i as [|[|i]].
  - split; [exact H1|]. cbn [entry]. rewrite Rabs_le_iff. cbn [INR]. lra.
  - split; [exact Fn|]. cbn [entry INR]. rewrite Rabs_le_iff. lra.
  - remember (S (S i)) as k eqn:Ek. replace (entry start step k) with (fadd start (fmul (fofZ (Z.of_nat k)) (fsub (fadd start step) start))) by now subst k.
    destruct (step_sub D 3 D1 D2 ltac:(lra) ltac:(lra) _ start Fn H1) as [Fd Ed]; [apply Rabs_le_iff; destruct HD; lra|].
    unfold u in Ed. destruct (fofZ_R (Z.of_nat k)) as [Fk Ekk]; [lia|]. rewrite <- INR_IZR_INZ in Ekk.
    assert (Hk : 0 <= INR k <= 2097152) by (split; [apply pos_INR|rewrite INR_IZR_INZ; apply IZR_le; lia]).
    set (delta := fsub (fadd start step) start) in *.
    assert (Hd : - (/ 9007199254740992 * 134217740 * D) <= B2R delta - B2R step <= / 9007199254740992 * 134217740 * D) by lra.
    assert (Hm : - (2097152 * (/ 9007199254740992 * 134217740 * D)) <= INR k * (B2R delta - B2R step) <= 2097152 * (/ 9007199254740992 * 134217740 * D)).
    { set (w := / 9007199254740992 * 134217740 * D) in *. nra. }
    assert (Hks : - (2097152 * D) <= INR k * B2R step <= 2097152 * D) by (destruct HD as [-> | ->]; nra).
    destruct (step_mul D 2097153 D1 D2 ltac:(lra) ltac:(lra) _ delta Fk Fd) as [Fm Em]; [rewrite Ekk; apply Rabs_le_iff; lra|]. rewrite Ekk in Em.
    unfold u in Em.
    destruct (step_add D 136314883 D1 D2 ltac:(lra) ltac:(lra) start _ H1 Fm) as [Fe Ee]; [apply Rabs_le_iff; lra|].
    split; [exact Fe|]. unfold u in Ee. apply Rabs_le_iff. lra.
Qed.

(** ** Exact numbers *)
(** Multiples of a power of two that doubles represent exactly *)
Definition exact (e : Z) (x : b64) (m : Z) : Prop := fin x /\ B2R x = IZR m * bpow radix2 e.
Lemma exact_format m e : (Z.abs m <= 2 ^ 53)%Z -> (-1074 <= e)%Z -> generic_format radix2 (FLT_exp (-1074) 53) (IZR m * bpow radix2 e).
Proof.
  intros H He. destruct (Z.eq_dec (Z.abs m) (2 ^ 53)) as [E|E].
  - assert (Hz : m = (2 ^ 53)%Z \/ m = (- 2 ^ 53)%Z) by lia. assert (G : generic_format radix2 (FLT_exp (-1074) 53) (IZR (2 ^ 53) * bpow radix2 e)).
    { change (IZR (2 ^ 53)) with (bpow radix2 53). rewrite <- bpow_plus. apply generic_format_FLT_bpow; [reflexivity|lia]. }
    destruct Hz as [-> | ->]; [exact G|]. rewrite opp_IZR, Ropp_mult_distr_l_reverse. now apply generic_format_opp.
  - apply generic_format_FLT. exists (Float radix2 m e); cbn [Fnum Fexp]; [reflexivity| |exact He]. change (Z.abs m < 2 ^ 53)%Z. lia.
Qed.
Lemma exact_big m e : (Z.abs m <= 2 ^ 53)%Z -> (e <= 900)%Z -> Rabs (IZR m * bpow radix2 e) <= big.
Proof.
  intros H He. rewrite Rabs_mult, <- abs_IZR, (Rabs_pos_eq (bpow _ _)) by apply bpow_ge_0.
  apply Rle_trans with (bpow radix2 53 * bpow radix2 900).
  - apply Rmult_le_compat; [apply IZR_le; lia|apply bpow_ge_0| |apply bpow_le; lia]. change (bpow radix2 53) with (IZR (2 ^ 53)). now apply IZR_le.
  - rewrite <- bpow_plus. apply bpow_le. lia.
Qed.
Lemma exact_add e x a y b : (-1074 <= e <= 900)%Z -> exact e x a -> exact e y b -> (Z.abs (a + b) <= 2 ^ 53)%Z -> exact e (fadd x y) (a + b).
Proof.
  intros He [Fx Ex] [Fy Ey] B. assert (E : B2R x + B2R y = IZR (a + b) * bpow radix2 e) by (rewrite Ex, Ey, plus_IZR; ring).
  destruct (fadd_R x y Fx Fy) as [F R]; [rewrite E; apply exact_big; lia|]. split; [exact F|]. rewrite R, E. apply rnd_generic, exact_format; lia.
Qed.
Lemma exact_sub e x a y b : (-1074 <= e <= 900)%Z -> exact e x a -> exact e y b -> (Z.abs (a - b) <= 2 ^ 53)%Z -> exact e (fsub x y) (a - b).
Proof.
  intros He [Fx Ex] [Fy Ey] B. assert (E : B2R x - B2R y = IZR (a - b) * bpow radix2 e) by (rewrite Ex, Ey, minus_IZR; ring).
  destruct (fsub_R x y Fx Fy) as [F R]; [rewrite E; apply exact_big; lia|]. split; [exact F|]. rewrite R, E. apply rnd_generic, exact_format; lia.
Qed.
Lemma exact_mul e i y b : (-1074 <= e <= 900)%Z -> exact e y b -> (Z.abs i <= 2 ^ 53)%Z -> (Z.abs (i * b) <= 2 ^ 53)%Z -> exact e (fmul (fofZ i) y) (i * b).
Proof.
  intros He [Fy Ey] Bi B. destruct (fofZ_R i Bi) as [Fi Ei]. assert (E : B2R (fofZ i) * B2R y = IZR (i * b) * bpow radix2 e) by (rewrite Ei, Ey, mult_IZR; ring).
  destruct (fmul_R _ y Fi Fy) as [F R]; [rewrite E; apply exact_big; lia|]. split; [exact F|]. rewrite R, E. apply rnd_generic, exact_format; lia.
Qed.
Lemma exact_opp e y b : exact e y b -> exact e (fopp y) (- b).
Proof. intros [F E]. destruct (fopp_R y F) as [F' E']. split; [exact F'|]. rewrite E', E, opp_IZR. ring. Qed.
Lemma exact_half e x h : (-1074 <= e <= 900)%Z -> exact e x (2 * h) -> (Z.abs h <= 2 ^ 53)%Z -> exact e (fdiv x (fofZ 2)) h.
Proof.
  intros He [F E] B. destruct (fofZ_R 2 ltac:(lia)) as [F2 E2]. assert (Eq : B2R x / B2R (fofZ 2) = IZR h * bpow radix2 e).
  { rewrite E, E2, mult_IZR. field. }
  destruct (fdiv_R x (fofZ 2) F) as [Fd Ed]; [rewrite E2; lra|rewrite Eq; apply exact_big; lia|]. split; [exact Fd|]. rewrite Ed, Eq. apply rnd_generic, exact_format; lia.
Qed.
(** [k] half steps *)
Lemma arange_len_exact e start a stop c step b k : (-1074 <= e <= 900)%Z -> exact e start a -> exact e stop c -> exact e step b -> b <> 0%Z ->
  (2 * (c - a) = k * b)%Z -> k <> 0%Z -> (Z.abs (c - a) <= 2 ^ 53)%Z -> (Z.abs k <= 2 ^ 53)%Z -> arange_len start stop step = Ok ((k + 1) / 2)%Z.
Proof.
  intros He H0 H1 H2 Hb Hk Hk0 Bc Bk. assert (Hd := exact_sub e _ _ _ _ He H1 H0 Bc). destruct Hd as [Fd Ed].
  assert (P := bpow_gt_0 radix2 e). assert (Hb' : IZR b <> 0) by (intros E; apply eq_IZR in E; contradiction).
  assert (Eq : B2R (fsub stop start) / B2R step = IZR k * bpow radix2 (-1)).
  { destruct H2 as [_ ->]. rewrite Ed. change (bpow radix2 (-1)) with (/ 2). assert (E2 : IZR (c - a) = IZR k * IZR b / 2).
    { rewrite <- mult_IZR, <- Hk, mult_IZR. field. } rewrite E2. field. split; lra. }
  assert (Hs : B2R step <> 0) by (destruct H2 as [_ ->]; apply Rmult_integral_contrapositive; split; lra).
  destruct (fdiv_R (fsub stop start) step Fd Hs) as [Fq Rq]; [rewrite Eq; apply exact_big; lia|].
  rewrite Eq, rnd_generic in Rq by (apply exact_format; lia).
  unfold arange_len. destruct (is_zero (fdiv (fsub stop start) step)) eqn:E.
  - apply is_zero_R in E; [|exact Fq]. rewrite Rq in E. apply Rmult_integral in E. change (bpow radix2 (-1)) with (/ 2) in E. destruct E as [E|E]; [apply eq_IZR in E; contradiction|lra].
  - cbn [andb]. rewrite (fceil_R _ Fq), Rq. f_equal. change (bpow radix2 (-1)) with (/ 2). apply Zceil_between. rewrite minus_IZR.
    assert (M := Z.div_mod (k + 1) 2 ltac:(lia)). assert (M2 := Z.mod_pos_bound (k + 1) 2 ltac:(lia)).
    assert (2 * IZR ((k + 1) / 2) <= IZR k + 1) by (rewrite <- mult_IZR, <- plus_IZR; apply IZR_le; lia).
    assert (IZR k <= 2 * IZR ((k + 1) / 2)) by (rewrite <- mult_IZR; apply IZR_le; lia). lra.
Qed.
Lemma entry_exact e start a step b i : (-1074 <= e <= 900)%Z -> exact e start a -> exact e step b ->
  (Z.abs a + (Z.of_nat i + 1) * Z.abs b <= 2 ^ 53)%Z -> b <> 0%Z -> exact e (entry start step i) (a + Z.of_nat i * b).
Proof.
  intros He H0 H1 B Hb. destruct i as [|[|i]]; cbn [entry].
  - replace (a + Z.of_nat 0 * b)%Z with a by lia. exact H0.
  - replace (a + Z.of_nat 1 * b)%Z with (a + b)%Z by lia. apply exact_add; try assumption. lia.
  - assert (Hn := exact_add e _ _ _ _ He H0 H1 ltac:(nia)). assert (Hd := exact_sub e _ _ _ _ He Hn H0 ltac:(nia)).
    replace (a + b - a)%Z with b in Hd by ring. apply exact_add; try assumption; [|nia]. apply exact_mul; try assumption; nia.
Qed.
