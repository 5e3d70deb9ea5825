(** Lemmas about channels. *)
From Coq Require Import List ZArith Bool Reals Lra Lia Psatz Sorted.
From Verif Require Import Base Num FaciesModel SurfaceModel AssignModel AssignSpec AssignProofs2 TroughModel TroughProofs ChannelModel ChannelSpec.
Import ListNotations.
Local Open Scope R_scope.

Lemma Rltb_true x y : Rltb x y = true <-> x < y.
Proof.
  unfold Rltb. destruct (Rleb y x) eqn:E; cbn.
  - apply Rleb_true in E. split; [discriminate|lra].
  - apply Rleb_false in E. tauto.
Qed.
Lemma Rltb_false x y : Rltb x y = false <-> y <= x.
Proof.
  rewrite <- not_true_iff_false, Rltb_true. lra.
Qed.

(** ** The nearest point *)
Section Nearest.
Variable f : cpoint -> R.
Definition least (l : list cpoint) (m : R) : R := fold_left (fun m q => if Rltb (f q) m then f q else m) l m.
Lemma least_le l : forall m, least l m <= m.
Proof.
  induction l as [|q l IH]; intros m; cbn; [lra|]. destruct (Rltb (f q) m) eqn:E.
  - apply Rltb_true in E. specialize (IH (f q)). unfold least in IH. lra.
  - apply IH.
Qed.
Lemma least_lower l : forall m q, In q l -> least l m <= f q.
Proof.
  induction l as [|q l IH]; intros m q' Hq; [destruct Hq|]. cbn. destruct Hq as [<-|Hq].
  - destruct (Rltb (f q) m) eqn:E.
    + apply least_le.
    + apply Rltb_false in E. pose proof (least_le l m). unfold least in *. lra.
  - now apply IH.
Qed.
Lemma least_attained l : forall m, least l m = m \/ exists q, In q l /\ least l m = f q.
Proof.
  induction l as [|q l IH]; intros m; cbn; [now left|]. destruct (Rltb (f q) m) eqn:E.
  - destruct (IH (f q)) as [H|(q' & Hq & H)]; right; [exists q|exists q']; auto.
  - destruct (IH m) as [H|(q' & Hq & H)]; [now left|right; exists q'; auto].
Qed.
End Nearest.

Lemma near_dist x y l : forall prev n, nr_dist (near_loop x y prev l n) = least (fun q => sqrt (dist2 q x y)) l (nr_dist n).
Proof.
  induction l as [|q l IH]; intros prev n; cbn [near_loop]; [reflexivity|]. rewrite IH. unfold least. cbn [fold_left]. f_equal.
  destruct (Rltb _ _); reflexivity.
Qed.

Lemma dist2_pos q x y : 0 <= dist2 q x y.
Proof. unfold dist2. apply Rplus_le_le_0_compat; apply pow2_ge_0. Qed.
Lemma far_big : 10 ^ 50 * 10 ^ 50 = far.
Proof. unfold far. rewrite <- pow_add. reflexivity. Qed.
Lemma pow50 : 1 < 10 ^ 50.
Proof. apply Rlt_pow_R1; [lra|lia]. Qed.

Lemma xy_dist_spec c x y : let X := xy_dist c x y in
  0 <= X /\ (forall q, In q (ch_line c) -> X ^ 2 <= dist2 q x y) /\
  (10 ^ 50 <= X \/ exists q, In q (ch_line c) /\ X ^ 2 = dist2 q x y).
Proof.
  cbv zeta. unfold xy_dist. pose proof pow50 as P. pose proof far_big as F.
  assert (Hf : 0 <= far /\ 10 ^ 50 <= far) by (rewrite <- F; nra).
  destruct (ch_dipsets c).
  - unfold find_near. rewrite near_dist. cbn [nr_dist]. set (f := fun q => sqrt (dist2 q x y)).
    assert (H0 : 0 <= least f (ch_line c) far).
    { destruct (least_attained f (ch_line c) far) as [->|(q & _ & ->)]; [apply Hf|apply sqrt_pos]. }
    split; [exact H0|]. split.
    + intros q Hq. pose proof (least_lower f (ch_line c) far q Hq) as H. unfold f in H at 2.
      rewrite <- (pow2_sqrt (dist2 q x y)) by apply dist2_pos. apply pow_incr. split; assumption.
    + destruct (least_attained f (ch_line c) far) as [->|(q & Hq & E)]; [left; apply Hf|].
      right. exists q. split; [assumption|]. rewrite E. apply pow2_sqrt. apply dist2_pos.
  - assert (E0 : nearest2 x y (ch_line c) = least (fun q => dist2 q x y) (ch_line c) far) by reflexivity.
    set (f := fun q => dist2 q x y) in *.
    assert (H0 : 0 <= nearest2 x y (ch_line c)).
    { rewrite E0. destruct (least_attained f (ch_line c) far) as [->|(q & _ & ->)]; [apply Hf|apply dist2_pos]. }
    split; [apply sqrt_pos|]. rewrite pow2_sqrt by assumption. split.
    + intros q Hq. rewrite E0. apply (least_lower f (ch_line c) far q Hq).
    + destruct (least_attained f (ch_line c) far) as [E|(q & Hq & E)].
      * left. rewrite E0, E, <- F. rewrite sqrt_square; lra.
      * right. exists q. split; [assumption|]. rewrite E0. exact E.
Qed.

(** ** What __init__ sets *)
Lemma new_channel_fields ct line z w dp dx dy dr c : new_channel ct line z w dp dx dy dr = Ok c ->
  ch_line c = line /\ ch_ztop c = z /\ ch_zmax c = z /\ ch_zmin c = z - dp /\ ch_depth c = dp /\ ch_width c = w /\
  ch_a c = 4 * dp / w ^ 2 /\ ch_min_dxdy c = Rmin dx dy /\ ch_lag c = ct_lag_height ct /\ ch_lag_facies c = ct_lag_facies ct.
Proof.
  unfold new_channel. destruct (pystr_eqb _ _).
  - destruct (alternating_facies _ _ _ _); cbn [bind]; [|discriminate]. intros [= <-]. cbn. repeat split.
  - destruct (choice _ _); cbn [bind]; [|discriminate]. intros [= <-]. cbn. repeat split.
Qed.

(** Inside according to the code. *)
Definition inside (c : channel) (x y z : R) : bool :=
  Rleb z (ch_ztop c) && above_parabola c (xy_dist c x y) (z - ch_ztop c).

Lemma parabola_shape w d dz X : 0 < w -> 0 < d ->
  4 * d / w ^ 2 * X ^ 2 - d <= dz <-> X ^ 2 <= w ^ 2 / 4 + w ^ 2 * dz / (4 * d).
Proof.
  intros Hw Hd. assert (Hk : 0 < 4 * d / w ^ 2). { apply Rdiv_lt_0_compat; [lra|]. apply pow_lt. assumption. }
  assert (E : w ^ 2 / 4 + w ^ 2 * dz / (4 * d) = (d + dz) / (4 * d / w ^ 2)).
  { field; repeat split; lra. }
  rewrite E. set (k := 4 * d / w ^ 2) in *. split; intros H.
  - apply (Rmult_le_reg_l k); [assumption|]. replace (k * ((d + dz) / k)) with (d + dz) by (field; lra). lra.
  - apply (Rmult_le_compat_l k) in H; [|lra]. replace (k * ((d + dz) / k)) with (d + dz) in H by (field; lra). lra.
Qed.

Lemma parabola_narrow w d dz : 0 < w -> 0 < d -> dz <= 0 -> w ^ 2 / 4 + w ^ 2 * dz / (4 * d) <= w ^ 2 / 4.
Proof.
  intros Hw Hd Hz. assert (0 <= w ^ 2 * - dz / (4 * d)).
  { apply Rmult_le_pos; [nra|]. left. apply Rinv_0_lt_compat. lra. }
  replace (w ^ 2 * dz / (4 * d)) with (- (w ^ 2 * - dz / (4 * d))) by (field; lra). lra.
Qed.

Section Made.
Variables (ct : channel_type) (line : list cpoint) (z w dp dx dy : R) (dr : channel_draw) (c : channel).
Hypothesis Hc : new_channel ct line z w dp dx dy dr = Ok c.
Hypothesis Hw : 0 < w.
Hypothesis Hd : 0 < dp.

Lemma inside_spec x y zz : w < 10 ^ 50 -> inside c x y zz = true <-> in_parabola line w dp z x y zz.
Proof.
  intros Hbig. destruct (new_channel_fields _ _ _ _ _ _ _ _ _ Hc) as (El & Ez & _ & _ & Edp & _ & Ea & _).
  unfold inside, above_parabola, in_parabola. rewrite Ez, Ea, Edp, andb_true_iff, !Rleb_true.
  rewrite parabola_shape by assumption.
  destruct (xy_dist_spec c x y) as (H0 & Hlow & Hatt). rewrite El in Hlow, Hatt. set (X := xy_dist c x y) in *.
  split; intros [Hz H]; (split; [assumption|]).
  - pose proof (parabola_narrow w dp (zz - z) Hw Hd ltac:(lra)) as Hn.
    destruct Hatt as [Hf|(q & Hq & E)].
    + exfalso. pose proof pow50. assert (X ^ 2 >= 10 ^ 50 * 10 ^ 50). { cbn [pow] in *. nra. } cbn [pow] in *. nra.
    + exists q. unfold dist2 in *. split; [assumption|]. rewrite <- E. split; [intros q' Hq'; now apply Hlow|assumption].
  - destruct H as (q & Hq & _ & H). specialize (Hlow q Hq). unfold dist2 in Hlow. lra.
Qed.

(** The shape hangs down from the top. *)
Lemma inside_up x y z1 z2 : z1 <= z2 -> z2 <= z -> inside c x y z1 = true -> inside c x y z2 = true.
Proof.
  destruct (new_channel_fields _ _ _ _ _ _ _ _ _ Hc) as (El & Ez & _).
  unfold inside, above_parabola. rewrite Ez, !andb_true_iff, !Rleb_true. intros. lra.
Qed.

Lemma outside_far x y : (forall q, In q line -> w ^ 2 <= dist2 q x y) -> forall zz, w < 10 ^ 50 -> inside c x y zz = false.
Proof.
  intros H zz Hb. apply not_true_iff_false. rewrite inside_spec by assumption. intros (Hz & q & Hq & _ & Hin).
  specialize (H q Hq). unfold dist2 in H.
  pose proof (parabola_narrow w dp (zz - z) Hw Hd ltac:(lra)). assert (0 < w ^ 2) by (apply pow_lt; assumption). lra.
Qed.
End Made.

(** ** Marks *)
Lemma marked_fold {A} (P : nat -> nat -> nat -> Prop) (f : marks -> A -> marks) (l : list A) :
  (forall d a, In a l -> (forall k i j, f d a k i j = true -> d k i j = true \/ P k i j)) ->
  forall d k i j, fold_left f l d k i j = true -> d k i j = true \/ P k i j.
Proof.
  induction l as [|a l IH]; intros Hf d k i j H; cbn in H; [now left|].
  destruct (IH (fun d b Hb => Hf d b (or_intror Hb)) _ _ _ _ H) as [H'|]; [|now right].
  apply (Hf d a (or_introl eq_refl) k i j H').
Qed.
Lemma mark_true d key x y k i j : mark d key x y k i j = true -> d k i j = true \/ k = key /\ i = x /\ j = y.
Proof.
  unfold mark. destruct (Nat.eqb_spec k key), (Nat.eqb_spec i x), (Nat.eqb_spec j y); cbn; auto.
Qed.

Lemma ntrunc_nat (x : R) n : (n < Z.to_nat (ntrunc x))%nat -> INR n < x.
Proof.
  intros H. destruct (ntrunc_bounds x) as [T1 T2]. destruct (Rlt_le_dec x 0) as [Hx|Hx].
  - destruct (T1 Hx). lia.
  - destruct (T2 Hx) as [H1 H2]. assert (Hn : (Z.of_nat n < ntrunc x)%Z) by lia. apply IZR_lt in Hn.
    rewrite <- INR_IZR_INZ in Hn. lra.
Qed.

(** [near_cell]: the cell (i,j) is in the disc around (x,y), lengths in y being
    counted in cells. *)
Definition near_cell (dx radius : R) (x y i j : nat) : Prop :=
  (INR (i - x + (x - i)) * dx) ^ 2 + INR (j - y + (y - j)) ^ 2 < radius ^ 2.

Lemma mark_disc_near cg key x y radius d : 0 < cg_dx cg -> forall k i j,
  mark_disc cg key x y radius d k i j = true -> d k i j = true \/ k = key /\ near_cell (cg_dx cg) radius x y i j.
Proof.
  intros Hdx k i j H. unfold mark_disc in H.
  apply (marked_fold (fun k i j => k = key /\ near_cell (cg_dx cg) radius x y i j)) in H; [exact H|].
  clear. intros d a Ha k i j H. apply in_seq in Ha. destruct Ha as [_ Ha]. cbn in Ha. apply ntrunc_nat in Ha.
  destruct (Nat.leb_spec a x) as [Hax|]; cbn [andb] in H; [|now left].
  destruct (Nat.ltb_spec (x + a) (cg_nx cg)); cbn [andb] in H; [|now left].
  unfold mark_row in H.
  apply (marked_fold (fun k i j => k = key /\ near_cell (cg_dx cg) radius x y i j)) in H; [exact H|].
  clear - Hax. intros d b Hb k i j H. apply in_seq in Hb. destruct Hb as [_ Hb]. cbn in Hb. apply ntrunc_nat in Hb.
  destruct (Nat.leb_spec b y) as [Hby|]; cbn [andb] in H; [|now left].
  destruct (Nat.ltb_spec (y + b) (cg_ny cg)); cbn [andb] in H; [|now left].
  assert (Hq : (INR a * cg_dx cg) ^ 2 + INR b ^ 2 < radius ^ 2).
  { destruct (Rle_lt_dec (radius ^ 2 - (INR a * cg_dx cg) ^ 2) 0) as [Hn|Hp].
    - rewrite sqrt_neg_0 in Hb by assumption. pose proof (pos_INR b). lra.
    - assert (INR b * INR b < sqrt (radius ^ 2 - (INR a * cg_dx cg) ^ 2) * sqrt (radius ^ 2 - (INR a * cg_dx cg) ^ 2)).
      { apply Rmult_le_0_lt_compat; auto using pos_INR. }
      rewrite sqrt_sqrt in H1 by lra. cbn [pow] in *. lra. }
  repeat (apply mark_true in H; destruct H as [H|(-> & -> & ->)]; [|right; split; [reflexivity|]; unfold near_cell]);
    [now left|..];
    repeat match goal with
    | |- context [INR (x + a - x + (x - (x + a)))] => replace (x + a - x + (x - (x + a)))%nat with a by lia
    | |- context [INR (x - a - x + (x - (x - a)))] => replace (x - a - x + (x - (x - a)))%nat with a by lia
    | |- context [INR (y + b - y + (y - (y + b)))] => replace (y + b - y + (y - (y + b)))%nat with b by lia
    | |- context [INR (y - b - y + (y - (y - b)))] => replace (y - b - y + (y - (y - b)))%nat with b by lia
    end; assumption.
Qed.

(** ** Distances *)
Lemma disc_far q x y x' y' X r w : 0 <= w -> 0 < r -> X = r + w -> X ^ 2 <= dist2 q x y ->
  (x - x') ^ 2 + (y - y') ^ 2 < r ^ 2 -> w ^ 2 <= dist2 q x' y'.
Proof.
  intros Hw Hr EX HX Hn. unfold dist2 in *.
  pose proof (triangle x y (cp_x q) (cp_y q) x' y') as T. unfold dist_euc, Rsqr in T.
  replace ((x - cp_x q) * (x - cp_x q) + (y - cp_y q) * (y - cp_y q)) with ((x - cp_x q) ^ 2 + (y - cp_y q) ^ 2) in T by ring.
  replace ((x - x') * (x - x') + (y - y') * (y - y')) with ((x - x') ^ 2 + (y - y') ^ 2) in T by ring.
  replace ((x' - cp_x q) * (x' - cp_x q) + (y' - cp_y q) * (y' - cp_y q)) with ((x' - cp_x q) ^ 2 + (y' - cp_y q) ^ 2) in T by ring.
  assert (H1 : X <= sqrt ((x - cp_x q) ^ 2 + (y - cp_y q) ^ 2)).
  { rewrite <- (sqrt_pow2 X) by lra. apply sqrt_le_1_alt. assumption. }
  assert (H2 : sqrt ((x - x') ^ 2 + (y - y') ^ 2) < r).
  { rewrite <- (sqrt_pow2 r) by lra. apply sqrt_lt_1_alt. split; [|assumption]. apply Rplus_le_le_0_compat; apply pow2_ge_0. }
  assert (H3 : w <= sqrt ((x' - cp_x q) ^ 2 + (y' - cp_y q) ^ 2)) by lra.
  rewrite <- (pow2_sqrt ((x' - cp_x q) ^ 2 + (y' - cp_y q) ^ 2)) by (apply Rplus_le_le_0_compat; apply pow2_ge_0).
  apply pow_incr. lra.
Qed.

Lemma INR_abs i x : INR (i - x + (x - i)) ^ 2 = (INR x - INR i) ^ 2.
Proof.
  destruct (Nat.le_ge_cases i x).
  - replace (i - x + (x - i))%nat with (x - i)%nat by lia. now rewrite minus_INR by lia.
  - replace (i - x + (x - i))%nat with (i - x)%nat by lia. rewrite minus_INR by lia. ring.
Qed.

(** ** The invariant *)
Section Invariant.
Variables (x0 y0 dx dy : R) (cg : cgrid) (chan : nat -> option (channel * Z)).
Hypothesis Hdx : 0 < dx.
Hypothesis Hdy : 0 < dy <= 1.
Hypothesis Ecg : cg_dx cg = dx.
Hypothesis Hchan : forall key c ha, chan key = Some (c, ha) -> exists ct line z w dp dr,
  new_channel ct line z w dp dx dy dr = Ok c /\ 0 < w < 10 ^ 50 /\ 0 < dp.
Notation P := (on_grid x0 y0 dx dy (cg_nx cg) (cg_ny cg)).

Definition MInv (d : marks) (col : nat * nat) (z : R) : Prop :=
  forall key c ha, chan key = Some (c, ha) -> d key (fst col) (snd col) = true ->
  forall zz, zz <= z -> inside c (x0 + INR (fst col) * dx) (y0 + INR (snd col) * dy) zz = false.

Definition clean_hit (o : aobj R marks) (p : point R) : option (write R) := snd (o_check o unmarked p).

Lemma assign_step key c ha p d : chan key = Some (c, ha) -> P p -> MInv d (p_xi p, p_yi p) (p_z p) ->
  snd (channel_assign cg key c ha d p) = snd (channel_assign cg key c ha unmarked p) /\
  MInv (fst (channel_assign cg key c ha d p)) (p_xi p, p_yi p) (p_z p) /\
  forall col z, col <> (p_xi p, p_yi p) -> MInv d col z -> MInv (fst (channel_assign cg key c ha d p)) col z.
Proof.
  intros Hk (Ex & Ey & Hx & Hy) HI. unfold channel_assign.
  destruct (Hchan _ _ _ Hk) as (ct & line & z & w & dp & dr & Hc & Hw & Hd).
  destruct (new_channel_fields _ _ _ _ _ _ _ _ _ Hc) as (El & Ez & _ & _ & Edp & Ew & Ea & Emin & _).
  destruct (Rltb 0 (p_z p - ch_ztop c)) eqn:Eup. { cbn. auto. }
  apply Rltb_false in Eup. cbn [unmarked]. unfold unmarked at 1.
  destruct (d key (p_xi p) (p_yi p)) eqn:Em.
  - assert (Hout : above_parabola c (xy_dist c (p_x p) (p_y p)) (p_z p - ch_ztop c) = false).
    { specialize (HI key c ha Hk Em (p_z p) (Rle_refl _)). cbn [fst snd] in HI. rewrite <- Ex, <- Ey in HI. unfold inside in HI.
      assert (Hz : Rleb (p_z p) (ch_ztop c) = true) by (apply Rleb_true; lra). rewrite Hz in HI. exact HI. }
    rewrite Hout. cbn [fst snd]. auto.
  - set (X := xy_dist c (p_x p) (p_y p)) in *. set (r := X - ch_width c) in *.
    assert (Hdisc : forall d' col zz, MInv d col zz -> d' = (if Rltb (ch_min_dxdy c) r then mark_disc cg key (p_xi p) (p_yi p) r d else d) ->
              MInv d' col zz).
    { intros d' [i j] zz HM -> key' c' ha' Hk' Hm z' Hz'. cbn [fst snd] in *.
      destruct (Rltb (ch_min_dxdy c) r) eqn:Er; [|now apply (HM _ _ _ Hk' Hm)].
      apply Rltb_true in Er. assert (Hr : 0 < r). { rewrite Emin in Er. assert (0 < Rmin dx dy) by (apply Rmin_glb_lt; lra). lra. }
      destruct (mark_disc_near cg key (p_xi p) (p_yi p) r d ltac:(lra) _ _ _ Hm) as [Hm'|[-> Hn]]; [now apply (HM _ _ _ Hk' Hm')|].
      rewrite Hk in Hk'. injection Hk' as <- <-.
      apply (outside_far _ _ _ _ _ _ _ _ _ Hc); [apply Hw|apply Hd| |apply Hw].
      intros q Hq. destruct (xy_dist_spec c (p_x p) (p_y p)) as (_ & Hlow & _). fold X in Hlow. rewrite El in Hlow.
      apply (disc_far q (p_x p) (p_y p) _ _ X r w); [lra|assumption|unfold r; rewrite Ew; lra|now apply Hlow|].
      unfold near_cell in Hn. rewrite Rpow_mult_distr, !INR_abs, Ecg in Hn. rewrite Ex, Ey.
      replace ((x0 + INR (p_xi p) * dx - (x0 + INR i * dx)) ^ 2) with ((INR (p_xi p) - INR i) ^ 2 * dx ^ 2) by ring.
      replace ((y0 + INR (p_yi p) * dy - (y0 + INR j * dy)) ^ 2) with ((INR (p_yi p) - INR j) ^ 2 * dy ^ 2) by ring.
      assert (dy ^ 2 <= 1) by (cbn [pow]; nra). pose proof (pow2_ge_0 (INR (p_yi p) - INR j)). nra. }
    set (d' := if Rltb (ch_min_dxdy c) r then _ else d) in *.
    destruct (above_parabola c X (p_z p - ch_ztop c)) eqn:Ein.
    + cbn [fst snd]. split; [reflexivity|]. split; [eapply Hdisc; [exact HI|reflexivity]|].
      intros col zz _ HM. eapply Hdisc; [exact HM|reflexivity].
    + cbn [fst snd]. split; [reflexivity|]. split.
      * intros key' c' ha' Hk' Hm zz Hzz. cbn [fst snd] in *.
        destruct (mark_true _ _ _ _ _ _ _ Hm) as [Hm'|(-> & _ & _)].
        { apply (Hdisc d' _ _ HI eq_refl _ _ _ Hk' Hm' zz Hzz). }
        rewrite Hk in Hk'. injection Hk' as <- <-. rewrite <- Ex, <- Ey. apply not_true_iff_false. intros Hi.
        apply (inside_up _ _ _ _ _ _ _ _ _ Hc _ _ _ (p_z p)) in Hi; [|assumption|lra].
        unfold inside in Hi. fold X in Hi. rewrite Ein, andb_false_r in Hi. discriminate.
      * intros [i j] zz Hne HM key' c' ha' Hk' Hm z' Hz'. cbn [fst snd] in *.
        destruct (mark_true _ _ _ _ _ _ _ Hm) as [Hm'|(-> & -> & ->)]; [|now destruct Hne].
        apply (Hdisc d' (i, j) _ HM eq_refl _ _ _ Hk' Hm' z' Hz').
Qed.

Lemma channel_step key c ha p d : chan key = Some (c, ha) -> P p -> MInv d (p_xi p, p_yi p) (p_z p) ->
  let o := channel_obj cg key ha c in
  snd (o_check o d p) = clean_hit o p /\ MInv (fst (o_check o d p)) (p_xi p, p_yi p) (p_z p) /\
  forall col z, col <> (p_xi p, p_yi p) -> MInv d col z -> MInv (fst (o_check o d p)) col z.
Proof.
  intros Hk HP HI. cbv zeta. unfold clean_hit. cbn [channel_obj o_check].
  destruct (assign_step key c ha p d Hk HP HI) as (H1 & H2).
  destruct (channel_assign cg key c ha d p) as [d1 r1], (channel_assign cg key c ha unmarked p) as [d2 r2]. cbn [fst snd] in *. subst r2. auto.
Qed.

Lemma keyed_transparent (m : list (astrat R marks)) : every_obj m (channels_keyed cg chan) ->
  transparent clean_hit m P MInv.
Proof.
  intros Hm. split.
  - intros s e o Hs He Ho d p HP HI. destruct (Hm s e o Hs He Ho) as [(h & Hh)|(key & c & ha & rep & Hk & Hc)].
    + unfold clean_hit. rewrite !Hh. cbn. auto.
    + unfold clean_hit. rewrite !Hc. cbn [fst snd]. destruct (assign_step key c ha p d Hk HP HI) as (H1 & H2). rewrite H1. auto.
  - intros d col z z' Hz HI key c ha Hk Hd zz Hzz. apply (HI key c ha Hk Hd). lra.
Qed.
Lemma unmarked_inv col z : MInv unmarked col z.
Proof. intros key c ha _ H. discriminate. Qed.
End Invariant.
