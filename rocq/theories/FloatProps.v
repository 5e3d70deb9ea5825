(** Grid coordinates in IEEE double precision (C110-C112).

    In SurfaceProps the coordinates are real numbers.  Here they are doubles, and
    the statements are about the real numbers that the doubles stand for. *)
From Coq Require Import List ZArith Bool Reals Lia Lra Psatz.
From Flocq Require Import Core BinarySingleNaN.
From Verif Require Import Base FloatModel FloatProofs.
Import ListNotations.
Local Open Scope R_scope.

(** ** Specification *)
(** A cell size that is neither close to underflow nor to overflow, an origin at
    most [2^k] cells from zero, and a length of [n] cells up to a quarter of one. *)
Definition usable (k : Z) (x0 dx lx : b64) (n : Z) : Prop :=
  fin x0 /\ fin dx /\ fin lx /\ bpow radix2 (-900) <= B2R dx <= bpow radix2 900 /\
  Rabs (B2R x0) <= bpow radix2 k * B2R dx /\ Rabs (B2R lx - IZR n * B2R dx) <= B2R dx / 4.
(** ** C110: the cells *)
Theorem C110_cell_count x0 dx lx n : usable 40 x0 dx lx n -> (0 <= n <= 2 ^ 40)%Z ->
  exists l, centres x0 dx lx = Ok l /\ List.length l = Z.to_nat n.
Proof.
  intros (F0 & F1 & F2 & [D1 D2] & B0 & Bl) Hn. assert (P := D_pos _ D1).
  change (bpow radix2 40) with 1099511627776 in B0. apply Rabs_le_iff in B0. apply Rabs_le_iff in Bl.
  assert (Rn : 0 <= IZR n <= 1099511627776) by (split; apply IZR_le; lia).
  assert (RN : 0 <= IZR n * B2R dx <= 1099511627776 * B2R dx) by nra.
  destruct (step_half (B2R dx) 1 D1 D2 ltac:(lra) ltac:(lra) dx F1) as [Fh Eh]; [apply Rabs_le_iff; lra|].
  unfold u in Eh. 
  destruct (step_add (B2R dx) 1099511627778 D1 D2 ltac:(lra) ltac:(lra) x0 _ F0 Fh) as [Fs Es]; [apply Rabs_le_iff; lra|].
  destruct (step_add (B2R dx) 2199023255554 D1 D2 ltac:(lra) ltac:(lra) x0 _ F0 F2) as [Fe Ee]; [apply Rabs_le_iff; lra|].
  unfold u in Es, Ee.
  destruct (arange_len_near (fadd x0 (fdiv dx (fofZ 2))) (fadd x0 lx) dx (B2R dx) 1099511627779) as (q & Hq1 & Hq2); try assumption; try lra; try (now left).
  - apply Rabs_le_iff. lra.
  - destruct (quotient_between (B2R (fadd x0 lx) - B2R (fadd x0 (fdiv dx (fofZ 2)))) (B2R dx) (B2R dx) (IZR n - 76 / 100) (IZR n - 24 / 100)) as [Q1 Q2]; [lra|now left| |].
    { destruct (Rle_dec _ _); lra. }
    apply Rabs_le_iff in Hq1. unfold u in Hq1.
    destruct (arange_length (fadd x0 (fdiv dx (fofZ 2))) (fadd x0 lx) dx n) as (l & L1 & L2); [|now exists l].
    rewrite Hq2.
    + f_equal. apply Zceil_between. rewrite minus_IZR. lra.
    + intros ->. destruct (Z.eq_dec n 0) as [->|]; [lra|]. assert (1 <= IZR n) by (apply IZR_le; lia). lra.
Qed.

Theorem C110_centres x0 dx lx n : usable 26 x0 dx lx n -> (0 <= n <= 2 ^ 20)%Z ->
  exists l, centres x0 dx lx = Ok l /\ List.length l = Z.to_nat n /\
  forall i, (i < Z.to_nat n)%nat -> exists c, nth_error l i = Some c /\ fin c /\
    Rabs (B2R c - (B2R x0 + (INR i + 1 / 2) * B2R dx)) <= B2R dx / 16.
Proof.
  intros U Hn. destruct (C110_cell_count x0 dx lx n) as (l & Hl & Ln).
  - destruct U as (F0 & F1 & F2 & D & B0 & Bl). repeat split; try assumption; try apply D. eapply Rle_trans; [exact B0|].
    apply Rmult_le_compat_r; [|apply bpow_le; lia]. eapply Rle_trans; [apply bpow_ge_0|apply D].
  - lia.
  - exists l. split; [exact Hl|]. split; [exact Ln|]. intros i Hi. exists (entry (fadd x0 (fdiv dx (fofZ 2))) dx i).
    split; [apply arange_nth with (1 := Hl); lia|].
    destruct U as (F0 & F1 & F2 & [D1 D2] & B0 & Bl). assert (P := D_pos _ D1).
    change (bpow radix2 26) with 67108864 in B0. apply Rabs_le_iff in B0.
    destruct (step_half (B2R dx) 1 D1 D2 ltac:(lra) ltac:(lra) dx F1) as [Fh Eh]; [apply Rabs_le_iff; lra|].
    unfold u in Eh.
    destruct (step_add (B2R dx) 67108866 D1 D2 ltac:(lra) ltac:(lra) x0 _ F0 Fh) as [Fs Es]; [apply Rabs_le_iff; lra|].
    unfold u in Es.
    destruct (entry_near (fadd x0 (fdiv dx (fofZ 2))) dx (B2R dx) i) as [Fe Ee]; try assumption; try (now left); try lia.
    { apply Rabs_le_iff. lra. }
    split; [exact Fe|]. apply Rabs_le_iff in Ee. apply Rabs_le_iff. lra.
Qed.

(** ** C111: the nodes of the VTR file; C112: the layer bottoms of MODFLOW 6 *)
(** One node or one layer too many: the length of an axis is the double nearest to
    0.2, that of a cell the double nearest to 0.1. *)
Definition tenth := nearest 1 10.
Definition fifth := nearest 2 10.
Lemma tenth_R : fin tenth /\ B2R tenth = 7205759403792794 * bpow radix2 (-56).
Proof. split; [now vm_compute|]. rewrite <- SF2R_B2SF. replace (B2SF tenth) with (SpecFloat.S754_finite false 7205759403792794 (-56)) by (vm_compute; reflexivity). reflexivity. Qed.
Lemma fifth_R : fin fifth /\ B2R fifth = 7205759403792794 * bpow radix2 (-55).
Proof. split; [now vm_compute|]. rewrite <- SF2R_B2SF. replace (B2SF fifth) with (SpecFloat.S754_finite false 7205759403792794 (-55)) by (vm_compute; reflexivity). reflexivity. Qed.
Lemma tenth_size : bpow radix2 (-900) <= B2R tenth <= bpow radix2 900 /\ 1 / 20 <= B2R tenth <= 1 / 5.
Proof.
  destruct tenth_R as [_ E]. assert (1 / 20 <= B2R tenth <= 1 / 5) by (rewrite E; simpl; lra). split; [|exact H]. split.
  - apply Rle_trans with (bpow radix2 (-5)); [apply bpow_le; lia|change (bpow radix2 (-5)) with (/ 32); lra].
  - apply Rle_trans with (bpow radix2 0); [change (bpow radix2 0) with 1; lra|apply bpow_le; lia].
Qed.
(** Two cells, even with a length of exactly twice the cell size *)
Lemma two_cells : usable 26 (fofZ 0) tenth fifth 2 /\ B2R fifth = IZR 2 * B2R tenth.
Proof.
  destruct tenth_R as [T1 T2], fifth_R as [S1 S2], tenth_size as [B1 B2]. destruct (fofZ_R 0 ltac:(lia)) as [Z1 Z2].
  assert (E : B2R fifth = IZR 2 * B2R tenth) by (rewrite T2, S2; cbn; lra). split; [|exact E].
  split; [exact Z1|]. split; [exact T1|]. split; [exact S1|]. split; [exact B1|]. split.
  - rewrite Z2, Rabs_R0. apply Rmult_le_pos; [apply bpow_ge_0|lra].
  - rewrite E. replace (IZR 2 * B2R tenth - IZR 2 * B2R tenth) with 0 by ring. rewrite Rabs_R0. lra.
Qed.

Theorem C111_nodes_refuted : ~ (forall x0 dx lx n, usable 26 x0 dx lx n -> B2R lx = IZR n * B2R dx -> (0 <= n <= 2 ^ 20)%Z ->
  forall l, vtr_nodes x0 dx lx = Ok l -> List.length l = S (Z.to_nat n)).
Proof.
  intros H. destruct two_cells as [U E]. destruct (arange_length (fofZ 0) (fadd (fadd (fofZ 0) fifth) tenth) tenth 4) as (l & L1 & L2); [now vm_compute|].
  specialize (H _ _ _ _ U E ltac:(lia) l L1). rewrite L2 in H. discriminate H.
Qed.
Theorem C112_layers_refuted : ~ (forall z0 dz lz n, usable 26 z0 dz lz n -> B2R lz = IZR n * B2R dz -> (0 <= n <= 2 ^ 20)%Z ->
  forall l, mf6_bottoms z0 dz lz = Ok l -> List.length l = Z.to_nat n).
Proof.
  intros H. destruct two_cells as [U E]. destruct (arange_length (fadd (fofZ 0) fifth) (fsub (fofZ 0) tenth) (fopp tenth) 4) as (l & L1 & L2); [now vm_compute|].
  specialize (H _ _ _ _ U E ltac:(lia) (tl l)). unfold mf6_bottoms in H. rewrite L1 in H. specialize (H eq_refl).
  destruct l as [|x l]; [discriminate L2|]. cbn [tl] in H. cbn [List.length] in L2. rewrite H in L2. discriminate L2.
Qed.

(** At most one too many, and none in a wrong place *)
Theorem C111_nodes_near x0 dx lx n : usable 26 x0 dx lx n -> (0 <= n <= 2 ^ 20)%Z ->
  exists l, vtr_nodes x0 dx lx = Ok l /\ (List.length l = S (Z.to_nat n) \/ List.length l = S (S (Z.to_nat n))) /\
  forall i, (i < List.length l)%nat -> exists c, nth_error l i = Some c /\ fin c /\ Rabs (B2R c - (B2R x0 + INR i * B2R dx)) <= B2R dx / 16.
Proof.
  intros (F0 & F1 & F2 & [D1 D2] & B0 & Bl) Hn. assert (P := D_pos _ D1).
  change (bpow radix2 26) with 67108864 in B0. apply Rabs_le_iff in B0. apply Rabs_le_iff in Bl.
  assert (Rn : 0 <= IZR n <= 1048576) by (split; apply IZR_le; lia).
  assert (RN : 0 <= IZR n * B2R dx <= 1048576 * B2R dx) by nra.
  destruct (step_add (B2R dx) 68157441 D1 D2 ltac:(lra) ltac:(lra) x0 _ F0 F2) as [Fe Ee]; [apply Rabs_le_iff; lra|].
  unfold u in Ee.
  destruct (step_add (B2R dx) 68157443 D1 D2 ltac:(lra) ltac:(lra) _ dx Fe F1) as [Fs Es]; [apply Rabs_le_iff; lra|].
  unfold u in Es.
  destruct (arange_len_near x0 (fadd (fadd x0 lx) dx) dx (B2R dx) 1048578) as (q & Hq1 & Hq2); try assumption; try lra; try (now left).
  - apply Rabs_le_iff. lra.
  - destruct (quotient_between (B2R (fadd (fadd x0 lx) dx) - B2R x0) (B2R dx) (B2R dx) (IZR n + 74 / 100) (IZR n + 126 / 100)) as [Q1 Q2]; [lra|now left| |].
    { destruct (Rle_dec _ _); lra. }
    apply Rabs_le_iff in Hq1. unfold u in Hq1.
    assert (Hc : Zceil q = (n + 1)%Z \/ Zceil q = (n + 2)%Z).
    { destruct (Rle_dec q (IZR n + 1)); [left|right]; apply Zceil_between; rewrite minus_IZR, plus_IZR; lra. }
    destruct (arange_length x0 (fadd (fadd x0 lx) dx) dx (Zceil q)) as (l & L1 & L2); [apply Hq2; lra|].
    exists l. split; [exact L1|]. split; [rewrite L2; destruct Hc as [-> | ->]; [left|right]; lia|].
    intros i Hi. exists (entry x0 dx i). split; [apply arange_nth with (1 := L1); lia|].
    destruct (entry_near x0 dx (B2R dx) i) as [E1 E2]; try assumption; try (now left); try (destruct Hc; lia); [apply Rabs_le_iff; lra|].
    split; [exact E1|]. apply Rabs_le_iff in E2. apply Rabs_le_iff. lra.
Qed.
Theorem C112_layers_near z0 dz lz n : usable 26 z0 dz lz n -> (0 <= n <= 2 ^ 20)%Z ->
  exists l, mf6_bottoms z0 dz lz = Ok l /\ (List.length l = Z.to_nat n \/ List.length l = S (Z.to_nat n)) /\
  forall i, (i < List.length l)%nat -> exists c, nth_error l i = Some c /\ fin c /\
    Rabs (B2R c - (B2R z0 + B2R lz - INR (S i) * B2R dz)) <= B2R dz / 16.
Proof.
  intros (F0 & F1 & F2 & [D1 D2] & B0 & Bl) Hn. assert (P := D_pos _ D1).
  change (bpow radix2 26) with 67108864 in B0. apply Rabs_le_iff in B0. apply Rabs_le_iff in Bl.
  assert (Rn : 0 <= IZR n <= 1048576) by (split; apply IZR_le; lia).
  assert (RN : 0 <= IZR n * B2R dz <= 1048576 * B2R dz) by nra.
  destruct (step_add (B2R dz) 68157441 D1 D2 ltac:(lra) ltac:(lra) z0 _ F0 F2) as [Fe Ee]; [apply Rabs_le_iff; lra|].
  unfold u in Ee.
  destruct (step_sub (B2R dz) 67108865 D1 D2 ltac:(lra) ltac:(lra) z0 dz F0 F1) as [Fs Es]; [apply Rabs_le_iff; lra|].
  unfold u in Es. destruct (fopp_R dz F1) as [Fo Eo].
  destruct (arange_len_near (fadd z0 lz) (fsub z0 dz) (fopp dz) (B2R dz) 1048578) as (q & Hq1 & Hq2); try assumption; try lra; try (now right).
  - apply Rabs_le_iff. lra.
  - destruct (quotient_between (B2R (fsub z0 dz) - B2R (fadd z0 lz)) (B2R (fopp dz)) (B2R dz) (IZR n + 74 / 100) (IZR n + 126 / 100)) as [Q1 Q2]; [lra|now right| |].
    { destruct (Rle_dec _ _); lra. }
    apply Rabs_le_iff in Hq1. unfold u in Hq1.
    assert (Hc : Zceil q = (n + 1)%Z \/ Zceil q = (n + 2)%Z).
    { destruct (Rle_dec q (IZR n + 1)); [left|right]; apply Zceil_between; rewrite minus_IZR, plus_IZR; lra. }
    destruct (arange_length (fadd z0 lz) (fsub z0 dz) (fopp dz) (Zceil q)) as (l & L1 & L2); [apply Hq2; lra|].
    exists (tl l). assert (Lt : List.length (tl l) = Nat.pred (List.length l)) by now destruct l.
    split; [unfold mf6_bottoms; now rewrite L1|]. split; [rewrite Lt, L2; destruct Hc as [-> | ->]; [left|right]; lia|].
    intros i Hi. exists (entry (fadd z0 lz) (fopp dz) (S i)). split.
    { replace (nth_error (tl l) i) with (nth_error l (S i)) by (destruct l; [now destruct i|reflexivity]). apply arange_nth with (1 := L1). lia. }
    destruct (entry_near (fadd z0 lz) (fopp dz) (B2R dz) (S i)) as [E1 E2]; try assumption; try (now right); try (destruct Hc; lia); [apply Rabs_le_iff; lra|].
    split; [exact E1|]. rewrite Eo in E2. apply Rabs_le_iff in E2. apply Rabs_le_iff. lra.
Qed.

(** *** Exact numbers *)
(** If origin, cell size and length are multiples of one power of two (such as
    whole or half metres) nothing is rounded. *)
Theorem C110_centres_exact e x0 dx lx a h n : (-1074 <= e <= 900)%Z -> exact e x0 a -> exact e dx (2 * h) -> exact e lx (n * (2 * h)) ->
  (0 < h)%Z -> (0 <= n)%Z -> (Z.abs a + (n + 1) * (2 * h) <= 2 ^ 53)%Z ->
  exists l, centres x0 dx lx = Ok l /\ List.length l = Z.to_nat n /\
  forall i, (i < Z.to_nat n)%nat -> exists c, nth_error l i = Some c /\ exact e c (a + h + Z.of_nat i * (2 * h)).
Proof.
  intros He H0 H1 H2 Hh Hn B. 
  assert (Eh : exact e (fdiv dx (fofZ 2)) h) by (apply exact_half; [exact He|exact H1|nia]).
  assert (Es := exact_add e _ _ _ _ He H0 Eh ltac:(nia)). assert (Ee := exact_add e _ _ _ _ He H0 H2 ltac:(nia)).
  destruct (arange_length (fadd x0 (fdiv dx (fofZ 2))) (fadd x0 lx) dx n) as (l & L1 & L2).
  { replace n with ((2 * n - 1 + 1) / 2)%Z at 1 by (replace (2 * n - 1 + 1)%Z with (n * 2)%Z by ring; apply Z.div_mul; lia).
    apply arange_len_exact with (e := e) (a := (a + h)%Z) (b := (2 * h)%Z) (c := (a + n * (2 * h))%Z); try assumption; nia. }
  exists l. split; [exact L1|]. split; [exact L2|]. intros i Hi. eexists. split; [apply arange_nth with (1 := L1); lia|].
  apply entry_exact; try assumption; nia.
Qed.
Theorem C111_nodes_exact e x0 dx lx a b n : (-1074 <= e <= 900)%Z -> exact e x0 a -> exact e dx b -> exact e lx (n * b) ->
  (0 < b)%Z -> (0 <= n)%Z -> (Z.abs a + (n + 2) * b <= 2 ^ 52)%Z ->
  exists l, vtr_nodes x0 dx lx = Ok l /\ List.length l = S (Z.to_nat n) /\
  forall i, (i <= Z.to_nat n)%nat -> exists c, nth_error l i = Some c /\ exact e c (a + Z.of_nat i * b).
Proof.
  intros He H0 H1 H2 Hb Hn B.
  assert (Ee := exact_add e _ _ _ _ He H0 H2 ltac:(nia)). assert (Es := exact_add e _ _ _ _ He Ee H1 ltac:(nia)).
  destruct (arange_length x0 (fadd (fadd x0 lx) dx) dx (n + 1)) as (l & L1 & L2).
  { replace (n + 1)%Z with ((2 * (n + 1) + 1) / 2)%Z at 1 by (rewrite Z.add_comm, Z.mul_comm, Z.div_add by lia; reflexivity).
    apply arange_len_exact with (e := e) (a := a) (b := b) (c := (a + n * b + b)%Z); try assumption; nia. }
  exists l. split; [exact L1|]. split; [lia|]. intros i Hi. eexists. split; [apply arange_nth with (1 := L1); lia|].
  apply entry_exact; try assumption; nia.
Qed.
Theorem C112_layers_exact e z0 dz lz a b n : (-1074 <= e <= 900)%Z -> exact e z0 a -> exact e dz b -> exact e lz (n * b) ->
  (0 < b)%Z -> (0 <= n)%Z -> (Z.abs a + (2 * n + 2) * b <= 2 ^ 52)%Z ->
  exists l, mf6_bottoms z0 dz lz = Ok l /\ List.length l = Z.to_nat n /\
  forall i, (i < Z.to_nat n)%nat -> exists c, nth_error l i = Some c /\ exact e c (a + (n - 1 - Z.of_nat i) * b).
Proof.
  intros He H0 H1 H2 Hb Hn B.
  assert (Ee := exact_add e _ _ _ _ He H0 H2 ltac:(nia)). assert (Es := exact_sub e _ _ _ _ He H0 H1 ltac:(nia)). assert (Eo := exact_opp e _ _ H1).
  destruct (arange_length (fadd z0 lz) (fsub z0 dz) (fopp dz) (n + 1)) as (l & L1 & L2).
  { replace (n + 1)%Z with ((2 * (n + 1) + 1) / 2)%Z at 1 by (rewrite Z.add_comm, Z.mul_comm, Z.div_add by lia; reflexivity).
    apply arange_len_exact with (e := e) (a := (a + n * b)%Z) (b := (- b)%Z) (c := (a - b)%Z); try assumption; nia. }
  exists (tl l). assert (Lt : List.length (tl l) = Nat.pred (List.length l)) by now destruct l.
  split; [unfold mf6_bottoms; now rewrite L1|]. split; [lia|]. intros i Hi. exists (entry (fadd z0 lz) (fopp dz) (S i)). split.
  - replace (nth_error (tl l) i) with (nth_error l (S i)) by (destruct l; [now destruct i|reflexivity]). apply arange_nth with (1 := L1). lia.
  - replace (a + (n - 1 - Z.of_nat i) * b)%Z with (a + n * b + Z.of_nat (S i) * (- b))%Z by nia. apply entry_exact; try assumption; nia.
Qed.

(** ** Concrete cases *)
(** 0.2 m in cells of 0.1 m: two cells, but four nodes and three layers *)
Example C110_example : (exists l, centres (fofZ 0) tenth fifth = Ok l /\ List.length l = 2%nat) /\
  arange_len (fofZ 0) (fadd (fadd (fofZ 0) fifth) tenth) tenth = Ok 4%Z /\
  arange_len (fadd (fofZ 0) fifth) (fsub (fofZ 0) tenth) (fopp tenth) = Ok 4%Z.
Proof.
  split; [|split; vm_compute; reflexivity]. destruct (C110_centres (fofZ 0) tenth fifth 2) as (l & H1 & H2 & _); [apply two_cells|lia|]. exists l. split; [exact H1|exact H2].
Qed.
(** 300 m from 100 m in cells of 1.5 m: whole numbers of half metres *)
Example C111_example : exact (-1) (fofZ 100) 200 /\ exact (-1) (nearest 3 2) 3 /\ exact (-1) (fofZ 300) (200 * 3).
Proof.
  destruct (fofZ_R 100 ltac:(lia)) as [F1 E1]. destruct (fofZ_R 300 ltac:(lia)) as [F2 E2]. repeat split; try assumption; try (vm_compute; reflexivity).
  - rewrite E1. simpl. lra.
  - rewrite <- SF2R_B2SF. replace (B2SF (nearest 3 2)) with (SpecFloat.S754_finite false 6755399441055744 (-52)) by (vm_compute; reflexivity). simpl. unfold F2R. simpl. lra.
  - rewrite E2. simpl. lra.
Qed.

Print Assumptions C110_cell_count.
Print Assumptions C110_centres.
Print Assumptions C110_centres_exact.
Print Assumptions C111_nodes_refuted.
Print Assumptions C111_nodes_near.
Print Assumptions C111_nodes_exact.
Print Assumptions C112_layers_refuted.
Print Assumptions C112_layers_near.
Print Assumptions C112_layers_exact.
