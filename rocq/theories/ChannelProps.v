(** Theorems about channels: their shape (C47), the cells that are skipped
    (C36, C48), their lookup of facies (C49), their lag (C42) and their
    positions (C80-C82). *)
From Coq Require Import List ZArith Bool Ascii String Reals Lra Lia Psatz Sorted.
From Verif Require Import Base Num FaciesModel FaciesSpec FaciesProps SurfaceModel AssignModel AssignSpec AssignProofs2 AssignProps
  TroughModel TroughProofs ChannelModel ChannelSpec ChannelProofs.
Import ListNotations.
Local Open Scope R_scope.

(** ** C47 *)
Theorem C47_parabola ct line z w dp dx dy dr c cg key ha d p :
  new_channel ct line z w dp dx dy dr = Ok c -> 0 < w < 10 ^ 50 -> 0 < dp ->
  d key (p_xi p) (p_yi p) = false ->
  snd (channel_assign cg key c ha d p) <> Ok None <-> in_parabola line w dp z (p_x p) (p_y p) (p_z p).
Proof.
  intros Hc Hw Hd Hm. rewrite <- (inside_spec _ _ _ _ _ _ _ _ _ Hc) by (apply Hw || assumption).
  unfold channel_assign, inside. rewrite Hm.
  destruct (Rltb 0 (p_z p - ch_ztop c)) eqn:E.
  - apply Rltb_true in E. destruct (Rleb_spec (p_z p) (ch_ztop c)); [lra|]. cbn. split; [congruence|discriminate].
  - apply Rltb_false in E. destruct (Rleb_spec (p_z p) (ch_ztop c)); [|lra]. cbn [andb].
    destruct (above_parabola c _ _); cbn [snd].
    + split; [auto|]. intros _. destruct (channel_write c ha p); cbn; discriminate.
    + split; [congruence|discriminate].
Qed.
Print Assumptions C47_parabola.

(** Dip sets do not change the shape. *)
Theorem C47_structure_independent ct ct' line z w dp dx dy dr dr' c c' cg key ha d p :
  new_channel ct line z w dp dx dy dr = Ok c -> new_channel ct' line z w dp dx dy dr' = Ok c' ->
  0 < w < 10 ^ 50 -> 0 < dp -> d key (p_xi p) (p_yi p) = false ->
  (snd (channel_assign cg key c ha d p) = Ok None <-> snd (channel_assign cg key c' ha d p) = Ok None).
Proof.
  intros Hc Hc' Hw Hd Hm.
  pose proof (C47_parabola _ _ _ _ _ _ _ _ _ cg key ha d p Hc Hw Hd Hm) as H.
  pose proof (C47_parabola _ _ _ _ _ _ _ _ _ cg key ha d p Hc' Hw Hd Hm) as H'.
  assert (Hdec : forall r : res (option (write R)), r = Ok None \/ r <> Ok None).
  { intros [[v|]|e]; [right; discriminate|now left|right; discriminate]. }
  destruct (Hdec (snd (channel_assign cg key c ha d p))), (Hdec (snd (channel_assign cg key c' ha d p))); tauto.
Qed.
Print Assumptions C47_structure_independent.

(** ** C36, C48 *)

(** The marks left by one question: other columns are marked only if the
    channel does not reach them at any elevation, the column of the point only
    if the channel is neither at the point nor below. *)
Theorem C48_marks_sound ct line z w dp dx dy dr c cg key ha x0 y0 p k i j zz :
  new_channel ct line z w dp dx dy dr = Ok c -> 0 < w < 10 ^ 50 -> 0 < dp -> 0 < dx -> 0 < dy <= 1 -> cg_dx cg = dx ->
  on_grid x0 y0 dx dy (cg_nx cg) (cg_ny cg) p ->
  fst (channel_assign cg key c ha unmarked p) k i j = true ->
  zz <= p_z p \/ (i, j) <> (p_xi p, p_yi p) ->
  k = key /\ ~ in_parabola line w dp z (x0 + INR i * dx) (y0 + INR j * dy) zz.
Proof.
  intros Hc Hw Hd Hdx Hdy Ecg HP Hm Hz.
  set (chan := fun k : nat => Some (c, ha)).
  assert (Hchan : forall key c' ha', chan key = Some (c', ha') -> exists ct line z w dp dr,
    new_channel ct line z w dp dx dy dr = Ok c' /\ 0 < w < 10 ^ 50 /\ 0 < dp).
  { intros k' c' ha' [= <- <-]. exists ct, line, z, w, dp, dr. auto. }
  destruct (channel_step x0 y0 dx dy cg chan Hdx Hdy Ecg Hchan key c ha p unmarked eq_refl HP (unmarked_inv _ _ _ _ _ _ _)) as (_ & H1 & H2).
  assert (E : fst (o_check (channel_obj cg key ha c) unmarked p) = fst (channel_assign cg key c ha unmarked p)).
  { cbn [channel_obj o_check]. destruct (channel_assign _ _ _ _ _ _); reflexivity. }
  rewrite E in H1, H2. split.
  - clear - Hm Hdx Ecg. unfold channel_assign in Hm. destruct (Rltb _ _); [discriminate|]. unfold unmarked at 1 in Hm.
    set (dd := if Rltb (ch_min_dxdy c) _ then _ else _) in Hm.
    assert (Hdd : forall k i j, dd k i j = true -> k = key).
    { intros k' i' j'. unfold dd. destruct (Rltb _ _); [|discriminate]. intros H.
      apply mark_disc_near in H; [|lra]. destruct H as [H|[H _]]; [discriminate|assumption]. }
    destruct (above_parabola _ _ _); cbn [fst] in Hm; [now apply Hdd in Hm|].
    apply mark_true in Hm. destruct Hm as [Hm|[Hm _]]; [now apply Hdd in Hm|assumption].
  - rewrite <- (inside_spec _ _ _ _ _ _ _ _ _ Hc) by (apply Hw || assumption). apply not_true_iff_false.
    destruct Hz as [Hz|Hne].
    + destruct (Nat.eq_dec i (p_xi p)) as [->|Hi], (Nat.eq_dec j (p_yi p)) as [->|Hj].
      * apply (H1 k c ha eq_refl Hm). assumption.
      * apply (H2 (p_xi p, j) zz ltac:(congruence) (unmarked_inv _ _ _ _ _ _ _) k c ha eq_refl Hm). apply Rle_refl.
      * apply (H2 (i, p_yi p) zz ltac:(congruence) (unmarked_inv _ _ _ _ _ _ _) k c ha eq_refl Hm). apply Rle_refl.
      * apply (H2 (i, j) zz ltac:(congruence) (unmarked_inv _ _ _ _ _ _ _) k c ha eq_refl Hm). apply Rle_refl.
    + apply (H2 (i, j) zz Hne (unmarked_inv _ _ _ _ _ _ _) k c ha eq_refl Hm). apply Rle_refl.
Qed.
Print Assumptions C48_marks_sound.

(** A whole model: the result is the one without any marks, whatever columns
    are visited before. *)
Section Model.
Variables (x0 y0 dx dy : R) (cg : cgrid) (chan : nat -> option (channel * Z)) (m : list (astrat R marks)).
Definition channel_model : Prop :=
  0 < dx /\ 0 < dy <= 1 /\ cg_dx cg = dx /\
  (forall key c ha, chan key = Some (c, ha) -> exists ct line z w dp dr,
     new_channel ct line z w dp dx dy dr = Ok c /\ 0 < w < 10 ^ 50 /\ 0 < dp) /\
  every_obj m (channels_keyed cg chan).
Definition grid_columns (cols : list (nat * nat * list (point R))) : Prop :=
  NoDup (map fst cols) /\ forall c ps, In (c, ps) cols -> column c ps /\ Forall (on_grid x0 y0 dx dy (cg_nx cg) (cg_ny cg)) ps.

Theorem C48_never_lost : channel_model -> forall cols, grid_columns cols ->
  towers m (map snd cols) unmarked =
  map (fun ps => snd (tower (pure_model (fun o p => snd (o_check o unmarked p)) m) ps (0, 0, 0)%nat unmarked)) (map snd cols).
Proof.
  intros (Hdx & Hdy & Ecg & Hchan & Hm) cols [Hn Hc].
  destruct (keyed_transparent x0 y0 dx dy cg chan Hdx Hdy Ecg Hchan m Hm) as [Ht Hl].
  apply (towers_pure clean_hit (on_grid x0 y0 dx dy (cg_nx cg) (cg_ny cg)) (MInv x0 y0 dx dy chan) Hl); [|assumption|assumption|intros; apply unmarked_inv].
  intros s e o Hs He Ho d p HP HI. destruct (Ht s e o Hs He Ho d p HP HI) as (H1 & H2 & H3).
  split; [assumption|]. split; assumption.
Qed.

Theorem C36_with_channels : channel_model -> forall cols, grid_columns cols ->
  forall k c ps, nth_error cols k = Some (c, ps) ->
  nth_error (towers m (map snd cols) unmarked) k = Some (snd (tower m ps (0, 0, 0)%nat unmarked)).
Proof.
  intros Hcm cols [Hn Hc] k c ps Hk. pose proof Hcm as (Hdx & Hdy & Ecg & Hchan & Hm).
  apply (C36_columns_independent marks clean_hit (on_grid x0 y0 dx dy (cg_nx cg) (cg_ny cg)) (MInv x0 y0 dx dy chan) m) with (c := c);
    auto; try (intros; apply unmarked_inv).
  now apply keyed_transparent.
Qed.

(** Any two orders of the columns. *)
Corollary C36_any_order : channel_model -> forall cols cols', grid_columns cols -> grid_columns cols' ->
  forall k k' c ps, nth_error cols k = Some (c, ps) -> nth_error cols' k' = Some (c, ps) ->
  nth_error (towers m (map snd cols) unmarked) k = nth_error (towers m (map snd cols') unmarked) k'.
Proof.
  intros Hcm cols cols' Hg Hg' k k' c ps Hk Hk'.
  rewrite (C36_with_channels Hcm cols Hg k c ps Hk), (C36_with_channels Hcm cols' Hg' k' c ps Hk'). reflexivity.
Qed.
End Model.
Print Assumptions C48_never_lost.
Print Assumptions C36_with_channels.
Print Assumptions C36_any_order.

(** ** C49 *)
Definition along_bounds (n : near) (L : R) : Prop := 0 <= nr_along n <= nr_run n /\ nr_run n <= L.
Lemma step_length_pos p q : 0 <= step_length p q.
Proof. apply sqrt_pos. Qed.
Lemma near_along x y l : forall prev n, 0 <= nr_along n <= nr_run n ->
  let n' := near_loop x y prev l n in
  0 <= nr_along n' <= nr_run n' /\
  nr_run n' = nr_run n + match prev with Some p => curve_length (p :: l) | None => curve_length l end.
Proof.
  induction l as [|q l IH]; intros prev n H; cbn [near_loop]; cbv zeta.
  - split; [assumption|]. destruct prev; cbn; lra.
  - match goal with |- context [near_loop x y (Some q) l ?n'] => set (n1 := n') end.
    assert (E1 : nr_run n1 = match prev with Some p => nr_run n + step_length p q | None => nr_run n end)
      by (unfold n1; destruct (Rltb _ _); reflexivity).
    assert (E2 : nr_along n1 = nr_run n1 \/ nr_along n1 = nr_along n) by (unfold n1; destruct (Rltb _ _); cbn; auto).
    destruct (IH (Some q) n1) as [H1 H2].
    { destruct prev as [p|]; [pose proof (step_length_pos p q)|]; destruct E2 as [E2|E2]; rewrite E2; lra. }
    cbv zeta in H1, H2. split; [assumption|]. rewrite H2, E1. destruct prev as [p|]; cbn [curve_length]; lra.
Qed.
Lemma find_near_along x y l : 0 <= nr_along (find_near x y l) <= curve_length l.
Proof.
  unfold find_near. destruct (near_along x y l None (mkNear 0 0 0 0 0 far) ltac:(cbn; lra)) as [H1 H2]. cbv zeta in *.
  rewrite H2 in H1. cbn [nr_run] in H1. lra.
Qed.

(** Distance of a cell from the first plane, across the planes. *)
Definition across (line : list cpoint) (ztop dip shift : R) (p : point R) : R :=
  nr_along (find_near (p_x p) (p_y p) line) * sin (deg dip) + (p_z p - ztop) * cos (deg dip) + shift.

Lemma sin_cos_deg dip : 0 <= dip <= 90 -> 0 <= sin (deg dip) /\ 0 <= cos (deg dip).
Proof.
  intros H. unfold deg. pose proof PI_RGT_0. split.
  - apply sin_ge_0; nra.
  - apply cos_ge_0; nra.
Qed.

(** What is true: the table is long enough, and a cell has an entry if it is
    not more than one layer behind the first plane. *)
Theorem C49_lookup_partial ct line z w dp dx dy dr c ha p :
  new_channel ct line z w dp dx dy dr = Ok c -> ct_structure ct = S_ "dip" -> 0 < ct_dipset_dist ct -> 0 < dp ->
  0 <= fst (ct_dip ct) <= 90 -> 0 <= snd (ct_dip ct) <= 90 -> 0 <= cd_dip dr <= 1 -> 0 <= cd_shift dr <= 1 ->
  alternatives_ok (ct_facies ct) (ct_altfacies ct) ->
  p_z p <= z -> z - dp + ct_lag_height ct <= p_z p ->
  - ct_dipset_dist ct < across line z (ch_dip c) (ch_shift c) p ->
  exists wr, channel_write c ha p = Ok wr /\ In (w_facies wr) (ct_facies ct) /\ w_ha wr = ha.
Proof.
  intros H Hs Hld Hdp Hd0 Hd1 Hu Hv Halt Hz Hlag Hacross.
  pose proof (new_channel_fields _ _ _ _ _ _ _ _ _ H) as (El & Ez & _ & _ & Edp & _ & _ & _ & Elag & _).
  unfold channel_write. rewrite Ez, Edp, Elag. destruct (Rltb _ _) eqn:E; [apply Rltb_true in E; lra|]. clear E.
  unfold new_channel in H. rewrite Hs in H. change (pystr_eqb (S_ "dip") (S_ "dip")) with true in H. cbv iota in H. cbv zeta in H.
  set (ld := ct_dipset_dist ct) in *. set (dip := uniform (fst (ct_dip ct)) (snd (ct_dip ct)) (cd_dip dr)) in *.
  assert (Hdip : 0 <= dip <= 90) by (unfold dip, uniform; numR; nra).
  destruct (sin_cos_deg dip Hdip) as [Hsin Hcos].
  set (shift := uniform 0 ld (cd_shift dr)) in *.
  assert (Hshift : 0 <= shift <= ld) by (unfold shift, uniform; numR; nra).
  set (num := (_ + _ + 10)%Z) in H.
  destruct (alternating_facies num (ct_facies ct) (ct_altfacies ct) (cd_array dr)) as [arr|] eqn:Earr; [|discriminate].
  cbn [bind] in H. injection H as <-. cbn [ch_dipsets ch_dip ch_shift] in *.
  unfold channel_layer. cbn [ch_line ch_sin ch_cos ch_shift ch_layer_dist ch_ztop]. unfold across in Hacross.
  set (D := nr_along _ * sin (deg dip) + (p_z p - z) * cos (deg dip) + shift) in *.
  assert (Hup : D / ld < IZR num).
  { pose proof (find_near_along (p_x p) (p_y p) line) as Hal. unfold num. rewrite !plus_IZR.
    pose proof (nceil_R_spec (curve_length line * sin (deg dip) / ld + shift)) as C1.
    pose proof (nceil_R_spec (dp / ld)) as C2. assert (0 < dp / ld) by (apply Rdiv_lt_0_compat; lra).
    assert (HD : D <= curve_length line * sin (deg dip) + ld).
    { unfold D. assert ((p_z p - z) * cos (deg dip) <= 0) by nra.
      assert (nr_along (find_near (p_x p) (p_y p) line) * sin (deg dip) <= curve_length line * sin (deg dip)) by nra. lra. }
    assert (D / ld <= curve_length line * sin (deg dip) / ld + 1).
    { replace (curve_length line * sin (deg dip) / ld + 1) with ((curve_length line * sin (deg dip) + ld) / ld) by (field; lra).
      unfold Rdiv. apply Rmult_le_compat_r; [left; apply Rinv_0_lt_compat; lra|assumption]. }
    lra. }
  assert (Hlow : -1 < D / ld).
  { replace (-1) with ((- ld) / ld) by (field; lra). unfold Rdiv. apply Rmult_lt_compat_r; [apply Rinv_0_lt_compat; lra|assumption]. }
  assert (Hn : (0 <= ntrunc (D / ld)%R < num)%Z).
  { destruct (ntrunc_bounds (D / ld)) as [T1 T2]. destruct (Rlt_le_dec (D / ld) 0) as [Hneg|Hpos].
    - destruct (T1 Hneg) as [T3 T4]. assert (-1 < ntrunc (D / ld)%R)%Z by (apply lt_IZR; lra).
      assert (IZR 0 < IZR num \/ (num <= 0)%Z) as [H0|H0]. { destruct (Z_lt_le_dec 0 num); [left; apply IZR_lt; lia|now right]. }
      + apply lt_IZR in H0. lia.
      + exfalso. clear - Earr H0. unfold alternating_facies in Earr. destruct (Z.ltb_spec num 0); [discriminate|].
        destruct (choice _ _); [|discriminate]. cbn [bind] in Earr. destruct (Z.eqb_spec num 0); [discriminate|lia].
    - destruct (T2 Hpos) as [T3 T4]. split; [assumption|]. apply lt_IZR. lra. }
  destruct (C51_sequence _ _ _ _ _ Earr) as (Hlen & _).
  unfold channel_facies. cbn [ch_array]. destruct (Z.ltb_spec (ntrunc (D / ld)%R) 0); [lia|].
  destruct (nth_error arr (Z.to_nat (ntrunc (D / ld)%R))) as [f|] eqn:Ef.
  - cbn [bind]. eexists. split; [reflexivity|]. cbn. split; [|reflexivity].
    apply (proj1 (Forall_forall _ _) (C51_element_facies _ _ _ _ _ Halt Earr)). now apply (nth_error_In _ _ Ef).
  - exfalso. apply nth_error_None in Ef. lia.
Qed.
Print Assumptions C49_lookup_partial.
