(** C60-C62 and C92-C97: input files for MODFLOW and HydroGeoSphere. *)
From Coq Require Import List ZArith Bool Ascii String Reals Lra Lia.
From Verif Require Import Base Num ParseModel SurfaceModel SurfaceProofs SurfaceProps ArrayModel ArrayProofs TroughSpec SheetSpec
  TensorModel TensorSpec OutputModel OutputSpec OutputProps.
Import ListNotations.
Local Open Scope R_scope.

(** The settings of the examples: heads 1 and 0. *)
Definition example_flow : flowtrans := mkFlow (Some [1; 1; 1]) (Some [0; 0; 0]) None None.
(** Data with conductivity k and no other peculiarity. *)
Definition plain_data (k : array R) : model_data :=
  mkMData (fun _ => 0) (fun _ => 0) (Some (mkHData k (fun _ => 1) (fun _ => / 4) (fun c => diagonal (k c) (k c) (k c)))).

Lemma Ok_inj {A} (a b : A) : Ok a = Ok b -> a = b. Proof. now intros [= ->]. Qed.
Lemma Rabs_le_both x y : Rabs x <= y -> - y <= x <= y.
Proof. intros H. pose proof (Rle_abs x). pose proof (Rle_abs (- x)). rewrite Rabs_Ropp in *. lra. Qed.
(** Facts about successful calls. *)
Lemma to_modflow_inv g ft d m : to_modflow g ft d = Ok m -> exists h hin hout,
  o_hydraulic d = Some h /\ (0 < ny g)%nat /\ first_of (f_hin ft) = Ok hin /\ first_of (f_hout ft) = Ok hout /\
  mf_nlay m = nz g /\ mf_nrow m = nx g /\ mf_ncol m = ny g /\ mf_delr m = g_dx g /\ mf_delc m = g_dy g /\ mf_top m = g_z0 g + g_lz g /\
  mf_botm m = map (fun i => linspace (g_z0 g + g_lz g) (g_z0 g) (nz g + 1) i) (seq 1 (nz g)) /\
  (forall l r c, mf_hk m l r c = o_k h (r, c, l) /\ mf_vka m l r c = o_anirat h (r, c, l)) /\
  mf_ibound m = set_ends (ny g) (-1)%Z (-1)%Z (fun _ _ _ => 1%Z) /\ mf_strt m = set_ends (ny g) hin hout (fun _ _ _ => 1).
Proof.
  unfold to_modflow. destruct (Nat.eqb_spec (ny g) 0) as [|Hn]; [discriminate|].
  destruct (first_of (f_hin ft)) as [hin|]; [|discriminate]. destruct (first_of (f_hout ft)) as [hout|]; [|discriminate]. cbn [bind].
  destruct (o_hydraulic d) as [h|]; [|discriminate]. intros E. apply Ok_inj in E. subst m. exists h, hin, hout. cbn. repeat split; lia.
Qed.
Lemma to_mf6_inv around3 g ft d m : to_mf6 around3 g ft d = Ok m -> exists h hin hout,
  o_hydraulic d = Some h /\ first_of (f_hin ft) = Ok hin /\ first_of (f_hout ft) = Ok hout /\
  m6_nlay m = nz g /\ m6_nrow m = ny g /\ m6_ncol m = nx g /\ m6_delr m = g_dy g /\ m6_delc m = g_dx g /\ m6_top m = g_z0 g + g_lz g /\
  m6_botm m = map (fun i => around3 (g_z0 g + g_lz g + INR i * - g_dz g)) (seq 1 (Z.to_nat (nceil ((g_z0 g - g_dz g - (g_z0 g + g_lz g)) / - g_dz g)) - 1)) /\
  (forall l r c, m6_k m l r c = o_k h (c, r, l) /\ m6_k33 m l r c = o_k h (c, r, l) / o_anirat h (c, r, l) /\
     m6_angle1 m l r c = o_azim d (c, r, l) /\ m6_angle2 m l r c = o_dip d (c, r, l) /\ m6_angle3 m l r c = 0) /\
  m6_chd m = Some (faces g (fun l r => [((l, r, 0), hin); ((l, r, nx g - 1), hout)])%nat) /\
  (forall l r c, m6_strt m l r c = linspace hin hout (nx g) c) /\
  m6_wel m = faces g (fun l r => [((l, r, 0)%nat, match f_qin ft with Some q => q | None => / 100 end)]).
Proof.
  unfold to_mf6, heads. destruct (o_hydraulic d) as [h|]; [|discriminate]. destruct (f_hin ft) as [lh|] eqn:Eh; [|discriminate].
  destruct (first_of (Some lh)) as [hin|]; [|discriminate]. destruct (first_of (f_hout ft)) as [hout|]; [|discriminate]. cbn [bind].
  intros E. apply Ok_inj in E. subst m. exists h, hin, hout. cbn. repeat split. intros. ring.
Qed.
Lemma modflow_runs g k : (0 < ny g)%nat -> exists m, to_modflow g example_flow (plain_data k) = Ok m.
Proof. intros H. unfold to_modflow. destruct (Nat.eqb_spec (ny g) 0); [lia|]. eexists. reflexivity. Qed.
Lemma mf6_runs around3 g k : exists m, to_mf6 around3 g example_flow (plain_data k) = Ok m.
Proof. eexists. reflexivity. Qed.

Lemma nth_map_seq (f : nat -> R) a n l : (l < n)%nat -> nth l (map f (seq a n)) 0 = f (a + l)%nat.
Proof.
  intros H. rewrite (nth_indep _ 0 (f 0%nat)) by (now rewrite map_length, seq_length). rewrite map_nth. now rewrite seq_nth.
Qed.

(** ** C97: the layers of the input are the layers of the grid *)

Lemma mf_layers g ft d m x0 y0 z0 dx dy dz i j k l : whole_grid g x0 y0 z0 dx dy dz i j k -> to_modflow g ft d = Ok m -> (l < k)%nat ->
  layer_top (mf_top m) (mf_botm m) l = z0 + (INR k - INR l) * dz /\ layer_bottom (mf_botm m) l = z0 + (INR k - INR l - 1) * dz.
Proof.
  intros Hg Hm Hl. apply whole_grid_facts in Hg as ((_ & _ & Ez) & (_ & _ & E0) & _ & (_ & _ & Elz) & _).
  apply to_modflow_inv in Hm as (h & hin & hout & _ & _ & _ & _ & _ & _ & _ & _ & _ & Et & Eb & _). rewrite Et, Eb, Ez, E0, Elz. clear Et Eb Ez E0 Elz.
  assert (Hk : INR k <> 0) by (apply not_0_INR; lia).
  assert (Hn : forall p, (p < k)%nat -> nth p (map (fun i => linspace (z0 + INR k * dz) z0 (k + 1) i) (seq 1 k)) 0 = z0 + (INR k - INR p - 1) * dz).
  { intros p Hp. rewrite nth_map_seq by assumption. unfold linspace. replace (k + 1 - 1)%nat with k by lia. replace (1 + p)%nat with (S p) by lia. rewrite S_INR. field. assumption. }
  split.
  - destruct l as [|l]; [cbn; ring|]. cbn [layer_top]. rewrite Hn by lia. rewrite S_INR. ring.
  - apply Hn. assumption.
Qed.
(** MODFLOW-2005: layer l from the top is exactly the layer of cells k-1-l of
    the grid. *)
Theorem C97_modflow_layers g ft d m x0 y0 z0 dx dy dz i j k : whole_grid g x0 y0 z0 dx dy dz i j k -> to_modflow g ft d = Ok m ->
  List.length (mf_botm m) = k /\ mf_nlay m = k /\
  forall l, (l < k)%nat ->
    layer_bottom (mf_botm m) l = nth (k - 1 - l) (g_z g) 0 - dz / 2 /\ layer_top (mf_top m) (mf_botm m) l = nth (k - 1 - l) (g_z g) 0 + dz / 2.
Proof.
  intros Hg Hm. pose proof (whole_grid_facts _ _ _ _ _ _ _ _ _ _ Hg) as ((_ & _ & Ez) & _ & _ & _ & _ & _ & Hz).
  pose proof (to_modflow_inv _ _ _ _ Hm) as (h & hin & hout & _ & _ & _ & _ & En & _ & _ & _ & _ & _ & Eb & _).
  split; [rewrite Eb, map_length, seq_length; assumption|]. split; [congruence|]. intros l Hl.
  destruct (mf_layers _ _ _ _ _ _ _ _ _ _ _ _ _ _ Hg Hm Hl) as (-> & ->). rewrite Hz by lia.
  rewrite !minus_INR by lia. cbn [INR]. split; field.
Qed.
Print Assumptions C97_modflow_layers.

Lemma mf6_count z0 dz k : 0 < dz -> Z.to_nat (nceil ((z0 - dz - (z0 + INR k * dz)) / - dz)) = S k.
Proof.
  intros Hd. replace (nceil _) with (Z.of_nat (S k)); [lia|]. symmetry. apply nceil_R_unique. numR. rewrite <- INR_IZR_INZ.
  replace ((z0 - dz - (z0 + INR k * dz)) / - dz) with (INR (S k)) by (rewrite S_INR; field; lra). lra.
Qed.
Lemma mf6_layers around3 g ft d m x0 y0 z0 dx dy dz i j k : whole_grid g x0 y0 z0 dx dy dz i j k -> to_mf6 around3 g ft d = Ok m ->
  List.length (m6_botm m) = k /\ m6_nlay m = k /\ m6_top m = z0 + INR k * dz /\
  forall l, (l < k)%nat -> layer_bottom (m6_botm m) l = around3 (nth (k - 1 - l) (g_z g) 0 - dz / 2).
Proof.
  intros Hg Hm. pose proof Hg as (_ & _ & Hd & _). apply whole_grid_facts in Hg as ((_ & _ & Ez) & (_ & _ & E0) & (_ & _ & Ed) & (_ & _ & Elz) & _ & _ & Hz).
  apply to_mf6_inv in Hm as (h & hin & hout & _ & _ & _ & En & _ & _ & _ & _ & Et & Eb & _). rewrite Eb, En, Ez, Et, E0, Elz, Ed, mf6_count by assumption. replace (S k - 1)%nat with k by lia.
  rewrite map_length, seq_length. split; [reflexivity|]. split; [reflexivity|]. split; [reflexivity|].
  intros l Hl. unfold layer_bottom. rewrite nth_map_seq by assumption. rewrite Hz by lia. f_equal. rewrite !minus_INR by lia. replace (1 + l)%nat with (S l) by lia. rewrite S_INR. cbn [INR]. field.
Qed.
(** MODFLOW 6: the right number of layers with the boundaries of the cells
    rounded to three decimals; exact for boundaries with three decimals. *)
Theorem C97_mf6_layers_partial around3 g ft d m x0 y0 z0 dx dy dz i j k : whole_grid g x0 y0 z0 dx dy dz i j k -> to_mf6 around3 g ft d = Ok m ->
  (forall x, Rabs (around3 x - x) <= / 2000) -> (forall n, around3 (IZR n / 1000) = IZR n / 1000) ->
  List.length (m6_botm m) = k /\ m6_nlay m = k /\
  forall l, (l < k)%nat -> let b := nth (k - 1 - l) (g_z g) 0 - dz / 2 in
    Rabs (layer_bottom (m6_botm m) l - b) <= / 2000 /\ (forall n, b = IZR n / 1000 -> layer_bottom (m6_botm m) l = b).
Proof.
  intros Hg Hm Ha Hx. destruct (mf6_layers _ _ _ _ _ _ _ _ _ _ _ _ _ _ Hg Hm) as (E1 & E2 & _ & E). split; [assumption|]. split; [assumption|].
  intros l Hl b. rewrite E by assumption. fold b. split; [apply Ha|]. intros n En. rewrite En. apply Hx.
Qed.
Print Assumptions C97_mf6_layers_partial.
(** The boundaries are not those of the cells for cells of 1/3 m, whatever
    rounding to multiples of 1/1000 is used. *)
Theorem C97_mf6_layers_refuted around3 : (forall x, exists n, around3 x = IZR n / 1000) ->
  exists g, whole_grid g 0 0 0 1 1 (1 / 3) 3 2 2 /\
  forall ft d m, to_mf6 around3 g ft d = Ok m -> layer_bottom (m6_botm m) 0%nat <> nth 1 (g_z g) 0 - 1 / 3 / 2.
Proof.
  intros Ha. destruct (whole_grid_exists 0 0 0 1 1 (1 / 3) 3 2 2) as (g & Hg); try lra. exists g. split; [assumption|]. intros ft d m Hm.
  destruct (mf6_layers _ _ _ _ _ _ _ _ _ _ _ _ _ _ Hg Hm) as (_ & _ & _ & E). rewrite E by lia. cbn [Nat.sub].
  apply whole_grid_facts in Hg as (_ & _ & _ & _ & _ & _ & Hz). rewrite Hz by lia. destruct (Ha (0 + (INR 1 + 1 / 2) * (1 / 3) - 1 / 3 / 2)) as (n & ->).
  cbn [INR]. intros H. assert (H1 : IZR (3 * n) = IZR 1000) by (rewrite mult_IZR; lra). apply eq_IZR in H1. lia.
Qed.
Print Assumptions C97_mf6_layers_refuted.
(** Layers of 2/5 mm: two layers get the same bottom, the second has no
    thickness. *)
Theorem C97_mf6_empty_layer_refuted around3 : (forall x, exists n, around3 x = IZR n / 1000) -> (forall x, Rabs (around3 x - x) <= / 2000) ->
  exists g, whole_grid g 0 0 0 1 1 (/ 2500) 3 2 3 /\
  forall ft d m, to_mf6 around3 g ft d = Ok m -> layer_bottom (m6_botm m) 0%nat = layer_bottom (m6_botm m) 2%nat + / 1000 /\
    (layer_bottom (m6_botm m) 1%nat = layer_bottom (m6_botm m) 0%nat \/ layer_bottom (m6_botm m) 1%nat = layer_bottom (m6_botm m) 2%nat).
Proof.
  intros Ha Hb. destruct (whole_grid_exists 0 0 0 1 1 (/ 2500) 3 2 3) as (g & Hg); try lra. exists g. split; [assumption|]. intros ft d m Hm.
  destruct (mf6_layers _ _ _ _ _ _ _ _ _ _ _ _ _ _ Hg Hm) as (_ & _ & _ & E). rewrite !E by lia. cbn [Nat.sub].
  apply whole_grid_facts in Hg as (_ & _ & _ & _ & _ & _ & Hz). rewrite !Hz by lia. cbn [INR].
  assert (Hu : forall x n, Rabs (IZR n / 1000 - x) < / 1000 -> forall p, around3 x = IZR p / 1000 -> True) by auto. clear Hu.
  assert (G : forall x, exists n, around3 x = IZR n / 1000 /\ -1 / 2 <= IZR n - 1000 * x <= 1 / 2).
  { intros x. destruct (Ha x) as (n & En). exists n. split; [assumption|]. specialize (Hb x). rewrite En in Hb. apply Rabs_le_both in Hb. lra. }
  destruct (G (0 + (1 + 1 + 1 / 2) * / 2500 - / 2500 / 2)) as (n1 & -> & H1). destruct (G (0 + (1 + 1 / 2) * / 2500 - / 2500 / 2)) as (n2 & -> & H2). destruct (G (0 + (0 + 1 / 2) * / 2500 - / 2500 / 2)) as (n3 & -> & H3).
  assert (n1 = 1%Z) as ->. { assert (0 < IZR n1 < 2) by lra. destruct H as [Hl Hr]. apply (lt_IZR 0) in Hl. apply (lt_IZR _ 2) in Hr. lia. }
  assert (n3 = 0%Z) as ->. { assert (-1 < IZR n3 < 1) by lra. destruct H as [Hl Hr]. apply (lt_IZR (-1)) in Hl. apply (lt_IZR _ 1) in Hr. lia. }
  split; [lra|]. assert (n2 = 0 \/ n2 = 1)%Z as [->| ->]; [|right; lra|left; lra]. assert (-1 < IZR n2 < 2) by lra. destruct H as [Hl Hr]. apply (lt_IZR (-1)) in Hl. apply (lt_IZR _ 2) in Hr. lia.
Qed.
Print Assumptions C97_mf6_empty_layer_refuted.

(** ** C60: elevations

    False: layer l from the top has the conductivities of the cells l from the
    bottom. *)
Theorem C60_upside_down_refuted g ft d m h x0 y0 z0 dx dy dz i j k l r c : whole_grid g x0 y0 z0 dx dy dz i j k ->
  to_modflow g ft d = Ok m -> o_hydraulic d = Some h -> (l < k)%nat ->
  mf_hk m l r c = o_k h (r, c, l) /\ layer_centre (mf_top m) (mf_botm m) l = nth (k - 1 - l) (g_z g) 0.
Proof.
  intros Hg Hm Hh Hl. split.
  - apply to_modflow_inv in Hm as (h' & hin & hout & Eh & _ & _ & _ & _ & _ & _ & _ & _ & _ & _ & Ek & _). assert (h' = h) as -> by congruence. apply Ek.
  - destruct (C97_modflow_layers _ _ _ _ _ _ _ _ _ _ _ _ _ Hg Hm) as (_ & _ & H). destruct (H l Hl) as (Hb & Ht). unfold layer_centre. rewrite Hb, Ht. field.
Qed.
Print Assumptions C60_upside_down_refuted.
(** For every grid of two or more layers there is a model with a wrong value in
    the uppermost layer. *)
Theorem C60_modflow_refuted g x0 y0 z0 dx dy dz i j k : whole_grid g x0 y0 z0 dx dy dz i j k -> (0 < j)%nat -> (2 <= k)%nat ->
  exists d h m, o_hydraulic d = Some h /\ to_modflow g example_flow d = Ok m /\
    forall r c q, layer_centre (mf_top m) (mf_botm m) 0%nat = nth q (g_z g) 0 -> (q < k)%nat -> mf_hk m 0%nat r c <> o_k h (r, c, q).
Proof.
  intros Hg Hj Hk. pose proof (whole_grid_facts _ _ _ _ _ _ _ _ _ _ Hg) as ((_ & Ey & _) & _ & _ & _ & _ & _ & Hz).
  destruct (modflow_runs g (fun c => INR (cz c) + 1)) as (m & Hm); [congruence|]. exists (plain_data (fun c => INR (cz c) + 1)). eexists. exists m. split; [reflexivity|]. split; [assumption|].
  intros r c q Hq Hqk. destruct (C60_upside_down_refuted _ _ _ _ _ _ _ _ _ _ _ _ _ _ 0%nat r c Hg Hm eq_refl ltac:(lia)) as (Ek & El). rewrite Ek. rewrite El in Hq. rewrite !Hz in Hq by lia.
  assert (q = k - 1 - 0)%nat as ->.
  { apply INR_eq. destruct Hg as (_ & _ & Hd & _). nra. }
  cbn [o_k cz snd]. assert (INR 0 <> INR (k - 1 - 0)) by (apply not_INR; lia). cbn [INR] in *. lra.
Qed.
Print Assumptions C60_modflow_refuted.
Theorem C60_mf6_upside_down_refuted around3 g ft d m h x0 y0 z0 dx dy dz i j k l r c : whole_grid g x0 y0 z0 dx dy dz i j k ->
  (forall x, Rabs (around3 x - x) <= / 2000) ->
  to_mf6 around3 g ft d = Ok m -> o_hydraulic d = Some h -> (l < k)%nat ->
  m6_k m l r c = o_k h (c, r, l) /\ Rabs (layer_centre (m6_top m) (m6_botm m) l - nth (k - 1 - l) (g_z g) 0) <= / 2000.
Proof.
  intros Hg Ha Hm Hh Hl. split.
  - apply to_mf6_inv in Hm as (h' & hin & hout & Eh & _ & _ & _ & _ & _ & _ & _ & _ & _ & Ek & _). assert (h' = h) as -> by congruence. apply Ek.
  - destruct (mf6_layers _ _ _ _ _ _ _ _ _ _ _ _ _ _ Hg Hm) as (_ & _ & Et & H). unfold layer_centre. rewrite H by assumption.
    apply whole_grid_facts in Hg as (_ & _ & _ & _ & _ & _ & Hz). 
    assert (Ht : Rabs (layer_top (m6_top m) (m6_botm m) l - (nth (k - 1 - l) (g_z g) 0 + dz / 2)) <= / 2000).
    { destruct l as [|l]; cbn [layer_top].
      - rewrite Et, Hz by lia. rewrite !minus_INR by lia. cbn [INR]. match goal with |- Rabs ?x <= _ => replace x with 0 by field end. rewrite Rabs_R0. lra.
      - fold (layer_bottom (m6_botm m) l). rewrite H by lia. replace (nth (k - 1 - S l) (g_z g) 0 + dz / 2) with (nth (k - 1 - l) (g_z g) 0 - dz / 2); [apply Ha|].
        rewrite !Hz by lia. replace (k - 1 - l)%nat with (S (k - 1 - S l)) by lia. rewrite S_INR. field. }
    pose proof (Ha (nth (k - 1 - l) (g_z g) 0 - dz / 2)) as Hb. apply Rabs_le_both in Ht. apply Rabs_le_both in Hb. apply Rabs_le. lra.
Qed.
Print Assumptions C60_mf6_upside_down_refuted.
(** Non-trivial case: two layers of 1 m, conductivity 1 below and 2 above; the
    upper MODFLOW layer (centre at 3/2) gets 1. *)
Example C60_example : exists g m, whole_grid g 0 0 0 1 1 1 3 2 2 /\ to_modflow g example_flow (plain_data (fun c => INR (cz c) + 1)) = Ok m /\
  layer_centre (mf_top m) (mf_botm m) 0%nat = 3 / 2 /\ nth 1 (g_z g) 0 = 3 / 2 /\ mf_hk m 0%nat 0%nat 0%nat = 1.
Proof.
  destruct (whole_grid_exists 0 0 0 1 1 1 3 2 2) as (g & Hg); try lra. pose proof (whole_grid_facts _ _ _ _ _ _ _ _ _ _ Hg) as ((_ & Ey & _) & _ & _ & _ & _ & _ & Hz).
  destruct (modflow_runs g (fun c => INR (cz c) + 1)) as (m & Hm); [lia|]. exists g, m. split; [assumption|]. split; [assumption|].
  destruct (C60_upside_down_refuted _ _ _ _ _ _ _ _ _ _ _ _ _ _ 0%nat 0%nat 0%nat Hg Hm eq_refl ltac:(lia)) as (Ek & El). rewrite Ek, El. change (2 - 1 - 0)%nat with 1%nat. rewrite !Hz by lia. cbn. repeat split; lra.
Qed.

(** ** C61: widths of rows and columns

    MODFLOW-2005: row r holds the cells with x-index r and column c those with
    y-index c, but columns are dx and rows dy wide.  The size of the model is
    right if and only if dx = dy. *)
Theorem C61_modflow_refuted g ft d m h x0 y0 z0 dx dy dz i j k : whole_grid g x0 y0 z0 dx dy dz i j k -> (0 < i)%nat ->
  to_modflow g ft d = Ok m -> o_hydraulic d = Some h ->
  (mf_nrow m = i /\ mf_ncol m = j /\ forall l r c, mf_hk m l r c = o_k h (r, c, l)) /\
  (INR (mf_ncol m) * mf_delr m = g_ly g <-> dx = dy) /\ (INR (mf_nrow m) * mf_delc m = g_lx g <-> dx = dy).
Proof.
  intros Hg Hi Hm Hh. apply whole_grid_facts in Hg as ((Ei & Ej & _) & _ & (Edx & Edy & _) & (Elx & Ely & _) & _).
  apply to_modflow_inv in Hm as (h' & hin & hout & Eh & Hj & _ & _ & _ & En & Em & Er & Ec & _ & _ & Ek & _). assert (h' = h) as -> by congruence.
  rewrite En, Em, Er, Ec, Elx, Ely, Edx, Edy, Ei, Ej. rewrite Ej in Hj.
  split; [split; [reflexivity|split; [reflexivity|intros; apply Ek]]|].
  assert (0 < INR i) by (apply lt_0_INR; lia). assert (0 < INR j) by (apply lt_0_INR; lia). split; split; intros E; nra.
Qed.
Print Assumptions C61_modflow_refuted.
(** MODFLOW 6: column c holds the cells with x-index c and row r those with
    y-index r, but columns are dy and rows dx wide. *)
Theorem C61_mf6_refuted around3 g ft d m h x0 y0 z0 dx dy dz i j k : whole_grid g x0 y0 z0 dx dy dz i j k -> (0 < i)%nat -> (0 < j)%nat ->
  to_mf6 around3 g ft d = Ok m -> o_hydraulic d = Some h ->
  (m6_ncol m = i /\ m6_nrow m = j /\ forall l r c, m6_k m l r c = o_k h (c, r, l)) /\
  (INR (m6_ncol m) * m6_delr m = g_lx g <-> dx = dy) /\ (INR (m6_nrow m) * m6_delc m = g_ly g <-> dx = dy).
Proof.
  intros Hg Hi Hj Hm Hh. apply whole_grid_facts in Hg as ((Ei & Ej & _) & _ & (Edx & Edy & _) & (Elx & Ely & _) & _).
  apply to_mf6_inv in Hm as (h' & hin & hout & Eh & _ & _ & _ & En & Em & Er & Ec & _ & _ & Ek & _). assert (h' = h) as -> by congruence.
  rewrite En, Em, Er, Ec, Elx, Ely, Edx, Edy, Ei, Ej.
  split; [split; [reflexivity|split; [reflexivity|intros; apply Ek]]|].
  assert (0 < INR i) by (apply lt_0_INR; lia). assert (0 < INR j) by (apply lt_0_INR; lia). split; split; intros E; nra.
Qed.
Print Assumptions C61_mf6_refuted.
(** Non-trivial case: 3 x 2 cells of 2 x 1 m, 6 x 2 m; the MODFLOW 6 model is
    3 m long and 4 m wide. *)
Example C61_example : exists g m, whole_grid g 0 0 0 2 1 1 3 2 2 /\ to_mf6 (fun x => x) g example_flow (plain_data (fun _ => 1)) = Ok m /\
  g_lx g = 6 /\ g_ly g = 2 /\ INR (m6_ncol m) * m6_delr m = 3 /\ INR (m6_nrow m) * m6_delc m = 4.
Proof.
  destruct (whole_grid_exists 0 0 0 2 1 1 3 2 2) as (g & Hg); try lra. pose proof (whole_grid_facts _ _ _ _ _ _ _ _ _ _ Hg) as ((Ei & Ej & _) & _ & (Edx & Edy & _) & (Elx & Ely & _) & _).
  destruct (mf6_runs (fun x => x) g (fun _ => 1)) as (m & Hm). exists g, m. split; [assumption|]. split; [assumption|].
  apply to_mf6_inv in Hm as (h' & hin & hout & Eh & _ & _ & _ & En & Em & Er & Ec & _ ). rewrite En, Em, Er, Ec, Elx, Ely, Edx, Edy, Ei, Ej. cbn. lra.
Qed.

(** ** C95: MODFLOW 6 gets the conductivity tensors

    False as stated ... *)
Theorem C95_tensor_refuted around3 g x0 y0 z0 dx dy dz i j k : whole_grid g x0 y0 z0 dx dy dz i j k ->
  exists d h m, o_hydraulic d = Some h /\ to_mf6 around3 g example_flow d = Ok m /\
    (forall c, same3 (o_tensors h c 0%nat) (documented_tensor (o_k h c) (o_anirat h c) (radians (o_azim d c)) (radians (o_dip d c)) 0%nat)) /\
    forall l r c, mf6_tensor (m6_k m l r c) (m6_k33 m l r c) (m6_angle1 m l r c) (m6_angle2 m l r c) 0%nat 2%nat <> o_tensors h (c, r, l) 0%nat 2%nat.
Proof.
  intros _. set (d := mkMData (fun _ => 0) (fun _ => 30) (Some (mkHData (fun _ => 1) (fun _ => 2) (fun _ => / 4) (fun _ => documented_tensor 1 2 (radians 0) (radians 30))))).
  exists d. eexists. eexists. split; [reflexivity|]. split; [reflexivity|]. split; [intros c i' _; reflexivity|]. intros l r c. unfold d. cbn [m6_k m6_k33 m6_angle1 m6_angle2 o_k o_anirat o_azim o_dip o_tensors].
  assert (Er : radians 0 = 0) by (unfold radians; field). assert (Er2 : radians 30 = PI / 6) by (unfold radians; field).
  unfold mf6_tensor, documented_tensor, times, transposed, diagonal, mf6_rotation, rotation, sum3. cbn [Nat.eqb]. rewrite Er, Er2, sin_0, cos_0.
  assert (H1 : 0 < sin (PI / 6)) by (rewrite sin_PI6; lra). assert (H2 : 0 < cos (PI / 6)) by (rewrite cos_PI6; assert (0 < sqrt 3) by (apply sqrt_lt_R0; lra); lra).
  assert (0 < sin (PI / 6) * cos (PI / 6)) by (apply Rmult_lt_0_compat; assumption). nra.
Qed.
Print Assumptions C95_tensor_refuted.
(** ... but what is passed is the HyVR model turned by 180 degrees around the
    x-axis, positions and tensors alike, if dx = dy and the boundaries of the
    layers have three decimals: cell (l, r, c) is at the turned position of the
    HyVR cell (c, r, l) and has its turned tensor. *)
Theorem C95_half_turn around3 g ft d m h x0 y0 z0 dx dz i j k l r c : whole_grid g x0 y0 z0 dx dx dz i j k ->
  to_mf6 around3 g ft d = Ok m -> o_hydraulic d = Some h -> (l < k)%nat -> (r < j)%nat -> (c < i)%nat ->
  (forall q, around3 (z0 + INR q * dz) = z0 + INR q * dz) ->
  mf_x (m6_delr m) c = nth c (g_x g) 0 - x0 /\
  mf_y (m6_nrow m) (m6_delc m) r = g_ly g - (nth r (g_y g) 0 - y0) /\
  layer_centre (m6_top m) (m6_botm m) l - z0 = g_lz g - (nth l (g_z g) 0 - z0) /\
  forall p q, (p < 3)%nat -> (q < 3)%nat ->
    mf6_tensor (m6_k m l r c) (m6_k33 m l r c) (m6_angle1 m l r c) (m6_angle2 m l r c) p q =
    times (times half_turn (documented_tensor (o_k h (c, r, l)) (o_anirat h (c, r, l)) (radians (o_azim d (c, r, l))) (radians (o_dip d (c, r, l))))) (transposed half_turn) p q.
Proof.
  intros Hg Hm Hh Hl Hr Hc Ha. pose proof (whole_grid_facts _ _ _ _ _ _ _ _ _ _ Hg) as ((Ei & Ej & Ekz) & _ & (Edx & Edy & _) & (Elx & Ely & Elz) & Hx & Hy & Hz).
  destruct (mf6_layers _ _ _ _ _ _ _ _ _ _ _ _ _ _ Hg Hm) as (_ & _ & Et & Hb).
  apply to_mf6_inv in Hm as (h' & hin & hout & Eh & _ & _ & _ & En & _ & Er & Ec & _ & _ & Ek & _). assert (h' = h) as -> by congruence.
  rewrite Er, Ec, En, Ej, Edx, Edy, Ely, Elz, Hx, Hy by assumption. unfold mf_x, mf_y.
  split; [ring|]. split; [ring|]. split.
  - assert (Hq : forall q, (q < k)%nat -> layer_bottom (m6_botm m) q = z0 + (INR k - 1 - INR q) * dz).
    { intros q Hq. rewrite Hb by assumption. rewrite Hz by lia. replace (z0 + (INR (k - 1 - q) + 1 / 2) * dz - dz / 2) with (z0 + INR (k - 1 - q) * dz) by field. rewrite Ha. rewrite !minus_INR by lia. cbn [INR]. ring. }
    unfold layer_centre. rewrite Hz by assumption. rewrite Hq by assumption.
    replace (layer_top (m6_top m) (m6_botm m) l) with (z0 + (INR k - INR l) * dz); [field|]. destruct l as [|l]; cbn [layer_top]; [rewrite Et; cbn [INR]; ring|].
    fold (layer_bottom (m6_botm m) l). rewrite Hq by lia. rewrite S_INR. ring.
  - intros p q Hp Hq. destruct (Ek l r c) as (-> & -> & -> & -> & _). set (kk := o_k h (c, r, l)). set (aa := o_anirat h (c, r, l)).
    unfold mf6_tensor, documented_tensor, times, transposed, half_turn, diagonal, mf6_rotation, rotation, sum3.
    destruct p as [|[|[|]]]; try lia; destruct q as [|[|[|]]]; try lia; cbn [Nat.eqb]; unfold Rdiv; ring.
Qed.
Print Assumptions C95_half_turn.

(** ** C92: heads at the ends of the x-axis *)

(** MODFLOW 6: the cells with fixed heads are those with the first x-index
    (head hin) and those with the last one (hout). *)
Theorem C92_mf6_heads around3 g ft d m x0 y0 z0 dx dy dz i j k : whole_grid g x0 y0 z0 dx dy dz i j k -> to_mf6 around3 g ft d = Ok m ->
  exists hin hout chd, first_of (f_hin ft) = Ok hin /\ first_of (f_hout ft) = Ok hout /\ m6_chd m = Some chd /\
  forall l r c v, In ((l, r, c), v) chd <-> (l < k)%nat /\ (r < j)%nat /\ (c = 0%nat /\ v = hin \/ c = (i - 1)%nat /\ v = hout).
Proof.
  intros Hg Hm. apply whole_grid_facts in Hg as ((Ei & Ej & Ekz) & _). apply to_mf6_inv in Hm as (h & hin & hout & _ & E1 & E2 & _ & _ & _ & _ & _ & _ & _ & _ & Ec & _).
  exists hin, hout. eexists. split; [assumption|]. split; [assumption|]. split; [exact Ec|]. intros l r c v. unfold faces. rewrite Ei, Ej, Ekz, in_flat_map. split.
  - intros (l' & Hl & H). apply in_flat_map in H as (r' & Hr & H). apply in_seq in Hl. apply in_seq in Hr. destruct H as [H|[H|[]]]; injection H as <- <- <- <-; repeat split; try lia; auto.
  - intros (Hl & Hr & H). exists l. split; [apply in_seq; lia|]. apply in_flat_map. exists r. split; [apply in_seq; lia|]. destruct H as [(-> & ->)|(-> & ->)]; [now left|right; now left].
Qed.
Print Assumptions C92_mf6_heads.
(** MODFLOW-2005: false.  The cells with fixed heads (negative ibound) are those
    with the first and the last y-index, whatever their x-index. *)
Theorem C92_modflow_heads_refuted g ft d m x0 y0 z0 dx dy dz i j k : whole_grid g x0 y0 z0 dx dy dz i j k -> to_modflow g ft d = Ok m ->
  exists hin hout, first_of (f_hin ft) = Ok hin /\ first_of (f_hout ft) = Ok hout /\
  forall l xi yi, (yi < j)%nat ->
    ((mf_ibound m l xi yi < 0)%Z <-> yi = 0%nat \/ yi = (j - 1)%nat) /\
    (yi = (j - 1)%nat -> mf_strt m l xi yi = hout) /\ (yi = 0%nat -> (1 < j)%nat -> mf_strt m l xi yi = hin).
Proof.
  intros Hg Hm. apply whole_grid_facts in Hg as ((Ei & Ej & Ekz) & _). apply to_modflow_inv in Hm as (h & hin & hout & _ & Hj & E1 & E2 & _ & _ & _ & _ & _ & _ & _ & _ & Eb & Es).
  exists hin, hout. split; [assumption|]. split; [assumption|]. intros l xi yi Hy. rewrite Eb, Es, Ej. unfold set_ends.
  destruct (Nat.eqb_spec yi (j - 1)) as [E|E]; destruct (Nat.eqb_spec yi 0) as [E0|E0]; repeat split; intros; try lia; auto.
Qed.
Print Assumptions C92_modflow_heads_refuted.
(** In particular a model that is one cell wide in y has no cell in which heads
    are computed, and hin is not used. *)
Theorem C92_one_row_refuted g ft d m x0 y0 z0 dx dy dz i k : whole_grid g x0 y0 z0 dx dy dz i 1 k -> to_modflow g ft d = Ok m ->
  exists hout, first_of (f_hout ft) = Ok hout /\ forall l xi, (mf_ibound m l xi 0%nat < 0)%Z /\ mf_strt m l xi 0%nat = hout.
Proof.
  intros Hg Hm. destruct (C92_modflow_heads_refuted _ _ _ _ _ _ _ _ _ _ _ _ _ Hg Hm) as (hin & hout & _ & E & H). exists hout. split; [assumption|]. intros l xi.
  destruct (H l xi 0%nat ltac:(lia)) as (H1 & H2 & _). split; [apply H1; now left|apply H2; reflexivity].
Qed.
Print Assumptions C92_one_row_refuted.

(** ** C93: every accepted [flowtrans] section can be used

    All options of the section are optional; false without hin. *)
Theorem C93_without_heads_refuted around3 g ft d h : o_hydraulic d = Some h -> (0 < ny g)%nat -> f_hin ft = None ->
  to_modflow g ft d = Err TypeError /\ to_mf6 around3 g ft d = Err NameError.
Proof.
  intros Hh Hn Hf. unfold to_modflow, to_mf6, heads. rewrite Hh, Hf. destruct (Nat.eqb_spec (ny g) 0); [lia|]. split; reflexivity.
Qed.
Print Assumptions C93_without_heads_refuted.
(** With heads at both ends both functions succeed. *)
Theorem C93_heads_partial around3 g ft d h h1 r1 h2 r2 : o_hydraulic d = Some h -> (0 < ny g)%nat -> f_hin ft = Some (h1 :: r1) -> f_hout ft = Some (h2 :: r2) ->
  (exists m, to_modflow g ft d = Ok m) /\ (exists m, to_mf6 around3 g ft d = Ok m).
Proof.
  intros Hh Hn H1 H2. unfold to_modflow, to_mf6, heads. rewrite Hh, H1, H2. destruct (Nat.eqb_spec (ny g) 0); [lia|]. split; eexists; reflexivity.
Qed.
Print Assumptions C93_heads_partial.
Example C93_example : f_hin (mkFlow None None (Some (1 / 100)) None) = None /\ f_hin example_flow = Some [1; 1; 1].
Proof. split; reflexivity. Qed.

(** ** C94: no wells unless q_in is given

    False: without q_in there is a well of 1/100 in every cell of the inlet. *)
Theorem C94_default_wells_refuted around3 g ft d m x0 y0 z0 dx dy dz i j k l r : whole_grid g x0 y0 z0 dx dy dz i j k -> to_mf6 around3 g ft d = Ok m ->
  f_qin ft = None -> (l < k)%nat -> (r < j)%nat -> In ((l, r, 0%nat), / 100) (m6_wel m).
Proof.
  intros Hg Hm Hq Hl Hr. apply whole_grid_facts in Hg as ((Ei & Ej & Ekz) & _). apply to_mf6_inv in Hm as (h & hin & hout & _ & _ & _ & _ & _ & _ & _ & _ & _ & _ & _ & _ & _ & Ew).
  rewrite Ew, Hq. unfold faces. rewrite Ekz, Ej. apply in_flat_map. exists l. split; [apply in_seq; lia|]. apply in_flat_map. exists r. split; [apply in_seq; lia|]. now left.
Qed.
Print Assumptions C94_default_wells_refuted.
(** With q_in: one well of q_in in every cell of the inlet and no other. *)
Theorem C94_wells_partial around3 g ft d m x0 y0 z0 dx dy dz i j k q : whole_grid g x0 y0 z0 dx dy dz i j k -> to_mf6 around3 g ft d = Ok m ->
  f_qin ft = Some q -> forall l r c v, In ((l, r, c), v) (m6_wel m) <-> (l < k)%nat /\ (r < j)%nat /\ c = 0%nat /\ v = q.
Proof.
  intros Hg Hm Hq l r c v. apply whole_grid_facts in Hg as ((Ei & Ej & Ekz) & _). apply to_mf6_inv in Hm as (h & hin & hout & _ & _ & _ & _ & _ & _ & _ & _ & _ & _ & _ & _ & _ & Ew).
  rewrite Ew, Hq. unfold faces. rewrite Ekz, Ej, in_flat_map. split.
  - intros (l' & Hl & H). apply in_flat_map in H as (r' & Hr & H). apply in_seq in Hl. apply in_seq in Hr. destruct H as [H|[]]; injection H as <- <- <- <-; repeat split; lia.
  - intros (Hl & Hr & -> & ->). exists l. split; [apply in_seq; lia|]. apply in_flat_map. exists r. split; [apply in_seq; lia|]. now left.
Qed.
Print Assumptions C94_wells_partial.
Example C94_example : exists g m, whole_grid g 0 0 0 1 1 1 3 2 2 /\ to_mf6 (fun x => x) g example_flow (plain_data (fun _ => 1)) = Ok m /\ f_qin example_flow = None.
Proof. destruct (whole_grid_exists 0 0 0 1 1 1 3 2 2) as (g & Hg); try lra. destruct (mf6_runs (fun x => x) g (fun _ => 1)) as (m & Hm). exists g, m. auto. Qed.

(** ** C96: output without hydraulics

    False for mf, mf6 and hgs: KeyError instead of a skipped format. *)
Theorem C96_without_hydraulics_refuted around3 g h1 r1 h2 r2 gr q d : o_hydraulic d = None -> (0 < ny g)%nat -> let ft := mkFlow (Some (h1 :: r1)) (Some (h2 :: r2)) gr q in
  to_modflow g ft d = Err KeyError /\ to_mf6 around3 g ft d = Err KeyError /\ to_hgs g d = Err KeyError.
Proof.
  intros Hd Hn ft. unfold to_modflow, to_mf6, to_hgs. rewrite Hd. destruct (Nat.eqb_spec (ny g) 0); [lia|]. repeat split; reflexivity.
Qed.
Print Assumptions C96_without_hydraulics_refuted.

(** ** C62: rows of the HydroGeoSphere files *)

Lemma nth_error_combine {A B} (l : list A) (l' : list B) n a b : nth_error l n = Some a -> nth_error l' n = Some b -> nth_error (combine l l') n = Some (a, b).
Proof. revert l' n. induction l as [|x l IH]; intros [|y l'] [|n]; cbn; try discriminate; [now intros [= ->] [= ->]|apply IH]. Qed.
Lemma map_fst_combine {A B} (l : list A) (l' : list B) : List.length l = List.length l' -> map fst (combine l l') = l.
Proof. revert l'. induction l as [|x l IH]; intros [|y l']; cbn; try discriminate; [reflexivity|]. intros [= E]. now rewrite IH. Qed.
Theorem C62_rows g d ts ps : to_hgs g d = Ok (ts, ps) ->
  exists h cs, o_hydraulic d = Some h /\ NoDup cs /\ (forall c, In c cs <-> (cx c < nx g /\ cy c < ny g /\ cz c < nz g)%nat) /\
    map fst ts = seq 1 (nx g * ny g * nz g) /\ map fst ps = seq 1 (nx g * ny g * nz g) /\
    forall n c, nth_error cs n = Some c ->
      let k := o_tensors h c in
      nth_error ts n = Some (S n, [k 0 0; k 1 1; k 2 2; k 0 1; k 0 2; k 1 2])%nat /\ nth_error ps n = Some (S n, o_poros h c).
Proof.
  unfold to_hgs. destruct (o_hydraulic d) as [h|]; [|discriminate]. intros E. apply Ok_inj in E. injection E as <- <-.
  exists h, (cells (grid_shape g)). split; [reflexivity|]. split; [apply cells_NoDup|]. split; [intros c; rewrite in_cells; reflexivity|].
  assert (Hlen : forall A (a : array A), List.length (flatten (grid_shape g) a) = (nx g * ny g * nz g)%nat) by (intros A a; unfold flatten; rewrite map_length, cells_length; reflexivity).
  rewrite !Hlen. set (N := (nx g * ny g * nz g)%nat) in *.
  split; [apply map_fst_combine; unfold column_stack; now rewrite map_length, !seq_length|]. split; [apply map_fst_combine; now rewrite seq_length, Hlen|].
  intros n c Hn. assert (Hlt : (n < N)%nat) by (rewrite <- (Hlen _ (fun _ => tt)); unfold flatten; rewrite map_length; apply nth_error_Some; congruence).
  assert (Hs : nth_error (seq 1 N) n = Some (S n)) by (rewrite nth_error_nth' with (d := 0%nat) by (now rewrite seq_length); now rewrite seq_nth).
  assert (Hf : forall a : array R, nth_error (flatten (grid_shape g) a) n = Some (a c)) by (intros a; unfold flatten; rewrite nth_error_map, Hn; reflexivity).
  split; apply nth_error_combine; auto. unfold column_stack. rewrite nth_error_map. assert (E0 : nth_error (seq 0 N) n = Some n) by (rewrite nth_error_nth' with (d := 0%nat) by (now rewrite seq_length); now rewrite seq_nth).
  rewrite E0. cbn [option_map map]. rewrite !(nth_error_nth _ _ _ (Hf _)). reflexivity.
Qed.
Print Assumptions C62_rows.
(** The call succeeds for every model with hydraulic parameters. *)
Theorem C62_written g d h : o_hydraulic d = Some h -> exists r, to_hgs g d = Ok r.
Proof. intros H. unfold to_hgs. rewrite H. eexists. reflexivity. Qed.
(** Non-trivial case: two cells with conductivities 1 and 2. *)
Example C62_example :
  to_hgs (mkGrid 0 0 0 1 1 1 2 1 1 [1 / 2; 3 / 2] [1 / 2] [1 / 2]) (plain_data (fun c => match cx c with O => 1 | _ => 2 end)) =
  Ok ([(1%nat, [1; 1; 1; 0; 0; 0]); (2%nat, [2; 2; 2; 0; 0; 0])], [(1%nat, / 4); (2%nat, / 4)]).
Proof. reflexivity. Qed.
(** The hypotheses of the theorems on C92, C95 and C97 are met by the grids and
    calls of C60_example and C94_example. *)
Example C92_example : exists g m m6, whole_grid g 0 0 0 1 1 1 3 2 2 /\ to_modflow g example_flow (plain_data (fun _ => 1)) = Ok m /\
  to_mf6 (fun x => x) g example_flow (plain_data (fun _ => 1)) = Ok m6 /\ mf_ibound m 0%nat 0%nat 0%nat = (-1)%Z /\ mf_ibound m 0%nat 2%nat 1%nat = (-1)%Z.
Proof.
  destruct (whole_grid_exists 0 0 0 1 1 1 3 2 2) as (g & Hg); try lra. pose proof (whole_grid_facts _ _ _ _ _ _ _ _ _ _ Hg) as ((_ & Ej & _) & _).
  destruct (mf6_runs (fun x => x) g (fun _ => 1)) as (m6 & Hm6). destruct (modflow_runs g (fun _ => 1)) as (m & Hm); [lia|]. exists g, m, m6. split; [assumption|]. split; [assumption|]. split; [assumption|].
  apply to_modflow_inv in Hm as (h & hin & hout & _ & _ & _ & _ & _ & _ & _ & _ & _ & _ & _ & _ & Eb & _). rewrite Eb, Ej. split; reflexivity.
Qed.
