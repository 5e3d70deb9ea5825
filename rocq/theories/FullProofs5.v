(** Generated models: marks of channels, columns of the grid, every cell. *)
From Coq Require Import List ZArith Reals Lia Lra Bool Sorted Arith.Cantor FunctionalExtensionality.
From Verif Require Import Base Num ParseModel ConfigModel SurfaceModel SurfaceSpec SurfaceProofs StrataModel StrataSpec StrataProofs StrataProofs2
  StrataProofs3 StrataProps AssignModel AssignSpec AssignProofs AssignProofs2 BuildModel BuildSpec BuildProofs BuildProofs2 AssignProps AssignProps2 FaciesModel FaciesSpec FaciesProofs FaciesProps
  TroughModel TroughSpec TroughProofs TroughProofs2 TroughProofs3 TroughProps TroughBuildSpec TroughBuild SheetModel ChannelModel ChannelSpec ChannelProofs ChannelProps
  FullModel FullSpec FullProofs FullProofs2 FullProofs3 FullProofs4.
Import ListNotations.
Local Open Scope R_scope.

(** ** The model without state *)
Section PureModel.
Variables (ny : nat) (type_id : nat -> nat -> Z) (look : nat -> nat -> point R -> write R)
  (probe : nat -> nat -> marks -> point R -> marks * option (write R)).
Notation hit := (fun (o : aobj R marks) p => snd (o_check o unmarked p)).
Notation probe' := (fun num oi (d : marks) p => (d, snd (probe num oi unmarked p))).
Lemma to_objs_pure num : forall l oi cs, map (pure_obj hit) (to_objs ny look probe num oi l cs) = to_objs ny look probe' num oi l cs.
Proof.
  induction l as [|o l IH]; intros oi [|c cs]; cbn [to_objs map]; try reflexivity. rewrite IH. f_equal.
  unfold pure_obj. cbn [o_zmin o_zmax o_check]. f_equal. destruct (ob_surfaces o); [|reflexivity].
  extensionality d. extensionality q. unfold sheet_probe. destruct (_ || _); reflexivity.
Qed.
Lemma to_aelems_pure st si : forall l num, map (pure_ae hit) (to_aelems ny type_id look probe st si num l) = to_aelems ny type_id look probe' st si num l.
Proof.
  induction l as [|e l IH]; intros num; cbn [to_aelems map]; [reflexivity|]. rewrite IH. f_equal. unfold pure_ae, to_aelem. cbn. now rewrite to_objs_pure.
Qed.
Lemma to_model_pure st : forall l si num, pure_model hit (to_model ny type_id look probe st si num l) = to_model ny type_id look probe' st si num l.
Proof.
  unfold pure_model. induction l as [|s l IH]; intros si num; cbn [to_model map]; [reflexivity|]. rewrite IH. f_equal. cbn. now rewrite to_aelems_pure.
Qed.
End PureModel.

(** ** The columns of a grid *)
Definition indexed_towers (xs ys zs : list R) : list (nat * nat * list (point R)) :=
  flat_map (fun ix => map (fun jy => ((fst ix, fst jy), tower_points zs (fst ix) (fst jy) (snd ix) (snd jy)))
                        (combine (seq 0 (List.length ys)) ys)) (combine (seq 0 (List.length xs)) xs).
Lemma map_flat_map {A B C} (f : B -> C) (h : A -> list B) l : map f (flat_map h l) = flat_map (fun a => map f (h a)) l.
Proof. induction l as [|a l IH]; cbn; [reflexivity|]. now rewrite map_app, IH. Qed.
Lemma indexed_snd xs ys zs : map snd (indexed_towers xs ys zs) = grid_towers xs ys zs.
Proof. unfold indexed_towers, grid_towers. rewrite map_flat_map. apply flat_map_ext. intros a. now rewrite map_map. Qed.
Lemma map_fst_combine_seq {A} (l : list A) k : map fst (combine (seq k (List.length l)) l) = seq k (List.length l).
Proof. revert k. induction l as [|a l IH]; intros k; cbn; [reflexivity|]. now rewrite IH. Qed.
Lemma combine_seq_in {A} (l : list A) i a : In (i, a) (combine (seq 0 (List.length l)) l) -> nth_error l i = Some a.
Proof.
  assert (G : forall k, In (i, a) (combine (seq k (List.length l)) l) -> (k <= i)%nat /\ nth_error l (i - k) = Some a).
  { induction l as [|b l IH]; intros k; cbn; [tauto|]. intros [[= <- <-]|H]; [now rewrite Nat.sub_diag|].
    apply IH in H as [H1 H2]. split; [lia|]. replace (i - k)%nat with (S (i - S k)) by lia. exact H2. }
  intros H. apply G in H as [_ H]. now rewrite Nat.sub_0_r in H.
Qed.
Lemma indexed_nodup xs ys zs : NoDup (map fst (indexed_towers xs ys zs)).
Proof.
  unfold indexed_towers. rewrite map_flat_map.
  erewrite flat_map_ext. 2:{ intros a. rewrite map_map. cbn [fst]. rewrite <- (map_map fst (fun j => (fst a, j))). rewrite map_fst_combine_seq. reflexivity. }
  assert (G : forall (l : list (nat * R)), NoDup (map fst l) -> NoDup (flat_map (fun a => map (fun j => (fst a, j)) (seq 0 (List.length ys))) l)).
  { induction l as [|a l IH]; cbn; intros H; [constructor|]. inversion H as [|? ? Hn Hl]; subst.
    assert (Ha : forall (b : nat * R), In b l -> fst b <> fst a) by (intros b Hb C; apply Hn; rewrite <- C; now apply in_map).
    clear H Hn. specialize (IH Hl).
    assert (Hd : forall x, In x (map (fun j => (fst a, j)) (seq 0 (List.length ys))) -> ~ In x (flat_map (fun a => map (fun j => (fst a, j)) (seq 0 (List.length ys))) l)).
    { intros x Hx Hf. apply in_map_iff in Hx as (j & <- & _). apply in_flat_map in Hf as (b & Hb & Hf). apply in_map_iff in Hf as (j' & Hj & _).
      injection Hj as Hj _. now apply (Ha b Hb). }
    assert (Hn : NoDup (map (fun j => (fst a, j)) (seq 0 (List.length ys)))).
    { apply FinFun.Injective_map_NoDup; [|apply seq_NoDup]. intros u v Huv. now injection Huv. }
    revert Hd Hn. generalize (map (fun j => (fst a, j)) (seq 0 (List.length ys))) as u. induction u as [|x u IHu]; intros Hd Hn; cbn; [assumption|].
    inversion Hn; subst. constructor.
    - rewrite in_app_iff. intros [C|C]; [contradiction|]. apply (Hd x); [now left|assumption].
    - apply IHu; auto. intros y Hy. apply Hd. now right. }
  apply G. rewrite map_fst_combine_seq. apply seq_NoDup.
Qed.
Lemma indexed_in xs ys zs c ps : In (c, ps) (indexed_towers xs ys zs) ->
  exists xi yi x y, c = (xi, yi) /\ nth_error xs xi = Some x /\ nth_error ys yi = Some y /\ ps = tower_points zs xi yi x y.
Proof.
  intros H. unfold indexed_towers in H. apply in_flat_map in H as ([xi x] & Hx & H). apply in_map_iff in H as ([yi y] & E & Hy).
  cbn in E. injection E as <- <-. apply combine_seq_in in Hx. apply combine_seq_in in Hy. exists xi, yi, x, y. auto.
Qed.
(** Cells from bottom to top. *)
Definition ascending (zs : list R) : Prop := StronglySorted Rlt zs.
Lemma SS_app {A} (P : A -> A -> Prop) l1 l2 : StronglySorted P l1 -> StronglySorted P l2 -> (forall a b, In a l1 -> In b l2 -> P a b) -> StronglySorted P (l1 ++ l2).
Proof.
  induction 1 as [|a l H IH Ha]; intros H2 H3; cbn; [assumption|]. constructor.
  - apply IH; [assumption|]. intros; apply H3; [now right|assumption].
  - apply Forall_app. split; [assumption|]. apply Forall_forall. intros b Hb. apply H3; [now left|assumption].
Qed.
Lemma SS_rev {A} (P : A -> A -> Prop) l : StronglySorted P l -> StronglySorted (fun a b => P b a) (rev l).
Proof.
  induction 1 as [|a l H IH Ha]; cbn; [constructor|]. apply SS_app; [assumption|repeat constructor|].
  intros x b Hx [<-|[]]. apply in_rev in Hx. rewrite Forall_forall in Ha. now apply Ha.
Qed.
Lemma tower_column (zs : list R) xi yi (x y : R) : ascending zs -> column (xi, yi) (tower_points zs xi yi x y).
Proof.
  intros H. split.
  - apply Forall_forall. intros p Hp. apply in_map_iff in Hp as (z & <- & _). reflexivity.
  - unfold tower_points. apply SS_rev in H. induction H as [|a l H IH Ha]; cbn; constructor; [assumption|]. apply Forall_map. cbn. assumption.
Qed.
Lemma in_tower (zs : list R) xi yi (x y : R) (p : point R) : In p (tower_points zs xi yi x y) -> p_xi p = xi /\ p_yi p = yi /\ p_x p = x /\ p_y p = y /\ In (p_z p) zs.
Proof. intros Hp. apply in_map_iff in Hp as (z & <- & Hz). cbn. apply in_rev in Hz. auto. Qed.

(** ** Every cell *)
Section Every.
Variables (g : grid R) (fuel : nat) (contacts : list (contact R)) (params : list full_params) (draws : list full_stratum_draws)
  (st : store R) (strata : list full_stratum).
Hypothesis E : full_generate g fuel contacts params draws = Ok (st, strata).
Hypothesis Hd : Forall (fsd_ok (columns g)) draws.
Variables (dm : domain) (wild : nat -> nat -> point R -> Z).
Variables lo hi : R.
Hypothesis Hty : forall fp ft, In fp params -> In ft (fp_types fp) -> type_fits g lo hi ft.
Notation ny := (List.length (g_y g)).
Notation cg := (mkCGrid (List.length (g_x g)) ny (g_dx g)).
Notation table := (object_table strata).
Notation look := (look_of wild table).
Notation probe := (probe_of dm cg wild table).
Notation m := (to_model ny (type_id_of params) look probe st 0 0 (map fst strata)).
Notation hit := (fun (o : aobj R marks) p => snd (o_check o unmarked p)).
Definition no_channels : Prop := forall fp ft, In fp params -> In ft (fp_types fp) -> match ft_kind ft with PChannels _ => False | _ => True end.

(** The channel with the marks [key]. *)
Definition chan_of (key : nat) : option (channel * Z) :=
  let (num, oi) := of_nat key in
  match nth_error table num with
  | Some (OChannels l) => match nth_error l oi with Some c => Some (c, 0%Z) | None => None end
  | _ => None
  end.

Lemma chan_of_new key c ha : chan_of key = Some (c, ha) -> exists ct line z w dp dr,
  new_channel ct line z w dp (g_dx g) (g_dy g) dr = Ok c /\ 0 < w < 10 ^ 50 /\ 0 < dp.
Proof.
  unfold chan_of. destruct (of_nat key) as [num oi]. destruct (nth_error table num) as [o|] eqn:Et; [|discriminate].
  destruct o as [| |l]; try discriminate. destruct (nth_error l oi) as [c0|] eqn:El; [|discriminate]. intros [= -> _].
  destruct (table_origin _ _ _ _ _ _ _ E Hd num _ Et) as (si & fs & k & e & fp & ft & od & _ & _ & Hor).
  destruct (origin_in _ _ _ _ _ _ _ _ _ _ _ Hor) as [I1 I2]. specialize (Hty fp ft I1 I2).
  destruct Hor as (_ & _ & _ & _ & Hc). cbn in Hc. destruct Hc as (cp & sb & sp & Ek & Hcs & _).
  unfold type_fits in Hty. rewrite Ek in Hty. destruct Hty as (Ha & Hw & Hdp & _).
  destruct (generate_channels_inv _ _ _ _ _ _ _ _ Ha Hcs) as [Hall _]. rewrite Forall_forall in Hall.
  destruct (Hall c (nth_error_In _ _ El)) as (z & line & dr & _ & Hn). exists (cc_type cp), line, z, (cc_width cp), (cc_depth cp), dr. auto.
Qed.

Lemma model_keyed : every_obj m (channels_keyed cg chan_of).
Proof.
  intros s e o Hs He Ho.
  destruct (model_element _ _ _ _ _ _ _ E Hd wild ny probe s e Hs He) as (si & fs & k & e0 & ob & fp & ft & od & _ & _ & -> & Et & _).
  set (num := (before si (map fst strata) + k)%nat) in *. cbn [to_aelem e_objs] in Ho. apply In_nth_error in Ho as [j Hj].
  apply to_objs_nth in Hj as (o0 & c & _ & _ & ->). cbn [o_check]. destruct (ob_surfaces o0) as [q|].
  - left. exists (fun p => snd (sheet_probe ny c (look num j) unmarked p)). intros d p. cbn [Nat.add]. unfold sheet_probe. cbn [o_check].
    destruct (_ || _); reflexivity.
  - unfold channels_keyed, stateless. cbn [o_check Nat.add]. unfold probe_of. rewrite Et. destruct ob as [l|l|l].
    + left. exists (fun _ => None). reflexivity.
    + left. destruct (nth_error l j) as [t|]; [|exists (fun _ => None); reflexivity].
      exists (fun p => snd (trough_check dm wild num j t unmarked p)). reflexivity.
    + destruct (nth_error l j) as [ch|] eqn:El; [|left; exists (fun _ => None); reflexivity].
      right. exists (channel_key num j), ch, 0%Z, (fun p r => match r with
        | Ok r => r | Err _ => Some (mkWrite (wild num j p) (Some (channel_azimuth ch (p_x p) (p_y p))) (Some (ch_dip ch)) 0) end). split.
      * unfold chan_of, channel_key. rewrite cancel_of_to, Et, El. reflexivity.
      * intros d p. unfold channel_check. destruct (channel_assign _ _ _ _ _ _) as [d' r]. reflexivity.
Qed.
Lemma model_stateless : no_channels -> every_obj m stateless.
Proof.
  intros Hn s e o Hs He Ho.
  destruct (model_element _ _ _ _ _ _ _ E Hd wild ny probe s e Hs He) as (si & fs & k & e0 & ob & fp & ft & od & _ & _ & -> & Et & Hor & _).
  destruct (origin_in _ _ _ _ _ _ _ _ _ _ _ Hor) as [I1 I2]. specialize (Hn fp ft I1 I2).
  set (num := (before si (map fst strata) + k)%nat) in *. cbn [to_aelem e_objs] in Ho. apply In_nth_error in Ho as [j Hj].
  apply to_objs_nth in Hj as (o0 & c & _ & _ & ->). cbn [o_check]. unfold stateless. cbn [o_check Nat.add]. destruct (ob_surfaces o0) as [q|].
  - exists (fun p => snd (sheet_probe ny c (look num j) unmarked p)). intros d p. unfold sheet_probe.
    destruct (_ || _); reflexivity.
  - unfold probe_of. rewrite Et. destruct ob as [l|l|l].
    + exists (fun _ => None). reflexivity.
    + destruct (nth_error l j) as [t|]; [|exists (fun _ => None); reflexivity].
      exists (fun p => snd (trough_check dm wild num j t unmarked p)). reflexivity.
    + destruct Hor as (_ & _ & _ & _ & Hc). cbn in Hc. destruct Hc as (cp & sb & sp & Ek & _). rewrite Ek in Hn. destruct Hn.
Qed.

Variables x0 y0 : R.
Hypothesis Hx : forall i x, nth_error (g_x g) i = Some x -> x = x0 + INR i * g_dx g.
Hypothesis Hy : forall i y, nth_error (g_y g) i = Some y -> y = y0 + INR i * g_dy g.
Hypothesis Hdx : 0 < g_dx g.
Hypothesis Hdy : 0 < g_dy g.
Variable zs : list R.
Hypothesis Hzs : ascending zs.
Hypothesis Hch : no_channels \/ g_dy g <= 1.

Lemma full_towers : towers m (grid_towers (g_x g) (g_y g) zs) unmarked =
  map (fun ps => snd (tower (pure_model hit m) ps (0, 0, 0)%nat unmarked)) (grid_towers (g_x g) (g_y g) zs).
Proof.
  rewrite <- indexed_snd. destruct Hch as [Hn|H1].
  - apply (towers_pure hit (fun _ => True) (fun _ _ _ => True)).
    + auto.
    + intros s e o Hs He Ho d p _ _. destruct (model_stateless Hn s e o Hs He Ho) as (h & Hh). rewrite !Hh. cbn. split; [reflexivity|split; [exact I|auto]].
    + apply indexed_nodup.
    + intros c ps Hin. apply indexed_in in Hin as (xi & yi & x & y & -> & _ & _ & ->). split; [now apply tower_column|]. now apply Forall_forall.
    + auto.
  - apply (C48_never_lost x0 y0 (g_dx g) (g_dy g) cg chan_of m).
    + split; [assumption|]. split; [lra|]. split; [reflexivity|]. split; [exact chan_of_new|exact model_keyed].
    + split; [apply indexed_nodup|]. intros c ps Hin. apply indexed_in in Hin as (xi & yi & x & y & -> & Ex & Ey & ->).
      split; [now apply tower_column|]. apply Forall_forall. intros p Hp. apply in_tower in Hp as (P1 & P2 & P3 & P4 & _).
      unfold on_grid. rewrite P1, P2, P3, P4. cbn. repeat split; [now apply Hx|now apply Hy|apply nth_error_Some; congruence|apply nth_error_Some; congruence].
Qed.

Hypothesis Hwild : forall num oi p, wild num oi p <> (-1)%Z.
Hypothesis Hdr : forall od, drawn draws od -> trough_draws_ok od.
Hypothesis Hlo : forall a k v, col st a k = Some v -> lo <= v.
Hypothesis Hhi : Forall (fun s => zmean s <= hi) st.
Hypothesis Hbg : forall fp ft, In fp params -> In ft (fp_types fp) ->
  (exists lens tr shp, ft_kind ft = PSheets lens tr shp) \/
  match bg_facies (ft_bg ft) with Some f => f | None => s_facies (fp_bg fp) end <> (-1)%Z.
Hypothesis Hreach : forall si fs e fp ft, nth_error strata si = Some fs -> In e (s_aes (fst fs)) ->
  pyget params (-1 - Z.of_nat si) = Ok fp -> nth_error (fp_types fp) (ae_kind e) = Some ft -> objects_reach_up st ft e.
Hypothesis Hne : params <> [].
Hypothesis Haes : Forall (fun fs : full_stratum => s_aes (fst fs) <> []) strata.
Hypothesis Hz : Forall (fun z => g_z0 g <= z <= g_lz g) zs.
Hypothesis Hav : forall k a z, In z zs -> col st a k <> Some z.

Lemma full_every xi yi zi x y z : nth_error (g_x g) xi = Some x -> nth_error (g_y g) yi = Some y -> nth_error zs zi = Some z ->
  let r := exhaustive hit m (mkPoint x y z xi yi) in
  r <> None /\ full_arrays dm cg wild params st strata (g_x g) (g_y g) zs xi yi zi = Some (cell_of r).
Proof.
  intros Ex Ey Ez r. unfold full_arrays, assign_points. rewrite full_towers.
  rewrite (map_nth_error _ _ _ (grid_tower (g_x g) (g_y g) zs xi yi x y Ex Ey)).
  destruct (full_refines _ _ _ _ _ _ _ _ E Hd) as (draws' & Hd' & E').
  set (ps := tower_points zs xi yi x y).
  assert (Hps : forall p, In p ps -> p_xi p = xi /\ p_yi p = yi /\ p_x p = x /\ p_y p = y /\ In (p_z p) zs) by (intros; now apply in_tower).
  assert (Hk : (xi * ny + yi < columns g)%nat).
  { unfold columns. assert (xi < List.length (g_x g))%nat by (apply nth_error_Some; congruence). assert (yi < ny)%nat by (apply nth_error_Some; congruence). nia. }
  assert (EE : snd (tower (pure_model hit m) ps (0, 0, 0)%nat unmarked) = map (exhaustive hit m) ps /\
     Forall (fun r => r <> None) (snd (tower (pure_model hit m) ps (0, 0, 0)%nat unmarked))).
  { rewrite to_model_pure.
    destruct (C34_every_cell_partial marks unmarked g fuel contacts (map base_params params) draws' st (map fst strata) ny (type_id_of params) look
      (pure_probe strata dm cg wild) xi yi ps Hd') with (d := unmarked) as [R1 R2].
    - destruct params; [congruence|discriminate].
    - exact E'.
    - apply Forall_map. exact Haes.
    - exact Hk.
    - now apply tower_column.
    - apply Forall_forall. intros p Hp. destruct (Hps p Hp) as (_ & _ & _ & _ & Hin). rewrite Forall_forall in Hz. now apply Hz.
    - intros p a Hp. apply Hav. now apply Hps.
    - exact (look_ok _ _ _ _ _ _ _ E Hd wild Hwild lo hi Hty).
    - apply (full_fits _ _ _ _ _ _ _ E Hd dm cg wild Hwild Hdr lo hi Hlo Hhi Hty ny Hbg Hreach xi yi ps x y Hk).
      intros p Hp. destruct (Hps p Hp) as (? & ? & ? & ? & _). auto.
    - split; [|exact R2].
      etransitivity; [exact R1|]. apply map_ext. intros p. symmetry.
      rewrite <- (exhaustive_pure unmarked). rewrite to_model_pure. reflexivity. }
  destruct EE as [E1 E2]. rewrite E1 in E2 |- *.
  assert (Hcell := tower_cell zs xi yi x y zi z Ez). fold ps in Hcell.
  rewrite (map_nth_error _ _ _ Hcell). split; [|reflexivity].
  rewrite Forall_forall in E2. apply E2. apply in_map_iff. exists (mkPoint x y z xi yi). split; [reflexivity|]. eapply nth_error_In; eauto.
Qed.
End Every.
