(** Changing the resolution: generation gives the same model. *)
From Coq Require Import List ZArith Bool Ascii String Reals Lra Lia.
From Verif Require Import Base Num ParseModel ConfigModel FaciesModel SurfaceModel SurfaceSpec StrataModel AssignModel AssignSpec BuildModel TroughModel SheetModel ChannelModel
  FullModel FullSpec OriginProofs RefineSpec.
Import ListNotations.
Local Open Scope R_scope.

(** ** Lists *)
Lemma zip_repeat (f : R -> R -> R) u v n : zip_with f (repeat u n) (repeat v n) = repeat (f u v) n.
Proof. induction n as [|n IH]; cbn; [reflexivity|]. now rewrite IH. Qed.
Lemma fold_same (f : R -> R -> R) v n : f v v = v -> fold_left f (repeat v n) v = v.
Proof. intros H. induction n as [|n IH]; cbn; [reflexivity|]. now rewrite H. Qed.
Lemma list_min_repeat v n : list_min (repeat v (S n)) = Ok v.
Proof. cbn. rewrite fold_same; [reflexivity|]. unfold nmin. destruct (_ <=? _)%num; reflexivity. Qed.
Lemma list_max_repeat v n : list_max (repeat v (S n)) = Ok v.
Proof. cbn. rewrite fold_same; [reflexivity|]. unfold nmax. destruct (_ <=? _)%num; reflexivity. Qed.
Lemma Forall2_upd {A B} (P : A -> B -> Prop) l l' a x y : Forall2 P l l' -> P x y -> Forall2 P (upd l a x) (upd l' a y).
Proof. intros H. revert a. induction H; intros [|a] K; cbn; constructor; auto. Qed.
Lemma Forall2_len {A B} (P : A -> B -> Prop) l l' : Forall2 P l l' -> List.length l = List.length l'.
Proof. induction 1; cbn; congruence. Qed.
Lemma Forall2_weaken {A B} (P Q : A -> B -> Prop) l l' : (forall x y, P x y -> Q x y) -> Forall2 P l l' -> Forall2 Q l l'.
Proof. intros H. induction 1; constructor; auto. Qed.
Lemma nth_repeat_lt {A} (v d : A) n k : (k < n)%nat -> nth k (repeat v n) d = v.
Proof. revert k. induction n as [|n IH]; intros [|k] H; cbn; [lia|lia|reflexivity|]. apply IH. lia. Qed.
Lemma mapM_rel {A B C} (P : B -> C -> Prop) (f : A -> res B) (f' : A -> res C) l :
  (forall x, rel2 P (f x) (f' x)) -> rel2 (Forall2 P) (mapM f l) (mapM f' l).
Proof.
  intros H. induction l as [|x l IH]; cbn [mapM]; [cbn; constructor|].
  eapply rel2_bind; [apply H|]. intros y y' Hy. eapply rel2_bind; [apply IH|]. intros ys ys' Hys. cbn. constructor; assumption.
Qed.

(** ** Grids over the same domain *)
Record same_domain (g g' : grid R) : Prop := mkSame {
  sd_x0 : g_x0 g' = g_x0 g; sd_y0 : g_y0 g' = g_y0 g; sd_z0 : g_z0 g' = g_z0 g;
  sd_lx : g_lx g' = g_lx g; sd_ly : g_ly g' = g_ly g; sd_lz : g_lz g' = g_lz g }.
Lemma grid_fields (x0 y0 z0 dx dy dz lx ly lz : R) g : grid_init x0 y0 z0 dx dy dz lx ly lz = Ok g ->
  g_x0 g = x0 /\ g_y0 g = y0 /\ g_z0 g = z0 /\ g_lx g = lx /\ g_ly g = ly /\ g_lz g = lz.
Proof.
  unfold grid_init. destruct (centres x0 dx lx); cbn [bind]; [|discriminate]. destruct (centres y0 dy ly); cbn [bind]; [|discriminate].
  destruct (centres z0 dz lz); cbn [bind]; [|discriminate]. intros [= <-]. cbn. auto 10.
Qed.

Section Refine.
Variables g g' : grid R.
Hypothesis M : same_domain g g'.
Hypothesis C : columns g <> 0%nat.
Hypothesis C' : columns g' <> 0%nat.
Notation N := (columns g).
Notation N' := (columns g').
Definition planes : store R -> store R -> Prop := Forall2 (same_plane N N').

(** ** Surfaces *)
Lemma getS_planes st st' a : planes st st' -> rel2 (same_plane N N') (getS st a) (getS st' a).
Proof.
  intros H. unfold getS. pose proof (Forall2_nth _ _ _ a H) as K. destruct (nth_error st a), (nth_error st' a); cbn; try contradiction; auto.
Qed.
Lemma new_planes cm f f' : cm_mode cm <> S_ "random" -> rel2 (same_plane N N') (new_surface N cm f) (new_surface N' cm f').
Proof.
  intros H. unfold new_surface. destruct (cm_z cm) as [z|]; [|exact eq_refl]. destruct (pystr_eqb _ _) eqn:E; [apply pystr_eqb_eq in E; contradiction|]. clear E.
  destruct (pystr_eqb _ _); [|exact eq_refl]. cbn. repeat split. exists z. auto.
Qed.
Lemma alloc_planes st st' s s' : planes st st' -> same_plane N N' s s' ->
  planes (fst (alloc st s)) (fst (alloc st' s')) /\ snd (alloc st' s') = snd (alloc st s).
Proof.
  intros H K. cbn. split; [apply Forall2_app; [exact H|constructor; [exact K|constructor]]|]. symmetry. exact (Forall2_len _ _ _ H).
Qed.
Lemma min_planes v : list_min (repeat v N) = Ok v /\ list_min (repeat v N') = Ok v.
Proof. destruct N as [|n]; [contradiction|]. destruct N' as [|n']; [contradiction|]. split; apply list_min_repeat. Qed.
Lemma max_planes v : list_max (repeat v N) = Ok v /\ list_max (repeat v N') = Ok v.
Proof. destruct N as [|n]; [contradiction|]. destruct N' as [|n']; [contradiction|]. split; apply list_max_repeat. Qed.
Lemma use_lower_planes st st' a b : planes st st' -> rel2 planes (use_lower st a b) (use_lower st' a b).
Proof.
  intros H. unfold use_lower. eapply rel2_bind; [apply getS_planes, H|]. intros sa sa' (A1 & A2 & A3 & va & A4 & A5).
  eapply rel2_bind; [apply getS_planes, H|]. intros sb sb' (B1 & B2 & B3 & vb & B4 & B5).
  rewrite A4, A5, B4, B5, !zip_repeat. set (v := if (vb <? va)%num then vb else va).
  destruct (min_planes v) as [-> ->]. cbn [bind rel2]. apply Forall2_upd; [exact H|]. cbn. rewrite A1, A3. repeat split. exists v. auto.
Qed.
Lemma use_higher_planes st st' a b : planes st st' -> rel2 planes (use_higher st a b) (use_higher st' a b).
Proof.
  intros H. unfold use_higher. eapply rel2_bind; [apply getS_planes, H|]. intros sa sa' (A1 & A2 & A3 & va & A4 & A5).
  eapply rel2_bind; [apply getS_planes, H|]. intros sb sb' (B1 & B2 & B3 & vb & B4 & B5).
  rewrite A4, A5, B4, B5, !zip_repeat. set (v := if (va <? vb)%num then vb else va).
  destruct (max_planes v) as [-> ->]. cbn [bind rel2]. apply Forall2_upd; [exact H|]. cbn. rewrite A1, A2. repeat split. exists v. auto.
Qed.

(** ** Sheets of an element *)
Lemma sheet_loop_planes bottom th fuel : forall st st' top zb a, planes st st' ->
  rel2 (fun r r' => planes (fst r) (fst r') /\ snd r' = snd r) (sheet_loop fuel N st bottom top th zb a) (sheet_loop fuel N' st' bottom top th zb a).
Proof.
  induction fuel as [|fuel IH]; intros st st' top zb a H; [exact eq_refl|]. cbn [sheet_loop]. destruct a as [[l lo] hi].
  destruct (lo <? zb)%num.
  - eapply rel2_bind; [apply new_planes; discriminate|]. intros s s' Hs. destruct (alloc_planes _ _ _ _ H Hs) as [H1 Eb].
    destruct (alloc st s) as [st1 b], (alloc st' s') as [st1' b']. cbn [fst snd] in H1, Eb. subst b'.
    eapply rel2_bind; [apply use_lower_planes, H1|]. intros st2 st2' H2.
    eapply rel2_bind; [apply use_higher_planes, H2|]. intros st3 st3' H3.
    eapply rel2_bind; [apply getS_planes, H3|]. intros sb sb' (_ & Eb & _).
    eapply rel2_bind; [apply getS_planes, H3|]. intros sp sp' (_ & _ & Ep & _).
    rewrite Eb, Ep. apply IH, H3.
  - eapply rel2_bind; [apply getS_planes, H|]. intros sb sb' (_ & Eb & _).
    eapply rel2_bind; [apply getS_planes, H|]. intros sp sp' (_ & _ & Ep & _).
    rewrite Eb, Ep. cbn. auto.
Qed.
Definition same_copy (c c' : list R * list R) : Prop :=
  exists u v, c = (repeat u N, repeat v N) /\ c' = (repeat u N', repeat v N') \/ c = ([], []) /\ c' = ([], []).
Lemma copy_planes st st' o : planes st st' -> rel2 same_copy (copy_object st o) (copy_object st' o).
Proof.
  intros H. unfold copy_object. destruct (ob_surfaces o) as [[b t]|]; [|exists 0, 0; right; auto].
  eapply rel2_bind; [apply getS_planes, H|]. intros sb sb' (_ & _ & _ & u & U1 & U2).
  eapply rel2_bind; [apply getS_planes, H|]. intros sp sp' (_ & _ & _ & v & V1 & V2). cbn. exists u, v. left. rewrite U1, U2, V1, V2. auto.
Qed.

(** ** Elements *)
Definition full_same (e e' : ae R) : Prop := same_element e e' /\ Forall2 same_copy (ae_copies e) (ae_copies e').
Lemma new_ae_planes fuel st st' ty kind sbg bottom top objs : planes st st' ->
  rel2 (fun r r' => planes (fst r) (fst r') /\ full_same (snd r) (snd r'))
    (new_ae g fuel st ty kind sbg bottom top objs) (new_ae g' fuel st' ty kind sbg bottom top objs).
Proof.
  intros H. unfold new_ae. eapply rel2_bind; [apply getS_planes, H|]. intros sb sb' (_ & Eb & _).
  eapply rel2_bind; [apply getS_planes, H|]. intros sp sp' (_ & _ & Ep & _). rewrite Eb, Ep.
  eapply (rel2_bind (fun r r' => planes (fst r) (fst r') /\ snd r' = snd r)).
  - unfold sheet_thickness, g_zmax. rewrite (sd_z0 _ _ M), (sd_lz _ _ M). destruct (t_geometry ty); [apply sheet_loop_planes, H|cbn; auto].
  - intros [st1 [[l lo] hi]] [st1' q] [H1 E]. cbn [fst snd] in H1, E. subst q.
    eapply rel2_bind; [apply mapM_rel; intros o; apply copy_planes, H1|]. intros cs cs' Hc.
    cbn. split; [exact H1|]. split; [repeat split|exact Hc].
Qed.
Lemma plane_loop_same migrate zs : forall ds i total te, plane_loop g' migrate zs ds i total te = plane_loop g migrate zs ds i total te.
Proof.
  induction zs as [|z zs IH]; intros ds i total te; [reflexivity|]. destruct ds as [|d ds]; [reflexivity|]. cbn [plane_loop].
  rewrite (sd_x0 _ _ M), (sd_y0 _ _ M), (sd_lx _ _ M), (sd_ly _ _ M). destruct (_ || _); [apply IH|].
  destruct (migrate_plane _ _ _ _ _ _ _); cbn [bind]; [apply IH|reflexivity].
Qed.
Lemma make_troughs_same tp te : forall ds, make_troughs tp g' te ds = make_troughs tp g te ds.
Proof.
  induction te as [|[[x y] z] te IH]; intros [|d ds]; try reflexivity. cbn [make_troughs]. unfold make_trough.
  rewrite (sd_z0 _ _ M), (sd_lz _ _ M), IH. reflexivity.
Qed.
Definition cells : R := Rmin (g_dx g') (g_dy g').
Lemma new_channel_same ct line z w dp d :
  new_channel ct line z w dp (g_dx g') (g_dy g') d = let* h := new_channel ct line z w dp (g_dx g) (g_dy g) d in Ok (with_cells cells h).
Proof. unfold new_channel. destruct (pystr_eqb _ _); [destruct (alternating_facies _ _ _ _)|destruct (choice _ _)]; reflexivity. Qed.
Lemma make_level_same cp z : forall ys ds,
  make_level cp g' z ys ds = let* r := make_level cp g z ys ds in Ok (map (with_cells cells) (fst r), snd r).
Proof.
  induction ys as [|y ys IH]; intros ds; [destruct ds; reflexivity|]. destruct ds as [|d ds]; [reflexivity|]. cbn [make_level].
  rewrite (sd_x0 _ _ M), (sd_y0 _ _ M), (sd_lx _ _ M), (sd_ly _ _ M). destruct (ld_curve d _ _) as [line|]; cbn [bind]; [|reflexivity].
  rewrite new_channel_same. destruct (new_channel _ _ _ _ _ (g_dx g) _ _) as [h|]; cbn [bind]; [|reflexivity].
  rewrite IH. destruct (make_level cp g z ys ds) as [[l ys']|]; reflexivity.
Qed.
Lemma make_channels_same cp zs : forall ys ds,
  make_channels cp g' zs ys ds = let* l := make_channels cp g zs ys ds in Ok (map (with_cells cells) l).
Proof.
  induction zs as [|z zs IH]; intros ys ds; [reflexivity|]. cbn [make_channels]. rewrite make_level_same.
  destruct (make_level _ g _ _ _) as [[l ys']|]; cbn [bind fst snd]; [|reflexivity]. rewrite IH.
  destruct (make_channels cp g zs ys' _); cbn [bind]; [|reflexivity]. rewrite map_app. reflexivity.
Qed.
Lemma make_objects_same fuel k sb sb' sp sp' od :
  same_plane N N' sb sb' -> same_plane N N' sp sp' ->
  rel2 (same_objects cells) (make_objects g fuel k sb sp od) (make_objects g' fuel k sb' sp' od).
Proof.
  intros (Ebm & _ & Eb & _) (Ep & _). destruct k as [lens tr shp|tp bu ag mi te|cp]; [reflexivity| |]; cbn [make_objects].
  - unfold trough_positions. rewrite Eb, Ep. destruct te as [te|]; cbn [bind].
    + rewrite make_troughs_same. apply rel2_same. intros l _. reflexivity.
    + destruct (trough_planes _ _ _ _ _); cbn [bind]; [|exact eq_refl]. rewrite plane_loop_same. apply rel2_same. intros te _. rewrite make_troughs_same. apply rel2_same. intros l _. reflexivity.
  - unfold generate_channels, g_zmax. rewrite (sd_z0 _ _ M), (sd_lx _ _ M), (sd_ly _ _ M), (sd_lz _ _ M), Ebm, Ep.
    destruct (first_zfactor _ _ _ _) as [f|]; cbn [bind]; [|exact eq_refl]. destruct (channel_levels _ _ _ _) as [zs|]; cbn [bind]; [|exact eq_refl].
    rewrite make_channels_same. destruct (make_channels _ _ _ _ _); cbn; reflexivity.
Qed.
Lemma extents_same o o' : same_objects cells o o' -> extents o' = extents o.
Proof. intros ->. destruct o; try reflexivity. cbn. rewrite map_map. reflexivity. Qed.
Lemma new_sheet_same shp z d : new_sheet shp g' z d = new_sheet shp g z d.
Proof. unfold new_sheet. rewrite (sd_x0 _ _ M), (sd_y0 _ _ M), (sd_lx _ _ M), (sd_ly _ _ M), (sd_lz _ _ M). reflexivity. Qed.
Lemma make_sheets_same st st' shp l : planes st st' -> forall ds, make_sheets g' st' shp l ds = make_sheets g st shp l ds.
Proof.
  intros H. induction l as [|o l IH]; intros ds; [reflexivity|]. destruct ds as [|d ds]; [reflexivity|]. cbn [make_sheets].
  destruct (ob_surfaces o) as [[b t]|]; [|exact eq_refl]. pose proof (getS_planes _ _ b H) as K.
  destruct (getS st b) as [s|], (getS st' b) as [s'|]; cbn in K; try contradiction; cbn [bind]; [|congruence].
  destruct K as [-> _]. rewrite new_sheet_same, IH. reflexivity.
Qed.
Definition same_ae (r r' : ae R * objects) : Prop := full_same (fst r) (fst r') /\ same_objects cells (snd r) (snd r').
Lemma full_ae_same fuel st st' ft kind sbg bottom top od : planes st st' ->
  rel2 (fun r r' => planes (fst r) (fst r') /\ same_ae (snd r) (snd r'))
    (full_ae g fuel st ft kind sbg bottom top od) (full_ae g' fuel st' ft kind sbg bottom top od).
Proof.
  intros H. unfold full_ae. eapply rel2_bind; [apply getS_planes, H|]. intros sb sb' Hb.
  eapply rel2_bind; [apply getS_planes, H|]. intros sp sp' Hp.
  eapply rel2_bind; [apply (make_objects_same _ _ _ _ _ _ _ Hb Hp)|]. intros o o' Ho. rewrite (extents_same _ _ Ho).
  eapply rel2_bind; [apply new_ae_planes, H|]. intros [st1 e] [st1' e'] [H1 He]. cbn [fst snd] in H1, He.
  destruct (ft_kind ft) as [lens tr shp| |].
  - assert (ae_objects e' = ae_objects e) as -> by apply He. rewrite (make_sheets_same _ _ _ _ H1). apply rel2_same. intros l _. cbn. repeat split; auto; apply He.
  - cbn. repeat split; auto; apply He.
  - cbn. repeat split; auto; apply He.
Qed.

(** ** Strata *)
Definition same_loop (r r' : store R * (R * R * list (ae R * objects))) : Prop :=
  planes (fst r) (fst r') /\ fst (snd r') = fst (snd r) /\ Forall2 same_ae (snd (snd r)) (snd (snd r')).
Lemma stratum_loop_same fuel fp bot : Forall even_type (fp_types fp) -> forall draws draws' st st' top curr znow lo hi aes aes',
  map without_field draws' = map without_field draws -> planes st st' -> Forall2 same_ae aes aes' ->
  rel2 same_loop (full_stratum_loop g fuel fp bot draws st top curr znow lo hi aes)
                 (full_stratum_loop g' fuel fp bot draws' st' top curr znow lo hi aes').
Proof.
  intros F. induction draws as [|d draws IH]; intros [|d' draws'] st st' top curr znow lo hi aes aes' ED H HA; try discriminate ED; cbn [full_stratum_loop];
    (eapply rel2_bind; [apply getS_planes, H|]; intros sbot sbot' (Em & _); rewrite Em; destruct (Rleb znow _); [cbn; repeat split; auto|]); [exact eq_refl|].
  cbn [map] in ED. injection ED as E1 E2 E3 E4 E5 ED.
  destruct (choose (fp_types fp) curr) as [ty|] eqn:Ety; cbn [bind]; [|exact eq_refl]. rewrite E4.
  destruct (choose (fp_types fp) (fd_next d)) as [nx|] eqn:Enx; cbn [bind]; [|exact eq_refl].
  assert (next_depth (fp_avul_prob fp) znow (base_draw d' []) = next_depth (fp_avul_prob fp) znow (base_draw d [])) as ->
    by (unfold next_depth, base_draw; cbn; rewrite E1, E2, E3; reflexivity).
  set (zn := next_depth _ _ _).
  eapply (rel2_bind (fun q q' => fst (fst q') = fst (fst q) /\ planes (snd (fst q)) (snd (fst q')) /\ snd q' = snd q)).
  - destruct (Rleb zn _); [cbn; auto|]. eapply rel2_bind.
    + apply new_planes. cbn. exact (choose_Forall _ _ _ _ F Enx).
    + intros s s' Hs. destruct (alloc_planes _ _ _ _ H Hs) as [H1 Eb].
      destruct (alloc st s) as [st1 b], (alloc st' s') as [st1' b']. cbn in *. auto.
  - intros [[z1 st1] b1] [[z1' st1'] b1'] (Ez & H1 & Eb). cbn [fst snd] in Ez, H1, Eb. subst z1' b1'.
    eapply rel2_bind; [apply use_lower_planes, H1|]. intros st2 st2' H2.
    eapply rel2_bind; [apply use_higher_planes, H2|]. intros st3 st3' H3. rewrite E5.
    eapply rel2_bind; [apply (full_ae_same _ _ _ _ _ _ _ _ _ H3)|].
    intros [st4 eo] [st4' eo'] [H4 He]. cbn [fst snd] in H4, He.
    assert (ae_zmin (fst eo') = ae_zmin (fst eo) /\ ae_zmax (fst eo') = ae_zmax (fst eo)) as [-> ->] by (split; apply He).
    apply IH; [exact ED|exact H4|]. apply Forall2_app; [exact HA|]. constructor; [exact He|constructor].
Qed.

Definition full_same_stratum (s s' : full_stratum) : Prop :=
  same_stratum cells s s' /\ Forall2 full_same (s_aes (fst s)) (s_aes (fst s')).
Lemma same_fst l l' : Forall2 same_ae l l' -> Forall2 full_same (map fst l) (map fst l').
Proof. induction 1 as [|x x' l l' [E _] _ IH]; cbn; constructor; auto. Qed.
Lemma same_snd l l' : Forall2 same_ae l l' -> Forall2 (same_objects cells) (map snd l) (map snd l').
Proof. induction 1 as [|x x' l l' [_ E] _ IH]; cbn; constructor; auto. Qed.
Lemma new_stratum_same fuel fp first draws draws' st st' bottom top : Forall even_type (fp_types fp) ->
  map without_field draws' = map without_field draws -> planes st st' ->
  rel2 (fun r r' => planes (fst r) (fst r') /\ full_same_stratum (snd r) (snd r'))
    (new_full_stratum g fuel fp first draws st bottom top) (new_full_stratum g' fuel fp first draws' st' bottom top).
Proof.
  intros F ED H. unfold new_full_stratum. eapply rel2_bind; [apply getS_planes, H|]. intros sb sb' (_ & Eb & _).
  eapply rel2_bind; [apply getS_planes, H|]. intros sp sp' (Em & _ & Ep & _). rewrite Eb, Em, Ep.
  eapply rel2_bind; [apply (stratum_loop_same fuel fp bottom F draws draws' st st' top first _ _ _ [] []); auto|].
  intros [st1 [[lo hi] l]] [st1' [[lo' hi'] l']] [H1 [E2 E3]]. cbn in H1, E2, E3. injection E2 as -> ->.
  pose proof (same_fst _ _ E3) as K. cbn. split; [exact H1|]. split; [|exact K]. repeat split; cbn.
  - revert K. apply Forall2_weaken. intros e e' [Q _]. exact Q.
  - apply same_snd, E3.
Qed.
Lemma model_loop_same fuel contacts params n : even_settings contacts params -> forall draws draws' si st st' top strata strata',
  same_draws draws draws' -> planes st st' -> Forall2 full_same_stratum strata strata' ->
  rel2 (fun r r' => planes (fst r) (fst r') /\ Forall2 full_same_stratum (snd r) (snd r'))
    (full_model_loop g fuel contacts params n draws si st top strata) (full_model_loop g' fuel contacts params n draws' si st' top strata').
Proof.
  intros [FC FP]. unfold same_draws. induction draws as [|sd draws IH]; intros [|sd' draws'] si st st' top strata strata' ED H HS; try discriminate ED; cbn [full_model_loop].
  - destruct (Nat.eqb si n); [cbn; auto|reflexivity].
  - cbn [map] in ED. injection ED as E1 E2 ED. rewrite (sd_z0 _ _ M), E1.
    eapply (rel2_bind (same_plane N N')).
    + destruct (Nat.eqb (S si) n); [apply new_planes; discriminate|]. apply rel2_same. intros cm Ecm. apply new_planes.
      rewrite Forall_forall in FC. apply FC, (pyget_In _ _ _ Ecm).
    + intros s s' Hs. destruct (alloc_planes _ _ _ _ H Hs) as [H1 Eb].
      destruct (alloc st s) as [st1 b], (alloc st' s') as [st1' b']. cbn [fst snd] in H1, Eb. subst b'.
      eapply rel2_bind; [apply use_lower_planes, H1|]. intros st2 st2' H2. apply rel2_same. intros fp Efp.
      eapply rel2_bind; [apply new_stratum_same; [|exact E2|exact H2]|].
      * rewrite Forall_forall in FP. apply FP, (pyget_In _ _ _ Efp).
      * intros [st3 x] [st3' x'] [H3 Hx]. cbn [fst snd] in H3, Hx. apply IH; [exact ED|exact H3|].
        apply Forall2_app; [exact HS|]. constructor; [exact Hx|constructor].
Qed.
Lemma generate_same fuel contacts params draws draws' : even_settings contacts params -> same_draws draws draws' ->
  rel2 (fun r r' => planes (fst r) (fst r') /\ Forall2 full_same_stratum (snd r) (snd r'))
    (full_generate g fuel contacts params draws) (full_generate g' fuel contacts params draws').
Proof.
  intros F ED. unfold full_generate. rewrite (sd_lz _ _ M). eapply rel2_bind; [apply new_planes; discriminate|]. intros s s' Hs. cbn [alloc app List.length].
  apply model_loop_same; [exact F|exact ED|constructor; [exact Hs|constructor]|constructor].
Qed.

(** ** Search *)
Lemma first_same {A A' B} (f : A -> option B) (f' : A' -> option B) l l' : Forall2 (fun x x' => f' x' = f x) l l' ->
  forall i, first f' l' i = first f l i.
Proof. induction 1 as [|x x' l l' E _ IH]; intros i; cbn; [reflexivity|]. rewrite E, IH. reflexivity. Qed.

Variables (ny ny' : nat) (p p' : point R).
Hypothesis SP : same_place p p'.
Hypothesis K : (p_xi p * ny + p_yi p < N)%nat.
Hypothesis K' : (p_xi p' * ny' + p_yi p' < N')%nat.

Lemma elevation_same st st' a : planes st st' -> elevation ny' st' a (p_xi p') (p_yi p') = elevation ny st a (p_xi p) (p_yi p).
Proof.
  intros H. unfold elevation. pose proof (Forall2_nth _ _ _ a H) as Q. destruct (nth_error st a), (nth_error st' a); try contradiction; [|exact eq_refl].
  destruct Q as (_ & _ & _ & v & -> & ->). rewrite !nth_repeat_lt by assumption. reflexivity.
Qed.

Context {D : Type}.
Variables (ty : nat -> nat -> Z) (look look' : nat -> nat -> point R -> write R) (probe probe' : nat -> nat -> D -> point R -> D * option (write R)) (d : D).
Hypothesis L : forall num oi, look' num oi p' = look num oi p.
Hypothesis P : forall num oi, snd (probe' num oi d p') = snd (probe num oi d p).
Let hit (o : aobj R D) (q : point R) := snd (o_check o d q).
Lemma to_objs_same num l : forall oi cs cs', Forall2 same_copy cs cs' ->
  Forall2 (fun o o' => hits hit p' o' = hits hit p o) (to_objs ny look probe num oi l cs) (to_objs ny' look' probe' num oi l cs').
Proof.
  induction l as [|o l IH]; intros oi cs cs' HC; [destruct HC; constructor|]. destruct HC as [|c c' cs cs' Hc HC]; [constructor|]. cbn [to_objs].
  constructor; [|apply IH; exact HC]. unfold hits, hit. cbn [o_check]. destruct (ob_surfaces o) eqn:Eo; [|rewrite P; reflexivity].
  unfold sheet_probe. destruct SP as (_ & _ & Ez). rewrite Ez, L.
  destruct Hc as (u & v & [[-> ->]|[-> ->]]); cbn [fst snd].
  - rewrite !nth_repeat_lt by assumption. destruct (_ || _); reflexivity.
  - assert (forall k : nat, nth k (@nil R) n0 = n0) as E by (intros [|k]; reflexivity). rewrite !E. destruct (_ || _); reflexivity.
Qed.
Lemma search_ae_same st st' si num e e' : planes st st' -> full_same e e' ->
  search_ae hit p' (to_aelem ny' ty look' probe' st' si num e') = search_ae hit p (to_aelem ny ty look probe st si num e).
Proof.
  intros H [(E1 & E2 & E3 & E4 & E5 & E6 & E7 & E8 & E9) HC]. unfold search_ae, within, to_aelem, is_sheet.
  cbn [e_objs e_num e_type e_sheet e_bottom e_top e_bg_facies e_bg_azim e_bg_dip]. rewrite E1, E2, E5, E6, E7, E8, E9.
  rewrite (first_same _ _ _ _ (to_objs_same num (ae_objects e) 0 _ _ HC)), !(elevation_same _ _ _ H).
  destruct SP as (_ & _ & ->). reflexivity.
Qed.
Lemma search_stratum_same st st' si l l' : planes st st' -> Forall2 full_same l l' -> forall num z z',
  search_stratum hit p' (mkAstrat z' (to_aelems ny' ty look' probe' st' si num l')) = search_stratum hit p (mkAstrat z (to_aelems ny ty look probe st si num l)).
Proof.
  intros H HL num z z'. unfold search_stratum. cbn [t_aes]. apply first_same. revert num.
  induction HL as [|e e' l l' He _ IH]; intros num; cbn [to_aelems]; constructor; [apply search_ae_same; assumption|apply IH].
Qed.
Lemma search_same st st' l l' : planes st st' -> Forall2 full_same_stratum l l' -> forall si num,
  search hit (to_model ny' ty look' probe' st' si num (map fst l')) p' = search hit (to_model ny ty look probe st si num (map fst l)) p.
Proof.
  intros H HL si num. unfold search. apply first_same. revert si num.
  induction HL as [|s s' l l' Hs _ IH]; intros si num; cbn [to_model map]; constructor.
  - apply search_stratum_same; [exact H|apply Hs].
  - rewrite (Forall2_len _ _ _ (proj2 Hs)). apply IH.
Qed.
End Refine.

(** ** Cells *)
Section Cells.
Variable m : R.
Variables (dm : domain) (cg cg' : cgrid) (wild wild' : nat -> nat -> point R -> Z) (p p' : point R).
Hypothesis SP : same_place p p'.
Hypothesis W : forall num oi, wild' num oi p' = wild num oi p.
Lemma table_same g g' l l' : Forall2 (full_same_stratum g g') l l' -> Forall2 (same_objects (cells g')) (object_table l) (object_table l').
Proof.
  unfold object_table. induction 1 as [|s s' l l' [E _] _ IH]; cbn; [constructor|]. apply Forall2_app; [apply E|exact IH].
Qed.
Lemma look_same tab tab' : Forall2 (same_objects m) tab tab' -> forall num oi, look_of wild' tab' num oi p' = look_of wild tab num oi p.
Proof.
  intros H num oi. unfold look_of. pose proof (Forall2_nth _ _ _ num H) as K. rewrite !W.
  destruct (nth_error tab num) as [o|], (nth_error tab' num) as [o'|]; try contradiction; [|reflexivity].
  rewrite K. destruct o as [l|l|l]; [|reflexivity|reflexivity]. destruct (nth_error l oi) as [sh|]; [|reflexivity].
  unfold sheet_write, sheet_layer. destruct SP as (-> & -> & ->). reflexivity.
Qed.
Lemma trough_same num oi t d : trough_check dm wild' num oi t d p' = trough_check dm wild num oi t d p.
Proof. unfold trough_check, trough_assign, offset. rewrite W. destruct SP as (-> & -> & ->). reflexivity. Qed.
Lemma channel_same num oi c : snd (channel_check cg' wild' num oi (with_cells m c) unmarked p') = snd (channel_check cg wild num oi c unmarked p).
Proof.
  unfold channel_check, channel_assign. rewrite W. destruct SP as (Ex & Ey & Ez). rewrite Ex, Ey, Ez. cbn [with_cells ch_ztop ch_width].
  destruct (Rltb 0 _); [reflexivity|]. unfold unmarked at 1 4.
  assert (xy_dist (with_cells m c) (p_x p) (p_y p) = xy_dist c (p_x p) (p_y p)) as -> by reflexivity.
  assert (forall a b, above_parabola (with_cells m c) a b = above_parabola c a b) as -> by reflexivity.
  assert (channel_write (with_cells m c) 0 p' = channel_write c 0 p) as ->.
  { unfold channel_write, channel_layer. rewrite Ex, Ey, Ez. reflexivity. }
  destruct (above_parabola _ _ _); reflexivity.
Qed.
Lemma probe_same tab tab' : Forall2 (same_objects m) tab tab' -> forall num oi,
  snd (probe_of dm cg' wild' tab' num oi unmarked p') = snd (probe_of dm cg wild tab num oi unmarked p).
Proof.
  intros H num oi. unfold probe_of. pose proof (Forall2_nth _ _ _ num H) as K.
  destruct (nth_error tab num) as [o|], (nth_error tab' num) as [o'|]; try contradiction; [|reflexivity].
  rewrite K. destruct o as [l|l|l]; [reflexivity| |].
  - destruct (nth_error l oi); [|reflexivity]. rewrite trough_same. reflexivity.
  - rewrite nth_error_map. destruct (nth_error l oi); cbn [option_map]; [|reflexivity]. apply channel_same.
Qed.
End Cells.

(** ** The conditions of C34 carry over *)
Lemma same_in {A B C} (f : A -> C) (h : B -> C) (l : list A) (l' : list B) y : map h l' = map f l -> In y l' -> exists x, In x l /\ f x = h y.
Proof. intros E H. apply (in_map h) in H. rewrite E in H. apply in_map_iff in H as (x & Hx & H). eauto. Qed.
Lemma Forall2_at {A B} (P : A -> B -> Prop) l l' n y : Forall2 P l l' -> nth_error l' n = Some y -> exists x, nth_error l n = Some x /\ P x y.
Proof. intros H E. pose proof (Forall2_nth _ _ _ n H) as K. rewrite E in K. destruct (nth_error l n) as [x|]; [eauto|contradiction]. Qed.
Lemma Forall2_in_r {A B} (P : A -> B -> Prop) l l' y : Forall2 P l l' -> In y l' -> exists x, In x l /\ P x y.
Proof. intros H K. apply In_nth_error in K as [n K]. destruct (Forall2_at _ _ _ _ _ H K) as (x & Hx & HP). apply nth_error_In in Hx. eauto. Qed.
Lemma col_planes g g' st st' a k v : columns g <> 0%nat -> planes g g' st st' -> col st' a k = Some v -> col st a 0 = Some v.
Proof.
  intros C H. unfold col. pose proof (Forall2_nth _ _ _ a H) as K. destruct (nth_error st a) as [s|], (nth_error st' a) as [s'|]; try contradiction; [|discriminate].
  destruct K as (_ & _ & _ & u & -> & ->). intros E. apply nth_error_In, repeat_spec in E. subst. destruct (columns g); [contradiction|reflexivity].
Qed.
Lemma sensible_same g g' params draws draws' st st' strata strata' : same_domain g g' -> columns g <> 0%nat ->
  same_draws draws draws' -> planes g g' st st' -> Forall2 (full_same_stratum g g') strata strata' ->
  sensible g params draws st strata -> sensible g' params draws' st' strata'.
Proof.
  intros M C ED H HS (lo & hi & S1 & S2 & S3 & S4 & S5). exists lo, hi. split; [|split; [|split; [|split]]].
  - intros a k v E. apply (S1 a 0%nat). eapply col_planes; eauto.
  - apply Forall_forall. intros s' Hs. destruct (Forall2_in_r _ _ _ _ H Hs) as (s & Hin & (-> & _)). rewrite Forall_forall in S2. auto.
  - intros sd' d' H1 H2. destruct (same_in _ _ _ _ _ ED H1) as (sd & Hsd & E). injection E as _ E.
    destruct (same_in _ _ _ _ _ (eq_sym E) H2) as (d & Hd & E1). injection E1 as _ _ _ _ E1. rewrite <- E1. exact (S3 sd d Hsd Hd).
  - intros fp ft H1 H2. destruct (S4 fp ft H1 H2) as [F1 F2]. split; [|exact F2]. revert F1. unfold type_fits.
    destruct (ft_kind ft); rewrite ?(sd_z0 _ _ M), ?(sd_lz _ _ M); auto.
  - intros si fs' e' fp ft E1 E2 E3 E4. destruct (Forall2_at _ _ _ _ _ HS E1) as (fs & Efs & [_ HA]).
    destruct (Forall2_in_r _ _ _ _ HA E2) as (e & He & [(Q1 & _ & _ & _ & _ & _ & _ & _ & Q9) _]). rewrite Q9 in E4.
    specialize (S5 si fs e fp ft Efs He E3 E4). revert S5. unfold objects_reach_up. destruct (ft_kind ft); rewrite ?Q1; auto.
    + intros F te k v Ete Ec. apply (F te 0%nat v Ete). eapply col_planes; eauto.
    + intros F k v s' Es' Ec. destruct (Forall2_at _ _ _ _ _ H Es') as (s & Es & (Em & _)). rewrite Em. apply (F 0%nat v s Es). eapply col_planes; eauto.
Qed.
