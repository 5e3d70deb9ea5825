(** Moving the origin: generation and assignment commute with it. *)
From Coq Require Import List ZArith Bool Ascii String Reals Lra Lia FunctionalExtensionality.
From Verif Require Import Base Num ParseModel ConfigModel FaciesModel SurfaceModel StrataModel AssignModel BuildModel TroughModel SheetModel ChannelModel
  FullModel OriginSpec.
Import ListNotations.
Local Open Scope R_scope.

(** ** Related results *)
Definition rel2 {A B} (P : A -> B -> Prop) (r : res A) (r' : res B) : Prop :=
  match r, r' with Ok a, Ok b => P a b | Err e, Err e' => e = e' | _, _ => False end.
Lemma rel2_bind {A B C D} (P : A -> B -> Prop) (Q : C -> D -> Prop) r r' f f' :
  rel2 P r r' -> (forall a b, P a b -> rel2 Q (f a) (f' b)) -> rel2 Q (bind r f) (bind r' f').
Proof. destruct r, r'; cbn; intros H K; try contradiction; auto. Qed.
Lemma rel2_refl {A} (P : A -> A -> Prop) r : (forall a, P a a) -> rel2 P r r.
Proof. destruct r; cbn; auto. Qed.
Lemma rel2_same {A C D} (Q : C -> D -> Prop) (r : res A) f f' : (forall a, r = Ok a -> rel2 Q (f a) (f' a)) -> rel2 Q (bind r f) (bind r f').
Proof. destruct r; cbn; auto. Qed.

Section Move.
Variables a b : R.

(** ** Grids *)
Record moved_grid (g g' : grid R) : Prop := mkMoved {
  mg_x0 : g_x0 g' = g_x0 g + a; mg_y0 : g_y0 g' = g_y0 g + b; mg_z0 : g_z0 g' = g_z0 g;
  mg_dx : g_dx g' = g_dx g; mg_dy : g_dy g' = g_dy g;
  mg_lx : g_lx g' = g_lx g; mg_ly : g_ly g' = g_ly g; mg_lz : g_lz g' = g_lz g;
  mg_x : g_x g' = map (fun x => x + a) (g_x g); mg_y : g_y g' = map (fun y => y + b) (g_y g); mg_z : g_z g' = g_z g }.

Lemma arange_moved (s e d c : R) : arange (s + c) (e + c) d = let* l := arange s e d in Ok (map (fun x => x + c) l).
Proof.
  unfold arange. numR. destruct (_ && _); cbn [bind]; [reflexivity|].
  replace (e + c - (s + c)) with (e - s) by ring. rewrite map_map. f_equal. apply map_ext. intros i. ring.
Qed.
Lemma centres_moved (x0 dx lx c : R) : centres (x0 + c) dx lx = let* l := centres x0 dx lx in Ok (map (fun x => x + c) l).
Proof.
  unfold centres. rewrite <- arange_moved. numR. f_equal; ring.
Qed.
Lemma grid_moved x0 y0 z0 dx dy dz lx ly lz :
  rel2 moved_grid (grid_init x0 y0 z0 dx dy dz lx ly lz) (grid_init (x0 + a) (y0 + b) z0 dx dy dz lx ly lz).
Proof.
  unfold grid_init. rewrite !centres_moved.
  destruct (centres x0 dx lx) as [xs|]; cbn [bind]; [|reflexivity].
  destruct (centres y0 dy ly) as [ys|]; cbn [bind]; [|reflexivity].
  destruct (centres z0 dz lz) as [zs|]; cbn [bind]; [|reflexivity].
  cbn. constructor; reflexivity.
Qed.

Variables g g' : grid R.
Hypothesis M : moved_grid g g'.
Lemma columns_moved : columns g' = columns g.
Proof. unfold columns. rewrite (mg_x _ _ M), (mg_y _ _ M), !map_length. reflexivity. Qed.

(** ** Troughs *)
Definition move_trough (t : trough) : trough :=
  mkTrough (tr_x t + a) (tr_y t + b) (tr_z t) (tr_a t) (tr_b t) (tr_c t) (tr_max_ab t) (tr_zmin t) (tr_zmax t)
    (tr_sin t) (tr_cos t) (tr_lag t) (tr_lag_facies t) (tr_structure t) (tr_layer_dist t) (tr_shift t) (tr_nx t) (tr_ny t) (tr_nz t)
    (tr_facies t) (tr_azim t) (tr_dip t) (tr_num_facies t) (tr_array t).
Definition mp := position_along a b.

Lemma new_trough_moved tt x y z ea eb ec alpha d :
  new_trough tt (x + a) (y + b) z ea eb ec alpha d = let* t := new_trough tt x y z ea eb ec alpha d in Ok (move_trough t).
Proof.
  unfold new_trough. destruct (structure_code _ _) as [s|]; cbn [bind]; [|reflexivity].
  destruct (s =? 0)%Z; [destruct (choice _ _); reflexivity|].
  destruct (s =? 1)%Z; [destruct (alternating_facies _ _ _ _); reflexivity|].
  destruct (s =? 2)%Z; [destruct (choice _ _); reflexivity|].
  destruct (alternating_facies _ _ _ _); reflexivity.
Qed.
Lemma make_troughs_moved tp te : forall ds,
  make_troughs tp g' (map mp te) ds = let* l := make_troughs tp g te ds in Ok (map move_trough l).
Proof.
  induction te as [|[[x y] z] te IH]; intros [|d ds]; try reflexivity.
  cbn [map make_troughs mp position_along]. unfold make_trough at 1 2. cbn [mp position_along].
  rewrite (mg_z0 _ _ M), (mg_lz _ _ M). destruct (trough_size _ _ _ _ _ _ _) as [[ea eb] ec].
  rewrite new_trough_moved. destruct (new_trough _ _ _ _ _ _ _ _ _) as [t|]; cbn [bind]; [|reflexivity].
  rewrite IH. destruct (make_troughs tp g te ds); reflexivity.
Qed.

Lemma migrate_moved i total z d n : forall k te,
  migrate_plane i total z d n k (map mp te) = let* l := migrate_plane i total z d n k te in Ok (map mp l).
Proof.
  induction n as [|n IH]; intros k te; [reflexivity|]. cbn [migrate_plane].
  rewrite nth_error_map. destruct (nth_error te _) as [[[x y] z0]|]; cbn [option_map mp position_along]; [|reflexivity].
  rewrite <- IH, map_app. cbn [map mp position_along]. numR.
  replace (x + a + fst (d k)) with (x + fst (d k) + a) by ring. replace (y + b + snd (d k)) with (y + snd (d k) + b) by ring. reflexivity.
Qed.
Lemma plane_loop_moved migrate zs : forall ds i total te,
  plane_loop g' migrate zs ds i total (map mp te) = let* l := plane_loop g migrate zs ds i total te in Ok (map mp l).
Proof.
  induction zs as [|z zs IH]; intros ds i total te; [reflexivity|]. destruct ds as [|d ds]; [reflexivity|]. cbn [plane_loop].
  destruct (_ || _).
  - rewrite <- IH, map_app, map_map. do 2 f_equal. apply map_ext. intros [u v]. cbn [fst snd mp position_along].
    rewrite (mg_x0 _ _ M), (mg_y0 _ _ M), (mg_lx _ _ M), (mg_ly _ _ M). unfold uniform. numR.
    apply (f_equal2 pair); [apply (f_equal2 pair); ring|reflexivity].
  - rewrite migrate_moved. destruct (migrate_plane _ _ _ _ _ _ _) as [l|]; cbn [bind]; [apply IH|reflexivity].
Qed.

(** ** Sheets *)
Definition level (sh : sheet) : Prop := sh_nx sh = 0 /\ sh_ny sh = 0.
Lemma new_sheet_moved shp zc d : st_structure shp <> S_ "dip" \/ st_dip shp = (0, 0) ->
  rel2 (fun s s' => s = s' /\ level s) (new_sheet shp g zc d) (new_sheet shp g' zc d).
Proof.
  intros H. unfold new_sheet. destruct (pystr_eqb _ _) eqn:E.
  - destruct H as [H|H]; [apply pystr_eqb_eq in E; contradiction|]. rewrite H. cbn [fst snd].
    assert (uniform 0 0 (shd_dip d) = 0) as -> by (unfold uniform; numR; ring).
    assert (sin (deg 0) = 0) as -> by (unfold deg; replace (0 * PI / 180) with 0 by field; apply sin_0).
    rewrite (mg_x0 _ _ M), (mg_y0 _ _ M), (mg_lx _ _ M), (mg_ly _ _ M), (mg_lz _ _ M).
    set (az := uniform _ _ _). set (nz := cos (deg 0)).
    replace (- 0 * cos (deg az) * (g_x0 g + a + g_lx g / 2) + 0 * sin (deg az) * (g_y0 g + b + g_ly g / 2) + nz * zc + shd_shift d * st_dipset_dist shp)
      with (- 0 * cos (deg az) * (g_x0 g + g_lx g / 2) + 0 * sin (deg az) * (g_y0 g + g_ly g / 2) + nz * zc + shd_shift d * st_dipset_dist shp) by ring.
    destruct (alternating_facies _ _ _ _); cbn [bind rel2]; [|reflexivity]. split; [reflexivity|]. split; cbn; ring.
  - destruct (choice _ _); cbn [bind rel2]; [|reflexivity]. split; [reflexivity|]. split; reflexivity.
Qed.
Lemma make_sheets_moved st shp l : (st_structure shp <> S_ "dip" \/ st_dip shp = (0, 0)) -> forall ds,
  rel2 (fun s s' => s = s' /\ Forall level s) (make_sheets g st shp l ds) (make_sheets g' st shp l ds).
Proof.
  intros H. induction l as [|o l IH]; intros ds; [cbn; auto|]. destruct ds as [|d ds]; [reflexivity|]. cbn [make_sheets].
  destruct (ob_surfaces o) as [[bb tt]|]; [|reflexivity]. apply rel2_same. intros s _.
  eapply rel2_bind; [apply new_sheet_moved, H|]. intros sh ? [<- Hs]. eapply rel2_bind; [apply IH|]. intros r ? [<- Hr]. cbn. auto.
Qed.

(** ** Elements *)
Inductive moved_objects : objects -> objects -> Prop :=
  | mo_sheets l : Forall level l -> moved_objects (OSheets l) (OSheets l)
  | mo_troughs l : moved_objects (OTroughs l) (OTroughs (map move_trough l)).
Lemma extents_moved o o' : moved_objects o o' -> extents o' = extents o.
Proof. intros []; cbn; [reflexivity|]. rewrite map_map. reflexivity. Qed.
Lemma make_objects_moved fuel ft sb sp od : origin_free ft ->
  rel2 moved_objects (make_objects g fuel (ft_kind ft) sb sp od) (make_objects g' fuel (kind_along a b (ft_kind ft)) sb sp od).
Proof.
  unfold origin_free. destruct (ft_kind ft) as [lens tr shp|tp bu ag mi te|cp]; intros H; cbn [make_objects kind_along].
  - cbn. constructor. constructor.
  - assert (forall te, rel2 moved_objects (let* l := make_troughs tp g te (od_troughs od) in Ok (OTroughs l))
                         (let* l := make_troughs tp g' (map mp te) (od_troughs od) in Ok (OTroughs l))) as K.
    { intros l. rewrite make_troughs_moved. destruct (make_troughs tp g l _); cbn; [constructor|reflexivity]. }
    destruct te as [te|]; cbn [make_objects bind]; [apply K|].
    unfold trough_positions. destruct (trough_planes _ _ _ _ _) as [zs|]; cbn [bind]; [|reflexivity].
    change (@nil (position R)) with (map mp []) at 2. rewrite plane_loop_moved.
    destruct (plane_loop _ _ _ _ _ _ _) as [l|]; cbn [bind]; [apply K|reflexivity].
  - contradiction.
Qed.
Lemma new_ae_moved fuel st ty kind sbg bottom top objs :
  new_ae g' fuel st ty kind sbg bottom top objs = new_ae g fuel st ty kind sbg bottom top objs.
Proof. unfold new_ae, sheet_thickness, g_zmax. rewrite columns_moved, ?(mg_z0 _ _ M), ?(mg_lz _ _ M). reflexivity. Qed.
Lemma base_type_along ft : base_type (type_along a b ft) = base_type ft.
Proof. unfold base_type. cbn. destruct (ft_kind ft) as [| ? ? ? ? []|]; reflexivity. Qed.

Definition moved_ae (r r' : ae R * objects) : Prop := fst r' = fst r /\ moved_objects (snd r) (snd r').
Definition moved_full (r r' : store R * (ae R * objects)) : Prop := fst r' = fst r /\ moved_ae (snd r) (snd r').
Lemma full_ae_moved fuel st ft kind sbg bottom top od : origin_free ft ->
  rel2 moved_full (full_ae g fuel st ft kind sbg bottom top od) (full_ae g' fuel st (type_along a b ft) kind sbg bottom top od).
Proof.
  intros H. unfold full_ae. apply rel2_same. intros sb _. apply rel2_same. intros sp _.
  eapply rel2_bind; [apply make_objects_moved, H|]. intros o o' Ho.
  rewrite base_type_along, new_ae_moved, (extents_moved _ _ Ho). apply rel2_same. intros [st' e] _.
  unfold origin_free in H. cbn [type_along ft_kind]. destruct (ft_kind ft) as [lens tr shp|tp bu ag mi [te|]|cp]; cbn [kind_along].
  - eapply rel2_bind; [apply make_sheets_moved, H|]. intros l ? [<- Hl]. cbn. repeat split. constructor. exact Hl.
  - cbn. repeat split. exact Ho.
  - cbn. repeat split. exact Ho.
  - contradiction.
Qed.

(** ** Strata *)
Definition free_params (fp : full_params) : Prop := Forall origin_free (fp_types fp).
Lemma choose_map {A B} (f : A -> B) l k : choose (map f l) k = let* x := choose l k in Ok (f x).
Proof. unfold choose. rewrite nth_error_map. destruct (nth_error l k); reflexivity. Qed.
Lemma choose_Forall {A} (P : A -> Prop) l k x : Forall P l -> choose l k = Ok x -> P x.
Proof.
  unfold choose. destruct (nth_error l k) eqn:E; [|discriminate]. intros H [= <-]. rewrite Forall_forall in H. apply H, (nth_error_In _ _ E).
Qed.
Definition moved_loop (r r' : store R * (R * R * list (ae R * objects))) : Prop :=
  fst r' = fst r /\ fst (snd r') = fst (snd r) /\ Forall2 moved_ae (snd (snd r)) (snd (snd r')).
Lemma stratum_loop_moved fuel fp bot : free_params fp -> forall draws st top curr znow lo hi aes aes', Forall2 moved_ae aes aes' ->
  rel2 moved_loop (full_stratum_loop g fuel fp bot draws st top curr znow lo hi aes)
                  (full_stratum_loop g' fuel (params_along a b fp) bot draws st top curr znow lo hi aes').
Proof.
  intros F. induction draws as [|d draws IH]; intros st top curr znow lo hi aes aes' HA; cbn [full_stratum_loop]; apply rel2_same; intros sbot _;
    (destruct (Rleb znow _); [cbn; repeat split; exact HA|]); [reflexivity|].
  cbn [params_along fp_types fp_avul_prob fp_bg]. rewrite !choose_map.
  destruct (choose (fp_types fp) curr) as [ty|] eqn:Ety; cbn [bind]; [|reflexivity].
  destruct (choose (fp_types fp) (fd_next d)) as [nx|] eqn:Enx; cbn [bind]; [|reflexivity].
  rewrite columns_moved. cbn [type_along ft_contact]. apply rel2_same. intros [[zn st1] ab] _.
  apply rel2_same. intros st2 _. apply rel2_same. intros st3 _.
  eapply rel2_bind; [apply full_ae_moved; eapply choose_Forall; eauto|].
  intros [st4 eo] [st4' eo'] [E1 [E2 E3]]. cbn [fst snd] in E1, E2, E3. subst st4'. rewrite E2. apply IH.
  apply Forall2_app; [exact HA|]. constructor; [split; assumption|constructor].
Qed.
Definition moved_stratum (s s' : full_stratum) : Prop := fst s' = fst s /\ Forall2 moved_objects (snd s) (snd s').
Lemma moved_fst l l' : Forall2 moved_ae l l' -> map fst l' = map fst l.
Proof. induction 1 as [|x x' l l' [E _] _ IH]; cbn; [reflexivity|]. rewrite E, IH. reflexivity. Qed.
Lemma moved_snd l l' : Forall2 moved_ae l l' -> Forall2 moved_objects (map snd l) (map snd l').
Proof. induction 1 as [|x x' l l' [_ E] _ IH]; cbn; constructor; auto. Qed.
Lemma new_full_stratum_moved fuel fp first draws st bottom top : free_params fp ->
  rel2 (fun r r' => fst r' = fst r /\ moved_stratum (snd r) (snd r')) (new_full_stratum g fuel fp first draws st bottom top)
       (new_full_stratum g' fuel (params_along a b fp) first draws st bottom top).
Proof.
  intros F. unfold new_full_stratum. apply rel2_same. intros sb _. apply rel2_same. intros sp _.
  eapply rel2_bind; [apply (stratum_loop_moved fuel fp bottom F draws st top first _ _ _ [] []); constructor|].
  intros [st1 [[lo hi] l]] [st1' [[lo' hi'] l']] [E1 [E2 E3]]. cbn in E1, E2, E3. injection E2 as -> ->. subst.
  cbn. split; [reflexivity|]. split; cbn; [rewrite (moved_fst _ _ E3); reflexivity|apply moved_snd, E3].
Qed.

Lemma pyget_along params i :
  pyget (map (params_along a b) params) i = let* fp := pyget params i in Ok (params_along a b fp).
Proof.
  unfold pyget. rewrite map_length. destruct (pyidx _ _) as [k|]; [|reflexivity]. rewrite nth_error_map. destruct (nth_error params k); reflexivity.
Qed.
Lemma pyget_In {A} (l : list A) i x : pyget l i = Ok x -> In x l.
Proof. unfold pyget. destruct (pyidx _ _); [|discriminate]. destruct (nth_error l n) eqn:E; [|discriminate]. intros [= <-]. eapply nth_error_In, E. Qed.

Definition moved_result (r r' : store R * list full_stratum) : Prop := fst r' = fst r /\ Forall2 moved_stratum (snd r) (snd r').
Lemma model_loop_moved fuel contacts params n : Forall free_params params -> forall draws si st top strata strata', Forall2 moved_stratum strata strata' ->
  rel2 moved_result (full_model_loop g fuel contacts params n draws si st top strata)
                    (full_model_loop g' fuel contacts (map (params_along a b) params) n draws si st top strata').
Proof.
  intros F. induction draws as [|sd draws IH]; intros si st top strata strata' HS; cbn [full_model_loop].
  - destruct (Nat.eqb si n); [cbn; split; auto|reflexivity].
  - rewrite columns_moved, (mg_z0 _ _ M). apply rel2_same. intros s _. destruct (alloc st s) as [st1 bottom].
    apply rel2_same. intros st2 _. rewrite pyget_along. destruct (pyget params _) as [fp|] eqn:E; cbn [bind]; [|reflexivity].
    eapply rel2_bind; [apply new_full_stratum_moved; rewrite Forall_forall in F; apply F, (pyget_In _ _ _ E)|].
    intros [st3 x] [st3' x'] [E1 E2]. cbn [fst snd] in E1, E2. subst st3'. apply IH. apply Forall2_app; [exact HS|]. constructor; [exact E2|constructor].
Qed.
Lemma full_generate_moved fuel contacts params draws : Forall free_params params ->
  rel2 moved_result (full_generate g fuel contacts params draws) (full_generate g' fuel contacts (map (params_along a b) params) draws).
Proof.
  intros F. unfold full_generate. rewrite columns_moved, (mg_lz _ _ M), map_length. apply rel2_same. intros s _. destruct (alloc [] s) as [st top].
  apply model_loop_moved; [exact F|constructor].
Qed.

(** ** Cells *)
Section Pull.
Context {D : Type}.
Definition pull_obj (o : aobj R D) : aobj R D := mkAobj (o_zmin o) (o_zmax o) (fun d p => o_check o d (along a b p)).
Definition pull_elem (e : aelem R D) : aelem R D :=
  mkAelem (e_num e) (e_type e) (e_sheet e) (e_bottom e) (e_top e) (e_bg_facies e) (e_bg_azim e) (e_bg_dip e) (e_zmin e) (map pull_obj (e_objs e)).
Definition pull (s : astrat R D) : astrat R D := mkAstrat (t_zmin s) (map pull_elem (t_aes s)).
Lemma scan_objs_pull e p l : forall oi d i, scan_objs e (along a b p) l oi d i = scan_objs (pull_elem e) p (map pull_obj l) oi d i.
Proof.
  induction l as [|o l IH]; intros oi d i; [reflexivity|]. cbn [scan_objs map pull_obj o_zmax o_zmin o_check along p_z].
  destruct (_ <? _)%num; [reflexivity|]. destruct (_ <? _)%num; [apply IH|]. fold (along a b p).
  destruct (o_check o d (along a b p)) as [d1 w]. destruct (found _); [reflexivity|apply IH].
Qed.
Lemma assign_ae_pull e p oi d i : assign_ae e (along a b p) oi d i = assign_ae (pull_elem e) p oi d i.
Proof. unfold assign_ae. rewrite scan_objs_pull. cbn [pull_elem e_objs]. rewrite skipn_map. reflexivity. Qed.
Lemma scan_aes_pull p l : forall aei oi d i, scan_aes (along a b p) l aei oi d i = scan_aes p (map pull_elem l) aei oi d i.
Proof.
  induction l as [|e l IH]; intros aei oi d i; [reflexivity|]. cbn [scan_aes map pull_elem e_zmin along p_z].
  destruct (_ <? _)%num; [apply IH|]. fold (along a b p). fold (pull_elem e). rewrite assign_ae_pull.
  destruct (assign_ae _ _ _ _ _) as [[d1 i1] oi1]. destruct (found i1); [reflexivity|apply IH].
Qed.
Lemma scan_strata_pull p l : forall si aei oi d i, scan_strata (along a b p) l si aei oi d i = scan_strata p (map pull l) si aei oi d i.
Proof.
  induction l as [|s l IH]; intros si aei oi d i; [reflexivity|]. cbn [scan_strata map pull t_zmin along p_z].
  destruct (_ <? _)%num; [apply IH|]. fold (along a b p). fold (pull s). unfold assign_stratum. rewrite scan_aes_pull.
  cbn [pull t_aes]. rewrite skipn_map.
  destruct (scan_aes _ _ _ _ _ _) as [[d1 i1] [aei1 oi1]]. destruct (found i1); [reflexivity|apply IH].
Qed.
Lemma tower_pull m ps : forall c d, tower m (map (along a b) ps) c d = tower (map pull m) ps c d.
Proof.
  induction ps as [|p ps IH]; intros [[si aei] oi] d; [reflexivity|]. cbn [map tower]. unfold assign_cell.
  rewrite scan_strata_pull, skipn_map. destruct (scan_strata _ _ _ _ _ _ _) as [[d1 r] c1]. rewrite IH. reflexivity.
Qed.
Lemma towers_pull m cols : forall d, towers m (map (map (along a b)) cols) d = towers (map pull m) cols d.
Proof.
  induction cols as [|ps cols IH]; intros d; [reflexivity|]. cbn [map towers]. rewrite tower_pull. destruct (tower _ _ _ _). rewrite IH. reflexivity.
Qed.
Lemma combine_map_r {A B C} (f : B -> C) (l : list A) : forall m, combine l (map f m) = map (fun q => (fst q, f (snd q))) (combine l m).
Proof. induction l as [|x l IH]; intros [|y m]; cbn; [reflexivity..|]. rewrite IH. reflexivity. Qed.
Lemma grid_towers_moved (xs ys zs : list R) :
  grid_towers (map (fun x => x + a) xs) (map (fun y => y + b) ys) zs = map (map (along a b)) (grid_towers xs ys zs).
Proof.
  unfold grid_towers. rewrite !map_length, !combine_map_r, !flat_map_concat_map, concat_map, !map_map. f_equal. apply map_ext. intros ix.
  rewrite !map_map. apply map_ext. intros jy. cbn [fst snd]. unfold tower_points. rewrite map_map. reflexivity.
Qed.
Lemma assign_points_pull m xs ys zs d i j k :
  assign_points m (map (fun x => x + a) xs) (map (fun y => y + b) ys) zs d i j k = assign_points (map pull m) xs ys zs d i j k.
Proof. unfold assign_points. rewrite grid_towers_moved, towers_pull, map_length. reflexivity. Qed.

Variable ny : nat.
Variables (ty : nat -> nat -> Z) (look : nat -> nat -> point R -> write R) (probe : nat -> nat -> D -> point R -> D * option (write R)).
Let look' num oi p := look num oi (along a b p).
Let probe' num oi d p := probe num oi d (along a b p).
Lemma to_objs_pull num l : forall oi cs, map pull_obj (to_objs ny look probe num oi l cs) = to_objs ny look' probe' num oi l cs.
Proof.
  induction l as [|o l IH]; intros oi [|c cs]; [reflexivity..|]. cbn [to_objs map]. rewrite IH. f_equal.
  destruct (ob_surfaces o); reflexivity.
Qed.
Lemma to_aelems_pull st si l : forall num, map pull_elem (to_aelems ny ty look probe st si num l) = to_aelems ny ty look' probe' st si num l.
Proof.
  induction l as [|e l IH]; intros num; [reflexivity|]. cbn [to_aelems map]. rewrite IH. f_equal. unfold to_aelem, pull_elem. cbn.
  rewrite to_objs_pull. reflexivity.
Qed.
Lemma to_model_pull st l : forall si num, map pull (to_model ny ty look probe st si num l) = to_model ny ty look' probe' st si num l.
Proof.
  induction l as [|s l IH]; intros si num; [reflexivity|]. cbn [to_model map]. rewrite IH. f_equal. unfold pull. cbn. rewrite to_aelems_pull. reflexivity.
Qed.
End Pull.

Variables (dm : domain) (cg : cgrid) (wild wild' : nat -> nat -> point R -> Z).
Hypothesis W : forall num oi p, wild' num oi (along a b p) = wild num oi p.
Lemma offset_moved t p : offset dm (move_trough t) (along a b p) = offset dm t p.
Proof.
  unfold offset. cbn [move_trough along p_x p_y p_z tr_x tr_y tr_z].
  replace (p_x p + a - (tr_x t + a)) with (p_x p - tr_x t) by ring. replace (p_y p + b - (tr_y t + b)) with (p_y p - tr_y t) by ring. reflexivity.
Qed.
Lemma trough_check_moved num oi t d p : trough_check dm wild' num oi (move_trough t) d (along a b p) = trough_check dm wild num oi t d p.
Proof.
  unfold trough_check. f_equal. unfold trough_assign. rewrite offset_moved. destruct (offset dm t p) as [[dx dy] dz]. rewrite W. reflexivity.
Qed.
Lemma table_moved l l' : Forall2 moved_stratum l l' -> Forall2 moved_objects (object_table l) (object_table l').
Proof. unfold object_table. induction 1 as [|s s' l l' [_ E] _ IH]; cbn; [constructor|]. apply Forall2_app; assumption. Qed.
Lemma Forall2_nth {A B} (P : A -> B -> Prop) l l' n : Forall2 P l l' ->
  match nth_error l n, nth_error l' n with Some x, Some y => P x y | None, None => True | _, _ => False end.
Proof. intros H. revert n. induction H; intros [|n]; cbn; auto. apply IHForall2. Qed.
Lemma look_moved tab tab' : Forall2 moved_objects tab tab' -> forall num oi p, look_of wild' tab' num oi (along a b p) = look_of wild tab num oi p.
Proof.
  intros H num oi p. unfold look_of. pose proof (Forall2_nth _ _ _ num H) as K. rewrite !W.
  destruct (nth_error tab num) as [o|], (nth_error tab' num) as [o'|]; try contradiction; [|reflexivity].
  destruct K as [l Hl|l]; [|reflexivity]. destruct (nth_error l oi) as [sh|] eqn:E; [|reflexivity].
  rewrite Forall_forall in Hl. destruct (Hl sh (nth_error_In _ _ E)) as [Hx Hy].
  assert (sheet_write (row_width l) sh 0 (along a b p) = sheet_write (row_width l) sh 0 p) as ->; [|reflexivity].
  unfold sheet_write, sheet_layer. rewrite Hx, Hy. cbn [along p_x p_y p_z]. rewrite !Rmult_0_l. reflexivity.
Qed.
Lemma probe_moved tab tab' : Forall2 moved_objects tab tab' -> forall num oi d p,
  probe_of dm cg wild' tab' num oi d (along a b p) = probe_of dm cg wild tab num oi d p.
Proof.
  intros H num oi d p. unfold probe_of. pose proof (Forall2_nth _ _ _ num H) as K.
  destruct (nth_error tab num) as [o|], (nth_error tab' num) as [o'|]; try contradiction; [|reflexivity].
  destruct K as [l Hl|l]; [reflexivity|]. rewrite nth_error_map. destruct (nth_error l oi) as [t|]; cbn [option_map]; [|reflexivity].
  apply trough_check_moved.
Qed.
Lemma strata_fst l l' : Forall2 moved_stratum l l' -> map fst l' = map fst l.
Proof. induction 1 as [|s s' l l' [E _] _ IH]; cbn; [reflexivity|]. rewrite E, IH. reflexivity. Qed.
Lemma type_id_along params : type_id_of (map (params_along a b) params) = type_id_of params.
Proof.
  extensionality si. extensionality kind. unfold type_id_of. rewrite pyget_along. destruct (pyget params _); cbn [bind]; [|reflexivity].
  cbn [params_along fp_types]. rewrite nth_error_map. destruct (nth_error _ kind); reflexivity.
Qed.
Lemma arrays_moved params st strata strata' (xs ys zs : list R) : Forall2 moved_stratum strata strata' -> forall i j k,
  full_arrays dm cg wild' (map (params_along a b) params) st strata' (map (fun x => x + a) xs) (map (fun y => y + b) ys) zs i j k =
  full_arrays dm cg wild params st strata xs ys zs i j k.
Proof.
  intros H i j k. unfold full_arrays. rewrite assign_points_pull, to_model_pull, map_length, (strata_fst _ _ H), type_id_along.
  pose proof (table_moved _ _ H) as HT.
  replace (fun num oi p => look_of wild' (object_table strata') num oi (along a b p)) with (look_of wild (object_table strata))
    by (extensionality num; extensionality oi; extensionality p; symmetry; apply look_moved, HT).
  replace (fun num oi d p => probe_of dm cg wild' (object_table strata') num oi d (along a b p)) with (probe_of dm cg wild (object_table strata))
    by (extensionality num; extensionality oi; extensionality d; extensionality p; symmetry; apply probe_moved, HT).
  reflexivity.
Qed.
End Move.
