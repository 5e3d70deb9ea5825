(** Another unit of length: generation commutes with it. *)
From Coq Require Import List ZArith Bool Ascii String Reals Lra Lia.
From Verif Require Import Base Num ParseModel ConfigModel FaciesModel SurfaceModel StrataModel AssignModel BuildModel TroughModel SheetModel ChannelModel
  FullModel OriginProofs UnitSpec.
Import ListNotations.
Local Open Scope R_scope.

Section Scale.
Variable c : R.
Hypothesis Hc : 0 < c.

(** ** Numbers *)
Lemma Rleb_sc x y : Rleb (c * x) (c * y) = Rleb x y.
Proof. destruct (Rleb_spec x y) as [H|H]; [apply Rleb_true|apply Rleb_false]; nra. Qed.
Lemma Rltb_sc x y : Rltb (c * x) (c * y) = Rltb x y.
Proof. unfold Rltb. rewrite Rleb_sc. reflexivity. Qed.
Lemma Rleb_sc0 x : Rleb (c * x) 0 = Rleb x 0.
Proof. rewrite <- (Rleb_sc x 0), Rmult_0_r. reflexivity. Qed.
Lemma Rleb_0sc x : Rleb 0 (c * x) = Rleb 0 x.
Proof. rewrite <- (Rleb_sc 0 x), Rmult_0_r. reflexivity. Qed.
Lemma div_sc x y : (c * x) / (c * y) = x / y.
Proof. unfold Rdiv. rewrite Rinv_mult. transitivity (c * / c * (x * / y)); [ring|]. rewrite Rinv_r by lra. ring. Qed.
Lemma max3_sc x y z : max3 (c * x) (c * y) (c * z) = c * max3 x y z.
Proof. unfold max3. rewrite !RmaxRmult by lra. reflexivity. Qed.
Lemma uniform_sc x y u : uniform (c * x) (c * y) u = c * uniform x y u.
Proof. unfold uniform. numR. ring. Qed.
Lemma if_sc (b : bool) x y : (if b then c * x else c * y) = c * (if b then x else y).
Proof. destruct b; reflexivity. Qed.

Notation mc := (map (Rmult c)).
Lemma arange_sc (s e d : R) : arange (c * s) (c * e) (c * d) = let* l := arange s e d in Ok (mc l).
Proof.
  unfold arange. numR. rewrite Rleb_sc0, Rleb_0sc. destruct (_ && _); cbn [bind]; [reflexivity|].
  replace (c * e - c * s) with (c * (e - s)) by ring. rewrite div_sc, map_map. f_equal. apply map_ext. intros i. ring.
Qed.
Lemma centres_sc (x0 dx lx : R) : centres (c * x0) (c * dx) (c * lx) = let* l := centres x0 dx lx in Ok (mc l).
Proof. unfold centres. rewrite <- arange_sc. unfold two. numR. f_equal; field. Qed.

(** ** Grids *)
Definition grid_in (g : grid R) : grid R :=
  mkGrid (c * g_x0 g) (c * g_y0 g) (c * g_z0 g) (c * g_dx g) (c * g_dy g) (c * g_dz g) (c * g_lx g) (c * g_ly g) (c * g_lz g)
    (mc (g_x g)) (mc (g_y g)) (mc (g_z g)).
Lemma grid_sc x0 y0 z0 dx dy dz lx ly lz :
  grid_init (c * x0) (c * y0) (c * z0) (c * dx) (c * dy) (c * dz) (c * lx) (c * ly) (c * lz) =
  let* g := grid_init x0 y0 z0 dx dy dz lx ly lz in Ok (grid_in g).
Proof.
  unfold grid_init. rewrite !centres_sc.
  destruct (centres x0 dx lx) as [xs|]; cbn [bind]; [|reflexivity].
  destruct (centres y0 dy ly) as [ys|]; cbn [bind]; [|reflexivity].
  destruct (centres z0 dz lz) as [zs|]; reflexivity.
Qed.
Lemma columns_sc g : columns (grid_in g) = columns g.
Proof. unfold columns. cbn. rewrite !map_length. reflexivity. Qed.

(** ** Surfaces *)
Notation ms := (map (surface_in c)).
Lemma fold_min_sc l : forall x, fold_left nmin (mc l) (c * x) = c * fold_left nmin l x.
Proof.
  induction l as [|y l IH]; intros x; [reflexivity|]. cbn [map fold_left]. rewrite <- IH. f_equal. unfold nmin. numR. rewrite Rleb_sc. apply if_sc.
Qed.
Lemma fold_max_sc l : forall x, fold_left nmax (mc l) (c * x) = c * fold_left nmax l x.
Proof.
  induction l as [|y l IH]; intros x; [reflexivity|]. cbn [map fold_left]. rewrite <- IH. f_equal. unfold nmax. numR. rewrite Rleb_sc. apply if_sc.
Qed.
Lemma list_min_sc l : list_min (mc l) = let* x := list_min l in Ok (c * x).
Proof. destruct l as [|x l]; [reflexivity|]. cbn [map list_min bind]. rewrite fold_min_sc. reflexivity. Qed.
Lemma list_max_sc l : list_max (mc l) = let* x := list_max l in Ok (c * x).
Proof. destruct l as [|x l]; [reflexivity|]. cbn [map list_max bind]. rewrite fold_max_sc. reflexivity. Qed.
Lemma list_mean_sc l : list_mean (mc l) = c * list_mean l.
Proof.
  unfold list_mean. rewrite map_length. numR.
  assert (forall a, fold_left Rplus (mc l) (c * a) = c * fold_left Rplus l a) as K.
  { induction l as [|y l IH]; intros a; [reflexivity|]. cbn [map fold_left]. rewrite <- IH. f_equal. ring. }
  rewrite <- (Rmult_0_r c) at 1. rewrite K. unfold Rdiv. ring.
Qed.
Lemma new_surface_sc n cm f : new_surface n (contact_in c cm) (mc f) = let* s := new_surface n cm f in Ok (surface_in c s).
Proof.
  unfold new_surface. destruct cm as [m [z|] r]; cbn [contact_in cm_z cm_mode cm_random option_map]; [|reflexivity].
  destruct (pystr_eqb m (S_ "random")).
  - destruct r as [[[v lx] ly]|]; cbn [option_map]; [|reflexivity].
    assert (map (fun x => (x + c * z)%num) (mc f) = mc (map (fun x => (x + z)%num) f)) as K
      by (rewrite !map_map; apply map_ext; intros x; numR; ring). numR. rewrite K. clear K.
    rewrite list_max_sc, list_min_sc, list_mean_sc.
    destruct (list_max _); cbn [bind]; [|reflexivity]. destruct (list_min _); reflexivity.
  - destruct (pystr_eqb m (S_ "flat")); [|reflexivity]. cbn [bind]. unfold surface_in. cbn. do 2 f_equal.
    induction n as [|n IH]; [reflexivity|]. cbn. rewrite IH. reflexivity.
Qed.
Lemma flat_sc n z : new_surface n (flat_contact (c * z)) [] = let* s := new_surface n (flat_contact z) [] in Ok (surface_in c s).
Proof. rewrite <- new_surface_sc. reflexivity. Qed.
Lemma set_z_sc cm z : set_z (contact_in c cm) (c * z) = contact_in c (set_z cm z).
Proof. reflexivity. Qed.
Lemma getS_sc st a : getS (ms st) a = let* s := getS st a in Ok (surface_in c s).
Proof. unfold getS. rewrite nth_error_map. destruct (nth_error st a); reflexivity. Qed.
Lemma alloc_sc st s : alloc (ms st) (surface_in c s) = (ms (fst (alloc st s)), snd (alloc st s)).
Proof. unfold alloc. cbn. rewrite map_app, map_length. reflexivity. Qed.
Lemma zip_sc (f : R -> R -> R) : (forall x y, f (c * x) (c * y) = c * f x y) -> forall l m, zip_with f (mc l) (mc m) = mc (zip_with f l m).
Proof. intros H. induction l as [|x l IH]; intros [|y m]; [reflexivity..|]. cbn. rewrite H, IH. reflexivity. Qed.
Lemma upd_map {A B} (f : A -> B) l : forall k x, upd (map f l) k (f x) = map f (upd l k x).
Proof. induction l as [|y l IH]; intros [|k] x; [reflexivity..|]. cbn. rewrite IH. reflexivity. Qed.
Lemma use_lower_sc st a b : use_lower (ms st) a b = let* r := use_lower st a b in Ok (ms r).
Proof.
  unfold use_lower. rewrite !getS_sc. destruct (getS st a) as [sa|]; cbn [bind]; [|reflexivity]. destruct (getS st b) as [sb|]; cbn [bind]; [|reflexivity].
  cbn [surface_in vals zmean zmax]. rewrite zip_sc by (intros x y; numR; rewrite Rleb_sc; apply if_sc).
  rewrite list_min_sc. destruct (list_min _) as [m|]; cbn [bind]; [|reflexivity]. rewrite <- upd_map. reflexivity.
Qed.
Lemma use_higher_sc st a b : use_higher (ms st) a b = let* r := use_higher st a b in Ok (ms r).
Proof.
  unfold use_higher. rewrite !getS_sc. destruct (getS st a) as [sa|]; cbn [bind]; [|reflexivity]. destruct (getS st b) as [sb|]; cbn [bind]; [|reflexivity].
  cbn [surface_in vals zmean zmin]. rewrite zip_sc by (intros x y; numR; rewrite Rleb_sc; apply if_sc).
  rewrite list_max_sc. destruct (list_max _) as [m|]; cbn [bind]; [|reflexivity]. rewrite <- upd_map. reflexivity.
Qed.

(** ** Sheets: surfaces *)
Definition acc_in (a : list (object R) * R * R) : list (object R) * R * R :=
  let '(l, lo, hi) := a in (map (object_in c) l, c * lo, c * hi).
Lemma add_object_sc o a : add_object (object_in c o) (acc_in a) = acc_in (add_object o a).
Proof.
  destruct a as [[l lo] hi]. cbn [acc_in add_object object_in ob_zmin ob_zmax]. numR. rewrite !Rleb_sc, map_app, !if_sc. reflexivity.
Qed.
Definition loop_in (r : store R * (list (object R) * R * R)) : store R * (list (object R) * R * R) := (ms (fst r), acc_in (snd r)).
Lemma sheet_loop_sc n bottom th : forall fuel st top z a,
  sheet_loop fuel n (ms st) bottom top (c * th) (c * z) (acc_in a) = let* r := sheet_loop fuel n st bottom top th z a in Ok (loop_in r).
Proof.
  induction fuel as [|fuel IH]; intros st top z a; [reflexivity|]. cbn [sheet_loop].
  destruct a as [[l lo] hi] eqn:Ea. cbn [acc_in]. numR. rewrite Rleb_sc.
  destruct (negb _).
  - rewrite flat_sc. destruct (new_surface n (flat_contact z) []) as [s|]; cbn [bind]; [|reflexivity].
    rewrite alloc_sc. destruct (alloc st s) as [st1 b]. cbn [fst snd].
    rewrite use_lower_sc. destruct (use_lower st1 b top) as [st2|]; cbn [bind]; [|reflexivity].
    rewrite use_higher_sc. destruct (use_higher st2 top bottom) as [st3|]; cbn [bind]; [|reflexivity].
    rewrite !getS_sc. destruct (getS st3 b) as [sb|]; cbn [bind]; [|reflexivity]. destruct (getS st3 top) as [sp|]; cbn [bind]; [|reflexivity].
    replace (c * z - c * th) with (c * (z - th)) by ring. rewrite <- IH. f_equal.
    exact (add_object_sc (mkObject (zmin sb) (zmax sp) (Some (b, top))) (l, lo, hi)).
  - rewrite !getS_sc. destruct (getS st bottom) as [sb|]; cbn [bind]; [|reflexivity]. destruct (getS st top) as [sp|]; cbn [bind]; [|reflexivity].
    unfold loop_in. cbn [fst snd]. do 2 f_equal. exact (add_object_sc (mkObject (zmin sb) (zmax sp) (Some (bottom, top))) (l, lo, hi)).
Qed.
Definition copy_in (q : list R * list R) : list R * list R := (mc (fst q), mc (snd q)).
Lemma copies_sc st l : mapM (copy_object (ms st)) (map (object_in c) l) = let* r := mapM (copy_object st) l in Ok (map copy_in r).
Proof.
  induction l as [|o l IH]; [reflexivity|]. cbn [map mapM]. rewrite IH. clear IH. unfold copy_object at 1 3. cbn [object_in ob_surfaces].
  destruct (ob_surfaces o) as [[b t]|].
  - rewrite !getS_sc. destruct (getS st b) as [sb|]; cbn [bind]; [|reflexivity]. destruct (getS st t) as [sp|]; cbn [bind]; [|reflexivity].
    destruct (mapM _ l); reflexivity.
  - cbn [bind]. destruct (mapM _ l); reflexivity.
Qed.
Lemma interp2_sc x a b f0 f1 : interp2 (c * x) (c * a) (c * b) f0 f1 = interp2 x a b f0 f1.
Proof.
  unfold interp2. numR. rewrite !Rleb_sc. replace (c * x - c * a) with (c * (x - a)) by ring. replace (c * b - c * a) with (c * (b - a)) by ring.
  rewrite div_sc. reflexivity.
Qed.
Lemma thickness_sc g lens tr lo hi : lens = -1 \/ 0 <= lens ->
  sheet_thickness (grid_in g) (lens_in c lens) tr (c * lo) (c * hi) = c * sheet_thickness g lens tr lo hi.
Proof.
  intros H. unfold sheet_thickness, lens_in, neqb. numR. destruct (Req_EM_T lens (-1)) as [E|E].
  - subst lens. assert (Rleb (-1) (0 - 1) = true) as -> by (apply Rleb_true; lra). assert (Rleb (0 - 1) (-1) = true) as -> by (apply Rleb_true; lra).
    cbn [andb]. ring.
  - destruct H as [H|H]; [contradiction|].
    assert (Rleb (c * lens) (0 - 1) = false) as -> by (apply Rleb_false; nra). assert (Rleb lens (0 - 1) = false) as -> by (apply Rleb_false; lra).
    cbn [andb]. destruct tr as [[f0 f1]|]; [|reflexivity]. unfold g_zmax. cbn [grid_in g_z0 g_lz]. numR.
    replace ((c * lo + c * hi) / (1 + 1)) with (c * ((lo + hi) / (1 + 1))) by field. rewrite <- Rmult_plus_distr_l, interp2_sc. ring.
Qed.

(** ** Sheets: layers *)
Definition sheet_in (s : sheet) : sheet :=
  mkSheet (sh_dipsets s) (c * sh_layer_dist s) (c * sh_shift s) (sh_nx s) (sh_ny s) (sh_nz s) (sh_azim s) (sh_dip s) (sh_facies s) (sh_num s) (sh_array s).
Lemma new_sheet_sc t g zc d : new_sheet (sheet_type_in c t) (grid_in g) (c * zc) d = let* s := new_sheet t g zc d in Ok (sheet_in s).
Proof.
  unfold new_sheet. cbn [sheet_type_in st_structure st_facies st_altfacies st_azimuth st_dip st_dipset_dist grid_in g_x0 g_y0 g_lx g_ly g_lz].
  destruct (pystr_eqb _ _).
  - set (az := uniform _ _ _). set (dp := uniform _ _ _). rewrite max3_sc.
    set (sh := _ + _ * st_dipset_dist t).
    match goal with |- context [c * max3 _ _ _ + ?s] => replace s with (c * sh) by (unfold sh; field) end.
    rewrite <- Rmult_plus_distr_l, div_sc. destruct (alternating_facies _ _ _ _); reflexivity.
  - destruct (choice _ _); cbn [bind]; [|reflexivity]. unfold sheet_in. cbn. rewrite Rmult_0_r. reflexivity.
Qed.
Lemma make_sheets_sc g st t l : forall ds,
  make_sheets (grid_in g) (ms st) (sheet_type_in c t) (map (object_in c) l) ds = let* r := make_sheets g st t l ds in Ok (map sheet_in r).
Proof.
  induction l as [|o l IH]; intros [|d ds]; [reflexivity..|]. cbn [map make_sheets object_in ob_surfaces].
  destruct (ob_surfaces o) as [[b tp]|]; [|reflexivity]. rewrite getS_sc. destruct (getS st b) as [s|]; cbn [bind]; [|reflexivity].
  cbn [surface_in zmean]. rewrite new_sheet_sc. destruct (new_sheet _ _ _ _); cbn [bind]; [|reflexivity].
  rewrite IH. destruct (make_sheets g st t l ds); reflexivity.
Qed.

(** ** Troughs *)
Definition trough_in (t : trough) : trough :=
  mkTrough (c * tr_x t) (c * tr_y t) (c * tr_z t) (c * tr_a t) (c * tr_b t) (c * tr_c t) (c * tr_max_ab t) (c * tr_zmin t) (c * tr_zmax t)
    (tr_sin t) (tr_cos t) (c * tr_lag t) (tr_lag_facies t) (tr_structure t) (c * tr_layer_dist t)
    (if (tr_structure t =? 1)%Z then c * tr_shift t else tr_shift t) (tr_nx t) (tr_ny t) (tr_nz t)
    (tr_facies t) (tr_azim t) (tr_dip t) (tr_num_facies t) (tr_array t).
Lemma new_trough_sc tt x y z ea eb ec alpha d :
  new_trough (trough_type_in c tt) (c * x) (c * y) (c * z) (c * ea) (c * eb) (c * ec) alpha d = let* t := new_trough tt x y z ea eb ec alpha d in Ok (trough_in t).
Proof.
  unfold new_trough. cbn [trough_type_in tt_structure tt_facies tt_altfacies tt_azimuth tt_dip tt_lag_height tt_lag_facies tt_dipset_dist tt_bulbset_dist].
  rewrite RmaxRmult by lra. rewrite <- Rmult_minus_distr_l.
  destruct (structure_code _ _) as [s|]; cbn [bind]; [|reflexivity].
  destruct (s =? 0)%Z; [destruct (choice _ _); [cbn [bind]; unfold trough_in; cbn; rewrite Rmult_0_r; reflexivity|reflexivity]|].
  destruct (s =? 1)%Z.
  { assert (forall u, uniform 0 (c * tt_dipset_dist tt) u = c * uniform 0 (tt_dipset_dist tt) u) as -> by (intros u; unfold uniform; numR; ring).
    rewrite max3_sc. set (sh := uniform 0 _ _). replace (2 * (c * max3 ea eb ec) + c * sh) with (c * (2 * max3 ea eb ec + sh)) by ring.
    rewrite div_sc. destruct (alternating_facies _ _ _ _); reflexivity. }
  destruct (s =? 2)%Z; [destruct (choice _ _); [cbn [bind]; unfold trough_in; cbn; rewrite Rmult_0_r; reflexivity|reflexivity]|].
  set (sh := uniform 0 1 _). replace ((1 + sh) * (c * ec)) with (c * ((1 + sh) * ec)) by ring. rewrite div_sc.
  destruct (alternating_facies _ _ _ _); reflexivity.
Qed.
Lemma zfactor_sc tr z z0 lz : zfactor tr (c * z) (c * z0) (c * lz) = zfactor tr z z0 lz.
Proof.
  unfold zfactor. destruct tr as [[t0 t1]|]; [|reflexivity]. numR. f_equal.
  replace ((c * z - c * z0) * (t1 - t0)) with (c * ((z - z0) * (t1 - t0))) by ring. apply div_sc.
Qed.
Lemma make_trough_sc tp g pos d :
  make_trough (trough_params_in c tp) (grid_in g) (pos_in c pos) d = let* t := make_trough tp g pos d in Ok (trough_in t).
Proof.
  destruct pos as [[x y] z]. unfold make_trough, trough_size. cbn [pos_in trough_params_in tp_length tp_width tp_depth tp_trend tp_paleoflow tp_type grid_in g_z0 g_lz].
  rewrite zfactor_sc, <- new_trough_sc. unfold two. numR. f_equal; field.
Qed.
Lemma make_troughs_sc tp g te : forall ds,
  make_troughs (trough_params_in c tp) (grid_in g) (map (pos_in c) te) ds = let* l := make_troughs tp g te ds in Ok (map trough_in l).
Proof.
  induction te as [|pos te IH]; intros [|d ds]; try reflexivity. cbn [map make_troughs]. rewrite make_trough_sc.
  destruct (make_trough tp g pos d) as [t|]; cbn [bind]; [|reflexivity]. rewrite IH. destruct (make_troughs tp g te ds); reflexivity.
Qed.
Lemma migrate_sc i total z (d : nat -> R * R) n : forall k te,
  migrate_plane i total (c * z) (fun k => (c * fst (d k), c * snd (d k))) n k (map (pos_in c) te) = let* l := migrate_plane i total z d n k te in Ok (map (pos_in c) l).
Proof.
  induction n as [|n IH]; intros k te; [reflexivity|]. cbn [migrate_plane].
  rewrite nth_error_map. destruct (nth_error te _) as [[[x y] z0]|]; cbn [option_map pos_in]; [|reflexivity].
  rewrite <- IH, map_app. cbn [map pos_in fst snd]. numR. rewrite !Rmult_plus_distr_l. reflexivity.
Qed.
Lemma plane_loop_sc g migrate zs : forall ds i total te,
  plane_loop (grid_in g) migrate (mc zs) (map (plane_in c) ds) i total (map (pos_in c) te) = let* l := plane_loop g migrate zs ds i total te in Ok (map (pos_in c) l).
Proof.
  induction zs as [|z zs IH]; intros ds i total te; [reflexivity|]. destruct ds as [|d ds]; [reflexivity|]. cbn [map plane_loop plane_in pd_uniform pd_normal].
  destruct (_ || _).
  - rewrite <- IH, map_app, map_map. do 2 f_equal. apply map_ext. intros [u v]. cbn [fst snd pos_in grid_in g_x0 g_y0 g_lx g_ly].
    unfold uniform. numR. apply (f_equal2 pair); [apply (f_equal2 pair); ring|reflexivity].
  - rewrite migrate_sc. destruct (migrate_plane _ _ _ _ _ _ _) as [l|]; cbn [bind]; [apply IH|reflexivity].
Qed.

(** ** Elements *)
Definition objs_in (o : objects) : objects :=
  match o with OSheets l => OSheets (map sheet_in l) | OTroughs l => OTroughs (map trough_in l) | OChannels l => OChannels l end.
Lemma make_objects_sc g fuel ft sb sp od : measured ft ->
  make_objects (grid_in g) fuel (kind_in c (ft_kind ft)) (surface_in c sb) (surface_in c sp) (objects_in c od) =
  let* o := make_objects g fuel (ft_kind ft) sb sp od in Ok (objs_in o).
Proof.
  unfold measured. destruct (ft_kind ft) as [lens tr shp|tp bu ag mi te|cp]; intros H; cbn [make_objects kind_in]; [reflexivity| |contradiction].
  cbn [objects_in od_planes od_troughs surface_in zmax zmean trough_params_in tp_depth].
  assert (match option_map (map (pos_in c)) te with
          | Some te => Ok te
          | None => trough_positions (grid_in g) (c * zmax sb) (c * zmean sp) (c * tp_depth tp) bu (c * ag) mi (map (plane_in c) (od_planes od))
          end = let* l := match te with Some te => Ok te | None => trough_positions g (zmax sb) (zmean sp) (tp_depth tp) bu ag mi (od_planes od) end in
                Ok (map (pos_in c) l)) as ->.
  { destruct te as [te|]; [reflexivity|]. cbn [option_map]. unfold trough_positions, trough_planes. numR.
    replace (c * zmax sb + c * tp_depth tp * bu) with (c * (zmax sb + tp_depth tp * bu)) by ring. replace (0 - c * ag) with (c * (0 - ag)) by ring.
    rewrite arange_sc. destruct (arange _ _ _) as [zs|]; cbn [bind]; [|reflexivity].
    exact (plane_loop_sc g mi zs (od_planes od) 0 0 []). }
  destruct (match te with Some _ => _ | None => _ end) as [l|]; cbn [bind]; [|reflexivity].
  fold (trough_params_in c tp). rewrite make_troughs_sc. destruct (make_troughs tp g l _); reflexivity.
Qed.
Definition ext_in (q : R * R) : R * R := (c * fst q, c * snd q).
Lemma extents_sc o : match o with OChannels _ => False | _ => True end -> extents (objs_in o) = map ext_in (extents o).
Proof. destruct o; intros H; cbn; [reflexivity| |contradiction]. rewrite !map_map. reflexivity. Qed.
Lemma objects_not_channels g fuel ft sb sp od o : measured ft -> make_objects g fuel (ft_kind ft) sb sp od = Ok o -> match o with OChannels _ => False | _ => True end.
Proof.
  unfold measured. destruct (ft_kind ft) as [lens tr shp|tp bu ag mi te|cp]; intros H; cbn [make_objects]; [intros [= <-]; exact I| |contradiction].
  destruct (match te with Some _ => _ | None => _ end) as [l|]; cbn [bind]; [|discriminate].
  destruct (make_troughs _ _ _ _); cbn [bind]; [|discriminate]. intros [= <-]. exact I.
Qed.
Definition new_in (r : store R * ae R) : store R * ae R := (ms (fst r), ae_in c (snd r)).
Lemma fold_add_sc objs : forall a, fold_left (fun a o => add_object (mkObject (fst o) (snd o) None) a) (map ext_in objs) (acc_in a) =
  acc_in (fold_left (fun a o => add_object (mkObject (fst o) (snd o) None) a) objs a).
Proof.
  induction objs as [|o objs IH]; intros a; [reflexivity|]. cbn [map fold_left]. rewrite <- IH. f_equal.
  exact (add_object_sc (mkObject (fst o) (snd o) None) a).
Qed.
Lemma new_ae_sc g fuel st ft kind sbg bottom top objs : measured ft ->
  new_ae (grid_in g) fuel (ms st) (base_type (type_in c ft)) kind sbg bottom top (map ext_in objs) =
  let* r := new_ae g fuel st (base_type ft) kind sbg bottom top objs in Ok (new_in r).
Proof.
  intros H. unfold new_ae. rewrite !getS_sc. destruct (getS st bottom) as [sb|]; cbn [bind]; [|reflexivity]. destruct (getS st top) as [sp|]; cbn [bind]; [|reflexivity].
  cbn [surface_in zmin zmax]. rewrite columns_sc.
  set (lhs := match t_geometry (base_type (type_in c ft)) with GSheet _ _ => _ | GObjects => _ end).
  set (rhs := match t_geometry (base_type ft) with GSheet _ _ => _ | GObjects => _ end).
  assert (lhs = let* r := rhs in Ok (loop_in r)) as ->.
  { unfold lhs, rhs, base_type. cbn [type_in ft_kind t_geometry ft_contact ft_bg]. unfold measured in H.
    destruct (ft_kind ft) as [lens tr shp|tp bu ag mi te|cp]; cbn [kind_in]; [| |contradiction].
    - rewrite thickness_sc by exact H. set (th := sheet_thickness _ _ _ _ _). numR. rewrite <- Rmult_minus_distr_l.
      exact (sheet_loop_sc (columns g) bottom th fuel st top (zmax sp - th) ([], zmin sb, zmax sp)).
    - cbn [bind]. unfold loop_in. cbn [fst snd]. do 2 f_equal. exact (fold_add_sc objs ([], zmin sb, zmax sp)). }
  destruct rhs as [[st1 [[l lo] hi]]|]; cbn [bind]; [|reflexivity]. unfold loop_in. cbn [fst snd acc_in].
  rewrite copies_sc. destruct (mapM _ l) as [cs|]; cbn [bind]; reflexivity.
Qed.
Definition pair_in (q : ae R * objects) : ae R * objects := (ae_in c (fst q), objs_in (snd q)).
Definition full_in (r : store R * (ae R * objects)) : store R * (ae R * objects) := (ms (fst r), pair_in (snd r)).
Lemma full_ae_sc g fuel st ft kind sbg bottom top od : measured ft ->
  full_ae (grid_in g) fuel (ms st) (type_in c ft) kind sbg bottom top (objects_in c od) =
  let* r := full_ae g fuel st ft kind sbg bottom top od in Ok (full_in r).
Proof.
  intros H. unfold full_ae. rewrite !getS_sc. destruct (getS st bottom) as [sb|]; cbn [bind]; [|reflexivity]. destruct (getS st top) as [sp|]; cbn [bind]; [|reflexivity].
  change (ft_kind (type_in c ft)) with (kind_in c (ft_kind ft)). rewrite make_objects_sc by exact H.
  destruct (make_objects g fuel (ft_kind ft) sb sp od) as [o|] eqn:Eo; cbn [bind]; [|reflexivity].
  rewrite extents_sc by (eapply objects_not_channels; eauto). rewrite new_ae_sc by exact H.
  destruct (new_ae g fuel st _ _ _ _ _ _) as [[st1 e]|]; cbn [bind]; [|reflexivity]. unfold new_in. cbn [fst snd].
  unfold measured in H. destruct (ft_kind ft) as [lens tr shp|tp bu ag mi te|cp]; cbn [kind_in]; [|reflexivity|contradiction].
  cbn [ae_in ae_objects objects_in od_sheets]. rewrite make_sheets_sc. destruct (make_sheets _ _ _ _ _); reflexivity.
Qed.

(** ** Strata *)
Definition fit (fp : full_params) : Prop := Forall measured (fp_types fp).
Definition sl_in (r : store R * (R * R * list (ae R * objects))) : store R * (R * R * list (ae R * objects)) :=
  let '(st, (lo, hi, l)) := r in (ms st, (c * lo, c * hi, map pair_in l)).
Lemma next_depth_sc p z d : next_depth p (c * z) (base_draw (draw_in c d) []) = c * next_depth p z (base_draw d []).
Proof. unfold next_depth. cbn. destruct (Rleb _ _); ring. Qed.
Lemma stratum_loop_sc g fuel fp bot : fit fp -> forall draws st top curr znow lo hi aes,
  full_stratum_loop (grid_in g) fuel (params_in c fp) bot (map (draw_in c) draws) (ms st) top curr (c * znow) (c * lo) (c * hi) (map pair_in aes) =
  let* r := full_stratum_loop g fuel fp bot draws st top curr znow lo hi aes in Ok (sl_in r).
Proof.
  intros F. induction draws as [|d draws IH]; intros st top curr znow lo hi aes; cbn [map full_stratum_loop]; rewrite getS_sc;
    (destruct (getS st bot) as [sbot|]; cbn [bind]; [|reflexivity]); cbn [surface_in zmean]; rewrite Rleb_sc; (destruct (Rleb znow _); [reflexivity|]); [reflexivity|].
  cbn [params_in fp_types fp_avul_prob fp_bg]. change (fd_next (draw_in c d)) with (fd_next d). rewrite !choose_map.
  destruct (choose (fp_types fp) curr) as [ty|] eqn:Ety; cbn [bind]; [|reflexivity].
  destruct (choose (fp_types fp) (fd_next d)) as [nx|] eqn:Enx; cbn [bind]; [|reflexivity].
  rewrite next_depth_sc, Rleb_sc, columns_sc. set (zn := next_depth _ _ _).
  cbn [type_in ft_contact draw_in fd_field fd_objects]. rewrite set_z_sc, new_surface_sc.
  match goal with |- _ = bind (bind ?r _) _ => set (rhs := r) end.
  match goal with |- bind ?l _ = _ => assert (l = let* r := rhs in Ok (let '(z, s, b) := r in (c * z, ms s, b))) as -> end.
  { unfold rhs. destruct (Rleb zn _); [reflexivity|]. destruct (new_surface _ _ _) as [s|]; cbn [bind]; [|reflexivity].
    rewrite alloc_sc. destruct (alloc st s). reflexivity. }
  destruct rhs as [[[z1 st1] ab]|]; cbn [bind]; [|reflexivity].
  rewrite use_lower_sc. destruct (use_lower st1 ab top) as [st2|]; cbn [bind]; [|reflexivity].
  rewrite use_higher_sc. destruct (use_higher st2 ab bot) as [st3|]; cbn [bind]; [|reflexivity].
  fold (type_in c ty). rewrite full_ae_sc by (eapply choose_Forall; eauto).
  destruct (full_ae g fuel st3 ty curr _ ab top _) as [[st4 [e o]]|]; cbn [bind]; [|reflexivity].
  unfold full_in, pair_in at 1 2 3 4. cbn [fst snd ae_in ae_zmin ae_zmax]. rewrite !Rltb_sc, !if_sc, <- IH, map_app. reflexivity.
Qed.
Definition fs_in (s : full_stratum) : full_stratum := (stratum_in c (fst s), map objs_in (snd s)).
Lemma new_full_stratum_sc g fuel fp first draws st bottom top : fit fp ->
  new_full_stratum (grid_in g) fuel (params_in c fp) first (map (draw_in c) draws) (ms st) bottom top =
  let* r := new_full_stratum g fuel fp first draws st bottom top in Ok (ms (fst r), fs_in (snd r)).
Proof.
  intros F. unfold new_full_stratum. rewrite !getS_sc. destruct (getS st bottom) as [sb|]; cbn [bind]; [|reflexivity]. destruct (getS st top) as [sp|]; cbn [bind]; [|reflexivity].
  cbn [surface_in zmean zmin zmax]. pose proof (stratum_loop_sc g fuel fp bottom F draws st top first (zmean sp) (zmin sb) (zmax sp) []) as K. cbn [map] in K.
  rewrite K. clear K. destruct (full_stratum_loop _ _ _ _ _ _ _ _ _ _ _ _) as [[st1 [[lo hi] l]]|]; cbn [bind]; [|reflexivity].
  unfold fs_in, stratum_in. cbn. rewrite !map_map. reflexivity.
Qed.
Lemma pyget_map {A B} (f : A -> B) l i : pyget (map f l) i = let* x := pyget l i in Ok (f x).
Proof. unfold pyget. rewrite map_length. destruct (pyidx _ _) as [k|]; [|reflexivity]. rewrite nth_error_map. destruct (nth_error l k); reflexivity. Qed.
Definition result_in (r : store R * list full_stratum) : store R * list full_stratum := (ms (fst r), map fs_in (snd r)).
Lemma model_loop_sc g fuel contacts params n : Forall fit params -> forall draws si st top strata,
  full_model_loop (grid_in g) fuel (map (contact_in c) contacts) (map (params_in c) params) n (map (draws_in c) draws) si (ms st) top (map fs_in strata) =
  let* r := full_model_loop g fuel contacts params n draws si st top strata in Ok (result_in r).
Proof.
  intros F. induction draws as [|sd draws IH]; intros si st top strata; cbn [map full_model_loop].
  - destruct (Nat.eqb si n); reflexivity.
  - rewrite columns_sc. cbn [grid_in g_z0 draws_in fsd_field fsd_first fsd_draws]. fold (grid_in g). rewrite flat_sc, pyget_map.
    match goal with |- _ = bind (bind ?r _) _ => set (rhs := r) end.
    match goal with |- bind ?l _ = _ => assert (l = let* s := rhs in Ok (surface_in c s)) as -> end.
    { unfold rhs. destruct (Nat.eqb (S si) n); [reflexivity|]. destruct (pyget contacts _) as [cm|]; cbn [bind]; [|reflexivity]. apply new_surface_sc. }
    destruct rhs as [s|]; cbn [bind]; [|reflexivity]. rewrite alloc_sc. destruct (alloc st s) as [st1 bottom]. cbn [fst snd].
    rewrite use_lower_sc. destruct (use_lower st1 bottom top) as [st2|]; cbn [bind]; [|reflexivity].
    rewrite pyget_map. destruct (pyget params _) as [fp|] eqn:E; cbn [bind]; [|reflexivity].
    rewrite new_full_stratum_sc by (rewrite Forall_forall in F; apply F, (pyget_In _ _ _ E)).
    destruct (new_full_stratum g fuel fp _ _ st2 bottom top) as [[st3 x]|]; cbn [bind fst snd]; [|reflexivity].
    rewrite <- IH, map_app. reflexivity.
Qed.
Lemma full_generate_sc g fuel contacts params draws : Forall fit params ->
  full_generate (grid_in g) fuel (map (contact_in c) contacts) (map (params_in c) params) (map (draws_in c) draws) =
  let* r := full_generate g fuel contacts params draws in Ok (result_in r).
Proof.
  intros F. unfold full_generate. rewrite columns_sc, map_length. cbn [grid_in g_lz]. fold (grid_in g). rewrite flat_sc.
  destruct (new_surface _ _ _) as [s|]; cbn [bind]; [|reflexivity]. change (@nil (surface R)) with (ms []). rewrite alloc_sc.
  destruct (alloc [] s) as [st top] eqn:E. cbn [map fst snd]. rewrite E. cbn [fst snd].
  exact (model_loop_sc g fuel contacts params _ F draws 0 st top []).
Qed.
End Scale.
