(** Properties C32-C37: assignment of the cells. *)
From Coq Require Import List ZArith QArith Bool Ascii String Reals Sorted Lra Lia FinFun.
From Verif Require Import Base Num ParseModel ConfigModel SurfaceModel SurfaceSpec SurfaceProofs StrataModel StrataSpec
  StrataProofs StrataProofs2 StrataProofs3 StrataProps AssignModel AssignSpec AssignProofs AssignProofs2 BuildModel BuildSpec
  BuildProofs BuildProofs2.
Import ListNotations.
Local Open Scope R_scope.

(** ** Example data: a box-shaped object between two elevations and x bounds *)
Definition box (x0 x1 lo hi : Q) (w : write Q) : aobj Q unit :=
  mkAobj lo hi (fun d p => (d, if Qle_bool x0 (p_x p) && Qle_bool (p_x p) x1 && Qle_bool lo (p_z p) && Qle_bool (p_z p) hi then Some w else None)).
Definition ex_elem (num : Z) (lo hi : Q) (objs : list (aobj Q unit)) : aelem Q unit :=
  mkAelem num 7 false (fun _ _ => lo) (fun _ _ => hi) 3 (Some 10%Q) (Some 20%Q) lo objs.
Definition ex_assign : list (astrat Q unit) :=
  [mkAstrat 3%Q [ex_elem 0 4 6 [box 0 1 (9#2) 6 (mkWrite 5 (Some 1%Q) None 0); box 0 2 4 5 (mkWrite 6 None None 1)]; ex_elem 1 3 4 []];
   mkAstrat 0%Q [ex_elem 2 0 3 [box 0 1 0 2 (mkWrite 8 None None 2)]]].
Definition ex_cols : list (list (point Q)) :=
  grid_towers [1#2; 3#2]%Q [1#2]%Q [1#4; 3#4; 5#4; 13#4; 17#4; 23#4]%Q.
Example ex_assign_result :
  map (map (fun r => option_map (fun x => (i_facies (fst x), i_ae (fst x), snd x)) r)) (towers ex_assign ex_cols tt) =
  [[Some (5, 0, 0%nat); Some (6, 0, 0%nat); Some (3, 1, 0%nat); Some (8, 2, 1%nat); Some (8, 2, 1%nat); Some (8, 2, 1%nat)];
   [Some (3, 0, 0%nat); Some (6, 0, 0%nat); Some (3, 1, 0%nat); Some (3, 2, 1%nat); Some (3, 2, 1%nat); Some (3, 2, 1%nat)]]%Z.
Proof. vm_compute. reflexivity. Qed.

(** ** C32: assigned cells lie where they are reported *)
Theorem C32_assigned_cells_located :
  forall (D : Type) (m : list (astrat R D)) cols (d : D) n k ps p r,
  nth_error cols n = Some ps -> nth_error ps k = Some p ->
  (exists rs, nth_error (towers m cols d) n = Some rs /\ nth_error rs k = Some r) ->
  match r with
  | Some (i, si) =>
      i_facies i <> (-1)%Z /\
      exists s e, nth_error m si = Some s /\ In e (t_aes s) /\ i_ae i = e_num e /\ i_hat i = e_type e /\
        ((* an object of the element claimed the point *)
         (exists o d1 d2 w, In o (e_objs e) /\ o_zmin o <= p_z p <= o_zmax o /\ o_check o d1 p = (d2, Some w) /\
            i_facies i = w_facies w /\ i_azim i = w_azim w /\ i_dip i = w_dip w /\ i_ha i = w_ha w) \/
         (* or it lies between the surfaces of the element *)
         (e_sheet e = false /\ e_bottom e (p_xi p) (p_yi p) < p_z p < e_top e (p_xi p) (p_yi p) /\
            i_facies i = e_bg_facies e /\ i_azim i = e_bg_azim e /\ i_dip i = e_bg_dip e))
  | None => True
  end.
Proof.
  intros D m cols d n k ps p r Hc Hp (rs & Hrs & Hr). destruct r as [[i si]|]; [|exact I].
  destruct (Forall2_nth _ _ _ (towers_sound m cols d) n ps Hc) as (rs' & Hrs' & HF). rewrite Hrs in Hrs'. injection Hrs' as <-.
  destruct (Forall2_nth _ _ _ HF k p Hp) as (r' & Hr' & HL). rewrite Hr in Hr'. injection Hr' as <-.
  destruct (HL i si eq_refl) as (H1 & s & e & H2 & H3 & H4 & H5 & H6 & H7 & H8).
  split; [assumption|]. exists s, e. repeat split; assumption.
Qed.
Print Assumptions C32_assigned_cells_located.

(** The result list has one entry per column and cell. *)
Theorem C32_one_result_per_cell :
  forall (D : Type) (m : list (astrat R D)) cols (d : D),
  map (@List.length _) (towers m cols d) = map (@List.length _) cols.
Proof.
  intros D m cols d. generalize (towers_sound m cols d). generalize (towers m cols d).
  induction cols as [|ps cols IH]; intros l H; inversion H as [|? rs ? l' Hr Hl]; subst; [reflexivity|].
  cbn. f_equal; [|now apply IH]. clear -Hr. induction Hr; cbn; auto.
Qed.
Print Assumptions C32_one_result_per_cell.

(** ** C33: resuming the search changes nothing *)
Theorem C33_resume_is_exhaustive :
  forall (D : Type) (hit : aobj R D -> point R -> option (write R)) (m : list (astrat R D)) c ps d,
  pure hit m -> no_lost_facies hit m ps -> bounds_cover hit m ps -> tops_in_order hit m ps -> column c ps ->
  objects_left_once hit m ps -> elements_left_once hit m ps ->
  snd (tower m ps (0, 0, 0)%nat d) = until_missed (map (exhaustive hit m) ps) /\
  (Forall (fun p => exhaustive hit m p <> None) ps -> snd (tower m ps (0, 0, 0)%nat d) = map (exhaustive hit m) ps).
Proof.
  intros D hit m c ps d H1 H2 H3 H4 H5 H6 H7. pose proof (resume_exhaustive hit m c ps d H1 H2 H3 H4 H5 H6 H7) as E.
  split; [exact E|]. intros Hf. rewrite E. apply until_missed_all. now apply Forall_map.
Qed.
Print Assumptions C33_resume_is_exhaustive.

(** Objects sorted by their top that hang down from it, in elements stacked on
    each other. *)
Theorem C33_resume_hanging_objects :
  forall (D : Type) (hit : aobj R D -> point R -> option (write R)) (m : list (astrat R D)) c ps d,
  pure hit m -> no_lost_facies hit m ps -> bounds_cover hit m ps -> objects_sorted m -> column c ps ->
  hanging hit m ps -> stacked hit m ps ->
  snd (tower m ps (0, 0, 0)%nat d) = until_missed (map (exhaustive hit m) ps).
Proof.
  intros D hit m c ps d H1 H2 H3 H4 H5 H6 H7. pose proof (sorted_in_order hit m ps H3 H4) as H4'.
  apply (resume_exhaustive hit m c ps d); auto.
  - now apply hanging_left_once.
  - now apply (stacked_left_once hit m c ps).
Qed.
Print Assumptions C33_resume_hanging_objects.

(** A model that meets the conditions: two elements, one of them with two
    overlapping objects. *)
Definition rbox (lo hi : R) (w : write R) : aobj R unit :=
  mkAobj lo hi (fun d p => (d, if Rle_dec lo (p_z p) then if Rle_dec (p_z p) hi then Some w else None else None)).
Definition rhit (o : aobj R unit) (p : point R) : option (write R) := snd (o_check o tt p).
Definition ex_rmodel : list (astrat R unit) :=
  [mkAstrat 0 [mkAelem 0 7 false (fun _ _ => 4) (fun _ _ => 6) 3 None None 4 [rbox 5 6 (mkWrite 5 None None 0); rbox 4 5.5 (mkWrite 6 None None 1)];
               mkAelem 1 7 false (fun _ _ => 0) (fun _ _ => 4) 2 None None 0 [rbox 0 2 (mkWrite 8 None None 2)]]].
Definition ex_rcol : list (point R) := map (fun z => mkPoint 0 0 z 0 0) [5.2; 4.2; 3; 1].

Lemma rbox_hit lo hi w p w' : rhit (rbox lo hi w) p = Some w' -> lo <= p_z p <= hi /\ w' = w.
Proof. unfold rhit. cbn. destruct (Rle_dec lo (p_z p)), (Rle_dec (p_z p) hi); try discriminate. intros [= <-]. auto. Qed.
Lemma rbox_out lo hi w p : ~ lo <= p_z p <= hi -> rhit (rbox lo hi w) p = None.
Proof. unfold rhit. cbn. destruct (Rle_dec lo (p_z p)), (Rle_dec (p_z p) hi); tauto. Qed.
Lemma ex_rmodel_objs (P : aobj R unit -> Prop) :
  P (rbox 5 6 (mkWrite 5 None None 0)) -> P (rbox 4 5.5 (mkWrite 6 None None 1)) -> P (rbox 0 2 (mkWrite 8 None None 2)) -> every_obj ex_rmodel P.
Proof.
  intros H1 H2 H3 s e o [<-|[]] He Ho. destruct He as [<-|[<-|[]]]; cbn in Ho; intuition (subst; assumption).
Qed.
Example C33_example :
  snd (tower ex_rmodel ex_rcol (0, 0, 0)%nat tt) = map (exhaustive rhit ex_rmodel) ex_rcol /\
  map (option_map (fun r => i_facies (fst r))) (map (exhaustive rhit ex_rmodel) ex_rcol) = [Some 5; Some 6; Some 2; Some 8]%Z.
Proof.
  assert (E : map (exhaustive rhit ex_rmodel) ex_rcol =
    [Some (mkIds 5 0 0 7 None None, 0%nat); Some (mkIds 6 0 1 7 None None, 0%nat); Some (mkIds 2 1 (-1) 7 None None, 0%nat); Some (mkIds 8 1 2 7 None None, 0%nat)]).
  { cbn. unfold exhaustive, search, search_stratum, search_ae, hits, rhit, within. cbn.
    repeat match goal with |- context [Rle_dec ?a ?b] => destruct (Rle_dec a b); try (exfalso; lra); cbn
           | |- context [Rlt_dec ?a ?b] => destruct (Rlt_dec a b); try (exfalso; lra); cbn end. reflexivity. }
  split; [|rewrite E; reflexivity].
  rewrite <- (until_missed_all (map _ _)); [|rewrite E; repeat constructor; discriminate].
  apply (C33_resume_hanging_objects unit rhit ex_rmodel (0, 0)%nat).
  - apply ex_rmodel_objs; intros d p; destruct d; reflexivity.
  - apply ex_rmodel_objs; intros p w _ Hw; apply rbox_hit in Hw as [_ ->]; discriminate.
  - split; [|split].
    + apply ex_rmodel_objs; intros p w _ Hw; apply rbox_hit in Hw as [? _]; assumption.
    + intros s e p r [<-|[]] He _ Hr. unfold search_ae, within in Hr. destruct He as [<-|[<-|[]]]; cbn in Hr |- *.
      * destruct (hits rhit p (rbox 5 6 _)) eqn:E1; [unfold hits in E1; destruct (rhit _ p) eqn:E2; [apply rbox_hit in E2 as [? _]; lra|discriminate]|].
        destruct (hits rhit p (rbox 4 5.5 _)) eqn:E3; [unfold hits in E3; destruct (rhit _ p) eqn:E2 in E3; [apply rbox_hit in E2 as [? _]; lra|discriminate]|].
        destruct (Rlt_dec 4 (p_z p)); [lra|discriminate].
      * destruct (hits rhit p (rbox 0 2 _)) eqn:E1; [unfold hits in E1; destruct (rhit _ p) eqn:E2; [apply rbox_hit in E2 as [? _]; lra|discriminate]|].
        destruct (Rlt_dec 0 (p_z p)); [lra|discriminate].
    + intros s p r [<-|[]] Hp _. cbn. cbn in Hp. repeat destruct Hp as [<-|Hp]; cbn; try lra.
  - intros s e [<-|[]] He. destruct He as [<-|[<-|[]]]; cbn; repeat constructor; cbn; lra.
  - split; [repeat constructor|]. cbn. repeat constructor; cbn; lra.
  - apply ex_rmodel_objs; intros p p' Hp Hp' Hz; unfold hits; cbn in Hz;
    (destruct (rhit _ p) eqn:E1; [apply rbox_hit in E1 as [_ ->]; discriminate|]); intros _;
    (rewrite rbox_out; [reflexivity|]); cbn in Hp, Hp';
    repeat destruct Hp as [<-|Hp]; try destruct Hp; repeat destruct Hp' as [<-|Hp']; try destruct Hp'; cbn in *; try lra;
    intros ?; revert E1; unfold rhit; cbn; repeat (destruct (Rle_dec _ _); try (exfalso; lra)); discriminate.
  - split.
    + intros s e p r [<-|[]] He Hp Hr. split.
      * unfold search_ae, within in Hr. destruct He as [<-|[<-|[]]]; cbn in Hr |- *.
        -- destruct (hits rhit p (rbox 5 6 _)) eqn:E1; [unfold hits in E1; destruct (rhit _ p) eqn:E2; [apply rbox_hit in E2 as [? _]; lra|discriminate]|].
           destruct (hits rhit p (rbox 4 5.5 _)) eqn:E3; [unfold hits in E3; destruct (rhit _ p) eqn:E2 in E3; [apply rbox_hit in E2 as [? _]; lra|discriminate]|].
           destruct (Rlt_dec 4 (p_z p)); [|discriminate]. destruct (Rlt_dec (p_z p) 6); [lra|discriminate].
        -- destruct (hits rhit p (rbox 0 2 _)) eqn:E1; [unfold hits in E1; destruct (rhit _ p) eqn:E2; [apply rbox_hit in E2 as [? _]; lra|discriminate]|].
           destruct (Rlt_dec 0 (p_z p)); [|discriminate]. destruct (Rlt_dec (p_z p) 4); [lra|discriminate].
      * intros p' Hp' Hz. exfalso. unfold search_ae, within in Hr. destruct He as [<-|[<-|[]]]; cbn in Hr, Hz.
        -- destruct (hits rhit p (rbox 5 6 _)) eqn:E1; [unfold hits in E1; destruct (rhit _ p) eqn:E2; [apply rbox_hit in E2 as [? _]; lra|discriminate]|].
           destruct (hits rhit p (rbox 4 5.5 _)) eqn:E3; [unfold hits in E3; destruct (rhit _ p) eqn:E2 in E3; [apply rbox_hit in E2 as [? _]; lra|discriminate]|].
           destruct (Rlt_dec 4 (p_z p)); [lra|discriminate].
        -- destruct (hits rhit p (rbox 0 2 _)) eqn:E1; [unfold hits in E1; destruct (rhit _ p) eqn:E2; [apply rbox_hit in E2 as [? _]; lra|discriminate]|].
           destruct (Rlt_dec 0 (p_z p)); [lra|discriminate].
    + cbn. repeat constructor; cbn; intros; lra.
Qed.

(** ** C34: every cell of a generated model is assigned

    Provided no stratum is empty, the column exists, no cell lies on a surface
    and the cells lie between the origin of the grid and lz. *)
Theorem C34_every_cell_partial :
  forall (D : Type) (d0 : D) (g : grid R) fuel contacts params draws st strata ny type_id look probe xi yi ps,
  Forall (sd_ok (columns g)) draws -> params <> [] ->
  generate_model g fuel contacts params draws = Ok (st, strata) ->
  Forall (fun s => s_aes s <> []) strata ->
  (xi * ny + yi < columns g)%nat -> column (xi, yi) ps ->
  Forall (fun p => g_z0 g <= p_z p <= g_lz g) ps ->
  (forall p a, In p ps -> col st a (xi * ny + yi) <> Some (p_z p)) ->
  (forall num oi p, w_facies (look num oi p) <> (-1)%Z) ->
  let m := to_model ny type_id look probe st 0 0 strata in
  let hit := fun (o : aobj R D) p => snd (o_check o d0 p) in
  objects_fit hit m ps ->
  forall d,
  snd (tower m ps (0, 0, 0)%nat d) = map (exhaustive hit m) ps /\
  Forall (fun r => r <> None) (snd (tower m ps (0, 0, 0)%nat d)).
Proof.
  intros D d0 g fuel contacts params draws st strata ny type_id look probe xi yi ps Hd Hne E Haes Hk Hcol Hz Hav Hlook m hit Hfit d.
  destruct (generate_strata_ok _ _ _ _ _ _ _ Hd E) as (W & Hok).
  pose proof (generate_objects_ok _ _ _ _ _ _ _ Hd E) as Hobj.
  destruct (C23_strata_stack _ _ _ _ _ _ _ Hd Hne E) as (Hlen & (base & Hch & Hbase) & _ & Htop).
  assert (Hps : forall p, In p ps -> p_xi p = xi /\ p_yi p = yi).
  { intros p Hp. destruct Hcol as [Hc _]. rewrite Forall_forall in Hc. specialize (Hc p Hp). now injection Hc. }
  assert (Hs0 : strata <> []). { intros ->. destruct params; [congruence|discriminate]. }
  assert (Ltop : (0 < List.length st)%nat).
  { specialize (Htop _ Hk). unfold col in Htop. destruct st; [discriminate|cbn; lia]. }
  assert (Hcov : forall p, In p ps -> exists s e, In s m /\ In e (t_aes s) /\
     e_bottom e (p_xi p) (p_yi p) <= p_z p <= e_top e (p_xi p) (p_yi p) /\ search_ae hit p e <> None).
  { intros p Hp.
    apply (built_covered d0 ny type_id look probe g st strata W Hok Hobj xi yi Hk ps Hps Hlook Hfit 0%nat base); auto.
    rewrite Forall_forall in Hz. specialize (Hz p Hp).
    assert (Lb : (base < List.length st)%nat).
    { clear -Hch Hok Hs0. revert Hch Hok. generalize 0%nat. induction strata as [|s l IH]; intros t Hc Ho; [congruence|].
      inversion Ho as [|? ? Hs Ho']; subst. destruct Hc as (_ & Hc). destruct l as [|s' l].
      - cbn in Hc. subst base. apply Hs.
      - apply (IH ltac:(discriminate) _ Hc Ho'). }
    destruct (surf_col ny g st W xi yi Hk base Lb) as (b & Hb & _). exists b, (g_lz g). repeat split; auto; [|lra].
    specialize (Hbase _ _ Hb). lra. }
  assert (Hfound : forall p, In p ps -> exhaustive hit m p <> None).
  { intros p Hp. destruct (Hcov p Hp) as (s & e & H1 & H2 & _ & H3).
    assert (search hit m p <> None); [|unfold exhaustive; now destruct (search hit m p) as [[? [? [? ?]]]|]].
    exact (covered_found d0 ny type_id look probe st strata p s e H1 H2 H3). }
  assert (EE : snd (tower m ps (0, 0, 0)%nat d) = map (exhaustive hit m) ps).
  { apply (C33_resume_is_exhaustive D hit m (xi, yi)); [..|now apply Forall_forall].
    - exact (built_pure d0 ny type_id look probe st strata Hok Hobj ps Hfit).
    - exact (built_no_lost d0 ny type_id look probe g st strata W Hok Hobj xi yi Hk ps Hps Hlook Hfit).
    - exact (built_bounds d0 ny type_id look probe g st strata W Hok Hobj xi yi Hk ps Hps Hfit).
    - exact (built_tops d0 ny type_id look probe g st strata W Hok Hobj xi yi Hk ps Hps Hfit).
    - exact Hcol.
    - exact (built_objects_once d0 ny type_id look probe g st strata W Hok Hobj xi yi Hk ps Hps Hfit).
    - apply (tiled_left_once hit m (xi, yi) ps Hcol). split; [exact Hcov|split].
      + exact (built_connected d0 ny type_id look probe g st strata W Hok Hobj xi yi Hk ps Hps Hlook Hfit).
      + exact (strata_sorted ny type_id look probe g st W xi yi Hk ps Hps strata 0 0 0 base Hok Hch). }
  split; [exact EE|]. rewrite EE. apply Forall_map. now apply Forall_forall.
Qed.
Print Assumptions C34_every_cell_partial.

(** A stratum with one element of background facies 3 from 6 m down to 0 m,
    containing one object between 1 m and 5 m. *)
Definition rg : grid R := mkGrid 0 0 0 1 1 1 1 1 6 [1/2] [1/2] [].
Definition rparams : list (stratum_params R) :=
  [mkSP [mkType (mkContact (S_ "flat") None None) GObjects (mkBg None None None)] 0 (mkSbg 3%Z None None)].
Definition rdraws : list (stratum_draws R) := [mkSD [0] 0 [mkDraw 9 1 0 0 [0] [(1, 5)]]].
Ltac noleb a := lazymatch a with context [Rleb _ _] => fail | _ => idtac end.
Ltac rdec := match goal with
  | |- context [Rleb ?a ?b] => noleb a; noleb b;
      first [replace (Rleb a b) with true by (symmetry; apply Rleb_true; lra)
           | replace (Rleb a b) with false by (symmetry; apply Rleb_false; lra)] end.
Ltac reval := repeat (cbn -[Rleb Rplus Rmult Rminus Rdiv IZR Int_part]; rdec); cbn -[Rleb Rplus Rmult Rminus Rdiv IZR Int_part].
Definition rprobe (_ _ : nat) : unit -> point R -> unit * option (write R) := o_check (rbox 1 5 (mkWrite 8 None None 0)).
Definition rlook (_ _ : nat) (_ : point R) : write R := mkWrite 9 None None 0.
Definition ex_rcol2 : list (point R) := map (fun z => mkPoint 0 0 z 0 0) [5.5; 4.5; 0.5].
Definition rst : store R := [mkSurface [6] 6 6 6; mkSurface [0] 0 0 0].
Definition rstrata : list (stratum R) := [mkStratum 1 0 0 6 [mkAE 1 0 0 6 [mkObject 1 5 None] [([], [])] 3 None None 0]].
Lemma rmodel_runs : generate_model rg 5 [] rparams rdraws = Ok (rst, rstrata).
Proof. unfold generate_model. reval. reflexivity. Qed.
Example C34_example :
  exists st strata, generate_model rg 5 [] rparams rdraws = Ok (st, strata) /\
  let m := to_model 1 (fun _ _ => 7%Z) rlook rprobe st 0 0 strata in
  Forall (fun r => r <> None) (snd (tower m ex_rcol2 (0, 0, 0)%nat tt)) /\
  map (option_map (fun r => i_facies (fst r))) (snd (tower m ex_rcol2 (0, 0, 0)%nat tt)) = [Some 3; Some 8; Some 3]%Z.
Proof.
  exists rst, rstrata. split; [exact rmodel_runs|].
  pose proof (C34_every_cell_partial unit tt rg 5 [] rparams rdraws rst rstrata 1 (fun _ _ => 7%Z) rlook rprobe 0 0 ex_rcol2) as H.
  specialize (H ltac:(repeat constructor) ltac:(discriminate) rmodel_runs ltac:(repeat constructor; discriminate) ltac:(cbn; lia)).
  assert (H' := fun h1 h2 h3 h4 h5 => H h1 h2 h3 h4 h5 tt). clear H. cbv zeta. destruct H' as [He Ha].
  - split; [repeat constructor|]. cbn. repeat constructor; cbn; lra.
  - cbn. repeat constructor; cbn; lra.
  - intros p a Hp. assert (Hc : col rst a (0 * 1 + 0) <> None -> (a = 0 \/ a = 1)%nat).
    { unfold col. destruct a as [|[|a]]; auto. cbn. destruct a; cbn; congruence. }
    intros Hcol. destruct Hc as [->| ->]; [congruence|..]; cbn in Hcol; injection Hcol as Hcol;
    cbn in Hp; repeat destruct Hp as [<-|Hp]; cbn in Hcol; try lra; destruct Hp.
  - discriminate.
  - intros s e Hs He Hsh. destruct Hs as [<-|[]]. destruct He as [<-|[]]. cbn -[rprobe]. split; [discriminate|]. split; [|split; [|split]].
    + intros o p w [<-|[]] Hp Hw. cbn -[rprobe] in Hw |- *. apply rbox_hit in Hw as [Hz ->]. cbn. repeat split; try discriminate; try lra;
      cbn in Hp; repeat destruct Hp as [<-|Hp]; cbn; try lra; destruct Hp.
    + intros o d p [<-|[]]. destruct d. cbn -[rprobe]. unfold rprobe. cbn. reflexivity.
    + repeat constructor.
    + intros o p p' [<-|[]] Hp Hp' Hz. cbn -[rprobe] in Hz. unfold hits. cbn -[rprobe].
      change (snd (rprobe 0 0 tt p)) with (rhit (rbox 1 5 (mkWrite 8 None None 0)) p).
      change (snd (rprobe 0 0 tt p')) with (rhit (rbox 1 5 (mkWrite 8 None None 0)) p').
      destruct (rhit _ p) eqn:E1; [apply rbox_hit in E1 as [_ ->]; discriminate|]. intros _.
      rewrite rbox_out; [reflexivity|]. intros Hin. revert E1. unfold rhit. cbn. repeat (destruct (Rle_dec _ _); try (exfalso; lra)). discriminate.
  - split; [exact Ha|]. rewrite He. cbn. unfold exhaustive, search, search_stratum, search_ae, hits, within, rprobe. cbn.
    repeat match goal with |- context [Rle_dec ?a ?b] => destruct (Rle_dec a b); try (exfalso; lra); cbn
           | |- context [Rlt_dec ?a ?b] => destruct (Rlt_dec a b); try (exfalso; lra); cbn end. reflexivity.
Qed.

(** A boundary between two elements at 3.5 m, where a cell centre lies: this
    cell and everything below it is not assigned (facies 0, element -1). *)
Definition ex_on_surface := generate_model (exg 0 6) 20 [] [exsp [trough_type]] [mkSD [] 0 [dr (5#2) 0 [0; 0]%Q []; dr 9 0 [0; 0]%Q []]].
Definition qprobe (_ _ : nat) (d : unit) (p : point Q) : unit * option (write Q) := (d, None).
Definition qlook (_ _ : nat) (_ : point Q) : write Q := mkWrite 9 None None 0.
Definition half_cells (n : nat) : list Q := map (fun i => ((2 * Z.of_nat i + 1) # 2)%Q) (seq 0 n).
Theorem C34_every_cell_refuted :
  exists st strata, ex_on_surface = Ok (st, strata) /\
  let m := to_model 1 (fun _ _ => 7%Z) qlook qprobe st 0 0 strata in
  map (map (fun r => (c_facies (cell_of r), c_ae (cell_of r)))) (towers m (grid_towers [1#2; 3#2]%Q [1#2]%Q (half_cells 6)) tt) =
  repeat [(3, 0); (3, 0); (0, -1); (0, -1); (0, -1); (0, -1)]%Z 2.
Proof. do 2 eexists. split; [vm_compute; reflexivity|]. vm_compute. reflexivity. Qed.
Print Assumptions C34_every_cell_refuted.

(** A grid from 1 m to 7 m: the uppermost surface is at lz = 6 m, the cell
    above it is not assigned and neither is any other. *)
Theorem C34_origin_refuted :
  exists st strata, generate_model (exg 1 6) 20 [] [exsp [trough_type]] [mkSD [] 0 [dr 9 0 [0; 0]%Q []]] = Ok (st, strata) /\
  let m := to_model 1 (fun _ _ => 7%Z) qlook qprobe st 0 0 strata in
  map (map (fun r => (c_facies (cell_of r), c_ae (cell_of r)))) (towers m (grid_towers [1#2; 3#2]%Q [1#2]%Q (map (Qplus 1) (half_cells 6))) tt) =
  repeat (repeat (0, -1) 6)%Z 2.
Proof. do 2 eexists. split; [vm_compute; reflexivity|]. vm_compute. reflexivity. Qed.
Print Assumptions C34_origin_refuted.

(** ** C35: a missed cell loses the rest of its column *)
Lemma scan_strata_none {T D} `{Num T} (p : point T) (l : list (astrat T D)) : forall si aei oi d i d' c,
  scan_strata p l si aei oi d i = (d', None, c) -> fst (fst c) = (si + List.length l)%nat.
Proof.
  induction l as [|s l IH]; intros si aei oi d i d' c E; cbn in E.
  - injection E as _ <-. cbn. lia.
  - destruct (negb _).
    + apply IH in E. cbn. lia.
    + destruct (assign_stratum s p aei oi d i) as [[d1 i1] [a1 o1]]. destruct (found i1); [discriminate|].
      apply IH in E. cbn. lia.
Qed.
Lemma tower_none_below {T D} `{Num T} (m : list (astrat T D)) : forall ps c d k,
  nth_error (snd (tower m ps c d)) k = Some None ->
  forall k', (k <= k' < List.length ps)%nat -> nth_error (snd (tower m ps c d)) k' = Some None.
Proof.
  induction ps as [|p ps IH]; intros [[si aei] oi] d k Hk k' Hk'; [cbn in Hk'; lia|].
  cbn [tower] in *. destruct (assign_cell m p (si, aei, oi) d) as [[d1 r] c1] eqn:Ea.
  destruct (tower m ps c1 d1) as [d2 rs] eqn:Et. cbn [snd] in *.
  destruct k as [|k].
  - cbn in Hk. injection Hk as ->. destruct k' as [|k']; [reflexivity|]. cbn.
    destruct c1 as [[si1 aei1] oi1]. unfold assign_cell in Ea. apply scan_strata_none in Ea. cbn in Ea. rewrite skipn_length in Ea.
    assert (Hs : (List.length m <= si1)%nat) by lia.
    assert (Hk2 : (k' < List.length ps)%nat) by (cbn in Hk'; lia). clear - Hs Et Hk2. revert rs d1 d2 Et k' Hk2. induction ps as [|p ps IH]; intros rs d1 d2 Et k' Hk'; [cbn in Hk'; lia|].
    cbn [tower] in Et. unfold assign_cell in Et. rewrite skipn_all2 in Et by assumption. cbn [scan_strata] in Et.
    destruct (tower m ps (si1, aei1, oi1) d1) as [d3 rs3] eqn:E3. injection Et as _ <-.
    destruct k' as [|k']; [reflexivity|]. cbn. eapply IH; [exact E3|]. cbn in *. lia.
  - destruct k' as [|k']; [lia|]. cbn in *. replace rs with (snd (tower m ps c1 d1)) by now rewrite Et.
    apply (IH c1 d1 k); [now rewrite Et|lia].
Qed.

(** In general: below a missed cell every cell is missed. *)
Theorem C35_missed_cell_loses_column :
  forall (D : Type) (m : list (astrat R D)) ps d k,
  nth_error (snd (tower m ps (0, 0, 0)%nat d)) k = Some None ->
  forall k', (k <= k' < List.length ps)%nat -> nth_error (snd (tower m ps (0, 0, 0)%nat d)) k' = Some None.
Proof. intros D m ps d. apply tower_none_below. Qed.
Print Assumptions C35_missed_cell_loses_column.
(** The cells below 3.5 m of the model above are assigned when the column
    starts below that cell, but not otherwise. *)
Theorem C35_missed_cell_refuted :
  exists st strata, ex_on_surface = Ok (st, strata) /\
  let m := to_model 1 (fun _ _ => 7%Z) qlook qprobe st 0 0 strata in
  let facies := fun zs => map (fun r => c_facies (cell_of r)) (snd (tower m (tower_points zs 0 0 (1#2)%Q (1#2)%Q) (0, 0, 0)%nat tt)) in
  facies (half_cells 6) = [3; 3; 0; 0; 0; 0]%Z /\ facies (half_cells 3) = [3; 3; 3]%Z.
Proof. do 2 eexists. split; [vm_compute; reflexivity|]. vm_compute. auto. Qed.
Print Assumptions C35_missed_cell_refuted.

(** ** C36: the columns are independent *)

(** Whatever state is shared between the columns (dont_check): if the objects
    keep an invariant under which their answer does not depend on the state,
    a column gets what it gets when it is visited alone. *)
Theorem C36_columns_independent :
  forall (D : Type) (hit : aobj R D -> point R -> option (write R)) (P : point R -> Prop) (Inv : D -> nat * nat -> R -> Prop)
    (m : list (astrat R D)),
  transparent hit m P Inv ->
  forall cols d d1 k c ps, NoDup (map fst cols) -> (forall c ps, In (c, ps) cols -> column c ps /\ Forall P ps) ->
  (forall c z, Inv d c z) -> (forall c z, Inv d1 c z) ->
  nth_error cols k = Some (c, ps) ->
  nth_error (towers m (map snd cols) d) k = Some (snd (tower m ps (0, 0, 0)%nat d1)).
Proof.
  intros D hit P Inv m [Ht Hl] cols d d1 k c ps Hn Hc Hi Hi1 Hk.
  assert (Hst : every_obj m (step hit P Inv)).
  { intros s e o Hs He Ho dd p HP Hp. destruct (Ht s e o Hs He Ho dd p HP Hp) as (H1 & H2 & H3). split; [assumption|].
    split; [assumption|]. intros c' z Hne Hz. now apply H3. }
  rewrite (towers_pure hit P Inv Hl m d Hst cols d Hn Hc (fun c ps z _ => Hi c z)).
  rewrite map_map. erewrite map_nth_error by exact Hk. cbn [snd]. f_equal.
  pose proof (towers_pure hit P Inv Hl m d Hst [(c, ps)] d1) as E. cbn [map snd towers] in E.
  destruct (tower m ps (0, 0, 0)%nat d1) as [d' rs]. cbn [snd].
  assert (E' : [rs] = [snd (tower (pure_model hit m) ps (0, 0, 0)%nat d)]).
  { apply E.
    - constructor; [easy|constructor].
    - intros c' ps' [[= <- <-]|[]]. apply Hc. now apply (nth_error_In _ k).
    - intros c' ps' z _. apply Hi1. }
  now injection E' as ->.
Qed.
Print Assumptions C36_columns_independent.

(** Models whose objects have no state (all models without channels). *)
Theorem C36_without_state :
  forall (D : Type) (hit : aobj R D -> point R -> option (write R)) (m : list (astrat R D)),
  pure hit m ->
  forall cols d k c ps, NoDup (map fst cols) -> (forall c ps, In (c, ps) cols -> column c ps) ->
  nth_error cols k = Some (c, ps) ->
  nth_error (towers m (map snd cols) d) k = Some (snd (tower m ps (0, 0, 0)%nat d)).
Proof.
  intros D hit m Hp cols d k c ps Hn Hc Hk.
  apply (C36_columns_independent D hit (fun _ => True) (fun _ _ _ => True) m) with (c := c); auto.
  2: { intros c' ps' Hin. split; [now apply Hc|]. apply Forall_forall. auto. }
  split; [|auto]. intros s e o Hs He Ho d' p _ _. rewrite (Hp s e o Hs He Ho d' p). auto.
Qed.
Print Assumptions C36_without_state.
Definition ex_rcol3 : list (point R) := map (fun z => mkPoint 1 0 z 1 0) [5.2; 1].
Example C36_example :
  nth_error (towers ex_rmodel [ex_rcol; ex_rcol3] tt) 1 = Some (snd (tower ex_rmodel ex_rcol3 (0, 0, 0)%nat tt)).
Proof.
  apply (C36_without_state unit rhit ex_rmodel) with (cols := [((0, 0)%nat, ex_rcol); ((1, 0)%nat, ex_rcol3)]) (c := (1, 0)%nat).
  - apply ex_rmodel_objs; intros d p; destruct d; reflexivity.
  - repeat constructor; cbn; intuition discriminate.
  - intros c ps [[= <- <-]|[[= <- <-]|[]]]; (split; [repeat constructor|]; cbn; repeat constructor; cbn; lra).
  - reflexivity.
Qed.

(** ** C37: numbers of elements and objects *)
Definition count_up (a n : nat) : list Z := map Z.of_nat (seq a n).
#[local] Arguments count_up : simpl never.
Lemma count_up_app a n m : count_up a (n + m) = count_up a n ++ count_up (a + n) m.
Proof. unfold count_up. now rewrite seq_app, map_app. Qed.
Lemma count_up_NoDup a n : NoDup (count_up a n).
Proof. apply FinFun.Injective_map_NoDup; [intros x y; lia|apply seq_NoDup]. Qed.

Lemma number_aes_spec : forall l num ha r num' ha',
  number_aes (Z.of_nat num) (Z.of_nat ha) l = (r, num', ha') ->
  map na_num r = count_up num (List.length l) /\ num' = Z.of_nat (num + List.length l) /\
  List.concat (map na_objs r) = count_up ha (List.length (List.concat (map na_objs l))) /\
  ha' = Z.of_nat (ha + List.length (List.concat (map na_objs l))) /\ map na_array r = map na_array l.
Proof.
  induction l as [|e l IH]; intros num ha r num' ha' E; cbn in E.
  - injection E as <- <- <-. cbn. rewrite !Nat.add_0_r. auto.
  - destruct (number_aes (Z.of_nat num + 1) _ l) as [[r1 n1] h1] eqn:E1. injection E as <- <- <-.
    replace (Z.of_nat num + 1)%Z with (Z.of_nat (S num)) in E1 by lia.
    replace (Z.of_nat ha + Z.of_nat (List.length (na_objs e)))%Z with (Z.of_nat (ha + List.length (na_objs e))) in E1 by lia.
    apply IH in E1 as (H1 & H2 & H3 & H4 & H5). cbn. rewrite H1, H3, H5, app_length, count_up_app. subst. repeat split.
    + f_equal. lia.
    + f_equal. unfold count_up. clear. generalize (List.length (na_objs e)). intros n.
      replace (seq ha n) with (seq (ha + 0) n) by (f_equal; lia). generalize 0%nat.
      induction n as [|n IHn]; intros a; [reflexivity|]. cbn. f_equal; [lia|]. rewrite <- Nat.add_succ_r. apply IHn.
    + f_equal. lia.
Qed.
Lemma number_strata_spec : forall l num ha,
  map na_num (List.concat (number_strata (Z.of_nat num) (Z.of_nat ha) l)) = count_up num (List.length (List.concat l)) /\
  List.concat (map na_objs (List.concat (number_strata (Z.of_nat num) (Z.of_nat ha) l))) = count_up ha (List.length (List.concat (map na_objs (List.concat l)))) /\
  map na_array (List.concat (number_strata (Z.of_nat num) (Z.of_nat ha) l)) = map na_array (List.concat l).
Proof.
  induction l as [|s l IH]; intros num ha; cbn [number_strata List.concat]; [cbn; auto|].
  destruct (number_aes (Z.of_nat num) (Z.of_nat ha) s) as [[r n1] h1] eqn:E.
  apply number_aes_spec in E as (H1 & -> & H3 & -> & H5). cbn [List.concat].
  destruct (IH (num + List.length s)%nat (ha + List.length (List.concat (map na_objs s)))%nat) as (I1 & I2 & I3).
  rewrite !map_app, !concat_app, !app_length, !count_up_app, H1, H3, H5, I1, I2, I3. auto.
Qed.

(** What is true: elements and objects are numbered in order without repetition. *)
Theorem C37_numbers_partial :
  forall counts : list (list nat),
  map na_num (List.concat (numbers counts)) = count_up 0 (List.length (List.concat counts)) /\
  List.concat (map na_objs (List.concat (numbers counts))) = count_up 0 (list_sum (List.concat counts)) /\
  NoDup (map na_num (List.concat (numbers counts))) /\ NoDup (List.concat (map na_objs (List.concat (numbers counts)))).
Proof.
  intros counts. unfold numbers. change 0%Z with (Z.of_nat 0).
  destruct (number_strata_spec (map (map new_numbered) counts) 0 0) as (H1 & H2 & _). rewrite H1, H2.
  rewrite <- concat_map, map_length. split; [reflexivity|]. split; [|split; apply count_up_NoDup].
  f_equal. generalize (List.concat counts) as l. clear. induction l as [|n l IH]; [reflexivity|].
  cbn. rewrite app_length, IH. f_equal. apply repeat_length.
Qed.
Print Assumptions C37_numbers_partial.

(** The element numbers written into the ae array. *)
Theorem C37_element_numbers :
  forall (D : Type) ny type_id look (probe : nat -> nat -> D -> point R -> D * option (write R)) st strata,
  map e_num (flat_map t_aes (to_model ny type_id look probe st 0 0 strata)) = count_up 0 (List.length (flat_map s_aes strata)).
Proof.
  intros D ny type_id look probe st. generalize 0%nat at 1 as si. generalize 0%nat as num.
  intros num si strata. revert num si. induction strata as [|s l IH]; intros num si; [reflexivity|].
  cbn [BuildModel.to_model flat_map t_aes]. rewrite map_app, app_length, count_up_app, IH. f_equal.
  clear. revert num. induction (s_aes s) as [|e l IH]; intros num; [reflexivity|]. cbn. change (count_up num (S (List.length l))) with (Z.of_nat num :: count_up (S num) (List.length l)). f_equal. apply IH.
Qed.
Print Assumptions C37_element_numbers.

(** What the assignment uses for the ha array is 0 for every object. *)
Theorem C37_unique_ha_refuted :
  (forall counts, Forall (fun e => Forall (eq 0%Z) (na_array e)) (List.concat (numbers counts))) /\
  (forall counts, List.concat (map na_array (List.concat (numbers counts))) = repeat 0%Z (list_sum (List.concat counts))) /\
  List.concat (map na_array (List.concat (numbers [[1]; [2; 1]]%nat))) = [0; 0; 0; 0]%Z /\
  List.concat (map na_objs (List.concat (numbers [[1]; [2; 1]]%nat))) = [0; 1; 2; 3]%Z.
Proof.
  assert (H : forall counts, map na_array (List.concat (numbers counts)) = map (repeat 0%Z) (List.concat counts)).
  { intros counts. unfold numbers. change 0%Z with (Z.of_nat 0) at 1 2.
    destruct (number_strata_spec (map (map new_numbered) counts) 0 0) as (_ & _ & ->).
    rewrite <- concat_map, map_map. reflexivity. }
  split; [|split; [|split; reflexivity]]; intros counts.
  - apply Forall_forall. intros e He. apply (in_map na_array) in He. rewrite H in He.
    apply in_map_iff in He as (n & <- & _). apply Forall_forall. intros x Hx. now apply repeat_spec in Hx.
  - rewrite H. generalize (List.concat counts) as l. induction l as [|n l IH]; [reflexivity|]. cbn. now rewrite IH, <- repeat_app.
Qed.
Print Assumptions C37_unique_ha_refuted.
