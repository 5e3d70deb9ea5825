(** C109: from the ini-file to the hydraulic parameters. *)
From Coq Require Import List ZArith Bool Ascii String Reals Lia Lra.
From Verif Require Import Base Num ParseModel SectionSpec SectionProofs ConfigModel ConfigSpec ConfigProofs ConfigProofs2 ConfigProps DeprecatedModel DeprecatedSpec DeprecatedProofs DeprecatedProps
  SurfaceModel StrataModel AssignModel FaciesModel TroughModel SheetModel ChannelModel FullModel FullSpec FullProofs2 FullProps LinkModel LinkSpec LinkProofs LinkProps LinkExamples
  ArrayModel ArrayProofs SpecsimModel HydraulicsModel HydraulicsSpec HydraulicsProofs HydraulicsProps HydroLinkModel HydroLinkProofs.
Import ListNotations.
Local Open Scope string_scope.

Ltac steps H := repeat match type of H with
  | bind (get _ _ _) _ = Ok _ => let v := fresh "v" in let E := fresh "E" in apply bind_Ok in H as (v & E & H); apply get_Ok in E
  | bind _ _ = Ok _ => let v := fresh "v" in let E := fresh "E" in apply bind_Ok in H as (v & E & H)
  | (let (_, _) := ?x in _) = Ok _ => destruct x
  end.

Section Run.
Context {F : Type} (fo : fops F) (fin : F -> option R) (is_nan : F -> bool).

(** The model section of an accepted file gives settings. *)
Lemma model_NoDup : NoDup (flat_map SectionSpec.names (model_options fo)).
Proof. apply nodupb_NoDup. vm_compute. reflexivity. Qed.
Lemma section_truth os (d d' : dict F) k b : NoDup (flat_map SectionSpec.names os) -> section_parse (f_conv fo) os d = Ok d' -> In (bool_opt k b) os -> exists v, dget d' (S_ k) = Some (Leaf (ABool v)).
Proof.
  intros Hnd H Hin. destruct (section_entry (f_conv fo) os d d' _ Hnd H Hin) as (d1 & v & Hm & Hg). cbn [bool_opt o_name] in Hg. rewrite Hg.
  destruct (first_of d _) as [raw|].
  - destruct Hm as [H1 H2]. unfold option_parse in H2. rewrite (find_alternative_id d1 _ _ raw H1), H1 in H2. cbn [bool_opt o_type] in H2. apply bind_Ok in H2 as (w & _ & H2).
    destruct (o_valid _ _); [|discriminate]. injection H2 as <-. eauto.
  - destruct Hm as [_ ->]. cbn. eauto.
Qed.
Lemma default_to_dx_other (m m' : dict F) k k' : default_to_dx m k = Ok m' -> k' <> k -> dget m' (S_ k') = dget m (S_ k').
Proof.
  unfold default_to_dx. intros H Hk. apply bind_Ok in H as (v & _ & H). destruct (is_none v); [|congruence]. apply bind_Ok in H as (w & _ & [= <-]).
  apply dget_dset_other. intros E. apply Hk. now apply S_inj in E.
Qed.
Lemma settings_Ok p (cf : config F) : parse_inifile fo p = Ok cf -> exists se, link_settings cf = Ok se /\ s_level se <> OtherLevel.
Proof.
  intros H. unfold parse_inifile in H.
  apply bind_Ok in H as (u0 & Hu0 & H).
  apply bind_Ok in H as (trun & Htrun & H). apply bind_Ok in H as (run & Hrun & H).
  apply bind_Ok in H as (thyd & Hthyd & H). apply bind_Ok in H as (hyd & Hhyd & H).
  apply bind_Ok in H as (tmod & Htmod & H). apply bind_Ok in H as (m0 & Hm0 & H).
  apply bind_Ok in H as (m1 & Hm1 & H). apply bind_Ok in H as (m2 & Hm2 & H).
  assert (E : cf_model cf = m2).
  { steps H. injection H as <-. reflexivity. }
  clear H. unfold link_settings. rewrite E.
  assert (K : forall k, k <> "dy" -> k <> "dz" -> dget m2 (S_ k) = dget m0 (S_ k)).
  { intros k K1 K2. rewrite (default_to_dx_other _ _ _ _ Hm2) by assumption. now apply (default_to_dx_other _ _ _ _ Hm1). }
  destruct (section_truth _ _ _ "anisotropy" true model_NoDup Hm0) as (b1 & B1); [cbn; tauto|].
  destruct (section_truth _ _ _ "heterogeneity" true model_NoDup Hm0) as (b2 & B2); [cbn; tauto|].
  assert (L : exists s, dget m0 (S_ "heterogeneity_level") = Some (Leaf (AStr (S_ s))) /\ In s ["facies"; "internal"]).
  { destruct (section_str (f_conv fo) _ _ _ (mkOption (S_ "heterogeneity_level") (OScalar TStr) true (Leaf (AStr (S_ "internal"))) (ShInt (-1)%Z) (one_of ["facies"; "internal"]) []) model_NoDup Hm0) as [(s & S1 & S2)|[_ S1]]; [cbn; tauto|reflexivity| |].
    - cbn [o_name o_valid] in S1, S2. unfold one_of in S2. apply mem_In in S2. apply in_map_iff in S2 as (y & <- & Hy). eauto.
    - cbn [o_name o_default] in S1. eexists. split; [exact S1|cbn; tauto]. }
  destruct L as (s & S1 & S2). unfold get, lookup. rewrite !K by discriminate. rewrite B1, B2, S1. cbn [bind truth structure_name]. eexists. split; [reflexivity|].
  cbn [s_level]. rewrite !eqb_S. destruct S2 as [<-|[<-|[]]]; discriminate.
Qed.

(** Elements. *)
Lemma stratum_elements_In (cf : config F) si l : forall num r a, stratum_elements fin cf si num l = Ok r -> In a r -> exists e, In e l /\ a_bg a = ae_bg_facies e.
Proof.
  induction l as [|e l IH]; intros num r a H Ha; cbn [stratum_elements] in H; [injection H as <-; destruct Ha|].
  apply bind_Ok in H as (b & Hb & H). apply bind_Ok in H as (r' & Hr & [= <-]). destruct Ha as [<-|Ha].
  - exists e. split; [now left|]. unfold hydro_element in Hb. apply bind_Ok in Hb as (t & _ & Hb). apply bind_Ok in Hb as (ns & _ & Hb).
    destruct (nth_error _ _) as [[[n| | | |]|]|]; try discriminate. apply bind_Ok in Hb as (ec & _ & Hb). apply bind_Ok in Hb as (kz & _ & Hb). apply bind_Ok in Hb as (kx & _ & [= <-]). reflexivity.
  - destruct (IH _ _ _ Hr Ha) as (e' & H1 & H2). exists e'. split; [now right|assumption].
Qed.
Lemma hydro_elements_In (cf : config F) strata : forall si num r a, hydro_elements fin cf si num strata = Ok r -> In a r ->
  exists k fs e, nth_error strata k = Some fs /\ In e (s_aes (fst fs)) /\ a_bg a = ae_bg_facies e.
Proof.
  induction strata as [|s strata IH]; intros si num r a H Ha; cbn [hydro_elements] in H; [injection H as <-; destruct Ha|].
  apply bind_Ok in H as (x & Hx & H). apply bind_Ok in H as (y & Hy & [= <-]). apply in_app_or in Ha as [Ha|Ha].
  - destruct (stratum_elements_In _ _ _ _ _ _ Hx Ha) as (e & H1 & H2). exists 0%nat, s, e. auto.
  - destruct (IH _ _ _ _ Hy Ha) as (k & fs & e & H1 & H2 & H3). exists (S k), fs, e. auto.
Qed.
(** The background facies of an element is a number of hydrofacies. *)
Lemma background_valid p (cf : config F) lk fuel draws st strata hf :
  parse_inifile fo p = Ok cf -> link fin is_nan cf = Ok lk -> Forall (fsd_ok (columns (lk_grid lk))) draws -> generate lk fuel draws = Ok (st, strata) ->
  has (cf_hydraulics cf) "hydrofacies" (Node hf) ->
  forall si fs e, nth_error strata si = Some fs -> In e (s_aes (fst fs)) -> (0 <= ae_bg_facies e < Z.of_nat (List.length hf))%Z.
Proof.
  intros Hp Hlk Hd Hg Hhf si fs e Hs He. apply In_nth_error in He as (k & Hk).
  destruct (element_origin _ _ _ _ _ _ _ Hg Hd si fs k e Hs Hk) as (o & fp & ft & od & _ & _ & (O1 & O2 & _ & O3 & _)).
  destruct (link_inv _ _ _ _ Hlk) as (ids & sts & Hids & Hsts & Hlen & Hstr).
  apply pyget_neg in O1 as [O0 O1]. specialize (Hstr si fp O1 O0).
  destruct (link_stratum_inv _ _ _ _ _ _ Hstr) as [(ls & w & B1 & B2 & ->) (ls' & t & names & T1 & T2 & T3 & T4)].
  destruct (Forall2_nth_r _ _ _ T4 _ _ O2) as (nv & Hnv & Hnt). unfold named_type in Hnt. destruct nv as [[n| | | |]|]; try discriminate.
  apply bind_Ok in Hnt as (ec & Hec & Hnt). apply bind_Ok in Hnt as (id & Hid & Hnt). apply link_type_from in Hnt as [_ _ (f & Q1 & Q2) _ _].
  destruct ec as [e' cm]. cbn [fst] in *. apply assoc_In in Hec. apply parse_inifile_inv in Hp.
  destruct Hp as [_ _ _ (t0 & s0 & _ & _ & _ & cms & sts' & _ & _ & _ & _ & _ & _ & Hbg) _ Hel].
  rewrite O3, Q2. destruct (Z.eqb_spec f (-1)) as [->|Hf].
  - destruct (Hbg _ Hhf) as (v0 & idx & _ & E & (ns & ks & _ & -> & Hpos)). unfold has in B1. rewrite E in B1. injection B1 as <-.
    cbn in B2. apply pyget_neg in B2 as [_ B2]. apply nth_error_In, in_map_iff in B2 as (i & [= Hi] & Hin). destruct (Forall2_in_r _ _ _ _ Hpos Hin) as (a & _ & P). apply position_bound in P. lia.
  - destruct (Hel _ _ _ Hec) as (tx & _ & Hpe). destruct (parse_element_inv fo _ _ _ _ _ Hhf Hpe) as (g & e0 & Hes). eapply mentions_valid; eauto. now apply is_bg.
Qed.

Lemma shape_nth (g : grid R) c : In c (cells (shape_of g)) ->
  exists x y z, nth_error (g_x g) (cx c) = Some x /\ nth_error (g_y g) (cy c) = Some y /\ nth_error (g_z g) (cz c) = Some z.
Proof.
  intros H. apply in_cells in H as (H1 & H2 & H3). unfold shape_of in *. cbn [cx cy cz fst snd] in H1, H2, H3.
  destruct (nth_error (g_x g) (cx c)) as [x|] eqn:Ex; [|apply nth_error_None in Ex; cbn in *; lia].
  destruct (nth_error (g_y g) (cy c)) as [y|] eqn:Ey; [|apply nth_error_None in Ey; cbn in *; lia].
  destruct (nth_error (g_z g) (cz c)) as [z|] eqn:Ez; [|apply nth_error_None in Ez; cbn in *; lia]. eauto 7.
Qed.

(** The layers of dip and bulb sets may be missed (C107); then the facies is
    [wild]. *)
Definition layers_hit (cf : config F) (wild : nat -> nat -> point R -> Z) : Prop :=
  (exists n e cm, In (n, (e, cm)) (cf_elements cf) /\ has_layers e) ->
  forall hf, has (cf_hydraulics cf) "hydrofacies" (Node hf) -> forall num oi pt, (0 <= wild num oi pt < Z.of_nat (List.length hf))%Z.

Lemma geology_valid p (cf : config F) lk fuel draws st strata wild hf :
  parse_inifile fo p = Ok cf -> link fin is_nan cf = Ok lk -> Forall (fsd_ok (columns (lk_grid lk))) draws -> generate lk fuel draws = Ok (st, strata) ->
  layers_hit cf wild -> has (cf_hydraulics cf) "hydrofacies" (Node hf) -> facies_ok (shape_of (lk_grid lk)) (geology_of (arrays lk wild st strata)) (List.length hf).
Proof.
  intros Hp Hlk Hd Hg Hw Hhf c Hc. destruct (shape_nth _ _ Hc) as (x & y & z & Ex & Ey & Ez).
  destruct (C107_valid_facies _ _ _ _ _ _ _ _ _ _ _ wild Hp Hlk Hd Hg _ _ _ _ _ _ Ex Ey Ez) as (v & hf' & Ev & Hhf' & Hv).
  unfold has in Hhf, Hhf'. rewrite Hhf in Hhf'. injection Hhf' as <-. cbn [geology_of g_fac]. unfold the_cell. rewrite Ev.
  destruct Hv as [Hv|(n & e & cm & num & oi & H1 & H2 & ->)]; [exact Hv|]. apply Hw; eauto.
Qed.
End Run.

(** C109.  A run with heterogeneous parameters from an accepted file succeeds:
    each facies and each background has its entries in all lists. *)
Theorem C109_never_fails :
  forall (F : Type) (fo : fops F) (fin : F -> option R) is_nan p (cf : config F) lk fuel draws st strata wild h aes draw ae_draw,
  parse_inifile fo p = Ok cf -> link fin is_nan cf = Ok lk ->
  Forall (fsd_ok (columns (lk_grid lk))) draws -> generate lk fuel draws = Ok (st, strata) -> layers_hit cf wild ->
  has (cf_model cf) "heterogeneity" (Leaf (ABool true)) ->
  link_hydraulics fin cf = Ok h -> hydro_elements fin cf 0 0 strata = Ok aes ->
  exists r, run_hydraulics fin cf lk wild st strata draw ae_draw = Ok r.
Proof.
  intros F fo fin is_nan p cf lk fuel draws st strata wild h aes draw ae_draw Hp Hlk Hd Hg Hw Hhet Hh Hae.
  destruct (settings_Ok fo _ _ Hp) as ([het lv an] & Hse & Hlv). unfold run_hydraulics. rewrite Hh, Hse, Hae. cbn [bind].
  assert (het = true) as ->.
  { unfold link_settings in Hse. steps Hse. injection Hse as <- _ _. destruct E0 as (w & W1 & W2). unfold has in *. rewrite Hhet in W1. injection W1 as <-. cbn in W2. congruence. }
  assert (Q := parse_inifile_inv fo _ _ Hp). destruct (fs_hf _ _ _ Q) as (hx & hl & Hhf).
  assert (Hc := hydraulics_complete fo fin _ _ _ _ Hp Hh Hhf).
  assert (Hf := geology_valid fo fin is_nan _ _ _ _ _ _ _ wild _ Hp Hlk Hd Hg Hw Hhf).
  destruct lv; [| |contradiction].
  - eapply C55_never_fails; [exact Hc|exact Hf|]. intros a Ha. destruct (hydro_elements_In _ _ _ _ _ _ _ Hae Ha) as (k & fs & e & H1 & H2 & ->).
    eapply (background_valid fo fin is_nan); eauto.
  - eapply C54_never_fails; eauto.
Qed.
Print Assumptions C109_never_fails.

(** C109.  At the level of facies every cell reports the entries of k_h, n and
    k_ratio at the position that the facies of the cell has in hydrofacies. *)
Theorem C109_facies_level :
  forall (F : Type) (fo : fops F) (fin : F -> option R) is_nan p (cf : config F) lk fuel draws st strata wild draw ae_draw r,
  parse_inifile fo p = Ok cf -> link fin is_nan cf = Ok lk ->
  Forall (fsd_ok (columns (lk_grid lk))) draws -> generate lk fuel draws = Ok (st, strata) -> layers_hit cf wild ->
  has (cf_model cf) "heterogeneity" (Leaf (ABool true)) -> has (cf_model cf) "heterogeneity_level" (Leaf (AStr (S_ "facies"))) ->
  run_hydraulics fin cf lk wild st strata draw ae_draw = Ok r ->
  forall c, In c (cells (shape_of (lk_grid lk))) ->
  exists v hf name, arrays lk wild st strata (cx c) (cy c) (cz c) = Some v /\ has (cf_hydraulics cf) "hydrofacies" (Node hf) /\
    nth_error hf (Z.to_nat (c_facies v)) = Some name /\
    forall key a, In (key, a) [("k_h", p_stored_k r); ("n", p_stored_n r); ("k_ratio", p_anirat r)] ->
    exists l x, has (cf_hydraulics cf) key (Node l) /\ List.length l = List.length hf /\ nth_error l (Z.to_nat (c_facies v)) = Some x /\ real fin x = Ok (a c).
Proof.
  intros F fo fin is_nan p cf lk fuel draws st strata wild draw ae_draw r Hp Hlk Hd Hg Hw Hhet Hlev Hr c Hc.
  unfold run_hydraulics in Hr. apply bind_Ok in Hr as (h & Hh & Hr). apply bind_Ok in Hr as (se & Hse & Hr). apply bind_Ok in Hr as (aes & Hae & Hr).
  assert (se = mkSettings true FaciesLevel (s_anisotropy se)) as E.
  { unfold link_settings in Hse. steps Hse. injection Hse as <-. destruct E0 as (w & W1 & W2), E1 as (u & U1 & U2). unfold has in *. rewrite Hhet in W1. rewrite Hlev in U1. injection W1 as <-. injection U1 as <-.
    cbn in W2, U2. injection W2 as <-. apply Ok_inj' in U2. subst. reflexivity. }
  rewrite E in Hr.
  assert (Q := parse_inifile_inv fo _ _ Hp). destruct (fs_hf _ _ _ Q) as (hx & hl & Hhf).
  assert (Hco := hydraulics_complete fo fin _ _ _ _ Hp Hh Hhf).
  assert (Hf := geology_valid fo fin is_nan _ _ _ _ _ _ _ wild _ Hp Hlk Hd Hg Hw Hhf c Hc).
  destruct (C54_facies_level _ _ _ _ _ _ _ _ _ Hr c Hc) as (K1 & K2 & K3); [lia|].
  destruct (shape_nth _ _ Hc) as (x & y & z & Ex & Ey & Ez).
  destruct (C107_valid_facies _ _ _ _ _ _ _ _ _ _ _ wild Hp Hlk Hd Hg _ _ _ _ _ _ Ex Ey Ez) as (v & _ & Ev & _).
  cbn [geology_of g_fac] in Hf, K1, K2, K3. unfold the_cell in Hf, K1, K2, K3. rewrite Ev in Hf, K1, K2, K3.
  destruct (nth_error (hx :: hl) (Z.to_nat (c_facies v))) as [name|] eqn:En; [|apply nth_error_None in En; lia].
  exists v, (hx :: hl), name. split; [exact Ev|]. split; [exact Hhf|]. split; [exact En|].
  assert (G : forall key l a, get (reals fin) (cf_hydraulics cf) key = Ok l -> List.length l = List.length (hx :: hl) -> listed l (c_facies v) a ->
    exists l' x, has (cf_hydraulics cf) key (Node l') /\ List.length l' = List.length (hx :: hl) /\ nth_error l' (Z.to_nat (c_facies v)) = Some x /\ real fin x = Ok a).
  { intros key l a G1 G2 [_ G3]. apply get_Ok in G1 as (w & W1 & W2). destruct w as [|l']; [discriminate|]. cbn in W2. assert (L := mapM_length _ _ _ W2). apply mapM_Ok in W2.
    destruct (Forall2_nth_r _ _ _ W2 _ _ G3) as (u & U1 & U2). exists l', u. split; [exact W1|]. split; [congruence|]. auto. }
  unfold link_hydraulics in Hh.
  repeat match type of Hh with bind _ _ = Ok _ => let v := fresh "v" in let E := fresh "E" in apply bind_Ok in Hh as (v & E & Hh) end.
  injection Hh as <-. destruct Hco as (C1 & C2 & C3 & _). cbn [h_k h_ratio h_n] in *.
  intros key a [[= <- <-]|[[= <- <-]|[[= <- <-]|[]]]]; eapply G; eassumption.
Qed.
Print Assumptions C109_facies_level.

(** C109.  Conductivities are positive if those of the facies and the factors of
    the trends are. *)
Theorem C109_positive :
  forall (F : Type) (fo : fops F) (fin : F -> option R) is_nan p (cf : config F) lk fuel draws st strata wild draw ae_draw h aes r,
  parse_inifile fo p = Ok cf -> link fin is_nan cf = Ok lk ->
  Forall (fsd_ok (columns (lk_grid lk))) draws -> generate lk fuel draws = Ok (st, strata) -> layers_hit cf wild ->
  has (cf_model cf) "heterogeneity" (Leaf (ABool true)) ->
  link_hydraulics fin cf = Ok h -> hydro_elements fin cf 0 0 strata = Ok aes ->
  run_hydraulics fin cf lk wild st strata draw ae_draw = Ok r ->
  Forall (fun k => 0 < k)%R (h_k h) -> positive_trends (h_trends h) -> (forall e, In e aes -> positive_trends (a_trends e)) ->
  forall c, In c (cells (shape_of (lk_grid lk))) -> (0 < p_k r c)%R /\ (0 < p_stored_k r c)%R.
Proof.
  intros F fo fin is_nan p cf lk fuel draws st strata wild draw ae_draw h aes r Hp Hlk Hd Hg Hw Hhet Hh Hae Hr Hk Ht Ha.
  destruct (settings_Ok fo _ _ Hp) as (se & Hse & Hlv). unfold run_hydraulics in Hr. rewrite Hh, Hse, Hae in Hr. cbn [bind] in Hr.
  assert (Q := parse_inifile_inv fo _ _ Hp). destruct (fs_hf _ _ _ Q) as (hx & hl & Hhf).
  eapply C58_positive; [exact Hr|exact Hlv| | |exact Hk|exact Ht|exact Ha].
  - eapply (geology_valid fo fin is_nan); eauto.
  - intros Hf. exfalso. unfold link_settings in Hse. steps Hse. injection Hse as <-. cbn in Hf. destruct E0 as (w & W1 & W2). unfold has in *. rewrite Hhet in W1. injection W1 as <-. cbn in W2. congruence.
Qed.
Print Assumptions C109_positive.

(** The file of C107, and the same with one value for each facies. *)
Definition lf_ini : inifile :=
  map (fun s => if pystr_eqb (fst s) (S_ "model") then (fst s, (snd s ++ [kv "heterogeneity_level" "facies"])%list) else s) lk_ini.
Definition lf_cf : config Z := Eval vm_compute in match parse_inifile toyf lf_ini with Ok c => c | Err _ => mkConfig [] [] [] [] [] [] [] end.
Lemma lf_parse : parse_inifile toyf lf_ini = Ok lf_cf.
Proof. vm_compute. reflexivity. Qed.
Lemma lf_link : link lk_fin lk_nan lf_cf = Ok lk_linked.
Proof. lazy -[IZR grid_init NumR fx_grid]. rewrite fx_grid_ok. reflexivity. Qed.
Definition lk_hydro : hydro := Eval lazy -[IZR] in match link_hydraulics lk_fin lk_cf with Ok h => h | Err _ => mkHydro [] [] [] [] [] [] [] no_trends None end.
Lemma lk_hydro_Ok cf : cf = lk_cf \/ cf = lf_cf -> link_hydraulics lk_fin cf = Ok lk_hydro.
Proof. intros [-> | ->]; lazy -[IZR]; reflexivity. Qed.
Definition lk_elements : list element := [mkElement 0 0 no_trends; mkElement 1 1 no_trends].
Lemma lk_elements_Ok cf : cf = lk_cf \/ cf = lf_cf -> hydro_elements lk_fin cf 0 0 lk_strata = Ok lk_elements.
Proof. intros [-> | ->]; lazy -[IZR]; reflexivity. Qed.
Lemma lk_layers cf : cf = lk_cf \/ cf = lf_cf -> layers_hit cf (fun _ _ _ => 0%Z).
Proof. intros [-> | ->] _ hf Hh num oi pt; vm_compute in Hh; injection Hh as <-; cbn; lia. Qed.
Example C109_example draw ae_draw : exists r, run_hydraulics lk_fin lk_cf lk_linked (fun _ _ _ => 0%Z) lk_st lk_strata draw ae_draw = Ok r /\
  forall c, In c (cells (shape_of (lk_grid lk_linked))) -> (0 < p_stored_k r c)%R.
Proof.
  assert (E : lk_cf = lk_cf \/ lk_cf = lf_cf) by now left.
  assert (Hd : Forall (fsd_ok (columns (lk_grid lk_linked))) lk_draws) by repeat constructor.
  destruct (C109_never_fails _ toyf lk_fin lk_nan lk_ini lk_cf lk_linked 5 lk_draws lk_st lk_strata (fun _ _ _ => 0%Z) _ _ draw ae_draw lk_parse lk_link Hd lk_runs (lk_layers _ E) eq_refl (lk_hydro_Ok _ E) (lk_elements_Ok _ E)) as (r & Hr).
  exists r. split; [exact Hr|]. intros c Hc.
  eapply (C109_positive _ toyf lk_fin lk_nan lk_ini lk_cf lk_linked 5 lk_draws lk_st lk_strata (fun _ _ _ => 0%Z) draw ae_draw _ _ r lk_parse lk_link Hd lk_runs (lk_layers _ E) eq_refl (lk_hydro_Ok _ E) (lk_elements_Ok _ E) Hr); auto.
  - repeat constructor; lra.
  - split; exact I.
  - intros e [<-|[<-|[]]]; split; exact I.
Qed.
Example C109_example_facies draw ae_draw : exists r, run_hydraulics lk_fin lf_cf lk_linked (fun _ _ _ => 0%Z) lk_st lk_strata draw ae_draw = Ok r /\
  p_stored_k r (0, 0, 7)%nat = 2%R.
Proof.
  assert (E : lf_cf = lk_cf \/ lf_cf = lf_cf) by now right.
  assert (Hd : Forall (fsd_ok (columns (lk_grid lk_linked))) lk_draws) by repeat constructor.
  destruct (C109_never_fails _ toyf lk_fin lk_nan lf_ini lf_cf lk_linked 5 lk_draws lk_st lk_strata (fun _ _ _ => 0%Z) _ _ draw ae_draw lf_parse lf_link Hd lk_runs (lk_layers _ E) eq_refl (lk_hydro_Ok _ E) (lk_elements_Ok _ E)) as (r & Hr).
  exists r. split; [exact Hr|].
  assert (Hc : In (0, 0, 7)%nat (cells (shape_of (lk_grid lk_linked)))) by (apply in_cells; vm_compute; lia).
  destruct (C109_facies_level _ toyf lk_fin lk_nan lf_ini lf_cf lk_linked 5 lk_draws lk_st lk_strata (fun _ _ _ => 0%Z) draw ae_draw r lf_parse lf_link Hd lk_runs (lk_layers _ E) eq_refl eq_refl Hr _ Hc) as (v & hf & name & Ev & _ & _ & H).
  destruct (H "k_h" (p_stored_k r) (or_introl eq_refl)) as (l & x & L1 & _ & L2 & L3).
  destruct C107_example_upper as (v' & E' & E1 & _). assert (v' = v) as -> by (cbn [cx cy cz fst snd] in Ev; congruence). rewrite E1 in L2.
  vm_compute in L1. injection L1 as <-. cbn in L2. injection L2 as <-. cbn in L3. congruence.
Qed.
