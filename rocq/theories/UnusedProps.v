(** C151: an element type that no stratum uses does not matter. *)
From Coq Require Import List ZArith Bool Ascii String Lia Reals.
From Verif Require Import Base Num ParseModel ConfigModel ConfigSpec ConfigProofs ConfigProofs2 ParseProps ConfigProps DeprecatedModel
  SurfaceModel SurfaceProps StrataModel AssignModel AssignProps BuildModel FaciesModel TroughModel SheetModel ChannelModel FullModel FullProps
  LinkModel LinkProps LinkExamples HydroLinkModel FileOrderProofs FileOrderProofs2 UnusedSpec UnusedProofs.
Import ListNotations.
Local Open Scope string_scope.
Local Open Scope list_scope.

Lemma assoc_app {A} (l m : list (pystr * A)) n a : assoc l n = Ok a -> assoc (l ++ m) n = Ok a.
Proof. induction l as [|[k v] l IH]; cbn; [discriminate|]. destruct (pystr_eqb n k); auto. Qed.
Lemma index_app {F} (x : val (atom F)) l m k : index_in x l = Some k -> index_in x (l ++ m) = Some k.
Proof.
  revert k. induction l as [|y l IH]; cbn; [discriminate|]. intros k. destruct (value_eqb x y); [auto|].
  destruct (index_in x l) as [j|]; [|discriminate]. intros [= <-]. now rewrite (IH j eq_refl).
Qed.
Lemma index_last {F} (n : pystr) (l : list (val (atom F))) : exists k, index_in (Leaf (AStr n)) (l ++ [Leaf (AStr n)]) = Some k.
Proof.
  induction l as [|y l (k & IH)]; cbn.
  - rewrite pystr_eqb_refl. eauto.
  - rewrite IH. destruct y as [[s| | | |]|]; try (eexists; reflexivity). destruct (pystr_eqb n s); eauto.
Qed.

Section Link.
Context {F : Type} (fin : F -> option R) (is_nan : F -> bool).

Lemma ids_more n (cf cf' : config F) ids : more_config n cf cf' -> listed_last n cf cf' -> ae_ids cf = Ok ids ->
  exists k, ae_ids cf' = Ok (ids ++ [(n, k)]).
Proof.
  intros (_ & _ & _ & _ & _ & _ & e & Ee) (l & E1 & E2) H. unfold ae_ids, lookup in *. rewrite E1 in H. rewrite E2, Ee.
  cbn [bind] in *. destruct (index_last (F := F) n l) as (k & Ek). exists (Z.of_nat k). apply mapM_app_ok.
  - clear - H. revert ids H. induction (cf_elements cf) as [|x r IH]; intros ids H; [exact H|]. cbn [mapM] in *.
    apply bind_Ok in H as (y & Ey & H). apply bind_Ok in H as (ys & Eys & H). injection H as <-.
    rewrite (IH ys Eys). unfold list_index in *. destruct (index_in (Leaf (AStr (fst x))) l) as [j|] eqn:Ej; [|discriminate].
    rewrite (index_app _ _ _ _ Ej). cbn in *. injection Ey as <-. reflexivity.
  - cbn. now rewrite Ek.
Qed.

Lemma link_more n (cf cf' : config F) lk : more_config n cf cf' -> listed_last n cf cf' ->
  link fin is_nan cf = Ok lk -> link fin is_nan cf' = Ok lk.
Proof.
  intros H HL E. unfold link in *. destruct (ae_ids cf) as [ids|] eqn:Ei; [|discriminate].
  destruct (ids_more n cf cf' ids H HL Ei) as (k & Ei'). rewrite Ei'. destruct H as (_ & H2 & H3 & H4 & _ & _ & e & He).
  rewrite <- H2, <- H4. cbn [bind] in *. revert lk E.
  match goal with |- forall lk, ?r = Ok lk -> ?r' = Ok lk => enough (K : fw eq r r') by (intros lk E; destruct (K lk E) as (b & Eb & <-); exact Eb) end.
  do 11 (apply fw_eq; [reflexivity|]; intros ? _).
  apply fw_eq; [reflexivity|]. intros contacts _.
  apply fw_eq; [apply (but_lookup _ _ _ _ H3); discriminate|]. intros sv _. apply fw_eq; [reflexivity|]. intros m _.
  apply (fw_bind eq); [|intros ps ps' <-; apply fw_refl].
  apply mapM_same. intros i. unfold link_stratum. cbv zeta.
  assert (HI : forall x j, S_ x <> S_ "ae" -> item (cf_strata cf) x j = item (cf_strata cf') x j).
  { intros x j Hx. unfold item. now rewrite (but_lookup _ _ _ _ H3 Hx). }
  repeat (apply fw_eq; [first [reflexivity|apply HI; discriminate]|]; intros ? _).
  apply (fw_bind eq); [|intros ts ts' <-; apply fw_refl].
  apply mapM_same. intros v. unfold named_type. destruct v as [[s| | | |]|]; try (intros x Ex; discriminate).
  intros ft E. apply bind_Ok in E as (ec & E1 & E). apply bind_Ok in E as (id & E2 & E).
  rewrite He, (assoc_app _ _ _ _ E1). cbn [bind]. rewrite (assoc_app _ _ _ _ E2). cbn [bind]. eauto.
Qed.

Lemma hydraulics_more n (cf cf' : config F) lk wild st strata draw ae_draw r : more_config n cf cf' ->
  run_hydraulics fin cf lk wild st strata draw ae_draw = Ok r -> run_hydraulics fin cf' lk wild st strata draw ae_draw = Ok r.
Proof.
  intros (_ & H2 & H3 & _ & H5 & _ & e & He).
  assert (HI : forall x j, S_ x <> S_ "ae" -> item (cf_strata cf) x j = item (cf_strata cf') x j).
  { intros x j Hx. unfold item. now rewrite (but_lookup _ _ _ _ H3 Hx). }
  assert (G : forall si l num, fw eq (stratum_elements fin cf si num l) (stratum_elements fin cf' si num l)).
  { intros si l. induction l as [|x l IH]; intros num; [apply fw_refl|]. cbn [stratum_elements].
    apply (fw_bind eq).
    - unfold hydro_element. apply fw_eq; [apply HI; discriminate|]. intros v _. apply fw_eq; [reflexivity|]. intros names _.
      destruct (nth_error _ _) as [[[s| | | |]|]|]; try (intros y Ey; discriminate).
      intros el E. apply bind_Ok in E as (ec & E1 & E). rewrite He, (assoc_app _ _ _ _ E1). cbn [bind]. eauto.
    - intros y y' <-. apply (fw_bind eq _ _ _ _ _ (IH (S num))). intros z z' <-. apply fw_refl. }
  assert (GG : forall l si num, fw eq (hydro_elements fin cf si num l) (hydro_elements fin cf' si num l)).
  { induction l as [|s l IH]; intros si num; [apply fw_refl|]. cbn [hydro_elements].
    apply (fw_bind eq _ _ _ _ _ (G si _ num)). intros x x' <-.
    apply (fw_bind eq _ _ _ _ _ (IH (S si) _)). intros y y' <-. apply fw_refl. }
  unfold run_hydraulics, link_hydraulics, link_settings. rewrite <- H2, <- H5. intros E.
  match type of E with ?r0 = _ => match goal with |- ?r1 = _ => assert (K : fw eq r0 r1) end end.
  { apply fw_eq; [reflexivity|]. intros h _. apply fw_eq; [reflexivity|]. intros se _.
    apply (fw_bind eq _ _ _ _ _ (GG strata 0%nat 0%nat)). intros a a' <-. apply fw_refl. }
  destruct (K r E) as (b & Eb & <-). exact Eb.
Qed.
End Link.

(** One more section at the end of the file, its name last in the list of types:
    the other settings are the same, and the model of the file without the section
    is the model of the file with it. *)
Theorem C151_unused_type : forall F (fo : fops F) p n t p' cf cf' fin is_nan,
  NoDup (map fst p) -> one_more p n t p' -> parse_inifile fo p = Ok cf -> parse_inifile fo p' = Ok cf' -> listed_last n cf cf' ->
  (cf_run cf = cf_run cf' /\ cf_model cf = cf_model cf' /\ cf_contacts cf = cf_contacts cf' /\ cf_hydraulics cf = cf_hydraulics cf' /\
   cf_flowtrans cf = cf_flowtrans cf' /\ (forall k, k <> S_ "ae" -> dget (cf_strata cf) k = dget (cf_strata cf') k) /\
   exists e, cf_elements cf' = cf_elements cf ++ [(n, e)]) /\
  (forall lk, link fin is_nan cf = Ok lk -> link fin is_nan cf' = Ok lk) /\
  (forall lk wild st strata draw ae_draw r,
     run_hydraulics fin cf lk wild st strata draw ae_draw = Ok r -> run_hydraulics fin cf' lk wild st strata draw ae_draw = Ok r).
Proof.
  intros F fo p n t p' cf cf' fin is_nan Hn H E E' HL. pose proof (parse_more fo p n t p' Hn H cf cf' E E') as M.
  split; [|split].
  - destruct M as (M1 & M2 & M3 & M4 & M5 & M6 & M7). auto 10.
  - intros lk. now apply (link_more fin is_nan n).
  - intros lk wild st strata draw ae_draw r. now apply (hydraulics_more fin n).
Qed.
Print Assumptions C151_unused_type.

(** The file of C107 with a third type, spare, that no stratum uses. *)
Definition uu_ini (types : string) : inifile :=
  [ex_run; (S_ "model", [kv "dx" "1"; kv "lx" "1"; kv "ly" "1"; kv "lz" "10"]);
   (S_ "strata", [kv "strata" "[lower, upper]"; kv "strata_contact_models" "[[flat, 5]]"; kv "ae" types;
     kv "ae_in_strata" "[[mud],[gravel]]"; kv "ae_prob" "[[1],[1]]"; kv "ae_z_mean" "[[5],[5]]";
     kv "avul_prob" "[[0],[0]]"; kv "avul" "[[0,0],[0,0]]"; kv "bg_facies" "[sand, clay]"; kv "bg_azim" "0"; kv "bg_dip" "0"]);
   ex_hydraulics; lk_sheet "mud" "[clay]"; lk_sheet "gravel" "[sand]"; lk_sheet "spare" "[clay, sand]"].
Definition uu_cf (types : string) : config Z := match parse_inifile toyf (uu_ini types) with Ok c => c | Err _ => mkConfig [] [] [] [] [] [] [] end.
Lemma uu_one_more types : one_more lk_ini (S_ "spare") (snd (lk_sheet "spare" "[clay, sand]")) (uu_ini types).
Proof.
  split; [|split].
  - intros H. cbn in H. repeat (destruct H as [H|H]; [discriminate|]). exact H.
  - intros H. cbn in H. repeat (destruct H as [H|H]; [discriminate|]). exact H.
  - eexists (firstn 6 (uu_ini types)). split; [reflexivity|].
    repeat (constructor; [split; [reflexivity|split; [intros Hs; try reflexivity; now destruct Hs|intros k Hk; try reflexivity]]|]); [|constructor].
    cbn [fst snd kv option_text].
    repeat match goal with |- context [pystr_eqb k (S_ "ae")] => destruct (pystr_eqb k (S_ "ae")) eqn:Ek; [now apply pystr_eqb_eq in Ek|] end.
    reflexivity.
Qed.
Example C151_example : link lk_fin lk_nan (uu_cf "[mud, gravel, spare]") = Ok lk_linked /\ List.length (cf_elements (uu_cf "[mud, gravel, spare]")) = 3%nat.
Proof.
  split; [|vm_compute; reflexivity].
  refine (proj1 (proj2 (C151_unused_type Z toyf lk_ini (S_ "spare") _ (uu_ini "[mud, gravel, spare]") lk_cf _ lk_fin lk_nan _ (uu_one_more _) lk_parse _ _)) _ lk_link).
  - cbn. repeat (constructor; [intros H; cbn in H; repeat (destruct H as [H|H]; [discriminate|]); exact H|]). constructor.
  - vm_compute. reflexivity.
  - eexists [Leaf (AStr (S_ "mud")); Leaf (AStr (S_ "gravel"))]. split; vm_compute; reflexivity.
Qed.

(** Last in the list of types: the number of a type is its place in this list, so
    with the unused type in front the other types have other numbers. *)
Theorem C151_first_refuted : exists p n t p' cf cf' lk,
  one_more p n t p' /\ parse_inifile toyf p = Ok cf /\ parse_inifile toyf p' = Ok cf' /\
  (exists l, dget (cf_strata cf) (S_ "ae") = Some (Node l) /\ dget (cf_strata cf') (S_ "ae") = Some (Node (Leaf (AStr n) :: l))) /\
  link lk_fin lk_nan cf = Ok lk /\ link lk_fin lk_nan cf' <> Ok lk.
Proof.
  exists lk_ini, (S_ "spare"), (snd (lk_sheet "spare" "[clay, sand]")), (uu_ini "[spare, mud, gravel]"), lk_cf, (uu_cf "[spare, mud, gravel]"), lk_linked.
  split; [apply uu_one_more|]. split; [exact lk_parse|]. split; [vm_compute; reflexivity|].
  split; [eexists; split; vm_compute; reflexivity|]. split; [exact lk_link|].
  intros H. assert (E : link lk_fin lk_nan (uu_cf "[spare, mud, gravel]") = Ok (mkLinked fx_grid (mkDomain false 1 1) [mkContact (S_ "flat") (Some 5%R) None]
    [mkFP [lk_type 1 0] 0 (mkSbg 1%Z (Some 0%R) (Some 0%R)); mkFP [lk_type 2 1] 0 (mkSbg 0%Z (Some 0%R) (Some 0%R))])).
  { lazy -[IZR grid_init NumR fx_grid]. rewrite fx_grid_ok. reflexivity. }
  rewrite E in H. injection H. discriminate.
Qed.
Print Assumptions C151_first_refuted.
