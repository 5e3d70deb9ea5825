(** Lists of an accepted hydraulics section have an entry for each facies. *)
From Coq Require Import List ZArith Bool Ascii String Reals Lia Lra.
From Verif Require Import Base Num ParseModel ParseSpec SectionSpec SectionProofs ShapeProofs ShapeProofs2 ShapeProofs3 ParseProps ConfigModel ConfigSpec ConfigProofs ConfigProofs2 ConfigProps DeprecatedModel DeprecatedSpec
  SurfaceModel StrataModel AssignModel FullModel LinkModel LinkSpec LinkProofs ArrayModel HydraulicsModel HydraulicsSpec HydroLinkModel.
Import ListNotations.
Local Open Scope string_scope.

Definition leaf {A} (v : val A) : Prop := exists a, v = Leaf a.

Lemma numdim_leaves {A} (l : list (val A)) : l <> [] -> Forall leaf l -> numdim (Node l) = Ok 1%nat.
Proof.
  intros Hn Hl. destruct (snoc_cases l Hn) as (l' & x & ->). rewrite last_dim_eq. apply Forall_app in Hl as [_ Hl]. inversion Hl as [|? ? (a & ->) _]; subst. reflexivity.
Qed.
Lemma get_shape_leaves {A} (l : list (val A)) : l <> [] -> Forall leaf l -> get_shape (Node l) = Ok (Node [Leaf (Z.of_nat (List.length l))]).
Proof.
  intros Hn Hl. unfold get_shape. rewrite get_shape1_node, (numdim_leaves l Hn Hl). cbn [bind]. destruct (Z.eqb_spec (Z.of_nat (List.length l)) (-1)); [lia|reflexivity].
Qed.
Lemma numdim_node {A} (l : list (val A)) d : numdim (Node l) = Ok d -> exists k, d = S k.
Proof.
  destruct l as [|a l]; [discriminate|]. destruct (snoc_cases (a :: l)) as (l' & x & ->); [discriminate|]. rewrite last_dim_eq. destruct x as [y|m].
  - intros [= <-]. eauto.
  - intros H. apply bind_Ok in H as (k & _ & [= <-]). eauto.
Qed.
Lemma shape_levels_length n : forall s r, shape_levels n s = Ok r -> List.length r = n.
Proof.
  induction n as [|n IH]; intros s r H; cbn in H; [injection H as <-; reflexivity|].
  apply bind_Ok in H as (s' & _ & H). apply bind_Ok in H as (r' & H & [= <-]). cbn. f_equal. eauto.
Qed.
Lemma get_shape_single {A} (l : list (val A)) x : get_shape (Node l) = Ok (Node [x]) -> x = Leaf (Z.of_nat (List.length l)).
Proof.
  unfold get_shape. rewrite get_shape1_node. intros H. apply bind_Ok in H as (s & Hs & H). apply bind_Ok in Hs as (d & Hd & Hs).
  destruct (numdim_node _ _ Hd) as (k & ->). destruct k as [|k].
  - injection Hs as <-. destruct (Z.eqb_spec (Z.of_nat (List.length l)) (-1)); [lia|]. congruence.
  - apply bind_Ok in Hs as (r & _ & [= <-]). apply bind_Ok in H as (n & Hn & H). apply bind_Ok in H as (more & Hm & H).
    apply shape_levels_length in Hm. destruct (numdim_node _ _ Hn) as (j & ->).
    assert (E : rev (Node r :: more) = [x]) by congruence. apply (f_equal (@List.length _)) in E. rewrite rev_length in E. cbn in E. lia.
Qed.
Lemma val_eqb_leaf (a : val Z) z : val_eqb a (Leaf z) = true -> a = Leaf z.
Proof. destruct a as [y|m]; cbn; [intros H; apply Z.eqb_eq in H; now subst|discriminate]. Qed.
Lemma is_flat_leaves (l : list (val Z)) : is_flat l = Ok true -> l = map (fun z => Leaf z) (leaves_of l).
Proof.
  induction l as [|x l IH]; [reflexivity|]. cbn [is_flat]. intros H. apply bind_Ok in H as (d & Hd & H). destruct d; [|discriminate].
  destruct x as [z|m]; [|apply numdim_node in Hd as (? & ?); discriminate]. cbn. f_equal. auto.
Qed.
Lemma positive_loop_id shape fr : ~ In (-1)%Z shape -> forall i s, positive_loop shape i fr = Ok s -> s = shape.
Proof.
  intros Hn. induction fr as [|f fr IH]; intros i s H; cbn [positive_loop] in H; [congruence|].
  apply bind_Ok in H as (x & Hx & H). apply bind_Ok in H as (s' & Hs & H).
  assert (x <> -1)%Z. { intros ->. apply Hn. unfold pyget in Hx. destruct (pyidx _ _); [|discriminate]. destruct (nth_error _ _) eqn:E; [|discriminate]. injection Hx as ->. eapply nth_error_In; eauto. }
  destruct (Z.eqb_spec x (-1)); [contradiction|]. injection Hs as <-. eauto.
Qed.
(** The shape with which a value is compared. *)
Lemma resolve_length {A} shape (v : val A) sh : resolve_flat shape v = Ok sh -> List.length sh = List.length shape.
Proof.
  unfold resolve_flat. intros H. apply bind_Ok in H as (flat & Hf & H). destruct flat; [|congruence].
  apply is_flat_leaves in Hf. apply bind_Ok in H as (real & _ & H). destruct real; [congruence|].
  apply bind_Ok in H as (fsv & _ & H). apply bind_Ok in H as (zs & Hz & H). destruct (negb _); [discriminate|].
  apply bind_Ok in H as (u & _ & H). apply expand_shape_len in H. unfold get_positive_shape in Hz. apply positive_loop_length in Hz.
  rewrite Hf, map_length. congruence.
Qed.
Lemma resolve_known {A} dims (v : val A) sh : ~ In (-1)%Z dims -> resolve_flat (flat_shape dims) v = Ok sh -> sh = flat_shape dims \/ expand_shape dims = Ok sh.
Proof.
  intros Hn. unfold resolve_flat. rewrite is_flat_flat. cbn [bind]. intros H. apply bind_Ok in H as (real & _ & H). destruct real; [left; congruence|right].
  apply bind_Ok in H as (fsv & _ & H). rewrite leaves_flat in H. apply bind_Ok in H as (zs & Hz & H). destruct (negb _); [discriminate|].
  apply bind_Ok in H as (u & _ & H). unfold get_positive_shape in Hz. apply positive_loop_id in Hz; [|assumption]. now subst.
Qed.
(** A list of scalars only fits the shape that is its length. *)
Lemma fit_leaves {A} (shape : list (val Z)) (v : val A) l :
  fit_shape shape v = Ok (Node l) -> Forall leaf l -> exists x, shape = [x] /\ forall z, x = Leaf z -> z <> (-1)%Z -> Z.of_nat (List.length l) = z.
Proof.
  intros H Hl. apply fit_value in H as (sh & H1 & H2 & real & H3 & H4).
  assert (Hn : l <> []) by (intros ->; rewrite get_shape_nil in H3; discriminate).
  rewrite (get_shape_leaves l Hn Hl) in H3. injection H3 as <-. unfold compare_shapes in H4.
  apply bind_Ok in H4 as (d1 & D1 & H4). apply bind_Ok in H4 as (d2 & D2 & H4). injection D2 as <-.
  destruct (Nat.eqb_spec d1 1); [|discriminate]. subst d1. cbn [negb] in H4. rewrite unroll_node, D1 in H4. cbn [bind] in H4.
  apply bind_Ok in H4 as (l2 & U2 & H4). injection U2 as <-. cbn [List.length] in H4.
  destruct (Nat.eqb_spec (List.length sh) 1) as [Es|]; [|discriminate]. cbn [negb] in H4.
  assert (Hs := resolve_length _ _ _ H1). rewrite Es in Hs. destruct shape as [|x [|]]; try discriminate. exists x. split; [reflexivity|].
  intros z -> Hz. destruct (resolve_known [z] v sh) as [->|E]; [intros [|[]]; congruence|exact H1| |].
  - cbn in H4. destruct (Z.eqb_spec z (Z.of_nat (List.length l))); [congruence|]. destruct (Z.eqb_spec z (-1)); [congruence|]. destruct (Z.eqb_spec (Z.of_nat (List.length l)) (-1)); [lia|]. discriminate.
  - cbn in E. injection E as <-. cbn in H4. destruct (Z.eqb_spec z (Z.of_nat (List.length l))); [congruence|]. destruct (Z.eqb_spec z (-1)); [congruence|]. destruct (Z.eqb_spec (Z.of_nat (List.length l)) (-1)); [lia|]. discriminate.
Qed.
(** A table of scalars has as many rows as the first number of its shape. *)
Lemma fit_rows {A} n m (v : val A) rows :
  fit_shape (flat_shape [n; m]) v = Ok (Node rows) -> Forall (depth_is 1) rows -> (0 <= n)%Z -> m <> (-1)%Z -> Z.of_nat (List.length rows) = n.
Proof.
  intros H Hr Hn Hm. apply fit_value in H as (sh & H1 & H2 & real & H3 & H4).
  assert (Hne : rows <> []) by (intros ->; rewrite get_shape_nil in H3; discriminate).
  assert (Hd : depth_is 2 (Node rows)) by (split; assumption).
  destruct (get_shape_spec 1 _ Hd) as (ss & Hg & HF). rewrite Hg in H3. injection H3 as <-.
  unfold compare_shapes in H4. rewrite (numdim_shape _ 1 ss HF), (unroll_shape _ 1 ss HF) in H4.
  destruct (resolve_known [n; m] v sh) as [->|E]; [intros [|[|[]]]; lia|exact H1|discriminate|].
  cbn in E. injection E as <-. apply bind_Ok in H4 as (d1 & D1 & H4). apply bind_Ok in H4 as (d2 & D2 & H4). injection D2 as <-.
  destruct (Nat.eqb_spec d1 2); [|discriminate]. subst d1. cbn [negb] in H4. apply bind_Ok in H4 as (l1 & U1 & H4).
  cbn [bind] in H4. destruct (Nat.eqb_spec (List.length l1) (List.length (zl (flat_map (fun i => lens i (Node rows)) (seq 0 2))))) as [El|]; [|discriminate].
  destruct (zrepeat (Leaf m) n) as [|y r] eqn:Er.
  - exfalso. cbn in D1. discriminate.
  - assert (D : depth_is 1 (Node (zrepeat (Leaf m) n))). { apply depth_zrepeat; [exact I|]. apply (zrepeat_pos (Leaf m)). rewrite Er. discriminate. }
    rewrite Er in D. destruct (unroll_flat_2 n (y :: r)) as [U _]; [discriminate|exact D|]. rewrite U in U1. injection U1 as <-.
    rewrite <- Er in El. cbn [seq flat_map] in El. rewrite app_nil_r in El. unfold zl, zrepeat in El. rewrite map_length, app_length, lens1_length in El by assumption.
    cbn [List.length lens] in El. rewrite repeat_length in El. lia.
Qed.

Section Hydraulics.
Context {F : Type} (fo : fops F) (fin : F -> option R).

Lemma real_leaf (v : val (atom F)) r : real fin v = Ok r -> leaf v.
Proof. destruct v as [a|]; [intros _; now exists a|discriminate]. Qed.
Lemma reals_Ok (v : val (atom F)) l : reals fin v = Ok l -> exists vs, v = Node vs /\ Forall leaf vs /\ List.length vs = List.length l.
Proof.
  destruct v as [|vs]; [discriminate|]. cbn. intros H. exists vs. split; [reflexivity|]. split; [|symmetry; eapply mapM_length; eauto].
  apply mapM_Ok in H. induction H; constructor; auto. eapply real_leaf; eauto.
Qed.
Lemma triples_Ok (v : val (atom F)) l : triples fin v = Ok l -> exists vs, v = Node vs /\ Forall (depth_is 1) vs /\ List.length vs = List.length l.
Proof.
  destruct v as [|vs]; [discriminate|]. cbn. intros H. exists vs. split; [reflexivity|]. split; [|symmetry; eapply mapM_length; eauto].
  apply mapM_Ok in H. induction H as [|x y l m H]; constructor; auto. unfold triple_of in H.
  destruct x as [|[|a [|b [|c [|]]]]]; try discriminate.
  apply bind_Ok in H as (ra & Ha & H). apply bind_Ok in H as (rb & Hb & H). apply bind_Ok in H as (rc & Hc & _).
  apply real_leaf in Ha as (? & ->), Hb as (? & ->), Hc as (? & ->). split; [discriminate|]. repeat constructor.
Qed.

(** The value of a required list option was made to fit by its shape, with the
    options before it in the table as they are in the end. *)
Lemma section_fitted os (d d' : dict F) pre o post t :
  NoDup (flat_map SectionSpec.names os) -> section_parse (f_conv fo) os d = Ok d' -> os = (pre ++ o :: post)%list -> o_type o = OList t -> o_optional o = false ->
  exists d1 pv v, dget d' (o_name o) = Some v /\ apply_shape d1 (o_shape o) pv = Ok v /\ forall o', In o' pre -> dget d1 (o_name o') = dget d' (o_name o').
Proof.
  intros Hnd H E Ht Ho. destruct (section_parse_spec (f_conv fo) os d d' Hnd H) as [_ S]. destruct (S pre o post E) as (d1 & v & Hm & Hg & Hp & _).
  destruct (first_of d (SectionSpec.names o)) as [raw|]; [|destruct Hm; congruence]. destruct Hm as [H1 H2].
  unfold option_parse in H2. rewrite (find_alternative_id d1 _ _ raw H1), H1, Ht in H2. destruct raw as [[s| | | |]|]; try discriminate.
  apply bind_Ok in H2 as (pv & _ & H2). destruct (all_true _ _); [|discriminate]. apply bind_Ok in H2 as (w & Hw & [= ->]). eauto 7.
Qed.

Lemma in_split_after {A} (a o : A) l : In o l -> exists pre post, a :: l = ((a :: pre) ++ o :: post)%list.
Proof. intros H. apply in_split in H as (pre & post & ->). now exists pre, post. Qed.
Lemma hydraulics_list t d k l hf : section_parse (f_conv fo) hydraulics_options (raw_dict t) = Ok d -> has d "hydrofacies" (Node hf) ->
  In k ["k_h"; "sig_y"; "k_ratio"; "n"; "sig_n"] -> get (reals fin) d k = Ok l -> List.length l = List.length hf.
Proof.
  intros H Hh Hk Hg. apply get_Ok in Hg as (v & Hv & Hg). apply reals_Ok in Hg as (vs & -> & Hl & <-).
  set (o := listo (F := F) k TFloat false (Leaf none) (ShName (S_ "hydrofacies"))).
  assert (Ho : In o (tl hydraulics_options)) by (destruct Hk as [<-|[<-|[<-|[<-|[<-|[]]]]]]; cbn; tauto).
  destruct (in_split_after (hd o hydraulics_options) o _ Ho) as (pre & post & E).
  destruct (section_fitted _ _ _ (hd o hydraulics_options :: pre) o post TFloat (hydraulics_NoDup (F := F)) H E eq_refl eq_refl) as (d1 & pv & v & H1 & H2 & H3).
  unfold has in Hv. cbn [o listo o_name] in H1. rewrite Hv in H1. injection H1 as <-. cbn [o listo o_shape apply_shape] in H2.
  specialize (H3 _ (or_introl eq_refl)). cbn [hydraulics_options hd listo o_name] in H3. unfold has in Hh. rewrite Hh in H3. rewrite H3 in H2.
  apply bind_Ok in H2 as (s & Hs & H2). destruct s as [z|s].
  { exfalso. unfold get_shape in Hs. rewrite get_shape1_node in Hs. apply bind_Ok in Hs as (s1 & Hs1 & Hs). apply bind_Ok in Hs1 as (dd & Hd & Hs1).
    destruct (numdim_node _ _ Hd) as (j & ->). destruct j.
    - injection Hs1 as <-. destruct (Z.eqb_spec (Z.of_nat (List.length hf)) (-1)); [lia|discriminate].
    - apply bind_Ok in Hs1 as (r & _ & [= <-]). apply bind_Ok in Hs as (? & _ & Hs). apply bind_Ok in Hs as (? & _ & Hs). discriminate. }
  apply fit_leaves in H2 as (x & -> & H2); [|assumption]. apply get_shape_single in Hs. specialize (H2 _ Hs). lia.
Qed.
Lemma hydraulics_table t d k l hf : section_parse (f_conv fo) hydraulics_options (raw_dict t) = Ok d -> has d "hydrofacies" (Node hf) ->
  In k ["ycorlengths"; "ncorlengths"] -> get (triples fin) d k = Ok l -> List.length l = List.length hf.
Proof.
  intros H Hh Hk Hg. apply get_Ok in Hg as (v & Hv & Hg). apply triples_Ok in Hg as (vs & -> & Hl & <-).
  set (o := listo (F := F) k TFloat false (Leaf none) (ShList [DName (S_ "hydrofacies"); DVal (Leaf 3%Z)])).
  assert (Ho : In o (tl hydraulics_options)) by (destruct Hk as [<-|[<-|[]]]; cbn; tauto).
  destruct (in_split_after (hd o hydraulics_options) o _ Ho) as (pre & post & E).
  destruct (section_fitted _ _ _ (hd o hydraulics_options :: pre) o post TFloat (hydraulics_NoDup (F := F)) H E eq_refl eq_refl) as (d1 & pv & v & H1 & H2 & H3).
  unfold has in Hv. cbn [o listo o_name] in H1. rewrite Hv in H1. injection H1 as <-. cbn [o listo o_shape apply_shape mapM resolve_dim] in H2.
  specialize (H3 _ (or_introl eq_refl)). cbn [hydraulics_options hd listo o_name] in H3. unfold has in Hh. rewrite Hh in H3. rewrite H3 in H2.
  cbn [py_len bind] in H2. apply (fit_rows (Z.of_nat (List.length hf)) 3) in H2; [lia|assumption|lia|lia].
Qed.

Lemma hydraulics_complete p cf h hf : parse_inifile fo p = Ok cf -> link_hydraulics fin cf = Ok h -> has (cf_hydraulics cf) "hydrofacies" (Node hf) -> complete h (List.length hf).
Proof.
  intros Hp H Hh. apply parse_inifile_inv in Hp. destruct (fs_hydro _ _ _ Hp) as (t & _ & Ht).
  unfold link_hydraulics in H.
  repeat match type of H with bind _ _ = Ok _ => let v := fresh "v" in let E := fresh "E" in apply bind_Ok in H as (v & E & H) end.
  injection H as <-. unfold complete. cbn [h_k h_ratio h_n h_sigy h_sign h_ycorl h_ncorl].
  repeat split; first [eapply hydraulics_list; [eassumption..| |eassumption]; cbn; tauto|eapply hydraulics_table; [eassumption..| |eassumption]; cbn; tauto].
Qed.
End Hydraulics.
