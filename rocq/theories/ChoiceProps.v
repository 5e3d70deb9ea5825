(** C116, C117: the types of the elements and where their boundaries lie. *)
From Coq Require Import List ZArith QArith Bool Ascii String Reals Lia Lra.
From Verif Require Import Base Num ParseModel ConfigModel ConfigSpec ConfigProofs ConfigProofs2 DeprecatedModel DeprecatedSpec DeprecatedProofs SurfaceModel SurfaceSpec SurfaceProofs
  StrataModel StrataProofs StrataProofs2 StrataProofs3 StrataProps BuildProofs AssignModel FaciesModel TroughModel SheetModel ChannelModel FullModel FullSpec FullProofs FullProofs2 LinkModel LinkSpec LinkProofs SizeSpec SizeProofs ChoiceModel ChoiceSpec ChoiceProofs.
Import ListNotations.
Local Open Scope string_scope.
Local Open Scope R_scope.

(** C116: prob_choose fails exactly if there are no types, the number of
    probabilities is another one, they sum to zero or some are negative relative
    to the sum. *)
Theorem C116_choice_fails : forall n probs u,
  (exists i, prob_choose n probs u = Ok i) <->
  (0 < n)%nat /\ List.length probs = n /\ sum_first probs n <> 0 /\ Forall (fun p => 0 <= p / sum_first probs n) probs.
Proof.
  intros n probs u. destruct (prob_choose_cases n probs u) as [(H & E)|(H & E)]; rewrite E.
  - split; [intros _; exact H|eauto].
  - split; [intros [i K]; discriminate|]. intros K. contradiction.
Qed.

(** C116: the random number chooses type [i] exactly if it falls into the
    interval of this type, whose length is the share of its probability. *)
Theorem C116_choice_interval : forall n probs u i, 0 <= u < 1 -> (exists j, prob_choose n probs u = Ok j) ->
  (prob_choose n probs u = Ok i <-> falls_into probs u i).
Proof.
  intros n probs u i Hu [j Ej]. pose proof (proj1 (C116_choice_fails n probs u) (ex_intro _ j Ej)) as (H1 & H2 & H3 & H4).
  destruct (prob_choose_falls n probs u j Hu Ej) as [_ Hj]. split; [intros K; rewrite K in Ej; injection Ej as ->; exact Hj|].
  intros [Li Hi]. rewrite Ej. destruct Hj as [Lj Hj]. rewrite H2 in *. set (s := sum_first probs n) in *.
  assert (M : forall a b, (a <= b)%nat -> sum_first probs a / s <= sum_first probs b / s).
  { intros a b K. rewrite <- !sum_first_scaled. apply sum_first_mono; [|assumption]. rewrite Forall_map. exact H4. }
  destruct (Nat.lt_trichotomy i j) as [K|[K|K]]; [|congruence|].
  - specialize (M (S i) j K). lra.
  - specialize (M (S j) i K). lra.
Qed.
Theorem C116_share : forall probs i p, nth_error probs i = Some p ->
  let s := sum_first probs (List.length probs) in
  s <> 0 -> sum_first probs (S i) / s - sum_first probs i / s = p / s.
Proof. intros probs i p K s Hs. rewrite (sum_first_S _ _ _ K). field. assumption. Qed.

(** Relative probabilities, a zero, and two negative ones, which are accepted. *)
Example choice_cases :
  map (prob_choose 3 [1; 0; 3]%Q) [0; 1#5; 1#4; 9#10]%Q = [Ok 0; Ok 0; Ok 2; Ok 2]%nat /\
  prob_choose 2 [-1; -3]%Q (1#2)%Q = Ok 1%nat /\ prob_choose 2 [-1; 3]%Q (1#2)%Q = Err ValueError /\
  prob_choose 2 [0; 0]%Q (1#2)%Q = Err ValueError /\ prob_choose 2 [1]%Q (1#2)%Q = Err ValueError.
Proof. vm_compute. repeat split. Qed.

Section Link.
Context {F : Type} (fin : F -> option R) (is_nan : F -> bool).

(** ** From the configuration *)
Lemma Forall2_imp {A B} (P Q : A -> B -> Prop) l m : (forall a b, P a b -> Q a b) -> Forall2 P l m -> Forall2 Q l m.
Proof. intros K. induction 1; constructor; auto. Qed.
Lemma real_Ok v x : real fin v = Ok x -> exists f, v = Leaf (AFlt f) /\ fin f = Some x.
Proof. unfold real. destruct v as [[]|]; try discriminate. intros K. apply finite_Ok in K. eauto. Qed.
Lemma real_list_Ok v l : real_list fin v = Ok l -> exists vs, items v = Ok vs /\ Forall2 (fun w x => exists f, w = Leaf (AFlt f) /\ fin f = Some x) vs l.
Proof.
  unfold real_list. intros E. apply bind_Ok in E as (vs & H1 & H2). apply mapM_Ok in H2. exists vs. split; [assumption|].
  revert H2. apply Forall2_imp. intros w x. apply real_Ok.
Qed.
Lemma item_entry (d : dict F) k si v : item d k (-1 - Z.of_nat si) = Ok v -> entry d k si v.
Proof.
  unfold item, py_item. intros E. apply bind_Ok in E as (w & H1 & E). apply lookup_Ok in H1. apply bind_Ok in E as (l & H2 & E).
  apply pyget_neg in E as [E1 E2]. exists w, l. auto.
Qed.
Lemma name_of_Ok (v : val (atom F)) n : name_of v = Ok n -> v = Leaf (AStr n).
Proof. unfold name_of. destruct v as [[]|]; try discriminate. now intros [= ->]. Qed.
Lemma link_type_contact id (ec : dict F * contact F) ft : link_type fin is_nan id ec = Ok ft -> link_contact fin (snd ec) = Ok (ft_contact ft).
Proof.
  unfold link_type. intros H. repeat match type of H with bind _ _ = Ok _ => let v := fresh "v" in let E := fresh "E" in apply bind_Ok in H as (v & E & H) end.
  apply Ok_inj' in H. subst ft. cbn [ft_contact]. assumption.
Qed.

Lemma options_says (cf : config F) ids si so fp : link_options fin cf (-1 - Z.of_nat si) = Ok so -> link_stratum fin is_nan cf ids (-1 - Z.of_nat si) = Ok fp ->
  stratum_says fin cf si (so_names so) (so_probs so) (so_means so) (fp_avul_prob fp) (fst (so_avul so)) (snd (so_avul so)) /\
  types_from fin cf (so_names so) (fp_types fp).
Proof.
  intros Ho Hs. unfold link_options in Ho. apply bind_Ok in Ho as (t & T1 & Ho). apply bind_Ok in Ho as (ts & T2 & Ho). apply bind_Ok in Ho as (names & T3 & Ho).
  apply bind_Ok in Ho as (p & P1 & Ho). apply bind_Ok in Ho as (ps & P2 & Ho). apply bind_Ok in Ho as (m & M1 & Ho). apply bind_Ok in Ho as (ms & M2 & Ho).
  apply bind_Ok in Ho as (a & A1 & Ho). apply bind_Ok in Ho as (ar & A2 & Ho). apply Ok_inj' in Ho. subst so. cbn [so_names so_probs so_means so_avul].
  unfold link_stratum in Hs. apply bind_Ok in Hs as (v1 & _ & Hs). apply bind_Ok in Hs as (v2 & _ & Hs). apply bind_Ok in Hs as (v3 & _ & Hs). apply bind_Ok in Hs as (v4 & _ & Hs).
  apply bind_Ok in Hs as (v5 & _ & Hs). apply bind_Ok in Hs as (v6 & _ & Hs). apply bind_Ok in Hs as (ap & Q1 & Hs). apply bind_Ok in Hs as (aq & Q2 & Hs). apply bind_Ok in Hs as (pr & Q3 & Hs).
  apply bind_Ok in Hs as (t' & T1' & Hs). rewrite T1 in T1'. injection T1' as <-. apply bind_Ok in Hs as (ts' & T2' & Hs). rewrite T2 in T2'. injection T2' as <-.
  apply bind_Ok in Hs as (types & T4 & Hs). apply Ok_inj' in Hs. subst fp. cbn [fp_avul_prob fp_types].
  assert (T3' : Forall2 (fun w n => w = Leaf (AStr n)) ts names) by (apply mapM_Ok in T3; revert T3; apply Forall2_imp; intros w n; apply name_of_Ok).
  split.
  - constructor.
    + exists t, ts. split; [now apply item_entry|]. auto.
    + apply real_list_Ok in P2 as (vs & V1 & V2). exists p, vs. split; [now apply item_entry|]. auto.
    + apply real_list_Ok in M2 as (vs & V1 & V2). exists m, vs. split; [now apply item_entry|]. auto.
    + unfold range2 in A2. destruct a as [[]|[|x [|y [|]]]]; try discriminate. apply bind_Ok in A2 as (x' & X & A2). apply bind_Ok in A2 as (y' & Y & A2). apply Ok_inj' in A2. subst ar.
      apply real_Ok in X, Y. exists (Node [x; y]), [x; y]. split; [now apply item_entry|]. split; [reflexivity|]. cbn [fst snd]. auto.
    + apply real_Ok in Q3 as (f & -> & Hf). unfold py_item in Q2. apply bind_Ok in Q2 as (l & L1 & L2). exists ap, f.
      change 0%Z with (Z.of_nat 0) in L2. apply pyget_nat in L2. destruct l as [|x l]; [discriminate|]. cbn in L2. injection L2 as ->.
      exists l. split; [now apply item_entry|]. auto.
  - apply mapM_Ok in T4. revert T3' T4. clear. unfold types_from. intros T3. revert types. induction T3 as [|w n ws ns E HF IH]; intros types T4; inversion T4 as [|? ft ? fts N1 N2]; subst; constructor; auto.
    unfold named_type in N1. apply bind_Ok in N1 as ([sec cm] & H1 & N1). apply bind_Ok in N1 as (id & _ & N1). exists sec, cm. split; [now apply assoc_In|].
    now apply (link_type_contact id (sec, cm)).
Qed.

(** ** All strata *)
Definition stacked (cf : config F) (params : list full_params) (st : store R) (raws : list raw_stratum) (si : nat) (fs : full_stratum) : Prop :=
  exists r so fp sb stp, nth_error raws si = Some r /\ link_options fin cf (-1 - Z.of_nat si) = Ok so /\ pyget params (-1 - Z.of_nat si) = Ok fp /\
    nth_error st (s_bottom (fst fs)) = Some sb /\ nth_error st (s_top (fst fs)) = Some stp /\ Forall (fun e => (ae_bottom e < List.length st)%nat) (s_aes (fst fs)) /\
    stack cf (so_names so) (so_probs so) (so_means so) (fp_avul_prob fp) (fst (so_avul so)) (snd (so_avul so)) st (s_bottom (fst fs)) (zmean sb)
      (rs_rounds r) (rs_first r) (s_top (fst fs)) (zmean stp) (s_aes (fst fs)).
Lemma stacked_keeps cf params st st' raws si fs : keeps st st' -> stacked cf params st raws si fs -> stacked cf params st' raws si fs.
Proof.
  intros K (r & so & fp & sb & stp & H1 & H2 & H3 & H4 & H5 & H6 & H7).
  assert (L4 : (s_bottom (fst fs) < List.length st)%nat) by (apply nth_error_Some; congruence).
  assert (L5 : (s_top (fst fs) < List.length st)%nat) by (apply nth_error_Some; congruence).
  destruct (keeps_nth _ _ _ _ K H4) as (sb' & S1 & S2 & _). destruct (keeps_nth _ _ _ _ K H5) as (sp' & S3 & S4 & _).
  exists r, so, fp, sb', sp'. do 5 (split; [assumption|]). rewrite S2, S4. split.
  - pose proof (keeps_length _ _ K). revert H6. apply Forall_impl. intros; lia.
  - eapply stack_keeps; eassumption.
Qed.

Lemma draw_strata_fields cf params n : forall raws si draws, draw_strata fin cf params si raws = Ok draws -> Forall (raw_ok n) raws -> Forall (fsd_ok n) draws.
Proof.
  induction raws as [|r raws IH]; intros si draws E Hr; cbn [draw_strata] in E.
  - injection E as <-. constructor.
  - apply bind_Ok in E as (so & _ & E). apply bind_Ok in E as (fp & _ & E). apply bind_Ok in E as (d & Hd & E). apply bind_Ok in E as (ds & Hds & E). injection E as <-.
    inversion Hr as [|? ? (R1 & R2 & R3) Hr']; subst x l. constructor; [|eapply IH; eassumption].
    unfold draw_stratum in Hd. apply bind_Ok in Hd as (first & _ & Hd). injection Hd as <-. split; [exact R1|]. cbn [fsd_draws].
    clear - R3. revert first. induction R3 as [|x l (X1 & X2) R3 IH]; intros first; cbn [draw_rounds]; [constructor|].
    destruct (draw_round _ _ _ _) as [d|] eqn:E; [|constructor]. apply draw_round_inv in E as (_ & E & _); [|assumption]. constructor; [unfold fd_ok; congruence|apply IH].
Qed.

Lemma stacks_made cf g fuel contacts params n ids (all : list raw_stratum) :
  (forall si fp, pyget params (-1 - Z.of_nat si) = Ok fp -> link_stratum fin is_nan cf ids (-1 - Z.of_nat si) = Ok fp) ->
  forall raws draws si st top (strata : list full_stratum) st' strata' pre,
  wf (columns g) st -> (top < List.length st)%nat -> Forall (raw_ok (columns g)) raws -> all = (pre ++ raws)%list -> List.length pre = si -> List.length strata = si ->
  draw_strata fin cf params si raws = Ok draws ->
  (forall k (fs : full_stratum), nth_error strata k = Some fs -> stacked cf params st all k fs) ->
  full_model_loop g fuel contacts params n draws si st top strata = Ok (st', strata') ->
  forall k fs, nth_error strata' k = Some fs -> stacked cf params st' all k fs.
Proof.
  intros HL. induction raws as [|r raws IH]; intros draws si st top strata st' strata' pre Hw Ht Hd Hall Hpre Hlen Hdr Hst E.
  - cbn [draw_strata] in Hdr. injection Hdr as <-. cbn [full_model_loop] in E. destruct (Nat.eqb si n); [|discriminate]. injection E as <- <-. exact Hst.
  - assert (Hall0 := draw_strata_fields _ _ _ _ _ _ Hdr Hd).
    cbn [draw_strata] in Hdr. apply bind_Ok in Hdr as (so & Hso & Hdr). apply bind_Ok in Hdr as (fp & Hfp & Hdr). apply bind_Ok in Hdr as (sd & Hsd & Hdr). apply bind_Ok in Hdr as (ds & Hds & Hdr). apply Ok_inj' in Hdr. subst draws.
    cbn [full_model_loop] in E.
    apply bind_Ok in E as (s & Hs & E). cbn [alloc] in E.
    apply bind_Ok in E as (st2 & H2 & E). apply bind_Ok in E as (fp' & Hfp' & E). rewrite Hfp in Hfp'. apply Ok_inj' in Hfp'. subst fp'.
    apply bind_Ok in E as ((st3 & str) & H3 & E).
    inversion Hd as [|? ? (Hd1 & Hd2 & Hd3) Hdr]; subst x l. inversion Hall0 as [|? ? (Hf1 & Hf2) Hfr]; subst x l.
    set (st1 := (st ++ [s])%list) in *.
    assert (Ls : List.length (vals s) = columns g /\ bounded s).
    { destruct (Nat.eqb (S si) n).
      - apply flat_surface in Hs as ->. split; [apply repeat_length|]. apply flat_bounded.
      - apply bind_Ok in Hs as (cm & _ & Hs). apply new_surface_ok in Hs as (L & B); [|intros _; exact Hf1]. auto. }
    destruct Ls as (Ls & Bs).
    assert (W1 : wf (columns g) st1) by (apply wf_alloc; assumption).
    assert (W2 : wf (columns g) st2) by (eapply use_lower_wf; eauto).
    assert (L1 : List.length st1 = S (List.length st)) by (unfold st1; rewrite app_length; simpl; lia).
    destruct (use_lower_col _ _ _ _ H2) as (C2 & D2 & L2).
    assert (K2 : keeps st st2).
    { intros c Hcc. apply (same_trans _ st1); [apply keeps_alloc; assumption|]. eapply use_lower_others; [exact H2|lia|lia]. }
    assert (B2 : below st2 (List.length st) top).
    { intros k x y Hx Hy.
      destruct (col_like _ st1 st2 (List.length st) _ _ _ W1 W2 ltac:(lia) Hx) as (u & Hu).
      rewrite C2 in Hy by lia. rewrite (D2 _ _ _ Hu Hy) in Hx. injection Hx as <-. apply Rmin_r. }
    unfold new_full_stratum in H3.
    apply bind_Ok in H3 as (sb & Hsb & H3). apply bind_Ok in H3 as (stp & Hstp & H3). apply getS_Ok in Hsb, Hstp.
    apply bind_Ok in H3 as ((st3' & (lo & hi) & aes) & Hl & H3). injection H3 as <- <-.
    assert (Hl2 := Hl). apply full_stratum_refines in Hl2 as (ds' & HF2 & Hl2).
    assert (Hs3 : new_stratum g fuel (base_params fp) (fsd_first sd) ds' st2 (List.length st) top = Ok (st3', mkStratum (List.length st) top lo hi (map fst aes))).
    { unfold new_stratum, getS. rewrite Hsb. cbn [bind]. rewrite Hstp. cbn [bind]. cbn [map] in Hl2. rewrite Hl2. reflexivity. }
    apply new_stratum_spec in Hs3; try assumption; try lia; [|eapply Forall2_fields; eauto].
    destruct Hs3 as (W3 & K3 & _). pose proof (keeps_length _ _ K3). pose proof (keeps_length _ _ K2).
    refine (IH _ _ _ _ _ _ _ (pre ++ [r])%list W3 _ Hdr _ _ _ Hds _ E).
    + lia.
    + rewrite <- app_assoc. exact Hall.
    + rewrite app_length. cbn. lia.
    + rewrite app_length. cbn. lia.
    + intros k fs Hk. destruct (Nat.lt_ge_cases k (List.length strata)) as [Hlt|Hge].
      * rewrite nth_error_app1 in Hk by assumption. eapply stacked_keeps; [|apply Hst; exact Hk]. eapply keeps_trans; eassumption.
      * rewrite nth_error_app2 in Hk by assumption. destruct (k - List.length strata)%nat as [|x] eqn:Ek; [|destruct x; discriminate].
        cbn in Hk. injection Hk as <-. assert (k = si) by lia. subst k.
        unfold draw_stratum in Hsd. apply bind_Ok in Hsd as (first & Hfirst & Hsd). apply Ok_inj' in Hsd. subst sd. cbn [fsd_first fsd_draws] in Hl.
        apply prob_choose_falls in Hfirst as [_ Hfirst]; [|assumption].
        destruct (options_says _ ids _ _ _ Hso (HL _ _ Hfp)) as [_ HT].
        destruct (stack_made fin cf g fuel fp so (List.length st) HT (rs_rounds r) st2 top first (rs_first r) _ _ _ _ _ _ _ _ sb W2 ltac:(lia) ltac:(lia) B2 Hsb Hd3 Hfirst Hl) as (_ & new & -> & HB & HS).
        destruct (keeps_nth _ _ _ _ K3 Hsb) as (sb' & S1 & S2 & _). destruct (keeps_nth _ _ _ _ K3 Hstp) as (sp' & S3 & S4 & _).
        exists r, so, fp, sb', sp'. cbn [fst s_bottom s_top s_aes app].
        split; [rewrite Hall, nth_error_app2, Hpre, Nat.sub_diag by lia; reflexivity|]. do 4 (split; [assumption|]). split; [rewrite Forall_map; exact HB|]. rewrite S2, S4. exact HS.
Qed.

(** C117: from the top to the bottom of a stratum, the elements have types chosen
    by ae_prob, nominal thicknesses drawn around ae_z_mean, and their
    boundaries lie at the nominal elevations according to the contact model of
    the type below, cut at the element above and at the bottom of the stratum. *)
Theorem C117_elements : forall (cf : config F) lk fuel raws st strata,
  link fin is_nan cf = Ok lk -> Forall (raw_ok (columns (lk_grid lk))) raws -> generate_raw fin cf lk fuel raws = Ok (st, strata) ->
  forall si fs, nth_error strata si = Some fs ->
  exists r names probs means pr a0 a1 sb stp, nth_error raws si = Some r /\ stratum_says fin cf si names probs means pr a0 a1 /\
    nth_error st (s_bottom (fst fs)) = Some sb /\ nth_error st (s_top (fst fs)) = Some stp /\
    stack cf names probs means pr a0 a1 st (s_bottom (fst fs)) (zmean sb) (rs_rounds r) (rs_first r) (s_top (fst fs)) (zmean stp) (s_aes (fst fs)).
Proof.
  intros cf lk fuel raws st strata Hlk Hr Hg si fs Hs. unfold generate_raw in Hg. apply bind_Ok in Hg as (draws & Hd & Hg).
  destruct (link_inv _ _ _ _ Hlk) as (ids & sts & Hids & Hsts & Hlen & Hstr).
  assert (HL : forall si fp, pyget (lk_params lk) (-1 - Z.of_nat si) = Ok fp -> link_stratum fin is_nan cf ids (-1 - Z.of_nat si) = Ok fp).
  { intros k fp Hp. apply pyget_neg in Hp as [Hlt Hp]. exact (Hstr k fp Hp Hlt). }
  unfold generate, full_generate in Hg. set (g := lk_grid lk) in *. apply bind_Ok in Hg as (s & Hs0 & Hg). apply flat_surface in Hs0 as ->. cbn [alloc] in Hg.
  assert (W0 : wf (columns g) ([] ++ [mkSurface (repeat (g_lz g) (columns g)) (g_lz g) (g_lz g) (g_lz g)])%list).
  { apply wf_alloc; [constructor|apply repeat_length|apply flat_bounded]. }
  destruct (stacks_made cf g fuel (lk_contacts lk) (lk_params lk) (List.length (lk_params lk)) ids raws HL raws draws 0 _ 0 [] st strata [] W0 ltac:(simpl; lia) Hr eq_refl eq_refl eq_refl Hd) with (k := si) (fs := fs)
    as (r & so & fp & sb & stp & H1 & H2 & H3 & H4 & H5 & H6 & H7).
  - intros [|j] f; discriminate.
  - exact Hg.
  - exact Hs.
  - destruct (options_says _ ids _ _ _ H2 (HL _ _ H3)) as [HS _].
    exists r, (so_names so), (so_probs so), (so_means so), (fp_avul_prob fp), (fst (so_avul so)), (snd (so_avul so)), sb, stp. auto 10.
Qed.

(** C116: the elements of a stratum have types with a positive share. *)
Lemma falls_positive probs u i : falls_into probs u i -> exists p, nth_error probs i = Some p /\ 0 < p / sum_first probs (List.length probs).
Proof.
  intros (L & H1 & H2). destruct (nth_error probs i) as [p|] eqn:E; [|apply nth_error_None in E; lia]. exists p. split; [reflexivity|].
  rewrite (sum_first_S _ _ _ E) in H2. unfold Rdiv in *. lra.
Qed.
Theorem C116_types : forall (cf : config F) lk fuel raws st strata,
  link fin is_nan cf = Ok lk -> Forall (raw_ok (columns (lk_grid lk))) raws -> generate_raw fin cf lk fuel raws = Ok (st, strata) ->
  forall si fs, nth_error strata si = Some fs -> forall e, In e (s_aes (fst fs)) ->
  exists names probs n p, names_for (cf_strata cf) "ae_in_strata" si names /\ numbers_for fin (cf_strata cf) "ae_prob" si probs /\
    nth_error names (ae_kind e) = Some n /\ nth_error probs (ae_kind e) = Some p /\ 0 < p / sum_first probs (List.length probs).
Proof.
  intros cf lk fuel raws st strata Hlk Hr Hg si fs Hs e He.
  destruct (C117_elements cf lk fuel raws st strata Hlk Hr Hg si fs Hs) as (r & names & probs & means & pr & a0 & a1 & sb & stp & _ & HS & _ & _ & HK).
  revert HK. generalize (rs_rounds r), (rs_first r), (s_top (fst fs)), (zmean stp). revert He. generalize (s_aes (fst fs)).
  induction l as [|x l IH]; intros He rounds u top z HK; [destruct He|]. cbn [stack] in HK.
  destruct HK as (_ & Hu & _ & r0 & rs & h & _ & Hh & _ & HK). destruct He as [->|He]; [|eapply IH; eassumption].
  apply falls_positive in Hu as (p & P1 & P2). destruct Hh as (n & _ & _ & N & _). exists names, probs, n, p.
  split; [apply HS|]. split; [apply HS|]. auto.
Qed.
End Link.
Print Assumptions C116_choice_fails.
Print Assumptions C116_choice_interval.
Print Assumptions C116_share.
Print Assumptions C116_types.
Print Assumptions C117_elements.
