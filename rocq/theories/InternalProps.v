(** C132: internal heterogeneity is the one written in the ini-file. *)
From Coq Require Import List ZArith Bool Ascii String Reals Lia Lra.
From Verif Require Import Base Num ParseModel SectionSpec SectionProofs ConfigModel ConfigSpec ConfigProofs ConfigProofs2 ConfigProps DeprecatedModel DeprecatedSpec DeprecatedProofs DeprecatedProps
  SurfaceModel StrataModel AssignModel FaciesModel TroughModel SheetModel ChannelModel FullModel FullSpec FullProofs2 FullProps LinkModel LinkSpec LinkProofs LinkProps LinkExamples
  SizeSpec SizeProofs ChoiceProps
  ArrayModel ArrayProofs SpecsimModel SpecsimSpec SpecsimProofs HydraulicsModel HydraulicsSpec HydraulicsProofs HydraulicsProps HydroLinkModel HydroLinkProofs HydroLinkProps InternalSpec InternalProofs.
Import ListNotations.
Local Open Scope string_scope.
Local Open Scope R_scope.

Section Link.
Context {F : Type} (fo : fops F) (fin : F -> option R) (is_nan : F -> bool).
Lemma get_trend (e : dict F) k t : get (trend fin) e k = Ok t -> trend_at fin e k t.
Proof.
  intros H. apply get_Ok in H as (v & Hv & H). unfold trend in H. destruct (is_none v) eqn:En.
  - injection H as <-. left. apply is_none_eq in En. subst v. auto.
  - apply bind_Ok in H as ([a b] & H & [= <-]). apply range2_Ok in H as (x & y & -> & H). right. exists a, b. split; [exists x, y; auto|reflexivity].
Qed.
Lemma get_values (d : dict F) k l f x : get (reals fin) d k = Ok l -> (0 <= f)%Z -> pyget l f = Ok x -> facies_value fin d k f x.
Proof.
  intros H Hf Hx. apply get_Ok in H as (v & Hv & H). destruct v as [|vs]; [discriminate|]. cbn in H. apply mapM_Ok in H.
  destruct (pyget_listed _ _ _ Hf Hx) as [_ E]. destruct (Forall2_nth_r _ _ _ H _ _ E) as (w & W1 & W2). apply real_Ok in W2 as (a & -> & W2).
  exists a. split; [exists vs; auto|exact W2].
Qed.
Lemma pyget_nat {A} (l : list A) f v : (0 <= f)%Z -> pyget l f = Ok v -> nth_error l (Z.to_nat f) = Some v.
Proof.
  intros Hf H. unfold pyget, pyidx in H. destruct (Z.leb_spec 0 f); [|lia].
  destruct (Z.ltb_spec f (Z.of_nat (List.length l))); cbn [andb] in H.
  - destruct (nth_error l (Z.to_nat f)) eqn:E; [|discriminate]. now injection H as <-.
  - destruct (_ && _) eqn:E2 in H; [|discriminate]. apply andb_true_iff in E2 as [_ E2]. apply Z.ltb_lt in E2. lia.
Qed.
Lemma get_lengths (d : dict F) k l f x : get (triples fin) d k = Ok l -> (0 <= f)%Z -> pyget l f = Ok x -> facies_lengths fin d k f x.
Proof.
  intros H Hf Hx. apply get_Ok in H as (v & Hv & H). destruct v as [|vs]; [discriminate|]. cbn in H. apply mapM_Ok in H.
  apply pyget_nat in Hx; [|assumption]. destruct (Forall2_nth_r _ _ _ H _ _ Hx) as (w & W1 & W2). unfold triple_of in W2.
  destruct w as [|[|a [|b [|c [|]]]]]; try discriminate.
  apply bind_Ok in W2 as (ra & Ha & W2). apply bind_Ok in W2 as (rb & Hb & W2). apply bind_Ok in W2 as (rc & Hc & [= <-]).
  apply real_Ok in Ha as (fa & -> & Ha), Hb as (fb & -> & Hb), Hc as (fc & -> & Hc). exists fa, fb, fc. split; [exists vs; auto|auto].
Qed.

(** The elements: numbers, backgrounds and trends. *)
Definition element_of (cf : config F) (se : nat * ae R) (a : element) : Prop :=
  a_bg a = ae_bg_facies (snd se) /\ exists sec, section_of cf (fst se) (snd se) sec /\
    trend_at fin sec "k_ztrend" (tr_kz (a_trends a)) /\ trend_at fin sec "k_xtrend" (tr_kx (a_trends a)).
Lemma hydro_element_of (cf : config F) si num e a : hydro_element fin cf si num e = Ok a -> a_num a = Z.of_nat num /\ element_of cf (si, e) a.
Proof.
  unfold hydro_element. intros H. apply bind_Ok in H as (t & Ht & H). apply item_entry in Ht. apply bind_Ok in H as (names & Hn & H).
  destruct (nth_error names (ae_kind e)) as [[[n| | | |]|]|] eqn:En; try discriminate.
  apply bind_Ok in H as ([sec cm] & Hec & H). apply assoc_In in Hec. cbn [fst] in H.
  apply bind_Ok in H as (kz & Hkz & H). apply get_trend in Hkz. apply bind_Ok in H as (kx & Hkx & [= <-]). apply get_trend in Hkx.
  split; [reflexivity|]. split; [reflexivity|]. exists sec. cbn [a_trends tr_kz tr_kx fst snd]. split; [|auto]. exists n, cm, t, names. auto.
Qed.
Lemma stratum_elements_of (cf : config F) si l : forall num r, stratum_elements fin cf si num l = Ok r ->
  Forall2 (element_of cf) (map (pair si) l) r /\ forall i a, nth_error r i = Some a -> a_num a = Z.of_nat (num + i).
Proof.
  induction l as [|e l IH]; intros num r H; cbn [stratum_elements] in H.
  - injection H as <-. split; [constructor|]. intros [|i] a; discriminate.
  - apply bind_Ok in H as (a & Ha & H). apply bind_Ok in H as (r' & Hr & [= <-]). destruct (hydro_element_of _ _ _ _ _ Ha) as (N & E).
    destruct (IH _ _ Hr) as (H1 & H2). split; [constructor; assumption|]. intros [|i] b Hb; cbn in Hb.
    + injection Hb as <-. rewrite N. f_equal. lia.
    + rewrite (H2 _ _ Hb). f_equal. lia.
Qed.
Lemma Forall2_app' {A B} (P : A -> B -> Prop) l1 l2 r1 r2 : Forall2 P l1 r1 -> Forall2 P l2 r2 -> Forall2 P (l1 ++ l2) (r1 ++ r2).
Proof. induction 1; cbn; auto. Qed.
Lemma Forall2_len {A B} (P : A -> B -> Prop) l r : Forall2 P l r -> List.length l = List.length r.
Proof. induction 1; cbn; auto. Qed.
Lemma hydro_elements_of (cf : config F) strata : forall si num r, hydro_elements fin cf si num strata = Ok r ->
  Forall2 (element_of cf) (elements_from si strata) r /\ forall i a, nth_error r i = Some a -> a_num a = Z.of_nat (num + i).
Proof.
  induction strata as [|s strata IH]; intros si num r H; cbn [hydro_elements] in H.
  - injection H as <-. split; [constructor|]. intros [|i] a; discriminate.
  - apply bind_Ok in H as (x & Hx & H). apply bind_Ok in H as (y & Hy & [= <-]).
    destruct (stratum_elements_of _ _ _ _ _ Hx) as (A1 & A2). destruct (IH _ _ _ Hy) as (B1 & B2). split; [now apply Forall2_app'|].
    intros i a Hi. assert (L := Forall2_len _ _ _ A1). rewrite map_length in L. destruct (Nat.lt_ge_cases i (List.length x)) as [Hlt|Hge].
    + rewrite nth_error_app1 in Hi by assumption. auto.
    + rewrite nth_error_app2 in Hi by assumption. rewrite (B2 _ _ Hi). f_equal. lia.
Qed.
Lemma elements_from_In (strata : list full_stratum) : forall si k e, In (k, e) (elements_from si strata) -> exists fs, nth_error strata (k - si) = Some fs /\ (si <= k)%nat /\ In e (s_aes (fst fs)).
Proof.
  induction strata as [|s strata IH]; intros si k e H; cbn in H; [destruct H|]. apply in_app_or in H as [H|H].
  - apply in_map_iff in H as (x & [= -> ->] & Hx). exists s. rewrite Nat.sub_diag. auto.
  - destruct (IH _ _ _ H) as (fs & H1 & H2 & H3). exists fs. replace (k - si)%nat with (S (k - S si)) by lia. split; [exact H1|]. split; [lia|assumption].
Qed.
Lemma grid_coords_of g : grid_coords g (coords_of g).
Proof. repeat split; intros i x H; cbn; now apply nth_error_nth. Qed.
End Link.

(** C132.  With heterogeneity_level = internal the conductivity of every cell is
    k_h of its facies times the exponential of a random field with the variance
    sig_y and the correlation lengths ycorlengths of this facies, on the cells
    of the same object and facies, times the factors of the trends; porosity
    likewise with n, sig_n and ncorlengths, added instead of multiplied.  In the
    cells of the very first object the facies is the background of the element,
    and the field is that of all its cells in this object. *)
Theorem C132_internal :
  forall (F : Type) (fo : fops F) (fin : F -> option R) is_nan p (cf : config F) lk fuel draws st strata wild draw ae_draw r,
  parse_inifile fo p = Ok cf -> link fin is_nan cf = Ok lk ->
  Forall (fsd_ok (columns (lk_grid lk))) draws -> generate lk fuel draws = Ok (st, strata) -> layers_hit cf wild ->
  has (cf_model cf) "heterogeneity" (Leaf (ABool true)) -> has (cf_model cf) "heterogeneity_level" (Leaf (AStr (S_ "internal"))) ->
  run_hydraulics fin cf lk wild st strata draw ae_draw = Ok r ->
  let s := shape_of (lk_grid lk) in let hy := cf_hydraulics cf in
  exists at_ co ts kz kx nz nx,
    (forall c v, arrays lk wild st strata (cx c) (cy c) (cz c) = Some v -> at_ c = v) /\
    grid_coords (lk_grid lk) co /\
    Forall2 (fun se t => exists sec, section_of cf (fst se) (snd se) sec /\ trend_at fin sec "k_ztrend" (fst t) /\ trend_at fin sec "k_xtrend" (snd t))
      (elements_from 0 strata) ts /\
    trend_at fin hy "k_ztrend" kz /\ trend_at fin hy "k_xtrend" kx /\ trend_at fin hy "n_ztrend" nz /\ trend_at fin hy "n_xtrend" nx /\
    (kx = None -> Forall (fun t => snd t = None) ts -> p_stored_k r = p_k r) /\ (nx = None -> p_stored_n r = p_n r) /\
    forall c, In c (cells s) -> exists f m e first, source strata at_ draw ae_draw c f m e first /\
      (exists k sig cl u, facies_value fin hy "k_h" f k /\ facies_value fin hy "sig_y" f sig /\ facies_lengths fin hy "ycorlengths" f cl /\
         simulated s co sig cl m (e true) c u /\
         p_k r c = exp u * k * element_factors s at_ ts first c * (along kz (cz s) (cz c) * along kx (cx s) (cx c))) /\
      (exists n sig cl u, facies_value fin hy "n" f n /\ facies_value fin hy "sig_n" f sig /\ facies_lengths fin hy "ncorlengths" f cl /\
         simulated s co sig cl m (e false) c u /\
         p_n r c = (u + n) * (along nz (cz s) (cz c) * along nx (cx s) (cx c))).
Proof.
  intros F fo fin is_nan p cf lk fuel draws st strata wild draw ae_draw r Hp Hlk Hd Hg Hw Hhet Hlev Hr s hy.
  unfold run_hydraulics in Hr. apply bind_Ok in Hr as (h & Hh & Hr). apply bind_Ok in Hr as (se & Hse & Hr). apply bind_Ok in Hr as (aes & Hae & Hr).
  assert (se = mkSettings true Internal (s_anisotropy se)) as E.
  { unfold link_settings in Hse. steps Hse. injection Hse as <-. destruct E0 as (w & W1 & W2), E1 as (u & U1 & U2). unfold has in *. rewrite Hhet in W1. rewrite Hlev in U1. injection W1 as <-. injection U1 as <-.
    cbn in W2, U2. injection W2 as <-. apply Ok_inj' in U2. subst. reflexivity. }
  rewrite E in Hr. clear E Hse.
  assert (Q := parse_inifile_inv fo _ _ Hp). destruct (fs_hf _ _ _ Q) as (hx & hl & Hhf). clear Q.
  assert (Hf := geology_valid fo fin is_nan _ _ _ _ _ _ _ wild _ Hp Hlk Hd Hg Hw Hhf).
  assert (Hbg := background_valid fo fin is_nan _ _ _ _ _ _ _ _ Hp Hlk Hd Hg Hhf).
  destruct (hydro_elements_of fin _ _ _ _ _ Hae) as (HE & Hnum). assert (HL := Forall2_len _ _ _ HE).
  set (at_ := the_cell (arrays lk wild st strata)). set (gl := geology_of (arrays lk wild st strata)) in *.
  destruct (internal_values _ _ _ _ _ _ _ _ _ Hr Hnum) as (S1 & S2 & V). fold s in V.
  unfold link_hydraulics, link_trends in Hh. fold hy in Hh. apply bind_Ok in Hh as (lk' & Ek & Hh). apply bind_Ok in Hh as (lr & Er & Hh). apply bind_Ok in Hh as (ln & En & Hh).
  apply bind_Ok in Hh as (lsy & Esy & Hh). apply bind_Ok in Hh as (lsn & Esn & Hh). apply bind_Ok in Hh as (lyc & Eyc & Hh). apply bind_Ok in Hh as (lnc & Enc & Hh).
  apply bind_Ok in Hh as (tt & Ett & Hh). apply bind_Ok in Hh as (hh & _ & [= Eh]).
  apply bind_Ok in Ett as (kz & Ekz & Ett). apply bind_Ok in Ett as (kx & Ekx & Ett). apply bind_Ok in Ett as (nz & Enz & Ett). apply bind_Ok in Ett as (nx & Enx & [= Ett]).
  apply get_trend in Ekz, Ekx, Enz, Enx. subst h tt. cbn [h_trends tr_kx tr_nx] in S1, S2.
  exists at_, (coords_of (lk_grid lk)), (map (fun a => (tr_kz (a_trends a), tr_kx (a_trends a))) aes), kz, kx, nz, nx.
  split; [intros c v Hv; unfold at_, the_cell; now rewrite Hv|]. split; [apply grid_coords_of|]. split.
  { clear -HE. induction HE as [|x y l r (_ & sec & H1 & H2 & H3) HE IH]; cbn; constructor; [|exact IH]. exists sec. auto. }
  do 4 (split; [assumption|]). split; [intros A B; apply S1; [exact A|]; apply Forall_map in B; exact B|]. split; [exact S2|].
  assert (Mf : forall j a, nth_error aes j = Some a -> ae_mask gl a = first_cells at_ j).
  { intros j a Hj. unfold ae_mask, first_cells. rewrite (Hnum _ _ Hj). reflexivity. }
  assert (Fc : forall first c, (first <= List.length aes)%nat -> product (map (factor_of s gl c) (skipn first aes)) = element_factors s at_ (map (fun a => (tr_kz (a_trends a), tr_kx (a_trends a))) aes) first c).
  { intros first c _. unfold element_factors. f_equal. rewrite map_length.
    assert (G : forall l a, (forall j b, nth_error l j = Some b -> ae_mask gl b = first_cells at_ (a + j)) ->
      map (factor_of s gl c) l = map (fun jt : nat * (option (R * R) * option (R * R)) => if existsb (first_cells at_ (fst jt)) (cells s)
                          then along (fst (snd jt)) (cz s) (cz c) * along (snd (snd jt)) (cx s) (cx c) else 1)
       (combine (seq a (List.length l)) (map (fun a => (tr_kz (a_trends a), tr_kx (a_trends a))) l))).
    { intros l. induction l as [|b l IH]; intros a Ha; cbn [List.length seq map combine]; [reflexivity|]. f_equal.
      - unfold factor_of. rewrite (Ha 0%nat b eq_refl), Nat.add_0_r. reflexivity.
      - apply IH. intros j b' Hj. rewrite (Ha (S j) b' Hj). f_equal. lia. }
    rewrite <- !skipn_map. rewrite (G aes 0%nat Mf). reflexivity. }
  intros c Hc. destruct (V c Hc) as (VA & VB). unfold global_k, global_n in VA, VB. cbn [h_trends tr_kz tr_kx tr_nz tr_nx] in VA, VB.
  destruct (find (fun j => first_cells at_ j c) (seq 0 (List.length aes))) as [j|] eqn:Ef.
  - apply find_some in Ef as (Hj & Hm). apply in_seq in Hj. destruct (nth_error aes j) as [a|] eqn:Ea; [|apply nth_error_None in Ea; lia].
    destruct (nth_error (elements_from 0 strata) j) as [[si e]|] eqn:Ee; [|apply nth_error_None in Ee; lia].
    assert (Eo : element_of fin cf (si, e) a). { destruct (Forall2_nth_r _ _ _ HE _ _ Ea) as (y & Y1 & Y2). rewrite Ee in Y1. injection Y1 as <-. exact Y2. }
    destruct Eo as (Eb & _). cbn [snd] in Eb. rewrite <- (Mf _ _ Ea) in Hm.
    destruct (VA _ _ Ea Hm) as (v & w & KV & NV & P1 & P2). rewrite (Mf _ _ Ea) in KV, NV, Hm. rewrite Eb in KV, NV.
    assert (Hb : (0 <= ae_bg_facies e)%Z).
    { assert (Hin := nth_error_In _ _ Ee). apply elements_from_In in Hin as (fs & F1 & _ & F2). apply (Hbg _ _ _ F1 F2). }
    exists (ae_bg_facies e), (first_cells at_ j), (ae_draw j), j. split; [eapply of_element; eassumption|].
    destruct KV as (k & sy & cl & u & K1 & K2 & K3 & K4 & ->). destruct NV as (n & sn & cl' & u' & N1 & N2 & N3 & N4 & ->).
    cbn [h_k h_sigy h_ycorl h_n h_sign h_ncorl] in *. split.
    + exists k, sy, cl, u. repeat split; try (eapply get_values; eassumption); try (eapply get_lengths; eassumption); try assumption.
      rewrite P1, (Fc j c) by lia. reflexivity.
    + exists n, sn, cl', u'. repeat split; try (eapply get_values; eassumption); try (eapply get_lengths; eassumption); try assumption.
  - assert (Hno : forall j, (j < List.length aes)%nat -> first_cells at_ j c = false).
    { intros j Hj. apply (find_none _ _ Ef j). apply in_seq. lia. }
    destruct VB as (v & w & KV & NV & P1 & P2).
    { intros j a Ha. rewrite (Mf _ _ Ha). apply Hno. apply nth_error_Some. congruence. }
    exists (c_facies (at_ c)), (fun c' => (c_ha (at_ c') =? c_ha (at_ c))%Z && (c_facies (at_ c') =? c_facies (at_ c))%Z), (draw (c_ha (at_ c)) (c_facies (at_ c))), 0%nat.
    split; [apply of_object; rewrite HL; exact Hno|].
    assert (Hb : (0 <= c_facies (at_ c))%Z) by apply (Hf c Hc).
    destruct KV as (k & sy & cl & u & K1 & K2 & K3 & K4 & ->). destruct NV as (n & sn & cl' & u' & N1 & N2 & N3 & N4 & ->).
    cbn [h_k h_sigy h_ycorl h_n h_sign h_ncorl] in *. split.
    + exists k, sy, cl, u. repeat split; try (eapply get_values; eassumption); try (eapply get_lengths; eassumption); try exact K4.
      rewrite P1, <- (Fc 0%nat c) by lia. reflexivity.
    + exists n, sn, cl', u'. repeat split; try (eapply get_values; eassumption); try (eapply get_lengths; eassumption); try exact N4.
      exact P2.
Qed.
Print Assumptions C132_internal.

(** The file of C109 with random numbers that are all zero: every cell has the
    conductivity of a facies. *)
Definition silent : noise := mkNoise (fun _ => 0) (fun _ => 0).
Lemma silent_field s co sig cl m c u : simulated s co sig cl m silent c u -> u = 0.
Proof.
  intros (lo & hi & y & _ & H & ->). unfold specsim_field in H. cbn [covariance bind] in H. injection H as <-. unfold field, silent.
  apply sum_cells_zero. intros f _. cbn. ring.
Qed.
Lemma no_trend_at k t : In k ["k_ztrend"; "k_xtrend"; "n_ztrend"; "n_xtrend"] -> trend_at lk_fin (cf_hydraulics lk_cf) k t -> t = None.
Proof.
  intros Hk [(_ & ->)|(a & b & (x & y & H & _) & _)]; [reflexivity|]. exfalso. revert H.
  destruct Hk as [<-|[<-|[<-|[<-|[]]]]]; vm_compute; intros H; discriminate H.
Qed.
Example C132_example : exists r, run_hydraulics lk_fin lk_cf lk_linked (fun _ _ _ => 0%Z) lk_st lk_strata (fun _ _ _ => silent) (fun _ _ => silent) = Ok r /\
  forall c, In c (cells (shape_of (lk_grid lk_linked))) -> exists f k, facies_value lk_fin (cf_hydraulics lk_cf) "k_h" f k /\ p_k r c = k.
Proof.
  destruct (C109_example (fun _ _ _ => silent) (fun _ _ => silent)) as (r & Hr & _). exists r. split; [exact Hr|].
  assert (E : lk_cf = lk_cf \/ lk_cf = lf_cf) by now left.
  assert (Hd : Forall (fsd_ok (columns (lk_grid lk_linked))) lk_draws) by repeat constructor.
  destruct (C132_internal _ toyf lk_fin lk_nan lk_ini lk_cf lk_linked 5 lk_draws lk_st lk_strata (fun _ _ _ => 0%Z) (fun _ _ _ => silent) (fun _ _ => silent) r
    lk_parse lk_link Hd lk_runs (lk_layers _ E) eq_refl eq_refl Hr) as (at_ & co & ts & kz & kx & nz & nx & _ & _ & Hts & T1 & T2 & _ & _ & _ & _ & H).
  apply no_trend_at in T1, T2; [|cbn; tauto|cbn; tauto]. subst kz kx.
  intros c Hc. destruct (H c Hc) as (f & m & e & first & Hs & (k & sig & cl & u & K1 & _ & _ & K2 & K3) & _). exists f, k. split; [exact K1|].
  assert (u = 0) as -> by (inversion Hs; subst; eapply silent_field; exact K2). rewrite K3, exp_0. cbn [along].
  assert (T : Forall (fun t => t = (None, None)) ts).
  { clear -Hts. assert (G : forall se, In se (elements_from 0 lk_strata) -> forall sec k t, section_of lk_cf (fst se) (snd se) sec -> In k ["k_ztrend"; "k_xtrend"] -> trend_at lk_fin sec k t -> t = None).
    { intros se _ sec k t (n & cm & tt & names & _ & _ & _ & Hin) Hk [(_ & ->)|(a & b & (x & y & H & _) & _)]; [reflexivity|]. exfalso. revert H.
      vm_compute in Hin. repeat destruct Hin as [[= <- <- <-]|Hin]; try destruct Hin; destruct Hk as [<-|[<-|[]]]; vm_compute; intros H; discriminate H. }
    revert G Hts. generalize (elements_from 0 lk_strata). intros l G Hts. induction Hts as [|x y l r' (sec & H1 & H2 & H3) _ IH]; constructor; [|apply IH; intros; eapply G; eauto; now right].
    destruct y as [t1 t2]. cbn [fst snd] in *. rewrite (G x (or_introl eq_refl) _ _ _ H1 (or_introl eq_refl) H2), (G x (or_introl eq_refl) _ _ _ H1 (or_intror (or_introl eq_refl)) H3). reflexivity. }
  assert (P : element_factors (shape_of (lk_grid lk_linked)) at_ ts first c = 1).
  { unfold element_factors. assert (G : forall l, Forall (fun x => x = 1) l -> product l = 1).
    { intros l Hl. induction Hl as [|x l -> _ IH]; cbn; [reflexivity|]. fold (product l). rewrite IH. ring. }
    apply G, Forall_map. apply Forall_forall. intros [j t] Hj. assert (Hj' : In (j, t) (combine (seq 0 (List.length ts)) ts)).
    { rewrite <- (firstn_skipn first (combine _ _)). apply in_or_app. now right. }
    apply in_combine_r in Hj'. rewrite Forall_forall in T. rewrite (T _ Hj'). cbn [fst snd along]. match goal with |- (if ?b then _ else _) = _ => destruct b end; ring. }
  rewrite P. ring.
Qed.
