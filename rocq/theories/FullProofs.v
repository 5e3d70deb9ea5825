(** Proofs about the generation with objects: it is a run of generate_model,
    and every element is made from a type of its stratum. *)
From Coq Require Import List ZArith Reals Lia Lra Bool.
From Verif Require Import Base Num ParseModel ConfigModel SurfaceModel SurfaceSpec SurfaceProofs StrataModel StrataSpec StrataProofs StrataProofs2
  StrataProofs3 BuildModel BuildProofs FaciesModel TroughModel SheetModel ChannelModel FullModel FullSpec.
Import ListNotations.
Local Open Scope R_scope.

Lemma choose_map {A B} (f : A -> B) l k a : choose l k = Ok a -> choose (map f l) k = Ok (f a).
Proof. unfold choose. rewrite nth_error_map. destruct (nth_error l k); cbn; congruence. Qed.
Lemma choose_nth {A} (l : list A) k a : choose l k = Ok a -> nth_error l k = Some a.
Proof. unfold choose. destruct (nth_error l k); congruence. Qed.
Lemma pyget_map {A B} (f : A -> B) l i a : pyget l i = Ok a -> pyget (map f l) i = Ok (f a).
Proof.
  unfold pyget, pyidx. rewrite map_length.
  repeat match goal with |- context [if ?b then _ else _] => destruct b end; try discriminate;
  cbn; rewrite nth_error_map; destruct (nth_error _ _); cbn; congruence.
Qed.

(** ** One element *)
Lemma full_ae_inv g fuel st ft kind sbg b t od st' e o :
  full_ae g fuel st ft kind sbg b t od = Ok (st', (e, o)) ->
  exists sb sp, nth_error st b = Some sb /\ nth_error st t = Some sp /\
  exists o0, make_objects g fuel (ft_kind ft) sb sp od = Ok o0 /\
    new_ae g fuel st (base_type ft) kind sbg b t (extents o0) = Ok (st', e) /\
    match ft_kind ft with
    | PSheets _ _ shp => exists l, make_sheets g st' shp (ae_objects e) (od_sheets od) = Ok l /\ o = OSheets l
    | _ => o = o0
    end.
Proof.
  unfold full_ae. intros E. apply bind_Ok in E as (sb & Hsb & E). apply bind_Ok in E as (sp & Hsp & E).
  apply bind_Ok in E as (o0 & Ho & E). apply bind_Ok in E as ((st1 & e1) & He & E).
  apply getS_Ok in Hsb, Hsp. exists sb, sp. split; [assumption|]. split; [assumption|]. exists o0. split; [assumption|].
  destruct (ft_kind ft).
  - apply bind_Ok in E as (l & Hl & E). injection E as <- <- <-. split; [assumption|]. eauto.
  - injection E as <- <- <-. auto.
  - injection E as <- <- <-. auto.
Qed.
Lemma new_ae_kind (g : grid R) fuel st ty kind sbg b t objs st' e :
  new_ae g fuel st ty kind sbg b t objs = Ok (st', e) -> ae_kind e = kind /\ ae_bottom e = b /\ ae_top e = t.
Proof.
  unfold new_ae. intros E. apply bind_Ok in E as (sb & Hsb & E). apply bind_Ok in E as (sp & Hsp & E).
  apply bind_Ok in E as ((st1 & (l & lo) & hi) & Hg & E). apply bind_Ok in E as (cp & Hcp & E). now injection E as <- <-.
Qed.

(** ** Refinement *)
Lemma full_stratum_refines g fuel fp bot : forall draws st top curr znow lo hi aes st' lo' hi' aes',
  full_stratum_loop g fuel fp bot draws st top curr znow lo hi aes = Ok (st', (lo', hi', aes')) ->
  exists draws', Forall2 (fun d d' => d_field d' = fd_field d) draws draws' /\
    stratum_loop g fuel (base_params fp) bot draws' st top curr znow lo hi (map fst aes) = Ok (st', (lo', hi', map fst aes')).
Proof.
  induction draws as [|d draws IH]; intros st top curr znow lo hi aes st' lo' hi' aes' E;
    cbn [full_stratum_loop] in E; apply bind_Ok in E as (sbot & Hs & E).
  - destruct (Rleb znow (zmean sbot)) eqn:Ez; [|discriminate]. injection E as <- <- <- <-.
    exists []. split; [constructor|]. cbn [stratum_loop]. rewrite Hs. cbn [bind]. rewrite nleb_R, Ez. reflexivity.
  - destruct (Rleb znow (zmean sbot)) eqn:Ez.
    { injection E as <- <- <- <-. exists (map (fun d => base_draw d []) (d :: draws)). split.
      - clear. induction (d :: draws); cbn; constructor; auto.
      - cbn [stratum_loop map]. rewrite Hs. cbn [bind]. rewrite nleb_R, Ez. reflexivity. }
    apply bind_Ok in E as (ty & Hty & E). apply bind_Ok in E as (next & Hnx & E).
    apply bind_Ok in E as (((z2 & st1) & ab) & Hab & E).
    apply bind_Ok in E as (st2 & H2 & E). apply bind_Ok in E as (st3 & H3 & E).
    apply bind_Ok in E as ((st4 & (e & o)) & He & E). cbn [fst snd] in E.
    apply full_ae_inv in He as (sb & sp & _ & _ & o0 & _ & He & _).
    apply IH in E as (draws' & HF & E). exists (base_draw d (extents o0) :: draws'). split; [constructor; [reflexivity|assumption]|].
    cbn [stratum_loop]. rewrite Hs. cbn [bind]. rewrite nleb_R, Ez. cbn [base_params sp_types sp_avul_prob sp_bg].
    rewrite (choose_map _ _ _ _ Hty). cbn [bind]. cbn [base_draw d_next]. rewrite (choose_map _ _ _ _ Hnx). cbn [bind].
    assert (EN : next_depth (fp_avul_prob fp) znow (base_draw d (extents o0)) = next_depth (fp_avul_prob fp) znow (base_draw d [])) by reflexivity.
    fold (base_draw d (extents o0)). rewrite EN. cbn [base_draw d_field d_objs base_type t_contact]. rewrite nleb_R, Hab. cbn [bind].
    rewrite H2. cbn [bind]. rewrite H3. cbn [bind]. fold (base_type ty). rewrite He. cbn [bind]. rewrite map_app in E. exact E.
Qed.

Lemma full_model_refines g fuel contacts params n : forall draws si st top strata st' strata',
  full_model_loop g fuel contacts params n draws si st top strata = Ok (st', strata') ->
  exists draws', Forall2 (fun sd sd' => sd_field sd' = fsd_field sd /\ Forall2 (fun d d' => d_field d' = fd_field d) (fsd_draws sd) (sd_draws sd')) draws draws' /\
    model_loop g fuel contacts (map base_params params) n draws' si st top (map fst strata) = Ok (st', map fst strata').
Proof.
  induction draws as [|sd draws IH]; intros si st top strata st' strata' E; cbn [full_model_loop] in E.
  - exists []. split; [constructor|]. cbn [model_loop]. destruct (Nat.eqb si n); [|discriminate]. now injection E as <- <-.
  - apply bind_Ok in E as (s & Hs & E). cbn [alloc] in E. apply bind_Ok in E as (st2 & H2 & E). apply bind_Ok in E as (fp & Hfp & E).
    apply bind_Ok in E as ((st3 & str) & H3 & E). unfold new_full_stratum in H3.
    apply bind_Ok in H3 as (sb & Hsb & H3). apply bind_Ok in H3 as (sp & Hsp & H3).
    apply bind_Ok in H3 as ((st3' & (lo & hi) & aes) & Hl & H3). injection H3 as <- <-.
    apply full_stratum_refines in Hl as (ds' & HF & Hl). apply IH in E as (draws' & HF' & E).
    exists (mkSD (fsd_field sd) (fsd_first sd) ds' :: draws'). split; [constructor; [cbn; auto|assumption]|].
    cbn [model_loop sd_field sd_first sd_draws]. rewrite Hs. cbn [bind alloc]. rewrite H2. cbn [bind].
    rewrite (pyget_map base_params _ _ _ Hfp). cbn [bind]. unfold new_stratum. rewrite Hsb. cbn [bind]. rewrite Hsp. cbn [bind].
    cbn [map] in Hl. rewrite Hl. cbn [bind]. rewrite map_app in E. exact E.
Qed.

Lemma Forall2_fields n l l' : Forall2 (fun d d' => d_field d' = fd_field d) l l' -> Forall (fd_ok n) l -> Forall (field_ok n) l'.
Proof. induction 1; intros K; inversion K; subst; constructor; auto. unfold field_ok, fd_ok in *. congruence. Qed.

Theorem full_refines g fuel contacts params draws st strata n :
  full_generate g fuel contacts params draws = Ok (st, strata) -> Forall (fsd_ok n) draws ->
  exists draws', Forall (sd_ok n) draws' /\
    generate_model g fuel contacts (map base_params params) draws' = Ok (st, map fst strata).
Proof.
  unfold full_generate. intros E Hd. apply bind_Ok in E as (s & Hs & E). cbn [alloc] in E.
  apply full_model_refines in E as (draws' & HF & E). exists draws'. split.
  - clear - HF Hd. induction HF as [|sd sd' l l' (E1 & E2) HF IH]; inversion Hd as [|? ? (K1 & K2) Hd']; subst; constructor; auto.
    split; [congruence|]. eapply Forall2_fields; eauto.
  - unfold generate_model. rewrite Hs. cbn [bind alloc]. rewrite map_length. exact E.
Qed.

(** ** Where the elements come from *)
Lemma full_stratum_elements g fuel fp bot : forall draws st top curr znow lo hi aes st' lo' hi' aes',
  wf (columns g) st -> (bot < List.length st)%nat -> (top < List.length st)%nat -> below st bot top ->
  Forall (fd_ok (columns g)) draws ->
  full_stratum_loop g fuel fp bot draws st top curr znow lo hi aes = Ok (st', (lo', hi', aes')) ->
  keeps st st' /\
  exists new, aes' = (aes ++ new)%list /\
    Forall (fun eo => exists ft d, In d draws /\ made_from g fuel st' fp ft (fd_objects d) (fst eo) (snd eo)) new.
Proof.
  induction draws as [|d draws IH]; intros st top curr znow lo hi aes st' lo' hi' aes' Hw Hb Ht Hbt Hf E;
    cbn [full_stratum_loop] in E; apply bind_Ok in E as (sbot & Hs & E); apply getS_Ok in Hs;
    destruct (Rleb znow (zmean sbot)) eqn:Ez; try discriminate.
  1,2: injection E as <- <- <- <-; split; [apply keeps_refl|]; exists []; rewrite app_nil_r; split; [reflexivity|constructor].
  apply bind_Ok in E as (ty & Hty & E). apply bind_Ok in E as (next & Hnx & E).
  inversion Hf as [|? ? Hfd Hfr]; subst.
  apply bind_Ok in E as (((z2 & st1) & ab) & Hab & E).
  apply bind_Ok in E as (st2 & H2 & E). apply bind_Ok in E as (st3 & H3 & E).
  apply bind_Ok in E as ((st4 & (e & o)) & He & E). cbn [fst snd] in E.
  assert (Hab' : (let z1 := next_depth (sp_avul_prob (base_params fp)) znow (base_draw d []) in
     if (z1 <=? zmean sbot)%num then Ok (zmean sbot, st, bot)
     else let* s := new_surface (columns g) (set_z (t_contact (base_type next)) z1) (d_field (base_draw d [])) in
          let (st, b) := alloc st s in Ok (z1, st, b)) = Ok (z2, st1, ab)) by (cbv zeta; rewrite nleb_R; exact Hab).
  destruct (stratum_step g (base_params fp) bot st top znow (base_draw d []) (base_type next) z2 st1 ab sbot st2 st3 Hw Hb Ht Hbt Hfd Hs Hab' H2 H3)
    as (W3 & K3 & Lab & B3t & B3b).
  pose proof (keeps_length _ _ K3).
  assert (He0 := He). apply full_ae_inv in He as (sb & sp & Hsb & Hsp & o0 & Ho & He & _).
  destruct (new_ae_kind _ _ _ _ _ _ _ _ _ _ _ He) as (Ek & Eb & Et). subst curr.
  apply (new_ae_spec g) in He; try assumption; try lia.
  destruct He as (W4 & K4 & _ & _ & Hok & _). pose proof (keeps_length _ _ K4).
  apply IH in E; try assumption; try lia; [|apply (keeps_below st3); try assumption; lia].
  destruct E as (K5 & new & -> & HF). split; [eapply keeps_trans; [exact K3|]; eapply keeps_trans; eassumption|].
  exists ((e, o) :: new). rewrite <- app_assoc. split; [reflexivity|]. constructor.
  - exists ty, d. split; [now left|]. cbn [fst snd]. split; [now apply choose_nth|].
    exists st3, st4. rewrite Eb, Et. repeat (split; [assumption || (eapply keeps_trans; eassumption)|]). assumption.
  - revert HF. apply Forall_impl. intros eo (ft & d' & Hd & HM). exists ft, d'. split; [now right|assumption].
Qed.

Lemma made_from_keeps g fuel st st' fp ft od e o : keeps st st' -> made_from g fuel st fp ft od e o -> made_from g fuel st' fp ft od e o.
Proof.
  intros K (H1 & st0 & st1 & H2 & H3 & H4 & H5 & H6). split; [assumption|]. exists st0, st1.
  repeat (split; [assumption || (eapply keeps_trans; eassumption)|]). assumption.
Qed.

Definition elements_from g fuel st params (draws : list full_stratum_draws) (si : nat) (fs : full_stratum) : Prop :=
  exists sd fp, In sd draws /\ pyget params (-1 - Z.of_nat si) = Ok fp /\
    List.length (s_aes (fst fs)) = List.length (snd fs) /\
    Forall (fun eo => exists ft d, In d (fsd_draws sd) /\ made_from g fuel st fp ft (fd_objects d) (fst eo) (snd eo)) (combine (s_aes (fst fs)) (snd fs)).

Lemma combine_map_fst_snd {A B} (l : list (A * B)) : combine (map fst l) (map snd l) = l.
Proof. induction l as [|[a b] l IH]; cbn; congruence. Qed.

Lemma full_model_elements g fuel contacts params n : forall draws si st top strata st' strata' all,
  wf (columns g) st -> (top < List.length st)%nat -> Forall (fsd_ok (columns g)) draws -> incl draws all ->
  List.length strata = si ->
  (forall k fs, nth_error strata k = Some fs -> elements_from g fuel st params all k fs) ->
  full_model_loop g fuel contacts params n draws si st top strata = Ok (st', strata') ->
  forall k fs, nth_error strata' k = Some fs -> elements_from g fuel st' params all k fs.
Proof.
  induction draws as [|sd draws IH]; intros si st top strata st' strata' all Hw Ht Hd Hall Hlen Hst E; cbn [full_model_loop] in E.
  - destruct (Nat.eqb si n); [|discriminate]. injection E as <- <-. exact Hst.
  - apply bind_Ok in E as (s & Hs & E). cbn [alloc] in E.
    apply bind_Ok in E as (st2 & H2 & E). apply bind_Ok in E as (fp & Hfp & E).
    apply bind_Ok in E as ((st3 & str) & H3 & E).
    inversion Hd as [|? ? (Hd1 & Hd2) Hdr]; subst.
    set (st1 := st ++ [s]) in *.
    assert (Ls : List.length (vals s) = columns g /\ bounded s).
    { destruct (Nat.eqb_spec (S (List.length strata)) n).
      - apply flat_surface in Hs as ->. split; [apply repeat_length|]. apply flat_bounded.
      - apply bind_Ok in Hs as (cm & _ & Hs). apply new_surface_ok in Hs as (L & B); [|intros _; exact Hd1]. auto. }
    destruct Ls as (Ls & Bs).
    assert (W1 : wf (columns g) st1) by (apply wf_alloc; assumption).
    assert (W2 : wf (columns g) st2) by (eapply use_lower_wf; eauto).
    assert (L1 : List.length st1 = S (List.length st)) by (unfold st1; rewrite app_length; simpl; lia).
    destruct (use_lower_col _ _ _ _ H2) as (C2 & D2 & L2).
    assert (K2 : keeps st st2).
    { intros c Hcc. apply (same_trans _ st1); [apply keeps_alloc; assumption|]. eapply use_lower_others; [exact H2|lia|lia]. }
    assert (B2 : below st2 (List.length st) top).
    { intros k x y Hx Hy.
      destruct (col_like _ st1 st2 (List.length st) _ _ _ W1 W2 ltac:(lia) Hx) as (u & Hu).
      rewrite C2 in Hy by lia. rewrite (D2 _ _ _ Hu Hy) in Hx. injection Hx as <-. apply Rmin_r. }
    unfold new_full_stratum in H3.
    apply bind_Ok in H3 as (sb & Hsb & H3). apply bind_Ok in H3 as (stp & Hstp & H3).
    apply bind_Ok in H3 as ((st3' & (lo & hi) & aes) & Hl & H3). injection H3 as <- <-.
    assert (Hl2 := Hl). apply full_stratum_refines in Hl2 as (ds' & HF2 & Hl2).
    assert (Hs3 : new_stratum g fuel (base_params fp) (fsd_first sd) ds' st2 (List.length st) top = Ok (st3', mkStratum (List.length st) top lo hi (map fst aes))).
    { unfold new_stratum. rewrite Hsb. cbn [bind]. rewrite Hstp. cbn [bind]. cbn [map] in Hl2. rewrite Hl2. reflexivity. }
    apply new_stratum_spec in Hs3; try assumption; try lia; [|eapply Forall2_fields; eauto].
    destruct Hs3 as (W3 & K3 & _). pose proof (keeps_length _ _ K3).
    apply full_stratum_elements in Hl; try assumption; try lia.
    destruct Hl as (_ & new & -> & HF). cbn [app] in *.
    refine (IH _ _ _ _ _ _ all W3 _ Hdr _ _ _ E).
    + lia.
    + intros x Hx. apply Hall. now right.
    + rewrite app_length. cbn. lia.
    + intros k fs Hk. destruct (Nat.lt_ge_cases k (List.length strata)) as [Hlt|Hge].
      * rewrite nth_error_app1 in Hk by assumption. destruct (Hst k fs Hk) as (sd0 & fp0 & I1 & I2 & I3 & I4).
        exists sd0, fp0. repeat (split; [assumption|]). revert I4. apply Forall_impl. intros eo (ft & d & J1 & J2).
        exists ft, d. split; [assumption|]. eapply made_from_keeps; [|exact J2]. eapply keeps_trans; eassumption.
      * rewrite nth_error_app2 in Hk by assumption. destruct (k - List.length strata)%nat as [|x] eqn:Ek; [|destruct x; discriminate].
        cbn in Hk. injection Hk as <-. assert (k = List.length strata) by lia. subst k.
        exists sd, fp. split; [apply Hall; now left|]. split; [assumption|]. cbn [fst snd s_aes]. split; [now rewrite !map_length|].
        rewrite combine_map_fst_snd. exact HF.
Qed.

Theorem full_elements g fuel contacts params draws st strata :
  full_generate g fuel contacts params draws = Ok (st, strata) -> Forall (fsd_ok (columns g)) draws ->
  forall si fs, nth_error strata si = Some fs -> elements_from g fuel st params draws si fs.
Proof.
  intros E Hd. unfold full_generate in E. apply bind_Ok in E as (s & Hs & E). apply flat_surface in Hs as ->. cbn [alloc] in E.
  assert (W0 : wf (columns g) ([] ++ [mkSurface (repeat (g_lz g) (columns g)) (g_lz g) (g_lz g) (g_lz g)])).
  { apply wf_alloc; [constructor|apply repeat_length|apply flat_bounded]. }
  intros si fs Hk. refine (full_model_elements g fuel contacts params _ draws 0 _ 0 [] st strata draws W0 _ Hd (incl_refl _) eq_refl _ E si fs Hk).
  - simpl. lia.
  - intros [|j] f; discriminate.
Qed.
