(** Proofs about the strata above a contact surface. *)
From Coq Require Import List ZArith Bool Reals Lra Lia FunctionalExtensionality.
From Verif Require Import Base Num SurfaceModel SurfaceSpec SurfaceProofs StrataModel StrataSpec StrataProofs StrataProofs2 AssignModel AssignSpec BuildModel ChannelModel
  FullModel FullSpec FullProofs FullProofs2 AboveSpec.
Import ListNotations.

Lemma pyget_last {A} (l l' : list A) k j : same_last k l l' -> (j < k)%nat -> pyget l (-1 - Z.of_nat j) = pyget l' (-1 - Z.of_nat j).
Proof.
  intros (a & a' & c & -> & -> & E) Hj.
  assert (K : forall b : list A, pyget (b ++ c) (-1 - Z.of_nat j) = match nth_error c (k - 1 - j) with Some x => Ok x | None => Err IndexError end).
  { intros b. unfold pyget, pyidx. rewrite app_length, E.
    destruct (Z.leb_spec 0 (-1 - Z.of_nat j)); [lia|]. cbn [andb]. destruct (Z.leb_spec (- Z.of_nat (List.length b + k)) (-1 - Z.of_nat j)); [|lia].
    destruct (Z.ltb_spec (-1 - Z.of_nat j) 0); [|lia]. cbn [andb].
    rewrite nth_error_app2 by lia. replace (Z.to_nat (-1 - Z.of_nat j + Z.of_nat (List.length b + k)) - List.length b)%nat with (k - 1 - j)%nat by lia. reflexivity. }
  now rewrite !K.
Qed.

(** The surfaces of the strata exist. *)
Definition ids_ok (st : store R) (fs : full_stratum) : Prop := forall a, surface_of fs a -> (a < List.length st)%nat.

Lemma full_step g fuel fp first draws st bottom top st' str : wf (columns g) st -> (bottom < List.length st)%nat -> (top < List.length st)%nat -> below st bottom top ->
  Forall (fd_ok (columns g)) draws -> new_full_stratum g fuel fp first draws st bottom top = Ok (st', str) ->
  wf (columns g) st' /\ keeps st st' /\ ids_ok st' str /\ List.length (s_aes (fst str)) = List.length (snd str).
Proof.
  intros W Hb Ht B Hd H3. unfold new_full_stratum in H3.
  apply bind_Ok in H3 as (sb & Hsb & H3). apply bind_Ok in H3 as (stp & Hstp & H3).
  apply bind_Ok in H3 as ((st3 & (lo & hi) & aes) & Hl & H3). injection H3 as <- <-.
  assert (Hl2 := Hl). apply full_stratum_refines in Hl2 as (ds' & HF2 & Hl2).
  assert (Hs3 : new_stratum g fuel (base_params fp) first ds' st bottom top = Ok (st3, mkStratum bottom top lo hi (map fst aes))).
  { unfold new_stratum. rewrite Hsb. cbn [bind]. rewrite Hstp. cbn [bind]. cbn [map] in Hl2. rewrite Hl2. reflexivity. }
  apply new_stratum_spec in Hs3; try assumption; [|eapply Forall2_fields; eauto].
  destruct Hs3 as (W3 & K3 & _ & _ & OK). pose proof (keeps_length _ _ K3). split; [assumption|]. split; [assumption|]. split; [|cbn; now rewrite !map_length].
  unfold stratum_ok in OK. cbn [s_bottom s_top s_aes] in OK. intros a [->|[->|(e & He & Ha)]]; cbn in *; try lia.
  assert (ae_ok st3 e) as ((A1 & A2) & _) by (destruct OK as (_ & _ & _ & _ & OK & _); rewrite Forall_forall in OK; exact (proj1 (OK e He))).
  destruct Ha as [->| ->]; assumption.
Qed.

Lemma model_step (g : grid R) st top s st2 : wf (columns g) st -> (top < List.length st)%nat -> List.length (vals s) = columns g -> bounded s ->
  use_lower (st ++ [s]) (List.length st) top = Ok st2 ->
  wf (columns g) st2 /\ keeps st st2 /\ below st2 (List.length st) top /\ List.length st2 = S (List.length st).
Proof.
  intros Hw Ht Ls Bs H2. set (st1 := st ++ [s]) in *.
  assert (W1 : wf (columns g) st1) by (apply wf_alloc; assumption).
  assert (W2 : wf (columns g) st2) by (eapply use_lower_wf; eauto).
  assert (L1 : List.length st1 = S (List.length st)) by (unfold st1; rewrite app_length; simpl; lia).
  destruct (use_lower_col _ _ _ _ H2) as (C2 & D2 & L2).
  split; [assumption|]. split; [|split; [|lia]].
  - intros c Hcc. apply (same_trans _ st1); [apply keeps_alloc; assumption|]. eapply use_lower_others; [exact H2|lia|lia].
  - intros k x y Hx Hy.
    destruct (col_like _ st1 st2 (List.length st) _ _ _ W1 W2 ltac:(lia) Hx) as (u & Hu).
    rewrite C2 in Hy by lia. rewrite (D2 _ _ _ Hu Hy) in Hx. injection Hx as <-. apply Rmin_r.
Qed.
Lemma model_surface (g : grid R) contacts n si sd s : List.length (fsd_field sd) = columns g ->
  (if Nat.eqb (S si) n then new_surface (columns g) (flat_contact (g_z0 g)) []
   else let* cm := pyget contacts (-1 - Z.of_nat si) in new_surface (columns g) cm (fsd_field sd)) = Ok s ->
  List.length (vals s) = columns g /\ bounded s.
Proof.
  intros Hd Hs. destruct (Nat.eqb (S si) n).
  - apply flat_surface in Hs as ->. split; [apply repeat_length|]. apply flat_bounded.
  - apply bind_Ok in Hs as (cm & _ & Hs). apply new_surface_ok in Hs as (L & B); [|intros _; exact Hd]. auto.
Qed.
Lemma full_iter g fuel contacts params n sd draws si st top strata r : wf (columns g) st -> (top < List.length st)%nat -> fsd_ok (columns g) sd ->
  full_model_loop g fuel contacts params n (sd :: draws) si st top strata = Ok r ->
  exists s st2 fp st3 str,
    (if Nat.eqb (S si) n then new_surface (columns g) (flat_contact (g_z0 g)) []
     else let* cm := pyget contacts (-1 - Z.of_nat si) in new_surface (columns g) cm (fsd_field sd)) = Ok s /\
    use_lower (st ++ [s]) (List.length st) top = Ok st2 /\ pyget params (-1 - Z.of_nat si) = Ok fp /\
    new_full_stratum g fuel fp (fsd_first sd) (fsd_draws sd) st2 (List.length st) top = Ok (st3, str) /\
    wf (columns g) st3 /\ keeps st st3 /\ ids_ok st3 str /\ List.length (s_aes (fst str)) = List.length (snd str) /\ (List.length st < List.length st3)%nat /\
    full_model_loop g fuel contacts params n draws (S si) st3 (List.length st) (strata ++ [str]) = Ok r.
Proof.
  intros Hw Ht (Hd1 & Hd2) E. cbn [full_model_loop] in E. apply bind_Ok in E as (s & Hs & E). cbn [alloc] in E.
  apply bind_Ok in E as (st2 & H2 & E). apply bind_Ok in E as (fp & Hfp & E). apply bind_Ok in E as ((st3 & str) & H3 & E).
  destruct (model_surface _ _ _ _ _ _ Hd1 Hs) as [Ls Bs]. destruct (model_step _ _ _ _ _ Hw Ht Ls Bs H2) as (W2 & K2 & B2 & L2).
  assert (List.length st < List.length st2)%nat as X1 by lia. assert (top < List.length st2)%nat as X2 by lia.
  destruct (full_step _ _ _ _ _ _ _ _ _ _ W2 X1 X2 B2 Hd2 H3) as (W3 & K3 & I3 & N3). pose proof (keeps_length _ _ K3).
  exists s, st2, fp, st3, str. repeat (split; [first [assumption|lia|eapply keeps_trans; eassumption]|]). exact E.
Qed.

Lemma full_keeps g fuel contacts params n : forall draws si st top strata st' strata',
  wf (columns g) st -> (top < List.length st)%nat -> Forall (fsd_ok (columns g)) draws ->
  full_model_loop g fuel contacts params n draws si st top strata = Ok (st', strata') ->
  keeps st st' /\ exists new, strata' = strata ++ new.
Proof.
  induction draws as [|sd draws IH]; intros si st top strata st' strata' W Ht Hd E.
  - cbn [full_model_loop] in E. destruct (Nat.eqb si n); [|discriminate]. injection E as <- <-. split; [apply keeps_refl|]. exists []. now rewrite app_nil_r.
  - inversion Hd as [|? ? Hs Hd']; subst. apply full_iter in E as (s & st2 & fp & st3 & str & _ & _ & _ & _ & W3 & K3 & _ & _ & L3 & E); [|assumption..].
    apply IH in E as [K (new & ->)]; [|assumption..]. split; [eapply keeps_trans; eassumption|]. exists (str :: new). now rewrite <- app_assoc.
Qed.

Lemma full_prefix g fuel contacts contacts' params params' n n' k : same_last k contacts contacts' -> same_last k params params' -> (k < n)%nat -> (k < n')%nat ->
  forall D E E' si st top strata r r', (si + List.length D = k)%nat ->
  wf (columns g) st -> (top < List.length st)%nat -> Forall (fsd_ok (columns g)) D ->
  Forall (ids_ok st) strata -> Forall (fun fs : full_stratum => List.length (s_aes (fst fs)) = List.length (snd fs)) strata -> List.length strata = si ->
  full_model_loop g fuel contacts params n (D ++ E) si st top strata = Ok r ->
  full_model_loop g fuel contacts' params' n' (D ++ E') si st top strata = Ok r' ->
  exists stk topk strk, wf (columns g) stk /\ (topk < List.length stk)%nat /\ Forall (ids_ok stk) strk /\
    Forall (fun fs : full_stratum => List.length (s_aes (fst fs)) = List.length (snd fs)) strk /\ List.length strk = k /\
    full_model_loop g fuel contacts params n E k stk topk strk = Ok r /\
    full_model_loop g fuel contacts' params' n' E' k stk topk strk = Ok r'.
Proof.
  intros HC HP Hn Hn'. induction D as [|sd D IH]; intros E E' si st top strata r r' Hk W Ht Hd HI HL Hlen R1 R2; cbn [List.length app] in *.
  - rewrite Nat.add_0_r in Hk. subst. exists st, top, strata. repeat (split; [first [assumption|reflexivity]|]). assumption.
  - inversion Hd as [|? ? Hs Hd']; subst.
    apply full_iter in R1 as (s & st2 & fp & st3 & str & A1 & A2 & A3 & A4 & W3 & K3 & I3 & N3 & L3 & R1); [|assumption..].
    apply full_iter in R2 as (s' & st2' & fp' & st3' & str' & B1 & B2 & B3 & B4 & _ & _ & _ & _ & _ & R2); [|assumption..].
    assert (Hj : (List.length strata < List.length strata + S (List.length D))%nat) by lia.
    rewrite <- (pyget_last _ _ _ _ HP Hj) in B3. rewrite <- (pyget_last _ _ _ _ HC Hj) in B1.
    replace (Nat.eqb (S (List.length strata)) n) with false in A1 by (symmetry; apply Nat.eqb_neq; lia).
    replace (Nat.eqb (S (List.length strata)) n') with false in B1 by (symmetry; apply Nat.eqb_neq; lia).
    rewrite A1 in B1. injection B1 as <-. rewrite A2 in B2. injection B2 as <-. rewrite A3 in B3. injection B3 as <-. rewrite A4 in B4. injection B4 as <- <-.
    refine (IH E E' (S (List.length strata)) st3 (List.length st) (strata ++ [str])%list r r' _ W3 L3 Hd' _ _ _ R1 R2).
    + lia.
    + apply Forall_app. split; [|constructor; [assumption|constructor]]. pose proof (keeps_length _ _ K3). revert HI. apply Forall_impl. intros fs H0 a Ha. specialize (H0 a Ha). lia.
    + apply Forall_app. auto.
    + rewrite app_length. cbn. lia.
Qed.

(** *** Cells *)
Lemma first_app {A B} (f : A -> option B) l l' : forall i, first f (l ++ l') i = match first f l i with Some r => Some r | None => first f l' (i + List.length l) end.
Proof. induction l as [|x l IH]; intros i; cbn [app first List.length]; [now rewrite Nat.add_0_r|]. destruct (f x); [reflexivity|]. rewrite IH. now replace (S i + List.length l)%nat with (i + S (List.length l))%nat by lia. Qed.
Lemma first_ge {A B} (f : A -> option B) l : forall i j b, first f l i = Some (j, b) -> (i <= j < i + List.length l)%nat.
Proof. induction l as [|x l IH]; intros i j b; cbn; [discriminate|]. destruct (f x); [intros [= <- _]; lia|]. intros H. apply IH in H. lia. Qed.

Section Prefix.
Variables (ny : nat) (ti ti' : nat -> nat -> Z) (look look' : nat -> nat -> point R -> write R).
Variables (probe probe' : nat -> nat -> marks -> point R -> marks * option (write R)) (st st' : store R).

Lemma objs_equal num cs : look num = look' num -> probe num = probe' num -> forall l oi, to_objs ny look probe num oi l cs = to_objs ny look' probe' num oi l cs.
Proof. intros HL HP. induction cs as [|c cs IH]; intros [|o l] oi; try reflexivity. cbn [to_objs]. now rewrite IH, HL, HP. Qed.
Lemma aelems_equal si : forall l num,
  (forall e, In e l -> elevation ny st (ae_bottom e) = elevation ny st' (ae_bottom e) /\ elevation ny st (ae_top e) = elevation ny st' (ae_top e)) ->
  (forall kind, ti si kind = ti' si kind) ->
  (forall j, (num <= j < num + List.length l)%nat -> look j = look' j /\ probe j = probe' j) ->
  to_aelems ny ti look probe st si num l = to_aelems ny ti' look' probe' st' si num l.
Proof.
  induction l as [|e l IH]; intros num HE HT HL; [reflexivity|]. cbn [to_aelems List.length] in *. rewrite IH; auto with datatypes.
  2:{ intros j Hj. apply HL. lia. }
  f_equal. unfold to_aelem. destruct (HE e ltac:(now left)) as [-> ->]. destruct (HL num ltac:(lia)) as [L1 L2]. rewrite HT. now rewrite (objs_equal num _ L1 L2).
Qed.
Lemma models_equal : forall l si num,
  (forall s e, In s l -> In e (s_aes s) -> elevation ny st (ae_bottom e) = elevation ny st' (ae_bottom e) /\ elevation ny st (ae_top e) = elevation ny st' (ae_top e)) ->
  (forall j kind, (si <= j < si + List.length l)%nat -> ti j kind = ti' j kind) ->
  (forall j, (num <= j < num + List.length (List.concat (map s_aes l)))%nat -> look j = look' j /\ probe j = probe' j) ->
  to_model ny ti look probe st si num l = to_model ny ti' look' probe' st' si num l.
Proof.
  induction l as [|s l IH]; intros si num HE HT HL; [reflexivity|]. cbn [to_model map List.concat List.length] in *. rewrite app_length in HL.
  rewrite (aelems_equal si (s_aes s) num).
  - f_equal. apply IH; eauto with datatypes; intros; [apply HT; lia|apply HL; lia].
  - eauto with datatypes.
  - intros kind. apply HT. lia.
  - intros j Hj. apply HL. lia.
Qed.
End Prefix.
Lemma to_model_app ny ti look probe (st : store R) l l' : forall si num,
  to_model (D := marks) ny ti look probe st si num (l ++ l') = to_model ny ti look probe st si num l ++ to_model ny ti look probe st (si + List.length l) (num + List.length (List.concat (map s_aes l))) l'.
Proof.
  induction l as [|s l IH]; intros si num; cbn [app to_model List.length map List.concat]; [now rewrite !Nat.add_0_r|]. rewrite IH, app_length.
  do 3 f_equal; lia.
Qed.
Lemma to_model_len ny ti look probe (st : store R) l : forall si num, List.length (to_model (D := marks) ny ti look probe st si num l) = List.length l.
Proof. induction l as [|s l IH]; intros; cbn; [reflexivity|]. now rewrite IH. Qed.

Lemma elevation_keeps ny st0 st a : keeps st0 st -> (a < List.length st0)%nat -> elevation ny st a = elevation ny st0 a.
Proof.
  intros K Ha. destruct (K a Ha) as (s & s' & E1 & E2 & V & _). unfold elevation. now rewrite E1, E2, V.
Qed.
Lemma concat_lengths (l : list full_stratum) : Forall (fun fs : full_stratum => List.length (s_aes (fst fs)) = List.length (snd fs)) l ->
  List.length (List.concat (map s_aes (map fst l))) = List.length (object_table l).
Proof. unfold object_table. induction 1 as [|fs l H HL IH]; [reflexivity|]. cbn [map List.concat]. rewrite !app_length. congruence. Qed.
Lemma look_table wild tab tab' num : nth_error tab num = nth_error tab' num -> look_of wild tab num = look_of wild tab' num.
Proof. intros E. extensionality oi. extensionality p. unfold look_of. now rewrite E. Qed.
Lemma probe_table dm cg wild tab tab' num : nth_error tab num = nth_error tab' num -> probe_of dm cg wild tab num = probe_of dm cg wild tab' num.
Proof. intros E. extensionality oi. extensionality d. extensionality p. unfold probe_of. now rewrite E. Qed.

(** What an exhaustive search finds in one of the common strata is found in
    both models. *)
Lemma search_prefix ny dm cg wild params params' k stk st st' (P Q Q' : list full_stratum) hit p r si :
  same_last k params params' -> List.length P = k -> Forall (ids_ok stk) P -> keeps stk st -> keeps stk st' ->
  Forall (fun fs : full_stratum => List.length (s_aes (fst fs)) = List.length (snd fs)) P ->
  exhaustive hit (to_model ny (type_id_of params) (look_of wild (object_table (P ++ Q))) (probe_of dm cg wild (object_table (P ++ Q))) st 0 0 (map fst (P ++ Q))) p = Some (r, si) ->
  (si < k)%nat ->
  exhaustive hit (to_model ny (type_id_of params') (look_of wild (object_table (P ++ Q'))) (probe_of dm cg wild (object_table (P ++ Q'))) st' 0 0 (map fst (P ++ Q'))) p = Some (r, si).
Proof.
  intros HP HK HI K1 K2 HL H Hsi. unfold exhaustive, search in *. rewrite !map_app, !to_model_app, !first_app in *.
  rewrite (models_equal ny (type_id_of params') (type_id_of params) _ (look_of wild (object_table (P ++ Q))) _ (probe_of dm cg wild (object_table (P ++ Q))) st' st (@map full_stratum (stratum R) fst P) 0 0).
  - revert H. match goal with |- context[first ?f ?l 0] => destruct (first f l 0) as [[j b]|]; [tauto|] end. intros H.
    match type of H with context[first ?f ?l ?n] => destruct (first f l n) as [[j [x [y z]]]|] eqn:F; [|discriminate] end. injection H as <- <-. apply first_ge in F. rewrite to_model_len, map_length in F. lia.
  - intros s e Hs He. apply in_map_iff in Hs as (fs & <- & Hfs). rewrite Forall_forall in HI. specialize (HI fs Hfs).
    rewrite !(elevation_keeps ny stk st), !(elevation_keeps ny stk st'); auto; apply HI; right; right; eauto.
  - intros j kind Hj. rewrite map_length in Hj. unfold type_id_of. now rewrite (pyget_last _ _ k j HP) by lia.
  - intros j Hj. pose proof (concat_lengths P HL) as EL. unfold full_stratum in *. rewrite EL in Hj.
    assert (E : nth_error (object_table (P ++ Q')) j = nth_error (object_table (P ++ Q)) j).
    { unfold object_table. rewrite !map_app, !concat_app. rewrite !nth_error_app1 by (fold (object_table P); lia). reflexivity. }
    split; [now apply look_table|now apply probe_table].
Qed.
