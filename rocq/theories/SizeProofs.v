(** Proofs for C113: options of the sections and the objects made from them. *)
From Coq Require Import List ZArith Bool Ascii String Reals Lia Lra.
From Verif Require Import Base Num ParseModel ConfigModel ConfigSpec ConfigProofs ConfigProofs2 DeprecatedModel DeprecatedSpec DeprecatedProofs SurfaceModel SurfaceProofs
  StrataModel AssignModel FaciesModel TroughModel SheetModel ChannelModel FullModel FullSpec FullProofs LinkModel LinkSpec LinkProofs SizeSpec.
Import ListNotations.
Local Open Scope string_scope.
Local Open Scope R_scope.

Lemma uniform_between lo hi u : unit_draw u -> Rmin lo hi <= uniform lo hi u <= Rmax lo hi.
Proof.
  unfold unit_draw, uniform. numR. intros [H0 H1]. unfold Rmin, Rmax. destruct (Rle_dec lo hi); split; try nra.
Qed.

Section Link.
Context {F : Type} (fin : F -> option R) (is_nan : F -> bool).
Notation value := (val (atom F)).
Notation dic := (dict F).

Lemma finite_Ok f r : finite fin f = Ok r -> fin f = Some r.
Proof. unfold finite. destruct (fin f); congruence. Qed.
Lemma real_Ok (v : value) r : real fin v = Ok r -> exists f, v = Leaf (AFlt f) /\ fin f = Some r.
Proof. unfold real. destruct v as [[]|]; try discriminate. intros H. apply finite_Ok in H. eauto. Qed.
Lemma range2_Ok (v : value) r : range2 fin v = Ok r -> exists a b, v = Node [Leaf (AFlt a); Leaf (AFlt b)] /\ fin a = Some (fst r) /\ fin b = Some (snd r).
Proof.
  unfold range2. destruct v as [[]|l]; try discriminate. destruct l as [|a [|b [|c l]]]; try discriminate.
  intros H. apply bind_Ok in H as (x & Hx & H). apply bind_Ok in H as (y & Hy & H). apply real_Ok in Hx as (fx & -> & Hx). apply real_Ok in Hy as (fy & -> & Hy).
  injection H as <-. eauto 6.
Qed.
Lemma get_real (e : dic) k r : get (real fin) e k = Ok r -> number_at fin e k r.
Proof. intros H. apply get_Ok in H as (v & Hv & H). apply real_Ok in H as (f & -> & H). exists f. auto. Qed.
Lemma get_range (e : dic) k r : get (range2 fin) e k = Ok r -> range_at fin e k (fst r) (snd r).
Proof. intros H. apply get_Ok in H as (v & Hv & H). apply range2_Ok in H as (a & b & -> & H). exists a, b. auto. Qed.
Lemma get_facies (e : dic) k z : get facies_number e k = Ok z -> has e k (Leaf (AInt z)).
Proof. intros H. apply get_Ok in H as (v & Hv & H). apply facies_number_Ok in H. now subst. Qed.
Lemma get_name (e : dic) k z : get structure_name e k = Ok z -> has e k (Leaf (AStr z)).
Proof. intros H. apply get_Ok in H as (v & Hv & H). apply structure_name_Ok in H. now subst. Qed.
Lemma get_trend (e : dic) k t : get (trend fin) e k = Ok t ->
  has e k (Leaf ANone) /\ t = None \/ exists t0 t1, range_at fin e k t0 t1 /\ t = Some (t0, t1).
Proof.
  intros H. apply get_Ok in H as (v & Hv & H). unfold trend in H. destruct (is_none v) eqn:E.
  - left. destruct v as [[]|]; try discriminate. injection H as <-. auto.
  - right. apply bind_Ok in H as ([a b] & H & E'). injection E' as <-. apply range2_Ok in H as (x & y & -> & H1 & H2). exists a, b. split; [exists x, y; auto|reflexivity].
Qed.
Lemma get_layer (e : dic) b k r : get (layer_dist fin b) e k = Ok r -> b = true -> number_at fin e k r.
Proof. intros H ->. now apply get_real. Qed.
Lemma get_positions (e : dic) k te : get (positions_of fin) e k = Ok te ->
  has e k (Leaf ANone) /\ te = None \/
  exists l te', has e k (Node l) /\ te = Some te' /\ forall x y z, In (x, y, z) te' ->
    exists fx fy fz, In (Node [Leaf (AFlt fx); Leaf (AFlt fy); Leaf (AFlt fz)]) l /\ fin fx = Some x /\ fin fy = Some y /\ fin fz = Some z.
Proof.
  intros H. apply get_Ok in H as (v & Hv & H). destruct v as [[]|l]; try discriminate; [left; injection H as <-; auto|right].
  cbn in H. apply bind_Ok in H as (te' & H & E). injection E as <-. exists l, te'. split; [assumption|]. split; [reflexivity|]. intros x y z Hin.
  apply mapM_Ok in H. destruct (Forall2_in_r _ _ _ _ H Hin) as (p & Hp & P). unfold position_of in P. destruct p as [[]|ps]; try discriminate.
  destruct ps as [|a [|b [|c [|d ps]]]]; try discriminate.
  apply bind_Ok in P as (x' & Px & P). apply bind_Ok in P as (y' & Py & P). apply bind_Ok in P as (z' & Pz & P). injection P as -> -> ->.
  apply real_Ok in Px as (fx & -> & Px). apply real_Ok in Py as (fy & -> & Py). apply real_Ok in Pz as (fz & -> & Pz). exists fx, fy, fz. auto.
Qed.

(** Settings of an element type as in its section. *)
Definition kind_as_written (e : dic) (k : kind_params) : Prop :=
  match k with
  | PSheets lens tr shp =>
      geometry_is e "sheet" /\ number_at fin e "lens_thickness" lens /\
      (has e "size_ztrend" (Leaf ANone) /\ tr = None \/ exists t0 t1, range_at fin e "size_ztrend" t0 t1 /\ tr = Some (t0, t1)) /\
      range_at fin e "azimuth" (fst (st_azimuth shp)) (snd (st_azimuth shp)) /\ range_at fin e "dip" (fst (st_dip shp)) (snd (st_dip shp)) /\
      (st_structure shp = S_ "dip" -> has e "structure" (Leaf (AStr (S_ "dip"))) /\ number_at fin e "dipset_dist" (st_dipset_dist shp))
  | PTroughs tp buffer agg migrate te =>
      geometry_is e "trough" /\
      number_at fin e "length" (tp_length tp) /\ number_at fin e "width" (tp_width tp) /\ number_at fin e "depth" (tp_depth tp) /\
      (has e "size_ztrend" (Leaf ANone) /\ tp_trend tp = None \/ exists t0 t1, range_at fin e "size_ztrend" t0 t1 /\ tp_trend tp = Some (t0, t1)) /\
      range_at fin e "paleoflow" (fst (tp_paleoflow tp)) (snd (tp_paleoflow tp)) /\
      range_at fin e "azimuth" (fst (tt_azimuth (tp_type tp))) (snd (tt_azimuth (tp_type tp))) /\
      range_at fin e "dip" (fst (tt_dip (tp_type tp))) (snd (tt_dip (tp_type tp))) /\
      number_at fin e "lag_height" (tt_lag_height (tp_type tp)) /\ has e "lag_facies" (Leaf (AInt (tt_lag_facies (tp_type tp)))) /\
      (tt_structure (tp_type tp) = S_ "dip" \/ tt_structure (tp_type tp) = S_ "random" -> number_at fin e "dipset_dist" (tt_dipset_dist (tp_type tp))) /\
      (tt_structure (tp_type tp) = S_ "bulb_sets" \/ tt_structure (tp_type tp) = S_ "random" -> number_at fin e "bulbset_dist" (tt_bulbset_dist (tp_type tp))) /\
      number_at fin e "buffer" buffer /\ number_at fin e "agg" agg /\
      (migrate = false <-> has e "migrate" (Leaf ANone)) /\
      (has e "te_xyz" (Leaf ANone) /\ te = None \/
       exists l te', has e "te_xyz" (Node l) /\ te = Some te' /\ forall x y z, In (x, y, z) te' ->
         exists fx fy fz, In (Node [Leaf (AFlt fx); Leaf (AFlt fy); Leaf (AFlt fz)]) l /\ fin fx = Some x /\ fin fy = Some y /\ fin fz = Some z)
  | PChannels cp =>
      geometry_is e "channel" /\ has e "channel_no" (Leaf (AInt (Z.of_nat (cc_no cp)))) /\
      number_at fin e "flow_angle" (cc_flow cp) /\ number_at fin e "agg" (cc_agg cp) /\
      number_at fin e "width" (cc_width cp) /\ number_at fin e "depth" (cc_depth cp) /\ number_at fin e "buffer" (cc_buffer cp) /\
      (has e "mig" (Leaf ANone) /\ cc_mig cp = 0 \/ number_at fin e "mig" (cc_mig cp)) /\
      (has e "size_ztrend" (Leaf ANone) /\ cc_trend cp = None \/ exists t0 t1, range_at fin e "size_ztrend" t0 t1 /\ cc_trend cp = Some (t0, t1)) /\
      range_at fin e "dip" (fst (ct_dip (cc_type cp))) (snd (ct_dip (cc_type cp))) /\
      number_at fin e "lag_height" (ct_lag_height (cc_type cp)) /\ has e "lag_facies" (Leaf (AInt (ct_lag_facies (cc_type cp)))) /\
      (ct_structure (cc_type cp) = S_ "dip" -> has e "structure" (Leaf (AStr (S_ "dip"))) /\ number_at fin e "dipset_dist" (ct_dipset_dist (cc_type cp)))
  end.

Ltac steps H := repeat match type of H with
  | bind _ _ = Ok _ => let v := fresh "v" in let E := fresh "E" in apply bind_Ok in H as (v & E & H)
  end.
Ltac conv := repeat match goal with
  | E : get (real _) _ _ = Ok _ |- _ => apply get_real in E
  | E : get (range2 _) _ _ = Ok _ |- _ => apply get_range in E
  | E : get (trend _) _ _ = Ok _ |- _ => apply get_trend in E
  | E : get facies_number _ _ = Ok _ |- _ => apply get_facies in E
  | E : get structure_name _ _ = Ok _ |- _ => apply get_name in E
  | E : get (positions_of _) _ _ = Ok _ |- _ => apply get_positions in E
  | E : lookup _ _ = Ok _ |- _ => apply lookup_Ok in E
  end.

Lemma kind_from (p : dic) k kp : realization_kind p = Ok k ->
  match k with KTrough => link_troughs fin p | KChannel => link_channels fin p | KSheet => link_sheets fin p end = Ok kp ->
  kind_as_written p kp.
Proof.
  intros Hk H. apply realization_kind_geometry in Hk. destruct k; cbn in Hk.
  - unfold link_troughs in H. steps H. injection H as <-. cbn. conv.
    repeat (split; [assumption|]).
    split; [intros [-> | ->]; (eapply get_layer; [eassumption|reflexivity])|].
    split; [intros [-> | ->]; (eapply get_layer; [eassumption|reflexivity])|].
    repeat (split; [assumption|]). split; [|assumption].
    match goal with |- negb (is_none ?v) = _ <-> has _ _ _ => match goal with E : _ = _ |- _ => unfold has; rewrite E; destruct v as [[]|]; cbn; intuition (congruence || discriminate) end end.
  - unfold link_channels in H. steps H. injection H as <-. cbn.
    match goal with E : get count _ _ = Ok _ |- _ => apply get_Ok in E as (w & W1 & W2) end.
    conv. repeat (split; [assumption|]). split.
    { unfold count in W2. destruct w as [[| i | | |]|]; try discriminate. destruct (Z.ltb_spec i 0); [discriminate|]. injection W2 as <-. now rewrite Z2Nat.id. }
    repeat (split; [assumption|]). split.
    { match goal with E : (if is_none ?v then _ else _) = Ok _ |- _ => destruct (is_none v) eqn:En; [left; injection E as <-; destruct v as [[]|]; try discriminate; auto|right] end.
      match goal with E : real _ _ = Ok _ |- _ => apply real_Ok in E as (f & -> & E); exists f; auto end. }
    repeat (split; [assumption|]). intros ->. split; [assumption|]. eapply get_layer; [eassumption|reflexivity].
  - unfold link_sheets in H. steps H. injection H as <-. cbn. conv. repeat (split; [assumption|]).
    intros ->. split; [assumption|]. eapply get_layer; [eassumption|reflexivity].
Qed.

Lemma type_params_dip (e p : dic) : type_params e = Ok p -> has p "structure" (Leaf (AStr (S_ "dip"))) -> has e "structure" (Leaf (AStr (S_ "dip"))).
Proof.
  unfold type_params. intros H Hs. apply bind_Ok in H as (v & Hv & H). apply Ok_inj' in H. subst p. destruct (is_str v "flat"); [|assumption].
  unfold has in Hs. rewrite dget_dset, eqb_S in Hs. cbn in Hs. discriminate.
Qed.
Lemma as_written_section (e p : dic) kp : type_params e = Ok p -> kind_as_written p kp -> kind_as_written e kp.
Proof.
  intros T.
  assert (H : forall k v, k <> "structure" -> has p k v -> has e k v) by (intros k v Hk; now apply (type_params_has e p)).
  assert (N : forall k r, k <> "structure" -> number_at fin p k r -> number_at fin e k r) by (intros k r Hk (f & H1 & H2); exists f; auto).
  assert (R2 : forall k a b, k <> "structure" -> range_at fin p k a b -> range_at fin e k a b) by (intros k a b Hk (f & f' & H1 & H2); exists f, f'; auto).
  assert (I : forall k v, k <> "structure" -> has e k v -> has p k v) by (intros k v Hk; now apply (type_params_has e p)).
  assert (TR : forall (t : option (R * R)), has p "size_ztrend" (Leaf ANone) /\ t = None \/ (exists t0 t1, range_at fin p "size_ztrend" t0 t1 /\ t = Some (t0, t1)) ->
     has e "size_ztrend" (Leaf ANone) /\ t = None \/ (exists t0 t1, range_at fin e "size_ztrend" t0 t1 /\ t = Some (t0, t1))).
  { intros t [[H1 H2]|(t0 & t1 & H1 & H2)]; [left; split; [apply H; [discriminate|exact H1]|exact H2]|right]. exists t0, t1. split; [apply R2; [discriminate|exact H1]|exact H2]. }
  unfold geometry_is. destruct kp; cbn; unfold geometry_is.
  - intros (A1 & A2 & A3 & A4 & A5 & A6).
    split; [apply H; [discriminate|assumption]|]. split; [apply N; [discriminate|assumption]|]. split; [auto|].
    split; [apply R2; [discriminate|assumption]|]. split; [apply R2; [discriminate|assumption]|].
    intros Q. destruct (A6 Q). split; [eapply type_params_dip; eauto|apply N; [discriminate|assumption]].
  - intros (A1 & A2 & A3 & A4 & A5 & A6 & A7 & A8 & A9 & A10 & A11 & A12 & A13 & A14 & A15 & A16).
    split; [apply H; [discriminate|assumption]|].
    do 3 (split; [apply N; [discriminate|assumption]|]). split; [auto|].
    do 3 (split; [apply R2; [discriminate|assumption]|]). split; [apply N; [discriminate|assumption]|]. split; [apply H; [discriminate|assumption]|].
    do 2 (split; [intros Q; apply N; [discriminate|auto]|]). do 2 (split; [apply N; [discriminate|assumption]|]).
    split; [split; [intros Q; apply H; [discriminate|now apply A15]|intros Q; apply A15; apply I; [discriminate|exact Q]]|].
    destruct A16 as [[A B]|(l & te & A & B)]; [left; split; [apply H; [discriminate|assumption]|assumption]|right]. exists l, te. split; [apply H; [discriminate|assumption]|assumption].
  - intros (A1 & A2 & A3 & A4 & A5 & A6 & A7 & A8 & A9 & A10 & A11 & A12 & A13).
    do 2 (split; [apply H; [discriminate|assumption]|]). do 5 (split; [apply N; [discriminate|assumption]|]).
    split; [destruct A8 as [[A B]|A]; [left; split; [apply H; [discriminate|assumption]|assumption]|right; apply N; [discriminate|assumption]]|].
    split; [auto|]. split; [apply R2; [discriminate|assumption]|]. split; [apply N; [discriminate|assumption]|]. split; [apply H; [discriminate|assumption]|].
    intros Q. destruct (A13 Q). split; [eapply type_params_dip; eauto|apply N; [discriminate|assumption]].
Qed.

Lemma link_type_written id ec ft : link_type fin is_nan id ec = Ok ft -> kind_as_written (fst ec) (ft_kind ft).
Proof.
  unfold link_type. intros H. apply bind_Ok in H as (p & Hp & H). apply bind_Ok in H as (k & Hk & H). apply bind_Ok in H as (cm' & Hcm & H). apply bind_Ok in H as (bg & Hbg & H). apply bind_Ok in H as (kp & Hkp & H).
  injection H as <-. cbn [ft_kind]. eapply as_written_section; [exact Hp|]. eapply kind_from; eauto.
Qed.

(** ** Objects *)
Lemma make_troughs_inv tp g : forall te ds l, make_troughs tp g te ds = Ok l ->
  forall t, In t l -> exists pos d, In pos te /\ In d ds /\ make_trough tp g pos d = Ok t.
Proof.
  induction te as [|pos te IH]; intros ds l H t Hin; cbn in H; [injection H as <-; contradiction|].
  destruct ds as [|d ds]; [discriminate|]. apply bind_Ok in H as (t' & Ht & H). apply bind_Ok in H as (r & Hr & H). injection H as <-.
  destruct Hin as [<-|Hin]; [exists pos, d; cbn; auto|]. destruct (IH _ _ Hr _ Hin) as (p & d' & H1 & H2 & H3). exists p, d'. cbn. auto.
Qed.
Lemma new_trough_inv tt x y z a b c alpha d t : new_trough tt x y z a b c alpha d = Ok t ->
  tr_x t = x /\ tr_y t = y /\ tr_z t = z /\ tr_a t = a /\ tr_b t = b /\ tr_c t = c /\ tr_zmin t = z - c /\ tr_zmax t = z /\
  tr_sin t = sin (deg alpha) /\ tr_cos t = cos (deg alpha) /\ tr_lag t = tt_lag_height tt /\ tr_lag_facies t = tt_lag_facies tt /\
  tr_dip t = uniform (fst (tt_dip tt)) (snd (tt_dip tt)) (td_dip d) /\
  (tr_structure t = 0%Z \/ tr_structure t = 1%Z -> tr_azim t = uniform (fst (tt_azimuth tt)) (snd (tt_azimuth tt)) (td_azim d) + alpha) /\
  structure_code (tt_structure tt) (td_structure d) = Ok (tr_structure t) /\
  (tr_structure t = 1%Z -> tr_layer_dist t = tt_dipset_dist tt) /\ (tr_structure t = 3%Z -> tr_layer_dist t = tt_bulbset_dist tt).
Proof.
  unfold new_trough. intros H. apply bind_Ok in H as (s & Hs & H).
  assert (S4 : (s = 0 \/ s = 1 \/ s = 2 \/ s = 3)%Z).
  { revert Hs. unfold structure_code. repeat match goal with |- context [if ?b then _ else _] => destruct b end; intros Q; try discriminate Q; apply Ok_inj' in Q; subst s; auto.
    pose proof (Nat.mod_upper_bound (td_structure d) 4 ltac:(lia)). lia. }
  rewrite Hs. destruct S4 as [-> |[-> |[-> | ->]]]; cbn [Z.eqb] in H; apply bind_Ok in H as (f & _ & H); injection H as <-; cbn [tr_x tr_y tr_z tr_a tr_b tr_c tr_zmin tr_zmax tr_sin tr_cos tr_lag tr_lag_facies tr_dip tr_structure tr_azim tr_layer_dist];
  repeat (split; [first [reflexivity | intros K; try discriminate K; try (destruct K; discriminate); reflexivity]|]); try reflexivity; intros K; (discriminate K || reflexivity).
Qed.
Lemma structure_dip s u : structure_code s u = Ok 1%Z -> s = S_ "dip" \/ s = S_ "random".
Proof.
  unfold structure_code. repeat match goal with |- context [pystr_eqb s ?b] => destruct (pystr_eqb s b) eqn:?; try discriminate end; intros _;
  match goal with E : pystr_eqb _ _ = true |- _ => apply pystr_eqb_eq in E; subst end; auto.
Qed.
Lemma structure_bulb_sets s u : structure_code s u = Ok 3%Z -> s = S_ "bulb_sets" \/ s = S_ "random".
Proof.
  unfold structure_code. repeat match goal with |- context [pystr_eqb s ?b] => destruct (pystr_eqb s b) eqn:?; try discriminate end; intros _;
  match goal with E : pystr_eqb _ _ = true |- _ => apply pystr_eqb_eq in E; subst end; auto.
Qed.

Lemma trough_written (m e : dic) g tp buffer agg mig te0 te pos d t :
  number_at fin m "z0" (g_z0 g) -> number_at fin m "lz" (g_lz g) ->
  kind_as_written e (PTroughs tp buffer agg mig te0) ->
  (te0 = Some te \/ te0 = None) -> In pos te -> unit_draw (fst d) -> unit_draw (td_azim (snd d)) -> unit_draw (td_dip (snd d)) ->
  make_trough tp g pos d = Ok t -> trough_as_written fin m e t.
Proof.
  intros Mz Ml (A1 & A2 & A3 & A4 & A5 & A6 & A7 & A8 & A9 & A10 & A11 & A12 & A13 & A14 & A15 & A16) Hte Hpos U1 U2 U3 H.
  destruct pos as [[x y] z]. unfold make_trough in H. cbn [trough_size] in H. apply new_trough_inv in H.
  destruct H as (T1 & T2 & T3 & T4 & T5 & T6 & T7 & T8 & T9 & T10 & T11 & T12 & T13 & T14 & T15 & T16 & T17).
  constructor.
  - exists (tp_length tp), (tp_width tp), (tp_depth tp), (zfactor (tp_trend tp) z (g_z0 g) (g_lz g)).
    do 3 (split; [assumption|]). split.
    { rewrite T3. destruct A5 as [[Q1 Q2]|(t0 & t1 & Q1 & Q2)]; rewrite Q2; [left; split; [assumption|reflexivity]|right].
      exists t0, t1, (g_z0 g), (g_lz g). do 3 (split; [assumption|]). unfold zfactor. numR. unfold Rdiv. ring. }
    rewrite T4, T5, T6. unfold two. numR. split; [field; lra|]. split; [field; lra|reflexivity].
  - rewrite T7, T8, T3, T6. auto.
  - destruct Hte as [-> | ->]; destruct A16 as [[Q1 Q2]|(l & te' & Q1 & Q2 & Q3)]; try discriminate; auto.
    injection Q2 as <-. right. destruct (Q3 _ _ _ Hpos) as (fx & fy & fz & P1 & P2 & P3 & P4). exists l, fx, fy, fz. rewrite T1, T2, T3. auto.
  - exists (uniform (fst (tp_paleoflow tp)) (snd (tp_paleoflow tp)) (fst d)). split; [exists (fst (tp_paleoflow tp)), (snd (tp_paleoflow tp)); split; [assumption|now apply uniform_between]|].
    split; [exact T9|]. split; [exact T10|]. intros K. rewrite (T14 K).
    exists (fst (tt_azimuth (tp_type tp))), (snd (tt_azimuth (tp_type tp))). split; [assumption|].
    match goal with |- _ <= ?a + ?b - ?c <= _ => replace (a + b - c) with a by ring end. now apply uniform_between.
  - rewrite T13. exists (fst (tt_dip (tp_type tp))), (snd (tt_dip (tp_type tp))). split; [assumption|now apply uniform_between].
  - rewrite T11, T12. auto.
  - intros K. rewrite (T16 K). rewrite K in T15. apply A11. eapply structure_dip; eauto.
  - intros K. rewrite (T17 K). rewrite K in T15. apply A12. eapply structure_bulb_sets; eauto.
Qed.

Lemma make_level_inv cp g z : forall ys ds cs ys', make_level cp g z ys ds = Ok (cs, ys') ->
  forall c, In c cs -> exists line d, In d ds /\ new_channel (cc_type cp) line z (cc_width cp) (cc_depth cp) (g_dx g) (g_dy g) (ld_channel d) = Ok c.
Proof.
  induction ys as [|y ys IH]; intros ds cs ys' H c Hin; cbn in H; [injection H as <- <-; contradiction|].
  destruct ds as [|d ds]; [discriminate|]. apply bind_Ok in H as (line & _ & H). apply bind_Ok in H as (c' & Hc & H). apply bind_Ok in H as ([cs1 ys1] & Hr & H). injection H as <- _.
  destruct Hin as [<-|Hin]; [exists line, d; cbn; auto|]. destruct (IH _ _ _ Hr _ Hin) as (l & d' & H1 & H2). exists l, d'. cbn. auto.
Qed.
Lemma make_channels_inv cp g : forall zs ys ds cs, make_channels cp g zs ys ds = Ok cs ->
  forall c, In c cs -> exists z line n d, In d (ds n) /\ new_channel (cc_type cp) line z (cc_width cp) (cc_depth cp) (g_dx g) (g_dy g) (ld_channel d) = Ok c.
Proof.
  induction zs as [|z zs IH]; intros ys ds cs H c Hin; cbn in H; [injection H as <-; contradiction|].
  apply bind_Ok in H as ([c1 y1] & H1 & H). apply bind_Ok in H as (rest & H2 & H). injection H as <-. cbn [fst snd] in *.
  apply in_app_or in Hin as [Hin|Hin].
  - destruct (make_level_inv _ _ _ _ _ _ _ H1 _ Hin) as (line & d & K). exists z, line, 0%nat, d. exact K.
  - destruct (IH _ _ _ H2 _ Hin) as (z' & line & n & d & K1 & K2). exists z', line, (S n), d. auto.
Qed.
Lemma channel_written (e : dic) cp line z dx dy d c : kind_as_written e (PChannels cp) -> unit_draw (cd_dip d) ->
  new_channel (cc_type cp) line z (cc_width cp) (cc_depth cp) dx dy d = Ok c -> channel_as_written fin e c.
Proof.
  intros (A1 & A2 & A3 & A4 & A5 & A6 & A7 & A8 & A9 & A10 & A11 & A12 & A13) U H. unfold new_channel in H.
  assert (D : from_range fin e "dip" (uniform (fst (ct_dip (cc_type cp))) (snd (ct_dip (cc_type cp))) (cd_dip d))).
  { exists (fst (ct_dip (cc_type cp))), (snd (ct_dip (cc_type cp))). split; [assumption|now apply uniform_between]. }
  destruct (pystr_eqb _ _) eqn:E; apply bind_Ok in H as (f & _ & H); injection H as <-; constructor; cbn; auto; try discriminate.
  intros _. apply A13. now apply pystr_eqb_eq.
Qed.
Lemma make_sheets_inv g st shp : forall l ds r, make_sheets g st shp l ds = Ok r ->
  forall s, In s r -> exists z d, In d ds /\ new_sheet shp g z d = Ok s.
Proof.
  induction l as [|o l IH]; intros ds r H s Hin; cbn in H; [injection H as <-; contradiction|].
  destruct ds as [|d ds]; [discriminate|]. destruct (ob_surfaces o) as [[b t]|]; [|discriminate].
  apply bind_Ok in H as (sf & _ & H). apply bind_Ok in H as (sh & Hs & H). apply bind_Ok in H as (r' & Hr & H). injection H as <-.
  destruct Hin as [<-|Hin]; [exists (zmean sf), d; cbn; auto|]. destruct (IH _ _ Hr _ Hin) as (z & d' & H1 & H2). exists z, d'. cbn. auto.
Qed.
Lemma sheet_written (e : dic) lens tr shp g z d s : kind_as_written e (PSheets lens tr shp) -> unit_draw (shd_azim d) -> unit_draw (shd_dip d) ->
  new_sheet shp g z d = Ok s -> sheet_as_written fin e s.
Proof.
  intros (A1 & A2 & A3 & A4 & A5 & A6) U1 U2 H. unfold new_sheet in H.
  assert (D : from_range fin e "dip" (uniform (fst (st_dip shp)) (snd (st_dip shp)) (shd_dip d))).
  { exists (fst (st_dip shp)), (snd (st_dip shp)). split; [assumption|now apply uniform_between]. }
  assert (A : from_range fin e "azimuth" (uniform (fst (st_azimuth shp)) (snd (st_azimuth shp)) (shd_azim d))).
  { exists (fst (st_azimuth shp)), (snd (st_azimuth shp)). split; [assumption|now apply uniform_between]. }
  destruct (pystr_eqb _ _) eqn:E; apply bind_Ok in H as (f & _ & H); injection H as <-; constructor; cbn; auto; try discriminate.
  intros _. apply A6. now apply pystr_eqb_eq.
Qed.

(** All objects of one element. *)
Definition objects_written (m e : dic) (o : objects) : Prop :=
  match o with
  | OSheets l => geometry_is e "sheet" /\ Forall (sheet_as_written fin e) l
  | OTroughs l => geometry_is e "trough" /\ Forall (trough_as_written fin m e) l
  | OChannels l => geometry_is e "channel" /\ Forall (channel_as_written fin e) l
  end.
Lemma element_written (m e : dic) g fuel st ft kind sbg b t od st' ae o :
  number_at fin m "z0" (g_z0 g) -> number_at fin m "lz" (g_lz g) -> kind_as_written e (ft_kind ft) -> unit_draws od ->
  full_ae g fuel st ft kind sbg b t od = Ok (st', (ae, o)) -> objects_written m e o.
Proof.
  intros Mz Ml K (U1 & U2 & U3) H. rewrite Forall_forall in U1, U2.
  apply full_ae_inv in H as (sb & sp & _ & _ & o0 & Ho & _ & H). destruct (ft_kind ft) as [lens tr shp|tp buffer agg mig te0|cp].
  - destruct H as (l & Hl & ->). split; [apply K|]. apply Forall_forall. intros s Hs. destruct (make_sheets_inv _ _ _ _ _ _ Hl _ Hs) as (z & d & Hd & Hn).
    destruct (U1 _ Hd). eapply sheet_written; eauto.
  - subst o0. cbn in Ho. apply bind_Ok in Ho as (te & Hte & Ho). apply bind_Ok in Ho as (l & Hl & Ho). injection Ho as <-. split; [apply K|].
    apply Forall_forall. intros s Hs. destruct (make_troughs_inv _ _ _ _ _ Hl _ Hs) as (pos & d & Hp & Hd & Hn). destruct (U2 _ Hd) as (V1 & V2 & V3).
    eapply (trough_written m e g tp buffer agg mig te0 te); eauto. destruct te0; [injection Hte as <-; auto|auto].
  - subst o0. cbn in Ho. apply bind_Ok in Ho as (l & Hl & Ho). injection Ho as <-. split; [apply K|]. apply Forall_forall. intros c Hc.
    unfold generate_channels in Hl. apply bind_Ok in Hl as (f & _ & Hl). apply bind_Ok in Hl as (zs & _ & Hl).
    destruct (make_channels_inv _ _ _ _ _ _ Hl _ Hc) as (z & line & n & d & Hd & Hn). specialize (U3 n). rewrite Forall_forall in U3.
    eapply channel_written; [exact K|exact (U3 _ Hd)|exact Hn].
Qed.
End Link.
