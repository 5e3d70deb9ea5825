(** C113, C114: from the options of the ini-file to the grid, the surfaces and the
    objects of a generated model. *)
From Coq Require Import List ZArith Bool Ascii String Reals Lia Lra Sorted.
From Verif Require Import Base Num ParseModel ConfigModel ConfigSpec ConfigProofs ConfigProofs2 DeprecatedModel DeprecatedSpec DeprecatedProofs SurfaceModel SurfaceSpec SurfaceProofs
  StrataModel StrataProofs StrataProofs2 StrataProps AssignModel FaciesModel TroughModel TroughSpec TroughProps SheetModel ChannelModel ChannelProps2 FullModel FullSpec FullProofs FullProofs2 FullProps LinkModel LinkSpec LinkProofs LinkProps SizeSpec SizeProofs.
Import ListNotations.
Local Open Scope string_scope.
Local Open Scope R_scope.

Section Link.
Context {F : Type} (fin : F -> option R) (is_nan : F -> bool).
Notation dic := (dict F).

(** C113: the grid is the one in the section model. *)
Theorem C113_grid : forall (cf : config F) lk, link fin is_nan cf = Ok lk ->
  let m := cf_model cf in let g := lk_grid lk in
  number_at fin m "x0" (g_x0 g) /\ number_at fin m "y0" (g_y0 g) /\ number_at fin m "z0" (g_z0 g) /\
  number_at fin m "dx" (g_dx g) /\ number_at fin m "dy" (g_dy g) /\ number_at fin m "dz" (g_dz g) /\
  number_at fin m "lx" (g_lx g) /\ number_at fin m "ly" (g_ly g) /\ number_at fin m "lz" (g_lz g) /\
  grid_init (g_x0 g) (g_y0 g) (g_z0 g) (g_dx g) (g_dy g) (g_dz g) (g_lx g) (g_ly g) (g_lz g) = Ok g /\
  has m "periodic" (Leaf (ABool (dm_periodic (lk_domain lk)))) /\
  dm_lx (lk_domain lk) = g_lx g /\ dm_ly (lk_domain lk) = g_ly g.
Proof.
  intros cf lk H. unfold link in H. apply bind_Ok in H as (ids & _ & H).
  repeat match type of H with bind _ _ = Ok _ => let v := fresh "v" in let E := fresh "E" in apply bind_Ok in H as (v & E & H) end.
  injection H as <-. cbn [lk_grid lk_domain dm_periodic dm_lx dm_ly].
  match goal with E : grid_init _ _ _ _ _ _ _ _ _ = Ok ?g |- _ => pose proof E as EG; unfold grid_init in E; apply bind_Ok in E as (? & _ & E); apply bind_Ok in E as (? & _ & E); apply bind_Ok in E as (? & _ & E); apply Ok_inj' in E; subst g end.
  cbn [g_x0 g_y0 g_z0 g_dx g_dy g_dz g_lx g_ly g_lz] in *.
  do 9 (split; [apply get_real; assumption|]). split; [exact EG|]. split; [|auto].
  match goal with E : get truth _ "periodic" = Ok _ |- _ => apply get_Ok in E as (v' & Hv & Ht) end.
  cbn. unfold truth in Ht. destruct v' as [[]|]; try discriminate Ht. apply Ok_inj' in Ht. subst. exact Hv.
Qed.

(** Where an element comes from. *)
Lemma element_source (cf : config F) lk fuel draws st strata :
  link fin is_nan cf = Ok lk -> Forall (fsd_ok (columns (lk_grid lk))) draws -> generate lk fuel draws = Ok (st, strata) ->
  forall si fs ei e o, nth_error strata si = Some fs -> nth_error (s_aes (fst fs)) ei = Some e -> nth_error (snd fs) ei = Some o ->
  exists sd d n sec cm t names ids id fp ft,
    In sd draws /\ In d (fsd_draws sd) /\
    entry (cf_strata cf) "ae_in_strata" si t /\ items t = Ok names /\ nth_error names (ae_kind e) = Some (Leaf (AStr n)) /\
    In (n, (sec, cm)) (cf_elements cf) /\ link_stratum fin is_nan cf ids (-1 - Z.of_nat si) = Ok fp /\
    link_type fin is_nan id (sec, cm) = Ok ft /\ made_from (lk_grid lk) fuel st fp ft (fd_objects d) e o.
Proof.
  intros Hlk Hd Hg si fs ei e o Hs He Ho.
  destruct (full_elements _ _ _ _ _ _ _ Hg Hd si fs Hs) as (sd & fp & Hsd & Hp & _ & HF).
  rewrite Forall_forall in HF. destruct (HF (e, o)) as (ft & d & Hin & HM); [eapply nth_error_In, combine_nth_error; eassumption|]. cbn [fst snd] in HM.
  destruct (link_inv _ _ _ _ Hlk) as (ids & sts & Hids & Hsts & Hlen & Hstr).
  apply pyget_neg in Hp as [Hlt Hp]. specialize (Hstr si fp Hp Hlt).
  destruct (link_stratum_inv _ _ _ _ _ _ Hstr) as [_ (ls & t & names & T1 & T2 & T3 & T4)].
  destruct HM as [HM1 HM2]. destruct (Forall2_nth_r _ _ _ T4 _ _ HM1) as (nv & Hnv & Hnt).
  unfold named_type in Hnt. destruct nv as [[n| | | |]|]; try discriminate.
  apply bind_Ok in Hnt as ([sec cm] & Hec & Hnt). apply bind_Ok in Hnt as (id & Hid & Hnt). apply assoc_In in Hec.
  exists sd, d, n, sec, cm, t, names, ids, id, fp, ft. do 2 (split; [assumption|]).
  split.
  { unfold py_item in T2. apply bind_Ok in T2 as (l & K2 & K3). apply pyget_neg in K3 as [K3 K4]. exists ls, l. auto. }
  do 5 (split; [assumption|]). split; assumption.
Qed.

(** C113: every object of a generated model has the sizes and directions in the
    section of its element type, a type that ae_in_strata lists for the stratum. *)
Theorem C113_objects : forall (cf : config F) lk fuel draws st strata,
  link fin is_nan cf = Ok lk -> Forall (fsd_ok (columns (lk_grid lk))) draws -> generate lk fuel draws = Ok (st, strata) ->
  (forall sd d, In sd draws -> In d (fsd_draws sd) -> unit_draws (fd_objects d)) ->
  forall si fs ei e o, nth_error strata si = Some fs -> nth_error (s_aes (fst fs)) ei = Some e -> nth_error (snd fs) ei = Some o ->
  exists sec, section_of cf si e sec /\
    match o with
    | OSheets l => geometry_is sec "sheet" /\ Forall (sheet_as_written fin sec) l
    | OTroughs l => geometry_is sec "trough" /\ Forall (trough_as_written fin (cf_model cf) sec) l
    | OChannels l => geometry_is sec "channel" /\ Forall (channel_as_written fin sec) l
    end.
Proof.
  intros cf lk fuel draws st strata Hlk Hd Hg HU si fs ei e o Hs He Ho.
  destruct (element_source _ _ _ _ _ _ Hlk Hd Hg _ _ _ _ _ Hs He Ho) as (sd & d & n & sec & cm & t & names & ids & id & fp & ft & S1 & S2 & S3 & S4 & S5 & S6 & S7 & S8 & _ & st0 & st1 & S9 & _).
  exists sec. split; [exists n, cm, t, names; auto|].
  destruct (C113_grid _ _ Hlk) as (_ & _ & G1 & _ & _ & _ & _ & _ & G2 & _).
  exact (element_written fin (cf_model cf) sec _ _ _ _ _ _ _ _ _ _ _ _ G1 G2 (link_type_written fin is_nan _ _ _ S8) (HU _ _ S1 S2) S9).
Qed.

(** C113: where objects lie.  Channels: channel_no at each level, the levels at
    distance agg from the mean of the upper surface down to the mean of the lower
    one plus depth times buffer. *)
Theorem C113_channel_levels : forall (cf : config F) lk fuel draws st strata,
  link fin is_nan cf = Ok lk -> Forall (fsd_ok (columns (lk_grid lk))) draws -> generate lk fuel draws = Ok (st, strata) ->
  forall si fs ei e cs, nth_error strata si = Some fs -> nth_error (s_aes (fst fs)) ei = Some e -> nth_error (snd fs) ei = Some (OChannels cs) ->
  exists sec no agg depth buffer sb sp,
    section_of cf si e sec /\ has sec "channel_no" (Leaf (AInt (Z.of_nat no))) /\
    number_at fin sec "agg" agg /\ number_at fin sec "depth" depth /\ number_at fin sec "buffer" buffer /\
    nth_error st (ae_bottom e) = Some sb /\ nth_error st (ae_top e) = Some sp /\
    (0 < agg -> (forall sd d, In sd draws -> In d (fsd_draws sd) -> (no <= List.length (od_starts (fd_objects d)))%nat) ->
     exists zs, (forall z, In z zs <-> zmean sb + depth * buffer < z /\ exists k, (1 <= k)%nat /\ z = zmean sp - INR k * agg) /\
       StronglySorted Rgt zs /\ map ch_ztop cs = flat_map (fun z => repeat z no) zs).
Proof.
  intros cf lk fuel draws st strata Hlk Hd Hg si fs ei e cs Hs He Ho.
  destruct (element_source _ _ _ _ _ _ Hlk Hd Hg _ _ _ _ _ Hs He Ho) as (sd & d & n & sec & cm & t & names & ids & id & fp & ft & S1 & S2 & S3 & S4 & S5 & S6 & S7 & S8 & _ & st0 & st1 & S9 & S10 & S11 & S12 & _).
  apply link_type_written in S8. cbn [fst] in S8. apply full_ae_inv in S9 as (sb0 & sp0 & B0 & T0 & o0 & Q1 & Q2 & Q3).
  destruct (ft_kind ft) as [lens tr shp|tp buffer agg mig te0|cp]; [destruct Q3 as (? & _ & Q3); discriminate|subst o0; cbn in Q1; apply bind_Ok in Q1 as (? & _ & Q1); apply bind_Ok in Q1 as (? & _ & Q1); discriminate|].
  subst o0. cbn in Q1. apply bind_Ok in Q1 as (l & Hl & Q1). injection Q1 as ->.
  destruct S8 as (A1 & A2 & A3 & A4 & A5 & A6 & A7 & _).
  destruct (S11 (ae_bottom e)) as (? & sb & Eb & Eb' & _ & Mb); [apply nth_error_Some; congruence|].
  destruct (S11 (ae_top e)) as (? & sp & Et & Et' & _ & Mt); [apply nth_error_Some; congruence|].
  rewrite B0 in Eb. injection Eb as <-. rewrite T0 in Et. injection Et as <-.
  exists sec, (cc_no cp), (cc_agg cp), (cc_depth cp), (cc_buffer cp), sb, sp. split; [exists n, cm, t, names; auto|]. do 6 (split; [assumption|]).
  intros Ha Hn. destruct (C82_channels _ _ _ _ _ _ _ _ Ha (Hn _ _ S1 S2) Hl) as (zs & Z1 & Z2 & Z3 & _).
  exists zs. rewrite Mb, Mt. auto.
Qed.

(** C113: troughs whose positions are not given lie on planes at distance agg,
    from the mean of the upper surface down to the highest point of the lower one
    plus depth times buffer; without migration their centres lie in the domain. *)
Lemma plane_loop_in g migrate : forall zs ds i total te0 te, plane_loop g migrate zs ds i total te0 = Ok te ->
  forall p, In p te -> In p te0 \/ In (snd p) zs /\
    (migrate = false -> exists d u, In d ds /\ In u (pd_uniform d) /\
       fst (fst p) = uniform (g_x0 g) (g_x0 g + g_lx g) (fst u) /\ snd (fst p) = uniform (g_y0 g) (g_y0 g + g_ly g) (snd u)).
Proof.
  induction zs as [|z zs IH]; intros ds i total te0 te H p Hp; cbn [plane_loop] in H; [injection H as <-; auto|].
  destruct ds as [|d ds]; [discriminate|]. destruct (Nat.eqb i 0 || negb migrate) eqn:Em.
  - destruct (IH _ _ _ _ _ H _ Hp) as [K|[K1 K2]].
    + apply in_app_or in K as [K|K]; [auto|right]. apply in_map_iff in K as (u & <- & Hu). cbn [fst snd]. split; [now left|]. intros _. exists d, u. cbn. auto.
    + right. split; [now right|]. intros M. destruct (K2 M) as (d' & u & J1 & J2). exists d', u. split; [now right|assumption].
  - apply orb_false_elim in Em as [_ Em]. destruct migrate; [|discriminate].
    apply bind_Ok in H as (te1 & H1 & H). destruct (IH _ _ _ _ _ H _ Hp) as [K|[K1 K2]]; [|right; split; [now right|discriminate]].
    assert (G : forall n k te0 te1, migrate_plane i total z (pd_normal d) n k te0 = Ok te1 -> forall p, In p te1 -> In p te0 \/ snd p = z).
    { clear. induction n as [|n IH]; intros k te0 te1 H p Hp; cbn [migrate_plane] in H; [injection H as <-; auto|].
      destruct (nth_error te0 _) as [[[x y] w]|]; [|discriminate]. destruct (IH _ _ _ H _ Hp) as [K|K]; [|auto]. apply in_app_or in K as [K|[<-|[]]]; auto. }
    destruct (G _ _ _ _ H1 _ K) as [K'|K']; [auto|right]. rewrite K'. split; [now left|discriminate].
Qed.
Theorem C113_trough_planes : forall (cf : config F) lk fuel draws st strata,
  link fin is_nan cf = Ok lk -> Forall (fsd_ok (columns (lk_grid lk))) draws -> generate lk fuel draws = Ok (st, strata) ->
  forall si fs ei e ts, nth_error strata si = Some fs -> nth_error (s_aes (fst fs)) ei = Some e -> nth_error (snd fs) ei = Some (OTroughs ts) ->
  exists sec agg depth buffer sp, section_of cf si e sec /\
    number_at fin sec "agg" agg /\ number_at fin sec "depth" depth /\ number_at fin sec "buffer" buffer /\
    nth_error st (ae_top e) = Some sp /\
    (has sec "te_xyz" (Leaf ANone) -> 0 < agg ->
     Forall (fun t =>
       (exists k, tr_z t = zmean sp - INR k * agg) /\
       (forall k v, col st (ae_bottom e) k = Some v -> v + depth * buffer < tr_z t) /\
       (has sec "migrate" (Leaf ANone) ->
        (forall sd d pd u, In sd draws -> In d (fsd_draws sd) -> In pd (od_planes (fd_objects d)) -> In u (pd_uniform pd) -> unit_draw (fst u) /\ unit_draw (snd u)) ->
        exists x0 lx y0 ly, number_at fin (cf_model cf) "x0" x0 /\ number_at fin (cf_model cf) "lx" lx /\ number_at fin (cf_model cf) "y0" y0 /\ number_at fin (cf_model cf) "ly" ly /\
          (0 <= lx -> 0 <= ly -> x0 <= tr_x t <= x0 + lx /\ y0 <= tr_y t <= y0 + ly))) ts).
Proof.
  intros cf lk fuel draws st strata Hlk Hd Hg si fs ei e ts Hs He Ho.
  destruct (element_source _ _ _ _ _ _ Hlk Hd Hg _ _ _ _ _ Hs He Ho) as (sd & d & n & sec & cm & t & names & ids & id & fp & ft & S1 & S2 & S3 & S4 & S5 & S6 & S7 & S8 & _ & st0 & st1 & S9 & S10 & S11 & S12 & _).
  apply link_type_written in S8. cbn [fst] in S8. apply full_ae_inv in S9 as (sb0 & sp0 & B0 & T0 & o0 & Q1 & Q2 & Q3).
  destruct (ft_kind ft) as [lens tr shp|tp buffer agg mig te0|cp]; [destruct Q3 as (? & _ & Q3); discriminate| |subst o0; cbn in Q1; apply bind_Ok in Q1 as (? & _ & Q1); discriminate].
  subst o0. cbn in Q1. apply bind_Ok in Q1 as (te & Hte & Q1). apply bind_Ok in Q1 as (l & Hl & Q1). injection Q1 as ->.
  destruct S8 as (A1 & A2 & A3 & A4 & A5 & A6 & A7 & A8 & A9 & A10 & A11 & A12 & A13 & A14 & A15 & A16).
  destruct (S11 (ae_bottom e)) as (? & sb & Eb & Eb' & Vb & _); [apply nth_error_Some; congruence|].
  destruct (S11 (ae_top e)) as (? & sp & Et & Et' & _ & Mt); [apply nth_error_Some; congruence|].
  rewrite B0 in Eb. injection Eb as <-. rewrite T0 in Et. injection Et as <-.
  exists sec, agg, (tp_depth tp), buffer, sp. split; [exists n, cm, t, names; auto|]. do 4 (split; [assumption|]).
  intros Hn Ha. destruct A16 as [[_ ->]|(l0 & te' & K & _)]; [|unfold has in *; rewrite Hn in K; discriminate K].
  apply Forall_forall. intros tr Htr. destruct (make_troughs_inv _ _ _ _ _ Hl _ Htr) as ([[x y] z] & dr & Hp & _ & Hmk).
  unfold make_trough in Hmk. cbn [trough_size] in Hmk. apply new_trough_inv in Hmk as (T1 & T2 & T3 & _).
  unfold trough_positions in Hte. destruct (C45_planes (zmax sb0) (zmean sp0) (tp_depth tp) buffer agg Ha) as (zs & Ez & Hz). rewrite Ez in Hte. cbn [bind] in Hte.
  destruct (plane_loop_in _ _ _ _ _ _ _ _ Hte _ Hp) as [[]|[P1 P2]]. cbn [fst snd] in P1, P2.
  apply In_nth_error in P1 as (k & P1). apply Hz in P1 as [P1 P3]. rewrite T1, T2, T3. split; [exists k; rewrite Mt; exact P1|]. split.
  - intros j v Hv. unfold col in Hv. rewrite Eb', Vb in Hv. destruct (wf_nth _ _ _ _ S10 B0) as [_ Bd]. unfold bounded in Bd. rewrite Forall_forall in Bd. apply nth_error_In in Hv. apply Bd in Hv. lra.
  - intros Hm HU. apply A15 in Hm. destruct (P2 Hm) as (pd & u & U1 & U2 & U3 & U4). destruct (HU _ _ _ _ S1 S2 U1 U2) as [V1 V2].
    destruct (C113_grid _ _ Hlk) as (G1 & G2 & _ & _ & _ & _ & G3 & G4 & _).
    do 4 eexists. do 4 (split; [eassumption|]). intros L1 L2. rewrite U3, U4. unfold uniform, unit_draw in *. numR. split; nra.
Qed.

(** C113: background of an element: from its section, otherwise from the stratum. *)
Lemma angle_Ok (v : val (atom F)) a : angle fin is_nan v = Ok a -> exists f, v = Leaf (AFlt f) /\ angle_is fin is_nan f a.
Proof.
  unfold angle. destruct v as [[]|]; try discriminate. intros H. exists f. split; [reflexivity|]. unfold angle_is. destruct (is_nan f); [now apply Ok_inj' in H|].
  apply bind_Ok in H as (r & H & E). apply finite_Ok in H. apply Ok_inj' in E. eauto.
Qed.
Lemma background_source (cf : config F) si ids fp id sec cm ft g fuel st kind b t od st' e o :
  link_stratum fin is_nan cf ids (-1 - Z.of_nat si) = Ok fp -> link_type fin is_nan id (sec, cm) = Ok ft ->
  full_ae g fuel st ft kind (fp_bg fp) b t od = Ok (st', (e, o)) ->
  exists i a d,
    has sec "bg_facies" (Leaf (AInt i)) /\ has sec "bg_azim" (Leaf (AFlt a)) /\ has sec "bg_dip" (Leaf (AFlt d)) /\
    (if (i =? -1)%Z then entry (cf_strata cf) "bg_facies" si (Leaf (AInt (ae_bg_facies e))) else ae_bg_facies e = i) /\
    (if is_nan a then exists f, entry (cf_strata cf) "bg_azim" si (Leaf (AFlt f)) /\ angle_is fin is_nan f (ae_bg_azim e) else angle_is fin is_nan a (ae_bg_azim e)) /\
    (if is_nan d then exists f, entry (cf_strata cf) "bg_dip" si (Leaf (AFlt f)) /\ angle_is fin is_nan f (ae_bg_dip e) else angle_is fin is_nan d (ae_bg_dip e)).
Proof.
  intros S7 S8 S9.
  apply full_ae_inv in S9 as (sb0 & sp0 & B0 & T0 & o0 & Q1 & Q2 & Q3). apply C31_background in Q2 as (F1 & F2 & F3 & F4 & F5 & F6).
  unfold link_type in S8. apply bind_Ok in S8 as (p & Hp & S8). cbn [fst snd] in *. apply bind_Ok in S8 as (k & Hk & S8). apply bind_Ok in S8 as (cm' & Hcm & S8). apply bind_Ok in S8 as (bg & Hbg & S8). apply bind_Ok in S8 as (kp & Hkp & S8).
  apply Ok_inj' in S8. subst ft. cbn [base_type t_bg ft_bg] in *.
  assert (T : forall k v, has p k v -> k <> "structure" -> has sec k v) by (intros; now apply (type_params_has sec p)).
  unfold link_background in Hbg. apply bind_Ok in Hbg as (i & E1 & Hbg). apply bind_Ok in Hbg as (a & E2 & Hbg). apply bind_Ok in Hbg as (d & E3 & Hbg). apply Ok_inj' in Hbg. subst bg. cbn [bg_facies bg_azim bg_dip] in *.
  apply get_facies in E1. apply get_Ok in E2 as (va & E2 & Ea). apply angle_Ok in Ea as (fa & -> & Ea). apply get_Ok in E3 as (vd & E3 & Ed). apply angle_Ok in Ed as (fd & -> & Ed).
  exists i, fa, fd. do 3 (split; [apply T; [assumption|discriminate]|]).
  (* the stratum *)
  unfold link_stratum, item in S7.
  repeat match type of S7 with bind _ _ = Ok _ => let v := fresh "v" in let E := fresh "E" in apply bind_Ok in S7 as (v & E & S7) end.
  apply Ok_inj' in S7. subst fp. cbn [fp_bg s_facies s_azim s_dip] in *.
  assert (Ent : forall k v, bind (lookup (cf_strata cf) k) (fun w => py_item w (-1 - Z.of_nat si)) = Ok v -> entry (cf_strata cf) k si v).
  { intros k0 w K. apply bind_Ok in K as (l & K1 & K2). apply lookup_Ok in K1. unfold py_item in K2. apply bind_Ok in K2 as (l' & K2 & K3). apply pyget_neg in K3 as [K3 K4]. exists l, l'. auto. }
  repeat match goal with E : angle _ _ ?v = Ok _ |- _ => apply angle_Ok in E as (? & -> & ?) end.
  repeat match goal with E : facies_number ?v = Ok _ |- _ => apply facies_number_Ok in E; subst v end.
  split; [|split].
  - destruct (i =? -1)%Z; [rewrite (F2 eq_refl); now apply Ent|now apply F1].
  - unfold angle_is in Ea. destruct (is_nan fa) eqn:En; [|unfold angle_is; rewrite En; destruct Ea as (r & Er & ->); exists r; split; [exact Er|now apply F3]].
    rewrite (F4 Ea). eexists. split; [apply Ent; eassumption|assumption].
  - unfold angle_is in Ed. destruct (is_nan fd) eqn:En; [|unfold angle_is; rewrite En; destruct Ed as (r & Er & ->); exists r; split; [exact Er|now apply F5]].
    rewrite (F6 Ed). eexists. split; [apply Ent; eassumption|assumption].
Qed.
Theorem C113_background : forall (cf : config F) lk fuel draws st strata,
  link fin is_nan cf = Ok lk -> Forall (fsd_ok (columns (lk_grid lk))) draws -> generate lk fuel draws = Ok (st, strata) ->
  forall si fs ei e o, nth_error strata si = Some fs -> nth_error (s_aes (fst fs)) ei = Some e -> nth_error (snd fs) ei = Some o ->
  exists sec i a d, section_of cf si e sec /\
    has sec "bg_facies" (Leaf (AInt i)) /\ has sec "bg_azim" (Leaf (AFlt a)) /\ has sec "bg_dip" (Leaf (AFlt d)) /\
    (if (i =? -1)%Z then entry (cf_strata cf) "bg_facies" si (Leaf (AInt (ae_bg_facies e))) else ae_bg_facies e = i) /\
    (if is_nan a then exists f, entry (cf_strata cf) "bg_azim" si (Leaf (AFlt f)) /\ angle_is fin is_nan f (ae_bg_azim e) else angle_is fin is_nan a (ae_bg_azim e)) /\
    (if is_nan d then exists f, entry (cf_strata cf) "bg_dip" si (Leaf (AFlt f)) /\ angle_is fin is_nan f (ae_bg_dip e) else angle_is fin is_nan d (ae_bg_dip e)).
Proof.
  intros cf lk fuel draws st strata Hlk Hd Hg si fs ei e o Hs He Ho.
  destruct (element_source _ _ _ _ _ _ Hlk Hd Hg _ _ _ _ _ Hs He Ho) as (sd & dr & n & sec & cm & t & names & ids & id & fp & ft & S1 & S2 & S3 & S4 & S5 & S6 & S7 & S8 & _ & st0 & st1 & S9 & _).
  destruct (background_source _ _ _ _ _ _ _ _ _ _ _ _ _ _ _ _ _ _ S7 S8 S9) as (i & a & d & H). exists sec, i, a, d. split; [exists n, cm, t, names; auto|exact H].
Qed.

(** ** C114 *)
Definition bottom_from (g : grid R) contacts n (draws : list full_stratum_draws) (st : store R) (si : nat) (fs : full_stratum) : Prop :=
  exists s sd, nth_error draws si = Some sd /\
    (if Nat.eqb (S si) n then new_surface (columns g) (flat_contact (g_z0 g)) [] = Ok s
     else exists cm, pyget contacts (-1 - Z.of_nat si) = Ok cm /\ new_surface (columns g) cm (fsd_field sd) = Ok s) /\
    forall k v, col st (s_bottom (fst fs)) k = Some v -> exists u t, nth_error (vals s) k = Some u /\ col st (s_top (fst fs)) k = Some t /\ v = Rmin u t.
Lemma bottom_from_keeps g contacts n draws st st' si fs : keeps st st' ->
  (s_bottom (fst fs) < List.length st)%nat -> (s_top (fst fs) < List.length st)%nat ->
  bottom_from g contacts n draws st si fs -> bottom_from g contacts n draws st' si fs.
Proof.
  intros K L1 L2 (s & sd & H1 & H2 & H3). exists s, sd. do 2 (split; [assumption|]). intros k v Hv.
  rewrite (same_col _ _ _ k (K _ L1)) in Hv. destruct (H3 _ _ Hv) as (u & t & U1 & U2 & U3). exists u, t. rewrite (same_col _ _ _ k (K _ L2)). auto.
Qed.
Lemma full_model_bottoms g fuel contacts params n all : forall draws si st top (strata : list full_stratum) st' strata' pre,
  wf (columns g) st -> (top < List.length st)%nat -> Forall (fsd_ok (columns g)) draws -> all = (pre ++ draws)%list -> List.length pre = si ->
  List.length strata = si ->
  (forall k (fs : full_stratum), nth_error strata k = Some fs -> (s_bottom (fst fs) < List.length st)%nat /\ (s_top (fst fs) < List.length st)%nat /\ bottom_from g contacts n all st k fs) ->
  full_model_loop g fuel contacts params n draws si st top strata = Ok (st', strata') ->
  forall k fs, nth_error strata' k = Some fs -> bottom_from g contacts n all st' k fs.
Proof.
  induction draws as [|sd draws IH]; intros si st top strata st' strata' pre Hw Ht Hd Hall Hpre Hlen Hst E; cbn [full_model_loop] in E.
  - destruct (Nat.eqb si n); [|discriminate]. injection E as <- <-. intros k fs Hk. now apply Hst.
  - apply bind_Ok in E as (s & Hs & E). cbn [alloc] in E.
    apply bind_Ok in E as (st2 & H2 & E). apply bind_Ok in E as (fp & Hfp & E).
    apply bind_Ok in E as ((st3 & str) & H3 & E).
    inversion Hd as [|? ? (Hd1 & Hd2) Hdr]; subst x l.
    set (st1 := (st ++ [s])%list) in *.
    assert (Hs' : if Nat.eqb (S si) n then new_surface (columns g) (flat_contact (g_z0 g)) [] = Ok s
     else exists cm, pyget contacts (-1 - Z.of_nat si) = Ok cm /\ new_surface (columns g) cm (fsd_field sd) = Ok s).
    { destruct (Nat.eqb (S si) n); [exact Hs|]. apply bind_Ok in Hs as (cm & ? & ?). eauto. }
    assert (Ls : List.length (vals s) = columns g /\ bounded s).
    { destruct (Nat.eqb (S si) n).
      - apply flat_surface in Hs as ->. split; [apply repeat_length|]. apply flat_bounded.
      - apply bind_Ok in Hs as (cm & _ & Hs). apply new_surface_ok in Hs as (L & B); [|intros _; exact Hd1]. auto. }
    destruct Ls as (Ls & Bs).
    assert (W1 : wf (columns g) st1) by (apply wf_alloc; assumption).
    assert (W2 : wf (columns g) st2) by (eapply use_lower_wf; eauto).
    assert (L1 : List.length st1 = S (List.length st)) by (unfold st1; rewrite app_length; simpl; lia).
    destruct (use_lower_col _ _ _ _ H2) as (C2 & D2 & L2).
    assert (K2 : keeps st st2).
    { intros c Hcc. apply (same_trans _ st1); [apply keeps_alloc; assumption|]. eapply use_lower_others; [exact H2|lia|lia]. }
    assert (B2 : below st2 (List.length st) top).
    { intros k x y Hx Hy.
      destruct (col_like _ st1 st2 (List.length st) _ _ _ W1 W2 ltac:(lia) Hx) as (u & Hu).
      rewrite C2 in Hy by lia. rewrite (D2 _ _ _ Hu Hy) in Hx. injection Hx as <-. apply Rmin_r. }
    assert (F2 : bottom_from g contacts n all st2 si (mkStratum (List.length st) top 0 0 [], [])).
    { exists s, sd. split; [rewrite Hall, nth_error_app2, Hpre, Nat.sub_diag by lia; reflexivity|]. split; [exact Hs'|]. cbn [fst s_bottom s_top]. intros k v Hv.
      destruct (col_like _ st1 st2 (List.length st) _ _ _ W1 W2 ltac:(lia) Hv) as (u & Hu).
      destruct (col_like _ st2 st2 top _ _ _ W2 W2 ltac:(lia) Hv) as (t & Hts). exists u, t.
      assert (Hu' := Hu). unfold st1, col in Hu'. rewrite nth_error_app2, Nat.sub_diag in Hu' by lia. cbn in Hu'. split; [assumption|]. split; [assumption|].
      rewrite C2 in Hts by lia. rewrite (D2 _ _ _ Hu Hts) in Hv. now injection Hv as <-. }
    unfold new_full_stratum in H3.
    apply bind_Ok in H3 as (sb & Hsb & H3). apply bind_Ok in H3 as (stp & Hstp & H3).
    apply bind_Ok in H3 as ((st3' & (lo & hi) & aes) & Hl & H3). injection H3 as <- <-.
    assert (Hl2 := Hl). apply full_stratum_refines in Hl2 as (ds' & HF2 & Hl2).
    assert (Hs3 : new_stratum g fuel (base_params fp) (fsd_first sd) ds' st2 (List.length st) top = Ok (st3', mkStratum (List.length st) top lo hi (map fst aes))).
    { unfold new_stratum. rewrite Hsb. cbn [bind]. rewrite Hstp. cbn [bind]. cbn [map] in Hl2. rewrite Hl2. reflexivity. }
    apply new_stratum_spec in Hs3; try assumption; try lia; [|eapply Forall2_fields; eauto].
    destruct Hs3 as (W3 & K3 & _). pose proof (keeps_length _ _ K3). pose proof (keeps_length _ _ K2).
    refine (IH _ _ _ _ _ _ (pre ++ [sd])%list W3 _ Hdr _ _ _ _ E).
    + lia.
    + rewrite <- app_assoc. exact Hall.
    + rewrite app_length. cbn. lia.
    + rewrite app_length. cbn. lia.
    + intros k fs Hk. destruct (Nat.lt_ge_cases k (List.length strata)) as [Hlt|Hge].
      * rewrite nth_error_app1 in Hk by assumption. destruct (Hst k fs Hk) as (I1 & I2 & I3).
        split; [lia|]. split; [lia|]. eapply bottom_from_keeps; [|exact I1|exact I2|exact I3]. eapply keeps_trans; eassumption.
      * rewrite nth_error_app2 in Hk by assumption. destruct (k - List.length strata)%nat as [|x] eqn:Ek; [|destruct x; discriminate].
        cbn in Hk. injection Hk as <-. assert (k = si) by lia. subst k. cbn [fst s_bottom s_top]. split; [lia|]. split; [lia|].
        apply (bottom_from_keeps g contacts n all st2 st3' si (mkStratum (List.length st) top 0 0 [], [])) in F2; [exact F2|exact K3|cbn; lia|cbn; lia].
Qed.
Lemma full_bottoms g fuel contacts params draws st strata :
  full_generate g fuel contacts params draws = Ok (st, strata) -> Forall (fsd_ok (columns g)) draws ->
  forall si fs, nth_error strata si = Some fs -> bottom_from g contacts (List.length params) draws st si fs.
Proof.
  intros E Hd. unfold full_generate in E. apply bind_Ok in E as (s & Hs & E). apply flat_surface in Hs as ->. cbn [alloc] in E.
  assert (W0 : wf (columns g) ([] ++ [mkSurface (repeat (g_lz g) (columns g)) (g_lz g) (g_lz g) (g_lz g)])%list).
  { apply wf_alloc; [constructor|apply repeat_length|apply flat_bounded]. }
  refine (full_model_bottoms g fuel contacts params _ draws draws 0 _ 0 [] st strata [] W0 _ Hd eq_refl eq_refl eq_refl _ E).
  - simpl. lia.
  - intros [|j] f; discriminate.
Qed.

(** C114: every boundary of strata lies at the elevation of its contact model, or
    at the boundary above where that is lower; the lowest one at z0. *)
Theorem C114_boundaries : forall (cf : config F) lk fuel draws st strata,
  link fin is_nan cf = Ok lk -> Forall (fsd_ok (columns (lk_grid lk))) draws -> generate lk fuel draws = Ok (st, strata) ->
  forall si fs sd, nth_error strata si = Some fs -> nth_error draws si = Some sd ->
  forall k v, col st (s_bottom (fst fs)) k = Some v ->
  exists u t, col st (s_top (fst fs)) k = Some t /\ v = Rmin u t /\
    if Nat.eqb (S si) (List.length strata) then number_at fin (cf_model cf) "z0" u
    else exists cm, (si < List.length (cf_contacts cf))%nat /\ nth_error (cf_contacts cf) (List.length (cf_contacts cf) - 1 - si) = Some cm /\
           contact_height fin cm (fsd_field sd) k u.
Proof.
  intros cf lk fuel draws st strata Hlk Hd Hg si fs sd Hs Hsd k v Hv.
  assert (Hlen : List.length strata = List.length (lk_params lk)) by (eapply full_generate_length; eauto).
  destruct (full_bottoms _ _ _ _ _ _ _ Hg Hd _ _ Hs) as (s & sd' & Hsd' & Hb & Hc). rewrite Hsd in Hsd'. injection Hsd' as <-.
  destruct (Hc _ _ Hv) as (u & t & Hu & Ht & ->). exists u, t. split; [assumption|]. split; [reflexivity|]. rewrite Hlen. destruct (Nat.eqb (S si) (List.length (lk_params lk))).
  - apply flat_surface in Hb. subst s. cbn [vals] in Hu. apply nth_error_In, repeat_spec in Hu. subst u. now apply (C113_grid _ _ Hlk).
  - destruct Hb as (cm & Hcm & Hn). apply pyget_neg in Hcm as [L1 Hcm].
    assert (Hlc : mapM (link_contact fin) (cf_contacts cf) = Ok (lk_contacts lk)).
    { unfold link in Hlk. repeat match type of Hlk with bind _ _ = Ok _ => let v := fresh "v" in let E := fresh "E" in apply bind_Ok in Hlk as (v & E & Hlk) end.
      apply Ok_inj' in Hlk. subst lk. assumption. }
    pose proof (mapM_length _ _ _ Hlc) as Hl. apply mapM_Ok in Hlc. destruct (Forall2_nth_r _ _ _ Hlc _ _ Hcm) as (c & C1 & C2).
    exists c. rewrite <- Hl. split; [assumption|]. split; [assumption|].
    unfold link_contact in C2. apply bind_Ok in C2 as (z & Z1 & C2). apply bind_Ok in C2 as (rd & R1 & C2). apply Ok_inj' in C2. subst cm.
    unfold new_surface in Hn. cbn [cm_z cm_mode cm_random] in Hn. destruct z as [z|]; [|discriminate].
    destruct (cm_z c) as [f|] eqn:Ez; [|discriminate]. apply bind_Ok in Z1 as (r & Z1 & Z2). apply finite_Ok in Z1. injection Z2 as ->.
    exists f, z. split; [assumption || reflexivity|]. split; [exact Z1|].
    destruct (pystr_eqb (cm_mode c) (S_ "random")) eqn:E1.
    + right. split; [now apply pystr_eqb_eq|]. destruct rd as [rd|]; [|discriminate]. apply bind_Ok in Hn as (mx & _ & Hn). apply bind_Ok in Hn as (mn & _ & Hn). apply Ok_inj' in Hn. subst s.
      cbn [vals] in Hu. rewrite nth_error_map in Hu. destruct (nth_error (fsd_field sd) k) as [x|]; [|discriminate]. cbn in Hu. injection Hu as <-. exists x. split; [reflexivity|]. numR. ring.
    + left. destruct (pystr_eqb (cm_mode c) (S_ "flat")) eqn:E2; [|discriminate]. split; [now apply pystr_eqb_eq|]. apply Ok_inj' in Hn. subst s. cbn [vals] in Hu. now apply nth_error_In, repeat_spec in Hu.
Qed.
End Link.
Print Assumptions C113_background.
Print Assumptions C114_boundaries.
Print Assumptions C113_grid.
Print Assumptions C113_objects.
Print Assumptions C113_channel_levels.
Print Assumptions C113_trough_planes.
