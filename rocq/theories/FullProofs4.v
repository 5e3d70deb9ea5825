(** The conditions of C34 and C48 for generated models. *)
From Coq Require Import List ZArith Reals Lia Lra Bool Sorted Arith.Cantor FunctionalExtensionality.
From Verif Require Import Base Num ParseModel ConfigModel SurfaceModel SurfaceSpec SurfaceProofs StrataModel StrataSpec StrataProofs StrataProofs2
  StrataProofs3 StrataProps AssignModel AssignSpec AssignProofs AssignProofs2 BuildModel BuildSpec BuildProofs BuildProofs2 AssignProps FaciesModel FaciesSpec FaciesProofs FaciesProps
  TroughModel TroughSpec TroughProofs TroughProofs2 TroughProofs3 TroughProps TroughBuildSpec TroughBuild SheetModel ChannelModel ChannelSpec ChannelProofs ChannelProps
  FullModel FullSpec FullProofs FullProofs2 FullProofs3.
Import ListNotations.
Local Open Scope R_scope.

(** Searching the model without state gives the same. *)
Section PureSearch.
Context {D : Type}.
Variable d0 : D.
Notation hit := (fun (o : aobj R D) p => snd (o_check o d0 p)).
Lemma first_ext {A B} (f f' : A -> option B) l : (forall a, In a l -> f a = f' a) -> forall i, first f l i = first f' l i.
Proof.
  induction l as [|a l IH]; intros H i; cbn; [reflexivity|]. rewrite (H a (or_introl eq_refl)). destruct (f' a); [reflexivity|].
  apply IH. intros; apply H; now right.
Qed.
Lemma first_map {A A' B} (h : A -> A') (f : A' -> option B) l : forall i, first f (map h l) i = first (fun a => f (h a)) l i.
Proof. induction l as [|a l IH]; intros i; cbn; [reflexivity|]. destruct (f (h a)); [reflexivity|apply IH]. Qed.
Lemma search_pure_ae p e : search_ae hit p (pure_ae hit e) = search_ae hit p e.
Proof. unfold search_ae. cbn [pure_ae e_objs e_num e_type e_sheet e_bg_facies e_bg_azim e_bg_dip]. rewrite first_map. reflexivity. Qed.
Lemma exhaustive_pure m p : exhaustive hit (pure_model hit m) p = exhaustive hit m p.
Proof.
  unfold exhaustive, search, pure_model. rewrite first_map.
  rewrite (first_ext _ (search_stratum hit p)); [reflexivity|]. intros s _. unfold search_stratum. cbn [t_aes]. rewrite first_map.
  apply first_ext. intros e _. apply search_pure_ae.
Qed.
End PureSearch.

Section Fit.
Variables (g : grid R) (fuel : nat) (contacts : list (contact R)) (params : list full_params) (draws : list full_stratum_draws)
  (st : store R) (strata : list full_stratum).
Hypothesis E : full_generate g fuel contacts params draws = Ok (st, strata).
Hypothesis Hd : Forall (fsd_ok (columns g)) draws.
Variables (dm : domain) (cg : cgrid) (wild : nat -> nat -> point R -> Z).
Hypothesis Hwild : forall num oi p, wild num oi p <> (-1)%Z.
Hypothesis Hdr : forall od, drawn draws od -> trough_draws_ok od.
Variables lo hi : R.
Hypothesis Hlo : forall a k v, col st a k = Some v -> lo <= v.
Hypothesis Hhi : Forall (fun s => zmean s <= hi) st.
Hypothesis Hty : forall fp ft, In fp params -> In ft (fp_types fp) -> type_fits g lo hi ft.
Variable ny : nat.
Notation table := (object_table strata).
Notation look := (look_of wild table).
Notation probe := (probe_of dm cg wild table).
Definition pure_probe (num oi : nat) (d : marks) (p : point R) : marks * option (write R) := (d, snd (probe num oi unmarked p)).
Notation m := (to_model ny (type_id_of params) look probe st 0 0 (map fst strata)).
Notation m' := (to_model ny (type_id_of params) look pure_probe st 0 0 (map fst strata)).
Notation hit := (fun (o : aobj R marks) p => snd (o_check o unmarked p)).

Lemma origin_in si e o fp ft od : origin g fuel params draws st si e o fp ft od -> In fp params /\ In ft (fp_types fp).
Proof. intros (H1 & H2 & _). split; [eapply pyget_in; eauto|eapply nth_error_In; eauto]. Qed.

Lemma look_ok num oi p : w_facies (look num oi p) <> (-1)%Z.
Proof.
  unfold look_of. destruct (nth_error table num) as [o|] eqn:Et; [|apply Hwild].
  destruct o as [l| |]; try apply Hwild. destruct (nth_error l oi) as [sh|] eqn:Es; [|apply Hwild].
  destruct (sheet_write _ _ _ _) as [w|] eqn:Ew; [|apply Hwild].
  destruct (table_origin _ _ _ _ _ _ _ E Hd num _ Et) as (si & fs & k & e & fp & ft & od & _ & _ & Hor).
  destruct (origin_in _ _ _ _ _ _ Hor) as [I1 I2]. specialize (Hty fp ft I1 I2).
  destruct Hor as (_ & _ & _ & _ & Hc). cbn in Hc. destruct Hc as (lens & tr & shp & Ek & _ & _ & Hl).
  unfold type_fits in Hty. rewrite Ek in Hty. destruct Hty as [Hn Halt]. rewrite Forall_forall in Hl.
  destruct (Hl sh (nth_error_In _ _ Es)) as (zc & d & _ & Hsh).
  destruct (sheet_write_facies _ _ _ _ _ _ _ _ _ Halt Hsh Ew) as [H|[_ H]]; [|rewrite H; discriminate].
  intros C. rewrite C in H. contradiction.
Qed.

Lemma wf_strata : wf (columns g) st /\ Forall (stratum_ok st) (map fst strata).
Proof. destruct (full_refines _ _ _ _ _ _ _ _ E Hd) as (draws' & Hd' & E'). eapply generate_strata_ok; eauto. Qed.

(** An element of the model. *)
Lemma model_element (probe0 : nat -> nat -> marks -> point R -> marks * option (write R)) s e : In s (to_model ny (type_id_of params) look probe0 st 0 0 (map fst strata)) -> In e (t_aes s) ->
  exists si fs k e0 o fp ft od, nth_error strata si = Some fs /\ nth_error (s_aes (fst fs)) k = Some e0 /\
    let num := (before si (map fst strata) + k)%nat in
    e = to_aelem ny (type_id_of params) look probe0 st si num e0 /\ nth_error table num = Some o /\
    origin g fuel params draws st si e0 o fp ft od /\ ae_ok st e0.
Proof.
  intros Hs He. apply In_nth_error in Hs as [si Hs]. apply to_model_nth in Hs as (s0 & Hs & ->). cbn [t_aes] in He.
  apply to_aelems_pos in He as (k & e0 & He & ->). rewrite nth_error_map in Hs.
  match type of Hs with option_map _ ?x = _ => destruct x as [fs|] eqn:Efs end; [|discriminate]. cbn in Hs. injection Hs as <-.
  change (nth_error strata si = Some fs) in Efs.
  destruct (element_origin _ _ _ _ _ _ _ E Hd si fs k e0 Efs He) as (o & fp & ft & od & _ & Ht & Hor).
  exists si, fs, k, e0, o, fp, ft, od. cbn [Nat.add]. repeat (split; [first [assumption|reflexivity]|]).
  destruct wf_strata as [_ Hok]. rewrite Forall_forall in Hok. destruct (Hok (fst fs)) as (_ & _ & _ & _ & Hall & _).
  - apply in_map. eapply nth_error_In; eauto.
  - rewrite Forall_forall in Hall. apply Hall. eapply nth_error_In; eauto.
Qed.

Hypothesis Hbg : forall fp ft, In fp params -> In ft (fp_types fp) ->
  (exists lens tr shp, ft_kind ft = PSheets lens tr shp) \/
  match bg_facies (ft_bg ft) with Some f => f | None => s_facies (fp_bg fp) end <> (-1)%Z.
Hypothesis Hreach : forall si fs e fp ft, nth_error strata si = Some fs -> In e (s_aes (fst fs)) ->
  pyget params (-1 - Z.of_nat si) = Ok fp -> nth_error (fp_types fp) (ae_kind e) = Some ft -> objects_reach_up st ft e.

Lemma full_fits xi yi ps px py : (xi * ny + yi < columns g)%nat ->
  (forall p, In p ps -> p_xi p = xi /\ p_yi p = yi /\ p_x p = px /\ p_y p = py) ->
  objects_fit hit m' ps.
Proof.
  intros Hk Hps s e Hs He Hsh.
  destruct (model_element _ _ _ Hs He) as (si & fs & k & e0 & o & fp & ft & od & Efs & Ee & Ea & Et & Hor & Hae).
  set (num := (before si (map fst strata) + k)%nat) in *. cbv zeta in Ea. subst e.
  destruct (origin_in _ _ _ _ _ _ Hor) as [I1 I2].
  assert (Hfit := Hty fp ft I1 I2). assert (Hb := Hbg fp ft I1 I2).
  destruct Hor as (Hfp & Hft & Hdrawn & Ebg & Hc).
  assert (Hup := Hreach si fs e0 fp ft Efs (nth_error_In _ _ Ee) Hfp Hft).
  destruct wf_strata as [W _].
  assert (Lb : (ae_bottom e0 < List.length st)%nat) by apply Hae.
  destruct (surf_col ny g st W xi yi Hk (ae_bottom e0) Lb) as (vb & Hvb & Eel).
  assert (Ebot : forall p, In p ps -> e_bottom (to_aelem ny (type_id_of params) look pure_probe st si num e0) (p_xi p) (p_yi p) = vb).
  { intros p Hp. destruct (Hps p Hp) as (-> & -> & _). exact Eel. }
  destruct o as [l|l|l]; cbn in Hc.
  - (* sheets *)
    exfalso. destruct Hc as (lens & tr & shp & _ & Hok & _). cbn in Hsh. rewrite (is_sheet_ok st e0 Hok) in Hsh. discriminate.
  - destruct Hc as (tp & buffer & agg & mig & te_xyz & te & zb & sp & Ek & Hte & Hts & Hzb & Hsp & Eob).
    unfold type_fits in Hfit. rewrite Ek in Hfit. unfold objects_reach_up in Hup. rewrite Ek in Hup.
    assert (Hset : settings_ok (tp_type tp)) by apply Hfit.
    assert (Hzl : lo <= zb) by (specialize (Hzb _ _ Hvb); specialize (Hlo _ _ _ Hvb); lra).
    assert (Hzh : zmean sp <= hi) by (rewrite Forall_forall in Hhi; apply Hhi; eapply nth_error_In; eauto).
    assert (Htf := fun t => trough_facts g lo hi tp buffer agg mig te_xyz zb (zmean sp) te (od_planes od) (od_troughs od) l t Hzl Hzh Hfit (Hdr od Hdrawn) Hte Hts).
    assert (Hobjs : forall j ob, nth_error (e_objs (to_aelem ny (type_id_of params) look pure_probe st si num e0)) j = Some ob ->
       exists t, nth_error l j = Some t /\ o_zmin ob = tr_zmin t /\ o_zmax ob = tr_zmax t /\
         forall d p, o_check ob d p = (d, snd (trough_check dm wild num j t d p))).
    { intros j ob Hj. cbn in Hj. apply to_objs_nth in Hj as (o0 & c & Hl & _ & ->). rewrite Eob, nth_error_map in Hl.
      destruct (nth_error l j) as [t|] eqn:Etj; [|discriminate]. cbn in Hl. injection Hl as <-. exists t. cbn. repeat (split; [reflexivity|]).
      intros d p. unfold pure_probe, probe_of. rewrite Et, Etj. reflexivity. }
    assert (Hin : forall ob, In ob (e_objs (to_aelem ny (type_id_of params) look pure_probe st si num e0)) ->
       exists t pos dd alpha, In t l /\ o_zmin ob = tr_zmin t /\ o_zmax ob = tr_zmax t /\
         (forall d p, exists r, trough_assign dm t 0 p = Ok r /\ o_check ob d p = (d, r)) /\
         In pos te /\ tr_zmax t = snd pos /\ 0 < tr_a t /\ 0 < tr_b t /\ 0 < tr_c t /\
         new_trough (tp_type tp) (fst (fst pos)) (snd (fst pos)) (snd pos) (tr_a t) (tr_b t) (tr_c t) alpha dd = Ok t).
    { intros ob Ho. apply In_nth_error in Ho as [j Hj]. destruct (Hobjs j ob Hj) as (t & Etj & Z1 & Z2 & Hck).
      destruct (Htf t (nth_error_In _ _ Etj)) as (pos & d & al & P1 & P2 & P3 & P4 & P5 & P6 & P7).
      exists t, pos, (snd d), al. split; [eapply nth_error_In; eauto|]. split; [assumption|]. split; [assumption|]. split; [|auto 10].
      intros d' p. destruct (C39_lookup_inside _ _ _ _ _ _ _ _ _ _ dm 0%Z p P7 P4 P5 P6 (proj1 Hset) P2) as [r Er].
      exists r. split; [assumption|]. rewrite Hck. unfold trough_check. rewrite Er. reflexivity. }
    split; [|split; [|split; [|split]]].
    + destruct Hb as [(a & b & c & Hb)|Hb]; [congruence|]. cbn [to_aelem e_bg_facies]. rewrite Ebg. exact Hb.
    + intros ob p w Ho Hp Hw. destruct (Hin ob Ho) as (t & pos & dd & al & Int & Z1 & Z2 & Hck & Hpt & Ez & P4 & P5 & P6 & P7).
      destruct (Hck unmarked p) as (r & Er & Ec). rewrite Ec in Hw. cbn in Hw. subst r.
      split; [eapply hit_facies; eauto|]. rewrite Z1, Z2. split; [eapply hit_bounds; eauto|].
      rewrite (Ebot p Hp). rewrite Ez. destruct te_xyz as [te0|].
      * subst te0. specialize (Hup te _ _ eq_refl Hvb). rewrite Forall_forall in Hup. now apply Hup.
      * destruct Hfit as (Hagg & Hbuf & _). destruct (C45_descending _ _ _ _ _ _ _ _ _ Hagg Hte) as [_ Hr].
        rewrite Forall_forall in Hr. specialize (Hr pos Hpt). specialize (Hzb _ _ Hvb). lra.
    + intros ob d p Ho. destruct (Hin ob Ho) as (t & pos & dd & al & _ & _ & _ & Hck & _). destruct (Hck d p) as (r & Er & ->).
      destruct (Hck unmarked p) as (r' & Er' & ->). cbn. congruence.
    + destruct (make_troughs_inv _ _ _ _ _ Hts) as [Ezm _].
      assert (Hsort : StronglySorted (fun p q => snd q <= snd p) te).
      { destruct te_xyz as [te0|]; [subst te0; now apply Hfit|]. destruct Hfit as (Hagg & _). now destruct (C45_descending _ _ _ _ _ _ _ _ _ Hagg Hte). }
      assert (Hss : StronglySorted (fun t t' => tr_zmax t' <= tr_zmax t) l).
      { apply SS_map with (f := fun t => tr_zmax t) (Rl := fun u v => v <= u). rewrite Ezm. clear - Hsort.
        induction Hsort as [|p l H1 IH H2]; cbn; constructor; [assumption|]. now apply Forall_map. }
      apply sorted_of_nth. intros i j ob ob' Hij Hi Hj. destruct (Hobjs i ob Hi) as (t & Eti & _ & Z1 & _). destruct (Hobjs j ob' Hj) as (t' & Etj & _ & Z2 & _).
      rewrite Z1, Z2. clear - Hss Hij Eti Etj. revert i j Hij Eti Etj. induction Hss as [|u l H IH Hu]; intros i j Hij Hi Hj; [destruct i; discriminate|].
      destruct j as [|j]; [lia|]. destruct i as [|i]; cbn in *.
      * injection Hi as ->. rewrite Forall_forall in Hu. apply Hu. eapply nth_error_In; eauto.
      * apply (IH i j); auto. lia.
    + intros ob p p' Ho Hp Hp' Hz Hm. destruct (Hin ob Ho) as (t & pos & dd & al & Int & Z1 & Z2 & Hck & Hpt & Ez & P4 & P5 & P6 & P7).
      unfold hits in *. destruct (Hck unmarked p) as (r & Er & Ec). rewrite Ec in Hm. cbn in Hm. destruct r as [w|].
      { exfalso. assert (Hw : w_facies w <> (-1)%Z) by (eapply hit_facies; eauto). apply Z.eqb_neq in Hw. rewrite Hw in Hm. discriminate. }
      assert (Er' : trough_assign dm t 0 p' = Ok None).
      { destruct (Hps p Hp) as (_ & _ & X1 & Y1). destruct (Hps p' Hp') as (_ & _ & X2 & Y2). rewrite Z2 in Hz.
        apply (hit_hanging _ _ _ _ _ _ _ _ _ _ P7 P4 P5 P6 dm 0%Z p p'); congruence || assumption. }
      destruct (Hck unmarked p') as (r' & Er2 & ->). cbn. rewrite Er' in Er2. injection Er2 as <-. reflexivity.
  - destruct Hc as (cp & sb & sp & Ek & Hcs & Hsb & Eob).
    unfold type_fits in Hfit. rewrite Ek in Hfit. unfold objects_reach_up in Hup. rewrite Ek in Hup.
    destruct Hfit as (Hagg & Hwd & Hdp & Hnf & Halt & Hlag).
    destruct (generate_channels_inv _ _ _ _ _ _ _ _ Hagg Hcs) as [Hall Hss]. rewrite Forall_forall in Hall.
    assert (Hobjs : forall j ob, nth_error (e_objs (to_aelem ny (type_id_of params) look pure_probe st si num e0)) j = Some ob ->
       exists c, nth_error l j = Some c /\ o_zmin ob = ch_zmin c /\ o_zmax ob = ch_zmax c /\
         forall d p, o_check ob d p = (d, if inside c (p_x p) (p_y p) (p_z p) then Some (channel_value c wild num j p) else None)).
    { intros j ob Hj. cbn in Hj. apply to_objs_nth in Hj as (o0 & c & Hl & _ & ->). rewrite Eob, nth_error_map in Hl.
      destruct (nth_error l j) as [t|] eqn:Etj; [|discriminate]. cbn in Hl. injection Hl as <-. exists t. cbn. repeat (split; [reflexivity|]).
      intros d p. unfold pure_probe, probe_of. rewrite Et, Etj. cbn [Nat.add]. now rewrite clean_check. }
    assert (Hin : forall ob, In ob (e_objs (to_aelem ny (type_id_of params) look pure_probe st si num e0)) ->
       exists c j z line dr, o_zmin ob = ch_zmin c /\ o_zmax ob = ch_zmax c /\
         (forall d p, o_check ob d p = (d, if inside c (p_x p) (p_y p) (p_z p) then Some (channel_value c wild num j p) else None)) /\
         zmean sb + cc_depth cp * cc_buffer cp < z /\ ch_zmax c = z /\
         new_channel (cc_type cp) line z (cc_width cp) (cc_depth cp) (g_dx g) (g_dy g) dr = Ok c).
    { intros ob Ho. apply In_nth_error in Ho as [j Hj]. destruct (Hobjs j ob Hj) as (c & Etj & Z1 & Z2 & Hck).
      destruct (Hall c (nth_error_In _ _ Etj)) as (z & line & dr & P1 & P2). exists c, j, z, line, dr. repeat (split; [assumption|]). split; [|assumption].
      now destruct (new_channel_fields _ _ _ _ _ _ _ _ _ P2) as (_ & _ & ? & _). }
    assert (Hfac : forall c j p z line dr, new_channel (cc_type cp) line z (cc_width cp) (cc_depth cp) (g_dx g) (g_dy g) dr = Ok c ->
              inside c (p_x p) (p_y p) (p_z p) = true -> w_facies (channel_value c wild num j p) <> (-1)%Z).
    { intros c j p z line dr P2 Hi. destruct (channel_value_facies _ _ _ _ _ _ _ _ _ P2 wild num j p Halt) as [H|[[H Hz]|[_ H]]].
      - intros C. rewrite C in H. contradiction.
      - rewrite H. destruct Hlag as [Hlag|Hlag]; [|assumption].
        apply (inside_bounds _ _ _ _ _ _ _ _ _ P2) in Hi; [lra|lra|lra].
      - rewrite H. apply Hwild. }
    split; [|split; [|split; [|split]]].
    + destruct Hb as [(a & b & c & Hb)|Hb]; [congruence|]. cbn [to_aelem e_bg_facies]. rewrite Ebg. exact Hb.
    + intros ob p w Ho Hp Hw. destruct (Hin ob Ho) as (c & j & z & line & dr & Z1 & Z2 & Hck & Hzb & Ez & P).
      rewrite Hck in Hw. cbn in Hw. destruct (inside c (p_x p) (p_y p) (p_z p)) eqn:Ei; [|discriminate].
      match type of Hw with Some ?u = Some ?v => assert (v = u) by congruence end. subst w.
      split; [eapply Hfac; eauto|]. rewrite Z1, Z2. split; [apply (inside_bounds _ _ _ _ _ _ _ _ _ P) in Ei; lra|].
      rewrite (Ebot p Hp), Ez. specialize (Hup _ _ _ Hsb Hvb). lra.
    + intros ob d p Ho. destruct (Hin ob Ho) as (c & j & z & line & dr & Z1 & Z2 & Hck & _). now rewrite !Hck.
    + apply sorted_of_nth. intros i j ob ob' Hij Hi Hj. destruct (Hobjs i ob Hi) as (t & Eti & _ & Z1 & _). destruct (Hobjs j ob' Hj) as (t' & Etj & _ & Z2 & _).
      rewrite Z1, Z2. clear - Hss Hij Eti Etj. revert i j Hij Eti Etj. induction Hss as [|u l H IH Hu]; intros i j Hij Hi Hj; [destruct i; discriminate|].
      destruct j as [|j]; [lia|]. destruct i as [|i]; cbn in *.
      * injection Hi as ->. rewrite Forall_forall in Hu. apply Hu. eapply nth_error_In; eauto.
      * apply (IH i j); auto. lia.
    + intros ob p p' Ho Hp Hp' Hz Hm. destruct (Hin ob Ho) as (c & j & z & line & dr & Z1 & Z2 & Hck & Hzb & Ez & P).
      unfold hits in *. rewrite Hck in Hm. rewrite Hck. cbn [snd] in *.
      destruct (inside c (p_x p) (p_y p) (p_z p)) eqn:Ei.
      { exfalso. assert (Hw := Hfac _ j p _ _ _ P Ei). apply Z.eqb_neq in Hw. rewrite Hw in Hm. discriminate. }
      destruct (inside c (p_x p') (p_y p') (p_z p')) eqn:Ei'; [exfalso|reflexivity].
      destruct (Hps p Hp) as (_ & _ & X1 & Y1). destruct (Hps p' Hp') as (_ & _ & X2 & Y2). rewrite X2, Y2, <- X1, <- Y1 in Ei'.
      apply (inside_up _ _ _ _ _ _ _ _ _ P (p_x p) (p_y p) (p_z p') (p_z p)) in Ei'; [congruence|lra|]. rewrite Z2 in Hz. lra.
Qed.
End Fit.
