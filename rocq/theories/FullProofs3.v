(** Generated models fulfil the conditions under which the resumed search is
    exhaustive and finds every cell. *)
From Coq Require Import List ZArith Reals Lia Lra Bool Sorted Arith.Cantor FunctionalExtensionality String.
From Verif Require Import Base Num ParseModel ConfigModel SurfaceModel SurfaceSpec SurfaceProofs StrataModel StrataSpec StrataProofs StrataProofs2
  StrataProofs3 AssignModel AssignSpec AssignProofs AssignProofs2 BuildModel BuildSpec BuildProofs BuildProofs2 FaciesModel FaciesSpec FaciesProofs FaciesProps
  TroughModel TroughSpec TroughProofs TroughProofs2 TroughProofs3 TroughProps TroughBuildSpec TroughBuild SheetModel ChannelModel ChannelSpec ChannelProofs ChannelProps
  FullModel FullSpec FullProofs FullProofs2.
Import ListNotations.
Local Open Scope R_scope.

Lemma pyget_in {A} (l : list A) i a : pyget l i = Ok a -> In a l.
Proof.
  unfold pyget. intros H. destruct (pyidx _ i) as [n|]; [|discriminate]. destruct (nth_error l n) eqn:E; [|discriminate]. injection H as <-. eapply nth_error_In; eauto.
Qed.

(** ** Sheets *)
Lemma sheet_write_facies shp g zc d sh width ha p w : alternatives_ok (st_facies shp) (st_altfacies shp) ->
  new_sheet shp g zc d = Ok sh -> sheet_write width sh ha p = Ok w ->
  In (w_facies w) (st_facies shp) \/ sh_dipsets sh = true /\ w_facies w = 0%Z.
Proof.
  intros Halt Hs Hw. unfold new_sheet in Hs. destruct (pystr_eqb _ _).
  - apply bind_Ok in Hs as (arr & Ha & [= <-]). apply C51_element_facies in Ha; [|assumption]. rewrite Forall_forall in Ha.
    unfold sheet_write in Hw. cbn [sh_dipsets] in Hw. apply bind_Ok in Hw as (f & Hf & [= <-]). cbn. apply pyget_in in Hf.
    unfold facies_row in Hf. cbn [sh_array sh_num] in Hf. apply in_app_or in Hf as [Hf|Hf]; [left; now apply Ha|right].
    apply repeat_spec in Hf. auto.
  - apply bind_Ok in Hs as (f & Hf & [= <-]). cbn in Hw. injection Hw as <-. left. cbn. eapply choice_In; eauto.
Qed.

(** ** Channels *)
Section Channel.
Variables (ct : channel_type) (line : list cpoint) (z w dp dx dy : R) (dr : channel_draw) (c : channel).
Hypothesis Hc : new_channel ct line z w dp dx dy dr = Ok c.
Variables (cg : cgrid) (wild : nat -> nat -> point R -> Z) (num oi : nat).
Notation check := (channel_check cg wild num oi c).

Definition channel_value (p : point R) : write R :=
  match channel_write c 0 p with
  | Ok w => w
  | Err _ => mkWrite (wild num oi p) (Some (channel_azimuth c (p_x p) (p_y p))) (Some (ch_dip c)) 0
  end.
Lemma clean_check p : snd (check unmarked p) = if inside c (p_x p) (p_y p) (p_z p) then Some (channel_value p) else None.
Proof.
  unfold channel_check, channel_assign, inside, channel_value. unfold unmarked at 2.
  unfold Rltb. replace (Rleb (p_z p - ch_ztop c) 0) with (Rleb (p_z p) (ch_ztop c)).
  2:{ destruct (Rleb_spec (p_z p) (ch_ztop c)); symmetry; [apply Rleb_true|apply Rleb_false]; lra. }
  destruct (Rleb (p_z p) (ch_ztop c)); cbn [negb andb]; [|reflexivity].
  destruct (above_parabola _ _ _); [|reflexivity]. cbn [snd]. destruct (channel_write c 0 p); reflexivity.
Qed.
Hypothesis Hw : 0 < w.
Hypothesis Hd : 0 < dp.
Lemma inside_bounds x y zz : inside c x y zz = true -> ch_zmin c <= zz <= ch_zmax c.
Proof.
  destruct (new_channel_fields _ _ _ _ _ _ _ _ _ Hc) as (_ & Ez & Emax & Emin & Ed & _ & Ea & _).
  unfold inside, above_parabola. rewrite andb_true_iff, !Rleb_true, Ez, Emax, Emin, Ed, Ea. intros [H1 H2].
  assert (0 < 4 * dp / w ^ 2). { apply Rdiv_lt_0_compat; [lra|]. apply pow_lt. assumption. }
  pose proof (pow2_ge_0 (xy_dist c x y)). assert (0 <= 4 * dp / w ^ 2 * xy_dist c x y ^ 2) by (apply Rmult_le_pos; lra). lra.
Qed.
Lemma channel_value_facies p : alternatives_ok (ct_facies ct) (ct_altfacies ct) ->
  In (w_facies (channel_value p)) (ct_facies ct) \/
  w_facies (channel_value p) = ct_lag_facies ct /\ p_z p < ch_zmin c + ct_lag_height ct \/
  ct_structure ct = S_ "dip"%string /\ w_facies (channel_value p) = wild num oi p.
Proof.
  intros Halt. destruct (new_channel_fields _ _ _ _ _ _ _ _ _ Hc) as (_ & Ez & Emax & Emin & Ed & _ & _ & _ & El & Elf).
  unfold channel_value, channel_write. rewrite Ez, Ed, El, Elf, Emin. destruct (Rltb (p_z p) _) eqn:Hl.
  { apply Rltb_true in Hl. cbn. right; left. auto. }
  unfold new_channel in Hc. destruct (pystr_eqb (ct_structure ct) (S_ "dip"%string)) eqn:Es.
  - apply pystr_eqb_eq in Es. apply bind_Ok in Hc as (arr & Ha & Hc'). apply C51_element_facies in Ha; [|assumption]. rewrite Forall_forall in Ha.
    match type of Hc' with Ok ?u = Ok ?v => assert (Ev : v = u) by congruence end.
    assert (Ed' : ch_dipsets c = true) by (rewrite Ev; reflexivity). assert (Earr : ch_array c = arr) by (rewrite Ev; reflexivity).
    rewrite Ed'. unfold channel_facies. destruct (_ <? 0)%Z; [right; right; auto|].
    destruct (nth_error (ch_array c) _) as [f|] eqn:Ef; [|right; right; auto]. cbn. left. apply Ha. rewrite <- Earr. eapply nth_error_In; eauto.
  - apply bind_Ok in Hc as (f & Hf & Hc'). apply choice_In in Hf.
    match type of Hc' with Ok ?u = Ok ?v => assert (Ev : v = u) by congruence end.
    assert (Ed' : ch_dipsets c = false) by (rewrite Ev; reflexivity). assert (Ef : ch_facies c = f) by (rewrite Ev; reflexivity).
    rewrite Ed'. cbn. rewrite Ef. now left.
Qed.
End Channel.

(** ** Troughs *)
Lemma trough_facts g lo hi tp buffer agg mig te_xyz zb top te pds tds ts t : forall (Hlo : lo <= zb) (Hhi : top <= hi),
  type_fits g lo hi (mkFT 0 (flat_contact 0) (mkBg None None None) (PTroughs tp buffer agg mig te_xyz)) ->
  Forall (fun d => draw_ok (snd d)) tds ->
  match te_xyz with Some t => te = t | None => trough_positions g zb top (tp_depth tp) buffer agg mig pds = Ok te end ->
  make_troughs tp g te tds = Ok ts -> In t ts ->
  exists pos (d : R * trough_draw) alpha, In pos te /\ draw_ok (snd d) /\ tr_zmax t = snd pos /\
    0 < tr_a t /\ 0 < tr_b t /\ 0 < tr_c t /\
    new_trough (tp_type tp) (fst (fst pos)) (snd (fst pos)) (snd pos) (tr_a t) (tr_b t) (tr_c t) alpha (snd d) = Ok t.
Proof.
  intros Hlo Hhi Hfit Hds Hte. cbn in Hfit. destruct Hfit as (Hagg & Hbuf & Hset & Hl & Hwd & Hdp & Htr & Hgiven).
  assert (Hz : Forall (fun p => lo <= snd p <= hi) te).
  { destruct te_xyz as [te0|]; [subst te; now apply Hgiven|].
    destruct (C45_descending _ _ _ _ _ _ _ _ _ Hagg Hte) as [_ Hr]. revert Hr. apply Forall_impl. intros; lra. }
  clear Hte. revert tds ts Hds. induction Hz as [|pos te Hpos Hz IH]; intros tds ts Hds H Hin; cbn [make_troughs] in H.
  - injection H as <-. destruct Hin.
  - destruct tds as [|d tds]; [discriminate|]. apply bind_Ok in H as (t0 & Ht & H). apply bind_Ok in H as (r & Hr & [= <-]).
    inversion Hds as [|? ? Hd Hds']; subst. destruct Hin as [->|Hin].
    + assert (Hf := Htr _ Hpos). unfold make_trough in Ht. destruct pos as [[x y] z]. cbn [fst snd] in *.
      unfold trough_size in Ht. set (f := zfactor (tp_trend tp) z (g_z0 g) (g_lz g)) in *.
      set (al := uniform _ _ _) in Ht. cbv zeta in Ht.
      apply new_trough_built in Ht as B. exists (x, y, z), d, al. split; [now left|]. split; [assumption|].
      cbn [fst snd]. rewrite (b_a _ _ _ _ _ _ _ _ _ _ B), (b_b _ _ _ _ _ _ _ _ _ _ B), (b_c _ _ _ _ _ _ _ _ _ _ B).
      split; [apply (b_zmax _ _ _ _ _ _ _ _ _ _ B)|].
      assert (P1 : 0 < tp_length tp * f / 2) by nra. assert (P2 : 0 < tp_width tp * f / 2) by nra. assert (P3 : 0 < tp_depth tp * f) by nra.
      cbn [nmul ndiv NumR two] in *. auto.
    + destruct (IH _ _ Hds' Hr Hin) as (pos' & d' & al & J1 & J2). exists pos', d', al. split; [now right|assumption].
Qed.
