(** The facies objects write. *)
From Coq Require Import List ZArith Reals Lia Lra Bool String.
From Verif Require Import Base Num ParseModel ConfigModel SurfaceModel StrataModel AssignModel FaciesModel FaciesSpec FaciesProofs FaciesProps
  TroughModel TroughSpec TroughProofs TroughProps SheetModel ChannelModel ChannelProofs FullModel FullSpec FullProofs3.
Import ListNotations.
Local Open Scope R_scope.

Lemma alternating_section num facies alt us l : alternating_facies num facies alt us = Ok l -> Forall (fun f => In f (facies ++ alternatives alt)%list) l.
Proof.
  intros H. apply C51_sequence in H as [_ [(v & r & -> & Hv) H]].
  assert (forall i u, nth_error (v :: r) i = Some u -> In u (facies ++ alternatives alt)%list) as K.
  { induction i as [|i IH]; intros u Hu; [cbn in Hu; injection Hu as <-; apply in_or_app; now left|].
    destruct (nth_error (v :: r) i) as [w|] eqn:Ew.
    - specialize (H i w u Ew Hu). apply in_or_app. destruct alt as [alt|]; cbn in H; [|now left].
      destruct H as (k & l & _ & _ & Hl & Hin). right. apply in_concat. exists l. split; [eapply nth_error_In; eauto|exact Hin].
    - apply nth_error_None in Ew. assert (S i < List.length (v :: r))%nat by (apply nth_error_Some; congruence). lia. }
  apply Forall_forall. intros u Hu. apply In_nth_error in Hu as [i Hi]. eauto.
Qed.
Lemma alternatives_incl facies alt : alternatives_ok facies alt -> incl (facies ++ alternatives alt) facies.
Proof.
  intros Hok f Hf. apply in_app_or in Hf as [Hf|Hf]; [assumption|]. destruct alt as [alt|]; [|destruct Hf].
  apply in_concat in Hf as (l & Hl & Hf). now apply (proj2 Hok l Hl).
Qed.

(** Troughs *)
Lemma structure_code_layered s u k : structure_code s u = Ok k -> k <> 0%Z -> k <> 2%Z -> s <> S_ "massive"%string /\ s <> S_ "bulb"%string.
Proof.
  unfold structure_code. intros H K0 K2. split; intros ->; cbn in H; congruence.
Qed.
Lemma trough_section tt x y z a b c alpha d t : new_trough tt x y z a b c alpha d = Ok t ->
  Forall (fun f => In f (tt_facies tt ++ alternatives (tt_altfacies tt))%list) (tr_array t) /\
  (tr_structure t = 0%Z \/ tr_structure t = 2%Z -> In (tr_facies t) (tt_facies tt)) /\
  (tr_structure t <> 0%Z -> tr_structure t <> 2%Z -> tt_structure tt <> S_ "massive"%string /\ tt_structure tt <> S_ "bulb"%string) /\
  tr_lag_facies t = tt_lag_facies tt.
Proof.
  unfold new_trough. destruct (structure_code _ _) as [s|] eqn:Es; [|discriminate]. cbn [bind].
  pose proof (structure_code_layered _ _ _ Es) as Hl.
  destruct (Z.eqb_spec s 0); [|destruct (Z.eqb_spec s 1); [|destruct (Z.eqb_spec s 2)]].
  - destruct (choice _ _) eqn:E; [|discriminate]. intros [= <-]. cbn. split; [constructor|]. split; [intros _; eapply choice_In; eauto|]. split; [congruence|reflexivity].
  - destruct (alternating_facies _ _ _ _) eqn:E; [|discriminate]. intros [= <-]. cbn. split; [eapply alternating_section; eauto|]. split; [intros [K|K]; discriminate|]. split; [intros _ _; apply Hl; lia|reflexivity].
  - destruct (choice _ _) eqn:E; [|discriminate]. intros [= <-]. cbn. split; [constructor|]. split; [intros _; eapply choice_In; eauto|]. split; [congruence|reflexivity].
  - destruct (alternating_facies _ _ _ _) eqn:E; [|discriminate]. intros [= <-]. cbn. split; [eapply alternating_section; eauto|]. split; [intros [K|K]; discriminate|]. split; [intros _ _; apply Hl; lia|reflexivity].
Qed.
Lemma trough_check_facies tt x y z a b c alpha d t dm wild num oi m p m' w : new_trough tt x y z a b c alpha d = Ok t ->
  trough_check dm wild num oi t m p = (m', Some w) ->
  In (w_facies w) (tt_lag_facies tt :: tt_facies tt ++ alternatives (tt_altfacies tt))%list \/
  (tt_structure tt <> S_ "massive"%string /\ tt_structure tt <> S_ "bulb"%string) /\ w_facies w = wild num oi p.
Proof.
  intros Ht. destruct (trough_section _ _ _ _ _ _ _ _ _ _ Ht) as (H1 & H2 & H3 & H4). unfold trough_check, trough_assign.
  assert (K : forall n f, layer_facies t n = Ok f -> In f (tt_facies tt ++ alternatives (tt_altfacies tt))%list).
  { intros n f. unfold layer_facies. destruct (n <? 0)%Z; [discriminate|].
    destruct (nth_error _ _) eqn:E; [|discriminate]. intros [= <-].
    rewrite Forall_forall in H1. apply H1. eapply nth_error_In; eauto. }
  destruct (offset dm t p) as [[dx dy] dz]. destruct (claims t dx dy dz); [|discriminate].
  unfold trough_write. destruct (Rltb _ _).
  { cbn. intros [= _ <-]. cbn. left. left. auto. }
  destruct (Z.eqb_spec (tr_structure t) 0); [|destruct (Z.eqb_spec (tr_structure t) 1)].
  - cbn. intros [= _ <-]. cbn. left. right. apply in_or_app. left. auto.
  - destruct (layer_facies _ _) eqn:E; cbn; intros [= _ <-]; cbn; [left; right; eauto|right; split; [apply H3; lia|reflexivity]].
  - destruct (bulb_angles _ _ _ _). destruct (Z.eqb_spec (tr_structure t) 2).
    + cbn. intros [= _ <-]. cbn. left. right. apply in_or_app. left. auto.
    + destruct (layer_facies _ _) eqn:E; cbn; intros [= _ <-]; cbn; [left; right; eauto|right; split; [apply H3; lia|reflexivity]].
Qed.

(** Channels *)
Lemma channel_value_section ct line z w dp dx dy dr c wild num oi p : new_channel ct line z w dp dx dy dr = Ok c ->
  In (w_facies (channel_value c wild num oi p)) (ct_lag_facies ct :: ct_facies ct ++ alternatives (ct_altfacies ct))%list \/
  ct_structure ct = S_ "dip"%string /\ w_facies (channel_value c wild num oi p) = wild num oi p.
Proof.
  intros Hc. destruct (new_channel_fields _ _ _ _ _ _ _ _ _ Hc) as (_ & Ez & Emax & Emin & Ed & _ & _ & _ & El & Elf).
  unfold channel_value, channel_write. rewrite Elf. destruct (Rltb (p_z p) _) eqn:Hl; [left; now left|].
  unfold new_channel in Hc. destruct (pystr_eqb (ct_structure ct) (S_ "dip"%string)) eqn:Es.
  - apply pystr_eqb_eq in Es. apply bind_Ok in Hc as (arr & Ha & Hc'). apply alternating_section in Ha. rewrite Forall_forall in Ha.
    match type of Hc' with Ok ?u = Ok ?v => assert (Ev : v = u) by congruence end.
    assert (Ed' : ch_dipsets c = true) by (rewrite Ev; reflexivity). assert (Earr : ch_array c = arr) by (rewrite Ev; reflexivity).
    rewrite Ed'. unfold channel_facies. destruct (_ <? 0)%Z; [right; auto|].
    destruct (nth_error (ch_array c) _) as [f|] eqn:Ef; [|right; auto]. cbn. left. right. apply Ha. rewrite <- Earr. eapply nth_error_In; eauto.
  - apply bind_Ok in Hc as (f & Hf & Hc'). apply choice_In in Hf.
    match type of Hc' with Ok ?u = Ok ?v => assert (Ev : v = u) by congruence end.
    assert (Ed' : ch_dipsets c = false) by (rewrite Ev; reflexivity). assert (Ef : ch_facies c = f) by (rewrite Ev; reflexivity).
    rewrite Ed'. cbn. rewrite Ef. left. right. apply in_or_app. now left.
Qed.

(** Sheets *)
Lemma look_of_section shp g zc sd sh l wild num oi p table : new_sheet shp g zc sd = Ok sh ->
  nth_error table num = Some (OSheets l) -> nth_error l oi = Some sh ->
  let f := w_facies (look_of wild table num oi p) in
  In f (st_facies shp ++ alternatives (st_altfacies shp))%list \/ st_structure shp = S_ "dip"%string /\ (f = 0%Z \/ f = wild num oi p).
Proof.
  intros Hs Ht Hl. cbv zeta. unfold look_of. rewrite Ht, Hl. unfold sheet_write, new_sheet in *.
  destruct (pystr_eqb (st_structure shp) (S_ "dip"%string)) eqn:Es.
  - apply pystr_eqb_eq in Es. apply bind_Ok in Hs as (arr & Ha & Hs). apply alternating_section in Ha. rewrite Forall_forall in Ha.
    match type of Hs with Ok ?u = Ok ?v => assert (Ev : v = u) by congruence end.
    assert (Ed : sh_dipsets sh = true) by (rewrite Ev; reflexivity). assert (Earr : sh_array sh = arr) by (rewrite Ev; reflexivity).
    rewrite Ed. destruct (pyget _ _) as [f|] eqn:Ef; cbn; [|auto].
    unfold pyget in Ef. destruct (pyidx _ _) as [n|]; [|discriminate]. destruct (nth_error _ n) as [f0|] eqn:En; [|discriminate].
    assert (f0 = f) by congruence. subst f0. apply nth_error_In in En. unfold facies_row in En. rewrite Earr in En.
    apply in_app_or in En as [En|En]; [left; auto|]. apply repeat_spec in En. auto.
  - apply bind_Ok in Hs as (f & Hf & Hs). apply choice_In in Hf.
    match type of Hs with Ok ?u = Ok ?v => assert (Ev : v = u) by congruence end.
    assert (Ed : sh_dipsets sh = false) by (rewrite Ev; reflexivity). assert (Ef : sh_facies sh = f) by (rewrite Ev; reflexivity).
    rewrite Ed. cbn. rewrite Ef. left. apply in_or_app. now left.
Qed.
