(** Lemmas about whole strata and models; termination. *)
From Coq Require Import List ZArith Bool Reals Lra Lia.
From Verif Require Import Base Num OrderSpec ParseModel ConfigModel SurfaceModel SurfaceSpec SurfaceProofs StrataModel StrataSpec StrataProofs.
Import ListNotations.
Local Open Scope R_scope.

Section Order.
Context {N : Num R} {O : TrueOrder N}.

Lemma new_stratum_spec g fuel sp first draws st bottom top st' s :
  wf (columns g) st -> (bottom < List.length st)%nat -> (top < List.length st)%nat -> below st bottom top ->
  Forall (field_ok (columns g)) draws ->
  new_stratum g fuel sp first draws st bottom top = Ok (st', s) ->
  wf (columns g) st' /\ keeps st st' /\ s_bottom s = bottom /\ s_top s = top /\ stratum_ok st' s.
Proof.
  intros Hw Hb Ht Hbt Hf E. unfold new_stratum in E.
  apply bind_Ok in E as (sb & Hsb & E). apply bind_Ok in E as (stp & Hsp & E).
  apply bind_Ok in E as ((st1 & (lo & hi) & aes) & Hl & E). injection E as <- <-. cbn [s_bottom s_top].
  apply getS_Ok in Hsb, Hsp.
  apply stratum_loop_spec in Hl; try assumption.
  destruct Hl as (W & K & Hlo & Hhi & new & Ea & Hn & Hch). simpl in Ea. subst aes.
  split; [assumption|]. split; [assumption|]. split; [reflexivity|]. split; [reflexivity|].
  unfold stratum_ok. cbn [s_bottom s_top s_zmin s_zmax s_aes]. pose proof (keeps_length _ _ K).
  assert (Bb := proj2 (wf_nth _ _ _ _ Hw Hsb)). assert (Bp := proj2 (wf_nth _ _ _ _ Hw Hsp)).
  split; [lia|]. split; [now apply (keeps_below st)|]. split; [|split; [|split; [assumption|]]].
  - intros k v Hv. rewrite (same_col _ _ _ _ (K _ Hb)) in Hv. unfold col in Hv. rewrite Hsb in Hv.
    pose proof (bounded_nth _ _ _ Bb Hv). lra.
  - intros k v Hv. rewrite (same_col _ _ _ _ (K _ Ht)) in Hv. unfold col in Hv. rewrite Hsp in Hv.
    pose proof (bounded_nth _ _ _ Bp Hv). lra.
  - intros s1 s2 H1 H2. destruct (K _ Hb) as (x & x' & X1 & X2 & X3 & X4). destruct (K _ Ht) as (y & y' & Y1 & Y2 & Y3 & Y4).
    rewrite X2 in H1. injection H1 as <-. rewrite Y2 in H2. injection H2 as <-.
    rewrite Hsb in X1. injection X1 as <-. rewrite Hsp in Y1. injection Y1 as <-. rewrite X4, Y4.
    destruct (Hch _ Hsb). auto.
Qed.

Lemma stratum_ok_keeps st st' s : keeps st st' -> stratum_ok st s -> stratum_ok st' s.
Proof.
  intros K ((Hb & Ht) & H1 & H2 & H3 & H4 & H5). pose proof (keeps_length _ _ K).
  split; [lia|]. split; [now apply (keeps_below st)|].
  split; [intros k v; rewrite (same_col _ _ _ _ (K _ Hb)); eauto|].
  split; [intros k v; rewrite (same_col _ _ _ _ (K _ Ht)); eauto|]. split.
  - revert H4. apply Forall_impl. intros e (A1 & A2 & A3 & A4 & A5).
    destruct (A1) as ((L1 & L2) & _).
    split; [now apply (ae_ok_keeps st)|]. repeat split; try (apply (keeps_below st); assumption); tauto.
  - intros s1 s2 G1 G2. destruct (K _ Hb) as (x & x' & X1 & X2 & X3 & X4). destruct (K _ Ht) as (y & y' & Y1 & Y2 & Y3 & Y4).
    rewrite X2 in G1. injection G1 as <-. rewrite Y2 in G2. injection G2 as <-. rewrite X4, Y4. auto.
Qed.

Definition sd_ok (n : nat) (sd : stratum_draws R) : Prop :=
  List.length (sd_field sd) = n /\ Forall (field_ok n) (sd_draws sd).

Lemma stratum_chain_snoc top l s : stratum_chain top l (s_top s) -> stratum_chain top (l ++ [s]) (s_bottom s).
Proof. revert top; induction l as [|x l IH]; intros top; simpl; [intros ->; auto|intros (H1 & H2); auto]. Qed.

(** The last surface is the model base, cut by the surface above. *)
Lemma model_loop_spec g fuel contacts params n : forall draws si st top strata st' strata' top0,
  wf (columns g) st -> (top < List.length st)%nat ->
  Forall (sd_ok (columns g)) draws ->
  stratum_chain top0 strata top -> Forall (stratum_ok st) strata ->
  model_loop g fuel contacts params n draws si st top strata = Ok (st', strata') ->
  wf (columns g) st' /\ keeps st st' /\
  exists base, stratum_chain top0 strata' base /\ Forall (stratum_ok st') strata' /\ (base < List.length st')%nat /\
    (si + List.length draws = n)%nat /\
    (draws <> [] -> forall k v, col st' base k = Some v -> v <= g_z0 g) /\
    (draws = [] -> base = top) /\
    List.length strata' = (List.length strata + List.length draws)%nat.
Proof.
  induction draws as [|sd draws IH]; intros si st top strata st' strata' top0 Hw Ht Hd Hc Hok E; cbn [model_loop] in E.
  - destruct (Nat.eqb_spec si n); [|discriminate]. injection E as <- <-.
    split; [assumption|]. split; [apply keeps_refl|]. exists top. simpl. repeat (split; try assumption); try congruence; lia.
  - apply bind_Ok in E as (s & Hs & E). cbn [alloc] in E.
    remember (List.length st) as b eqn:Eb.
    apply bind_Ok in E as (st2 & H2 & E). apply bind_Ok in E as (sp & Hsp & E).
    apply bind_Ok in E as ((st3 & str) & H3 & E).
    inversion Hd as [|? ? (Hd1 & Hd2) Hdr]; subst.
    set (st1 := st ++ [s]) in *.
    assert (Ls : List.length (vals s) = columns g /\ bounded s /\ (S si = n -> s = mkSurface (repeat (g_z0 g) (columns g)) (g_z0 g) (g_z0 g) (g_z0 g))).
    { destruct (Nat.eqb_spec (S si) n).
      - apply flat_surface in Hs as ->. split; [apply repeat_length|]. split; [apply flat_bounded|]. auto.
      - apply bind_Ok in Hs as (cm & _ & Hs). apply new_surface_ok in Hs as (L & B); [|intros _; exact Hd1].
        split; [assumption|]. split; [assumption|]. congruence. }
    destruct Ls as (Ls & Bs & Hlast).
    assert (W1 : wf (columns g) st1) by (apply wf_alloc; assumption).
    assert (W2 : wf (columns g) st2) by (eapply use_lower_wf; eauto).
    assert (L1 : List.length st1 = S (List.length st)) by (unfold st1; rewrite app_length; simpl; lia).
    destruct (use_lower_col _ _ _ _ H2) as (C2 & D2 & L2).
    assert (K2 : keeps st st2).
    { intros c Hcc. apply (same_trans _ st1); [apply keeps_alloc; assumption|]. eapply use_lower_others; [exact H2|lia|lia]. }
    assert (B2 : below st2 (List.length st) top).
    { intros k x y Hx Hy.
      destruct (col_like _ st1 st2 (List.length st) _ _ _ W1 W2 ltac:(lia) Hx) as (u & Hu).
      rewrite C2 in Hy by lia. rewrite (D2 _ _ _ Hu Hy) in Hx. injection Hx as <-. apply Rmin_r. }
    apply new_stratum_spec in H3; try assumption; try lia.
    destruct H3 as (W3 & K3 & Eb & Et & Hs3).
    assert (K : keeps st st3) by (eapply keeps_trans; eassumption).
    assert (L3 := keeps_length _ _ K3).
    apply (IH _ _ _ _ _ _ top0) in E; try assumption; try lia.
    + destruct E as (W' & K' & base & Hch & Hok' & Hbl & Hn & Hz & Hnil & Hlen).
      split; [assumption|]. split; [eapply keeps_trans; eassumption|]. exists base.
      split; [assumption|]. split; [assumption|]. split; [assumption|]. split; [simpl; lia|]. split; [|split; [discriminate|]].
      * intros _. destruct draws as [|sd2 draws]; [|apply Hz; discriminate].
        specialize (Hnil eq_refl). subst base. simpl in Hn. specialize (Hlast ltac:(lia)).
        assert (Kb : same st2 st' (List.length st)) by (apply (keeps_trans _ _ _ K3 K'); lia).
        intros k v Hv. rewrite (same_col _ _ _ _ Kb) in Hv.
        assert (Hu : col st1 (List.length st) k = Some (g_z0 g)).
        { unfold st1. subst s. apply col_flat. eapply col_lt; [exact W2|exact Hv]. }
        destruct (col_like _ st1 st2 top _ _ _ W1 W2 ltac:(lia) Hv) as (y & Hy).
        rewrite (D2 _ _ _ Hu Hy) in Hv. injection Hv as <-. apply Rmin_l.
      * rewrite Hlen, app_length. simpl. lia.
    + rewrite <- Eb. apply stratum_chain_snoc. now rewrite Et.
    + apply Forall_app. split; [|constructor; [assumption|constructor]].
      revert Hok. apply Forall_impl. intros s0. now apply stratum_ok_keeps.
Qed.
End Order.
