(** Proofs about the generated model as assign_points sees it. *)
From Coq Require Import List ZArith Reals Sorted Lia Lra Bool.
From Verif Require Import Base Num OrderSpec ParseModel ConfigModel SurfaceModel SurfaceSpec SurfaceProofs StrataModel StrataSpec StrataProofs StrataProofs2 StrataProofs3
  AssignModel AssignSpec AssignProofs AssignProofs2 BuildModel.
Import ListNotations.
Local Open Scope R_scope.

Section Order.
Context {N : Num R} {O : TrueOrder N}.

(** ** The tops of the sheets of an element are in order *)
Definition tops_sorted (st : store R) (l : list (object R)) : Prop :=
  StronglySorted (fun o o' => forall x y x' y', ob_surfaces o = Some (x, y) -> ob_surfaces o' = Some (x', y') -> below st y' y) l.

Lemma sheet_loop_tops n bottom N0 thickness : forall fuel st top zb l lo hi st' l' lo' hi',
  wf n st -> (N0 <= List.length st)%nat -> (bottom < N0)%nat -> (top < List.length st)%nat ->
  ((top < N0)%nat -> below st bottom top) ->
  sheet_loop fuel n st bottom top thickness zb (l, lo, hi) = Ok (st', (l', lo', hi')) ->
  exists new, l' = l ++ new /\
    (forall k x y z, col st top k = Some x -> col st bottom k = Some y -> col st' top k = Some z -> z <= Rmax x y) /\
    (forall o x y, In o new -> ob_surfaces o = Some (x, y) -> below st' y top) /\
    tops_sorted st' new /\
    (forall o, In o new -> exists x y, ob_surfaces o = Some (x, y) /\ (x < List.length st')%nat /\ (y < List.length st')%nat).
Proof.
  induction fuel as [|fuel IH]; intros st top zb l lo hi st' l' lo' hi' Hw HN Hb Ht Hbt E; [discriminate|].
  cbn [sheet_loop] in E.
  destruct (lo <? zb)%num eqn:Elo.
  - apply bind_Ok in E as (s & Hs & E). apply flat_surface in Hs as ->. cbn [alloc] in E.
    set (st1 := st ++ [mkSurface (repeat zb n) zb zb zb]) in *.
    remember (List.length st) as b eqn:Eb0 in *.
    apply bind_Ok in E as (st2 & H2 & E). apply bind_Ok in E as (st3 & H3 & E).
    apply bind_Ok in E as (sb & Hsb & E). apply bind_Ok in E as (sp & Hsp & E).
    rewrite add_object_eq in E. apply getS_Ok in Hsb, Hsp.
    assert (W1 : wf n st1) by (apply wf_alloc; [assumption|apply repeat_length|apply flat_bounded]).
    assert (W2 : wf n st2) by (eapply use_lower_wf; eauto).
    assert (W3 : wf n st3) by (eapply use_higher_wf; eauto).
    assert (L1 : List.length st1 = S b) by (unfold st1; rewrite app_length; simpl; lia).
    destruct (use_lower_col _ _ _ _ H2) as (C2 & D2 & L2).
    destruct (use_higher_col _ _ _ _ H3) as (C3 & D3 & L3).
    assert (S12 : forall c, (c < b)%nat -> same st st2 c).
    { intros c Hc. apply (same_trans _ st1); [apply keeps_alloc; lia|]. eapply use_lower_others; eauto; lia. }
    assert (Htop : forall k z, col st3 top k = Some z -> exists x y, col st2 top k = Some x /\ col st2 bottom k = Some y /\ z = Rmax x y).
    { intros k v Hv. destruct (col_like _ st2 st3 top _ _ _ W2 W3 ltac:(lia) Hv) as (x & Hx).
      destruct (col_like _ st2 st3 bottom _ _ _ W2 W3 ltac:(lia) Hv) as (y & Hy).
      exists x, y. rewrite (D3 _ _ _ Hx Hy) in Hv. injection Hv as <-. auto. }
    cbn [ob_zmin ob_zmax] in E.
    assert (Hspec := E). apply (sheet_loop_spec n bottom N0) in Hspec; try assumption; try lia.
    destruct Hspec as (W' & L' & S' & _ & _ & _ & new' & El' & Hne' & _).
    apply IH in E; try assumption; try lia.
    destruct E as (new & El & G1 & G2 & G3 & G4). rewrite El in El'. apply app_inv_head in El'. subst new'.
    assert (Stop : same st3 st' top) by (apply S'; lia).
    assert (Hbtop : below st' b top).
    { intros k u v Hu Hv. rewrite (same_col _ _ _ _ Stop) in Hv.
      destruct (col_like _ st3 st' b _ _ _ W3 W' ltac:(lia) Hu) as (x & Hx).
      destruct (col_like _ st3 st' bottom _ _ _ W3 W' ltac:(lia) Hu) as (y & Hy).
      pose proof (G1 k x y u Hx Hy Hu) as Hle.
      destruct (Htop k v Hv) as (x2 & y2 & Hx2 & Hy2 & ->).
      assert (Hxb : x <= x2).
      { rewrite C3 in Hx by lia. destruct (col_like _ st1 st2 b _ _ _ W1 W2 ltac:(lia) Hx) as (x1 & Hx1).
        assert (Hy1 : col st1 top k = Some x2) by (rewrite <- Hx2; symmetry; apply C2; lia).
        rewrite (D2 _ _ _ Hx1 Hy1) in Hx. injection Hx as <-. apply Rmin_r. }
      assert (Hyb : y <= Rmax x2 y2).
      { destruct (Nat.eq_dec bottom top) as [->|Hn].
        - rewrite Hy in Hv. injection Hv as ->. lra.
        - rewrite C3 in Hy by congruence. rewrite Hy2 in Hy. injection Hy as ->. apply Rmax_r. }
      pose proof (Rmax_l x2 y2). apply Rle_trans with (Rmax x y); [assumption|]. apply Rmax_lub; lra. }
    assert (Hall : forall o x y, In o new -> ob_surfaces o = Some (x, y) -> below st' y top).
    { intros o x y Hin Ho. destruct (G4 o Hin) as (x0 & y0 & Ho' & Hx0 & Hy0). rewrite Ho in Ho'. injection Ho' as <- <-.
      apply (below_trans n _ _ b); try assumption; try lia. now apply (G2 o x y). }
    exists (mkObject (zmin sb) (zmax sp) (Some (b, top)) :: new). split; [rewrite El, <- app_assoc; reflexivity|].
    split; [|split; [|split]].
    + intros k x y z Hx Hy Hz. rewrite (same_col _ _ _ _ Stop) in Hz. destruct (Htop k z Hz) as (x2 & y2 & Hx2 & Hy2 & ->).
      rewrite (same_col _ _ _ _ (S12 top ltac:(lia))) in Hx2. rewrite (same_col _ _ _ _ (S12 bottom ltac:(lia))) in Hy2.
      rewrite Hx in Hx2. rewrite Hy in Hy2. injection Hx2 as <-. injection Hy2 as <-. lra.
    + intros o x y [<-|Hin] Ho; [|now apply (Hall o x y)]. cbn in Ho. injection Ho as <- <-. apply below_refl.
    + constructor; [exact G3|]. apply Forall_forall. intros o' Ho' x y x' y' Ho Ho2. cbn in Ho. injection Ho as <- <-.
      now apply (Hall o' x' y').
    + intros o [<-|Hin]; [|auto]. cbn. exists b, top. split; [reflexivity|]. split; lia.
  - apply bind_Ok in E as (sb & Hsb & E). apply bind_Ok in E as (sp & Hsp & E). rewrite add_object_eq in E.
    injection E as <- <- <- <-. eexists. split; [reflexivity|]. split; [|split; [|split]].
    + intros k x y z Hx Hy Hz. rewrite Hx in Hz. injection Hz as <-. apply Rmax_l.
    + intros o x y [<-|[]] Ho. cbn in Ho. injection Ho as <- <-. apply below_refl.
    + repeat constructor.
    + intros o [<-|[]]. cbn. exists bottom, top. split; [reflexivity|]. split; lia.
Qed.

(** ** Sheets of an element, in any later store *)
Definition sheets_ok (st : store R) (e : ae R) : Prop :=
  (ae_top e < List.length st)%nat /\
  sheet_chain (ae_top e) (ae_objects e) (ae_bottom e) /\ ae_objects e <> [] /\
  (forall o, In o (ae_objects e) -> exists x y, ob_surfaces o = Some (x, y) /\ (x < List.length st)%nat /\ (y < List.length st)%nat) /\
  tops_sorted st (ae_objects e) /\
  (forall o x y, In o (ae_objects e) -> ob_surfaces o = Some (x, y) -> below st y (ae_top e)).
Definition objects_ok (st : store R) (e : ae R) : Prop :=
  sheets_ok st e \/ Forall (fun o => ob_surfaces o = None) (ae_objects e).

Lemma SS_impl_in {A} (P Q : A -> A -> Prop) l : (forall a b, In a l -> In b l -> P a b -> Q a b) ->
  StronglySorted P l -> StronglySorted Q l.
Proof.
  intros H Hs. revert H. induction Hs as [|a l Hs IH Hall]; intros H; constructor.
  - apply IH. intros x y Hx Hy. apply H; now right.
  - rewrite Forall_forall in *. intros b Hb. apply H; [now left|now right|auto].
Qed.

Lemma objects_ok_keeps st st' e : keeps st st' -> objects_ok st e -> objects_ok st' e.
Proof.
  intros K [(Ht & H1 & H2 & H3 & H4 & H5)|H]; [left|right; assumption].
  pose proof (keeps_length _ _ K).
  assert (Hlt : forall o x y, In o (ae_objects e) -> ob_surfaces o = Some (x, y) -> (y < List.length st)%nat).
  { intros o x y Hin Ho. destruct (H3 o Hin) as (x0 & y0 & E & Hx & Hy). rewrite Ho in E. now injection E as <- <-. }
  split; [lia|]. split; [assumption|]. split; [assumption|]. split; [|split].
  - intros o Hin. destruct (H3 o Hin) as (x & y & E & Hx & Hy). exists x, y. split; [assumption|]. lia.
  - revert H4. apply SS_impl_in. intros o o' Hin Hin' Hb x y x' y' Ho Ho'.
    apply (keeps_below st); eauto.
  - intros o x y Hin Ho. apply (keeps_below st); eauto.
Qed.

Lemma new_ae_objects g fuel st ty kind sbg bottom top objs st' e :
  wf (columns g) st -> (bottom < List.length st)%nat -> (top < List.length st)%nat -> below st bottom top ->
  new_ae g fuel st ty kind sbg bottom top objs = Ok (st', e) -> objects_ok st' e.
Proof.
  intros Hw Hb Ht Hbt E. assert (E0 := E). apply new_ae_spec in E0; try assumption.
  destruct E0 as (W' & K & Eb & Et & Hok & Hch). pose proof (keeps_length _ _ K).
  unfold new_ae in E. apply bind_Ok in E as (sb & Hsb & E). apply bind_Ok in E as (sp & Hsp & E).
  apply bind_Ok in E as ((st1 & (l & lo) & hi) & Hg & E). apply bind_Ok in E as (cp & Hcp & E).
  injection E as <- <-. cbn [ae_bottom ae_top ae_objects] in *. unfold objects_ok, sheets_ok. cbn [ae_bottom ae_top ae_objects].
  destruct (t_geometry ty) as [lens tr|] eqn:Eg.
  - left. assert (Hg2 := Hg).
    apply (sheet_loop_tops _ _ (List.length st)) in Hg; try assumption; try lia; [|auto].
    destruct Hg as (new & El & _ & G2 & G3 & G4). cbn in El. subst l.
    apply (sheet_loop_spec _ _ (List.length st)) in Hg2; try assumption; try lia; [|auto].
    destruct Hg2 as (_ & _ & _ & _ & _ & _ & new' & El' & Hne & _). cbn in El'. subst new'.
    split; [lia|]. split; [eauto|]. split; [assumption|]. auto.
  - right. injection Hg as <- Hf. apply fold_add_spec in Hf as (_ & _ & new & -> & Hn & _). exact Hn.
Qed.

(** One round of the loop of a stratum up to the new element. *)
Lemma stratum_step (g : grid R) (sp : stratum_params R) bot st top znow d next z2 st1 ab sbot st2 st3 :
  wf (columns g) st -> (bot < List.length st)%nat -> (top < List.length st)%nat -> below st bot top ->
  field_ok (columns g) d -> nth_error st bot = Some sbot ->
  (let z1 := next_depth (sp_avul_prob sp) znow d in
   if (z1 <=? zmean sbot)%num then Ok (zmean sbot, st, bot)
   else let* s := new_surface (columns g) (set_z (t_contact next) z1) (d_field d) in
        let (st, b) := alloc st s in Ok (z1, st, b)) = Ok (z2, st1, ab) ->
  use_lower st1 ab top = Ok st2 -> use_higher st2 ab bot = Ok st3 ->
  wf (columns g) st3 /\ keeps st st3 /\ (ab < List.length st3)%nat /\ below st3 ab top /\ below st3 bot ab.
Proof.
  intros Hw Hb Ht Hbt Hfd Hs Hab H2 H3. cbv zeta in Hab.
  set (z1 := next_depth (sp_avul_prob sp) znow d) in *.
  assert (G : wf (columns g) st1 /\ keeps st st1 /\ (ab < List.length st1)%nat /\ (ab = bot \/ (List.length st <= ab)%nat)).
  { rewrite nleb_ord in Hab. destruct (Rleb_spec z1 (zmean sbot)) as [Hz1|Hz1].
    - injection Hab as <- <- <-. split; [assumption|]. split; [apply keeps_refl|]. auto.
    - apply bind_Ok in Hab as (s & Hns & Hab). cbn [alloc] in Hab. injection Hab as <- <- <-.
      apply new_surface_ok in Hns as (Ls & Bs); [|intros _; exact Hfd].
      split; [apply wf_alloc; assumption|]. split; [apply keeps_alloc|].
      rewrite app_length. simpl. split; [lia|]. right. lia. }
  destruct G as (W1 & K1 & Lab & Hcase).
  assert (L1 := keeps_length _ _ K1).
  assert (W2 : wf (columns g) st2) by (eapply use_lower_wf; eauto).
  assert (W3 : wf (columns g) st3) by (eapply use_higher_wf; eauto).
  destruct (use_lower_col _ _ _ _ H2) as (C2 & D2 & L2).
  destruct (use_higher_col _ _ _ _ H3) as (C3 & D3 & L3).
  assert (B1 : below st1 bot top) by (apply (keeps_below st); assumption).
  split; [assumption|].
  destruct Hcase as [->|Hge].
  - assert (K2 : keeps st1 st2) by (apply (use_lower_keeps (columns g) _ _ _ _ W1 H2 B1)).
    assert (K3 : keeps st2 st3).
    { apply (use_higher_keeps (columns g) _ _ _ _ W2 H3). apply below_refl. }
    split; [eapply keeps_trans; [exact K1|]; eapply keeps_trans; eassumption|]. split; [lia|].
    split; [|apply below_refl]. apply (keeps_below st2); try lia; [assumption|].
    apply (keeps_below st1); try lia; assumption.
  - assert (K3 : keeps st st3).
    { intros c Hc. eapply same_trans; [apply K1; exact Hc|].
      eapply same_trans; [eapply use_lower_others; [exact H2|lia|lia]|].
      eapply use_higher_others; [exact H3|lia|lia]. }
    split; [assumption|]. split; [lia|].
    assert (Ht3 : same st st3 top) by (apply K3; assumption).
    assert (Hb3 : same st st3 bot) by (apply K3; assumption).
    assert (Hcol : forall k v, col st3 ab k = Some v -> exists x y z, col st1 ab k = Some x /\ col st top k = Some y /\
              col st bot k = Some z /\ v = Rmax (Rmin x y) z).
    { intros k v Hv.
      destruct (col_like _ st1 st3 ab _ _ _ W1 W3 ltac:(lia) Hv) as (x & Hx).
      destruct (col_like _ st1 st3 top _ _ _ W1 W3 ltac:(lia) Hv) as (y & Hy).
      destruct (col_like _ st1 st3 bot _ _ _ W1 W3 ltac:(lia) Hv) as (z & Hzz).
      exists x, y, z. rewrite <- (same_col _ _ _ k (K1 top Ht)), <- (same_col _ _ _ k (K1 bot Hb)).
      repeat split; try assumption. assert (Hx2 := D2 _ _ _ Hx Hy).
      assert (Hz2 : col st2 bot k = Some z) by (rewrite C2; [assumption|lia]).
      rewrite (D3 _ _ _ Hx2 Hz2) in Hv. congruence. }
    split; intros k x y Hx Hy.
    + destruct (Hcol _ _ Hx) as (x1 & y1 & z3 & E1 & E2 & E3 & ->). rewrite (same_col _ _ _ _ Ht3), E2 in Hy. injection Hy as <-.
      assert (G := Hbt _ _ _ E3 E2). apply Rmax_lub; [apply Rmin_r|assumption].
    + destruct (Hcol _ _ Hy) as (x1 & y1 & z3 & E1 & E2 & E3 & ->). rewrite (same_col _ _ _ _ Hb3), E3 in Hx. injection Hx as <-.
      apply Rmax_r.
Qed.

Lemma stratum_loop_objects g fuel sp bot : forall draws st top curr znow lo hi aes st' lo' hi' aes',
  wf (columns g) st -> (bot < List.length st)%nat -> (top < List.length st)%nat -> below st bot top ->
  Forall (field_ok (columns g)) draws -> Forall (objects_ok st) aes ->
  stratum_loop g fuel sp bot draws st top curr znow lo hi aes = Ok (st', (lo', hi', aes')) ->
  Forall (objects_ok st') aes'.
Proof.
  induction draws as [|d draws IH]; intros st top curr znow lo hi aes st' lo' hi' aes' Hw Hb Ht Hbt Hf Ha E;
    cbn [stratum_loop] in E; apply bind_Ok in E as (sbot & Hs & E); apply getS_Ok in Hs;
    destruct (znow <=? zmean sbot)%num; try discriminate.
  1,2: now injection E as <- <- <- <-.
  apply bind_Ok in E as (ty & Hty & E). apply bind_Ok in E as (next & Hnx & E).
  inversion Hf as [|? ? Hfd Hfr]; subst.
  apply bind_Ok in E as (((z2 & st1) & ab) & Hab & E).
  apply bind_Ok in E as (st2 & H2 & E). apply bind_Ok in E as (st3 & H3 & E).
  apply bind_Ok in E as ((st4 & e) & He & E).
  destruct (stratum_step _ _ _ _ _ _ _ _ _ _ _ _ _ _ Hw Hb Ht Hbt Hfd Hs Hab H2 H3) as (W3 & K3 & Lab & B3t & B3b).
  pose proof (keeps_length _ _ K3).
  assert (He2 := He). apply (new_ae_spec g) in He; try assumption; try lia.
  destruct He as (W4 & K4 & Eb & Et & Hok & _).
  apply (new_ae_objects g) in He2; try assumption; try lia.
  pose proof (keeps_length _ _ K4).
  apply IH in E; try assumption; try lia.
  - apply (keeps_below st3); try assumption; lia.
  - apply Forall_app. split; [|constructor; [assumption|constructor]]. revert Ha. apply Forall_impl. intros a Ha.
    apply (objects_ok_keeps st); [|assumption]. eapply keeps_trans; eassumption.
Qed.

Lemma model_loop_objects g fuel contacts params n : forall draws si st top strata st' strata',
  wf (columns g) st -> (top < List.length st)%nat ->
  Forall (sd_ok (columns g)) draws -> Forall (fun s => Forall (objects_ok st) (s_aes s)) strata ->
  model_loop g fuel contacts params n draws si st top strata = Ok (st', strata') ->
  Forall (fun s => Forall (objects_ok st') (s_aes s)) strata'.
Proof.
  induction draws as [|sd draws IH]; intros si st top strata st' strata' Hw Ht Hd Hok E; cbn [model_loop] in E.
  - destruct (Nat.eqb_spec si n); [|discriminate]. now injection E as <- <-.
  - apply bind_Ok in E as (s & Hs & E). cbn [alloc] in E.
    remember (List.length st) as b eqn:Eb.
    apply bind_Ok in E as (st2 & H2 & E). apply bind_Ok in E as (sp & Hsp & E).
    apply bind_Ok in E as ((st3 & str) & H3 & E).
    inversion Hd as [|? ? (Hd1 & Hd2) Hdr]; subst.
    set (st1 := st ++ [s]) in *.
    assert (Ls : List.length (vals s) = columns g /\ bounded s).
    { destruct (Nat.eqb_spec (S si) n).
      - apply flat_surface in Hs as ->. split; [apply repeat_length|]. apply flat_bounded.
      - apply bind_Ok in Hs as (cm & _ & Hs). apply new_surface_ok in Hs as (L & B); [|intros _; exact Hd1]. auto. }
    destruct Ls as (Ls & Bs).
    assert (W1 : wf (columns g) st1) by (apply wf_alloc; assumption).
    assert (W2 : wf (columns g) st2) by (eapply use_lower_wf; eauto).
    assert (L1 : List.length st1 = S (List.length st)) by (unfold st1; rewrite app_length; simpl; lia).
    destruct (use_lower_col _ _ _ _ H2) as (C2 & D2 & L2).
    assert (K2 : keeps st st2).
    { intros c Hcc. apply (same_trans _ st1); [apply keeps_alloc; assumption|]. eapply use_lower_others; [exact H2|lia|lia]. }
    assert (B2 : below st2 (List.length st) top).
    { intros k x y Hx Hy.
      destruct (col_like _ st1 st2 (List.length st) _ _ _ W1 W2 ltac:(lia) Hx) as (u & Hu).
      rewrite C2 in Hy by lia. rewrite (D2 _ _ _ Hu Hy) in Hx. injection Hx as <-. apply Rmin_r. }
    assert (H3' := H3). apply new_stratum_spec in H3; try assumption; try lia.
    destruct H3 as (W3 & K3 & Eb & Et & Hs3).
    pose proof (keeps_length _ _ K3).
    unfold new_stratum in H3'. apply bind_Ok in H3' as (sb & Hsb & H3'). apply bind_Ok in H3' as (stp & Hstp & H3').
    apply bind_Ok in H3' as ((st3' & (lo & hi) & aes) & Hl & H3'). injection H3' as <- <-. cbn in Eb, Et.
    apply stratum_loop_objects in Hl; try assumption; try lia; [|constructor].
    apply IH in E; try assumption; try lia.
    apply Forall_app. split; [|constructor; [assumption|constructor]].
    revert Hok. apply Forall_impl. intros s0. apply Forall_impl. intros e. apply objects_ok_keeps.
    eapply keeps_trans; eassumption.
Qed.

Lemma generate_objects_ok g fuel contacts params draws st strata :
  Forall (sd_ok (columns g)) draws ->
  generate_model g fuel contacts params draws = Ok (st, strata) ->
  Forall (fun s => Forall (objects_ok st) (s_aes s)) strata.
Proof.
  intros Hd E. unfold generate_model in E.
  apply bind_Ok in E as (s & Hs & E). apply flat_surface in Hs as ->. cbn [alloc] in E.
  assert (W0 : wf (columns g) ([] ++ [mkSurface (repeat (g_lz g) (columns g)) (g_lz g) (g_lz g) (g_lz g)])).
  { apply wf_alloc; [constructor|apply repeat_length|apply flat_bounded]. }
  apply model_loop_objects in E; try assumption; [simpl; lia|constructor].
Qed.
End Order.
