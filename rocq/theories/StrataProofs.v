(** Lemmas about sheets, elements, strata. *)
From Coq Require Import List ZArith Bool Reals Lra Lia.
From Verif Require Import Base Num OrderSpec ParseModel ConfigModel SurfaceModel SurfaceSpec SurfaceProofs StrataModel StrataSpec.
Import ListNotations.
Local Open Scope R_scope.

Section Order.
Context {N : Num R} {O : TrueOrder N}.

Lemma minb (x y : R) : (if (y <? x)%num then y else x) = Rmin x y.
Proof. apply lower_R. Qed.
Lemma maxb (x y : R) : (if (x <? y)%num then y else x) = Rmax x y.
Proof. apply higher_R. Qed.

Lemma Forall2_imp {A B} (P Q : A -> B -> Prop) l m : (forall a b, P a b -> Q a b) -> Forall2 P l m -> Forall2 Q l m.
Proof. intros H. induction 1; auto. Qed.

Lemma Forall_Forall2 {A B} (P : A -> Prop) (Q R : A -> B -> Prop) l m :
  Forall P l -> Forall2 Q l m -> (forall a b, P a -> Q a b -> R a b) -> Forall2 R l m.
Proof. intros HP HQ H. induction HQ; inversion HP; subst; constructor; auto. Qed.

(** ** add_object *)
Lemma add_object_eq o l lo hi : add_object o (l, lo, hi) = (l ++ [o], Rmin lo (ob_zmin o), Rmax hi (ob_zmax o)).
Proof. unfold add_object. now rewrite minb, maxb. Qed.

Lemma flat_surface n z s : new_surface n (flat_contact z) [] = Ok s -> s = mkSurface (repeat z n) z z z.
Proof. unfold new_surface, flat_contact. cbn [cm_z cm_mode]. intros [= <-]. reflexivity. Qed.
Lemma flat_bounded n (z : R) : bounded (mkSurface (repeat z n) z z z).
Proof. apply Forall_forall. intros x Hx. apply repeat_spec in Hx. cbn. subst. lra. Qed.

Lemma col_flat n st (z : R) k : (k < n)%nat -> col (st ++ [mkSurface (repeat z n) z z z]) (List.length st) k = Some z.
Proof.
  intros Hk. rewrite col_alloc_new. cbn [vals].
  rewrite nth_error_nth' with (d := z) by (now rewrite repeat_length). f_equal. apply nth_repeat.
Qed.

(** ** Sheets *)
Definition rises (st st' : store R) (a : nat) : Prop :=
  forall k x x', col st a k = Some x -> col st' a k = Some x' -> x <= x'.

Lemma col_like n st st' a c k v : wf n st -> wf n st' -> (a < List.length st)%nat -> col st' c k = Some v ->
  exists u, col st a k = Some u.
Proof. intros H H' Ha Hv. apply (col_some n); auto. eapply col_lt; [exact H'|exact Hv]. Qed.

Lemma sheet_loop_spec n bottom N0 thickness : forall fuel st top zb l lo hi st' l' lo' hi',
  wf n st -> (N0 <= List.length st)%nat -> (bottom < N0)%nat -> (top < List.length st)%nat ->
  ((top < N0)%nat -> below st bottom top) ->
  sheet_loop fuel n st bottom top thickness zb (l, lo, hi) = Ok (st', (l', lo', hi')) ->
  wf n st' /\ (List.length st <= List.length st')%nat /\
  (forall c, (c < List.length st)%nat -> c <> top \/ (top < N0)%nat -> same st st' c) /\
  rises st st' top /\
  lo' <= lo /\ hi <= hi' /\
  exists new, l' = l ++ new /\ new <> [] /\ sheet_chain top new bottom /\
    Forall (object_bounds st') new /\ Forall (fun o => lo' <= ob_zmin o /\ ob_zmax o <= hi') new.
Proof.
  induction fuel as [|fuel IH]; intros st top zb l lo hi st' l' lo' hi' Hw HN Hb Ht Hbt E; [discriminate|].
  cbn [sheet_loop] in E.
  destruct (lo <? zb)%num eqn:Elo.
  - apply bind_Ok in E as (s & Hs & E). apply flat_surface in Hs as ->. cbn [alloc] in E.
    set (st1 := st ++ [mkSurface (repeat zb n) zb zb zb]) in *.
    remember (List.length st) as b eqn:Eb0 in *.
    apply bind_Ok in E as (st2 & H2 & E). apply bind_Ok in E as (st3 & H3 & E).
    apply bind_Ok in E as (sb & Hsb & E). apply bind_Ok in E as (sp & Hsp & E).
    rewrite add_object_eq in E. apply getS_Ok in Hsb, Hsp.
    assert (W1 : wf n st1) by (apply wf_alloc; [assumption|apply repeat_length|apply flat_bounded]).
    assert (W2 : wf n st2) by (eapply use_lower_wf; eauto).
    assert (W3 : wf n st3) by (eapply use_higher_wf; eauto).
    assert (L1 : List.length st1 = S b) by (unfold st1; rewrite app_length; simpl; lia).
    destruct (use_lower_col _ _ _ _ H2) as (_ & _ & L2).
    destruct (use_higher_col _ _ _ _ H3) as (C3 & D3 & L3).
    assert (S12 : forall c, (c < b)%nat -> same st st2 c).
    { intros c Hc. apply (same_trans _ st1); [apply keeps_alloc; lia|]. eapply use_lower_others; eauto; lia. }
    assert (S23 : forall c, (c < S b)%nat -> c <> top \/ (top < N0)%nat -> same st2 st3 c).
    { intros c Hc Hor. destruct (Nat.eq_dec c top) as [->|Hn].
      - destruct Hor as [Hor|Hor]; [congruence|]. apply (use_higher_keeps n _ _ _ _ W2 H3); [|lia].
        apply (below_same st st2); [apply S12; lia|apply S12; lia|now apply Hbt].
      - eapply use_higher_others; eauto; lia. }
    cbn [ob_zmin ob_zmax] in E. apply IH in E; try assumption; try lia.
    destruct E as (W' & L' & S' & R' & Hlo & Hhi & new & El & Hne & Hch & Hob & Hin).
    assert (Hlo' : lo' <= lo /\ lo' <= zmin sb) by (pose proof (Rmin_l lo (zmin sb)); pose proof (Rmin_r lo (zmin sb)); lra).
    assert (Hhi' : hi <= hi' /\ zmax sp <= hi') by (pose proof (Rmax_l hi (zmax sp)); pose proof (Rmax_r hi (zmax sp)); lra).
    assert (Stop : same st3 st' top) by (apply S'; lia).
    assert (Eb : col st3 b = col st2 b).
    { apply FunctionalExtensionality.functional_extensionality. intros k. apply C3. lia. }
    split; [assumption|]. split; [lia|]. split; [|split; [|split; [|split]]]; try tauto.
    + intros c Hc Hor. eapply same_trans; [apply S12; lia|]. eapply same_trans; [apply S23; [lia|assumption]|].
      apply S'; [lia|]. left. lia.
    + intros k x x' Hx Hx'. rewrite (same_col _ _ _ _ Stop) in Hx'.
      destruct (col_like n st2 st bottom _ _ _ W2 Hw ltac:(lia) Hx) as (y & Hy).
      rewrite <- (same_col _ _ _ _ (S12 top ltac:(lia))) in Hx.
      rewrite (D3 _ _ _ Hx Hy) in Hx'. injection Hx' as <-. apply Rmax_l.
    + exists (mkObject (zmin sb) (zmax sp) (Some (b, top)) :: new). rewrite El, <- app_assoc. split; [reflexivity|].
      split; [discriminate|]. split; [|split].
      * cbn [sheet_chain ob_surfaces]. eauto.
      * constructor; [|assumption]. unfold object_bounds. cbn [ob_surfaces ob_zmin ob_zmax]. split; [lia|]. split.
        -- intros k v Hv. destruct (col_like n st3 st' b _ _ _ W3 W' ltac:(lia) Hv) as (u & Hu).
           specialize (R' k u v Hu Hv). unfold col in Hu. rewrite Hsb in Hu.
           destruct (wf_nth _ _ _ _ W3 Hsb) as [_ Bb]. pose proof (bounded_nth _ _ _ Bb Hu). lra.
        -- intros k v Hv. rewrite (same_col _ _ _ _ Stop) in Hv. unfold col in Hv. rewrite Hsp in Hv.
           destruct (wf_nth _ _ _ _ W3 Hsp) as [_ Bp]. pose proof (bounded_nth _ _ _ Bp Hv). lra.
      * constructor; [cbn [ob_zmin ob_zmax]; lra|assumption].
  - apply bind_Ok in E as (sb & Hsb & E). apply bind_Ok in E as (sp & Hsp & E).
    rewrite add_object_eq in E. apply getS_Ok in Hsb, Hsp. injection E as <- <- <- <-.
    assert (H1 := Rmin_l lo (zmin sb)). assert (H2 := Rmin_r lo (zmin sb)).
    assert (H3 := Rmax_l hi (zmax sp)). assert (H4 := Rmax_r hi (zmax sp)).
    split; [assumption|]. split; [lia|]. split; [|split; [|split; [|split]]]; try assumption.
    + intros c Hc _. now apply same_refl.
    + intros k x x' Hx Hx'. rewrite Hx in Hx'. injection Hx' as <-. lra.
    + eexists. split; [reflexivity|]. split; [discriminate|]. split; [|split].
      * cbn [sheet_chain ob_surfaces]. eauto.
      * constructor; [|constructor]. unfold object_bounds. cbn [ob_surfaces ob_zmin ob_zmax]. unfold col. rewrite Hsb, Hsp.
        destruct (wf_nth _ _ _ _ Hw Hsb) as [_ Bb]. destruct (wf_nth _ _ _ _ Hw Hsp) as [_ Bp].
        apply nth_error_lt in Hsb. split; [lia|].
        split; intros k v Hv; [pose proof (bounded_nth _ _ _ Bb Hv)|pose proof (bounded_nth _ _ _ Bp Hv)]; lra.
      * constructor; [cbn [ob_zmin ob_zmax]; lra|constructor].
Qed.

(** Objects of troughs and channels. *)
Lemma fold_add_spec (objs : list (R * R)) : forall l lo hi l' lo' hi',
  fold_left (fun a o => add_object (mkObject (fst o) (snd o) None) a) objs (l, lo, hi) = (l', lo', hi') ->
  lo' <= lo /\ hi <= hi' /\
  exists new, l' = l ++ new /\ Forall (fun o => ob_surfaces o = None) new /\
    Forall (fun o => lo' <= ob_zmin o /\ ob_zmax o <= hi') new.
Proof.
  induction objs as [|o objs IH]; intros l lo hi l' lo' hi' E; cbn [fold_left] in E.
  - injection E as <- <- <-. split; [lra|]. split; [lra|]. exists []. rewrite app_nil_r. auto.
  - rewrite add_object_eq in E. apply IH in E as (H1 & H2 & new & -> & Hn & Hf). cbn [ob_zmin ob_zmax] in *.
    assert (G1 := Rmin_l lo (fst o)). assert (G2 := Rmin_r lo (fst o)).
    assert (G3 := Rmax_l hi (snd o)). assert (G4 := Rmax_r hi (snd o)).
    split; [lra|]. split; [lra|]. eexists. rewrite <- app_assoc. split; [reflexivity|].
    split; constructor; auto. cbn. lra.
Qed.

(** ** Elements *)
Lemma new_ae_spec g fuel st ty kind sbg bottom top objs st' e :
  wf (columns g) st -> (bottom < List.length st)%nat -> (top < List.length st)%nat -> below st bottom top ->
  new_ae g fuel st ty kind sbg bottom top objs = Ok (st', e) ->
  wf (columns g) st' /\ keeps st st' /\ ae_bottom e = bottom /\ ae_top e = top /\ ae_ok st' e /\
  (forall lens tr, t_geometry ty = GSheet lens tr -> sheet_chain top (ae_objects e) bottom).
Proof.
  intros Hw Hb Ht Hbt E. unfold new_ae in E.
  apply bind_Ok in E as (sb & Hsb & E). apply bind_Ok in E as (sp & Hsp & E).
  apply bind_Ok in E as ((st1 & (l & lo) & hi) & Hg & E). apply bind_Ok in E as (cp & Hcp & E).
  injection E as <- <-. cbn [ae_bottom ae_top ae_objects]. apply getS_Ok in Hsb, Hsp.
  assert (Bb := proj2 (wf_nth _ _ _ _ Hw Hsb)). assert (Bp := proj2 (wf_nth _ _ _ _ Hw Hsp)).
  assert (Hsurf : forall st', keeps st st' -> forall lo hi, lo <= zmin sb -> zmax sp <= hi ->
     (forall k v, col st' bottom k = Some v -> lo <= v) /\ (forall k v, col st' top k = Some v -> v <= hi)).
  { intros st2 K lo2 hi2 Hlo Hhi. split; intros k v Hv.
    - rewrite (same_col _ _ _ _ (K _ Hb)) in Hv. unfold col in Hv. rewrite Hsb in Hv. pose proof (bounded_nth _ _ _ Bb Hv). lra.
    - rewrite (same_col _ _ _ _ (K _ Ht)) in Hv. unfold col in Hv. rewrite Hsp in Hv. pose proof (bounded_nth _ _ _ Bp Hv). lra. }
  destruct (t_geometry ty) as [lens tr|] eqn:Eg.
  - eapply (sheet_loop_spec (columns g) bottom (List.length st)) in Hg; try assumption; try lia; [|intros _; assumption].
    destruct Hg as (W' & L' & S' & R' & Hlo & Hhi & new & El & Hne & Hch & Hob & Hin). simpl in El. subst l.
    assert (K : keeps st st1) by (intros c Hc; apply S'; [assumption|right; assumption]).
    split; [assumption|]. split; [assumption|]. split; [reflexivity|]. split; [reflexivity|]. split; [|auto].
    unfold ae_ok. cbn [ae_bottom ae_top ae_objects ae_zmin ae_zmax ae_copies].
    destruct (Hsurf st1 K lo hi Hlo Hhi). pose proof (keeps_length _ _ K). repeat split; try assumption; try lia.
    apply mapM_Ok in Hcp. revert Hcp. apply Forall2_imp. intros o c. unfold copy_object.
    destruct (ob_surfaces o) as [[b t]|]; [|discriminate||(intros [= <-]; auto)].
    intros Ec. apply bind_Ok in Ec as (s1 & G1 & Ec). apply bind_Ok in Ec as (s2 & G2 & [= <-]).
    apply getS_Ok in G1, G2. unfold col. rewrite G1, G2. auto.
  - injection Hg as <- Hg. destruct (fold_add_spec _ _ _ _ _ _ _ Hg) as (Hlo & Hhi & new & El & Hn & Hin). simpl in El. subst l.
    split; [assumption|]. split; [apply keeps_refl|]. split; [reflexivity|]. split; [reflexivity|]. split; [|discriminate].
    unfold ae_ok. cbn [ae_bottom ae_top ae_objects ae_zmin ae_zmax ae_copies].
    destruct (Hsurf st (keeps_refl st) lo hi Hlo Hhi). repeat split; try assumption.
    + revert Hn. apply Forall_impl. intros o Ho. unfold object_bounds. now rewrite Ho.
    + apply mapM_Ok in Hcp. revert Hcp. apply Forall2_imp. intros o c. unfold copy_object.
      destruct (ob_surfaces o) as [[b t]|]; [|auto].
      intros Ec. apply bind_Ok in Ec as (s1 & G1 & Ec). apply bind_Ok in Ec as (s2 & G2 & [= <-]).
      apply getS_Ok in G1, G2. unfold col. rewrite G1, G2. auto.
Qed.

Lemma object_bounds_keeps st st' o : keeps st st' -> object_bounds st o -> object_bounds st' o.
Proof.
  unfold object_bounds. destruct (ob_surfaces o) as [[b t]|]; [|auto]. intros K ((Hb & Ht) & H1 & H2).
  pose proof (keeps_length _ _ K). split; [lia|].
  split; intros k v; [rewrite (same_col _ _ _ _ (K _ Hb))|rewrite (same_col _ _ _ _ (K _ Ht))]; eauto.
Qed.
Lemma ae_ok_keeps st st' e : keeps st st' -> ae_ok st e -> ae_ok st' e.
Proof.
  intros K ((Hb & Ht) & H1 & H2 & H3 & H4 & H5). pose proof (keeps_length _ _ K). split; [lia|].
  split; [intros k v; rewrite (same_col _ _ _ _ (K _ Hb)); eauto|].
  split; [intros k v; rewrite (same_col _ _ _ _ (K _ Ht)); eauto|].
  split; [revert H3; apply Forall_impl; intros o; now apply object_bounds_keeps|]. split; [assumption|].
  clear H4. induction H5 as [|o c l m Ho H5 IH]; [constructor|]. inversion H3 as [|? ? G1 G2]; subst.
  constructor; [|now apply IH]. unfold object_bounds in G1. destruct (ob_surfaces o) as [[b t]|]; [|auto].
  destruct G1 as ((G1 & G1') & _).
  split; intros k; [rewrite (same_col _ _ _ _ (K _ G1))|rewrite (same_col _ _ _ _ (K _ G1'))]; apply Ho.
Qed.

(** ** Strata *)
Definition field_ok (n : nat) (d : draw R) : Prop := List.length (d_field d) = n.

Lemma keeps_below st st' a b : keeps st st' -> (a < List.length st)%nat -> (b < List.length st)%nat -> below st a b -> below st' a b.
Proof. intros K Ha Hb. apply below_same; auto. Qed.

Lemma ae_chain_snoc top l e bottom : ae_chain top l (ae_top e) -> ae_bottom e = bottom -> ae_chain top (l ++ [e]) bottom.
Proof. revert top; induction l as [|x l IH]; intros top; simpl; [intros -> ->; auto|intros (H1 & H2) H3; auto]. Qed.

Lemma stratum_loop_spec g fuel sp bot : forall draws st top curr znow lo hi aes st' lo' hi' aes',
  wf (columns g) st -> (bot < List.length st)%nat -> (top < List.length st)%nat -> below st bot top ->
  Forall (field_ok (columns g)) draws ->
  stratum_loop g fuel sp bot draws st top curr znow lo hi aes = Ok (st', (lo', hi', aes')) ->
  wf (columns g) st' /\ keeps st st' /\ lo' <= lo /\ hi <= hi' /\
  exists new, aes' = aes ++ new /\
    Forall (fun e => ae_ok st' e /\ below st' (ae_bottom e) (ae_top e) /\ below st' bot (ae_bottom e) /\ below st' (ae_top e) top /\
                     lo' <= ae_zmin e /\ ae_zmax e <= hi') new /\
    (forall s, nth_error st bot = Some s ->
       (znow <= zmean s -> new = []) /\ (zmean s < znow -> new <> [] /\ ae_chain top new bot)).
Proof.
  induction draws as [|d draws IH]; intros st top curr znow lo hi aes st' lo' hi' aes' Hw Hb Ht Hbt Hf E;
    cbn [stratum_loop] in E; apply bind_Ok in E as (sbot & Hs & E); apply getS_Ok in Hs;
    rewrite nleb_ord in E; destruct (Rleb_spec znow (zmean sbot)) as [Hz|Hz].
  1,3: injection E as <- <- <- <-; split; [assumption|]; split; [apply keeps_refl|]; split; [lra|]; split; [lra|];
    exists []; rewrite app_nil_r; split; [reflexivity|]; split; [constructor|]; intros s0 Hs0;
    rewrite Hs in Hs0; injection Hs0 as <-; split; [reflexivity|lra].
  - discriminate.
  - apply bind_Ok in E as (ty & Hty & E). apply bind_Ok in E as (next & Hnx & E).
    set (z1 := next_depth (sp_avul_prob sp) znow d) in *.
    inversion Hf as [|? ? Hfd Hfr]; subst.
    apply bind_Ok in E as (((z2 & st1) & ab) & Hab & E).
    apply bind_Ok in E as (st2 & H2 & E). apply bind_Ok in E as (st3 & H3 & E).
    apply bind_Ok in E as ((st4 & e) & He & E). rewrite minb, maxb in E.
    assert (G : wf (columns g) st1 /\ keeps st st1 /\ (ab < List.length st1)%nat /\ z2 = Rmax z1 (zmean sbot) /\
       ((ab = bot /\ z1 <= zmean sbot) \/ ((List.length st <= ab)%nat /\ zmean sbot < z1))).
    { rewrite nleb_ord in Hab. destruct (Rleb_spec z1 (zmean sbot)) as [Hz1|Hz1].
      - injection Hab as <- <- <-. rewrite Rmax_right by assumption. split; [assumption|]. split; [apply keeps_refl|]. auto.
      - apply bind_Ok in Hab as (s & Hns & Hab). cbn [alloc] in Hab. injection Hab as <- <- <-.
        apply new_surface_ok in Hns as (Ls & Bs); [|intros _; exact Hfd].
        rewrite Rmax_left by lra. split; [apply wf_alloc; assumption|]. split; [apply keeps_alloc|].
        rewrite app_length. simpl. split; [lia|]. split; [reflexivity|]. right. split; [lia|assumption]. }
    destruct G as (W1 & K1 & Lab & Ez2 & Hcase).
    assert (L1 := keeps_length _ _ K1).
    assert (W2 : wf (columns g) st2) by (eapply use_lower_wf; eauto).
    assert (W3 : wf (columns g) st3) by (eapply use_higher_wf; eauto).
    destruct (use_lower_col _ _ _ _ H2) as (C2 & D2 & L2).
    destruct (use_higher_col _ _ _ _ H3) as (C3 & D3 & L3).
    assert (B1 : below st1 bot top) by (apply (keeps_below st); assumption).
    (* the earlier surfaces keep their values *)
    assert (K3 : keeps st st3 /\ below st3 ab top /\ below st3 bot ab).
    { destruct Hcase as [(-> & _)|(Hge & _)].
      - assert (K2 : keeps st1 st2) by (apply (use_lower_keeps (columns g) _ _ _ _ W1 H2 B1)).
        assert (K3 : keeps st2 st3).
        { apply (use_higher_keeps (columns g) _ _ _ _ W2 H3). apply below_refl. }
        split; [eapply keeps_trans; [exact K1|]; eapply keeps_trans; eassumption|].
        split; [|apply below_refl]. apply (keeps_below st2); try lia; [assumption|].
        apply (keeps_below st1); try lia; assumption.
      - assert (K3 : keeps st st3).
        { intros c Hc. eapply same_trans; [apply K1; exact Hc|].
          eapply same_trans; [eapply use_lower_others; [exact H2|lia|lia]|].
          eapply use_higher_others; [exact H3|lia|lia]. }
        split; [assumption|].
        assert (Ht3 : same st st3 top) by (apply K3; assumption).
        assert (Hb3 : same st st3 bot) by (apply K3; assumption).
        assert (Hcol : forall k v, col st3 ab k = Some v -> exists x y z, col st1 ab k = Some x /\ col st top k = Some y /\
                  col st bot k = Some z /\ v = Rmax (Rmin x y) z).
        { intros k v Hv.
          destruct (col_like _ st1 st3 ab _ _ _ W1 W3 ltac:(lia) Hv) as (x & Hx).
          destruct (col_like _ st1 st3 top _ _ _ W1 W3 ltac:(lia) Hv) as (y & Hy).
          destruct (col_like _ st1 st3 bot _ _ _ W1 W3 ltac:(lia) Hv) as (z & Hzz).
          exists x, y, z. rewrite <- (same_col _ _ _ k (K1 top Ht)), <- (same_col _ _ _ k (K1 bot Hb)).
          repeat split; try assumption. assert (Hx2 := D2 _ _ _ Hx Hy).
          assert (Hz2 : col st2 bot k = Some z) by (rewrite C2; [assumption|lia]).
          rewrite (D3 _ _ _ Hx2 Hz2) in Hv. congruence. }
        split; intros k x y Hx Hy.
        + destruct (Hcol _ _ Hx) as (x1 & y1 & z3 & E1 & E2 & E3 & ->). rewrite (same_col _ _ _ _ Ht3), E2 in Hy. injection Hy as <-.
          assert (G := Hbt _ _ _ E3 E2). apply Rmax_lub; [apply Rmin_r|assumption].
        + destruct (Hcol _ _ Hy) as (x1 & y1 & z3 & E1 & E2 & E3 & ->). rewrite (same_col _ _ _ _ Hb3), E3 in Hx. injection Hx as <-.
          apply Rmax_r. }
    destruct K3 as (K3 & B3t & B3b).
    assert (L3' := keeps_length _ _ K3).
    apply (new_ae_spec g) in He; try assumption; try lia.
    destruct He as (W4 & K4 & Eb & Et & Hok & _).
    assert (L4 := keeps_length _ _ K4).
    apply IH in E; try assumption; try lia; [|apply (keeps_below st3); try assumption; lia].
    destruct E as (W' & K' & Hlo & Hhi & new & Ea & Hnew & Hch).
    assert (K : keeps st st') by (eapply keeps_trans; [exact K3|]; eapply keeps_trans; eassumption).
    assert (K34 : keeps st3 st') by (eapply keeps_trans; eassumption).
    assert (M1 := Rmin_l lo (ae_zmin e)). assert (M2 := Rmin_r lo (ae_zmin e)).
    assert (M3 := Rmax_l hi (ae_zmax e)). assert (M4 := Rmax_r hi (ae_zmax e)).
    split; [assumption|]. split; [assumption|]. split; [lra|]. split; [lra|].
    exists (e :: new). split; [rewrite Ea, <- app_assoc; reflexivity|]. split.
    + constructor.
      * rewrite Eb, Et. split; [now apply (ae_ok_keeps st4)|].
        split; [apply (keeps_below st3); try assumption; lia|].
        split; [apply (keeps_below st3); try assumption; lia|].
        split; [apply below_refl|]. lra.
      * revert Hnew. apply Forall_impl. intros e' (A1 & A2 & A3 & A4 & A5). repeat (split; try assumption); try lra.
        pose proof (keeps_length _ _ K34).
        apply (below_trans (columns g) _ _ ab); try assumption; [lia|]. apply (keeps_below st3); try assumption; lia.
    + intros s0 Hs0. rewrite Hs in Hs0. injection Hs0 as <-. split; [lra|]. intros _. split; [discriminate|].
      cbn [ae_chain]. split; [assumption|]. rewrite Eb.
      destruct (keeps_trans _ _ _ K3 K4 bot Hb) as (s1 & s4 & F1 & F2 & F3 & F4). rewrite Hs in F1. injection F1 as <-.
      destruct (Hch s4 F2) as (Hnil & Hcons). rewrite F4 in *.
      destruct Hcase as [(-> & Hz1)|(_ & Hz1)].
      * rewrite Rmax_right in Ez2 by assumption. rewrite Hnil by lra. reflexivity.
      * rewrite Rmax_left in Ez2 by lra. apply Hcons. lra.
Qed.
End Order.
