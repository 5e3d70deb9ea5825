(** Termination of strata and sheets; coverage. *)
From Coq Require Import List ZArith Bool Reals Lra Lia.
From Verif Require Import Base Num OrderSpec ParseModel ConfigModel SurfaceModel SurfaceSpec SurfaceProofs StrataModel StrataSpec
  StrataProofs StrataProofs2.
Import ListNotations.
Local Open Scope R_scope.

(** ** The stored mean of a surface never changes *)
Definition mean (st : store R) (a : nat) : option R := option_map zmean (nth_error st a).
Definition keepm (st st' : store R) : Prop := forall a m, mean st a = Some m -> mean st' a = Some m.

Lemma keepm_refl st : keepm st st. Proof. now intros a m. Qed.
Lemma keepm_trans st st' st'' : keepm st st' -> keepm st' st'' -> keepm st st''.
Proof. intros H1 H2 a m Hm. auto. Qed.
Lemma keepm_alloc st s : keepm st (st ++ [s]).
Proof.
  intros a m. unfold mean. destruct (nth_error st a) as [x|] eqn:E; [|discriminate].
  rewrite nth_error_app1 by (eapply nth_error_lt; eauto). now rewrite E.
Qed.
Lemma keepm_upd st a s x : nth_error st a = Some x -> zmean s = zmean x -> keepm st (upd st a s).
Proof.
  intros Ha Hz c m. unfold mean. destruct (Nat.eq_dec a c) as [->|Hn].
  - rewrite nth_error_upd_same by (eapply nth_error_lt; eauto). rewrite Ha. simpl. now rewrite Hz.
  - now rewrite nth_error_upd_other.
Qed.
Section Order.
Context {N : Num R} {O : TrueOrder N}.

Lemma use_lower_keepm st a b st' : use_lower st a b = Ok st' -> keepm st st'.
Proof. intros E. apply use_lower_inv in E as (sa & sb & v & mn & Ha & _ & _ & _ & ->). now apply (keepm_upd _ _ _ _ Ha). Qed.
Lemma use_higher_keepm st a b st' : use_higher st a b = Ok st' -> keepm st st'.
Proof. intros E. apply use_higher_inv in E as (sa & sb & v & mn & Ha & _ & _ & _ & ->). now apply (keepm_upd _ _ _ _ Ha). Qed.
Lemma sheet_loop_keepm n bottom thickness : forall fuel st top zb a st' a',
  sheet_loop fuel n st bottom top thickness zb a = Ok (st', a') -> keepm st st'.
Proof.
  induction fuel as [|fuel IH]; intros st top zb a st' a' E; [discriminate|]. cbn [sheet_loop] in E.
  destruct a as ((l & lo) & hi). destruct (lo <? zb)%num.
  - apply bind_Ok in E as (s & Hs & E). cbn [alloc] in E.
    apply bind_Ok in E as (st2 & H2 & E). apply bind_Ok in E as (st3 & H3 & E).
    apply bind_Ok in E as (sb & Hsb & E). apply bind_Ok in E as (sp & Hsp & E). apply IH in E.
    eapply keepm_trans; [apply keepm_alloc|]. eapply keepm_trans; [eapply use_lower_keepm; exact H2|].
    eapply keepm_trans; [eapply use_higher_keepm; exact H3|exact E].
  - apply bind_Ok in E as (sb & Hsb & E). apply bind_Ok in E as (sp & Hsp & E). injection E as <- _. apply keepm_refl.
Qed.
Lemma new_ae_keepm g fuel st ty kind sbg bottom top objs st' e :
  new_ae g fuel st ty kind sbg bottom top objs = Ok (st', e) -> keepm st st'.
Proof.
  intros E. unfold new_ae in E.
  apply bind_Ok in E as (sb & Hsb & E). apply bind_Ok in E as (sp & Hsp & E).
  apply bind_Ok in E as ((st1 & (l & lo) & hi) & Hg & E). apply bind_Ok in E as (cp & Hcp & E).
  injection E as <- _. destruct (t_geometry ty); [now apply sheet_loop_keepm in Hg|]. injection Hg as <- _. apply keepm_refl.
Qed.

(** ** Strata *)
(** One round of the loop. *)
Lemma stratum_round g fuel sp bot d st top curr znow lo hi aes s :
  nth_error st bot = Some s -> zmean s < znow ->
  (exists e, forall more, stratum_loop g fuel sp bot (d :: more) st top curr znow lo hi aes = Err e) \/
  (exists st1 e lo1 hi1 top1 curr1, mean st1 bot = Some (zmean s) /\
     forall more, stratum_loop g fuel sp bot (d :: more) st top curr znow lo hi aes =
     stratum_loop g fuel sp bot more st1 top1 curr1 (Rmax (next_depth (sp_avul_prob sp) znow d) (zmean s)) lo1 hi1 (aes ++ [e])) .
Proof.
  intros Hs Hz.
  assert (E0 : forall more, stratum_loop g fuel sp bot (d :: more) st top curr znow lo hi aes =
    (let* ty := choose (sp_types sp) curr in
        let znow := next_depth (sp_avul_prob sp) znow d in
        let* next := choose (sp_types sp) (d_next d) in
        let* (znow, st, ae_bot) :=
          (if (znow <=? zmean s)%num then Ok (zmean s, st, bot)
           else let* s := new_surface (columns g) (set_z (t_contact next) znow) (d_field d) in
                let (st, b) := alloc st s in Ok (znow, st, b)) in
        let* st := use_lower st ae_bot top in
        let* st := use_higher st ae_bot bot in
        let* (st, e) := new_ae g fuel st ty curr (sp_bg sp) ae_bot top (d_objs d) in
        stratum_loop g fuel sp bot more st ae_bot (d_next d) znow
          (if (ae_zmin e <? lo)%num then ae_zmin e else lo) (if (hi <? ae_zmax e)%num then ae_zmax e else hi) (aes ++ [e])%list)).
  { intros more. cbn [stratum_loop]. unfold getS at 1. rewrite Hs. cbn [bind]. rewrite nleb_ord.
    destruct (Rleb_spec znow (zmean s)); [lra|]. reflexivity. }
  destruct (choose (sp_types sp) curr) as [ty|x]; [|left; exists x; intros more; rewrite E0; reflexivity].
  destruct (choose (sp_types sp) (d_next d)) as [next|x]; [|left; exists x; intros more; rewrite E0; reflexivity].
  cbn [bind] in E0. cbv zeta in E0. set (zn := next_depth (sp_avul_prob sp) znow d) in *.
  assert (Hd : (exists x, forall more, stratum_loop g fuel sp bot (d :: more) st top curr znow lo hi aes = Err x) \/
     exists st1 ab, keepm st st1 /\
     (if (zn <=? zmean s)%num then Ok (zmean s, st, bot)
           else let* s0 := new_surface (columns g) (set_z (t_contact next) zn) (d_field d) in
                let (st, b) := alloc st s0 in Ok (zn, st, b)) = Ok (Rmax zn (zmean s), st1, ab)).
  { rewrite nleb_ord in *. destruct (Rleb_spec zn (zmean s)) as [Hl|Hl].
    - right. exists st, bot. split; [apply keepm_refl|]. now rewrite Rmax_right.
    - destruct (new_surface _ _ _) as [s0|x]; [|left; exists x; intros more; rewrite E0; reflexivity].
      right. cbn [bind alloc]. do 2 eexists. split; [apply keepm_alloc|]. rewrite Rmax_left by lra. reflexivity. }
  destruct Hd as [Hd|(st1 & ab & K1 & Hd)]; [left; exact Hd|]. 
  rewrite Hd in E0. cbn [bind] in E0.
  destruct (use_lower st1 ab top) as [st2|x] eqn:E2; [|left; exists x; intros more; rewrite E0; reflexivity]. cbn [bind] in E0.
  destruct (use_higher st2 ab bot) as [st3|x] eqn:E3; [|left; exists x; intros more; rewrite E0; reflexivity]. cbn [bind] in E0.
  destruct (new_ae g fuel st3 ty curr (sp_bg sp) ab top (d_objs d)) as [(st4 & e)|x] eqn:E4;
    [|left; exists x; intros more; rewrite E0; reflexivity]. cbn [bind] in E0.
  right. exists st4, e. do 4 eexists. split; [|exact E0].
  assert (K : keepm st st4).
  { eapply keepm_trans; [exact K1|]. eapply keepm_trans; [eapply use_lower_keepm; exact E2|].
    eapply keepm_trans; [eapply use_higher_keepm; exact E3|]. eapply new_ae_keepm; exact E4. }
  apply K. unfold mean. now rewrite Hs.
Qed.

Lemma mean_some st a m : mean st a = Some m -> exists s, nth_error st a = Some s /\ zmean s = m.
Proof. unfold mean. destruct (nth_error st a) as [s|]; [|discriminate]. intros [= <-]. eauto. Qed.

(** At most N rounds if N*eps covers the thickness and every round takes eps. *)
Lemma stratum_loop_bounded g fuel sp bot eps m M : 0 < eps -> forall draws more st top curr znow lo hi aes s,
  Forall (fun d => forall z, m < z <= M -> next_depth (sp_avul_prob sp) z d <= z - eps) draws ->
  nth_error st bot = Some s -> zmean s = m -> znow <= M -> znow - zmean s <= INR (List.length draws) * eps ->
  stratum_loop g fuel sp bot (draws ++ more) st top curr znow lo hi aes =
  stratum_loop g fuel sp bot draws st top curr znow lo hi aes.
Proof.
  intros He. induction draws as [|d draws IH]; intros more st top curr znow lo hi aes s Hd Hs Em HM Hn.
  - simpl in Hn. simpl app. destruct more as [|d more]; [reflexivity|]. cbn [stratum_loop]. unfold getS. rewrite Hs. cbn [bind].
    rewrite nleb_ord. destruct (Rleb_spec znow (zmean s)); [reflexivity|lra].
  - inversion Hd as [|? ? Hd1 Hd2]; subst. destruct (Rle_lt_dec znow (zmean s)) as [Hl|Hl].
    + cbn [stratum_loop app]. unfold getS. rewrite Hs. cbn [bind]. rewrite nleb_ord. destruct (Rleb_spec znow (zmean s)); [reflexivity|lra].
    + cbn [app]. destruct (stratum_round g fuel sp bot d st top curr znow lo hi aes s Hs Hl)
        as [(x & Hx)|(st1 & e & lo1 & hi1 & top1 & curr1 & Hm & Hx)].
      * now rewrite !Hx.
      * rewrite !Hx. destruct (mean_some _ _ _ Hm) as (s1 & Hs1 & Hz1). 
        specialize (Hd1 znow ltac:(lra)).
        assert (Rmax (next_depth (sp_avul_prob sp) znow d) (zmean s) <= M) by (apply Rmax_lub; lra).
        apply (IH _ _ _ _ _ _ _ _ s1); [assumption|assumption|congruence|assumption|].
        rewrite Hz1. cbn [List.length] in Hn. rewrite S_INR in Hn.
        unfold Rmax. destruct (Rle_dec _ _); [|lra].
        pose proof (pos_INR (List.length draws)). assert (0 <= INR (List.length draws) * eps) by (apply Rmult_le_pos; lra). lra.
Qed.

Lemma stratum_loop_count g fuel sp bot : forall draws st top curr znow lo hi aes st' lo' hi' aes',
  stratum_loop g fuel sp bot draws st top curr znow lo hi aes = Ok (st', (lo', hi', aes')) ->
  (List.length aes' <= List.length aes + List.length draws)%nat.
Proof.
  induction draws as [|d draws IH]; intros st top curr znow lo hi aes st' lo' hi' aes' E; cbn [stratum_loop] in E.
  - apply bind_Ok in E as (s & _ & E). destruct (_ <=? _)%num; [|discriminate]. injection E as _ _ _ <-. lia.
  - apply bind_Ok in E as (s & _ & E). destruct (_ <=? _)%num; [injection E as _ _ _ <-; simpl; lia|].
    apply bind_Ok in E as (ty & _ & E). apply bind_Ok in E as (nx & _ & E). apply bind_Ok in E as (((z & st1) & ab) & _ & E).
    apply bind_Ok in E as (st2 & _ & E). apply bind_Ok in E as (st3 & _ & E). apply bind_Ok in E as ((st4 & e) & _ & E).
    apply IH in E. rewrite app_length in E. simpl in *. lia.
Qed.

(** No number of rounds suffices if the depths stay in a set above the bottom. *)
Lemma stratum_loop_endless g fuel sp bot (P : R -> Prop) m : (forall z, P z -> m < z) -> forall draws st top curr znow lo hi aes s r,
  Forall (fun d => forall z, P z -> P (next_depth (sp_avul_prob sp) z d)) draws ->
  nth_error st bot = Some s -> zmean s = m -> P znow ->
  stratum_loop g fuel sp bot draws st top curr znow lo hi aes <> Ok r.
Proof.
  intros HP. induction draws as [|d draws IH]; intros st top curr znow lo hi aes s r Hd Hs Em Hp E; pose proof (HP _ Hp) as Hz; rewrite <- Em in Hz.
  - cbn [stratum_loop] in E. unfold getS in E. rewrite Hs in E. cbn [bind] in E. rewrite nleb_ord in E.
    destruct (Rleb_spec znow (zmean s)); [lra|discriminate].
  - inversion Hd as [|? ? Hd1 Hd2]; subst.
    destruct (stratum_round g fuel sp bot d st top curr znow lo hi aes s Hs Hz)
        as [(x & Hx)|(st1 & e & lo1 & hi1 & top1 & curr1 & Hm & Hx)].
    + rewrite Hx in E. discriminate.
    + rewrite Hx in E. destruct (mean_some _ _ _ Hm) as (s1 & Hs1 & Hz1). revert E. apply (IH _ _ _ _ _ _ _ s1); [assumption|assumption|congruence|].
      specialize (Hd1 znow Hp). rewrite Rmax_left; [assumption|]. apply HP in Hd1. lra.
Qed.

(** ** Sheets *)
Lemma getS_some (st : store R) a : (a < List.length st)%nat -> exists s, getS st a = Ok s /\ nth_error st a = Some s.
Proof.
  intros Ha. unfold getS. destruct (nth_error st a) as [s|] eqn:E; [eauto|]. apply nth_error_None in E. lia.
Qed.
Lemma use_lower_ok n st a b : (0 < n)%nat -> wf n st -> (a < List.length st)%nat -> (b < List.length st)%nat ->
  exists st', use_lower st a b = Ok st'.
Proof.
  intros Hn Hw Ha Hb. unfold use_lower. destruct (getS_some st a Ha) as (sa & -> & Ea). destruct (getS_some st b Hb) as (sb & -> & Eb).
  destruct (wf_nth _ _ _ _ Hw Ea) as [La _]. destruct (wf_nth _ _ _ _ Hw Eb) as [Lb _]. cbn [bind].
  destruct (list_min_ok (zip_with (fun x y : R => if (y <? x)%num then y else x) (vals sa) (vals sb))) as (m & E).
  { intros E. apply (f_equal (@List.length R)) in E. rewrite zip_length in E by congruence. simpl in E. lia. }
  rewrite E. cbn [bind]. eauto.
Qed.
Lemma use_higher_ok n st a b : (0 < n)%nat -> wf n st -> (a < List.length st)%nat -> (b < List.length st)%nat ->
  exists st', use_higher st a b = Ok st'.
Proof.
  intros Hn Hw Ha Hb. unfold use_higher. destruct (getS_some st a Ha) as (sa & -> & Ea). destruct (getS_some st b Hb) as (sb & -> & Eb).
  destruct (wf_nth _ _ _ _ Hw Ea) as [La _]. destruct (wf_nth _ _ _ _ Hw Eb) as [Lb _]. cbn [bind].
  destruct (list_max_ok (zip_with (fun x y : R => if (x <? y)%num then y else x) (vals sa) (vals sb))) as (m & E).
  { intros E. apply (f_equal (@List.length R)) in E. rewrite zip_length in E by congruence. simpl in E. lia. }
  rewrite E. cbn [bind]. eauto.
Qed.

(** [lo] bounds the top and the bottom surface from below; then it stays the
    same and the loop ends after zb has passed it. *)
Lemma sheet_loop_total n bottom thickness eps M N0 : forall fuel st top zb l lo hi,
  (0 < n)%nat -> 0 < eps -> wf n st -> (bottom < List.length st)%nat -> (top < List.length st)%nat ->
  (forall s, nth_error st bottom = Some s -> lo <= zmin s) -> (forall k v, col st top k = Some v -> lo <= v) ->
  (forall s, nth_error st bottom = Some s -> Forall (fun v => lo <= v) (vals s)) ->
  (forall z, lo < z <= M -> nsub z thickness <= z - eps) -> zb <= M ->
  zb - lo <= INR N0 * eps -> (N0 < fuel)%nat ->
  exists st' l' lo' hi', sheet_loop fuel n st bottom top thickness zb (l, lo, hi) = Ok (st', (l', lo', hi')) /\
    (List.length l' <= List.length l + S N0)%nat.
Proof.
  induction N0 as [|N0 IHN]; intros fuel st top zb l lo hi Hn Hth Hw Hb Ht Hlb Hlt Hlv Hstep HM Hz Hf;
    (destruct fuel as [|fuel]; [lia|]); cbn [sheet_loop]; rewrite nleb_ord.
  - simpl in Hz. destruct (Rleb_spec zb lo); [|lra]. cbn [negb].
    destruct (getS_some st bottom Hb) as (sb & -> & _). destruct (getS_some st top Ht) as (sp & -> & _). cbn [bind].
    rewrite add_object_eq. do 4 eexists. split; [reflexivity|]. rewrite app_length. simpl. lia.
  - destruct (Rleb_spec zb lo) as [Hl|Hl]; cbn [negb].
    { destruct (getS_some st bottom Hb) as (sb & -> & _). destruct (getS_some st top Ht) as (sp & -> & _). cbn [bind].
      rewrite add_object_eq. do 4 eexists. split; [reflexivity|]. rewrite app_length. simpl. lia. }
    replace (new_surface n (flat_contact zb) []) with (Ok (mkSurface (repeat zb n) zb zb zb)) by reflexivity.
    cbn [bind alloc]. set (st1 := st ++ [mkSurface (repeat zb n) zb zb zb]).
    assert (W1 : wf n st1) by (apply wf_alloc; [assumption|apply repeat_length|apply flat_bounded]).
    assert (L1 : List.length st1 = S (List.length st)) by (unfold st1; rewrite app_length; simpl; lia).
    remember (List.length st) as b eqn:Eb.
    destruct (use_lower_ok n st1 b top) as (st2 & H2); try assumption; try lia. rewrite H2. cbn [bind].
    assert (W2 : wf n st2) by (eapply use_lower_wf; eauto). destruct (use_lower_col _ _ _ _ H2) as (C2 & D2 & L2).
    destruct (use_higher_ok n st2 top bottom) as (st3 & H3); try assumption; try lia. rewrite H3. cbn [bind].
    assert (W3 : wf n st3) by (eapply use_higher_wf; eauto). destruct (use_higher_col _ _ _ _ H3) as (C3 & D3 & L3).
    destruct (getS_some st3 b ltac:(lia)) as (sb & -> & Esb). destruct (getS_some st3 top ltac:(lia)) as (sp & -> & Esp). cbn [bind].
    rewrite add_object_eq. cbn [ob_zmin ob_zmax].
    (* the new surface stays above lo *)
    assert (Hbv : forall k v, col st3 b k = Some v -> lo <= v).
    { intros k v Hv. rewrite C3 in Hv by lia. 
      destruct (col_like _ st1 st2 top _ _ _ W1 W2 ltac:(lia) Hv) as (y & Hy).
      assert (Hu : col st1 b k = Some zb) by (unfold st1; subst b; apply col_flat; eapply col_lt; [exact W2|exact Hv]).
      rewrite (D2 _ _ _ Hu Hy) in Hv. injection Hv as <-. unfold st1 in Hy. rewrite col_alloc in Hy by lia.
      apply Rmin_glb; [lra|eauto]. }
    assert (Hsb : zmin sb = Rmin zb (zmin sb) \/ True) by auto.
    assert (Hmin : lo <= zmin sb).
    { (* zmin of the new surface is attained *)
      apply use_lower_inv in H2 as (sa & so & v & mn & Ha & Ho & Ev & Hm & E2).
      apply use_higher_inv in H3 as (sa' & so' & v' & mx & Ha' & Ho' & Ev' & Hm' & E3).
      apply list_min_spec in Hm as (Hin & _). apply In_nth_error in Hin as (k & Hk).
      assert (Esb2 : nth_error st2 b = Some sb) by (rewrite E3, nth_error_upd_other in Esb by lia; exact Esb).
      assert (Esb3 : sb = mkSurface v (zmean sa) mn (zmax sa)).
      { rewrite E2, nth_error_upd_same in Esb2 by lia. congruence. }
      subst sb. cbn [zmin]. apply (Hbv k). unfold col. rewrite Esb. exact Hk. }
    rewrite (Rmin_left lo (zmin sb)) by assumption.
    assert (Hbot : forall s, nth_error st3 bottom = Some s -> lo <= zmin s /\ Forall (fun v => lo <= v) (vals s)).
    { intros s Hs. destruct (Nat.eq_dec bottom top) as [Hbt|Hbt].
      - subst bottom. rewrite Esp in Hs. injection Hs as ->.
        apply use_higher_inv in H3 as (sa' & so' & v' & mx & Ha' & Ho' & Ev' & Hm' & E3).
        assert (Ea : nth_error st top = Some sa').
        { apply use_lower_inv in H2 as (sa & so & v & mn & Ha & Ho & Ev & Hm & E2).
          rewrite E2, nth_error_upd_other in Ha' by lia. unfold st1 in Ha'. now rewrite nth_error_app1 in Ha' by lia. }
        assert (so' = sa') by congruence. subst so'.
        rewrite E3, nth_error_upd_same in Esp by lia. injection Esp as <-. cbn [zmin vals].
        split; [now apply Hlb|]. subst v'. rewrite zip_max_same; [now apply Hlv|reflexivity|].
        intros k x y Hx Hy. rewrite Hx in Hy. injection Hy as ->. lra.
      - apply use_higher_inv in H3 as (sa' & so' & v' & mx & Ha' & Ho' & Ev' & Hm' & E3).
        rewrite E3, nth_error_upd_other in Hs by lia.
        apply use_lower_inv in H2 as (sa & so & v & mn & Ha & Ho & Ev & Hm & E2).
        rewrite E2, nth_error_upd_other in Hs by lia. unfold st1 in Hs. rewrite nth_error_app1 in Hs by lia. auto. }
    destruct (IHN fuel st3 b (nsub zb thickness) (l ++ [mkObject (zmin sb) (zmax sp) (Some (b, top))]) lo (Rmax hi (zmax sp)))
      as (st' & l' & lo' & hi' & E & Hlen); try assumption; try lia.
    + intros s Hs. now apply Hbot.
    + intros s Hs. now apply Hbot.
    + specialize (Hstep zb ltac:(lra)). lra.
    + specialize (Hstep zb ltac:(lra)). rewrite S_INR in Hz. lra.
    + do 4 eexists. split; [exact E|]. rewrite app_length in Hlen. simpl in Hlen. lia.
Qed.

(** No fuel suffices when the bottoms stay in a set above [lo]. *)
Lemma sheet_loop_endless n bottom thickness (P : R -> Prop) : (forall z, P z -> P (nsub z thickness)) -> forall fuel st top zb l lo hi r,
  wf n st -> (bottom < List.length st)%nat -> (top < List.length st)%nat -> P zb -> (forall z, P z -> lo < z) ->
  (forall k v, col st top k = Some v -> lo <= v) ->
  sheet_loop fuel n st bottom top thickness zb (l, lo, hi) <> Ok r.
Proof.
  intros Hth. induction fuel as [|fuel IH]; intros st top zb l lo hi r Hw Hb Ht Hp HP Hlt E; [discriminate|]. pose proof (HP _ Hp) as Hz.
  cbn [sheet_loop] in E. rewrite nleb_ord in E. destruct (Rleb_spec zb lo); [lra|]. cbn [negb] in E.
  apply bind_Ok in E as (s & Hs & E). cbn [alloc] in E. apply flat_surface in Hs. subst s.
  apply bind_Ok in E as (st2 & H2 & E). apply bind_Ok in E as (st3 & H3 & E).
  apply bind_Ok in E as (sb & Hsb & E). apply bind_Ok in E as (sp & Hsp & E).
  rewrite add_object_eq in E. cbn [ob_zmin ob_zmax] in E.
  set (st1 := st ++ [mkSurface (repeat zb n) zb zb zb]) in *.
  assert (W1 : wf n st1) by (apply wf_alloc; [assumption|apply repeat_length|apply flat_bounded]).
  assert (L1 : List.length st1 = S (List.length st)) by (unfold st1; rewrite app_length; simpl; lia).
  assert (W2 : wf n st2) by (eapply use_lower_wf; eauto). destruct (use_lower_col _ _ _ _ H2) as (C2 & D2 & L2).
  assert (W3 : wf n st3) by (eapply use_higher_wf; eauto). destruct (use_higher_col _ _ _ _ H3) as (C3 & D3 & L3).
  revert E. apply IH; try assumption; try lia.
  - now apply Hth.
  - intros z Hzz. apply Rle_lt_trans with lo; [apply Rmin_l|]. now apply HP.
  - intros k v Hv. apply Rle_trans with lo; [apply Rmin_l|]. rewrite C3 in Hv by lia.
    destruct (col_like _ st1 st2 top _ _ _ W1 W2 ltac:(lia) Hv) as (y & Hy).
    assert (Hu : col st1 (List.length st) k = Some zb) by (unfold st1; apply col_flat; eapply col_lt; [exact W2|exact Hv]).
    rewrite (D2 _ _ _ Hu Hy) in Hv. injection Hv as <-. unfold st1 in Hy. rewrite col_alloc in Hy by lia.
    apply Rmin_glb; [lra|eauto].
Qed.

End Order.

(** ** Exact arithmetic *)
Definition net (sp : stratum_params R) (d : draw R) : R :=
  d_height d - (if Rle_dec (d_u d) (sp_avul_prob sp) then d_avul d else 0).
Lemma next_depth_net sp z d : next_depth (sp_avul_prob sp) z d = z - net sp d.
Proof.
  unfold next_depth, net. rewrite nleb_R. unfold Rleb. destruct (Rle_dec (d_u d) (sp_avul_prob sp)); numR; lra.
Qed.

(** ** Coverage *)
Lemma sheet_chain_covers n st : wf n st -> forall l top bottom k z b t,
  (forall o x y, In o l -> ob_surfaces o = Some (x, y) -> (x < List.length st)%nat) ->
  sheet_chain top l bottom -> l <> [] ->
  col st bottom k = Some b -> col st top k = Some t -> b <= z <= t ->
  exists o x y lo hi, In o l /\ ob_surfaces o = Some (x, y) /\ col st x k = Some lo /\ col st y k = Some hi /\ lo <= z <= hi.
Proof.
  intros Hw. induction l as [|o l IH]; intros top bottom k z b t Hin Hc Hne Hb Ht Hz; [congruence|].
  destruct Hc as (m & Ho & Hc).
  destruct (col_some n st m k Hw) as (v & Hv); [eapply Hin; [now left|exact Ho]|eapply col_lt; [exact Hw|exact Hb]|].
  destruct l as [|o2 l].
  - simpl in Hc. subst m. exists o, bottom, top, b, t. repeat split; auto; try tauto. now left.
  - destruct (Rle_lt_dec v z) as [Hvz|Hvz].
    + exists o, m, top, v, t. repeat split; auto; try tauto; try lra. now left.
    + destruct (IH m bottom k z b v) as (o' & x & y & lo & hi & H1 & H2 & H3 & H4 & H5); auto; try lra; try discriminate.
      { intros o' x y Hi. apply Hin. now right. }
      exists o', x, y, lo, hi. repeat split; auto; try tauto. now right.
Qed.
Lemma ae_chain_covers n st : wf n st -> forall l top bottom k z b t,
  (forall e, In e l -> (ae_bottom e < List.length st)%nat) ->
  ae_chain top l bottom -> l <> [] ->
  col st bottom k = Some b -> col st top k = Some t -> b <= z <= t ->
  exists e lo hi, In e l /\ col st (ae_bottom e) k = Some lo /\ col st (ae_top e) k = Some hi /\ lo <= z <= hi.
Proof.
  intros Hw. induction l as [|e l IH]; intros top bottom k z b t Hin Hc Hne Hb Ht Hz; [congruence|].
  destruct Hc as (He & Hc). subst top.
  destruct (col_some n st (ae_bottom e) k Hw) as (v & Hv); [apply Hin; now left|eapply col_lt; [exact Hw|exact Hb]|].
  destruct l as [|e2 l].
  - simpl in Hc. exists e, b, t. rewrite Hc. repeat split; auto; try tauto. now left.
  - destruct (Rle_lt_dec v z) as [Hvz|Hvz].
    + exists e, v, t. repeat split; auto; try tauto; try lra. now left.
    + destruct (IH (ae_bottom e) bottom k z b v) as (e' & lo & hi & H1 & H2 & H3 & H4); auto; try lra; try discriminate.
      { intros e' Hi. apply Hin. now right. }
      exists e', lo, hi. repeat split; auto; try tauto. now right.
Qed.

(** ** Sheets and the surfaces of their element *)
Lemma sheet_loop_inside n bottom N0 thickness roof : forall fuel st top zb l lo hi st' l' lo' hi',
  wf n st -> (N0 <= List.length st)%nat -> (bottom < N0)%nat -> (roof < N0)%nat -> (top < List.length st)%nat ->
  ((top < N0)%nat -> below st bottom top) -> below st top roof -> below st bottom roof ->
  sheet_loop fuel n st bottom top thickness zb (l, lo, hi) = Ok (st', (l', lo', hi')) ->
  exists new, l' = l ++ new /\
    ((2 <= List.length new)%nat -> below st' bottom top) /\ below st' top roof /\
    (forall o x y, In o new -> ob_surfaces o = Some (x, y) -> below st' x roof /\ below st' y roof) /\
    (forall i o x y, nth_error new i = Some o -> ob_surfaces o = Some (x, y) -> (i + 2 <> List.length new)%nat -> below st' bottom x).
Proof.
  induction fuel as [|fuel IH]; intros st top zb l lo hi st' l' lo' hi' Hw HN Hb Hr Ht Hbt Htr Hbr E; [discriminate|].
  assert (E' := E). cbn [sheet_loop] in E.
  destruct (lo <? zb)%num eqn:Elo.
  - apply bind_Ok in E as (s & Hs & E). apply flat_surface in Hs as ->. cbn [alloc] in E.
    set (st1 := st ++ [mkSurface (repeat zb n) zb zb zb]) in *.
    remember (List.length st) as b eqn:Eb0 in *.
    apply bind_Ok in E as (st2 & H2 & E). apply bind_Ok in E as (st3 & H3 & E).
    apply bind_Ok in E as (sb & Hsb & E). apply bind_Ok in E as (sp & Hsp & E).
    rewrite add_object_eq in E. apply getS_Ok in Hsb, Hsp.
    assert (W1 : wf n st1) by (apply wf_alloc; [assumption|apply repeat_length|apply flat_bounded]).
    assert (W2 : wf n st2) by (eapply use_lower_wf; eauto).
    assert (W3 : wf n st3) by (eapply use_higher_wf; eauto).
    assert (L1 : List.length st1 = S b) by (unfold st1; rewrite app_length; simpl; lia).
    destruct (use_lower_col _ _ _ _ H2) as (C2 & D2 & L2).
    destruct (use_higher_col _ _ _ _ H3) as (C3 & D3 & L3).
    assert (S12 : forall c, (c < b)%nat -> same st st2 c).
    { intros c Hc. apply (same_trans _ st1); [apply keeps_alloc; lia|]. eapply use_lower_others; eauto; lia. }
    assert (S23 : forall c, (c < S b)%nat -> c <> top \/ (top < N0)%nat -> same st2 st3 c).
    { intros c Hc Hor. destruct (Nat.eq_dec c top) as [->|Hn].
      - destruct Hor as [Hor|Hor]; [congruence|]. apply (use_higher_keeps n _ _ _ _ W2 H3); [|lia].
        apply (below_same st st2); [apply S12; lia|apply S12; lia|now apply Hbt].
      - eapply use_higher_others; eauto; lia. }
    assert (S13 : forall c, (c < N0)%nat -> same st st3 c).
    { intros c Hc. eapply same_trans; [apply S12; lia|]. apply S23; lia. }
    assert (Hbr3 : below st3 bottom roof) by (apply (below_same st); auto; apply S13; lia).
    assert (Hbr2 : below st2 bottom roof) by (apply (below_same st); auto; apply S12; lia).
    assert (Htr2 : below st2 top roof) by (apply (below_same st); auto; apply S12; lia).
    assert (Htop3 : below st3 bottom top /\ below st3 top roof).
    { assert (Hc : forall k v, col st3 top k = Some v -> exists x y, col st2 top k = Some x /\ col st2 bottom k = Some y /\ v = Rmax x y).
      { intros k v Hv. destruct (col_like _ st2 st3 top _ _ _ W2 W3 ltac:(lia) Hv) as (x & Hx).
        destruct (col_like _ st2 st3 bottom _ _ _ W2 W3 ltac:(lia) Hv) as (y & Hy).
        exists x, y. rewrite (D3 _ _ _ Hx Hy) in Hv. injection Hv as <-. auto. }
      split; intros k u v Hu Hv.
      - destruct (Hc _ _ Hv) as (x & y & Hx & Hy & ->).
        destruct (Nat.eq_dec bottom top) as [->|Hn].
        + destruct (Hc _ _ Hu) as (x' & y' & Hx' & Hy' & ->). rewrite Hx in Hx'. rewrite Hy in Hy'. injection Hx' as <-. injection Hy' as <-. lra.
        + rewrite C3 in Hu by congruence. rewrite Hy in Hu. injection Hu as ->. apply Rmax_r.
      - destruct (Hc _ _ Hu) as (x & y & Hx & Hy & ->).
        assert (Sr : same st2 st3 roof \/ roof = top).
        { destruct (Nat.eq_dec roof top); [now right|left]. eapply use_higher_others; [exact H3|lia|assumption]. }
        destruct Sr as [Sr| ->].
        + rewrite (same_col _ _ _ _ Sr) in Hv. apply Rmax_lub; [exact (Htr2 _ _ _ Hx Hv)|exact (Hbr2 _ _ _ Hy Hv)].
        + destruct (Hc _ _ Hv) as (x' & y' & Hx' & Hy' & ->). rewrite Hx in Hx'. rewrite Hy in Hy'. injection Hx' as <-. injection Hy' as <-. lra. }
    destruct Htop3 as (Hbt3 & Htr3).
    assert (Hbroof : below st3 b roof).
    { intros k u v Hu Hv. rewrite C3 in Hu by lia.
      destruct (col_like _ st1 st2 b _ _ _ W1 W2 ltac:(lia) Hu) as (x & Hx).
      destruct (col_like _ st2 st2 top _ _ _ W2 W2 ltac:(lia) Hu) as (y & Hy).
      assert (Hy1 : col st1 top k = Some y) by (rewrite <- Hy; symmetry; apply C2; lia).
      rewrite (D2 _ _ _ Hx Hy1) in Hu. injection Hu as <-.
      assert (Hv2 : col st2 roof k = Some v).
      { rewrite (same_col _ _ _ _ (S12 roof ltac:(lia))), <- (same_col _ _ _ _ (S13 roof Hr)). exact Hv. }
      pose proof (Htr2 _ _ _ Hy Hv2). pose proof (Rmin_r x y). lra. }
    cbn [ob_zmin ob_zmax] in E.
    assert (Hspec := E). apply (sheet_loop_spec n bottom N0) in Hspec; try assumption; try lia.
    destruct Hspec as (W' & L' & S' & _ & _ & _ & new' & El' & Hne' & _).
    apply IH in E; try assumption; try lia.
    destruct E as (new & El & G1 & G2 & G3 & G4). rewrite El in El'. apply app_inv_head in El'. subst new'.
    assert (Stop : same st3 st' top) by (apply S'; lia).
    assert (Sbot : same st3 st' bottom) by (apply S'; lia).
    assert (Sroof : same st3 st' roof) by (apply S'; lia).
    exists (mkObject (zmin sb) (zmax sp) (Some (b, top)) :: new). split; [rewrite El, <- app_assoc; reflexivity|].
    split; [intros _; now apply (below_same st3)|]. split; [now apply (below_same st3)|]. split.
    + intros o x y [<-|Hin] Ho.
      * cbn [ob_surfaces] in Ho. injection Ho as <- <-. split; [assumption|now apply (below_same st3)].
      * now apply (G3 o).
    + intros [|i] o x y Hi Ho Hlen; cbn [nth_error] in Hi; cbn [List.length] in Hlen.
      * injection Hi as <-. cbn [ob_surfaces] in Ho. injection Ho as <- <-. apply G1.
        destruct new as [|n1 [|n2 new]]; simpl in *; [congruence|lia|lia].
      * eapply G4; [exact Hi|exact Ho|lia].
  - apply bind_Ok in E as (sb & Hsb & E). apply bind_Ok in E as (sp & Hsp & E).
    rewrite add_object_eq in E. injection E as <- <- <- <-. eexists. split; [reflexivity|].
    split; [simpl; lia|]. split; [assumption|]. split.
    + intros o x y [<-|[]] Ho. cbn [ob_surfaces] in Ho. injection Ho as <- <-. auto.
    + intros [|[|i]] o x y Hi Ho _; try discriminate. injection Hi as <-. cbn [ob_surfaces] in Ho. injection Ho as <- <-. apply below_refl.
Qed.
