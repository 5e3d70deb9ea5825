(** Lemmas about grids and contact surfaces. *)
From Coq Require Import List ZArith Bool Reals Lra Lia.
From Verif Require Import Base Num ParseModel ConfigModel SurfaceModel SurfaceSpec OrderSpec.
Import ListNotations.
Local Open Scope R_scope.

(** ** Grid *)
Lemma arange_R start stop step : 0 < step ->
  arange start stop step = Ok (map (fun i => start + INR i * step) (seq 0 (Z.to_nat (nceil ((stop - start) / step))))).
Proof.
  intros H. unfold arange. numR. destruct (Rleb_spec step 0); [lra|]. cbn [andb].
  f_equal. apply map_ext. intros i. now rewrite <- INR_IZR_INZ.
Qed.

Lemma to_nat_INR z : (0 <= z)%Z -> INR (Z.to_nat z) = IZR z.
Proof. intros H. rewrite INR_IZR_INZ, Z2Nat.id; auto. Qed.

Lemma arange_length start stop step l : 0 < step -> arange start stop step = Ok l ->
  (start <= stop -> (stop - start) / step <= INR (List.length l) < (stop - start) / step + 1).
Proof.
  intros H E Hs. rewrite arange_R in E by assumption. injection E as <-. rewrite map_length, seq_length.
  pose proof (nceil_R_spec ((stop - start) / step)) as Hc.
  assert (0 <= (stop - start) / step) by (apply Rmult_le_pos; [lra|left; now apply Rinv_0_lt_compat]).
  rewrite to_nat_INR; [lra|]. apply Z.lt_pred_le. apply lt_IZR. rewrite <- Z.sub_1_r, minus_IZR. lra.
Qed.

Section Order.
Context {N : Num R} {O : TrueOrder N}.

(** ** Lists *)
Lemma list_min_spec (l : list R) m : list_min l = Ok m -> In m l /\ Forall (fun v => m <= v) l.
Proof.
  destruct l as [|x l]; [discriminate|]. cbn [list_min]. intros [= <-]. revert x.
  induction l as [|y l IH]; intros x; cbn [fold_left].
  - split; [now left|]. constructor; [lra|constructor].
  - destruct (IH (nmin x y)) as [H1 H2]. rewrite nmin_ord in *.
    inversion H2 as [|? ? H3 H4]; subst. split.
    + destruct H1 as [E|H1]; [|right; now right].
      unfold Rmin in E at 1. destruct (Rle_dec x y); [left|right; left]; exact E.
    + pose proof (Rmin_l x y). pose proof (Rmin_r x y). constructor; [lra|]. constructor; [lra|assumption].
Qed.
Lemma list_max_spec (l : list R) m : list_max l = Ok m -> In m l /\ Forall (fun v => v <= m) l.
Proof.
  destruct l as [|x l]; [discriminate|]. cbn [list_max]. intros [= <-]. revert x.
  induction l as [|y l IH]; intros x; cbn [fold_left].
  - split; [now left|]. constructor; [lra|constructor].
  - destruct (IH (nmax x y)) as [H1 H2]. rewrite nmax_ord in *.
    inversion H2 as [|? ? H3 H4]; subst. split.
    + destruct H1 as [E|H1]; [|right; now right].
      unfold Rmax in E at 1. destruct (Rle_dec x y); [right; left|left]; exact E.
    + pose proof (Rmax_l x y). pose proof (Rmax_r x y). constructor; [lra|]. constructor; [lra|assumption].
Qed.
Lemma list_min_ok (l : list R) : l <> [] -> exists m, list_min l = Ok m.
Proof. destruct l; [congruence|]. intros _. eexists. reflexivity. Qed.
Lemma list_max_ok (l : list R) : l <> [] -> exists m, list_max l = Ok m.
Proof. destruct l; [congruence|]. intros _. eexists. reflexivity. Qed.

Lemma zip_length {T} `{Num T} f (l m : list T) : List.length l = List.length m -> List.length (zip_with f l m) = List.length l.
Proof. revert m; induction l; intros [|y m] E; simpl in *; auto; discriminate. Qed.
Lemma zip_nth f (l m : list R) k x y : nth_error l k = Some x -> nth_error m k = Some y ->
  nth_error (zip_with f l m) k = Some (f x y).
Proof.
  revert m k; induction l as [|a l IH]; intros [|b m] [|k] H1 H2; try discriminate.
  - injection H1 as <-. injection H2 as <-. reflexivity.
  - now apply IH.
Qed.
Lemma zip_nth_inv f (l m : list R) k z : nth_error (zip_with f l m) k = Some z ->
  exists x y, nth_error l k = Some x /\ nth_error m k = Some y /\ z = f x y.
Proof.
  revert m k; induction l as [|a l IH]; intros [|b m] [|k] E; try discriminate; cbn in E.
  - injection E as <-. exists a, b. auto.
  - exact (IH m k E).
Qed.
Lemma zip_ext (f h : R -> R -> R) l m : (forall x y, f x y = h x y) -> zip_with f l m = zip_with h l m.
Proof.
  intros E. revert m; induction l as [|x l IH]; intros [|y m]; cbn [zip_with]; auto. now rewrite E, IH.
Qed.
Lemma lower_R (x y : R) : (if (y <? x)%num then y else x) = Rmin x y.
Proof. rewrite nleb_ord. unfold Rmin. destruct (Rleb_spec x y), (Rle_dec x y); simpl; auto; lra. Qed.
Lemma higher_R (x y : R) : (if (x <? y)%num then y else x) = Rmax x y.
Proof. rewrite nleb_ord. unfold Rmax. destruct (Rleb_spec y x), (Rle_dec x y); simpl; auto; lra. Qed.

(** ** The store *)
Lemma getS_Ok (st : store R) a s : getS st a = Ok s <-> nth_error st a = Some s.
Proof. unfold getS. destruct (nth_error st a); split; congruence. Qed.

Lemma use_lower_inv (st st' : store R) a b : use_lower st a b = Ok st' ->
  exists sa sb v mn, nth_error st a = Some sa /\ nth_error st b = Some sb /\
    v = zip_with Rmin (vals sa) (vals sb) /\ list_min v = Ok mn /\
    st' = upd st a (mkSurface v (zmean sa) mn (zmax sa)).
Proof.
  unfold use_lower. intros E. apply bind_Ok in E as (sa & Ha & E). apply bind_Ok in E as (sb & Hb & E).
  apply bind_Ok in E as (mn & Hm & E). apply getS_Ok in Ha, Hb.
  assert (Ev : zip_with (fun x y : R => if (y <? x)%num then y else x) (vals sa) (vals sb) = zip_with Rmin (vals sa) (vals sb)).
  { apply zip_ext. apply lower_R. }
  rewrite Ev in *. injection E as <-. exists sa, sb. do 2 eexists. eauto 10.
Qed.
Lemma use_higher_inv (st st' : store R) a b : use_higher st a b = Ok st' ->
  exists sa sb v mx, nth_error st a = Some sa /\ nth_error st b = Some sb /\
    v = zip_with Rmax (vals sa) (vals sb) /\ list_max v = Ok mx /\
    st' = upd st a (mkSurface v (zmean sa) (zmin sa) mx).
Proof.
  unfold use_higher. intros E. apply bind_Ok in E as (sa & Ha & E). apply bind_Ok in E as (sb & Hb & E).
  apply bind_Ok in E as (mn & Hm & E). apply getS_Ok in Ha, Hb.
  assert (Ev : zip_with (fun x y : R => if (x <? y)%num then y else x) (vals sa) (vals sb) = zip_with Rmax (vals sa) (vals sb)).
  { apply zip_ext. apply higher_R. }
  rewrite Ev in *. injection E as <-. exists sa, sb. do 2 eexists. eauto 10.
Qed.

Lemma nth_error_lt {A} (l : list A) a x : nth_error l a = Some x -> (a < List.length l)%nat.
Proof. intros E. apply nth_error_Some. congruence. Qed.

Lemma wf_nth n st a s : wf n st -> nth_error st a = Some s -> List.length (vals s) = n /\ bounded s.
Proof. intros H E. apply nth_error_In in E. unfold wf in H. rewrite Forall_forall in H. auto. Qed.
Lemma wf_upd n st a s : wf n st -> List.length (vals s) = n -> bounded s -> wf n (upd st a s).
Proof.
  intros H H1 H2. revert a. induction H as [|x l Hx H IH]; intros [|a]; simpl; constructor; auto; apply IH.
Qed.

Lemma bounded_nth s k v : bounded s -> nth_error (vals s) k = Some v -> zmin s <= v <= zmax s.
Proof. intros H E. apply nth_error_In in E. unfold bounded in H. rewrite Forall_forall in H. auto. Qed.

Lemma use_lower_wf n st a b st' : wf n st -> use_lower st a b = Ok st' -> wf n st'.
Proof.
  intros H E. apply use_lower_inv in E as (sa & sb & v & mn & Ha & Hb & -> & Hm & ->).
  destruct (wf_nth _ _ _ _ H Ha) as [La Ba]. destruct (wf_nth _ _ _ _ H Hb) as [Lb _].
  apply wf_upd; [assumption|cbn [vals]; rewrite zip_length; congruence|].
  unfold bounded. cbn [vals zmin zmax]. apply list_min_spec in Hm as [_ Hm].
  rewrite Forall_forall in *. intros x Hx. split; [now apply Hm|].
  apply In_nth_error in Hx as (k & Hk). apply zip_nth_inv in Hk as (u & w & Hu & _ & ->).
  apply (bounded_nth sa k u) in Hu; [|assumption]. pose proof (Rmin_l u w). lra.
Qed.
Lemma use_higher_wf n st a b st' : wf n st -> use_higher st a b = Ok st' -> wf n st'.
Proof.
  intros H E. apply use_higher_inv in E as (sa & sb & v & mn & Ha & Hb & -> & Hm & ->).
  destruct (wf_nth _ _ _ _ H Ha) as [La Ba]. destruct (wf_nth _ _ _ _ H Hb) as [Lb _].
  apply wf_upd; [assumption|cbn [vals]; rewrite zip_length; congruence|].
  unfold bounded. cbn [vals zmin zmax]. apply list_max_spec in Hm as [_ Hm].
  rewrite Forall_forall in *. intros x Hx. split; [|now apply Hm].
  apply In_nth_error in Hx as (k & Hk). apply zip_nth_inv in Hk as (u & w & Hu & _ & ->).
  apply (bounded_nth sa k u) in Hu; [|assumption]. pose proof (Rmax_l u w). lra.
Qed.
Lemma do_clip_wf n st c st' : wf n st -> do_clip st c = Ok st' -> wf n st'.
Proof. destruct c; [apply use_lower_wf|apply use_higher_wf]. Qed.

(** Effect on elevations. *)
Lemma col_upd_other st a s c k : a <> c -> col (upd st a s) c k = col st c k.
Proof. intros Hn. unfold col. now rewrite nth_error_upd_other. Qed.
Lemma col_upd_same st a s k x : nth_error st a = Some x -> col (upd st a s) a k = nth_error (vals s) k.
Proof. intros Ha. unfold col. rewrite nth_error_upd_same by (eapply nth_error_lt; eauto). reflexivity. Qed.

Lemma use_lower_col st a b st' : use_lower st a b = Ok st' ->
  (forall c k, c <> a -> col st' c k = col st c k) /\
  (forall k x y, col st a k = Some x -> col st b k = Some y -> col st' a k = Some (Rmin x y)) /\
  List.length st' = List.length st.
Proof.
  intros E. apply use_lower_inv in E as (sa & sb & v & mn & Ha & Hb & -> & Hm & ->). split; [|split].
  - intros c k Hc. apply col_upd_other. congruence.
  - intros k x y Hx Hy. rewrite (col_upd_same _ _ _ _ _ Ha). cbn [vals]. unfold col in Hx, Hy. rewrite Ha in Hx. rewrite Hb in Hy.
    now apply zip_nth.
  - apply upd_length.
Qed.
Lemma use_higher_col st a b st' : use_higher st a b = Ok st' ->
  (forall c k, c <> a -> col st' c k = col st c k) /\
  (forall k x y, col st a k = Some x -> col st b k = Some y -> col st' a k = Some (Rmax x y)) /\
  List.length st' = List.length st.
Proof.
  intros E. apply use_higher_inv in E as (sa & sb & v & mn & Ha & Hb & -> & Hm & ->). split; [|split].
  - intros c k Hc. apply col_upd_other. congruence.
  - intros k x y Hx Hy. rewrite (col_upd_same _ _ _ _ _ Ha). cbn [vals]. unfold col in Hx, Hy. rewrite Ha in Hx. rewrite Hb in Hy.
    now apply zip_nth.
  - apply upd_length.
Qed.

(** A surface exists in every column of a well formed store. *)
Lemma col_some n st a k : wf n st -> (a < List.length st)%nat -> (k < n)%nat -> exists v, col st a k = Some v.
Proof.
  intros H Ha Hk. unfold col. destruct (nth_error st a) as [s|] eqn:E; [|apply nth_error_None in E; lia].
  destruct (wf_nth _ _ _ _ H E) as [L _].
  destruct (nth_error (vals s) k) as [v|] eqn:E2; [eauto|apply nth_error_None in E2; lia].
Qed.
Lemma col_none n st a k : wf n st -> (n <= k)%nat -> col st a k = None.
Proof.
  intros H Hk. unfold col. destruct (nth_error st a) as [s|] eqn:E; [|reflexivity].
  destruct (wf_nth _ _ _ _ H E) as [L _]. apply nth_error_None. lia.
Qed.
Lemma col_lt n st a k v : wf n st -> col st a k = Some v -> (k < n)%nat.
Proof.
  intros H E. destruct (Nat.lt_ge_cases k n); [assumption|]. rewrite (col_none n) in E by assumption. discriminate.
Qed.
Lemma wf_alloc n st s : wf n st -> List.length (vals s) = n -> bounded s -> wf n (st ++ [s]).
Proof. intros H H1 H2. apply Forall_app. split; [assumption|]. constructor; auto. Qed.
Lemma col_alloc st s c k : (c < List.length st)%nat -> col (st ++ [s]) c k = col st c k.
Proof. intros Hc. unfold col. now rewrite nth_error_app1. Qed.
Lemma col_alloc_new st s k : col (st ++ [s]) (List.length st) k = nth_error (vals s) k.
Proof. unfold col. now rewrite nth_error_app2, Nat.sub_diag by lia. Qed.

Lemma new_surface_ok n cm field s : new_surface n cm field = Ok s ->
  (cm_random cm <> None -> List.length field = n) -> List.length (vals s) = n /\ bounded s.
Proof.
  unfold new_surface. intros E Hf. destruct (cm_z cm) as [z|]; [|discriminate].
  destruct (pystr_eqb (cm_mode cm) _).
  - destruct (cm_random cm) as [r|]; [|discriminate].
    apply bind_Ok in E as (mx & Hmx & E). apply bind_Ok in E as (mn & Hmn & [= <-]).
    cbn [vals]. rewrite map_length. split; [now apply Hf|].
    apply list_max_spec in Hmx as [_ Hmx]. apply list_min_spec in Hmn as [_ Hmn].
    unfold bounded. cbn [vals zmin zmax]. rewrite Forall_forall in *. auto.
  - destruct (pystr_eqb (cm_mode cm) _); [|discriminate]. injection E as <-. cbn [vals].
    split; [apply repeat_length|]. unfold bounded. cbn [vals zmin zmax].
    apply Forall_forall. intros x Hx. apply repeat_spec in Hx. subst. lra.
Qed.

(** *** Surfaces that do not change *)
(** Same elevations and mean, bounds possibly tightened. *)
Definition same (st st' : store R) (a : nat) : Prop :=
  exists s s', nth_error st a = Some s /\ nth_error st' a = Some s' /\ vals s' = vals s /\ zmean s' = zmean s.
Definition keeps (st st' : store R) : Prop := forall a, (a < List.length st)%nat -> same st st' a.

Lemma same_refl st a : (a < List.length st)%nat -> same st st a.
Proof.
  intros Ha. destruct (nth_error st a) as [s|] eqn:E; [|apply nth_error_None in E; lia]. exists s, s. auto.
Qed.
Lemma same_trans st st' st'' a : same st st' a -> same st' st'' a -> same st st'' a.
Proof.
  intros (s & s' & E1 & E2 & V1 & M1) (t & t' & F1 & F2 & V2 & M2).
  rewrite F1 in E2. injection E2 as ->. exists s, t'. repeat split; congruence.
Qed.
Lemma keeps_refl st : keeps st st.
Proof. intros a. apply same_refl. Qed.
Lemma same_lt st st' a : same st st' a -> (a < List.length st')%nat.
Proof. intros (s & s' & _ & E & _). eapply nth_error_lt; eauto. Qed.
Lemma keeps_length st st' : keeps st st' -> (List.length st <= List.length st')%nat.
Proof.
  intros H. destruct (Nat.eq_dec (List.length st) 0); [lia|].
  specialize (H (List.length st - 1)%nat ltac:(lia)). apply same_lt in H. lia.
Qed.
Lemma keeps_trans st st' st'' : keeps st st' -> keeps st' st'' -> keeps st st''.
Proof.
  intros H1 H2 a Ha. eapply same_trans; [apply H1; assumption|]. apply H2.
  apply keeps_length in H1. lia.
Qed.
Lemma same_col st st' a k : same st st' a -> col st' a k = col st a k.
Proof. intros (s & s' & E1 & E2 & V & _). unfold col. now rewrite E1, E2, V. Qed.
Lemma keeps_alloc st s : keeps st (st ++ [s]).
Proof.
  intros a Ha. destruct (nth_error st a) as [x|] eqn:E; [|apply nth_error_None in E; lia].
  exists x, x. rewrite nth_error_app1 by assumption. auto.
Qed.
Lemma below_same st st' a b : same st st' a -> same st st' b -> below st a b -> below st' a b.
Proof. intros Ha Hb H k x y. rewrite (same_col _ _ _ _ Ha), (same_col _ _ _ _ Hb). apply H. Qed.
Lemma below_refl st a : below st a a.
Proof. intros k x y Hx Hy. rewrite Hx in Hy. injection Hy as ->. lra. Qed.
Lemma below_trans n st a b c : wf n st -> (b < List.length st)%nat -> below st a b -> below st b c -> below st a c.
Proof.
  intros Hw Hb H1 H2 k x z Hx Hz. destruct (col_some n st b k Hw Hb) as (y & Hy); [eapply col_lt; eauto|].
  pose proof (H1 _ _ _ Hx Hy). pose proof (H2 _ _ _ Hy Hz). lra.
Qed.

Lemma zip_min_same (l m : list R) : List.length l = List.length m ->
  (forall k x y, nth_error l k = Some x -> nth_error m k = Some y -> x <= y) -> zip_with Rmin l m = l.
Proof.
  revert m; induction l as [|x l IH]; intros [|y m] L Hle; simpl in *; auto; try discriminate.
  rewrite IH; [|congruence|intros k; apply (Hle (S k))]. f_equal. apply Rmin_left. now apply (Hle 0%nat).
Qed.
Lemma zip_max_same (l m : list R) : List.length l = List.length m ->
  (forall k x y, nth_error l k = Some x -> nth_error m k = Some y -> y <= x) -> zip_with Rmax l m = l.
Proof.
  revert m; induction l as [|x l IH]; intros [|y m] L Hle; simpl in *; auto; try discriminate.
  rewrite IH; [|congruence|intros k; apply (Hle (S k))]. f_equal. apply Rmax_left. now apply (Hle 0%nat).
Qed.

Lemma same_upd st a s x c : nth_error st a = Some x -> (c < List.length st)%nat ->
  (c = a -> vals s = vals x /\ zmean s = zmean x) -> same st (upd st a s) c.
Proof.
  intros Ha Hc H. destruct (Nat.eq_dec a c) as [->|Hn].
  - destruct (H eq_refl). exists x, s. rewrite nth_error_upd_same by assumption. auto.
  - destruct (nth_error st c) as [y|] eqn:E; [|apply nth_error_None in E; lia].
    exists y, y. rewrite nth_error_upd_other by assumption. auto.
Qed.
Lemma use_lower_keeps n st a b st' : wf n st -> use_lower st a b = Ok st' -> below st a b -> keeps st st'.
Proof.
  intros H E Hb c Hc. apply use_lower_inv in E as (sa & sb & v & mn & Ha & Hb' & -> & Hm & ->).
  destruct (wf_nth _ _ _ _ H Ha) as [La _]. destruct (wf_nth _ _ _ _ H Hb') as [Lb _].
  apply (same_upd _ _ _ _ _ Ha Hc). intros ->. cbn [vals zmean]. split; [|reflexivity].
  apply zip_min_same; [congruence|]. intros k x y Hx Hy. apply (Hb k); unfold col; [now rewrite Ha|now rewrite Hb'].
Qed.
Lemma use_higher_keeps n st a b st' : wf n st -> use_higher st a b = Ok st' -> below st b a -> keeps st st'.
Proof.
  intros H E Hb c Hc. apply use_higher_inv in E as (sa & sb & v & mn & Ha & Hb' & -> & Hm & ->).
  destruct (wf_nth _ _ _ _ H Ha) as [La _]. destruct (wf_nth _ _ _ _ H Hb') as [Lb _].
  apply (same_upd _ _ _ _ _ Ha Hc). intros ->. cbn [vals zmean]. split; [|reflexivity].
  apply zip_max_same; [congruence|]. intros k x y Hx Hy. apply (Hb k); unfold col; [now rewrite Hb'|now rewrite Ha].
Qed.
Lemma use_lower_others st a b st' c : use_lower st a b = Ok st' -> (c < List.length st)%nat -> c <> a -> same st st' c.
Proof.
  intros E Hc Hn. apply use_lower_inv in E as (sa & sb & v & mn & Ha & _ & _ & _ & ->).
  apply (same_upd _ _ _ _ _ Ha Hc). congruence.
Qed.
Lemma use_higher_others st a b st' c : use_higher st a b = Ok st' -> (c < List.length st)%nat -> c <> a -> same st st' c.
Proof.
  intros E Hc Hn. apply use_higher_inv in E as (sa & sb & v & mn & Ha & _ & _ & _ & ->).
  apply (same_upd _ _ _ _ _ Ha Hc). congruence.
Qed.
End Order.
