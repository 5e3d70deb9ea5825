(** Positions of troughs. *)
From Coq Require Import List ZArith Bool Lia Reals Lra Sorting.Sorted.
From Verif Require Import Base Num SurfaceModel AssignModel TroughModel TroughSpec.
Import ListNotations.
Local Open Scope R_scope.

Lemma planes_ok top lower agg : 0 < agg -> exists zs, arange top lower (0 - agg) = Ok zs /\ plane_heights top lower agg zs.
Proof.
  intros Ha. unfold arange. numR.
  destruct (Rleb_spec (0 - agg) 0); [|lra]. destruct (Rleb_spec 0 (0 - agg)); [lra|]. cbn [andb].
  eexists. split; [reflexivity|].
  set (q := (lower - top) / (0 - agg)). intros i z.
  assert (Eq : q * agg = top - lower) by (unfold q; field; lra).
  pose proof (nceil_R_spec q) as Hc.
  rewrite nth_error_map.
  destruct (Nat.lt_ge_cases i (Z.to_nat (nceil q))) as [Hi|Hi].
  - assert (E : nth_error (seq 0 (Z.to_nat (nceil q))) i = Some i).
    { rewrite nth_error_nth' with (d := 0%nat) by (rewrite seq_length; assumption). now rewrite seq_nth. }
    rewrite E. cbn [option_map]. rewrite <- INR_IZR_INZ.
    assert (Hiq : INR i < q).
    { assert (IZR (Z.of_nat i) <= IZR (nceil q) - 1) by (rewrite <- minus_IZR; apply IZR_le; lia).
      rewrite INR_IZR_INZ. lra. }
    assert (lower < top - INR i * agg) by nra.
    split.
    + intros [= <-]. split; [ring|]. lra.
    + intros [-> _]. f_equal. ring.
  - assert (E : nth_error (seq 0 (Z.to_nat (nceil q))) i = None) by (apply nth_error_None; rewrite seq_length; lia).
    rewrite E. cbn. split; [discriminate|]. intros [-> Hlt]. exfalso.
    assert (q <= INR i).
    { assert (IZR (nceil q) <= IZR (Z.of_nat i)) by (apply IZR_le; lia). rewrite INR_IZR_INZ. lra. }
    nra.
Qed.

Definition random_plane (g : grid R) (z : R) (d : plane_draw R) : list (position R) :=
  map (fun u => (uniform (g_x0 g) (g_x0 g + g_lx g)%num (fst u), uniform (g_y0 g) (g_y0 g + g_ly g)%num (snd u), z)) (pd_uniform d).

Fixpoint random_planes g zs ds : list (list (position R)) :=
  match zs, ds with
  | z :: zs, d :: ds => random_plane g z d :: random_planes g zs ds
  | _, _ => []
  end.

Lemma plane_loop_random g zs ds i total te :
  (length zs <= length ds)%nat ->
  plane_loop g false zs ds i total te = Ok (te ++ List.concat (random_planes g zs ds)).
Proof.
  revert ds i total te. induction zs as [|z zs IH]; intros ds i total te Hl; cbn [plane_loop random_planes].
  - cbn. now rewrite app_nil_r.
  - destruct ds as [|d ds]; [cbn in Hl; lia|]. rewrite orb_true_r.
    fold (random_plane g z d). rewrite IH by (cbn in Hl; lia). cbn. now rewrite app_assoc.
Qed.
Lemma random_planes_nth g zs ds i pl : nth_error (random_planes g zs ds) i = Some pl ->
  exists z d, nth_error zs i = Some z /\ nth_error ds i = Some d /\ pl = random_plane g z d.
Proof.
  revert ds i. induction zs as [|z zs IH]; intros ds i; cbn; [destruct i; discriminate|].
  destruct ds as [|d ds]; [destruct i; discriminate|]. destruct i; cbn.
  - intros [= <-]. eauto 6.
  - apply IH.
Qed.
Lemma random_planes_length g zs ds : (length zs <= length ds)%nat -> length (random_planes g zs ds) = length zs.
Proof.
  revert ds. induction zs as [|z zs IH]; intros ds H; cbn; [reflexivity|].
  destruct ds as [|d ds]; cbn in *; [lia|]. rewrite IH; lia.
Qed.
Lemma random_plane_domain g z d :
  0 < g_lx g -> 0 < g_ly g -> Forall (fun u => 0 <= fst u < 1 /\ 0 <= snd u < 1) (pd_uniform d) ->
  Forall (in_domain (g_x0 g) (g_lx g) (g_y0 g) (g_ly g) z) (random_plane g z d).
Proof.
  intros Hx Hy H. unfold random_plane. apply Forall_map. eapply Forall_impl; [|exact H].
  intros [u v]. cbn. unfold in_domain, uniform. cbn. intros [H1 H2].
  replace (g_x0 g + g_lx g - g_x0 g) with (g_lx g) by ring. replace (g_y0 g + g_ly g - g_y0 g) with (g_ly g) by ring.
  repeat split; nra.
Qed.

(** Migration. *)
Fixpoint moved (z : R) (dsp : nat -> R * R) (k : nat) (prev : list (position R)) : list (position R) :=
  match prev with
  | [] => []
  | (x, y, _) :: r => (x + fst (dsp k), y + snd (dsp k), z) :: moved z dsp (S k) r
  end.
Lemma moved_length z dsp k prev : length (moved z dsp k prev) = length prev.
Proof. revert k. induction prev as [|[[x y] w] r IH]; intros k; cbn; [reflexivity|]. now rewrite IH. Qed.
Lemma moved_nth z dsp k prev j p : nth_error prev j = Some p ->
  nth_error (moved z dsp k prev) j = Some (fst (fst p) + fst (dsp (k + j)%nat), snd (fst p) + snd (dsp (k + j)%nat), z).
Proof.
  revert k j. induction prev as [|[[x y] w] r IH]; intros k j; [destruct j; discriminate|]. destruct j; cbn.
  - intros [= <-]. cbn. now rewrite Nat.add_0_r.
  - intros Hj. rewrite (IH (S k) j Hj). now rewrite Nat.add_succ_r.
Qed.
Lemma moved_z z dsp k prev : Forall (fun p => snd p = z) (moved z dsp k prev).
Proof. revert k. induction prev as [|[[x y] w] r IH]; intros k; cbn; constructor; auto. Qed.

Lemma migrate_plane_eq i z dsp pre prev total n k acc :
  (1 <= i)%nat -> length pre = ((i - 1) * total)%nat -> (k + n = total)%nat ->
  length prev = n -> forall front, length front = k ->
  migrate_plane i total z dsp n k (pre ++ front ++ prev ++ acc) = Ok (pre ++ front ++ prev ++ acc ++ moved z dsp k prev).
Proof.
  intros Hi Hpre. revert k prev acc. induction n as [|n IH]; intros k prev acc Hk Hprev front Hfront.
  - destruct prev; [|discriminate]. cbn. now rewrite app_nil_r.
  - destruct prev as [|[[x y] w] r]; [discriminate|]. cbn in Hprev. cbn [migrate_plane].
    assert (E : nth_error (pre ++ front ++ ((x, y, w) :: r) ++ acc) (k + (i - 1) * total) = Some (x, y, w)).
    { rewrite nth_error_app2 by lia. rewrite nth_error_app2 by lia.
      replace (k + (i - 1) * total - length pre - length front)%nat with 0%nat by lia. reflexivity. }
    unfold position in *. rewrite E.
    replace ((pre ++ front ++ ((x, y, w) :: r) ++ acc) ++ [((x + fst (dsp k))%num, (y + snd (dsp k))%num, z)])
      with (pre ++ (front ++ [(x, y, w)]) ++ r ++ (acc ++ [(x + fst (dsp k), y + snd (dsp k), z)]))
      by (rewrite <- !app_assoc; reflexivity).
    rewrite (IH (S k) r _ ltac:(lia) ltac:(lia) (front ++ [(x, y, w)])) by (rewrite app_length; cbn; lia).
    cbn [moved]. rewrite <- !app_assoc. reflexivity.
Qed.

Fixpoint moved_planes (zs : list R) (ds : list (plane_draw R)) (prev : list (position R)) : list (list (position R)) :=
  match zs, ds with
  | z :: zs, d :: ds => let pl := moved z (pd_normal d) 0 prev in pl :: moved_planes zs ds pl
  | _, _ => []
  end.

Lemma plane_loop_moved g zs ds i total pre prev :
  (length zs <= length ds)%nat -> (1 <= i)%nat -> length pre = ((i - 1) * total)%nat -> length prev = total ->
  plane_loop g true zs ds i total (pre ++ prev) = Ok ((pre ++ prev) ++ List.concat (moved_planes zs ds prev)).
Proof.
  revert ds i pre prev. induction zs as [|z zs IH]; intros ds i pre prev Hl Hi Hpre Hprev; cbn [plane_loop moved_planes].
  - cbn. now rewrite app_nil_r.
  - destruct ds as [|d ds]; [cbn in Hl; lia|].
    destruct (Nat.eqb_spec i 0); [lia|]. cbn [orb negb].
    pose proof (migrate_plane_eq i z (pd_normal d) pre prev total total 0 [] Hi Hpre ltac:(lia) Hprev [] eq_refl) as E.
    rewrite !app_nil_r in E. cbn [app] in E. rewrite E. cbn [bind].
    rewrite app_assoc. rewrite IH.
    + cbn. rewrite <- !app_assoc. reflexivity.
    + cbn in Hl. lia.
    + lia.
    + rewrite app_length. rewrite Hpre, Hprev. destruct i; [lia|]. cbn. rewrite Nat.sub_0_r. lia.
    + now rewrite moved_length.
Qed.
Lemma moved_planes_length zs ds prev : (length zs <= length ds)%nat -> length (moved_planes zs ds prev) = length zs.
Proof.
  revert ds prev. induction zs as [|z zs IH]; intros ds prev H; cbn; [reflexivity|].
  destruct ds as [|d ds]; cbn in *; [lia|]. rewrite IH; lia.
Qed.
Lemma moved_planes_nth zs ds prev i pl : nth_error (moved_planes zs ds prev) i = Some pl ->
  exists z d above, nth_error zs i = Some z /\ nth_error ds i = Some d /\
    nth_error (prev :: moved_planes zs ds prev) i = Some above /\ pl = moved z (pd_normal d) 0 above.
Proof.
  revert ds prev i. induction zs as [|z zs IH]; intros ds prev i; cbn; [destruct i; discriminate|].
  destruct ds as [|d ds]; [destruct i; discriminate|]. destruct i; cbn.
  - intros [= <-]. eauto 8.
  - intros H. apply IH in H. exact H.
Qed.

(** From top to bottom. *)
Lemma concat_descending (zs : list R) (per : list (list (position R))) :
  Forall2 (fun z pl => Forall (fun p => snd p = z) pl) zs per -> StronglySorted (fun u v => v <= u) zs ->
  StronglySorted (fun p q => snd q <= snd p) (List.concat per).
Proof.
  induction 1 as [|z pl zs per H1 H2 IH]; intros Hs; cbn; [constructor|].
  inversion Hs as [|? ? Hs' Hz]; subst. specialize (IH Hs').
  assert (Hall : Forall (fun q => snd q <= z) (List.concat per)).
  { clear - H2 Hz. induction H2 as [|w pl zs per H1 H2 IH]; cbn; [constructor|].
    inversion Hz; subst. apply Forall_app. split; [|auto]. eapply Forall_impl; [|exact H1]. cbn. intros a ->. assumption. }
  induction H1 as [|p pl Hp H1 IH1]; cbn; [exact IH|]. constructor; [exact IH1|]. apply Forall_app. split.
  - eapply Forall_impl; [|exact H1]. cbn. intros a Ha. rewrite Ha, Hp. lra.
  - rewrite Hp. exact Hall.
Qed.
Lemma heights_sorted top lower agg zs : 0 < agg -> plane_heights top lower agg zs ->
  StronglySorted (fun u v => v <= u) zs /\ Forall (fun z => lower < z <= top) zs.
Proof.
  intros Ha H.
  assert (G : forall i z, nth_error zs i = Some z -> z = top - INR i * agg /\ lower < z) by (intros; now apply H). clear H.
  split.
  - assert (K : forall zs k, (forall i z, nth_error zs i = Some z -> z = top - INR (k + i) * agg /\ lower < z) -> StronglySorted (fun u v => v <= u) zs).
    { clear - Ha. induction zs as [|z zs IH]; intros k G; constructor.
      - apply (IH (S k)). intros i w Hw. destruct (G (S i) w Hw) as [-> ?]. split; [|assumption]. now rewrite Nat.add_succ_r.
      - apply Forall_forall. intros w Hw. apply In_nth_error in Hw as [i Hi].
        destruct (G 0%nat z eq_refl) as [-> _]. destruct (G (S i) w Hi) as [-> _].
        rewrite !plus_INR. pose proof (pos_INR (S i)). cbn [INR] in *. nra. }
    apply (K zs 0%nat). exact G.
  - apply Forall_forall. intros z Hz. apply In_nth_error in Hz as [i Hi]. destruct (G i z Hi) as [-> Hl].
    pose proof (pos_INR i). nra.
Qed.
