(** Proofs about the choice of element types and their thickness. *)
From Coq Require Import List ZArith Bool Ascii String Reals Lia Lra.
From Verif Require Import Base Num ParseModel ConfigModel ConfigSpec ConfigProofs ConfigProofs2 DeprecatedModel DeprecatedSpec DeprecatedProofs SurfaceModel SurfaceSpec SurfaceProofs
  StrataModel StrataProofs StrataProofs2 StrataProofs3 BuildProofs AssignModel FaciesModel TroughModel SheetModel ChannelModel FullModel FullSpec FullProofs FullProofs2 LinkModel LinkSpec LinkProofs SizeSpec ChoiceModel ChoiceSpec.
Import ListNotations.
Local Open Scope string_scope.
Local Open Scope R_scope.

(** ** The choice *)
Lemma search_spec u : forall p acc, acc <= u < acc + fold_right Rplus 0 p ->
  let i := search_right acc p u in
  (i < List.length p)%nat /\ acc + sum_first p i <= u < acc + sum_first p (S i).
Proof.
  induction p as [|x p IH]; intros acc K; cbn [fold_right] in K; [lra|]. cbn [search_right]. rewrite nleb_R. numR.
  destruct (Rleb_spec (acc + x) u) as [L|L]; cbn [negb].
  - destruct (IH (acc + x)) as [I1 I2]; [lra|]. cbv zeta in *. split; [cbn [List.length]; lia|].
    unfold sum_first in *. cbn [firstn fold_right] in *. lra.
  - split; [cbn [List.length]; lia|]. unfold sum_first. cbn [firstn fold_right]. lra.
Qed.
Lemma total_fold (l : list R) : total l = fold_right Rplus 0 l.
Proof. reflexivity. Qed.
Lemma sum_scaled s : forall l : list R, fold_right Rplus 0 (map (fun x => x / s) l) = fold_right Rplus 0 l / s.
Proof. induction l as [|x l IH]; cbn; [lra|]. rewrite IH. lra. Qed.
Lemma sum_first_scaled s l i : sum_first (map (fun x => x / s) l) i = sum_first l i / s.
Proof. unfold sum_first. rewrite firstn_map. apply sum_scaled. Qed.
Lemma sum_first_all l : sum_first l (List.length l) = fold_right Rplus 0 l.
Proof. unfold sum_first. now rewrite firstn_all. Qed.

Lemma neqb_R (x y : R) : neqb x y = true <-> x = y.
Proof. unfold neqb. rewrite !nleb_R, andb_true_iff, !Rleb_true. split; [lra|]. intros ->. lra. Qed.

(** When the choice succeeds. *)
Definition choosable (n : nat) (probs : list R) : Prop :=
  (0 < n)%nat /\ List.length probs = n /\ sum_first probs n <> 0 /\ Forall (fun p => 0 <= p / sum_first probs n) probs.
Lemma prob_choose_cases n probs u : 
  (choosable n probs /\ prob_choose n probs u = Ok (search_right 0 (map (fun x => x / sum_first probs n) probs) u)) \/
  (~ choosable n probs /\ prob_choose n probs u = Err ValueError).
Proof.
  unfold prob_choose. cbv zeta. rewrite total_fold, <- sum_first_all. destruct (neqb _ _) eqn:E0.
  { apply neqb_R in E0. right. split; [|reflexivity]. intros (_ & L & H & _). subst n. apply H. exact E0. }
  assert (E1 : sum_first probs (List.length probs) <> 0) by (intros K; apply neqb_R in K; numR; revert E0 K; numR; congruence).
  rewrite map_length.
  destruct (Nat.eqb_spec n 0) as [->|Hn]; [right; split; [intros (K & _); lia|reflexivity]|].
  destruct (Nat.eqb_spec (List.length probs) n) as [L|L]; cbn [orb negb]; [|right; split; [intros (_ & K & _); lia|reflexivity]].
  subst n. set (s := sum_first probs (List.length probs)) in *.
  destruct (existsb _ _) eqn:E2.
  - right. split; [|reflexivity]. intros (_ & _ & _ & K). apply existsb_exists in E2 as (y & Hy & Hlt). apply in_map_iff in Hy as (x & <- & Hx).
    rewrite Forall_forall in K. specialize (K x Hx). fold s in K. rewrite nleb_R in Hlt. revert Hlt. numR. destruct (Rleb_spec 0 (x / s)); [discriminate|lra].
  - left. split; [|reflexivity]. split; [lia|]. split; [reflexivity|]. split; [assumption|]. apply Forall_forall. intros x Hx. fold s.
    destruct (Rle_lt_dec 0 (x / s)) as [K|K]; [assumption|]. exfalso. assert (K2 : existsb (fun y => (y <? n0)%num) (map (fun x => (x / s)%num) probs) = true).
    { apply existsb_exists. exists (x / s). split; [apply in_map_iff; exists x; auto|]. rewrite nleb_R. numR. destruct (Rleb_spec 0 (x / s)); [lra|reflexivity]. }
    congruence.
Qed.
Lemma prob_choose_falls n probs u i : 0 <= u < 1 -> prob_choose n probs u = Ok i -> List.length probs = n /\ falls_into probs u i.
Proof.
  intros Hu E. destruct (prob_choose_cases n probs u) as [((Hn & Hl & Hs & _) & E')|(_ & E')]; rewrite E in E'; [|discriminate].
  split; [assumption|]. injection E' as ->. subst n. set (s := sum_first probs (List.length probs)) in *.
  destruct (search_spec u (map (fun x => x / s) probs) 0) as [I1 I2].
  { rewrite sum_scaled, <- sum_first_all. fold s. unfold Rdiv. rewrite Rinv_r by assumption. lra. }
  rewrite map_length in I1. split; [assumption|]. fold s. rewrite !sum_first_scaled in I2. lra.
Qed.
Lemma sum_first_S l i x : nth_error l i = Some x -> sum_first l (S i) = sum_first l i + x.
Proof.
  revert i. induction l as [|y l IH]; intros [|i]; cbn; try discriminate.
  - intros [= ->]. unfold sum_first. cbn. lra.
  - intros K. apply IH in K. unfold sum_first in *. cbn [firstn fold_right]. cbn [firstn fold_right] in K. rewrite K. lra.
Qed.
Lemma sum_first_mono l : Forall (fun x => 0 <= x) l -> forall i j, (i <= j)%nat -> sum_first l i <= sum_first l j.
Proof.
  intros Hl i j Hij. induction Hij as [|j Hij IH]; [lra|]. destruct (nth_error l j) as [x|] eqn:E.
  - rewrite (sum_first_S _ _ _ E). rewrite Forall_forall in Hl. specialize (Hl x (nth_error_In _ _ E)). lra.
  - apply nth_error_None in E. unfold sum_first in *. replace (firstn (S j) l) with (firstn j l); [assumption|]. rewrite !firstn_all2 by lia. reflexivity.
Qed.

(** ** The rounds *)
Lemma index_of_first names : forall n i, index_of names n = Ok i -> nth_error names i = Some n /\ forall k, (k < i)%nat -> nth_error names k <> Some n.
Proof.
  induction names as [|m names IH]; intros n i; cbn [index_of]; [discriminate|].
  destruct (pystr_eqb m n) eqn:E.
  - intros [= <-]. apply pystr_eqb_eq in E. subst m. split; [reflexivity|]. intros; lia.
  - intros K. apply bind_Ok in K as (j & Hj & K). injection K as <-. apply IH in Hj as [J1 J2]. split; [exact J1|].
    intros [|k] Hk; cbn; [|apply J2; lia]. intros [= ->]. rewrite (proj2 (pystr_eqb_eq n n) eq_refl) in E. discriminate.
Qed.

Lemma pyget_nat {A} (l : list A) i x : pyget l (Z.of_nat i) = Ok x -> nth_error l i = Some x.
Proof.
  unfold pyget, pyidx. destruct (Z.leb_spec 0 (Z.of_nat i)); [|lia]. cbn [andb]. destruct (Z.ltb_spec (Z.of_nat i) (Z.of_nat (List.length l))).
  - rewrite Nat2Z.id. destruct (nth_error l i); intros K; [congruence|discriminate K].
  - destruct (Z.ltb_spec (Z.of_nat i) 0); [lia|]. rewrite andb_false_r. intros K. discriminate K.
Qed.
Lemma draw_round_inv so pr curr r d : 0 <= rw_next r < 1 -> draw_round so pr curr r = Ok d ->
  fd_u d = rw_u r /\ fd_field d = rw_field r /\ falls_into (so_probs so) (rw_next r) (fd_next d) /\ List.length (so_probs so) = List.length (so_names so) /\
  exists h, thickness (so_names so) (so_means so) pr (fst (so_avul so)) (snd (so_avul so)) curr r h /\
    forall z, next_depth pr z (base_draw d []) = z - h.
Proof.
  intros Hu E. unfold draw_round in E. apply bind_Ok in E as (n & Hn & E). apply bind_Ok in E as (j & Hj & E). apply bind_Ok in E as (m & Hm & E).
  apply bind_Ok in E as (height & Hh & E). apply bind_Ok in E as (next & Hx & E). injection E as <-. cbn [fd_u fd_field fd_next].
  apply prob_choose_falls in Hx as [L Hx]; [|assumption]. do 2 (split; [reflexivity|]). split; [assumption|]. split; [assumption|].
  unfold choose in Hn. destruct (nth_error (so_names so) curr) as [n'|] eqn:En; [|discriminate]. injection Hn as ->.
  apply index_of_first in Hj as [J1 J2]. apply pyget_nat in Hm.
  unfold normal in Hh. destruct (Rltb (m * (1 / 10)) 0) eqn:El; [discriminate|]. injection Hh as <-.
  apply TroughProofs.Rltb_false in El.
  destruct (Rle_lt_dec (rw_u r) pr) as [K|K].
  - exists (m + m / 10 * rw_normal r - (fst (so_avul so) + (snd (so_avul so) - fst (so_avul so)) * rw_avul r)). split.
    + exists n, j, m. do 4 (split; [assumption|]). split; [lra|]. left. auto.
    + intros z. unfold next_depth. cbn [base_draw d_height d_u d_avul fd_height fd_u fd_avul]. rewrite nleb_R.
      destruct (Rleb_spec (rw_u r) pr); numR; lra.
  - exists (m + m / 10 * rw_normal r). split.
    + exists n, j, m. do 4 (split; [assumption|]). split; [lra|]. right. auto.
    + intros z. unfold next_depth. cbn [base_draw d_height d_u d_avul fd_height fd_u fd_avul]. rewrite nleb_R.
      destruct (Rleb_spec (rw_u r) pr); numR; lra.
Qed.

Section Stack.
Context {F : Type} (fin : F -> option R).

Lemma surface_at_made (cm : contact F) (cmR : contact R) n z field s : link_contact fin cm = Ok cmR -> new_surface n (set_z cmR z) field = Ok s ->
  forall k u, nth_error (vals s) k = Some u -> surface_at cm z field k u.
Proof.
  intros C2 Hn k u Hu. unfold link_contact in C2. apply bind_Ok in C2 as (z' & Z1 & C2). apply bind_Ok in C2 as (rd & R1 & C2). apply Ok_inj' in C2. subst cmR.
  unfold new_surface, set_z in Hn. cbn [cm_z cm_mode cm_random] in Hn.
  destruct (pystr_eqb (cm_mode cm) (S_ "random")) eqn:E1.
  - right. split; [now apply pystr_eqb_eq|]. destruct rd as [rd|]; [|discriminate]. apply bind_Ok in Hn as (mx & _ & Hn). apply bind_Ok in Hn as (mn & _ & Hn). apply Ok_inj' in Hn. subst s.
    cbn [vals] in Hu. rewrite nth_error_map in Hu. destruct (nth_error field k) as [x|]; [|discriminate]. cbn in Hu. injection Hu as <-. exists x. split; [reflexivity|]. numR. ring.
  - left. destruct (pystr_eqb (cm_mode cm) (S_ "flat")) eqn:E2; [|discriminate]. split; [now apply pystr_eqb_eq|]. apply Ok_inj' in Hn. subst s. cbn [vals] in Hu. now apply nth_error_In, repeat_spec in Hu.
Qed.

(** The types of a stratum and the sections they come from. *)
Definition types_from (cf : config F) (names : list pystr) (types : list full_type) : Prop :=
  Forall2 (fun n ft => exists sec cm, In (n, (sec, cm)) (cf_elements cf) /\ link_contact fin cm = Ok (ft_contact ft)) names types.

Lemma stack_keeps (cf : config F) names probs means pr a0 a1 st st' bot zb : keeps st st' -> (bot < List.length st)%nat -> forall aes rounds u top z,
  (top < List.length st)%nat -> Forall (fun e => (ae_bottom e < List.length st)%nat) aes ->
  stack cf names probs means pr a0 a1 st bot zb rounds u top z aes -> stack cf names probs means pr a0 a1 st' bot zb rounds u top z aes.
Proof.
  intros K Hb. induction aes as [|e aes IH]; intros rounds u top z Ht Ha; cbn [stack]; [auto|].
  inversion Ha as [|? ? Ha1 Ha2]; subst. intros (H1 & H2 & H3 & r & rs & h & H4 & H5 & H6 & H7). do 3 (split; [assumption|]). exists r, rs, h.
  do 2 (split; [assumption|]). split; [|apply IH; assumption].
  destruct H6 as [H6|(H6 & next & n & sec & cm & H8 & H9 & H10 & H11)]; [left; exact H6|right]. split; [assumption|]. exists next, n, sec, cm. do 3 (split; [assumption|]).
  intros k v Hv. rewrite (same_col _ _ _ k (K _ Ha1)) in Hv. destruct (H11 _ _ Hv) as (x & t & b & X1 & X2 & X3 & X4). exists x, t, b.
  rewrite (same_col _ _ _ k (K _ Ht)), (same_col _ _ _ k (K _ Hb)). auto.
Qed.

Lemma stack_made (cf : config F) g fuel fp so bot : types_from cf (so_names so) (fp_types fp) -> forall raws st top curr u znow lo hi aes st' lo' hi' aes' sbot,
  wf (columns g) st -> (bot < List.length st)%nat -> (top < List.length st)%nat -> below st bot top -> nth_error st bot = Some sbot ->
  Forall (fun d => List.length (rw_field d) = columns g /\ 0 <= rw_next d < 1) raws ->
  falls_into (so_probs so) u curr ->
  full_stratum_loop g fuel fp bot (draw_rounds so (fp_avul_prob fp) curr raws) st top curr znow lo hi aes = Ok (st', (lo', hi', aes')) ->
  keeps st st' /\ exists new, aes' = (aes ++ new)%list /\ Forall (fun eo => (ae_bottom (fst eo) < List.length st')%nat) new /\
    stack cf (so_names so) (so_probs so) (so_means so) (fp_avul_prob fp) (fst (so_avul so)) (snd (so_avul so)) st' bot (zmean sbot) raws u top znow (map fst new).
Proof.
  intros HT. induction raws as [|r raws IH]; intros st top curr u znow lo hi aes st' lo' hi' aes' sbot Hw Hb Ht Hbt Hsb Hf Hu E.
  - cbn [draw_rounds full_stratum_loop] in E. apply bind_Ok in E as (sb & Hs & E). apply getS_Ok in Hs. rewrite Hsb in Hs. injection Hs as <-.
    destruct (Rleb_spec znow (zmean sbot)); [|discriminate]. injection E as <- <- <- <-. split; [apply keeps_refl|]. exists []. rewrite app_nil_r.
    split; [reflexivity|]. split; [constructor|]. exact H.
  - inversion Hf as [|? ? (Hf1 & Hf2) Hfr]; subst.
    assert (Hcut : forall draws, full_stratum_loop g fuel fp bot draws st top curr znow lo hi aes = Ok (st', (lo', hi', aes')) -> znow <= zmean sbot \/
      zmean sbot < znow /\ exists d draws', draws = d :: draws').
    { intros draws K. destruct (Rle_lt_dec znow (zmean sbot)) as [L|L]; [now left|right]. split; [assumption|]. destruct draws as [|d ds]; [|eauto].
      cbn [full_stratum_loop] in K. apply bind_Ok in K as (sb & Hs & K). apply getS_Ok in Hs. rewrite Hsb in Hs. injection Hs as <-.
      destruct (Rleb_spec znow (zmean sbot)); [lra|discriminate]. }
    destruct (Hcut _ E) as [L|(L & d & ds & Ed)].
    { assert (E' : (st', (lo', hi', aes')) = (st, (lo, hi, aes))).
      { destruct (draw_rounds so (fp_avul_prob fp) curr (r :: raws)); cbn [full_stratum_loop] in E; apply bind_Ok in E as (sb & Hs & E); apply getS_Ok in Hs; rewrite Hsb in Hs; injection Hs as <-;
          (destruct (Rleb_spec znow (zmean sbot)); [|lra]); injection E as <- <- <- <-; reflexivity. }
      injection E' as -> -> -> ->. split; [apply keeps_refl|]. exists []. rewrite app_nil_r. split; [reflexivity|]. split; [constructor|]. exact L. }
    cbn [draw_rounds] in Ed. destruct (draw_round so (fp_avul_prob fp) curr r) as [d'|] eqn:Er; [|discriminate]. injection Ed as -> <-.
    cbn [draw_rounds] in E. rewrite Er in E. cbn [full_stratum_loop] in E.
    destruct (draw_round_inv _ _ _ _ _ Hf2 Er) as (D1 & D2 & D3 & D4 & h & D5 & D6).
    apply bind_Ok in E as (sb & Hs & E). apply getS_Ok in Hs. assert (sb = sbot) by congruence. subst sb.
    destruct (Rleb_spec znow (zmean sbot)); [lra|].
    apply bind_Ok in E as (ty & Hty & E). apply bind_Ok in E as (next & Hnx & E).
    apply bind_Ok in E as (((z2 & st1) & ab) & Hab & E).
    apply bind_Ok in E as (st2 & H2 & E). apply bind_Ok in E as (st3 & H3 & E).
    apply bind_Ok in E as ((st4 & (e & o)) & He & E). cbn [fst snd] in E.
    assert (Hfd : field_ok (columns g) (base_draw d [])) by (unfold field_ok; cbn [base_draw d_field]; congruence).
    assert (Hab' : (let z1 := next_depth (sp_avul_prob (base_params fp)) znow (base_draw d []) in
       if (z1 <=? zmean sbot)%num then Ok (zmean sbot, st, bot)
       else let* s := new_surface (columns g) (set_z (t_contact (base_type next)) z1) (d_field (base_draw d [])) in
            let (st, b) := alloc st s in Ok (z1, st, b)) = Ok (z2, st1, ab)) by (cbv zeta; rewrite nleb_R; exact Hab).
    destruct (stratum_step g (base_params fp) bot st top znow (base_draw d []) (base_type next) z2 st1 ab sbot st2 st3 Hw Hb Ht Hbt Hfd Hs Hab' H2 H3)
      as (W3 & K3 & Lab & B3t & B3b).
    rewrite D6 in Hab. clear Hab'.
    (* the surface below *)
    assert (G : (znow - h <= zmean sbot /\ ab = bot /\ z2 = Rmax (znow - h) (zmean sbot)) \/
      (zmean sbot < znow - h /\ z2 = Rmax (znow - h) (zmean sbot) /\ exists n sec cm, nth_error (so_names so) (fd_next d) = Some n /\ In (n, (sec, cm)) (cf_elements cf) /\
         forall k v, col st3 ab k = Some v -> exists x t b, surface_at cm (znow - h) (rw_field r) k x /\ col st3 top k = Some t /\ col st3 bot k = Some b /\ v = Rmax (Rmin x t) b)).
    { destruct (Rleb_spec (znow - h) (zmean sbot)) as [Hz|Hz].
      - left. injection Hab as <- <- <-. rewrite Rmax_right by assumption. auto.
      - right. rewrite Rmax_left by lra. apply bind_Ok in Hab as (s & Hns & Hab). cbn [alloc] in Hab. injection Hab as <- <- <-. split; [assumption|]. split; [reflexivity|].
        apply choose_nth in Hnx. destruct (Forall2_nth_r _ _ _ HT _ _ Hnx) as (n & Hn & sec & cm & Hin & Hcm). exists n, sec, cm. do 2 (split; [assumption|]).
        rewrite D2 in Hns. pose proof (surface_at_made cm _ _ _ _ _ Hcm Hns) as Hsurf.
        assert (LB : List.length (vals s) = columns g /\ bounded s) by (apply new_surface_ok in Hns; [exact Hns|intros _; exact Hf1]). destruct LB as [Ls Bs].
        set (st1 := (st ++ [s])%list) in *. assert (W1 : wf (columns g) st1) by (apply wf_alloc; assumption).
        assert (L1 : List.length st1 = S (List.length st)) by (unfold st1; rewrite app_length; simpl; lia).
        assert (W2 : wf (columns g) st2) by (eapply use_lower_wf; eauto).
        destruct (use_lower_col _ _ _ _ H2) as (C2 & E2 & L2). destruct (use_higher_col _ _ _ _ H3) as (C3 & E3 & L3).
        intros k v Hv.
        destruct (col_like _ st1 st3 (List.length st) _ _ _ W1 W3 ltac:(lia) Hv) as (x & Hx).
        destruct (col_like _ st1 st3 top _ _ _ W1 W3 ltac:(lia) Hv) as (y & Hy).
        destruct (col_like _ st1 st3 bot _ _ _ W1 W3 ltac:(lia) Hv) as (z & Hzz).
        assert (Hx' := Hx). unfold st1, col in Hx'. rewrite nth_error_app2, Nat.sub_diag in Hx' by lia. cbn in Hx'.
        exists x, y, z. split; [apply Hsurf; exact Hx'|].
        assert (Hz2 : col st2 bot k = Some z) by (rewrite C2; [assumption|lia]).
        assert (Hy2 : col st2 top k = Some y) by (rewrite C2; [assumption|lia]).
        split; [rewrite C3; [assumption|lia]|]. split; [rewrite C3; [assumption|lia]|].
        assert (Hx2 := E2 _ _ _ Hx Hy). rewrite (E3 _ _ _ Hx2 Hz2) in Hv. congruence. }
    pose proof (keeps_length _ _ K3).
    apply full_ae_inv in He as (sb & sp & _ & _ & o0 & _ & He & _).
    destruct (new_ae_kind _ _ _ _ _ _ _ _ _ _ _ He) as (Ek & Eb & Et). subst curr.
    apply (new_ae_spec g) in He; try assumption; try lia.
    destruct He as (W4 & K4 & _ & _ & Hok & _). pose proof (keeps_length _ _ K4).
    destruct (keeps_nth st st4 bot sbot (keeps_trans _ _ _ K3 K4) Hs) as (sbot' & Hs' & Hzm & _).
    apply (IH _ _ _ (rw_next r) _ _ _ _ _ _ _ _ sbot') in E; try assumption; try lia; [|apply (keeps_below st3); try assumption; lia].
    destruct E as (K5 & new & -> & HL & HS). split; [eapply keeps_trans; [exact K3|]; eapply keeps_trans; eassumption|].
    assert (K35 : keeps st3 st') by (eapply keeps_trans; eassumption). pose proof (keeps_length _ _ K35).
    exists ((e, o) :: new). rewrite <- app_assoc. split; [reflexivity|]. split; [constructor; [cbn [fst]; lia|assumption]|].
    cbn [map fst stack]. rewrite Hzm in HS. split; [assumption|]. split; [assumption|]. split; [assumption|]. exists r, raws, h. split; [reflexivity|]. split; [assumption|].
    rewrite Eb. destruct G as [(G1 & G2 & G3)|(G1 & G3 & n & sec & cm & G4 & G5 & G6)]; (split; [|rewrite <- G3; exact HS]).
    + left. auto.
    + right. split; [assumption|]. exists (fd_next d), n, sec, cm. do 3 (split; [assumption|]). intros k v Hv.
      rewrite (same_col _ _ _ k (K35 _ Lab)) in Hv. destruct (G6 _ _ Hv) as (x & t & b & X1 & X2 & X3 & X4). exists x, t, b.
      rewrite (same_col _ _ _ k (K35 top ltac:(lia))), (same_col _ _ _ k (K35 bot ltac:(lia))). auto.
Qed.
End Stack.
