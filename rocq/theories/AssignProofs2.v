(** Proofs about the assignment of cells: the resumed search finds what the
    exhaustive search finds; columns do not influence each other. *)
From Coq Require Import List ZArith Reals Sorted Lia Lra Bool.
From Verif Require Import Base Num OrderSpec AssignModel AssignSpec AssignProofs.
Import ListNotations.
Local Open Scope R_scope.

Section Order.
Context {N : Num R} {O : TrueOrder N}.

Lemma first_none {A B} (f : A -> option B) l : forall i,
  first f l i = None <-> (forall a, In a l -> f a = None).
Proof.
  induction l as [|a l IH]; intros i; cbn [first].
  - split; [intros _ a []|reflexivity].
  - destruct (f a) eqn:E.
    + split; [discriminate|]. intros H. specialize (H a (or_introl eq_refl)). congruence.
    + rewrite IH. split.
      * intros H x [<-|Hx]; auto.
      * intros H x Hx. apply H. now right.
Qed.
Lemma first_some {A B} (f : A -> option B) l : forall i k b,
  first f l i = Some (k, b) ->
  (i <= k)%nat /\ (exists a, nth_error l (k - i) = Some a /\ f a = Some b) /\
  (forall n a, (n < k - i)%nat -> nth_error l n = Some a -> f a = None).
Proof.
  induction l as [|a l IH]; intros i k b E; cbn [first] in E; [discriminate|].
  destruct (f a) eqn:Ea.
  - injection E as -> ->. split; [lia|]. rewrite Nat.sub_diag. split; [exists a; auto|]. intros n a' Hn. lia.
  - apply IH in E. destruct E as (H1 & (a' & H2 & H3) & H4). split; [lia|].
    replace (k - i)%nat with (S (k - S i)) by lia. split; [exists a'; auto|].
    intros n x Hn Hx. destruct n as [|n]; cbn in Hx; [congruence|]. apply (H4 n); [lia|assumption].
Qed.
Lemma first_firstn {A B} (f : A -> option B) l k b n :
  first f l 0 = Some (k, b) -> (n <= k)%nat -> first f (firstn n l) 0 = None.
Proof.
  intros E Hn. apply first_some in E as (_ & _ & H). rewrite Nat.sub_0_r in H.
  apply first_none. intros a Ha. apply In_nth_error in Ha as [j Hj].
  assert (j < n)%nat.
  { assert (j < length (firstn n l))%nat by (apply nth_error_Some; congruence).
    rewrite firstn_length in H0. lia. }
  apply (H j); [lia|]. rewrite <- Hj. transitivity (nth_error (firstn n l ++ skipn n l) j).
  { now rewrite firstn_skipn. } apply nth_error_app1. apply nth_error_Some. congruence.
Qed.
Lemma first_firstn_none {A B} (f : A -> option B) l n i :
  first f l i = None -> first f (firstn n l) 0 = None.
Proof.
  intros E. apply first_none. intros a Ha. rewrite first_none in E. apply E.
  rewrite <- (firstn_skipn n). apply in_or_app. now left.
Qed.
Lemma first_skipn {A B} (f : A -> option B) n : forall l i i0,
  first f (firstn n l) i0 = None -> first f (skipn n l) (n + i) = first f l i.
Proof.
  induction n as [|n IH]; intros l i i0 E; [reflexivity|]. destruct l as [|a l]; [reflexivity|].
  cbn in E |- *. destruct (f a); [discriminate|]. rewrite <- (IH l (S i) _ E). f_equal. lia.
Qed.
Lemma first_skipn0 {A B} (f : A -> option B) n l i0 :
  first f (firstn n l) i0 = None -> first f (skipn n l) n = first f l 0.
Proof. intros E. rewrite <- (first_skipn f n l 0 i0 E). f_equal. lia. Qed.

Lemma SS_nth {A} (Rel : A -> A -> Prop) l : StronglySorted Rel l ->
  forall i j a b, (i < j)%nat -> nth_error l i = Some a -> nth_error l j = Some b -> Rel a b.
Proof.
  induction 1 as [|x l Hs IH Hall]; intros i j a b Hij Ha Hb; [destruct i; discriminate|].
  destruct j as [|j]; [lia|]. cbn in Hb. destruct i as [|i]; cbn in Ha.
  - injection Ha as <-. rewrite Forall_forall in Hall. apply Hall. eapply nth_error_In; eauto.
  - apply (IH i j); auto. lia.
Qed.

Section Resume.
Context {D : Type}.
Notation aobj := (aobj R D).
Notation aelem := (aelem R D).
Notation astrat := (astrat R D).
Notation point := (point R).
Notation write := (write R).
Notation ids := (ids R).
Variable hit : aobj -> point -> option write.

Definition blank (i : ids) : Prop := i_facies i = (-1)%Z /\ i_ha i = (-1)%Z.

(** The element's objects behave as [hit] says for the point. *)
Definition good_ae (p : point) (e : aelem) : Prop :=
  (forall o, In o (e_objs e) -> (forall d, o_check o d p = (d, hit o p)) /\
     forall w, hit o p = Some w -> w_facies w <> (-1)%Z /\ o_zmin o <= p_z p <= o_zmax o) /\
  StronglySorted (fun o o' => forall w, hit o' p = Some w -> p_z p <= o_zmax o) (e_objs e) /\
  (forall r, search_ae hit p e = Some r -> e_zmin e <= p_z p).
Definition good_stratum (p : point) (s : astrat) : Prop :=
  (forall e, In e (t_aes s) -> good_ae p e) /\ (forall r, search_stratum hit p s = Some r -> t_zmin s <= p_z p).

Lemma SS_weaken {A} (P Q : A -> A -> Prop) l : (forall a b, P a b -> Q a b) -> StronglySorted P l -> StronglySorted Q l.
Proof.
  intros H. induction 1 as [|a l Hs IH Hall]; constructor; auto. revert Hall. apply Forall_impl. auto.
Qed.

Lemma good_model (m : list astrat) ps :
  pure hit m -> no_lost_facies hit m ps -> bounds_cover hit m ps -> tops_in_order hit m ps ->
  forall p, In p ps -> forall s, In s m -> good_stratum p s.
Proof.
  intros Hp Hn [Hb1 [Hb2 Hb3]] Hs p Hps s Hin. split; [|intros; now apply (Hb3 s p r)].
  intros e He. split; [|split; [|intros; eapply Hb2; eauto]].
  - intros o Ho. split; [intros d; exact (Hp s e o Hin He Ho d p)|]. intros w Hw.
    split; [exact (Hn s e o Hin He Ho p w Hps Hw)|exact (Hb1 s e o Hin He Ho p w Hps Hw)].
  - eapply SS_weaken; [|exact (Hs s e Hin He)]. intros a b H w. now apply H.
Qed.

Lemma scan_objs_eq (e : aelem) p l : forall oi d i,
  (forall o, In o l -> (forall d, o_check o d p = (d, hit o p)) /\
     forall w, hit o p = Some w -> w_facies w <> (-1)%Z /\ o_zmin o <= p_z p <= o_zmax o) ->
  StronglySorted (fun o o' => forall w, hit o' p = Some w -> p_z p <= o_zmax o) l -> blank i ->
  scan_objs e p l oi d i =
    match first (hits hit p) l oi with
    | Some (j, w) => (d, mkIds (w_facies w) (e_num e) (w_ha w) (e_type e) (w_azim w) (w_dip w), Some j)
    | None => (d, i, None)
    end.
Proof.
  induction l as [|o l IH]; intros oi d i Hg Hs Hb; [reflexivity|].
  cbn [scan_objs first].
  assert (Hg' : forall o, In o l -> (forall d, o_check o d p = (d, hit o p)) /\
     forall w, hit o p = Some w -> w_facies w <> (-1)%Z /\ o_zmin o <= p_z p <= o_zmax o)
    by (intros; apply Hg; now right).
  inversion Hs as [|? ? Hs' Hall]; subst.
  destruct (Hg o (or_introl eq_refl)) as [Hc Hw].
  destruct (negb (nleb (p_z p) (o_zmax o))) eqn:E1.
  - apply negb_true_iff in E1. rewrite nleb_ord in E1. apply Rleb_false in E1.
    assert (Hh : hits hit p o = None).
    { unfold hits. destruct (hit o p) as [w|] eqn:E; [|reflexivity]. destruct (Hw w eq_refl) as [_ Hw']. lra. }
    rewrite Hh.
    assert (Hn : first (hits hit p) l (S oi) = None).
    { apply first_none. intros o' Ho'. rewrite Forall_forall in Hall. specialize (Hall o' Ho').
      unfold hits. destruct (hit o' p) as [w|] eqn:E; [|reflexivity].
      specialize (Hall w eq_refl). lra. }
    now rewrite Hn.
  - destruct (negb (nleb (o_zmin o) (p_z p))) eqn:E2.
    + apply negb_true_iff in E2. rewrite nleb_ord in E2. apply Rleb_false in E2.
      assert (Hh : hits hit p o = None).
      { unfold hits. destruct (hit o p) as [w|] eqn:E; [|reflexivity]. destruct (Hw w eq_refl) as [_ Hw']. lra. }
      rewrite Hh. now apply IH.
    + rewrite Hc. unfold hits. destruct (hit o p) as [w|] eqn:E.
      * clear E. destruct (Hw w eq_refl) as [E _]. apply Z.eqb_neq in E. rewrite E. unfold found. cbn. rewrite E. reflexivity.
      * destruct Hb as [Hb1 Hb2]. cbn [do_write]. unfold found. cbn [i_facies]. rewrite Z.eqb_refl. cbn [negb].
        replace (mkIds (-1) (i_ae i) (i_ha i) (i_hat i) (i_azim i) (i_dip i)) with i by (destruct i; cbn in *; now subst).
        apply IH; auto. now split.
Qed.

Lemma StronglySorted_skipn {A} (Rel : A -> A -> Prop) n : forall l, StronglySorted Rel l -> StronglySorted Rel (skipn n l).
Proof.
  induction n as [|n IH]; intros l Hs; [assumption|]. destruct l as [|a l]; [constructor|].
  inversion Hs; subst. now apply IH.
Qed.

Lemma assign_ae_eq (e : aelem) p oi d i : good_ae p e -> blank i ->
  first (hits hit p) (firstn oi (e_objs e)) 0 = None ->
  match search_ae hit p e with
  | Some (j, i') => i_facies i' <> (-1)%Z /\ assign_ae e p oi d i = (d, i', match j with Some j => j | None => oi end)
  | None => exists i' oi', blank i' /\ assign_ae e p oi d i = (d, i', oi')
  end.
Proof.
  intros (Hg & Hs & _) Hb Hf. unfold assign_ae, search_ae.
  rewrite scan_objs_eq; [| |now apply StronglySorted_skipn|assumption].
  2:{ intros o Ho. apply Hg. rewrite <- (firstn_skipn oi). apply in_or_app. now right. }
  rewrite (first_skipn0 _ _ _ _ Hf).
  destruct (first (hits hit p) (e_objs e) 0) as [[j w]|] eqn:E.
  - split; [|reflexivity]. cbn. apply first_some in E as (_ & (o & Ho & Hw) & _). unfold hits in Hw.
    destruct (hit o p) as [w'|]; [|discriminate]. destruct (Z.eqb (w_facies w') (-1)) eqn:Ez; [discriminate|].
    injection Hw as <-. now apply Z.eqb_neq.
  - destruct (e_sheet e) eqn:Esh; cbn [negb andb]. { exists i, 0%nat. auto. }
    rewrite !nleb_ord. unfold within, Rleb.
    destruct (Rlt_dec (e_bottom e (p_xi p) (p_yi p)) (p_z p)), (Rlt_dec (p_z p) (e_top e (p_xi p) (p_yi p))),
      (Rle_dec (p_z p) (e_bottom e (p_xi p) (p_yi p))), (Rle_dec (e_top e (p_xi p) (p_yi p)) (p_z p)); try lra;
      cbn [negb andb]; try (exists i, 0%nat; now auto).
    destruct (Z.eqb (e_bg_facies e) (-1)) eqn:Ez; cbn [negb].
    + eexists _, oi. split; [|reflexivity]. apply Z.eqb_eq in Ez. split; [exact Ez|apply (proj2 Hb)].
    + split; [now apply Z.eqb_neq|]. now rewrite (proj2 Hb).
Qed.

(** Nothing before element [aei], object [oi] contains the point. *)
Definition skipped (s : astrat) (aei oi : nat) (p : point) : Prop :=
  first (search_ae hit p) (firstn aei (t_aes s)) 0 = None /\
  match nth_error (t_aes s) aei with
  | Some e => first (hits hit p) (firstn oi (e_objs e)) 0 = None
  | None => True
  end.

Lemma scan_aes_eq p (l : list aelem) : forall aei oi d i,
  (forall e, In e l -> good_ae p e) -> blank i ->
  match l with e :: _ => first (hits hit p) (firstn oi (e_objs e)) 0 = None | [] => True end ->
  match first (search_ae hit p) l aei with
  | Some (a, (j, i')) => i_facies i' <> (-1)%Z /\
      scan_aes p l aei oi d i = (d, i', (a, match j with Some j => j | None => if Nat.eqb a aei then oi else 0%nat end))
  | None => exists i', blank i' /\ scan_aes p l aei oi d i = (d, i', (0, 0)%nat)
  end.
Proof.
  induction l as [|e l IH]; intros aei oi d i Hg Hb Hf; cbn [first scan_aes].
  - eexists. split; [|reflexivity]. split; [reflexivity|apply (proj2 Hb)].
  - assert (Hrec : forall i1, blank i1 ->
      match first (search_ae hit p) l (S aei) with
      | Some (a, (j, i')) => i_facies i' <> (-1)%Z /\
          scan_aes p l (S aei) 0 d i1 = (d, i', (a, match j with Some j => j | None => if Nat.eqb a aei then oi else 0%nat end))
      | None => exists i', blank i' /\ scan_aes p l (S aei) 0 d i1 = (d, i', (0, 0)%nat)
      end).
    { intros i1 Hb1. specialize (IH (S aei) 0%nat d i1 (fun e He => Hg e (or_intror He)) Hb1).
      assert (Hh : match l with e :: _ => first (hits hit p) (firstn 0 (e_objs e)) 0 = None | [] => True end)
        by (destruct l; [trivial|reflexivity]).
      specialize (IH Hh). destruct (first (search_ae hit p) l (S aei)) as [[a [j i']]|] eqn:E; [|assumption].
      destruct IH as [H1 H2]. split; [assumption|]. rewrite H2.
      apply first_some in E as [Ha _]. destruct j; [reflexivity|].
      destruct (Nat.eqb_spec a aei); [lia|]. destruct (Nat.eqb a (S aei)); reflexivity. }
    destruct (Hg e (or_introl eq_refl)) as (Hgo & Hgs & Hz).
    destruct (negb (nleb (e_zmin e) (p_z p))) eqn:E1.
    + apply negb_true_iff in E1. rewrite nleb_ord in E1. apply Rleb_false in E1.
      destruct (search_ae hit p e) eqn:E; [specialize (Hz _ eq_refl); lra|]. now apply Hrec.
    + pose proof (assign_ae_eq e p oi d i (Hg e (or_introl eq_refl)) Hb Hf) as Ha.
      destruct (search_ae hit p e) as [[j i']|].
      * destruct Ha as [Ha1 ->]. rewrite (proj2 (found_true i') Ha1). rewrite Nat.eqb_refl. auto.
      * destruct Ha as (i' & oi' & Hb' & ->).
        rewrite (proj2 (found_false i') (proj1 Hb')). now apply Hrec.
Qed.

Lemma scan_strata_eq p (l : list astrat) : forall si aei oi d i,
  (forall s, In s l -> good_stratum p s) -> blank i ->
  match l with s :: _ => skipped s aei oi p | [] => True end ->
  match first (search_stratum hit p) l si with
  | Some (s, (a, (j, i'))) =>
      scan_strata p l si aei oi d i =
        (d, Some (i', s), (s, a, match j with
                                 | Some j => j
                                 | None => if Nat.eqb s si && Nat.eqb a aei then oi else 0%nat
                                 end))
  | None => exists aei' oi', scan_strata p l si aei oi d i = (d, None, ((si + length l)%nat, aei', oi'))
  end.
Proof.
  induction l as [|s l IH]; intros si aei oi d i Hg Hb Hf; cbn [first scan_strata].
  - exists aei, oi. now rewrite Nat.add_0_r.
  - assert (Hrec : forall i1, blank i1 ->
      match first (search_stratum hit p) l (S si) with
      | Some (s', (a, (j, i'))) =>
          scan_strata p l (S si) 0 0 d i1 =
            (d, Some (i', s'), (s', a, match j with
                                     | Some j => j
                                     | None => if Nat.eqb s' si && Nat.eqb a aei then oi else 0%nat
                                     end))
      | None => exists aei' oi', scan_strata p l (S si) 0 0 d i1 = (d, None, ((si + length (s :: l))%nat, aei', oi'))
      end).
    { intros i1 Hb1. specialize (IH (S si) 0%nat 0%nat d i1 (fun s Hs => Hg s (or_intror Hs)) Hb1).
      assert (Hh : match l with s :: _ => skipped s 0 0 p | [] => True end).
      { destruct l as [|s' l]; [trivial|]. split; [reflexivity|]. now destruct (nth_error (t_aes s') 0). }
      specialize (IH Hh). destruct (first (search_stratum hit p) l (S si)) as [[s' [a [j i']]]|] eqn:E.
      - rewrite IH. apply first_some in E as [Ha _]. destruct j; [reflexivity|].
        destruct (Nat.eqb_spec s' si); [lia|]. cbn [andb]. now destruct (Nat.eqb s' (S si) && Nat.eqb a 0).
      - destruct IH as (a & o & ->). exists a, o. cbn [length]. now rewrite Nat.add_succ_r. }
    destruct (Hg s (or_introl eq_refl)) as (Hga & Hz).
    destruct (negb (nleb (t_zmin s) (p_z p))) eqn:E1.
    + apply negb_true_iff in E1. rewrite nleb_ord in E1. apply Rleb_false in E1.
      destruct (search_stratum hit p s) eqn:E; [specialize (Hz _ eq_refl); lra|]. now apply Hrec.
    + destruct Hf as [Hf1 Hf2].
      assert (Hfs : match skipn aei (t_aes s) with
                    | e :: _ => first (hits hit p) (firstn oi (e_objs e)) 0 = None | [] => True end).
      { pose proof (nth_error_skipn (t_aes s) aei 0) as Hn. rewrite Nat.add_0_r in Hn.
        destruct (skipn aei (t_aes s)) as [|e r]; [trivial|]. cbn in Hn. now rewrite <- Hn in Hf2. }
      assert (Hgk : forall e, In e (skipn aei (t_aes s)) -> good_ae p e).
      { intros e He. apply Hga. rewrite <- (firstn_skipn aei). apply in_or_app. now right. }
      pose proof (scan_aes_eq p (skipn aei (t_aes s)) aei oi d i Hgk Hb Hfs) as Ha.
      unfold assign_stratum.
      rewrite (first_skipn0 _ _ _ _ Hf1) in Ha.
      unfold search_stratum at 1. destruct (first (search_ae hit p) (t_aes s) 0) as [[a [j i']]|].
      * destruct Ha as [Ha1 ->]. rewrite (proj2 (found_true i') Ha1). rewrite Nat.eqb_refl. reflexivity.
      * destruct Ha as (i' & Hb' & ->). rewrite (proj2 (found_false i') (proj1 Hb')). now apply Hrec.
Qed.

(** The place [c] is not below what the exhaustive search finds. *)
Definition before (c : pos) (r : nat * (nat * (option nat * ids))) : Prop :=
  let '(si, aei, oi) := c in
  let '(s, (a, (j, _))) := r in
  (si < s \/ si = s /\ (aei < a \/ aei = a /\ match j with Some j => oi <= j | None => True end))%nat.

Lemma search_inv (m : list astrat) p s a j i : search hit m p = Some (s, (a, (j, i))) ->
  exists st e, nth_error m s = Some st /\ nth_error (t_aes st) a = Some e /\
    first (search_ae hit p) (t_aes st) 0 = Some (a, (j, i)) /\ search_ae hit p e = Some (j, i) /\
    match j with
    | Some j => exists w, first (hits hit p) (e_objs e) 0 = Some (j, w)
    | None => first (hits hit p) (e_objs e) 0 = None
    end.
Proof.
  unfold search. intros E. apply first_some in E as (_ & (st & Hst & Hs) & _). rewrite Nat.sub_0_r in Hst.
  unfold search_stratum in Hs. pose proof Hs as Hs0. apply first_some in Hs as (_ & (e & He & Ha) & _).
  rewrite Nat.sub_0_r in He. exists st, e. split; [assumption|]. split; [assumption|]. split; [assumption|].
  split; [assumption|].
  unfold search_ae in Ha. destruct (first (hits hit p) (e_objs e) 0) as [[j' w]|].
  - injection Ha as <- <-. now exists w.
  - destruct (_ && _); [|discriminate]. now injection Ha as <- <-.
Qed.

Lemma before_skipped (m : list astrat) p si aei oi r :
  search hit m p = Some r -> before (si, aei, oi) r ->
  first (search_stratum hit p) (firstn si m) 0 = None /\
  match nth_error m si with Some s => skipped s aei oi p | None => True end.
Proof.
  destruct r as [s [a [j i]]]. intros E Hb. cbn in Hb. split.
  - eapply first_firstn; [exact E|lia].
  - pose proof (search_inv _ _ _ _ _ _ E) as (st & e & Hst & He & Hf & Hse & Hj).
    destruct Hb as [Hlt|[-> Hb]].
    + apply first_some in E as (_ & _ & Hn). rewrite Nat.sub_0_r in Hn.
      destruct (nth_error m si) as [s0|] eqn:Es; [|trivial]. specialize (Hn si s0 Hlt Es).
      unfold search_stratum in Hn. split; [eapply first_firstn_none; eauto|].
      destruct (nth_error (t_aes s0) aei) as [e0|] eqn:Ee; [|trivial].
      rewrite first_none in Hn. specialize (Hn e0 (nth_error_In _ _ Ee)). unfold search_ae in Hn.
      destruct (first (hits hit p) (e_objs e0) 0) as [[? ?]|] eqn:E1; [discriminate|].
      eapply first_firstn_none; eauto.
    + rewrite Hst. unfold skipped. split; [eapply first_firstn; [exact Hf|lia]|].
      destruct Hb as [Hlt|[-> Hb]].
      * apply first_some in Hf as (_ & _ & Hn). rewrite Nat.sub_0_r in Hn.
        destruct (nth_error (t_aes st) aei) as [e0|] eqn:Ee; [|trivial].
        specialize (Hn aei e0 Hlt Ee). unfold search_ae in Hn.
        destruct (first (hits hit p) (e_objs e0) 0) as [[? ?]|] eqn:E1; [discriminate|].
        eapply first_firstn_none; eauto.
      * rewrite He. destruct j as [j|].
        -- destruct Hj as [w Hj]. eapply first_firstn; eauto.
        -- eapply first_firstn_none; eauto.
Qed.
Lemma none_skipped (m : list astrat) p si aei oi : search hit m p = None ->
  first (search_stratum hit p) (firstn si m) 0 = None /\
  match nth_error m si with Some s => skipped s aei oi p | None => True end.
Proof.
  intros E. split; [eapply first_firstn_none; exact E|]. unfold search in E. rewrite first_none in E.
  destruct (nth_error m si) as [s|] eqn:Es; [|trivial]. specialize (E s (nth_error_In _ _ Es)).
  unfold search_stratum in E. split; [eapply first_firstn_none; eauto|].
  destruct (nth_error (t_aes s) aei) as [e|] eqn:Ee; [|trivial]. rewrite first_none in E.
  specialize (E e (nth_error_In _ _ Ee)). unfold search_ae in E.
  destruct (first (hits hit p) (e_objs e) 0) as [[? ?]|] eqn:E1; [discriminate|]. eapply first_firstn_none; eauto.
Qed.

Lemma assign_cell_eq (m : list astrat) p si aei oi d :
  (forall s, In s m -> good_stratum p s) ->
  (forall r, search hit m p = Some r -> before (si, aei, oi) r) ->
  match search hit m p with
  | Some (s, (a, (j, i'))) =>
      assign_cell m p (si, aei, oi) d =
        (d, Some (i', s), (s, a, match j with
                                 | Some j => j
                                 | None => if Nat.eqb s si && Nat.eqb a aei then oi else 0%nat
                                 end))
  | None => exists n aei' oi', (length m <= n)%nat /\ assign_cell m p (si, aei, oi) d = (d, None, (n, aei', oi'))
  end.
Proof.
  intros Hg Hb. unfold assign_cell.
  assert (Hsk : first (search_stratum hit p) (firstn si m) 0 = None /\
                match nth_error m si with Some s => skipped s aei oi p | None => True end).
  { destruct (search hit m p) as [r|] eqn:E; [eapply before_skipped; eauto|now apply none_skipped]. }
  destruct Hsk as [H1 H2].
  assert (Hh : match skipn si m with s :: _ => skipped s aei oi p | [] => True end).
  { pose proof (nth_error_skipn m si 0) as Hn. rewrite Nat.add_0_r in Hn.
    destruct (skipn si m) as [|s r]; [trivial|]. cbn in Hn. now rewrite <- Hn in H2. }
  assert (Hgk : forall s, In s (skipn si m) -> good_stratum p s).
  { intros s Hs. apply Hg. rewrite <- (firstn_skipn si). apply in_or_app. now right. }
  pose proof (scan_strata_eq p (skipn si m) si aei oi d reset Hgk (conj eq_refl eq_refl) Hh) as E.
  rewrite (first_skipn0 _ _ _ _ H1) in E.
  unfold search. destruct (first (search_stratum hit p) m 0) as [[s [a [j i']]]|]; [exact E|].
  destruct E as (a & o & ->). exists (si + length (skipn si m))%nat, a, o. split; [|reflexivity].
  rewrite skipn_length. lia.
Qed.

Lemma object_order (m : list astrat) (ps : list point) p p' s a j i j' i' :
  (forall s, In s m -> good_stratum p s) -> hanging hit m ps -> In p ps -> In p' ps -> p_z p' < p_z p ->
  search hit m p = Some (s, (a, (Some j, i))) -> search hit m p' = Some (s, (a, (Some j', i'))) -> (j <= j')%nat.
Proof.
  intros Hg Ho Hp Hp' Hz E E'.
  apply search_inv in E as (st & e & Hst & He & _ & _ & w & Hw).
  apply search_inv in E' as (st' & e' & Hst' & He' & _ & _ & w' & Hw').
  rewrite Hst in Hst'. injection Hst' as <-. rewrite He in He'. injection He' as <-.
  destruct (Nat.le_gt_cases j j') as [|Hlt]; [assumption|exfalso].
  apply first_some in Hw as (_ & (o & Hno & Hh) & Hn). apply first_some in Hw' as (_ & (o' & Hno' & Hh') & _).
  rewrite Nat.sub_0_r in *. specialize (Hn j' o' Hlt Hno').
  assert (Hst1 : In st m) by (eapply nth_error_In; eauto).
  assert (He1 : In e (t_aes st)) by (eapply nth_error_In; eauto).
  destruct (Hg st Hst1) as [Hga _]. destruct (Hga e He1) as (Hgo & Hs & _).
  assert (Hz1 : p_z p <= o_zmax o').
  { unfold hits in Hh. destruct (hit o p) as [w0|] eqn:E; [|discriminate].
    exact (SS_nth _ _ Hs j' j o' o Hlt Hno' Hno w0 E). }
  assert (Hz3 : p_z p' < p_z p <= o_zmax o') by lra.
  pose proof (Ho st e o' Hst1 He1 (nth_error_In _ _ Hno') p p' Hp Hp' Hz3 Hn). congruence.
Qed.

Lemma tower_eq (m : list astrat) (all : list point) :
  (forall p, In p all -> forall s, In s m -> good_stratum p s) -> objects_left_once hit m all -> elements_left_once hit m all ->
  forall ps si aei oi d,
  (forall p, In p ps -> In p all) -> StronglySorted (fun p p' => p_z p' < p_z p) ps ->
  (forall p r, In p ps -> search hit m p = Some r -> before (si, aei, oi) r) ->
  snd (tower m ps (si, aei, oi) d) = until_missed (map (exhaustive hit m) ps).
Proof.
  intros Hg Ho He. induction ps as [|p ps IH]; intros si aei oi d Hin Hs Hb; [reflexivity|].
  cbn [tower map]. inversion Hs as [|? ? Hs' Hall]; subst. rewrite Forall_forall in Hall.
  pose proof (assign_cell_eq m p si aei oi d (Hg p (Hin p (or_introl eq_refl))) (fun r => Hb p r (or_introl eq_refl))) as Hc.
  unfold exhaustive at 1. destruct (search hit m p) as [[s [a [j i]]]|] eqn:E.
  - rewrite Hc. clear Hc. specialize (Hb p _ (or_introl eq_refl) E) as Hbp.
    match goal with |- context [tower m ps ?c d] => set (c1 := c) end.
    specialize (IH s a (match j with Some j => j | None => if Nat.eqb s si && Nat.eqb a aei then oi else 0%nat end) d
                  (fun p Hp => Hin p (or_intror Hp)) Hs').
    assert (Hb' : forall p' r, In p' ps -> search hit m p' = Some r ->
      before (s, a, match j with Some j => j | None => if Nat.eqb s si && Nat.eqb a aei then oi else 0%nat end) r).
    { intros p' [s' [a' [j' i']]] Hp' E'. specialize (Hall p' Hp').
      pose proof (He p p' s a j i s' a' j' i' (Hin p (or_introl eq_refl)) (Hin p' (or_intror Hp')) Hall E E') as Hle.
      cbn. destruct Hle as [|[-> Hle]]; [now left|right; split; [reflexivity|]].
      destruct (Nat.eq_dec a a') as [->|]; [right; split; [reflexivity|]|left; lia].
      destruct j' as [j'|]; [|trivial]. destruct j as [j|].
      - exact (Ho p p' _ _ j i j' i' (Hin p (or_introl eq_refl)) (Hin p' (or_intror Hp')) Hall E E').
      - destruct (Nat.eqb_spec s' si) as [Hs1|]; cbn [andb]; [|lia].
        destruct (Nat.eqb_spec a' aei) as [Ha1|]; [|lia]. subst si aei.
        specialize (Hb p' _ (or_intror Hp') E'). cbn in Hb. lia. }
    specialize (IH Hb'). fold c1 in IH. destruct (tower m ps c1 d) as [d' rs]. cbn in IH |- *. now rewrite IH.
  - destruct Hc as (n & a & o & Hn & ->). pose proof (tower_missed m ps n a o d Hn) as Hm.
    destruct (tower m ps (n, a, o) d) as [d' rs]. cbn in Hm |- *. rewrite Hm. f_equal. now rewrite map_map.
Qed.

Lemma resume_exhaustive (m : list astrat) c ps d :
  pure hit m -> no_lost_facies hit m ps -> bounds_cover hit m ps -> tops_in_order hit m ps -> column c ps ->
  objects_left_once hit m ps -> elements_left_once hit m ps ->
  snd (tower m ps (0, 0, 0)%nat d) = until_missed (map (exhaustive hit m) ps).
Proof.
  intros Hp Hn Hb Hs [_ Hc] Ho He. apply (tower_eq m ps); auto.
  - now apply (good_model m ps).
  - intros p [s [a [j i]]] _ _. cbn. destruct j; lia.
Qed.

Lemma sorted_in_order (m : list astrat) ps : bounds_cover hit m ps -> objects_sorted m -> tops_in_order hit m ps.
Proof.
  intros [Hb _] Hs s e Hin He. specialize (Hs s e Hin He).
  assert (Ho : forall o, In o (e_objs e) -> forall p w, In p ps -> hit o p = Some w -> p_z p <= o_zmax o).
  { intros o Ho p w Hps Hw. pose proof (Hb s e o Hin He Ho p w Hps Hw). lra. }
  revert Ho. generalize (e_objs e) Hs. intros l. clear. induction 1 as [|o l Hs IH Hall]; intros Ho; constructor.
  - apply IH. intros o' Ho'. apply Ho. now right.
  - rewrite Forall_forall in *. intros o' Ho' p w Hps Hw. specialize (Hall o' Ho').
    pose proof (Ho o' (or_intror Ho') p w Hps Hw). lra.
Qed.

Lemma hanging_left_once (m : list astrat) ps :
  pure hit m -> no_lost_facies hit m ps -> bounds_cover hit m ps -> tops_in_order hit m ps ->
  hanging hit m ps -> objects_left_once hit m ps.
Proof.
  intros Hp Hn Hb Hs Hh p p' s a j i j' i' H1 H2 Hz E E'.
  eapply (object_order m ps p p'); eauto. now apply (good_model m ps).
Qed.

Lemma SS_app_inv {A} (Rel : A -> A -> Prop) l l' : StronglySorted Rel (l ++ l') ->
  StronglySorted Rel l /\ StronglySorted Rel l' /\ forall a b, In a l -> In b l' -> Rel a b.
Proof.
  induction l as [|x l IH]; cbn; intros Hs.
  - split; [constructor|]. split; [assumption|]. intros a b [].
  - inversion Hs as [|? ? Hs' Hall]; subst. destruct (IH Hs') as (H1 & H2 & H3).
    rewrite Forall_app in Hall. destruct Hall as [Ha1 Ha2]. split; [now constructor|]. split; [assumption|].
    intros a b [<-|Ha] Hb; [|auto]. rewrite Forall_forall in Ha2. now apply Ha2.
Qed.
Lemma SS_flat {A B} (Rel : B -> B -> Prop) (f : A -> list B) l : StronglySorted Rel (flat_map f l) ->
  forall i j x y a b, nth_error l i = Some x -> nth_error l j = Some y -> In a (f x) -> In b (f y) ->
  (i < j)%nat -> Rel a b.
Proof.
  induction l as [|z l IH]; intros Hs i j x y a b Hx Hy Ha Hb Hij; [destruct i; discriminate|].
  cbn in Hs. apply SS_app_inv in Hs as (_ & H2 & H3). destruct j as [|j]; [lia|]. cbn in Hy.
  destruct i as [|i]; cbn in Hx.
  - injection Hx as <-. apply H3; [assumption|]. apply in_flat_map. exists y. split; [eapply nth_error_In; eauto|assumption].
  - eapply (IH H2 i j); eauto. lia.
Qed.

Lemma stacked_left_once (m : list astrat) c ps : column c ps -> stacked hit m ps -> elements_left_once hit m ps.
Proof.
  intros [Hc _] [Hin Hst] p p' s a j i s' a' j' i' Hp Hp' Hz E E'.
  assert (E0 := E). apply search_inv in E as (st & e & Hst1 & He1 & Hfa & Hse & _).
  apply search_inv in E' as (st' & e' & Hst2 & He2 & _ & Hse' & _).
  destruct (Hin st e p _ (nth_error_In _ _ Hst1) (nth_error_In _ _ He1) Hp Hse) as [Hb _].
  destruct (Hin st' e' p' _ (nth_error_In _ _ Hst2) (nth_error_In _ _ He2) Hp' Hse') as [_ Hb'].
  rewrite Forall_forall in Hc. pose proof (Hc p Hp) as E1. pose proof (Hc p' Hp') as E2. rewrite <- E2 in E1.
  injection E1 as E1x E1y. rewrite E1x, E1y in Hb.
  assert (Hno : (forall q, In q ps -> e_top e (p_xi q) (p_yi q) <= e_bottom e' (p_xi q) (p_yi q)) ->
                search_ae hit p e' = None -> False).
  { intros Hba Hn. specialize (Hba p' Hp'). apply (Hb' p Hp); [lra|assumption]. }
  destruct (Nat.lt_trichotomy s s') as [|[->|Hlt]]; [now left| |].
  - right. split; [reflexivity|]. rewrite Hst1 in Hst2. injection Hst2 as <-.
    destruct (Nat.le_gt_cases a a') as [|Hlt]; [assumption|]. exfalso. apply Hno.
    + assert (Hss : StronglySorted (fun e e' => forall p, In p ps -> e_top e' (p_xi p) (p_yi p) <= e_bottom e (p_xi p) (p_yi p)) (t_aes st)).
      { clear - Hst Hst1. revert s' Hst1. induction m as [|x l IH]; intros n Hn; [destruct n; discriminate|].
        cbn in Hst. apply SS_app_inv in Hst as (H1 & H2 & _). destruct n as [|n]; cbn in Hn; [now injection Hn as <-|eauto]. }
      intros q Hq. exact (SS_nth _ _ Hss a' a e' e Hlt He2 He1 q Hq).
    + apply first_some in Hfa as (_ & _ & Hn). rewrite Nat.sub_0_r in Hn. now apply (Hn a').
  - exfalso. apply Hno.
    + intros q Hq. exact (SS_flat _ t_aes m Hst s' s st' st e' e Hst2 Hst1 (nth_error_In _ _ He2) (nth_error_In _ _ He1) Hlt q Hq).
    + unfold search in E0. apply first_some in E0 as (_ & _ & Hn). rewrite Nat.sub_0_r in Hn.
      specialize (Hn s' st' Hlt Hst2). unfold search_stratum in Hn. rewrite first_none in Hn.
      apply Hn. eapply nth_error_In; eauto.
Qed.

Lemma search_before (m : list astrat) p s a j i s' a' st' e' :
  search hit m p = Some (s, (a, (j, i))) -> nth_error m s' = Some st' -> nth_error (t_aes st') a' = Some e' ->
  (s' < s \/ s' = s /\ a' < a)%nat -> search_ae hit p e' = None.
Proof.
  intros E Hs' He' Hlt. assert (E0 := E). apply search_inv in E as (st & e & Hst & He & Hfa & _).
  destruct Hlt as [Hlt|[-> Hlt]].
  - unfold search in E0. apply first_some in E0 as (_ & _ & Hn). rewrite Nat.sub_0_r in Hn.
    specialize (Hn s' st' Hlt Hs'). unfold search_stratum in Hn. rewrite first_none in Hn.
    apply Hn. eapply nth_error_In; eauto.
  - rewrite Hst in Hs'. injection Hs' as <-. apply first_some in Hfa as (_ & _ & Hn). rewrite Nat.sub_0_r in Hn. now apply (Hn a').
Qed.
Lemma SS_lex {A B} (Rel : B -> B -> Prop) (f : A -> list B) l i j x y a b k n : StronglySorted Rel (flat_map f l) ->
  nth_error l i = Some x -> nth_error l j = Some y -> nth_error (f x) k = Some a -> nth_error (f y) n = Some b ->
  (i < j \/ i = j /\ k < n)%nat -> Rel a b.
Proof.
  intros Hs Hx Hy Ha Hb [Hlt|[-> Hlt]].
  - eapply (SS_flat Rel f l Hs i j x y); eauto using nth_error_In.
  - rewrite Hx in Hy. injection Hy as <-.
    assert (Hss : StronglySorted Rel (f x)).
    { clear - Hs Hx. revert j Hx. induction l as [|z l IH]; intros n Hn; [destruct n; discriminate|].
      cbn in Hs. apply SS_app_inv in Hs as (H1 & H2 & _). destruct n as [|n]; cbn in Hn; [now injection Hn as <-|eauto]. }
    exact (SS_nth _ _ Hss k n a b Hlt Ha Hb).
Qed.
Lemma tiled_left_once (m : list astrat) c ps : column c ps -> tiled hit m ps -> elements_left_once hit m ps.
Proof.
  intros [Hc _] (Hcov & Hhang & Hst) p p' s a j i s' a' j' i' Hp Hp' Hz E E'.
  destruct (Hcov p Hp) as (st0 & e0 & Hs0 & He0 & Hz0 & Hf0).
  apply In_nth_error in Hs0 as [s0 Hs0]. apply In_nth_error in He0 as [a0 He0].
  assert (E0 := E). apply search_inv in E as (st & e & Hst1 & He1 & _ & Hse & _).
  apply search_inv in E' as (st' & e' & Hst2 & He2 & _ & Hse' & _).
  assert (H0 : ~ (s0 < s \/ s0 = s /\ a0 < a)%nat).
  { intros Hlt. apply Hf0. eapply search_before; eauto. }
  destruct (Nat.lt_trichotomy s s') as [|[Heq|Hlt]]; [now left| |].
  - destruct (Nat.le_gt_cases a a') as [|Hlt]; [right; auto|exfalso].
    assert (Hba : e_top e0 (p_xi p) (p_yi p) <= e_bottom e' (p_xi p) (p_yi p)).
    { refine (SS_lex _ t_aes m s' s0 st' st0 e' e0 a' a0 Hst Hst2 Hs0 He2 He0 _ p Hp). lia. }
    assert (Hn : search_ae hit p e' = None) by (eapply (search_before m p s a j i s' a'); eauto; lia).
    apply (Hhang st' e' p' p) in Hn; eauto using nth_error_In; [congruence|].
    rewrite Forall_forall in Hc. pose proof (Hc p Hp) as E1. pose proof (Hc p' Hp') as E2. rewrite <- E2 in E1.
    injection E1 as E1x E1y. rewrite E1x, E1y in *. lra.
  - exfalso.
    assert (Hba : e_top e0 (p_xi p) (p_yi p) <= e_bottom e' (p_xi p) (p_yi p)).
    { refine (SS_lex _ t_aes m s' s0 st' st0 e' e0 a' a0 Hst Hst2 Hs0 He2 He0 _ p Hp). lia. }
    assert (Hn : search_ae hit p e' = None) by (eapply (search_before m p s a j i s' a'); eauto; lia).
    apply (Hhang st' e' p' p) in Hn; eauto using nth_error_In; [congruence|].
    rewrite Forall_forall in Hc. pose proof (Hc p Hp) as E1. pose proof (Hc p' Hp') as E2. rewrite <- E2 in E1.
    injection E1 as E1x E1y. rewrite E1x, E1y in *. lra.
Qed.

Lemma until_missed_all {A} (l : list (option A)) : Forall (fun r => r <> None) l -> until_missed l = l.
Proof.
  induction 1 as [|[a|] l Ha Hl IH]; cbn; [reflexivity|now rewrite IH|congruence].
Qed.
End Resume.

(** ** Columns *)
Section Columns.
Context {D : Type}.
Notation aobj := (aobj R D).
Notation aelem := (aelem R D).
Notation astrat := (astrat R D).
Notation point := (point R).
Variable hit : aobj -> point -> option (write R).
Variable P : point -> Prop.
Variable Inv : D -> nat * nat -> R -> Prop.

(** [d'] comes from [d] by calls for the point [p]. *)
Definition follows (p : point) (d d' : D) : Prop :=
  Inv d' (p_xi p, p_yi p) (p_z p) /\ forall c z, c <> (p_xi p, p_yi p) -> Inv d c z -> Inv d' c z.
Lemma follows_refl p d : Inv d (p_xi p, p_yi p) (p_z p) -> follows p d d.
Proof. split; auto. Qed.
Lemma follows_trans p d d' d'' : follows p d d' -> follows p d' d'' -> follows p d d''.
Proof. intros [H1 H2] [H3 H4]. split; auto. Qed.

Definition step (o : aobj) : Prop := forall d p, P p -> Inv d (p_xi p, p_yi p) (p_z p) ->
  snd (o_check o d p) = hit o p /\ follows p d (fst (o_check o d p)).

Lemma scan_objs_pure (e : aelem) p l : forall oi d d0 i, (forall o, In o l -> step o) ->
  P p -> Inv d (p_xi p, p_yi p) (p_z p) ->
  exists d' i' r, scan_objs e p l oi d i = (d', i', r) /\
    scan_objs (pure_ae hit e) p (map (pure_obj hit) l) oi d0 i = (d0, i', r) /\ follows p d d'.
Proof.
  induction l as [|o l IH]; intros oi d d0 i Hst Hp Hi; cbn [scan_objs map].
  - exists d, i, None. split; [reflexivity|]. split; [reflexivity|]. now apply follows_refl.
  - cbn [o_zmax o_zmin pure_obj o_check].
    destruct (negb (nleb (p_z p) (o_zmax o))).
    { exists d, i, None. split; [reflexivity|]. split; [reflexivity|]. now apply follows_refl. }
    destruct (negb (nleb (o_zmin o) (p_z p))). { apply IH; auto. intros; apply Hst; now right. }
    destruct (Hst o (or_introl eq_refl) d p Hp Hi) as [Hh Hf].
    destruct (o_check o d p) as [d1 w]. cbn [fst snd] in Hh, Hf. subst w.
    destruct (found (do_write i (hit o p))).
    + eexists _, _, _. split; [reflexivity|]. split; [reflexivity|assumption].
    + destruct (IH (S oi) d1 d0 (do_write i (hit o p)) (fun o Ho => Hst o (or_intror Ho)) Hp (proj1 Hf)) as (d' & i' & r & E1 & E2 & F).
      exists d', i', r. rewrite E1. split; [reflexivity|]. split; [exact E2|]. eapply follows_trans; eauto.
Qed.

Lemma assign_ae_pure (e : aelem) p oi d d0 i : (forall o, In o (e_objs e) -> step o) ->
  P p -> Inv d (p_xi p, p_yi p) (p_z p) ->
  exists d' i' r, assign_ae e p oi d i = (d', i', r) /\ assign_ae (pure_ae hit e) p oi d0 i = (d0, i', r) /\ follows p d d'.
Proof.
  intros Hst Hp Hi. unfold assign_ae. cbn [e_objs pure_ae].
  assert (Hin : forall o, In o (skipn oi (e_objs e)) -> step o).
  { intros o Ho. apply Hst. rewrite <- (firstn_skipn oi). apply in_or_app. now right. }
  destruct (scan_objs_pure e p (skipn oi (e_objs e)) oi d d0 i Hin Hp Hi) as (d' & i' & r & E1 & E2 & F).
  rewrite E1. rewrite skipn_map, E2. cbn [e_sheet e_bottom e_top e_bg_facies e_num e_type e_bg_azim e_bg_dip pure_ae].
  destruct r; [eauto 10|]. destruct (e_sheet e); [eauto 10|].
  destruct (_ && _); eauto 10.
Qed.

Lemma scan_aes_pure p (l : list aelem) : forall aei oi d d0 i, (forall e o, In e l -> In o (e_objs e) -> step o) ->
  P p -> Inv d (p_xi p, p_yi p) (p_z p) ->
  exists d' i' r, scan_aes p l aei oi d i = (d', i', r) /\ scan_aes p (map (pure_ae hit) l) aei oi d0 i = (d0, i', r) /\ follows p d d'.
Proof.
  induction l as [|e l IH]; intros aei oi d d0 i Hst Hp Hi; cbn [scan_aes map].
  - eexists _, _, _. split; [reflexivity|]. split; [reflexivity|]. now apply follows_refl.
  - cbn [e_zmin pure_ae].
    assert (Hst' : forall e o, In e l -> In o (e_objs e) -> step o) by (intros e' o He; apply (Hst e' o); now right).
    destruct (negb (nleb (e_zmin e) (p_z p))). { now apply IH. }
    destruct (assign_ae_pure e p oi d d0 i (fun o => Hst e o (or_introl eq_refl)) Hp Hi) as (d1 & i1 & r1 & E1 & E2 & F).
    rewrite E1, E2. destruct (found i1).
    + eexists _, _, _. split; [reflexivity|]. split; [reflexivity|assumption].
    + destruct (IH (S aei) 0%nat d1 d0 i1 Hst' Hp (proj1 F)) as (d' & i' & r & E3 & E4 & F').
      exists d', i', r. split; [assumption|]. split; [assumption|]. eapply follows_trans; eauto.
Qed.

Lemma scan_strata_pure p (l : list astrat) : forall si aei oi d d0 i, every_obj l step ->
  P p -> Inv d (p_xi p, p_yi p) (p_z p) ->
  exists d' r c, scan_strata p l si aei oi d i = (d', r, c) /\
    scan_strata p (pure_model hit l) si aei oi d0 i = (d0, r, c) /\ follows p d d'.
Proof.
  induction l as [|s l IH]; intros si aei oi d d0 i Hst Hp Hi; cbn [scan_strata pure_model map].
  - eexists _, _, _. split; [reflexivity|]. split; [reflexivity|]. now apply follows_refl.
  - cbn [t_zmin]. fold (pure_model hit l).
    assert (Hst' : every_obj l step) by (intros s' e o Hs; apply (Hst s' e o); now right).
    destruct (negb (nleb (t_zmin s) (p_z p))). { now apply IH. }
    unfold assign_stratum. cbn [t_aes].
    assert (Hin : forall e o, In e (skipn aei (t_aes s)) -> In o (e_objs e) -> step o).
    { intros e o He. apply (Hst s e o); [now left|]. rewrite <- (firstn_skipn aei). apply in_or_app. now right. }
    destruct (scan_aes_pure p (skipn aei (t_aes s)) aei oi d d0 i Hin Hp Hi) as (d1 & i1 & [a1 o1] & E1 & E2 & F).
    rewrite skipn_map, E1, E2. destruct (found i1).
    + eexists _, _, _. split; [reflexivity|]. split; [reflexivity|assumption].
    + destruct (IH (S si) 0%nat 0%nat d1 d0 i1 Hst' Hp (proj1 F)) as (d' & r & c & E3 & E4 & F').
      exists d', r, c. split; [assumption|]. split; [assumption|]. eapply follows_trans; eauto.
Qed.

Hypothesis Inv_lower : forall d c z z', z' <= z -> Inv d c z -> Inv d c z'.

Lemma every_obj_skipn (Q : aobj -> Prop) n (m : list astrat) : every_obj m Q -> every_obj (skipn n m) Q.
Proof.
  intros Hm s e o Hs. apply Hm. rewrite <- (firstn_skipn n). apply in_or_app. now right.
Qed.

Lemma tower_pure (m : list astrat) col : every_obj m step -> forall ps c d d0,
  column col ps -> Forall P ps -> (forall z, match ps with p :: _ => z = p_z p | [] => False end -> Inv d col z) ->
  snd (tower m ps c d) = snd (tower (pure_model hit m) ps c d0) /\
  forall c' z, c' <> col -> Inv d c' z -> Inv (fst (tower m ps c d)) c' z.
Proof.
  intros Hst. induction ps as [|p ps IH]; intros [[si aei] oi] d d0 [Hc Hs] HPs Hi; [split; auto|].
  cbn [tower]. inversion Hc as [|? ? Hp Hc']; subst. inversion Hs as [|? ? Hs' Hall]; subst. inversion HPs as [|? ? HP HPs']; subst.
  specialize (Hi (p_z p) eq_refl).
  unfold assign_cell. unfold pure_model at 1. rewrite skipn_map. fold (pure_model hit (skipn si m)).
  destruct (scan_strata_pure p (skipn si m) si aei oi d d0 reset (every_obj_skipn _ _ _ Hst) HP Hi) as (d1 & r & c1 & E1 & E2 & F).
  rewrite E1, E2.
  assert (Hi' : forall z, match ps with p :: _ => z = p_z p | [] => False end -> Inv d1 (p_xi p, p_yi p) z).
  { intros z Hz. destruct ps as [|p' ps]; [destruct Hz|]. subst z. apply (Inv_lower _ _ (p_z p)); [|exact (proj1 F)].
    inversion Hall; subst. lra. }
  destruct (IH c1 d1 d0 (conj Hc' Hs') HPs' Hi') as [H1 H2].
  destruct (tower m ps c1 d1) as [d' rs], (tower (pure_model hit m) ps c1 d0) as [d0' rs0]. cbn in H1, H2 |- *.
  split; [now rewrite H1|]. intros c' z Hne Hz. apply H2; [assumption|]. now apply (proj2 F).
Qed.

Lemma pure_state (e : aelem) p l : forall oi d d' i,
  let '(da, ia, ra) := scan_objs (pure_ae hit e) p (map (pure_obj hit) l) oi d i in
  let '(db, ib, rb) := scan_objs (pure_ae hit e) p (map (pure_obj hit) l) oi d' i in
  ia = ib /\ ra = rb /\ da = d /\ db = d'.
Proof.
  induction l as [|o l IH]; intros oi d d' i; cbn [scan_objs map]; [auto|].
  cbn [o_zmax o_zmin pure_obj o_check].
  destruct (negb _); [auto|]. destruct (negb _); [apply IH|]. destruct (found _); [auto|apply IH].
Qed.

Lemma towers_pure (m : list astrat) d0 : every_obj m step -> forall cols d,
  NoDup (map fst cols) -> (forall c ps, In (c, ps) cols -> column c ps /\ Forall P ps) ->
  (forall c ps z, In (c, ps) cols -> Inv d c z) ->
  towers m (map snd cols) d = map (fun ps => snd (tower (pure_model hit m) ps (0, 0, 0)%nat d0)) (map snd cols).
Proof.
  intros Hst. induction cols as [|[c ps] cols IH]; intros d Hn Hc Hi; [reflexivity|].
  cbn [towers map snd]. inversion Hn as [|? ? Hnin Hn']; subst.
  destruct (tower_pure m c Hst ps (0, 0, 0)%nat d d0 (proj1 (Hc c ps (or_introl eq_refl))) (proj2 (Hc c ps (or_introl eq_refl)))) as [H1 H2].
  { intros z _. apply (Hi c ps z). now left. }
  destruct (tower m ps (0, 0, 0)%nat d) as [d' rs]. cbn in H1, H2. rewrite H1. f_equal.
  apply IH; [assumption| |].
  - intros c' ps' Hin. apply Hc. now right.
  - intros c' ps' z Hin. apply H2.
    + intros ->. apply Hnin. apply in_map_iff. exists (c, ps'). auto.
    + apply (Hi c' ps'). now right.
Qed.
End Columns.
End Order.
