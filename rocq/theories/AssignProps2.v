(** C32, C105: the arrays after assign_points. *)
From Coq Require Import List ZArith QArith Bool Reals Lia Lra.
From Verif Require Import Base Num AssignModel AssignSpec AssignProofs AssignProps.
Import ListNotations.
Local Open Scope R_scope.

Lemma nth_error_app_l {A} (l1 l2 : list A) n : (n < length l1)%nat -> nth_error (l1 ++ l2) n = nth_error l1 n.
Proof. apply nth_error_app1. Qed.
Lemma nth_flat_map {A B} (f : A -> list B) ny (l : list A) i j a : (forall x, In x l -> length (f x) = ny) -> nth_error l i = Some a -> (j < ny)%nat ->
  nth_error (flat_map f l) (i * ny + j) = nth_error (f a) j.
Proof.
  revert i. induction l as [|b r IH]; intros i Hl Hi Hj; [destruct i; discriminate|].
  assert (Hb : length (f b) = ny) by (apply Hl; now left). destruct i as [|i]; cbn [flat_map nth_error] in *.
  - injection Hi as ->. apply nth_error_app1. cbn. lia.
  - rewrite nth_error_app2 by (rewrite Hb; nia). replace (S i * ny + j - length (f b))%nat with (i * ny + j)%nat by (rewrite Hb; cbn; lia).
    apply IH; auto. intros x Hx. apply Hl. now right.
Qed.
Lemma nth_combine {A B} (l : list A) (m : list B) i : nth_error (combine l m) i = match nth_error l i, nth_error m i with Some a, Some b => Some (a, b) | _, _ => None end.
Proof.
  revert m i. induction l as [|a l IH]; intros [|b m] [|i]; cbn; try reflexivity; [destruct (nth_error l i); reflexivity|apply IH].
Qed.
Lemma nth_seq n i : (i < n)%nat -> nth_error (seq 0 n) i = Some i.
Proof. intros H. rewrite (nth_error_nth' _ 0%nat) by (now rewrite seq_length). now rewrite seq_nth. Qed.
Lemma nth_rev {A} (l : list A) k : (k < length l)%nat -> nth_error (rev l) (length l - 1 - k) = nth_error l k.
Proof.
  revert k. induction l as [|a l IH]; intros k Hk; cbn [length rev] in *; [lia|].
  destruct k as [|k].
  - replace (S (length l) - 1 - 0)%nat with (length l) by lia. rewrite nth_error_app2 by (rewrite rev_length; lia). rewrite rev_length, Nat.sub_diag. reflexivity.
  - rewrite nth_error_app1 by (rewrite rev_length; lia). replace (S (length l) - 1 - S k)%nat with (length l - 1 - k)%nat by lia. apply IH. lia.
Qed.

(** The tower of a column and its cells. *)
Lemma grid_tower (xs ys zs : list R) xi yi x y : nth_error xs xi = Some x -> nth_error ys yi = Some y ->
  nth_error (grid_towers xs ys zs) (xi * length ys + yi) = Some (tower_points zs xi yi x y).
Proof.
  intros Hx Hy. unfold grid_towers.
  assert (Lx : (xi < length xs)%nat) by (apply nth_error_Some; congruence). assert (Ly : (yi < length ys)%nat) by (apply nth_error_Some; congruence).
  erewrite (nth_flat_map _ (length ys) _ xi yi (xi, x)).
  - rewrite (map_nth_error _ yi _ (d := (yi, y))); [reflexivity|]. rewrite nth_combine, nth_seq, Hy by assumption. reflexivity.
  - intros a _. rewrite map_length, combine_length, seq_length. apply Nat.min_id.
  - rewrite nth_combine, nth_seq, Hx by assumption. reflexivity.
  - assumption.
Qed.
Lemma tower_cell (zs : list R) xi yi x y zi z : nth_error zs zi = Some z ->
  nth_error (tower_points zs xi yi x y) (length zs - 1 - zi) = Some (mkPoint x y z xi yi).
Proof.
  intros Hz. unfold tower_points. apply (map_nth_error (fun z => mkPoint x y z xi yi)). rewrite nth_rev; [assumption|]. apply nth_error_Some. congruence.
Qed.

Lemma Forall2_nth {A B} (P : A -> B -> Prop) l m k a : Forall2 P l m -> nth_error l k = Some a -> exists b, nth_error m k = Some b /\ P a b.
Proof.
  intros H. revert k. induction H as [|x y l m Hxy H IH]; intros k Hk; [destruct k; discriminate|].
  destruct k as [|k]; cbn in Hk; [injection Hk as <-; exists y; split; [reflexivity|assumption]|apply IH; assumption].
Qed.

(** C32.  In every cell (xi,yi,zi) of the grid the arrays hold either the values
    of a cell that was not assigned or values of the stratum with the reported
    number, of an element of this stratum, and of an object or the background
    of this element in which the centre of the cell lies. *)
Theorem C32_arrays :
  forall (D : Type) (m : list (astrat R D)) (xs ys zs : list R) (d : D) xi yi zi x y z,
  nth_error xs xi = Some x -> nth_error ys yi = Some y -> nth_error zs zi = Some z ->
  exists v, assign_points m xs ys zs d xi yi zi = Some v /\
  (v = mkCell 0 0 (-1) (-1) (-1) (Some 0) (Some 0) \/
   c_facies v <> (-1)%Z /\
   exists si s e, c_strata v = Z.of_nat si /\ nth_error m si = Some s /\ In e (t_aes s) /\ c_ae v = e_num e /\ c_hat v = e_type e /\
     let p := mkPoint x y z xi yi in
     ((exists o d1 d2 w, In o (e_objs e) /\ o_zmin o <= z <= o_zmax o /\ o_check o d1 p = (d2, Some w) /\
         c_facies v = w_facies w /\ c_azim v = w_azim w /\ c_dip v = w_dip w /\ c_ha v = w_ha w) \/
      (e_sheet e = false /\ e_bottom e xi yi < z < e_top e xi yi /\
         c_facies v = e_bg_facies e /\ c_azim v = e_bg_azim e /\ c_dip v = e_bg_dip e))).
Proof.
  intros D m xs ys zs d xi yi zi x y z Hx Hy Hz. unfold assign_points.
  destruct (Forall2_nth _ _ _ _ _ (towers_sound m (grid_towers xs ys zs) d) (grid_tower xs ys zs xi yi x y Hx Hy)) as (rs & Er & Hr).
  rewrite Er. destruct (Forall2_nth _ _ _ _ _ Hr (tower_cell zs xi yi x y zi z Hz)) as (r & Err & Hl). rewrite Err. eexists. split; [reflexivity|].
  destruct r as [[i si]|]; [right|left; reflexivity].
  destruct (Hl i si eq_refl) as (Hf & s & e & H1 & H2 & _ & _ & H3 & H4 & H5). cbn [cell_of c_facies c_strata c_ae c_ha c_hat c_azim c_dip].
  split; [assumption|]. exists si, s, e. repeat (split; [first [assumption|reflexivity]|]).
  destruct H5 as [(o & d1 & d2 & w & Ho & Hb & Hc & Hw)|(Hs & Hb & Hw)]; [left; exists o, d1, d2, w; auto|right; auto].
Qed.
Print Assumptions C32_arrays.

Example C32_arrays_example :
  option_map (fun v => (c_facies v, c_strata v, c_ae v)) (assign_points ex_assign [1#2; 3#2]%Q [1#2]%Q [1#4; 3#4; 5#4; 13#4; 17#4; 23#4]%Q tt 0 0 4) = Some (6, 0, 0)%Z /\
  option_map (fun v => (c_facies v, c_strata v, c_ae v)) (assign_points ex_assign [1#2; 3#2]%Q [1#2]%Q [1#4; 3#4; 5#4; 13#4; 17#4; 23#4]%Q tt 1 0 0) = Some (3, 1, 2)%Z.
Proof. split; vm_compute; reflexivity. Qed.

(** C105.  A cell has the number of an object that contains it, or none (-1). *)
Section Numbers.
Context {D : Type}.
Implicit Types m : list (astrat R D).

Definition keeps_facies m : Prop := every_obj m (fun o => forall d p d' w, o_check o d p = (d', Some w) -> w_facies w <> (-1)%Z).
Definition numbered m (p : point R) (n : Z) : Prop :=
  n = (-1)%Z \/ exists s e o d d' w, In s m /\ In e (t_aes s) /\ In o (e_objs e) /\ o_check o d p = (d', Some w) /\ n = w_ha w.

Lemma scan_objs_number (e : aelem R D) p l : forall oi d i d' i' r,
  (forall o, In o l -> forall d d' w, o_check o d p = (d', Some w) -> w_facies w <> (-1)%Z) ->
  i_ha i = (-1)%Z -> scan_objs e p l oi d i = (d', i', r) ->
  match r with
  | Some _ => exists o d d' w, In o l /\ o_check o d p = (d', Some w) /\ i_ha i' = w_ha w
  | None => i_ha i' = (-1)%Z
  end.
Proof.
  induction l as [|o l IH]; intros oi d i d' i' r Hl Hi E; cbn [scan_objs] in E.
  - injection E as <- <- <-. assumption.
  - assert (Hr : forall o, In o l -> forall d d' w, o_check o d p = (d', Some w) -> w_facies w <> (-1)%Z) by (intros o' Ho'; apply Hl; now right).
    assert (L : forall oi d i d' i' r, i_ha i = (-1)%Z -> scan_objs e p l oi d i = (d', i', r) ->
       match r with Some _ => exists o0 d d' w, In o0 (o :: l) /\ o_check o0 d p = (d', Some w) /\ i_ha i' = w_ha w | None => i_ha i' = (-1)%Z end).
    { intros oi0 d0 i0 d0' i0' r0 Hi0 E0. pose proof (IH _ _ _ _ _ _ Hr Hi0 E0) as Q. destruct r0; [|assumption].
      destruct Q as (o' & d1 & d2 & w & Ho' & Hw). exists o', d1, d2, w. split; [now right|assumption]. }
    destruct (negb _); [injection E as <- <- <-; assumption|]. destruct (negb _); [eapply L; eauto|].
    destruct (o_check o d p) as [d1 w] eqn:Ec. destruct (found (do_write i w)) eqn:Ef.
    + injection E as <- <- <-. destruct w as [w|]; [|cbn in Ef; discriminate]. exists o, d, d1, w. split; [now left|]. split; [assumption|reflexivity].
    + destruct w as [w|]; [|eapply L; [|exact E]; assumption].
      exfalso. apply (Hl o (or_introl eq_refl) _ _ _ Ec). apply found_false in Ef. exact Ef.
Qed.

Lemma scan_aes_number m s p (l : list (aelem R D)) : keeps_facies m -> In s m -> (forall e, In e l -> In e (t_aes s)) -> forall aei oi d i d' i' c,
  i_ha i = (-1)%Z -> i_facies i = (-1)%Z -> scan_aes p l aei oi d i = (d', i', c) -> (found i' = false -> i_ha i' = (-1)%Z) /\ numbered m p (i_ha i').
Proof.
  intros Hm Hs. induction l as [|e l IH]; intros Hl aei oi d i d' i' c Hi Hif E; cbn [scan_aes] in E.
  - injection E as <- <- <-. cbn. split; [auto|left; assumption].
  - assert (Hr : forall e, In e l -> In e (t_aes s)) by (intros; apply Hl; now right).
    destruct (negb _); [eapply IH; eauto|]. destruct (assign_ae e p oi d i) as [[d1 i1] oi1] eqn:Ea.
    assert (Q : (found i1 = false -> i_ha i1 = (-1)%Z) /\ numbered m p (i_ha i1)).
    { unfold assign_ae in Ea. destruct (scan_objs e p (skipn oi (e_objs e)) oi d i) as [[d2 i2] r] eqn:Es.
      pose proof Es as Es2. apply scan_objs_sound in Es2; [|intros o Ho; rewrite <- (firstn_skipn oi); apply in_or_app; now right].
      apply scan_objs_number in Es; [|intros o Ho d3 d4 w; apply (Hm s e o Hs (Hl e (or_introl eq_refl))); rewrite <- (firstn_skipn oi); apply in_or_app; now right|assumption].
      destruct r as [j|].
      - injection Ea as <- <- <-. destruct Es as (o & d3 & d4 & w & Ho & Hc & Hw). split.
        + intros Hf. apply found_false in Hf. tauto.
        + right. exists s, e, o, d3, d4, w. split; [assumption|]. split; [apply Hl; now left|]. split; [rewrite <- (firstn_skipn oi); apply in_or_app; now right|]. auto.
      - destruct (e_sheet e); [injection Ea as <- <- <-; split; [auto|left; assumption]|].
        destruct (negb _ && negb _); injection Ea as <- <- <-; cbn; (split; [auto|left; assumption]). }
    destruct Q as (Q1 & Q2). destruct (found i1) eqn:Ef.
    + injection E as <- <- <-. split; [congruence|assumption].
    + exact (IH Hr _ _ _ _ _ _ _ (Q1 eq_refl) (proj1 (found_false _) Ef) E).
Qed.

Lemma scan_strata_number m p (l : list (astrat R D)) : keeps_facies m -> (forall s, In s l -> In s m) -> forall si aei oi d i d' r c,
  i_ha i = (-1)%Z -> i_facies i = (-1)%Z -> scan_strata p l si aei oi d i = (d', r, c) ->
  forall i' s', r = Some (i', s') -> numbered m p (i_ha i').
Proof.
  intros Hm. induction l as [|s l IH]; intros Hl si aei oi d i d' r c Hi Hif E i' s' Hr; cbn [scan_strata] in E.
  - injection E as <- <- <-. discriminate.
  - assert (Hl' : forall s, In s l -> In s m) by (intros; apply Hl; now right).
    destruct (negb _); [eapply IH; eauto|]. destruct (assign_stratum s p aei oi d i) as [[d1 i1] [a1 o1]] eqn:Ea.
    unfold assign_stratum in Ea. apply (scan_aes_number m s p) in Ea; auto; [|apply Hl; now left|intros e He; rewrite <- (firstn_skipn aei); apply in_or_app; now right].
    destruct Ea as (Q1 & Q2). destruct (found i1) eqn:Ef.
    + injection E as <- <- <-. injection Hr as <- <-. assumption.
    + exact (IH Hl' _ _ _ _ _ _ _ _ (Q1 eq_refl) (proj1 (found_false _) Ef) E _ _ Hr).
Qed.

Lemma towers_number m cols : keeps_facies m -> forall d,
  Forall2 (Forall2 (fun p r => forall i si, r = Some (i, si) -> numbered m p (i_ha i))) cols (towers m cols d).
Proof.
  intros Hm. induction cols as [|ps cols IH]; intros d; cbn [towers]; [constructor|].
  destruct (tower m ps (0, 0, 0)%nat d) as [d' rs] eqn:Et. constructor; [|apply IH].
  clear IH. revert Et. generalize (0, 0, 0)%nat as c. intros c. revert c d d' rs. induction ps as [|p ps IH]; intros c d d' rs E; cbn [tower] in E.
  - injection E as <- <-. constructor.
  - destruct (assign_cell m p c d) as [[d1 r] c1] eqn:Ec. destruct (tower m ps c1 d1) as [d2 rs'] eqn:Et.
    injection E as <- <-. constructor; [|eapply IH; eauto]. destruct c as [[si aei] oi]. unfold assign_cell in Ec. intros i si' ->.
    eapply (scan_strata_number m p (skipn si m) Hm); [|idtac|idtac|exact Ec|reflexivity]; [|reflexivity|reflexivity].
    intros s Hs. rewrite <- (firstn_skipn si). apply in_or_app. now right.
Qed.
End Numbers.

Theorem C105_object_numbers :
  forall (D : Type) (m : list (astrat R D)) (xs ys zs : list R) (d : D) xi yi zi x y z v,
  (forall s e o, In s m -> In e (t_aes s) -> In o (e_objs e) -> forall d p d' w, o_check o d p = (d', Some w) -> w_facies w <> (-1)%Z) ->
  nth_error xs xi = Some x -> nth_error ys yi = Some y -> nth_error zs zi = Some z ->
  assign_points m xs ys zs d xi yi zi = Some v ->
  c_ha v = (-1)%Z \/
  exists s e o d1 d2 w, In s m /\ In e (t_aes s) /\ In o (e_objs e) /\ o_check o d1 (mkPoint x y z xi yi) = (d2, Some w) /\ c_ha v = w_ha w.
Proof.
  intros D m xs ys zs d xi yi zi x y z v Hm Hx Hy Hz H. unfold assign_points in H.
  destruct (Forall2_nth _ _ _ _ _ (towers_number m (grid_towers xs ys zs) Hm d) (grid_tower xs ys zs xi yi x y Hx Hy)) as (rs & Er & Hr).
  rewrite Er in H. destruct (Forall2_nth _ _ _ _ _ Hr (tower_cell zs xi yi x y zi z Hz)) as (r & Err & Hl). rewrite Err in H. injection H as <-.
  destruct r as [[i si]|]; [|left; reflexivity]. exact (Hl i si eq_refl).
Qed.
Print Assumptions C105_object_numbers.

(** With an object that reports the facies -1 (a lag of an old file with facies
    -1) this is false: the cell gets the background with the number of the
    object it was not assigned to. *)
Definition ex_lost : list (astrat Q unit) := [mkAstrat 0%Q [ex_elem 0 0 2 [box 0 1 0 2 (mkWrite (-1) None None 4)]]].
Theorem C105_lost_facies_refuted :
  option_map (fun v => (c_facies v, c_ha v)) (assign_points ex_lost [1#2]%Q [1#2]%Q [1]%Q tt 0 0 0) = Some (3, 4)%Z.
Proof. vm_compute. reflexivity. Qed.
Print Assumptions C105_lost_facies_refuted.
