(** Lemmas about centrelines. *)
From Coq Require Import List ZArith Bool Lia Reals Lra Psatz.
From Verif Require Import Base Num TensorModel ChannelModel CurveModel CurveSpec.
Import ListNotations.
Local Open Scope R_scope.

Lemma Rgtb_true x y : Rgtb x y = true <-> y < x.
Proof. unfold Rgtb. rewrite negb_true_iff. apply Rleb_false. Qed.
Lemma Rgtb_false x y : Rgtb x y = false <-> x <= y.
Proof. unfold Rgtb. rewrite negb_false_iff. apply Rleb_true. Qed.

Lemma pyget_nth (l : list R) j v : pyget l (Z.of_nat j) = Ok v -> (j < List.length l)%nat /\ v = nth j l 0.
Proof.
  unfold pyget, pyidx. replace (0 <=? Z.of_nat j)%Z with true by (symmetry; apply Z.leb_le; lia).
  destruct (Z.ltb_spec (Z.of_nat j) (Z.of_nat (List.length l))) as [H|H]; cbn [andb]; [|repeat match goal with |- context [if ?b then _ else _] => destruct b eqn:? end; try discriminate].
  - rewrite Nat2Z.id. destruct (nth_error l j) as [w|] eqn:E; [|discriminate]. intros [= <-]. split; [lia|]. symmetry. now apply nth_error_nth.
  - lia.
Qed.
Lemma pyget_nth_ok (l : list R) j : (j < List.length l)%nat -> pyget l (Z.of_nat j) = Ok (nth j l 0).
Proof. intros H. apply pyget_nat. now apply nth_error_nth'. Qed.

Section Path.
Variable p : nat -> R * R.
Lemma path_ge0 i n : 0 <= path_length p i n.
Proof. induction n as [|n IH]; cbn [path_length]; [lra|]. match goal with |- context [sqrt ?x] => pose proof (sqrt_pos x) end. lra. Qed.
Lemma path_split i n m : path_length p i (n + m) = path_length p i n + path_length p (i + n) m.
Proof.
  induction m as [|m IH]; [rewrite Nat.add_0_r; cbn; lra|]. rewrite Nat.add_succ_r. cbn [path_length]. rewrite IH.
  replace (i + S (n + m))%nat with (i + n + S m)%nat by lia. replace (i + (n + m))%nat with (i + n + m)%nat by lia. ring.
Qed.
Lemma path_shrink i j n : path_length p (i + j) n <= path_length p i (j + n).
Proof. rewrite path_split. pose proof (path_ge0 i j). lra. Qed.
Lemma path_mono i n m : (n <= m)%nat -> path_length p i n <= path_length p i m.
Proof. intros H. replace m with (n + (m - n))%nat by lia. rewrite path_split. pose proof (path_ge0 (i + n) (m - n)). lra. Qed.
End Path.

Definition corner (xs ys : list R) (i : nat) : R * R := (nth i xs 0, nth i ys 0).

Section Walk.
Variables (xs ys : list R) (tol : R).
Let p := corner xs ys.

Lemma search_spec m st a r : search imported_names xs ys tol (path_length p st (a - 1 - st)) (seq a m) = Ok r ->
  (st < a)%nat -> path_length p st (a - 1 - st) <= tol ->
  match r with
  | Some j => (a <= j < a + m)%nat /\ tol < path_length p st (j - st) /\ path_length p st (j - 1 - st) <= tol
  | None => path_length p st (a + m - 1 - st) <= tol
  end.
Proof.
  revert a. induction m as [|m IH]; intros a H Ha Ht; cbn [seq search] in H.
  - injection H as <-. now rewrite Nat.add_0_r.
  - cbn [imported_names nm_sqrt lookup bind] in H. replace (Z.of_nat a - 1)%Z with (Z.of_nat (a - 1)) in H by lia.
    destruct (pyget xs (Z.of_nat a)) as [x1|] eqn:E1; [|discriminate]. destruct (pyget xs (Z.of_nat (a - 1))) as [x0|] eqn:E2; [|discriminate].
    destruct (pyget ys (Z.of_nat a)) as [y1|] eqn:E3; [|discriminate]. destruct (pyget ys (Z.of_nat (a - 1))) as [y0|] eqn:E4; [|discriminate].
    cbn [bind] in H. apply pyget_nth in E1 as [_ ->], E2 as [_ ->], E3 as [_ ->], E4 as [_ ->].
    assert (K : path_length p st (a - 1 - st) + sqrt ((nth a xs 0 - nth (a - 1) xs 0) ^ 2 + (nth a ys 0 - nth (a - 1) ys 0) ^ 2) = path_length p st (a - st)).
    { replace (a - st)%nat with (S (a - 1 - st)) by lia. cbn [path_length]. unfold p at 3 4 5 6, corner. cbn [fst snd].
      replace (st + S (a - 1 - st))%nat with a by lia. replace (st + (a - 1 - st))%nat with (a - 1)%nat by lia. reflexivity. }
    rewrite K in H. destruct (Rgtb _ tol) eqn:E.
    + injection H as <-. apply Rgtb_true in E. split; [lia|]. split; assumption.
    + apply Rgtb_false in E. replace (a - st)%nat with (S a - 1 - st)%nat in H, E by lia. apply IH in H; [|lia|assumption].
      destruct r as [j|]; [destruct H as (H1 & H2); split; [lia|assumption]|]. now replace (a + S m - 1 - st)%nat with (S a + m - 1 - st)%nat by lia.
Qed.
Lemma search_ok tot m a : (1 <= a)%nat -> (a + m <= List.length xs)%nat -> (a + m <= List.length ys)%nat -> exists r, search imported_names xs ys tol tot (seq a m) = Ok r.
Proof.
  revert a tot. induction m as [|m IH]; intros a tot Ha Hx Hy; cbn [seq search]; [eauto|].
  cbn [imported_names nm_sqrt lookup bind]. replace (Z.of_nat a - 1)%Z with (Z.of_nat (a - 1)) by lia.
  rewrite !pyget_nth_ok by lia. cbn [bind]. destruct (Rgtb _ _); [eauto|]. apply IH; lia.
Qed.

(** What the while loop adds when it starts at [ic]. *)
Fixpoint spaced_from (n ic : nat) (l : list nat) : Prop :=
  match l with
  | [] => path_length p ic (n - 1 - ic) <= tol
  | b :: r => (ic < b < n)%nat /\ tol < path_length p ic (b - ic) /\ path_length p ic (b - 1 - ic) <= tol /\ spaced_from n (b + 1) r
  end.
Lemma last_seq a m d : (0 < m)%nat -> last (seq a m) d = (a + m - 1)%nat.
Proof. intros H. replace m with (S (m - 1)) by lia. rewrite seq_S, last_last. lia. Qed.

Lemma walk_spec nc fuel ic idx l : 0 <= tol -> walk imported_names xs ys tol nc fuel ic idx = Ok l ->
  exists r, l = idx ++ r /\ spaced_from nc ic r.
Proof.
  intros Ht. revert ic idx. induction fuel as [|fuel IH]; intros ic idx H; cbn [walk] in H; destruct (Nat.ltb_spec ic nc) as [Hi|Hi]; try discriminate.
  1, 3: injection H as <-; exists []; rewrite app_nil_r; split; [reflexivity|]; cbn [spaced_from]; replace (nc - 1 - ic)%nat with 0%nat by lia; exact Ht.
  destruct (search _ _ _ _ _ _) as [o|] eqn:E; [|discriminate]. cbn [bind] in H.
  replace 0 with (path_length p ic (ic + 1 - 1 - ic)) in E by (replace (ic + 1 - 1 - ic)%nat with 0%nat by lia; reflexivity).
  apply search_spec in E; [|lia|replace (ic + 1 - 1 - ic)%nat with 0%nat by lia; exact Ht].
  destruct o as [j|].
  - apply IH in H as (r & -> & Hr). exists (j :: r). rewrite <- app_assoc. split; [reflexivity|]. cbn [spaced_from]. destruct E as (E1 & E2 & E3). repeat split; try lia; assumption.
  - assert (Hstop : walk imported_names xs ys tol nc fuel (last (seq (ic + 1) (nc - (ic + 1))) (ic + 1) + 1)%nat idx = Ok idx).
    { assert (nc <= last (seq (ic + 1) (nc - (ic + 1))) (ic + 1) + 1)%nat.
      { destruct (Nat.eq_dec (nc - (ic + 1)) 0) as [e0|]; [rewrite e0; cbn; lia|]. rewrite last_seq by lia. lia. }
      destruct fuel; cbn [walk]; (match goal with |- context [Nat.ltb ?a ?b] => destruct (Nat.ltb_spec a b) end); try lia; reflexivity. }
    rewrite Hstop in H. injection H as <-. exists []. rewrite app_nil_r. split; [reflexivity|]. cbn [spaced_from].
    now replace (nc - 1 - ic)%nat with (ic + 1 + (nc - (ic + 1)) - 1 - ic)%nat by lia.
Qed.
Lemma walk_ok nc fuel ic idx : (nc <= List.length xs)%nat -> (nc <= List.length ys)%nat -> (nc <= fuel + ic)%nat ->
  0 <= tol -> exists l, walk imported_names xs ys tol nc fuel ic idx = Ok l.
Proof.
  intros Hx Hy. revert ic idx. induction fuel as [|fuel IH]; intros ic idx Hf Ht; cbn [walk]; destruct (Nat.ltb_spec ic nc); eauto; [lia|].
  destruct (search_ok 0 (nc - (ic + 1)) (ic + 1)) as (r & E); [lia|lia|lia|]. rewrite E. cbn [bind].
  replace 0 with (path_length p ic (ic + 1 - 1 - ic)) in E by (replace (ic + 1 - 1 - ic)%nat with 0%nat by lia; reflexivity).
  apply search_spec in E; [|lia|replace (ic + 1 - 1 - ic)%nat with 0%nat by lia; exact Ht].
  destruct r as [j|]; apply IH; try assumption; [lia|].
  destruct (Nat.eq_dec (nc - (ic + 1)) 0) as [e0|]; [rewrite e0; cbn; lia|]. rewrite last_seq by lia. lia.
Qed.
Lemma spaced_from_spaced nc r a ic : (a <= ic)%nat -> (ic <= a + 1)%nat -> spaced_from nc ic r -> spaced p tol nc a r.
Proof.
  revert a ic. induction r as [|b r IH]; intros a ic H1 H2 H; cbn [spaced spaced_from] in *.
  - eapply Rle_trans; [|exact H]. destruct (Nat.eq_dec ic a) as [->|].
    + destruct (Nat.le_gt_cases (nc - 1) a).
      * replace (nc - 1 - (a + 1))%nat with 0%nat by lia. apply path_ge0.
      * replace (nc - 1 - a)%nat with (1 + (nc - 1 - (a + 1)))%nat by lia. apply path_shrink.
    + replace ic with (a + 1)%nat by lia. lra.
  - destruct H as (Hb & Ht & Hl & Hr). split; [|split; [lia|]].
    + split; [lia|]. split.
      * eapply Rlt_le_trans; [exact Ht|]. replace ic with (a + (ic - a))%nat at 1 by lia. replace (b - a)%nat with ((ic - a) + (b - ic))%nat by lia. apply path_shrink.
      * eapply Rle_trans; [|exact Hl]. destruct (Nat.eq_dec ic a) as [->|].
        -- destruct (Nat.le_gt_cases (b - 1) a).
           ++ replace (b - 1 - (a + 1))%nat with 0%nat by lia. apply path_ge0.
           ++ replace (b - 1 - a)%nat with (1 + (b - 1 - (a + 1)))%nat by lia. apply path_shrink.
        -- replace ic with (a + 1)%nat by lia. lra.
    + eapply IH; [| |exact Hr]; lia.
Qed.
Lemma spaced_below nc r a : spaced p tol nc a r -> Forall (fun b => (b < nc)%nat) r.
Proof. revert a. induction r as [|b r IH]; intros a H; cbn in H; constructor; [lia|]. eapply IH. apply H. Qed.
End Walk.

Lemma mapM_pyget l idx vs : mapM (fun i => pyget l (Z.of_nat i)) idx = Ok vs -> vs = map (fun i => nth i l 0) idx.
Proof.
  revert vs. induction idx as [|i idx IH]; intros vs H; cbn [mapM] in H; [now injection H as <-|].
  destruct (pyget l (Z.of_nat i)) as [v|] eqn:E; [|discriminate]. cbn [bind] in H.
  destruct (mapM _ idx) as [vs'|] eqn:E2; [|discriminate]. cbn [bind] in H. injection H as <-. cbn [map].
  apply pyget_nth in E as [_ ->]. f_equal. now apply IH.
Qed.
Lemma mapM_pyget_ok l idx : Forall (fun i => (i < List.length l)%nat) idx -> mapM (fun i => pyget l (Z.of_nat i)) idx = Ok (map (fun i => nth i l 0) idx).
Proof. induction 1 as [|i idx Hi _ IH]; cbn [mapM map]; [reflexivity|]. rewrite pyget_nth_ok by assumption. cbn [bind]. now rewrite IH. Qed.

Lemma arange_length start stop step : List.length (arange start stop step) = Z.to_nat (nceil ((stop - start) / step)).
Proof. unfold arange. now rewrite map_length, seq_length. Qed.
Lemma arange_nth start stop step i : (i < List.length (arange start stop step))%nat -> nth i (arange start stop step) 0 = start + INR i * step.
Proof.
  intros H. rewrite arange_length in H. unfold arange.
  rewrite (nth_indep _ 0 (start + INR 0 * step)) by (now rewrite map_length, seq_length).
  rewrite (map_nth (fun i => start + INR i * step) _ 0%nat). now rewrite seq_nth.
Qed.

Lemma interp_polygon l x : on_polygon l x (interp l x).
Proof.
  unfold interp, on_polygon. destruct (Rleb_spec x 0) as [H|H]; [now left|]. right. destruct (Rleb_spec (INR (List.length l - 1)) x) as [H2|H2]; [now left|]. right.
  pose proof (Int_part_spec x) as Hi. assert (Hz : (0 <= Int_part x)%Z) by (apply le_IZR; assert (-1 < IZR (Int_part x)) by lra; apply (IZR_le 0); apply (lt_IZR (-1)) in H0; lia).
  assert (En : INR (Z.to_nat (Int_part x)) = IZR (Int_part x)) by (rewrite INR_IZR_INZ, Z2Nat.id by lia; reflexivity).
  exists (Z.to_nat (Int_part x)). split; [|split].
  - assert (INR (Z.to_nat (Int_part x)) < INR (List.length l - 1)) by lra. apply INR_lt in H0. lia.
  - rewrite S_INR, En. lra.
  - rewrite S_INR. ring.
Qed.
