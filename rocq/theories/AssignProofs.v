(** Proofs about the assignment of cells. *)
From Coq Require Import List ZArith Reals Sorted Lia Lra Bool.
From Verif Require Import Base Num OrderSpec AssignModel AssignSpec.
Import ListNotations.
Local Open Scope R_scope.

Section Order.
Context {N : Num R} {O : TrueOrder N}.

Section Proofs.
Context {D : Type}.
Notation aobj := (aobj R D).
Notation aelem := (aelem R D).
Notation astrat := (astrat R D).
Notation point := (point R).
Notation write := (write R).
Notation ids := (ids R).

(** ** Soundness *)
Lemma found_true (i : ids) : found i = true <-> i_facies i <> (-1)%Z.
Proof. unfold found. rewrite negb_true_iff. apply Z.eqb_neq. Qed.
Lemma found_false (i : ids) : found i = false <-> i_facies i = (-1)%Z.
Proof. unfold found. rewrite negb_false_iff. apply Z.eqb_eq. Qed.

Lemma scan_objs_sound (e : aelem) p l : forall oi d i d' i' r,
  (forall o, In o l -> In o (e_objs e)) ->
  scan_objs e p l oi d i = (d', i', r) ->
  match r with
  | Some _ => i_facies i' <> (-1)%Z /\ i_ae i' = e_num e /\ i_hat i' = e_type e /\ in_object e p i'
  | None => i_facies i = (-1)%Z -> i_facies i' = (-1)%Z
  end.
Proof.
  induction l as [|o l IH]; intros oi d i d' i' r Hin E; cbn [scan_objs] in E.
  - injection E as <- <- <-. auto.
  - destruct (negb (nleb (p_z p) (o_zmax o))) eqn:E1. { injection E as <- <- <-. auto. }
    assert (Hr : forall o, In o l -> In o (e_objs e)) by (intros; apply Hin; now right).
    destruct (negb (nleb (o_zmin o) (p_z p))) eqn:E2. { eapply IH; eauto. }
    destruct (o_check o d p) as [d1 w] eqn:Ec.
    destruct (found (do_write i w)) eqn:Ef.
    + injection E as <- <- <-. apply found_true in Ef.
      destruct w as [w|]; [|cbn in Ef; congruence].
      cbn in Ef |- *. split; [assumption|]. split; [reflexivity|]. split; [reflexivity|].
      apply negb_false_iff in E1, E2. rewrite nleb_ord in E1, E2. apply Rleb_true in E1, E2.
      exists o, d, d1, w. split; [apply Hin; now left|]. repeat (split; auto).
    + specialize (IH _ _ _ _ _ _ Hr E). destruct r; [assumption|].
      intros _. apply IH. now apply found_false.
Qed.

Lemma assign_ae_sound (e : aelem) p oi d i d' i' oi' :
  i_facies i = (-1)%Z -> assign_ae e p oi d i = (d', i', oi') -> i_facies i' <> (-1)%Z ->
  i_ae i' = e_num e /\ i_hat i' = e_type e /\ (in_object e p i' \/ in_background e p i').
Proof.
  intros Hi E Hf. unfold assign_ae in E.
  destruct (scan_objs e p (skipn oi (e_objs e)) oi d i) as [[d1 i1] r] eqn:Es.
  apply scan_objs_sound in Es; [|intros o Ho; rewrite <- (firstn_skipn oi); apply in_or_app; now right].
  destruct r as [j|].
  - injection E as <- <- <-. tauto.
  - specialize (Es Hi). destruct (e_sheet e) eqn:Esh. { injection E as <- <- <-. congruence. }
    destruct (negb _ && negb _) eqn:Eb in E.
    + injection E as <- <- <-. cbn in Hf |- *. split; [reflexivity|]. split; [reflexivity|]. right.
      apply andb_true_iff in Eb as [E1 E2]. apply negb_true_iff in E1, E2.
      rewrite nleb_ord in E1, E2. apply Rleb_false in E1, E2. unfold in_background. cbn. auto.
    + injection E as <- <- <-. congruence.
Qed.

Lemma scan_aes_sound p (l : list aelem) : forall aei oi d i d' i' c,
  i_facies i = (-1)%Z -> scan_aes p l aei oi d i = (d', i', c) -> i_facies i' <> (-1)%Z ->
  exists e, In e l /\ e_zmin e <= p_z p /\ i_ae i' = e_num e /\ i_hat i' = e_type e /\
    (in_object e p i' \/ in_background e p i').
Proof.
  induction l as [|e l IH]; intros aei oi d i d' i' c Hi E Hf; cbn [scan_aes] in E.
  - injection E as <- <- <-. cbn in Hf. congruence.
  - destruct (negb (nleb (e_zmin e) (p_z p))) eqn:E1.
    + destruct (IH _ _ _ _ _ _ _ Hi E Hf) as (e' & ? & ?). exists e'. split; [now right|assumption].
    + destruct (assign_ae e p oi d i) as [[d1 i1] oi1] eqn:Ea.
      destruct (found i1) eqn:Ef.
      * injection E as <- <- <-. apply found_true in Ef.
        destruct (assign_ae_sound _ _ _ _ _ _ _ _ Hi Ea Ef) as (H1 & H2 & H3).
        apply negb_false_iff in E1. rewrite nleb_ord in E1. apply Rleb_true in E1.
        exists e. split; [now left|]. auto.
      * apply found_false in Ef.
        destruct (IH _ _ _ _ _ _ _ Ef E Hf) as (e' & ? & ?). exists e'. split; [now right|assumption].
Qed.

Lemma scan_aes_unfound p (l : list aelem) : forall aei oi d i d' i' c,
  scan_aes p l aei oi d i = (d', i', c) -> i_facies i' <> (-1)%Z \/ i_facies i' = (-1)%Z.
Proof. intros. destruct (Z.eq_dec (i_facies i') (-1)); auto. Qed.

Lemma scan_strata_sound p (l : list astrat) : forall si aei oi d i d' r c,
  i_facies i = (-1)%Z -> scan_strata p l si aei oi d i = (d', r, c) ->
  match r with
  | Some (i', si') => i_facies i' <> (-1)%Z /\ (si <= si')%nat /\
      exists s e, nth_error l (si' - si) = Some s /\ In e (t_aes s) /\ t_zmin s <= p_z p /\ e_zmin e <= p_z p /\
        i_ae i' = e_num e /\ i_hat i' = e_type e /\ (in_object e p i' \/ in_background e p i')
  | None => c = ((si + length l)%nat, snd (fst c), snd c)
  end.
Proof.
  induction l as [|s l IH]; intros si aei oi d i d' r c Hi E; cbn [scan_strata] in E.
  - injection E as <- <- <-. cbn. now rewrite Nat.add_0_r.
  - assert (Hrec : forall i1 d1, i_facies i1 = (-1)%Z -> scan_strata p l (S si) 0 0 d1 i1 = (d', r, c) ->
      match r with
      | Some (i', si') => i_facies i' <> (-1)%Z /\ (si <= si')%nat /\
          exists s0 e, nth_error (s :: l) (si' - si) = Some s0 /\ In e (t_aes s0) /\ t_zmin s0 <= p_z p /\ e_zmin e <= p_z p /\
            i_ae i' = e_num e /\ i_hat i' = e_type e /\ (in_object e p i' \/ in_background e p i')
      | None => c = ((si + length (s :: l))%nat, snd (fst c), snd c)
      end).
    { intros i1 d1 Hi1 E1. specialize (IH _ _ _ _ _ _ _ _ Hi1 E1).
      destruct r as [[i' si']|].
      - destruct IH as (H1 & H2 & s0 & e & H3 & H4). split; [assumption|]. split; [lia|].
        exists s0, e. split; [|assumption]. replace (si' - si)%nat with (S (si' - S si)) by lia. exact H3.
      - rewrite IH at 1. cbn [length]. f_equal. f_equal. lia. }
    destruct (negb (nleb (t_zmin s) (p_z p))) eqn:E1. { now apply (Hrec i d). }
    destruct (assign_stratum s p aei oi d i) as [[d1 i1] [a1 o1]] eqn:Ea.
    destruct (found i1) eqn:Ef.
    + injection E as <- <- <-. apply found_true in Ef. split; [assumption|]. split; [lia|].
      destruct (scan_aes_sound _ _ _ _ _ _ _ _ _ Hi Ea Ef) as (e & He & H2).
      apply negb_false_iff in E1. rewrite nleb_ord in E1. apply Rleb_true in E1.
      exists s, e. rewrite Nat.sub_diag. split; [reflexivity|]. split; [|tauto].
      rewrite <- (firstn_skipn aei). apply in_or_app. now right.
    + apply found_false in Ef. now apply (Hrec i1 d1).
Qed.

Lemma nth_error_skipn {A} (l : list A) n k : nth_error (skipn n l) k = nth_error l (n + k).
Proof.
  revert l; induction n; intros l; [reflexivity|]. destruct l; [now destruct k|]. cbn. apply IHn.
Qed.

Lemma assign_cell_sound (m : list astrat) p c d d' r c' :
  assign_cell m p c d = (d', r, c') ->
  match r with Some (i, si) => located m p i si | None => True end.
Proof.
  destruct c as [[si aei] oi]. intros E. unfold assign_cell in E.
  apply scan_strata_sound in E; [|reflexivity]. destruct r as [[i si']|]; [|trivial].
  destruct E as (H1 & H2 & s & e & H3 & H4). split; [assumption|]. exists s, e.
  rewrite nth_error_skipn in H3. replace (si + (si' - si))%nat with si' in H3 by lia. auto.
Qed.

Lemma tower_sound (m : list astrat) ps : forall c d d' rs,
  tower m ps c d = (d', rs) ->
  Forall2 (fun p r => forall i si, r = Some (i, si) -> located m p i si) ps rs.
Proof.
  induction ps as [|p ps IH]; intros c d d' rs E; cbn [tower] in E.
  - injection E as <- <-. constructor.
  - destruct (assign_cell m p c d) as [[d1 r] c1] eqn:Ec.
    destruct (tower m ps c1 d1) as [d2 rs'] eqn:Et.
    injection E as <- <-. constructor; [|eapply IH; eauto].
    intros i si ->. now apply assign_cell_sound in Ec.
Qed.

Lemma towers_sound (m : list astrat) cols : forall d,
  Forall2 (Forall2 (fun p r => forall i si, r = Some (i, si) -> located m p i si)) cols (towers m cols d).
Proof.
  induction cols as [|ps cols IH]; intros d; cbn [towers]; [constructor|].
  destruct (tower m ps (0, 0, 0)%nat d) as [d' rs] eqn:Et. constructor; [|apply IH].
  eapply tower_sound; eauto.
Qed.

(** ** A missed cell *)
Lemma tower_missed (m : list astrat) ps : forall si aei oi d,
  (length m <= si)%nat -> snd (tower m ps (si, aei, oi) d) = map (fun _ => None) ps.
Proof.
  induction ps as [|p ps IH]; intros si aei oi d Hs; [reflexivity|].
  cbn [tower]. unfold assign_cell. rewrite skipn_all2 by assumption. cbn [scan_strata].
  specialize (IH si aei oi d Hs).
  destruct (tower m ps (si, aei, oi) d) as [d' rs]. cbn in *. now rewrite IH.
Qed.
End Proofs.
End Order.
