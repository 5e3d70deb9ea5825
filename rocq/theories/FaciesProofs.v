From Coq Require Import List ZArith Bool Lia.
From Verif Require Import Base FaciesModel FaciesSpec.
Import ListNotations.

Lemma choice_In l u v : choice l u = Ok v -> In v l.
Proof.
  unfold choice. destruct (nth_error l (u mod length l)) eqn:E; [|discriminate].
  intros [= <-]. eapply nth_error_In; eauto.
Qed.
Lemma choice_total l u : l <> [] -> exists v, choice l u = Ok v.
Proof.
  intros Hl. unfold choice.
  assert (length l <> 0) by (destruct l; [congruence|discriminate]).
  destruct (nth_error l (u mod length l)) eqn:E; eauto.
  apply nth_error_None in E. pose proof (Nat.mod_upper_bound u (length l) H). lia.
Qed.
Lemma choice_any l v : In v l -> exists u, choice l u = Ok v.
Proof.
  intros Hv. apply In_nth_error in Hv as [n Hn]. exists n. unfold choice.
  assert (n < length l) by (apply nth_error_Some; congruence).
  rewrite Nat.mod_small by assumption. now rewrite Hn.
Qed.

Lemma index_of_spec v l k : index_of v l = Ok k <-> nth_error l k = Some v /\ (forall j, j < k -> nth_error l j <> Some v).
Proof.
  revert k. induction l as [|x l IH]; intros k; cbn.
  - split; [discriminate|]. intros [H _]. destruct k; discriminate.
  - destruct (Z.eqb_spec x v) as [->|Hne].
    + split.
      * intros [= <-]. split; [reflexivity|]. intros j Hj. lia.
      * intros [H1 H2]. destruct k; [reflexivity|]. exfalso. apply (H2 0); [lia|reflexivity].
    + destruct (index_of v l) as [i|e] eqn:E; cbn.
      * split.
        -- intros [= <-]. destruct (proj1 (IH i) eq_refl) as [H1 H2]. split; [exact H1|].
           intros [|j] Hj; cbn; [congruence|]. apply H2. lia.
        -- intros [H1 H2]. destruct k; [cbn in H1; congruence|].
           assert (Ok i = Ok k) as [= <-]; [|reflexivity].
           apply (IH k). split; [exact H1|]. intros j Hj. apply (H2 (S j)). lia.
      * split; [discriminate|]. intros [H1 H2]. destruct k; [cbn in H1; congruence|].
        assert (Err e = Ok k) as C; [|discriminate].
        apply (IH k). split; [exact H1|]. intros j Hj. apply (H2 (S j)). lia.
Qed.
Lemma index_of_total v l : In v l -> exists k, index_of v l = Ok k.
Proof.
  induction l as [|x l IH]; [intros []|]. intros [->|Hv]; cbn.
  - rewrite Z.eqb_refl. eauto.
  - destruct (x =? v)%Z; eauto. destruct (IH Hv) as [k ->]. cbn. eauto.
Qed.

Definition step facies alt us prev : res Z :=
  match alt with
  | Some alt => let* i := index_of prev facies in
                match nth_error alt i with Some l => choice l us | None => Err IndexError end
  | None => choice facies us
  end.
Lemma alternate_S facies alt n us prev :
  alternate facies alt (S n) us prev =
  let* v := step facies alt (us 0) prev in
  let* r := alternate facies alt n (fun i => us (S i)) v in Ok (v :: r).
Proof. reflexivity. Qed.
Lemma step_spec facies alt u prev v : step facies alt u prev = Ok v -> may_follow facies alt prev v.
Proof.
  unfold step, may_follow. destruct alt as [alt|].
  - destruct (index_of prev facies) as [k|] eqn:E; [|discriminate]. cbn.
    apply index_of_spec in E as [E1 E2].
    destruct (nth_error alt k) as [l|] eqn:El; [|discriminate].
    intros H. exists k, l. split; [exact E1|]. split; [exact E2|]. split; [exact El|]. eapply choice_In; eauto.
  - apply choice_In.
Qed.
Lemma step_any facies alt prev v : may_follow facies alt prev v -> exists u, step facies alt u prev = Ok v.
Proof.
  unfold step, may_follow. destruct alt as [alt|].
  - intros (k & l & E1 & E2 & El & Hv).
    assert (E : index_of prev facies = Ok k) by (apply index_of_spec; auto).
    destruct (choice_any l v Hv) as [u Hu]. exists u. rewrite E. cbn. now rewrite El.
  - apply choice_any.
Qed.
Lemma step_total facies alt u prev :
  alternatives_ok facies alt -> In prev facies -> exists v, step facies alt u prev = Ok v /\ In v facies.
Proof.
  intros Hok Hp. unfold step. destruct alt as [alt|]; cbn in Hok.
  - destruct Hok as [Hlen Hok]. destruct (index_of_total prev facies Hp) as [k E]. rewrite E. cbn.
    apply index_of_spec in E as [E _].
    destruct (nth_error alt k) as [l|] eqn:El.
    + destruct (Hok l) as [Hne Hin]; [eapply nth_error_In; eauto|].
      destruct (choice_total l u Hne) as [v Hv]. exists v. split; [exact Hv|]. apply Hin. eapply choice_In; eauto.
    + apply nth_error_None in El. assert (k < length facies) by (apply nth_error_Some; congruence). lia.
  - destruct (choice_total facies u) as [v Hv]; [intros ->; contradiction|].
    exists v. split; [exact Hv|]. eapply choice_In; eauto.
Qed.

Lemma alternate_spec facies alt n us prev r :
  alternate facies alt n us prev = Ok r ->
  length r = n /\
  forall i u v, nth_error (prev :: r) i = Some u -> nth_error (prev :: r) (S i) = Some v -> may_follow facies alt u v.
Proof.
  revert us prev r. induction n as [|n IH]; intros us prev r.
  - cbn. intros [= <-]. split; [reflexivity|]. intros [|i] u v _ H; cbn in H; [discriminate|destruct i; discriminate].
  - rewrite alternate_S. destruct (step facies alt (us 0) prev) as [v|] eqn:E; [|discriminate]. cbn.
    destruct (alternate facies alt n (fun i => us (S i)) v) as [r'|] eqn:Er; [|discriminate]. cbn. intros [= <-].
    destruct (IH _ _ _ Er) as [H1 H2]. split; [cbn; lia|].
    intros [|i] u w Hu Hw.
    + cbn in Hu, Hw. injection Hu as <-. injection Hw as <-. eapply step_spec; eauto.
    + apply (H2 i u w); assumption.
Qed.
Lemma alternate_total facies alt n us prev :
  alternatives_ok facies alt -> In prev facies -> exists r, alternate facies alt n us prev = Ok r.
Proof.
  intros Hok. revert us prev. induction n as [|n IH]; intros us prev Hp; [cbn; eauto|].
  rewrite alternate_S. destruct (step_total facies alt (us 0) prev Hok Hp) as (v & -> & Hv). cbn.
  destruct (IH (fun i => us (S i)) v Hv) as [r ->]. cbn. eauto.
Qed.
Lemma alternate_any facies alt prev r :
  (forall i u v, nth_error (prev :: r) i = Some u -> nth_error (prev :: r) (S i) = Some v -> may_follow facies alt u v) ->
  exists us, alternate facies alt (length r) us prev = Ok r.
Proof.
  revert prev. induction r as [|v r IH]; intros prev H.
  - exists (fun _ => 0). reflexivity.
  - destruct (IH v) as [us Hus].
    + intros i u w Hu Hw. apply (H (S i)); assumption.
    + destruct (step_any facies alt prev v) as [u0 Hu0]; [apply (H 0); reflexivity|].
      exists (fun i => match i with O => u0 | S i => us i end).
      cbn [length]. rewrite alternate_S. rewrite Hu0. cbn. change (fun i => us i) with us. now rewrite Hus.
Qed.
