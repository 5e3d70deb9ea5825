(** Properties of generated facies sequences. *)
From Coq Require Import List ZArith Bool Lia.
From Verif Require Import Base FaciesModel FaciesSpec FaciesProofs.
Import ListNotations.

(** C51: length, first facies and succession. *)
Theorem C51_sequence num facies alt us l :
  alternating_facies num facies alt us = Ok l ->
  Z.of_nat (length l) = num /\ facies_sequence facies alt l.
Proof.
  unfold alternating_facies. destruct (Z.ltb_spec num 0); [discriminate|].
  destruct (choice facies (us 0)) as [v|] eqn:E; [|discriminate]. cbn.
  destruct (Z.eqb_spec num 0); [discriminate|].
  destruct (alternate facies alt _ _ v) as [r|] eqn:Er; [|discriminate]. cbn. intros [= <-].
  apply alternate_spec in Er as [H1 H2]. split; [cbn; lia|]. split; [|exact H2].
  exists v, r. split; [reflexivity|]. eapply choice_In; eauto.
Qed.

(** C51: with well formed alternatives nothing fails, for no draw, and all
    entries are facies of the element. *)
Theorem C51_never_fails num facies alt us :
  (1 <= num)%Z -> facies <> [] -> alternatives_ok facies alt ->
  exists l, alternating_facies num facies alt us = Ok l.
Proof.
  intros Hn Hf Hok. unfold alternating_facies. destruct (Z.ltb_spec num 0); [lia|].
  destruct (choice_total facies (us 0) Hf) as [v Hv]. rewrite Hv. cbn.
  destruct (Z.eqb_spec num 0); [lia|].
  destruct (alternate_total facies alt (Z.to_nat num - 1) (fun i => us (S i)) v Hok) as [r ->].
  - eapply choice_In; eauto.
  - cbn. eauto.
Qed.
Theorem C51_element_facies num facies alt us l :
  alternatives_ok facies alt -> alternating_facies num facies alt us = Ok l -> Forall (fun f => In f facies) l.
Proof.
  intros Hok H. apply C51_sequence in H as [_ [(v & r & -> & Hv) H]].
  assert (forall i u, nth_error (v :: r) i = Some u -> In u facies) as K.
  { induction i as [|i IH]; intros u Hu; [cbn in Hu; congruence|].
    destruct (nth_error (v :: r) i) as [w|] eqn:Ew.
    - specialize (H i w u Ew Hu). destruct alt as [alt|]; cbn in H; [|exact H].
      destruct H as (k & l & _ & _ & Hl & Hin). apply (proj2 Hok l); [eapply nth_error_In; eauto|exact Hin].
    - apply nth_error_None in Ew. assert (S i < length (v :: r)) by (apply nth_error_Some; congruence). lia. }
  apply Forall_forall. intros u Hu. apply In_nth_error in Hu as [i Hi]. eauto.
Qed.

(** C51: nothing else is ruled out: every admissible sequence is generated by
    some draws. *)
Theorem C51_every_sequence facies alt l :
  facies_sequence facies alt l -> exists us, alternating_facies (Z.of_nat (length l)) facies alt us = Ok l.
Proof.
  intros [(v & r & -> & Hv) H].
  destruct (choice_any facies v Hv) as [u Hu].
  destruct (alternate_any facies alt v r H) as [us Hus].
  exists (fun i => match i with O => u | S i => us i end).
  unfold alternating_facies. destruct (Z.ltb_spec (Z.of_nat (length (v :: r))) 0); [lia|].
  rewrite Hu. cbn [bind]. destruct (Z.eqb_spec (Z.of_nat (length (v :: r))) 0); [cbn in *; lia|].
  rewrite Nat2Z.id. cbn [length]. rewrite Nat.sub_succ, Nat.sub_0_r.
  change (fun i => us i) with us. rewrite Hus. reflexivity.
Qed.

Print Assumptions C51_sequence.
Print Assumptions C51_never_fails.
Print Assumptions C51_element_facies.
Print Assumptions C51_every_sequence.

(** Three facies; after 2 comes 5 or 7, after 5 comes 2, after 7 comes 7 or 2. *)
Example C51_example :
  let alt := Some [[5; 7]; [2]; [7; 2]]%Z in
  alternatives_ok [2; 5; 7]%Z alt /\
  alternating_facies 6 [2; 5; 7]%Z alt (fun i => nth i [0; 1; 0; 1; 0; 3] 0) = Ok [2; 7; 7; 2; 5; 2]%Z /\
  (exists l, alternating_facies 6 [2; 5; 7]%Z alt (fun i => i) = Ok l).
Proof.
  split; [|split].
  - split; [reflexivity|]. intros l [<-|[<-|[<-|[]]]]; (split; [discriminate|]); intros x Hx; cbn in *; tauto.
  - vm_compute. reflexivity.
  - eexists. vm_compute. reflexivity.
Qed.
(** A facies that is not listed stops the generation. *)
Example C51_unlisted :
  alternating_facies 3 [2; 5]%Z (Some [[9]; [2]]%Z) (fun _ => 0) = Err ValueError.
Proof. vm_compute. reflexivity. Qed.
