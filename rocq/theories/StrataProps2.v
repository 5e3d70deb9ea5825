(** When exactly a stratum has elements (C77). *)
From Coq Require Import List ZArith QArith Bool Ascii String Reals Lra Lia.
From Verif Require Import Base Num ParseModel ConfigModel SurfaceModel SurfaceSpec SurfaceProofs StrataModel StrataSpec
  StrataProofs StrataProofs2 StrataProofs3 StrataProps.
Import ListNotations.
Local Open Scope R_scope.

(** The stored means decide: a stratum has elements if and only if the stored
    mean of its top is above that of its bottom. *)
Theorem C77_by_stored_means_partial :
  forall (g : grid R) fuel contacts params draws st strata s sb stp,
  Forall (sd_ok (columns g)) draws ->
  generate_model g fuel contacts params draws = Ok (st, strata) -> In s strata ->
  nth_error st (s_bottom s) = Some sb -> nth_error st (s_top s) = Some stp ->
  (s_aes s <> [] <-> zmean sb < zmean stp).
Proof.
  intros g fuel contacts params draws st strata s sb stp Hd E Hi Hb Ht.
  destruct (generate_strata_ok _ _ _ _ _ _ _ Hd E) as [_ H]. rewrite Forall_forall in H.
  destruct (H s Hi) as (_ & _ & _ & _ & _ & M). destruct (M sb stp Hb Ht) as [M1 M2]. split.
  - intros Hn. destruct (Rlt_le_dec (zmean sb) (zmean stp)) as [|Hl]; [assumption|]. now apply M2 in Hl.
  - intros Hl. now apply M1 in Hl.
Qed.
Print Assumptions C77_by_stored_means_partial.

(** In the run of [ex_model_run] both strata have elements. *)
Example C77_example : exists st s1 s2 b1 t1, ex_model_run = Ok (st, [s1; s2]) /\ s_aes s1 <> [] /\
  nth_error st (s_bottom s1) = Some b1 /\ nth_error st (s_top s1) = Some t1 /\ (zmean b1 < zmean t1)%Q.
Proof.
  do 5 eexists. split; [vm_compute; reflexivity|]. split; [discriminate|].
  split; [vm_compute; reflexivity|]. split; [vm_compute; reflexivity|]. vm_compute. reflexivity.
Qed.
