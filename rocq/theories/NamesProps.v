(** C19: the names of the directories of realizations. *)
From Coq Require Import List ZArith Bool Ascii String Lia.
From Verif Require Import Base ParseModel DirsModel DirsSpec DirsProofs DirsProofs2 NamesSpec.
Import ListNotations.
Local Open Scope string_scope.
Local Open Scope list_scope.
Local Open Scope nat_scope.

Lemma number_value ds : number ds = value_from 0 ds.
Proof.
  unfold number. set (f := fun v c => 10 * v + (nat_of_ascii c - 48)).
  assert (H : forall ds a, fold_left f ds a = value_from a ds); [|apply H].
  clear ds. induction ds as [|c ds IH]; intros a; [reflexivity|]. cbn [fold_left value_from]. apply IH.
Qed.

Lemma digit_of k : (k < 10)%nat -> digit (ascii_of_nat (48 + k)).
Proof. intros H. unfold digit. rewrite nat_ascii_embedding by lia. lia. Qed.
Lemma digits_digit fuel : forall n acc, Forall digit acc -> Forall digit (digits fuel n acc).
Proof.
  induction fuel as [|f IH]; intros n acc H; cbn [digits]; pose proof (digit_of (Nat.modulo n 10) (Nat.mod_upper_bound n 10 ltac:(lia))).
  - now constructor.
  - destruct (Nat.ltb n 10); [now constructor|]. apply IH. now constructor.
Qed.
Lemma format_digit n : Forall digit (format_03d n).
Proof.
  unfold format_03d. apply Forall_app. split.
  - apply Forall_forall. intros c Hc. apply repeat_spec in Hc as ->. unfold digit. cbn. lia.
  - apply digits_digit. constructor.
Qed.
Lemma digits_length fuel : forall n acc, (n <= fuel)%nat -> exists k, List.length (digits fuel n acc) = S (List.length acc) + k /\ (k = 0 \/ 10 ^ k <= n).
Proof.
  induction fuel as [|f IH]; intros n acc Hf; cbn [digits].
  - exists 0. split; [cbn [List.length]; lia|now left].
  - destruct (Nat.ltb_spec n 10) as [H|H]; [exists 0; split; [cbn [List.length]; lia|now left]|].
    destruct (IH (Nat.div n 10) (ascii_of_nat (48 + Nat.modulo n 10) :: acc)) as (k & E & Hk).
    { assert (Nat.div n 10 < n) by (apply Nat.div_lt; lia). lia. }
    exists (S k). split; [rewrite E; cbn [List.length]; lia|]. right. pose proof (Nat.div_mod n 10 ltac:(lia)).
    destruct Hk as [->|Hk]; [simpl; lia|]. rewrite Nat.pow_succ_r'. lia.
Qed.
Lemma format_three n : three_digits n (format_03d n).
Proof.
  split; [apply format_digit|]. split; [rewrite number_value; apply format_value|].
  unfold format_03d. rewrite app_length, repeat_length.
  destruct (digits_length n n [] ltac:(lia)) as (k & E & Hk). fold (decimal n) in E. cbn [List.length] in E.
  split; [lia|]. intros H. destruct Hk as [->|Hk]; [lia|].
  replace (3 - List.length (decimal n) + List.length (decimal n) - 1) with k by lia. exact Hk.
Qed.

(** The first, second, ... realization of several is written to the
    subdirectory real_001, real_002, ... of the run directory. *)
Theorem C19_names :
  forall (numsim : nat) (rundir : path) (i : nat),
  (1 < numsim)%nat -> (i < numsim)%nat ->
  exists ds, nth_error (realdirs numsim rundir) i = Some (rundir ++ [S_ "real_" ++ ds]) /\ three_digits (S i) ds.
Proof.
  intros numsim rundir i Hn Hi. exists (format_03d (S i)). split; [|apply format_three].
  unfold realdirs. rewrite (map_nth_error (realdir numsim rundir) i (seq 1 numsim) (d := S i)).
  - unfold realdir. destruct (Nat.ltb_spec 1 numsim); [|lia].
    destruct (real_name_plain (S i)) as (P1 & P2 & _ & P4). now rewrite pjoin_plain.
  - rewrite (nth_error_nth' (seq 1 numsim) 0) by (rewrite seq_length; exact Hi). now rewrite seq_nth by exact Hi.
Qed.
Print Assumptions C19_names.

Example C19_names_example : nth_error (realdirs 1200 [S_ "run"]) 41 = Some [S_ "run"; S_ "real_042"] /\
  nth_error (realdirs 1200 [S_ "run"]) 1199 = Some [S_ "run"; S_ "real_1200"] /\ three_digits 42 (S_ "042") /\ three_digits 1200 (S_ "1200").
Proof. split; [vm_compute; reflexivity|]. split; [vm_compute; reflexivity|]. split; [exact (format_three 42)|exact (format_three 1200)]. Qed.
