(** C72: numbers are read with line breaks around them, and no number contains
    a bracket (so the hypotheses of C02 and C72 hold of [py_float] and [py_int]). *)
From Coq Require Import List ZArith Bool Ascii String Arith Lia QArith.
From Verif Require Import Base ParseModel ParseSpec ParseProofs ConfigModel IniModel BackupProofs NumberModel ParseProps2.
Import ListNotations.
Local Open Scope char_scope.
Local Open Scope nat_scope.
Local Open Scope list_scope.

Definition bracket (c : ascii) : Prop := c = "[" \/ c = "]".
Lemma bracket_space c : bracket c -> is_space c = false.
Proof. intros [->| ->]; reflexivity. Qed.
Lemma bracket_digit c : bracket c -> is_digit c = false.
Proof. intros [->| ->]; reflexivity. Qed.
Lemma strip_keeps c s : bracket c -> In c s -> In c (strip_sp s).
Proof.
  intros Hc Hi. unfold strip_sp. destruct (lstrip_split s) as (b & E & Hb & _). destruct (rstrip_split (lstrip_sp s)) as (b' & E' & Hb' & _).
  rewrite E, E' in Hi. pose proof (bracket_space c Hc) as Hs.
  apply in_app_or in Hi as [Hi|Hi]; [rewrite Forall_forall in Hb; rewrite (Hb c Hi) in Hs; discriminate|].
  apply in_app_or in Hi as [Hi|Hi]; [exact Hi|rewrite Forall_forall in Hb'; rewrite (Hb' c Hi) in Hs; discriminate].
Qed.
Lemma sign_keeps c s : bracket c -> In c s -> In c (snd (sign s)).
Proof.
  intros Hc Hi. destruct s as [|x r]; [exact Hi|]. unfold sign. destruct (Ascii.eqb_spec x "-") as [->|]; [|destruct (Ascii.eqb_spec x "+") as [->|]; [|exact Hi]];
    (destruct Hi as [<-|Hi]; [destruct Hc; discriminate|exact Hi]).
Qed.
Lemma digits_keep c s : bracket c -> In c s -> forall acc k, In c (snd (leading_digits s acc k)).
Proof.
  intros Hc. induction s as [|x r IH]; intros Hi acc k; [exact Hi|]. cbn [leading_digits]. destruct (is_digit x) eqn:E; [|exact Hi].
  destruct Hi as [->|Hi]; [rewrite (bracket_digit c Hc) in E; discriminate|]. now apply IH.
Qed.
Lemma exponent_keeps c m s q : bracket c -> decimal_exponent m s = Ok q -> ~ In c s.
Proof.
  intros Hc H Hi. destruct s as [|x r]; [exact Hi|]. unfold decimal_exponent in H.
  destruct (Ascii.eqb x "e" || Ascii.eqb x "E") eqn:E; [|discriminate H].
  assert (Hr : In c r).
  { destruct Hi as [->|Hi]; [|exact Hi]. destruct Hc as [->| ->]; discriminate E. }
  destruct (sign r) as [neg r2] eqn:Es. pose proof (sign_keeps c r Hc Hr) as H2. rewrite Es in H2. cbn [snd] in H2.
  pose proof (digits_keep c r2 Hc H2 0%Z 0) as H3. destruct (leading_digits r2 0%Z 0) as [[e k] r3]. cbn [snd] in H3.
  destruct r3; [destruct H3|discriminate H].
Qed.
Lemma float_no_bracket t q : py_float t = Ok q -> ~ In "[" t /\ ~ In "]" t.
Proof.
  intros H. enough (E : forall c, bracket c -> ~ In c t) by (split; apply E; [now left|now right]).
  intros c Hc Hi. apply (strip_keeps c t Hc) in Hi. unfold py_float in H. pose proof (sign_keeps c _ Hc Hi) as H1. destruct (sign (strip_sp t)) as [neg s1]. cbn [snd] in H1.
  pose proof (digits_keep c s1 Hc H1 0%Z 0) as H2. destruct (leading_digits s1 0%Z 0) as [[a k] s2]. cbn [snd] in H2.
  destruct s2 as [|x r]; [destruct H2|]. destruct (Ascii.eqb_spec x ".") as [->|Hx].
  - assert (Hr : In c r) by (destruct H2 as [<-|H2]; [destruct Hc; discriminate|exact H2]).
    pose proof (digits_keep c r Hc Hr a 0) as H3. destruct (leading_digits r a 0) as [[a2 k2] s3]. cbn [snd] in H3.
    destruct (Nat.eqb (k + k2) 0); [discriminate H|]. exact (exponent_keeps c _ _ _ Hc H H3).
  - destruct (Nat.eqb (k + 0) 0); [discriminate H|]. exact (exponent_keeps c _ _ _ Hc H H2).
Qed.
Lemma int_no_bracket t q : py_int t = Ok q -> ~ In "[" t /\ ~ In "]" t.
Proof.
  intros H. enough (E : forall c, bracket c -> ~ In c t) by (split; apply E; [now left|now right]).
  intros c Hc Hi. apply (strip_keeps c t Hc) in Hi. unfold py_int in H. pose proof (sign_keeps c _ Hc Hi) as H1. destruct (sign (strip_sp t)) as [neg s1]. cbn [snd] in H1.
  pose proof (digits_keep c s1 Hc H1 0%Z 0) as H2. destruct (leading_digits s1 0%Z 0) as [[a k] s2]. cbn [snd] in H2.
  destruct s2 as [|x r]; [destruct H2|discriminate H].
Qed.
Lemma lstrip_app a s : Forall (fun c => is_space c = true) a -> lstrip_sp (a ++ s) = lstrip_sp s.
Proof. induction 1 as [|c a Hc _ IH]; [reflexivity|]. cbn [app lstrip_sp]. now rewrite Hc. Qed.
Lemma lstrip_app_r t b : lstrip_sp t <> [] -> lstrip_sp (t ++ b) = lstrip_sp t ++ b.
Proof.
  induction t as [|c t IH]; [cbn; congruence|]. cbn [app lstrip_sp]. destruct (is_space c); [exact IH|reflexivity].
Qed.
Lemma rstrip_app s b : Forall (fun c => is_space c = true) b -> rstrip_sp (s ++ b) = rstrip_sp s.
Proof. intros H. unfold rstrip_sp. rewrite rev_app_distr. rewrite lstrip_app; [reflexivity|]. now apply Forall_rev. Qed.
Lemma lstrip_nil_spaces t : lstrip_sp t = [] -> Forall (fun c => is_space c = true) t.
Proof. intros H. destruct (lstrip_split t) as (b & E & Hb & _). rewrite H, app_nil_r in E. now rewrite E. Qed.
Lemma strip_around a t b : breaks a -> breaks b -> strip_sp (a ++ t ++ b) = strip_sp t.
Proof.
  intros Ha Hb. assert (Hs : forall u, breaks u -> Forall (fun c => is_space c = true) u) by (intros u Hu; eapply Forall_impl; [|exact Hu]; intros c ->; reflexivity).
  apply Hs in Ha, Hb. unfold strip_sp. rewrite lstrip_app by exact Ha. destruct (lstrip_sp t) as [|c r] eqn:E.
  - apply lstrip_nil_spaces in E. rewrite lstrip_app by exact E. rewrite <- (app_nil_r b). now rewrite lstrip_app by exact Hb.
  - rewrite lstrip_app_r by congruence. rewrite E. now apply rstrip_app.
Qed.

(** Lists of numbers on several lines, and lists nested three deep: what C72 and
    C02 ask of the conversion holds of float and int. *)
Theorem C72_numbers_partial :
  (forall t q, py_float t = Ok q -> ~ In "[" t /\ ~ In "]" t) /\ (forall t z, py_int t = Ok z -> ~ In "[" t /\ ~ In "]" t) /\
  (forall a t b, breaks a -> breaks b -> py_float (a ++ t ++ b) = py_float t /\ py_int (a ++ t ++ b) = py_int t).
Proof.
  split; [exact float_no_bracket|]. split; [exact int_no_bracket|]. intros a t b Ha Hb. unfold py_float, py_int. rewrite strip_around by assumption. auto.
Qed.
Print Assumptions C72_numbers_partial.

Example C72_numbers_example :
  parse_list py_float (S_ "[[1.5," ++ nl :: S_ " -2e1], [3]]") = Ok (Node [Node [Leaf (3 # 2)%Q; Leaf (-20 # 1)%Q]; Node [Leaf (3 # 1)%Q]]) /\
  parse_list py_float (S_ "[[1.5,-2e1]," ++ nl :: S_ "[3]]") = Err ValueError.
Proof. split; vm_compute; reflexivity. Qed.
