(** C142: numbers in the ini-file have the value that is written there. *)
From Coq Require Import List ZArith Bool Ascii String Arith Lia QArith Qpower Qfield.
From Verif Require Import Base ParseModel ParseSpec ParseProofs ParseProps ConfigModel IniModel BackupProofs NumberModel NumberSpec NumberProps.
Import ListNotations.
Local Open Scope char_scope.
Local Open Scope nat_scope.
Local Open Scope list_scope.

(** ** Characters *)
Lemma is_digit_in c : is_digit c = true <-> In c digit_chars.
Proof.
  split.
  - destruct c as [[] [] [] [] [] [] [] []]; vm_compute; intros H; try discriminate H; tauto.
  - intros H. repeat (destruct H as [<-|H]; [reflexivity|]). destruct H.
Qed.
Lemma digit_numeral c : digit c = numeral c.
Proof. reflexivity. Qed.
Lemma is_space_in c : is_space c = true <-> In (nat_of_ascii c) [9; 10; 11; 12; 13; 28; 29; 30; 31; 32].
Proof.
  unfold is_space. generalize (nat_of_ascii c). intros n. cbn [In].
  rewrite orb_true_iff, !andb_true_iff, !Nat.leb_le. lia.
Qed.
Lemma blank_space s : blank s <-> Forall (fun c => is_space c = true) s.
Proof. rewrite Forall_forall. unfold blank. split; intros H c Hc; apply is_space_in, H, Hc. Qed.
Lemma digit_not_space c : is_digit c = true -> is_space c = false.
Proof. destruct c as [[] [] [] [] [] [] [] []]; vm_compute; congruence. Qed.

(** ** Digits *)
Definition no_digit (s : pystr) : Prop := match s with c :: _ => is_digit c = false | [] => True end.
Lemma digits_forall s : digits_only s <-> Forall (fun c => is_digit c = true) s.
Proof. rewrite Forall_forall. unfold digits_only. split; intros H c Hc; apply is_digit_in, H, Hc. Qed.
Lemma leading_app ds r : Forall (fun c => is_digit c = true) ds -> no_digit r -> forall acc k,
  leading_digits (ds ++ r) acc k = ((acc * 10 ^ Z.of_nat (List.length ds) + whole_value ds)%Z, k + List.length ds, r).
Proof.
  induction 1 as [|c ds Hc _ IH]; intros Hr acc k.
  - cbn. rewrite Nat.add_0_r. replace (acc * 1 + 0)%Z with acc by lia. destruct r as [|c r]; [reflexivity|]. cbn in Hr |- *. now rewrite Hr.
  - cbn [app leading_digits]. rewrite Hc, IH by exact Hr. cbn [List.length whole_value]. rewrite digit_numeral.
    rewrite Nat2Z.inj_succ, Z.pow_succ_r by lia. f_equal; [f_equal; [ring|lia]].
Qed.
Lemma leading_split s : exists ds r, s = ds ++ r /\ Forall (fun c => is_digit c = true) ds /\ no_digit r.
Proof.
  induction s as [|c s (ds & r & -> & Hd & Hr)]; [exists [], []; repeat split; constructor|].
  destruct (is_digit c) eqn:E; [exists (c :: ds), r; repeat split; [now constructor|exact Hr]|].
  exists [], (c :: ds ++ r). repeat split; [constructor|exact E].
Qed.

(** ** Signs *)
Definition no_sign (s : pystr) : Prop := match s with c :: _ => c <> "-" /\ c <> "+" | [] => True end.
Definition neg_of (s : option bool) : bool := match s with Some true => true | _ => false end.
Lemma sign_app sg r : no_sign r -> sign (sign_text sg ++ r) = (neg_of sg, r).
Proof.
  intros H. destruct sg as [[|]|]; try reflexivity. destruct r as [|c r]; [reflexivity|]. destruct H as [H1 H2]. cbn.
  destruct (Ascii.eqb_spec c "-"); [contradiction|]. destruct (Ascii.eqb_spec c "+"); [contradiction|reflexivity].
Qed.
Lemma sign_split s : exists sg r, s = sign_text sg ++ r /\ sign s = (neg_of sg, r).
Proof.
  destruct s as [|c r]; [exists None, []; split; reflexivity|]. unfold sign.
  destruct (Ascii.eqb_spec c "-") as [->|]; [exists (Some true), r; split; reflexivity|].
  destruct (Ascii.eqb_spec c "+") as [->|]; [exists (Some false), r; split; reflexivity|].
  exists None, (c :: r). split; reflexivity.
Qed.
Lemma digit_no_sign c : is_digit c = true -> c <> "-" /\ c <> "+".
Proof. intros H. split; intros ->; discriminate H. Qed.

(** ** Values *)
Lemma power10_Qpower z : power10 z == Qpower 10 z.
Proof.
  destruct z as [|p|p]; [reflexivity| |].
  - cbn [power10]. rewrite Qpower.Zpower_Qpower by lia. reflexivity.
  - cbn [power10 Qpower]. change (Qpower_positive 10 p) with (Qpower (inject_Z 10) (Zpos p)).
    rewrite <- Qpower.Zpower_Qpower by lia. rewrite <- Pos2Z.inj_pow. unfold Qinv, inject_Z, Qeq. cbn. lia.
Qed.
Lemma whole_frac s : inject_Z (whole_value s) * Qpower 10 (- Z.of_nat (List.length s)) == frac_value s.
Proof.
  induction s as [|c r IH]; [reflexivity|]. cbn [whole_value frac_value List.length]. rewrite <- IH.
  rewrite inject_Z_plus, inject_Z_mult, Qpower.Zpower_Qpower by lia. change (inject_Z 10) with 10%Q.
  rewrite Nat2Z.inj_succ. replace (- Z.succ (Z.of_nat (List.length r)))%Z with (- Z.of_nat (List.length r) + - (1))%Z by lia.
  rewrite Qpower_plus by discriminate. rewrite !(Qpower_opp 10). change (Qpower 10 1) with 10%Q.
  assert (H : ~ Qpower 10 (Z.of_nat (List.length r)) == 0) by (apply Qpower_not_0; discriminate).
  field. exact H.
Qed.
Lemma mantissa w f : inject_Z (whole_value w * 10 ^ Z.of_nat (List.length f) + whole_value f) * power10 (- Z.of_nat (List.length f)) == inject_Z (whole_value w) + frac_value f.
Proof.
  rewrite power10_Qpower, <- (whole_frac f). rewrite inject_Z_plus, inject_Z_mult, Qpower.Zpower_Qpower by lia. change (inject_Z 10) with 10%Q.
  rewrite (Qpower_opp 10). assert (H : ~ Qpower 10 (Z.of_nat (List.length f)) == 0) by (apply Qpower_not_0; discriminate).
  field. exact H.
Qed.

(** ** float *)
Definition exp_text (e : option (ascii * option bool * pystr)) : pystr :=
  match e with None => [] | Some (c, s, e) => c :: sign_text s ++ e end.
Definition exp_ok (e : option (ascii * option bool * pystr)) : Prop :=
  forall c s d, e = Some (c, s, d) -> (c = "e" \/ c = "E") /\ Forall (fun c => is_digit c = true) d /\ d <> [].
Definition exp_value (e : option (ascii * option bool * pystr)) : Z :=
  match e with None => 0 | Some (_, s, e) => signed s (whole_value e) end.
Lemma signed_if s z : (if neg_of s then - z else z)%Z = signed s z.
Proof. now destruct s as [[|]|]. Qed.
Lemma exponent_ok m e : exp_ok e -> decimal_exponent m (exp_text e) = Ok (Qred (m * Qpower 10 (exp_value e))).
Proof.
  intros H. destruct e as [[[c s] d]|].
  - destruct (H c s d eq_refl) as (Hc & Hd & Hn). cbn [exp_text exp_value]. unfold decimal_exponent.
    replace (Ascii.eqb c "e" || Ascii.eqb c "E") with true by (destruct Hc as [->| ->]; reflexivity).
    rewrite sign_app by (destruct d as [|x d]; [exact I|apply digit_no_sign; now inversion Hd]).
    pose proof (leading_app d [] Hd I 0%Z 0) as E. rewrite app_nil_r in E. rewrite E. cbn [Nat.add].
    destruct d as [|x d]; [congruence|]. cbn [List.length Nat.eqb]. rewrite signed_if. f_equal. apply Qred_complete. now rewrite power10_Qpower.
  - cbn [exp_text exp_value decimal_exponent]. f_equal. apply Qred_complete. change (Qpower 10 0) with 1%Q. ring.
Qed.
Lemma exponent_inv m s q : decimal_exponent m s = Ok q -> exists e, s = exp_text e /\ exp_ok e.
Proof.
  destruct s as [|c r]; intros H; [exists None; split; [reflexivity|discriminate]|]. unfold decimal_exponent in H.
  destruct (Ascii.eqb c "e" || Ascii.eqb c "E") eqn:Ec; [|discriminate H].
  destruct (sign_split r) as (sg & r2 & -> & Es). rewrite Es in H. destruct (leading_split r2) as (d & r3 & -> & Hd & Hr). rewrite leading_app in H by assumption.
  destruct r3; [|discriminate H]. cbn [Nat.add] in H. exists (Some (c, sg, d)). rewrite app_nil_r. split; [reflexivity|]. intros c' s' d' [= <- <- <-].
  split; [|split; [exact Hd|]].
  - apply orb_true_iff in Ec as [E|E]; apply Ascii.eqb_eq in E; auto.
  - intros ->. discriminate H.
Qed.

Definition frac_text (f : option pystr) : pystr := match f with None => [] | Some f => "." :: f end.
Lemma exp_no_digit e : exp_ok e -> no_digit (exp_text e).
Proof. intros H. destruct e as [[[c s] d]|]; [|exact I]. destruct (H c s d eq_refl) as ([->| ->] & _); reflexivity. Qed.

Lemma ends_not_space n : written n -> exists c r, number_text n = r ++ [c] /\ is_space c = false.
Proof.
  intros (Hw & Hf & Hne & He). rewrite digits_forall in Hw.
  assert (Dlast : forall d, Forall (fun c => is_digit c = true) d -> d <> [] -> exists c r, d = r ++ [c] /\ is_space c = false).
  { intros d Hd Hn. destruct (exists_last Hn) as (r & c & ->). exists c, r. split; [reflexivity|]. apply digit_not_space. apply Forall_app in Hd as [_ Hd]. now inversion Hd. }
  unfold number_text. destruct (nu_exp n) as [[[c s] e]|] eqn:Ee.
  - destruct (He c s e eq_refl) as (_ & Hd & Hn). rewrite digits_forall in Hd. destruct (Dlast e Hd Hn) as (x & r & -> & Hx).
    exists x, (sign_text (nu_sign n) ++ nu_whole n ++ match nu_frac n with None => [] | Some f => "." :: f end ++ c :: sign_text s ++ r).
    split; [|exact Hx]. rewrite <- !app_assoc. cbn [app]. now rewrite <- !app_assoc.
  - rewrite app_nil_r. destruct (nu_frac n) as [f|] eqn:Ef.
    + destruct f as [|y f]; [exists "."; eexists; split; [now rewrite !app_assoc|reflexivity]|].
      specialize (Hf _ eq_refl). rewrite digits_forall in Hf. destruct (Dlast (y :: f) Hf) as (x & r & -> & Hx); [discriminate|].
      exists x. eexists. split; [|exact Hx]. change ("." :: r ++ [x]) with (("." :: r) ++ [x]). now rewrite !app_assoc.
    + rewrite app_nil_r. destruct Hne as [Hne|(f & E & _)]; [|discriminate E]. destruct (Dlast _ Hw Hne) as (x & r & E & Hx). rewrite E.
      exists x. eexists. split; [|exact Hx]. now rewrite !app_assoc.
Qed.
Lemma starts_not_space n : written n -> exists c r, number_text n = c :: r /\ is_space c = false.
Proof.
  intros (Hw & Hf & Hne & He). rewrite digits_forall in Hw. unfold number_text. destruct (nu_sign n) as [[|]|]; [exists "-"; eexists; split; reflexivity|exists "+"; eexists; split; reflexivity|]. cbn [sign_text app].
  destruct (nu_whole n) as [|c w]; [|exists c; eexists; split; [reflexivity|apply digit_not_space; now inversion Hw]].
  destruct Hne as [Hne|(f & E & _)]; [congruence|]. rewrite E. exists "."; eexists; split; reflexivity.
Qed.
Lemma strip_number a n b : blank a -> blank b -> written n -> strip_sp (a ++ number_text n ++ b) = number_text n.
Proof.
  intros Ha Hb Hn. apply blank_space in Ha, Hb. unfold strip_sp. rewrite lstrip_app by exact Ha. destruct (starts_not_space n Hn) as (c & r & E & Hc).
  rewrite lstrip_app_r by (rewrite E; cbn; rewrite Hc; discriminate). rewrite rstrip_app by exact Hb.
  assert (E2 : lstrip_sp (number_text n) = number_text n) by (rewrite E; cbn; now rewrite Hc). rewrite E2.
  apply tight_rstrip. split; [intros c' r' E'; rewrite E in E'; congruence|]. destruct (ends_not_space n Hn) as (x & r2 & E3 & Hx).
  intros c' r' E'. rewrite E3 in E'. apply app_inj_tail in E' as [_ <-]. exact Hx.
Qed.
Lemma blanks_around s : exists a b, blank a /\ blank b /\ s = a ++ strip_sp s ++ b.
Proof.
  unfold strip_sp. destruct (lstrip_split s) as (a & E & Ha & _). destruct (rstrip_split (lstrip_sp s)) as (b & E' & Hb & _).
  exists a, b. rewrite !blank_space. split; [exact Ha|]. split; [exact Hb|]. now rewrite <- E'.
Qed.

Lemma sign_factor s q : (if neg_of s then - q else q) == inject_Z (signed s 1) * q.
Proof. destruct s as [[|]|]; cbn; ring. Qed.
Lemma float_number n : written n -> forall t, strip_sp t = number_text n -> py_float t = Ok (Qred (number_value n)).
Proof.
  intros Hn t Ht. pose proof Hn as (Hw & Hf & Hne & He). rewrite digits_forall in Hw.
  assert (Hexp : exp_ok (nu_exp n)). { intros c s d E. destruct (He c s d E) as (H1 & H2 & H3). rewrite digits_forall in H2. auto. }
  unfold py_float. rewrite Ht. change (number_text n) with (sign_text (nu_sign n) ++ nu_whole n ++ frac_text (nu_frac n) ++ exp_text (nu_exp n)).
  assert (Hs : no_sign (nu_whole n ++ frac_text (nu_frac n) ++ exp_text (nu_exp n))).
  { destruct (nu_whole n) as [|c w]; [|apply digit_no_sign; now inversion Hw]. destruct Hne as [Hne|(f & E & _)]; [congruence|]. rewrite E. split; discriminate. }
  rewrite sign_app by exact Hs.
  assert (Hd : no_digit (frac_text (nu_frac n) ++ exp_text (nu_exp n))).
  { destruct (nu_frac n) as [f|]; [reflexivity|]. apply exp_no_digit, Hexp. }
  rewrite leading_app by assumption. cbn [Nat.add]. unfold number_value. change (match nu_exp n with None => 0%Z | Some (_, s, e) => signed s (whole_value e) end) with (exp_value (nu_exp n)). destruct (nu_frac n) as [f|] eqn:Ef.
  - cbn [frac_text app]. rewrite Ascii.eqb_refl. specialize (Hf f eq_refl). rewrite digits_forall in Hf.
    rewrite leading_app by (try assumption; now apply exp_no_digit). cbn [Nat.add].
    assert (Hz : Nat.eqb (List.length (nu_whole n) + List.length f) 0 = false).
    { apply Nat.eqb_neq. destruct Hne as [Hne|(f' & E & Hne)]; [|injection E as <-]; [destruct (nu_whole n)|destruct f]; cbn; try congruence; lia. }
    rewrite Hz, exponent_ok by exact Hexp. f_equal. apply Qred_complete. apply Qmult_comp; [|reflexivity].
    rewrite sign_factor. rewrite <- Qmult_assoc. rewrite Z.mul_0_l, Z.add_0_l. now rewrite mantissa.
  - cbn [frac_text app]. assert (Hw0 : nu_whole n <> []) by (destruct Hne as [Hne|(f & E & _)]; [exact Hne|discriminate E]).
    assert (Hm : (match exp_text (nu_exp n) with
                  | c :: r => if Ascii.eqb c "." then leading_digits r (0 * 10 ^ Z.of_nat (List.length (nu_whole n)) + whole_value (nu_whole n))%Z 0
                              else ((0 * 10 ^ Z.of_nat (List.length (nu_whole n)) + whole_value (nu_whole n))%Z, 0, exp_text (nu_exp n))
                  | [] => ((0 * 10 ^ Z.of_nat (List.length (nu_whole n)) + whole_value (nu_whole n))%Z, 0, [])
                  end) = ((0 * 10 ^ Z.of_nat (List.length (nu_whole n)) + whole_value (nu_whole n))%Z, 0, exp_text (nu_exp n))).
    { destruct (nu_exp n) as [[[c s] d]|]; [|reflexivity]. destruct (Hexp c s d eq_refl) as ([->| ->] & _); reflexivity. }
    rewrite Hm. assert (Hz : Nat.eqb (List.length (nu_whole n) + 0) 0 = false).
    { apply Nat.eqb_neq. destruct (nu_whole n); [congruence|cbn; lia]. }
    rewrite Hz, exponent_ok by exact Hexp. f_equal. apply Qred_complete. apply Qmult_comp; [|reflexivity].
    rewrite sign_factor. rewrite Z.mul_0_l, Z.add_0_l. change (power10 (- Z.of_nat 0)) with 1%Q. ring.
Qed.

Lemma float_inv t q : py_float t = Ok q -> exists n, written n /\ strip_sp t = number_text n.
Proof.
  unfold py_float. intros H. destruct (sign_split (strip_sp t)) as (sg & s1 & E1 & Es). rewrite Es in H. rewrite E1.
  destruct (leading_split s1) as (w & s2 & -> & Hw & Hr). rewrite leading_app in H by assumption. cbn [Nat.add] in H.
  destruct s2 as [|c r].
  - destruct (Nat.eqb (List.length w + 0) 0) eqn:Ez; [discriminate H|]. exists (mkNumber sg w None None). split; [|unfold number_text; cbn; now rewrite ?app_nil_r].
    unfold written. cbn. rewrite digits_forall. repeat split; try (intros; discriminate); [exact Hw|]. left. intros ->. discriminate Ez.
  - destruct (Ascii.eqb_spec c ".") as [->|Hc].
    + destruct (leading_split r) as (f & s3 & -> & Hf & Hr3). rewrite leading_app in H by assumption. cbn [Nat.add] in H.
      destruct (Nat.eqb (List.length w + List.length f) 0) eqn:Ez; [discriminate H|]. destruct (exponent_inv _ _ _ H) as (e & -> & He).
      exists (mkNumber sg w (Some f) e). split; [|unfold number_text; cbn; now rewrite ?app_assoc].
      unfold written. cbn. rewrite digits_forall. split; [exact Hw|]. split; [intros f' [= <-]; now rewrite digits_forall|]. split.
      * destruct w; [right; exists f; split; [reflexivity|]; intros ->; discriminate Ez|now left].
      * intros c s d E. destruct (He c s d E) as (H1 & H2 & H3). rewrite digits_forall. auto.
    + destruct (Nat.eqb (List.length w + 0) 0) eqn:Ez; [discriminate H|]. destruct (exponent_inv _ _ _ H) as (e & E & He).
      exists (mkNumber sg w None e). split; [|unfold number_text; cbn; now rewrite E].
      unfold written. cbn. rewrite digits_forall. split; [exact Hw|]. split; [discriminate|]. split.
      * left. intros ->. discriminate Ez.
      * intros c' s d E'. destruct (He c' s d E') as (H1 & H2 & H3). rewrite digits_forall. auto.
Qed.
Lemma float_error t e : py_float t = Err e -> e = ValueError.
Proof.
  unfold py_float. destruct (sign (strip_sp t)) as [neg s]. destruct (leading_digits s 0%Z 0) as [[a k] s2].
  assert (He : forall m s e, decimal_exponent m s = Err e -> e = ValueError).
  { intros m [|c r] x H; [discriminate H|]. unfold decimal_exponent in H. destruct (Ascii.eqb c "e" || Ascii.eqb c "E"); [|congruence].
    destruct (sign r) as [ng r2]. destruct (leading_digits r2 0%Z 0) as [[e2 k2] r3]. destruct r3; [|congruence]. destruct (Nat.eqb k2 0); congruence. }
  destruct s2 as [|c r]; [|destruct (Ascii.eqb c "."); [destruct (leading_digits r a 0) as [[a2 k2] s3]|]]; destruct (Nat.eqb _ 0); intros H; try congruence; exact (He _ _ _ H).
Qed.

(** ** Theorems *)
(** float reads exactly the written numbers, with blanks around them, and gives
    the value that is written; everything else is refused with ValueError. *)
Theorem C142_float :
  (forall n a b, written n -> blank a -> blank b -> py_float (a ++ number_text n ++ b) = Ok (Qred (number_value n))) /\
  (forall t q, py_float t = Ok q -> exists n a b, written n /\ blank a /\ blank b /\ t = a ++ number_text n ++ b /\ q == number_value n) /\
  (forall t e, py_float t = Err e -> e = ValueError).
Proof.
  split; [|split; [|exact float_error]].
  - intros n a b Hn Ha Hb. apply float_number; [exact Hn|]. now apply strip_number.
  - intros t q H. destruct (float_inv t q H) as (n & Hn & E). destruct (blanks_around t) as (a & b & Ha & Hb & Et). exists n, a, b.
    split; [exact Hn|]. split; [exact Ha|]. split; [exact Hb|]. split; [now rewrite E in Et|].
    rewrite (float_number n Hn t E) in H. assert (Eq : q = Qred (number_value n)) by congruence. rewrite Eq. apply Qred_correct.
Qed.
Print Assumptions C142_float.

Definition plain_int (n : number) : Prop := nu_frac n = None /\ nu_exp n = None.
Lemma int_text n : plain_int n -> number_text n = sign_text (nu_sign n) ++ nu_whole n.
Proof. intros [H1 H2]. unfold number_text. rewrite H1, H2. now rewrite !app_nil_r. Qed.
Lemma int_number n t : written n -> plain_int n -> strip_sp t = number_text n -> py_int t = Ok (signed (nu_sign n) (whole_value (nu_whole n))).
Proof.
  intros (Hw & _ & Hne & _) Hp Ht. rewrite digits_forall in Hw. unfold py_int. rewrite Ht, int_text by exact Hp.
  assert (Hw0 : nu_whole n <> []) by (destruct Hp as [E0 _]; destruct Hne as [H|(f & E & _)]; [exact H|congruence]).
  rewrite sign_app by (destruct (nu_whole n); [exact I|apply digit_no_sign; now inversion Hw]).
  pose proof (leading_app (nu_whole n) [] Hw I 0%Z 0) as E. rewrite app_nil_r in E. rewrite E. cbn [Nat.add].
  destruct (nu_whole n) as [|c w] eqn:Ew; [congruence|]. cbn [List.length Nat.eqb]. rewrite Z.mul_0_l, Z.add_0_l. now rewrite signed_if.
Qed.
(** int reads exactly the written numbers without point and exponent; so
    numsim = 2.0 or 1e1 is refused. *)
Theorem C142_int :
  (forall n a b, written n -> plain_int n -> blank a -> blank b ->
     py_int (a ++ number_text n ++ b) = Ok (signed (nu_sign n) (whole_value (nu_whole n)))) /\
  (forall t z, py_int t = Ok z -> exists n a b, written n /\ plain_int n /\ blank a /\ blank b /\ t = a ++ number_text n ++ b /\ inject_Z z == number_value n) /\
  (forall t e, py_int t = Err e -> e = ValueError).
Proof.
  split; [|split].
  - intros n a b Hn Hp Ha Hb. apply int_number; [exact Hn|exact Hp|]. now apply strip_number.
  - intros t z H. destruct (blanks_around t) as (a & b & Ha & Hb & Et).
    assert (Hx : exists n, written n /\ plain_int n /\ strip_sp t = number_text n).
    { unfold py_int in H. destruct (sign_split (strip_sp t)) as (sg & s1 & E1 & Es). rewrite Es in H. rewrite E1.
      destruct (leading_split s1) as (w & s2 & -> & Hw & Hr). rewrite leading_app in H by assumption. cbn [Nat.add] in H. destruct s2; [|discriminate H].
      exists (mkNumber sg w None None). split; [|split; [split; reflexivity|rewrite int_text by (split; reflexivity); now rewrite app_nil_r]].
      unfold written. cbn. rewrite digits_forall. repeat split; try (intros; discriminate); [exact Hw|]. left. intros ->. discriminate H. }
    destruct Hx as (n & Hn & Hp & E). exists n, a, b. split; [exact Hn|]. split; [exact Hp|]. split; [exact Ha|]. split; [exact Hb|]. split; [now rewrite E in Et|].
    rewrite (int_number n t Hn Hp E) in H. injection H as <-. unfold number_value. destruct Hp as [-> ->]. destruct (nu_sign n) as [[|]|]; cbn [signed]; rewrite ?inject_Z_opp; change (Qpower 10 0) with 1%Q; change (inject_Z 1) with 1%Q; ring.
  - intros t e. unfold py_int. destruct (sign (strip_sp t)) as [neg s]. destruct (leading_digits s 0%Z 0) as [[a k] s2]. destruct s2; [destruct (Nat.eqb k 0)|]; congruence.
Qed.
Print Assumptions C142_int.

Lemma number_chars n c : written n -> In c (number_text n) -> In c digit_chars \/ In c ["+"; "-"; "."; "e"; "E"].
Proof.
  intros (Hw & Hf & _ & He) Hc. assert (Hs : forall s, In c (sign_text s) -> In c ["+"; "-"; "."; "e"; "E"]).
  { intros [[|]|] H; cbn in *; tauto. }
  unfold number_text in Hc. apply in_app_or in Hc as [Hc|Hc]; [right; eapply Hs, Hc|]. apply in_app_or in Hc as [Hc|Hc]; [left; exact (Hw c Hc)|]. apply in_app_or in Hc as [Hc|Hc].
  - destruct (nu_frac n) as [f|]; [|destruct Hc]. destruct Hc as [<-|Hc]; [right; cbn; tauto|]. left. exact (Hf f eq_refl c Hc).
  - destruct (nu_exp n) as [[[x s] e]|]; [|destruct Hc]. destruct (He x s e eq_refl) as (Hx & Hd & _). destruct Hc as [<-|Hc]; [right; destruct Hx as [->| ->]; cbn; tauto|].
    apply in_app_or in Hc as [Hc|Hc]; [right; eapply Hs, Hc|left; exact (Hd c Hc)].
Qed.
Lemma number_token n : written n -> token (number_text n).
Proof.
  intros Hn. destruct (starts_not_space n Hn) as (c0 & r0 & E0 & _).
  assert (H : forall c, In c (number_text n) -> c <> " " /\ c <> "," /\ c <> "[" /\ c <> "]").
  { intros c Hc. destruct (number_chars n c Hn Hc) as [H|H]; repeat (destruct H as [<-|H]; [repeat split; discriminate|]); destruct H. }
  split; [rewrite E0; discriminate|]. apply Forall_forall. exact H.
Qed.

Lemma convert_flat ns : Forall written ns -> convert_all py_float (Node (map (fun n => Leaf (number_text n)) ns)) = Ok (Node (map (fun n => Leaf (Qred (number_value n))) ns)).
Proof.
  intros H. cbn [convert_all]. match goal with |- (let* l := ?g in _) = _ => enough (E : g = Ok (map (fun n => Leaf (Qred (number_value n))) ns)) by now rewrite E end.
  induction H as [|n ns Hn _ IH]; [reflexivity|]. cbn [map]. cbn [convert_all]. rewrite (float_number n Hn) by (apply tight_strip; split; [intros c r E; destruct (starts_not_space n Hn) as (c' & r' & E' & Hc); congruence|
    intros c r E; destruct (ends_not_space n Hn) as (x & r2 & E3 & Hx); rewrite E3 in E; apply app_inj_tail in E as [_ <-]; exact Hx]).
  cbn [bind]. now rewrite IH.
Qed.
(** Lists of numbers and lists of lists of numbers, with any spaces. *)
Theorem C142_lists :
  (forall ns s, ns <> [] -> Forall written ns -> spaced (render (Node (map (fun n => Leaf (number_text n)) ns))) s ->
     parse_list py_float s = Ok (Node (map (fun n => Leaf (Qred (number_value n))) ns))) /\
  (forall nss s, nss <> [] -> Forall (fun ns => ns <> [] /\ Forall written ns) nss ->
     spaced (render (Node (map (fun ns => Node (map (fun n => Leaf (number_text n)) ns)) nss))) s ->
     parse_list py_float s = Ok (Node (map (fun ns => Node (map (fun n => Leaf (Qred (number_value n))) ns)) nss))).
Proof.
  assert (L : forall ns, ns <> [] -> Forall written ns -> literal 1 (Node (map (fun n => Leaf (number_text n)) ns))).
  { intros ns H0 H. split; [destruct ns; [congruence|discriminate]|]. apply Forall_map. eapply Forall_impl; [|exact H]. intros n Hn. exact (number_token n Hn). }
  split.
  - intros ns s H0 H Hs. rewrite (C01_list_literal_round_trip Q py_float 1 _ s) with (2 := L ns H0 H) (3 := Hs) by lia. now apply convert_flat.
  - intros nss s H0 H Hs. rewrite (C01_list_literal_round_trip Q py_float 2 (Node (map (fun ns => Node (map (fun n => Leaf (number_text n)) ns)) nss)) s); [|lia| |exact Hs].
    + cbn [convert_all]. match goal with |- (let* l := ?g in _) = _ => enough (E : g = Ok (map (fun ns => Node (map (fun n => Leaf (Qred (number_value n))) ns)) nss)) by now rewrite E end.
      clear H0 Hs. induction H as [|ns nss [_ Hn] _ IH]; [reflexivity|]. cbn [map]. rewrite convert_flat by exact Hn. cbn [bind]. now rewrite IH.
    + split; [destruct nss; [congruence|discriminate]|]. apply Forall_map. eapply Forall_impl; [|exact H]. intros ns [H1 H2]. exact (L ns H1 H2).
Qed.
Print Assumptions C142_lists.

Example C142_example :
  py_float (S_ " -12.50e-1 ") = Ok (-5 # 4)%Q /\ py_float (S_ ".5") = Ok (1 # 2)%Q /\ py_float (S_ "3.") = Ok 3%Q /\ py_float (S_ "1,5") = Err ValueError /\
  py_float (S_ ".") = Err ValueError /\ py_int (S_ "+007") = Ok 7%Z /\ py_int (S_ "2.0") = Err ValueError /\
  parse_list py_float (S_ "[0.5, 1e-3]") = Ok (Node [Leaf (1 # 2)%Q; Leaf (1 # 1000)%Q]) /\
  written (mkNumber (Some true) (S_ "12") (Some (S_ "50")) (Some ("e"%char, Some true, S_ "1"))).
Proof.
  repeat (split; [vm_compute; reflexivity|]). unfold written. cbn. split; [intros c H; cbn in *; tauto|]. split; [intros f [= <-] c H; cbn in *; tauto|].
  split; [left; discriminate|]. intros c s e [= <- <- <-]. split; [now left|]. split; [intros x H; cbn in *; tauto|discriminate].
Qed.
