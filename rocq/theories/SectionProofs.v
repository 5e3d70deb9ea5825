(** Lemmas about options, sections and booleans in the ini parser model. *)
From Coq Require Import List ZArith Bool Ascii String Lia.
From Verif Require Import Base ParseModel ParseSpec SectionSpec.
Import ListNotations.

Section Dict.
Context {F : Type}.
Implicit Types d : dict F.

Lemma dget_dset_same d k v : dget (dset d k v) k = Some v.
Proof.
  induction d as [|[k' v'] d IH]; simpl; [now rewrite pystr_eqb_refl|].
  destruct (pystr_eqb k k') eqn:E; simpl; [now rewrite pystr_eqb_refl|]. now rewrite E.
Qed.

Lemma dget_dset_other d k k' v : k' <> k -> dget (dset d k v) k' = dget d k'.
Proof.
  intros Hn. induction d as [|[k2 v2] d IH]; simpl.
  - now apply pystr_eqb_neq in Hn; rewrite Hn.
  - destruct (pystr_eqb k k2) eqn:E; simpl.
    + apply pystr_eqb_eq in E. subst k2. apply pystr_eqb_neq in Hn. now rewrite Hn.
    + now rewrite IH.
Qed.

Lemma dget_ddel_other d k k' : k' <> k -> dget (ddel d k) k' = dget d k'.
Proof.
  intros Hn. induction d as [|[k2 v2] d IH]; simpl; [reflexivity|].
  destruct (pystr_eqb k k2) eqn:E; simpl.
  - apply pystr_eqb_eq in E. subst k2. apply pystr_eqb_neq in Hn. now rewrite Hn.
  - now rewrite IH.
Qed.

Lemma dget_ddel_same d k : dget (ddel d k) k = None.
Proof.
  induction d as [|[k2 v2] d IH]; simpl; [reflexivity|].
  destruct (pystr_eqb k k2) eqn:E; simpl; [assumption|]. now rewrite E.
Qed.

Lemma first_of_ext d d' names :
  (forall k, In k names -> dget d k = dget d' k) -> first_of d names = first_of d' names.
Proof.
  induction names as [|n names IH]; intros H; simpl; [reflexivity|].
  rewrite (H n (or_introl eq_refl)), IH; [reflexivity|]. intros k Hk. apply H. now right.
Qed.

Lemma first_of_none d names : first_of d names = None <-> forall k, In k names -> dget d k = None.
Proof.
  induction names as [|n names IH]; simpl; [tauto|].
  destruct (dget d n) eqn:E.
  - split; [discriminate|]. intros H. rewrite <- E. now rewrite (H n (or_introl eq_refl)) in E.
  - rewrite IH. split.
    + intros H k [<-|Hk]; auto.
    + intros H k Hk. apply H. now right.
Qed.

Lemma find_alternative_other d n alts k :
  k <> n -> ~ In k alts -> dget (find_alternative d n alts) k = dget d k.
Proof.
  intros Hn. induction alts as [|a alts IH]; intros Ha; simpl; [reflexivity|].
  destruct (dmem d n); [reflexivity|].
  destruct (dget d a) eqn:E.
  - rewrite dget_ddel_other by (intros ->; apply Ha; now left). now apply dget_dset_other.
  - apply IH. intros H. apply Ha. now right.
Qed.

Lemma find_alternative_same d n alts :
  ~ In n alts -> dget (find_alternative d n alts) n = first_of d (n :: alts).
Proof.
  intros Hn. cbn [first_of].
  destruct (dget d n) as [v|] eqn:E.
  - destruct alts; simpl; [assumption|]. unfold dmem. now rewrite E.
  - induction alts as [|a alts IH]; simpl; [assumption|].
    unfold dmem. rewrite E. destruct (dget d a) as [v|] eqn:Ea.
    + rewrite dget_ddel_other by (intros ->; apply Hn; now left). apply dget_dset_same.
    + apply IH. intros H. apply Hn. now right.
Qed.

Lemma find_alternative_id d n alts v : dget d n = Some v -> find_alternative d n alts = d.
Proof. intros H. destruct alts; simpl; [reflexivity|]. unfold dmem. now rewrite H. Qed.

Variable c : converters F.

Lemma option_parse_dict o d d' v :
  option_parse c o d = Ok (d', v) -> d' = find_alternative d (o_name o) (o_alts o).
Proof.
  unfold option_parse. set (d1 := find_alternative d (o_name o) (o_alts o)).
  destruct (dget d1 (o_name o)) as [raw|].
  - destruct (o_type o) as [|t|t].
    + intros H. apply bind_Ok in H as (b & _ & H). destruct (o_valid o (ABool b)); congruence.
    + destruct raw as [[s| | | |]|]; try discriminate. intros H. apply bind_Ok in H as (a & _ & H).
      destruct (o_valid o a); congruence.
    + destruct raw as [[s| | | |]|]; try discriminate. intros H. apply bind_Ok in H as (a & _ & H).
      destruct (all_true (o_valid o) a); [|discriminate]. apply bind_Ok in H as (w & _ & H). congruence.
  - destruct (o_optional o); congruence.
Qed.

(** Parsing an option is parsing it in a dictionary where its text stands
    under its own name. *)
Lemma option_parse_norm o d d' v raw :
  ~ In (o_name o) (o_alts o) ->
  option_parse c o d = Ok (d', v) -> first_of d (names o) = Some raw ->
  dget d' (o_name o) = Some raw /\ option_parse c o d' = Ok (d', v).
Proof.
  intros Hn H Hf. pose proof (option_parse_dict o d d' v H) as ->.
  rewrite find_alternative_same by assumption. split; [exact Hf|].
  pose proof (find_alternative_same d (o_name o) (o_alts o) Hn) as Hs. unfold names in Hf. rewrite Hf in Hs.
  revert H. unfold option_parse. rewrite (find_alternative_id (find_alternative d (o_name o) (o_alts o)) _ _ raw Hs).
  auto.
Qed.

Lemma option_parse_missing o d :
  ~ In (o_name o) (o_alts o) -> first_of d (names o) = None ->
  option_parse c o d = if o_optional o
                       then Ok (find_alternative d (o_name o) (o_alts o), o_default o)
                       else Err MissingOptionError.
Proof.
  intros Hn Hf. unfold option_parse. rewrite find_alternative_same by assumption.
  unfold names in Hf. now rewrite Hf.
Qed.

(** What the parsed section holds for option [o]. *)
Definition entry_ok (d d' : dict F) (all : list pystr) (pre : list (option_ F)) (o : option_ F) : Prop :=
  exists d1 v,
    match first_of d (names o) with
    | None => o_optional o = true /\ v = o_default o
    | Some raw => dget d1 (o_name o) = Some raw /\ option_parse c o d1 = Ok (d1, v)
    end /\
    dget d' (o_name o) = Some v /\
    (forall o', In o' pre -> dget d1 (o_name o') = dget d' (o_name o')) /\
    (forall k, ~ In k all -> dget d1 k = dget d k).

Lemma NoDup_app_disj {A} (l m : list A) : NoDup (l ++ m) -> forall x, In x l -> ~ In x m.
Proof.
  induction l as [|y l IH]; intros H x [].
  - subst. inversion H; subst. intros Hx. apply H2. apply in_or_app. now right.
  - inversion H; subst. now apply IH.
Qed.

Lemma NoDup_app_r {A} (l m : list A) : NoDup (l ++ m) -> NoDup m.
Proof. induction l; simpl; auto. intros H. inversion H; auto. Qed.
Lemma NoDup_app_l {A} (l m : list A) : NoDup (l ++ m) -> NoDup l.
Proof.
  induction l; simpl; intros H; [constructor|]. inversion H; subst. constructor; auto.
  intros Hx. apply H2. apply in_or_app. now left.
Qed.

Lemma section_parse_spec os d d' :
  NoDup (flat_map names os) -> section_parse c os d = Ok d' ->
  (forall k, ~ In k (flat_map names os) -> dget d' k = dget d k) /\
  (forall pre o post, os = pre ++ o :: post -> entry_ok d d' (flat_map names os) pre o).
Proof.
  revert d. induction os as [|o os IH]; intros d Hnd H.
  - simpl in H. injection H as <-. split; [reflexivity|]. intros [|] ? ? E; discriminate.
  - unfold section_parse in H. cbn [foldM] in H. apply bind_Ok in H as (d2 & H1 & H2).
    apply bind_Ok in H1 as ([d1 v] & H1 & [= <-]).
    change (foldM _ _ _) with (section_parse c os (dset d1 (o_name o) v)) in H2.
    simpl flat_map in Hnd. change (o_name o :: o_alts o ++ flat_map names os) with (names o ++ flat_map names os) in *.
    pose proof (NoDup_app_disj _ _ Hnd) as Hdis.
    pose proof (NoDup_app_l _ _ Hnd) as Hno. unfold names in Hno. inversion Hno as [|? ? Hna _]; subst.
    destruct (IH _ (NoDup_app_r _ _ Hnd) H2) as [IH1 IH2].
    pose proof (option_parse_dict o d d1 v H1) as Hd1.
    assert (Hoth : forall k, ~ In k (names o) -> dget (dset d1 (o_name o) v) k = dget d k).
    { intros k Hk. rewrite dget_dset_other by (intros ->; apply Hk; now left). subst d1.
      apply find_alternative_other; [intros ->; apply Hk; now left|].
      intros Hin. apply Hk. now right. }
    assert (Hown : dget d' (o_name o) = Some v).
    { rewrite IH1; [apply dget_dset_same|]. apply Hdis. now left. }
    assert (Hall : forall k, In k (names o) \/ In k (flat_map names os) -> In k (flat_map names (o :: os))).
    { intros k Hk. cbn [flat_map]. now apply in_or_app. }
    split.
    + intros k Hk. rewrite IH1 by auto. apply Hoth. auto.
    + intros pre o' post E. destruct pre as [|p pre]; simpl in E.
      * injection E as <- <-. exists d1, v. split; [|split; [exact Hown|split; [intros ? []|]]].
        -- destruct (first_of d (names o)) as [raw|] eqn:Ef.
           ++ eapply option_parse_norm; eauto.
           ++ rewrite (option_parse_missing o d Hna Ef) in H1. destruct (o_optional o); [|discriminate].
              injection H1 as _ <-. auto.
        -- intros k Hk. subst d1. apply find_alternative_other.
           ++ intros ->. apply Hk, Hall. left. now left.
           ++ intros Hin. apply Hk, Hall. left. now right.
      * injection E as <- ->.
        destruct (IH2 pre o' post eq_refl) as (e1 & w & Hm & Hg & Hp & Hk).
        exists e1, w. split; [|split; [exact Hg|split]].
        -- rewrite (first_of_ext d (dset d1 (o_name o) v) (names o')); [exact Hm|].
           intros k Hin. symmetry. apply Hoth. intros Hin2. apply (Hdis k Hin2).
           rewrite flat_map_app. apply in_or_app. right. cbn [flat_map]. apply in_or_app. now left.
        -- intros o2 [<-|Hin]; [|now apply Hp].
           rewrite Hown. rewrite Hk by (apply Hdis; now left). apply dget_dset_same.
        -- intros k Hnin. rewrite Hk by auto. apply Hoth. auto.
Qed.

(** A required option that is missing under all its names is an error. *)
Lemma section_missing os d pre o post d1 :
  NoDup (flat_map names os) -> os = pre ++ o :: post ->
  o_optional o = false -> first_of d (names o) = None ->
  section_parse c pre d = Ok d1 ->
  section_parse c os d = Err MissingOptionError.
Proof.
  intros Hnd -> Hopt Hf Hpre. unfold section_parse in *.
  assert (Happ : forall (l m : list (option_ F)) (f : dict F -> option_ F -> res (dict F)) s,
            foldM f s (l ++ m) = bind (foldM f s l) (fun s' => foldM f s' m)).
  { clear. induction l as [|x l IH]; intros m f s; simpl; [reflexivity|].
    destruct (f s x); simpl; auto. }
  rewrite Happ, Hpre. cbn [bind foldM].
  rewrite flat_map_app in Hnd. pose proof (NoDup_app_disj _ _ Hnd) as Hdis.
  assert (Hna : ~ In (o_name o) (o_alts o)).
  { apply NoDup_app_r in Hnd. simpl in Hnd. inversion Hnd; subst. intros Hin. apply H1.
    apply in_or_app. now left. }
  destruct (section_parse_spec pre d d1 (NoDup_app_l _ _ Hnd) Hpre) as [Hoth _].
  rewrite (option_parse_missing o d1 Hna).
  - now rewrite Hopt.
  - rewrite <- Hf. apply first_of_ext. intros k Hk. apply Hoth. intros Hin. apply (Hdis k Hin).
    simpl. unfold names in Hk. destruct Hk as [<-|Hk]; [now left|right]. apply in_or_app. now left.
Qed.

Lemma section_missing_any os d o :
  NoDup (flat_map names os) -> In o os -> o_optional o = false ->
  first_of d (names o) = None -> forall d', section_parse c os d <> Ok d'.
Proof.
  intros Hnd Hin Hopt Hf d' H.
  apply in_split in Hin as (pre & post & ->).
  destruct (section_parse_spec _ d d' Hnd H) as [_ He].
  destruct (He pre o post eq_refl) as (d1 & v & Hm & _). rewrite Hf in Hm. destruct Hm; congruence.
Qed.
End Dict.

(** ** Booleans *)

Lemma nat_ascii_small n : (n < 256)%nat -> nat_of_ascii (ascii_of_nat n) = n.
Proof. apply nat_ascii_embedding. Qed.

Lemma lower_spec x y :
  ~ (65 <= nat_of_ascii y <= 90)%nat -> (lower x = y <-> letter_ci x y).
Proof.
  intros Hy. unfold lower, letter_ci.
  destruct ((65 <=? nat_of_ascii x) && (nat_of_ascii x <=? 90))%nat eqn:E.
  - apply andb_true_iff in E as [E1 E2]. apply Nat.leb_le in E1, E2. split.
    + intros <-. right. split; [lia|]. now rewrite nat_ascii_small by lia.
    + intros [->|[_ H]]; [lia|]. rewrite <- H. apply ascii_nat_embedding.
  - split; [now left|]. intros [H|[H _]]; [assumption|].
    apply andb_false_iff in E as [E|E]; apply Nat.leb_gt in E; lia.
Qed.

Lemma str_lower_spec s w :
  Forall (fun y => ~ (65 <= nat_of_ascii y <= 90)%nat) w -> (pystr_eqb (str_lower s) w = true <-> word_ci s w).
Proof.
  intros Hw. rewrite pystr_eqb_eq. unfold str_lower, word_ci. revert s.
  induction Hw as [|y w Hy Hw IH]; intros [|x s]; simpl; split; intros H; try solve [constructor | inversion H | reflexivity].
  - injection H as H1 H2. constructor; [now apply lower_spec|now apply IH].
  - inversion H; subst. f_equal; [now apply lower_spec|now apply IH].
Qed.

Lemma digits_value_spec s acc :
  (0 <= acc)%Z -> Forall (fun c => 48 <= nat_of_ascii c <= 57)%nat s ->
  let r := fold_left (fun acc c => (10 * acc + (Z.of_nat (nat_of_ascii c) - 48))%Z) s acc in
  (0 <= r)%Z /\ (r = 0%Z <-> acc = 0%Z /\ all_zero s).
Proof.
  intros Ha Hs. revert acc Ha. induction Hs as [|c s Hc Hs IH]; intros acc Ha; simpl.
  - repeat split; auto; try tauto. constructor.
  - destruct (IH (10 * acc + (Z.of_nat (nat_of_ascii c) - 48))%Z ltac:(lia)) as [H1 H2].
    split; [exact H1|]. rewrite H2. split.
    + intros [H Hz]. split; [lia|]. constructor; [|assumption].
      assert (nat_of_ascii c = 48)%nat by lia. rewrite <- (ascii_nat_embedding c), H0. reflexivity.
    + intros [-> Hz]. inversion Hz; subst. split; [reflexivity|assumption].
Qed.

Lemma isdigit_spec s : isdigit s = true <-> numeral s.
Proof.
  unfold isdigit, numeral. destruct s as [|c s]; [split; [discriminate|intros [H _]; congruence]|].
  rewrite forallb_forall, Forall_forall. unfold is_digit. split.
  - intros H. split; [discriminate|]. intros x Hx. apply H in Hx. apply andb_true_iff in Hx as [H1 H2].
    apply Nat.leb_le in H1, H2. lia.
  - intros [_ H] x Hx. apply H in Hx. apply andb_true_iff. split; apply Nat.leb_le; lia.
Qed.

Lemma numeral_not_word s w : numeral s -> word_ci s w -> Forall (fun y => (57 < nat_of_ascii y)%nat) w -> False.
Proof.
  intros [Hn Hs] Hw Hd. destruct s as [|c s]; [congruence|]. inversion Hw as [|? y ? w' Hc]; subst.
  inversion Hs; subst. inversion Hd; subst. destruct Hc as [->|[Hc _]]; lia.
Qed.

Ltac charlist := repeat constructor; vm_compute; intuition lia.

Lemma w_true : Forall (fun y => ~ (65 <= nat_of_ascii y <= 90)%nat) (S_ "true").
Proof. charlist. Qed.
Lemma w_yes : Forall (fun y => ~ (65 <= nat_of_ascii y <= 90)%nat) (S_ "yes").
Proof. charlist. Qed.
Lemma w_false : Forall (fun y => ~ (65 <= nat_of_ascii y <= 90)%nat) (S_ "false").
Proof. charlist. Qed.
Lemma w_no : Forall (fun y => ~ (65 <= nat_of_ascii y <= 90)%nat) (S_ "no").
Proof. charlist. Qed.

Lemma parse_bool_spec {F} s :
  (means_true s -> parse_bool (F := F) (Leaf (AStr s)) = Ok true) /\
  (means_false s -> parse_bool (F := F) (Leaf (AStr s)) = Ok false) /\
  (~ means_true s -> ~ means_false s -> parse_bool (F := F) (Leaf (AStr s)) = Err ValueError).
Proof.
  unfold parse_bool, means_true, means_false.
  rewrite <- (str_lower_spec s _ w_true), <- (str_lower_spec s _ w_yes),
          <- (str_lower_spec s _ w_false), <- (str_lower_spec s _ w_no).
  assert (Hnum : numeral s -> pystr_eqb (str_lower s) (S_ "true") = false /\
     pystr_eqb (str_lower s) (S_ "yes") = false /\ pystr_eqb (str_lower s) (S_ "false") = false /\
     pystr_eqb (str_lower s) (S_ "no") = false).
  { intros Hs. repeat split; apply not_true_is_false; intros H.
    - apply (str_lower_spec s _ w_true) in H. apply (numeral_not_word _ _ Hs H). charlist.
    - apply (str_lower_spec s _ w_yes) in H. apply (numeral_not_word _ _ Hs H). charlist.
    - apply (str_lower_spec s _ w_false) in H. apply (numeral_not_word _ _ Hs H). charlist.
    - apply (str_lower_spec s _ w_no) in H. apply (numeral_not_word _ _ Hs H). charlist. }
  assert (Hzero : numeral s -> (digits_value s = 0%Z <-> all_zero s)).
  { intros [_ Hs]. unfold digits_value. destruct (digits_value_spec s 0 ltac:(lia) Hs) as [_ H]. rewrite H. tauto. }
  assert (Hex : pystr_eqb (str_lower s) (S_ "true") || pystr_eqb (str_lower s) (S_ "yes") = true ->
                pystr_eqb (str_lower s) (S_ "false") || pystr_eqb (str_lower s) (S_ "no") = false).
  { intros H. apply orb_true_iff in H as [H|H]; apply pystr_eqb_eq in H; rewrite H; reflexivity. }
  assert (Hdig : isdigit s = true <-> numeral s) by apply isdigit_spec.
  destruct (pystr_eqb (str_lower s) (S_ "true")) eqn:E1;
  destruct (pystr_eqb (str_lower s) (S_ "yes")) eqn:E2;
  destruct (pystr_eqb (str_lower s) (S_ "false")) eqn:E3;
  destruct (pystr_eqb (str_lower s) (S_ "no")) eqn:E4;
  destruct (isdigit s) eqn:E5; cbn [orb] in *;
  try (specialize (Hex eq_refl); discriminate);
  destruct (Z.eqb_spec (digits_value s) 0) as [Ez|Ez]; cbn [negb];
  (repeat split; intros; try reflexivity; exfalso;
   try (specialize (Hnum (proj1 Hdig eq_refl)); intuition congruence);
   try (specialize (Hzero (proj1 Hdig eq_refl)); intuition congruence);
   intuition congruence).
Qed.
