(** C138: which arguments are taken for the file name. *)
From Coq Require Import List ZArith Bool Ascii String Lia.
From Verif Require Import Base ParseModel ParseProofs DirsModel DirsSpec DirsProofs TestCaseModel TestCaseSpec TestCaseProofs.
Import ListNotations.
Local Open Scope string_scope.
Local Open Scope list_scope.

Lemma is_digit_iff c : is_digit c = true <-> In c (S_ "0123456789").
Proof.
  destruct c as [[] [] [] [] [] [] [] []]; cbn; split; intros H; try discriminate H; auto 20;
    repeat (destruct H as [H|H]; [discriminate H|]); destruct H.
Qed.
Lemma all_digits_iff s : all_digits s = true <-> is_number s.
Proof.
  unfold all_digits, is_number. rewrite forallb_forall, Forall_forall. split; intros H c Hc; apply is_digit_iff; auto.
Qed.
Lemma nonempty_iff (s : pystr) : negb (pystr_eqb s []) = true <-> s <> [].
Proof. rewrite negb_true_iff. destruct s; cbn; split; congruence. Qed.
Lemma fraction_iff s : fraction s = true <-> exists a b, is_number a /\ b <> [] /\ is_number b /\ s = a ++ S_ "." ++ b.
Proof.
  induction s as [|c s IH]; cbn [fraction].
  - split; [discriminate|]. intros (a & b & _ & _ & _ & E). destruct a; discriminate E.
  - destruct (Ascii.eqb_spec c "."%char) as [->|Hc].
    + rewrite andb_true_iff, nonempty_iff, all_digits_iff. split.
      * intros [H1 H2]. exists [], s. repeat split; auto. constructor.
      * intros (a & b & Ha & Hb & Hb' & E). destruct a as [|x a]; cbn in E.
        -- injection E as ->. auto.
        -- injection E as <- _. inversion Ha as [|? ? K _]. cbn in K. exfalso. repeat (destruct K as [K|K]; [discriminate K|]). destruct K.
    + rewrite andb_true_iff, IH, is_digit_iff. split.
      * intros [H1 (a & b & Ha & Hb & Hb' & ->)]. exists (c :: a), b. repeat split; auto. now constructor.
      * intros (a & b & Ha & Hb & Hb' & E). destruct a as [|x a]; cbn in E; [injection E as E _; contradiction|].
        injection E as <- ->. inversion Ha; subst. split; [assumption|]. exists a, b. auto.
Qed.
Lemma negative_iff s : negative s = true <->
  (s <> [] /\ is_number s) \/ exists a b, is_number a /\ b <> [] /\ is_number b /\ s = a ++ S_ "." ++ b.
Proof. unfold negative. rewrite orb_true_iff, andb_true_iff, nonempty_iff, all_digits_iff, fraction_iff. reflexivity. Qed.
Lemma unknown_word s : unknown s = AWord s <-> In " "%char s.
Proof.
  unfold unknown. destruct (existsb (Ascii.eqb " ") s) eqn:E.
  - apply existsb_exists in E as (c & Hc & Ec). apply Ascii.eqb_eq in Ec. subst c. tauto.
  - split; [discriminate|]. intros H. assert (existsb (Ascii.eqb " ") s = true) by (apply existsb_exists; exists " "%char; auto). congruence.
Qed.
Lemma before_eq_split s a b : before_eq s = (a, b) <->
  ~ In "="%char a /\ exists r, s = a ++ r /\ (if b then exists r', r = "="%char :: r' else r = []).
Proof.
  revert a b. induction s as [|c s IH]; intros a b; cbn [before_eq].
  - split.
    + intros [= <- <-]. split; [intros []|]. exists []. auto.
    + intros (_ & r & E & H). destruct a; [|discriminate E]. cbn in E. subst r. destruct b; [destruct H as [r' H]; discriminate H|reflexivity].
  - destruct (Ascii.eqb_spec c "="%char) as [->|Hc].
    + split.
      * intros [= <- <-]. split; [intros []|]. exists ("="%char :: s). split; [reflexivity|now exists s].
      * intros (H1 & r & E & H2). destruct a as [|x a]; [|cbn in E; injection E as <- _; destruct H1; now left].
        cbn in E. subst r. destruct b; [reflexivity|discriminate H2].
    + destruct (before_eq s) as [a1 b1] eqn:Es. destruct (proj1 (IH a1 b1) eq_refl) as (K1 & r1 & -> & K2). split.
      * intros [= <- <-]. split; [intros [H|H]; [now apply Hc|contradiction]|]. exists r1. auto.
      * intros (H1 & r & E & H2). destruct a as [|x a].
        { cbn in E. destruct b; [destruct H2 as [r' ->]; injection E as E _; contradiction|rewrite H2 in E; discriminate E]. }
        cbn in E. injection E as <- E. assert (K : (a1, b1) = (a, b)).
        { apply IH. split; [intros H; apply H1; now right|]. exists r. auto. }
        now injection K as -> ->.
Qed.

Lemma classify_word_iff s : classify s = AWord s <-> file_word s \/ dash_word s.
Proof.
  destruct s as [|c r]; [cbn; tauto|]. cbn [classify file_word]. destruct (Ascii.eqb_spec c "-"%char) as [->|Hc]; [|tauto].
  destruct r as [|c2 r2]; [split; [right; left; reflexivity|reflexivity]|].
  destruct (Ascii.eqb_spec c2 "-"%char) as [->|Hc2].
  - destruct r2 as [|c3 r3].
    { split; [discriminate|]. intros [H|[H|[(a & _ & H & E)|[(a & b & H & _ & _ & E)|[(_ & c & r & H & _ & E)|(_ & a & r & H & _ & _ & _ & E)]]]]];
        [contradiction|discriminate| | | |].
      - cbn in E. injection E as <-. inversion H as [|? ? K _]. cbn in K. repeat (destruct K as [K|K]; [discriminate K|]). destruct K.
      - cbn in E. injection E as E. destruct a; [discriminate E|]. injection E as <- E. inversion H as [|? ? K _]. cbn in K. repeat (destruct K as [K|K]; [discriminate K|]). destruct K.
      - cbn in E. injection E as <- _. contradiction.
      - cbn in E. destruct a; [contradiction|discriminate E]. }
    set (r2 := c3 :: r3) in *. destruct (before_eq r2) as [name val] eqn:Eb. apply before_eq_split in Eb as (Hn & rr & Er & Hv).
    assert (Hds : file_word ("-"%char :: "-"%char :: r2) \/ dash_word ("-"%char :: "-"%char :: r2) <->
      In " "%char ("-"%char :: "-"%char :: r2) /\ name <> [] /\ ~ option_name name).
    { split.
      - intros [H|[H|[(a & _ & H & E)|[(a & b & H & _ & _ & E)|[(_ & c & r & H & _ & E)|(Hb & a & r & H & H1 & H2 & H3 & E)]]]]].
        + contradiction H; reflexivity.
        + discriminate H.
        + cbn in E. injection E as <-. inversion H as [|? ? K _]. cbn in K. repeat (destruct K as [K|K]; [discriminate K|]). destruct K.
        + cbn in E. injection E as E. destruct a; [discriminate E|]. injection E as <- E. inversion H as [|? ? K _]. cbn in K. repeat (destruct K as [K|K]; [discriminate K|]). destruct K.
        + cbn in E. injection E as <- _. contradiction.
        + cbn in E. injection E as E. fold r2 in E.
          assert (K : before_eq r2 = (a, match r with [] => false | _ => true end)).
          { apply before_eq_split. split; [assumption|]. exists r. split; [exact E|]. destruct H3 as [->|[r' ->]]; [reflexivity|now exists r']. }
          assert (K2 : before_eq r2 = (name, val)) by (apply before_eq_split; split; [assumption|now exists rr]).
          rewrite K in K2. injection K2 as <- _. auto.
      - intros (Hb & Hne & Ho). right. right. right. right. right. split; [exact Hb|]. exists name, rr. split; [assumption|]. split; [assumption|]. split; [assumption|].
        split; [destruct val; [right; exact Hv|left; exact Hv]|]. rewrite <- Er. reflexivity. }
    rewrite Hds. clear Hds. destruct name as [|n0 n1] eqn:En.
    { cbn [pystr_eqb]. split; [discriminate|]. intros (_ & H & _). congruence. }
    change (pystr_eqb (n0 :: n1) []) with false. rewrite <- En in *. assert (Hname : name <> []) by (rewrite En; discriminate). clear En.
    destruct (is_prefix name (S_ "overwrite")) eqn:E1.
    { split; [destruct val; discriminate|]. intros (_ & _ & H). exfalso. apply H. apply is_prefix_iff in E1 as [b E1]. exists b. now left. }
    destruct (is_prefix name (S_ "help")) eqn:E2.
    { split; [destruct val; discriminate|]. intros (_ & _ & H). exfalso. apply H. apply is_prefix_iff in E2 as [b E2]. exists b. now right. }
    rewrite unknown_word. split; [|tauto]. intros H. split; [exact H|]. split; [exact Hname|]. intros (b & [Hb|Hb]).
    + assert (is_prefix name (S_ "overwrite") = true) by (apply is_prefix_iff; now exists b). congruence.
    + assert (is_prefix name (S_ "help") = true) by (apply is_prefix_iff; now exists b). congruence.
  - assert (Hds : file_word ("-"%char :: c2 :: r2) \/ dash_word ("-"%char :: c2 :: r2) <->
      negative (c2 :: r2) = true \/ (c2 <> "h"%char /\ In " "%char ("-"%char :: c2 :: r2))).
    { rewrite negative_iff. split.
      - intros [H|[H|[(a & H0 & H & E)|[(a & b & H & H1 & H2 & E)|[(Hb & c & r & H & Hh & E)|(Hb & a & r & H & H1 & H2 & H3 & E)]]]]].
        + contradiction H; reflexivity.
        + discriminate H.
        + cbn in E. injection E as <-. left. left. auto.
        + cbn in E. injection E as E. left. right. exists a, b. auto.
        + cbn in E. injection E as <- <-. right. auto.
        + cbn in E. injection E as E _. contradiction.
      - intros [[[H0 H]|(a & b & H & H1 & H2 & E)]|[Hh Hb]]; right; right.
        + left. exists (c2 :: r2). auto.
        + right. left. exists a, b. rewrite E. auto.
        + right. right. left. split; [exact Hb|]. exists c2, r2. auto. }
    rewrite Hds. clear Hds. destruct (Ascii.eqb_spec c2 "h"%char) as [->|Hh].
    + split; [intros H; destruct (after_h_cases r2) as [K|K]; rewrite K in H; discriminate H|]. intros [H|[H _]]; [|contradiction].
      apply negative_iff in H as [[_ H]|(a & b & H & _ & _ & E)]; exfalso.
      * inversion H as [|? ? K _]. cbn in K. repeat (destruct K as [K|K]; [discriminate K|]). destruct K.
      * destruct a; [discriminate E|]. injection E as <- _. inversion H as [|? ? K _]. cbn in K. repeat (destruct K as [K|K]; [discriminate K|]). destruct K.
    + destruct (negative (c2 :: r2)) eqn:En; [tauto|]. rewrite unknown_word. split; [tauto|]. intros [H|[_ H]]; [discriminate H|exact H].
Qed.

(** One argument is a file name exactly if it does not begin with a dash, or is
    a dash alone, a negative number, or a text with a blank that does not begin
    like an option. *)
Theorem C138_file_name :
  forall s : pystr, parse_args [s] = PRun false (Some s) <-> file_word s \/ dash_word s.
Proof.
  intros s. rewrite <- classify_word_iff. unfold parse_args. cbn [ambiguous consume is_sep]. destruct (classify s) as [| |x| | | |] eqn:E; cbn [consume]; try (split; discriminate).
  apply classify_word in E as ->. tauto.
Qed.
Print Assumptions C138_file_name.

(** After -- the next argument is the file name, whatever it is. *)
Theorem C138_separator :
  forall (flags : list pystr) (s : pystr), Forall overwrite_option flags ->
  parse_args (flags ++ [S_ "--"; s]) = PRun (match flags with [] => false | _ => true end) (Some s).
Proof.
  intros flags s H. unfold parse_args.
  assert (Ha : ambiguous (flags ++ [S_ "--"; s]) = false).
  { induction H as [|f flags Hf _ IH]; [reflexivity|]. cbn [app ambiguous]. apply classify_flag in Hf. now rewrite Hf. }
  rewrite Ha.
  assert (K : forall ow, consume ow None false (flags ++ [S_ "--"; s]) = PRun (ow || match flags with [] => false | _ => true end) (Some s)).
  { clear Ha. induction H as [|f flags Hf _ IH]; intros ow; [cbn; now rewrite orb_false_r|]. cbn [app consume]. apply classify_flag in Hf. rewrite Hf, IH. now rewrite orb_true_r. }
  apply K.
Qed.
Print Assumptions C138_separator.

Section Wrong.
Let simple (s : pystr) : Prop := classify s = AFlag \/ classify s = AWord s \/ classify s = AUnknown.
Lemma simple_not_sep l : Forall simple l -> is_sep l = false.
Proof. intros H. destruct H as [|s l Hs H]; [reflexivity|]. destruct H; [|reflexivity]. cbn. now destruct Hs as [-> |[-> | ->]]. Qed.
Lemma simple_not_ambiguous l : Forall simple l -> ambiguous l = false.
Proof. induction 1 as [|s l Hs _ IH]; [reflexivity|]. cbn [ambiguous]. now destruct Hs as [-> |[-> | ->]]. Qed.
Lemma extras_usage l : Forall simple l -> forall ow file, consume ow file true l = PUsage.
Proof.
  induction 1 as [|s l Hs Hl IH]; intros ow file; [reflexivity|]. cbn [consume]. destruct Hs as [-> |[-> | ->]]; auto.
  destruct file; [auto|]. rewrite simple_not_sep by assumption. auto.
Qed.
Lemma unknown_usage l : Forall simple l -> Exists (fun s => classify s = AUnknown) l -> forall ow file, consume ow file false l = PUsage.
Proof.
  induction 1 as [|s l Hs Hl IH]; intros HE ow file; [inversion HE|]. cbn [consume]. inversion HE as [? ? K|? ? K]; subst.
  - rewrite K. now apply extras_usage.
  - destruct Hs as [-> |[-> | ->]]; auto; [|now apply extras_usage]. destruct file; [now apply extras_usage|]. rewrite simple_not_sep by assumption. auto.
Qed.
Lemma second_usage l : Forall simple l -> Exists (fun s => classify s = AWord s) l -> forall ow f, consume ow (Some f) false l = PUsage.
Proof.
  induction 1 as [|s l Hs Hl IH]; intros HE ow f; [inversion HE|]. cbn [consume]. inversion HE as [? ? K|? ? K]; subst.
  - rewrite K. now apply extras_usage.
  - destruct Hs as [-> |[-> | ->]]; auto; now apply extras_usage.
Qed.
Lemma two_usage l r f : Forall simple (l ++ r) -> classify f = AWord f -> Exists (fun s => classify s = AWord s) r -> forall ow file, consume ow file false (l ++ f :: r) = PUsage.
Proof.
  intros H Hf HE. induction l as [|s l IH]; cbn [app] in *; intros ow file.
  - cbn [consume]. rewrite Hf. destruct file; [now apply extras_usage|]. rewrite simple_not_sep by assumption. now apply second_usage.
  - inversion H as [|? ? Hs Hl]; subst. assert (Hl' : Forall simple (l ++ f :: r)).
    { apply Forall_app in Hl as [A B]. apply Forall_app. split; [exact A|]. constructor; [|exact B]. right. now left. }
    cbn [consume]. destruct Hs as [-> |[-> | ->]]; auto; [|now apply extras_usage].
    destruct file; [now apply extras_usage|]. rewrite simple_not_sep by assumption. auto.
Qed.

(** Wrong arguments, such as two file names or an unknown option, are reported
    with status 2, the help with status 0; in both cases nothing is run. *)
Theorem C138_wrong :
  forall (run_file : pystr -> option bool -> cmd unit) (run_none : option bool -> cmd unit) (args : list pystr) (t : tree),
  (parse_args args = PUsage <-> main run_file run_none args t = ([], 2%nat)) /\
  (parse_args args = PHelp -> main run_file run_none args t = ([], 0%nat)) /\
  (forall before between after f f', args = before ++ f :: between ++ f' :: after -> file_word f -> file_word f' ->
     Forall (fun s => overwrite_option s \/ file_word s) (before ++ between ++ after) -> main run_file run_none args t = ([], 2%nat)) /\
  (forall before after c s, args = before ++ (S_ "-" ++ c :: s) :: after -> c <> "-"%char -> c <> "h"%char -> ~ In " "%char (c :: s) -> ~ is_number [c] -> c <> "."%char ->
     Forall (fun s => overwrite_option s \/ file_word s) (before ++ after) -> main run_file run_none args t = ([], 2%nat)).
Proof.
  intros run_file run_none args t.
  assert (Hus : parse_args args = PUsage <-> main run_file run_none args t = ([], 2%nat)).
  { unfold main. destruct (parse_args args) as [ow file| |]; [|split; discriminate|tauto].
    split; [discriminate|]. set (flag := if ow then _ else _).
    destruct file as [f|]; [destruct (run_file f flag t) as [l [u|e]]|destruct (run_none flag t) as [l [u|e]]]; discriminate. }
  split; [exact Hus|]. split; [intros H; unfold main; now rewrite H|].
  assert (Hs : forall l, Forall (fun s => overwrite_option s \/ file_word s) l -> Forall simple l).
  { intros l. apply Forall_impl. intros s [H|H]; [left; now apply classify_flag|right; left; now apply classify_file]. }
  split.
  - intros before between after f f' Ea Hf Hf' H. apply Hus. clear Hus. subst args. unfold parse_args. apply Hs in H. apply Forall_app in H as [H1 H]. apply Forall_app in H as [H2 H3].
    apply classify_file in Hf, Hf'.
    assert (Hr : Forall simple (between ++ f' :: after)) by (apply Forall_app; split; [|constructor; [right; left|]]; assumption).
    rewrite simple_not_ambiguous by (apply Forall_app; split; [|constructor; [right; left|]]; assumption).
    apply two_usage; [apply Forall_app; now split|assumption|]. apply Exists_app. right. now left.
  - intros before after c s Ea Hc1 Hc2 Hb Hn Hd H. apply Hus. clear Hus. subst args. unfold parse_args. apply Hs in H. apply Forall_app in H as [H1 H2].
    assert (Hu : classify (S_ "-" ++ c :: s) = AUnknown).
    { cbn. apply Ascii.eqb_neq in Hc1, Hc2. rewrite Hc1, Hc2. destruct (negative (c :: s)) eqn:E.
      - exfalso. apply negative_iff in E as [[_ E]|(a & b & Ea & _ & _ & E)].
        + apply Hn. inversion E; subst. constructor; [assumption|constructor].
        + destruct a as [|x a]; cbn in E; injection E as -> E; [contradiction|]. apply Hn. inversion Ea; subst. constructor; [assumption|constructor].
      - destruct (unknown_cases ("-"%char :: c :: s)) as [K|K]; [|exact K]. exfalso. apply unknown_word in K as [K|K]; [discriminate K|contradiction]. }
    rewrite simple_not_ambiguous by (apply Forall_app; split; [|constructor; [right; right|]]; assumption).
    apply unknown_usage; [apply Forall_app; split; [|constructor; [right; right|]]; assumption|]. apply Exists_app. right. now left.
Qed.
Print Assumptions C138_wrong.
End Wrong.

Example C138_example_names :
  map (fun s => parse_args [S_ s]) ["-"; "-3"; "-.5"; "-5."; "-1x"; "-x y"; "-xy"; "-h"; "--over"; "--overt"; "--ov er"; "m.ini"] =
  [PRun false (Some (S_ "-")); PRun false (Some (S_ "-3")); PRun false (Some (S_ "-.5")); PUsage; PUsage; PRun false (Some (S_ "-x y")); PUsage; PHelp;
   PRun true None; PUsage; PRun false (Some (S_ "--ov er")); PRun false (Some (S_ "m.ini"))] /\
  parse_args [S_ "--overwrite"; S_ "--"; S_ "--=x"] = PRun true (Some (S_ "--=x")).
Proof. vm_compute. split; reflexivity. Qed.
