(** C146: references between the options of a section. *)
From Coq Require Import List ZArith Bool Ascii String Arith Lia.
From Verif Require Import Base ParseModel ConfigModel DeprecatedModel IniModel IniSpec IniProofs IniProps ReferSpec ReferProofs.
Import ListNotations.
Local Open Scope nat_scope.
Local Open Scope list_scope.
Local Opaque interpolate.

Lemma read_text_sections secs ls t : sections_ok secs -> writes None [] secs ls -> file_of ls t -> read_text t = Ok (secs, []).
Proof.
  intros (Hne & Hnd & Hdef & Hall) Hw Hf. unfold read_text. rewrite (file_lines _ _ Hf (writes_inline _ _ _ _ Hw)).
  destruct (read_start _ _ _ _ Hw eq_refl eq_refl Hne Hnd Hdef Hall) as (s' & E & H1 & H2 & H3).
  rewrite E. cbn [bind]. rewrite H1. unfold joined in H3. now rewrite H3, H2.
Qed.
Lemma section_dict_means opts opts' : NoDup (map fst opts) ->
  (section_dict [] opts = Ok opts' <-> Forall2 (fun kv kv' => fst kv' = fst kv /\ expands opts 10 (snd kv) (snd kv')) opts opts').
Proof.
  intros Hn. unfold section_dict, with_defaults. cbn [filter]. rewrite app_nil_r. apply mapM_Forall2. intros [k v] [k' v'] _. cbn [fst snd].
  assert (N10 : 10 <> 0) by discriminate. pose proof (interpolate_expands opts Hn 10 v) as X. split.
  - intros E. apply bind_Ok in E as (w & Hw & E). injection E as <- <-. split; [reflexivity|]. exact (proj1 (X w (or_introl N10)) Hw).
  - intros [-> H]. apply (proj2 (X v' (or_introl N10))) in H. rewrite H. reflexivity.
Qed.

(** A file that writes the sections [secs], whose values may contain per cent
    signs, is read as what these values stand for, references nested at most
    ten deep; if a value does not stand for anything, reading fails with an
    InterpolationError. *)
Theorem C146_references : forall secs ls t, sections_ok secs -> writes None [] secs ls -> file_of ls t ->
  (forall p, read_ini t = Ok p <-> Forall2 section_means secs p) /\
  (forall e, read_ini t = Err e -> e = InterpolationError).
Proof.
  intros secs ls t Hs Hw Hf. unfold read_ini. rewrite (read_text_sections _ _ _ Hs Hw Hf). cbn [bind fst snd]. destruct Hs as (Hne & _ & _ & Hall).
  destruct secs as [|sec secs]; [easy|]. set (l := sec :: secs) in *. clearbody l. rewrite Forall_forall in Hall. split.
  - apply mapM_Forall2. intros [n opts] [n' opts'] Hin. unfold section_means. cbn [fst snd]. specialize (Hall _ Hin). cbn [snd] in Hall.
    pose proof (section_dict_means opts opts' Hall) as X. split.
    + intros E. apply bind_Ok in E as (w & Ew & E). injection E as <- <-. split; [reflexivity|]. exact (proj1 X Ew).
    + intros [-> H]. apply (proj2 X) in H. rewrite H. reflexivity.
  - intros e He. pose proof (mapM_errs (fun ns : pystr * list (pystr * pystr) => let* t0 := section_dict [] (snd ns) in Ok (fst ns, t0)) InterpolationError l) as K.
    rewrite He in K. apply K. intros [n opts] _. cbn [snd fst]. unfold section_dict.
    pose proof (mapM_errs (fun kv : pystr * pystr => let* v := interpolate 10 (with_defaults [] opts) (snd kv) in Ok (fst kv, v)) InterpolationError (with_defaults [] opts)) as J.
    destruct (mapM _ (with_defaults [] opts)); cbn [bind]; [exact I|]. apply J. intros [k v] _. cbn [fst snd]. pose proof (interpolate_err (with_defaults [] opts) 10 v) as Q.
    destruct (interpolate 10 _ v); cbn; auto.
Qed.
Print Assumptions C146_references.

(** What a value stands for is determined. *)
Theorem C146_one_meaning : forall opts d s t t', NoDup (map fst opts) -> expands opts d s t -> expands opts d s t' -> t = t'.
Proof.
  intros opts d s t t' Hn H H'. destruct d as [|d].
  - pose proof (expands_0 _ _ _ H) as K. now rewrite (expands_plain_inv _ _ _ _ H K), (expands_plain_inv _ _ _ _ H' K).
  - apply (interpolate_expands opts Hn) in H, H'; [congruence|left; discriminate..].
Qed.
Print Assumptions C146_one_meaning.

Lemma Forall2_left {A B} (P : A -> B -> Prop) l r : Forall2 P l r -> forall x, In x l -> exists y, P x y.
Proof. induction 1 as [|x y l r H F IH]; intros z Hz; [destruct Hz|]. destruct Hz as [->|Hz]; eauto. Qed.
Lemma refers_step opts d s t key : expands opts d s t -> refers s key -> exists e v w, d = S e /\ In (key, v) opts /\ expands opts e v w.
Proof.
  intros H (a & name & b & -> & Ha & Hne & Hp & Hl). remember (a ++ "%"%char :: "("%char :: name ++ ")"%char :: "s"%char :: b) as s eqn:Es. revert a Ha Es.
  induction H as [|d c s t Hc H IH|d s t H IH|d name' key' v w s t H1 H2 H3 H4 H5 IH5 H6 IH6]; intros a Ha Es.
  - destruct a; discriminate.
  - destruct a as [|x a]; [injection Es as -> _; congruence|]. injection Es as -> Es. apply (IH a); [|assumption]. intros K. apply Ha. now right.
  - destruct a as [|x a]; [discriminate|]. injection Es as <- _. destruct Ha. now left.
  - destruct a as [|x a]; [|injection Es as <- _; destruct Ha; now left]. injection Es as Es.
    assert (name' = name) as ->.
    { apply (f_equal until_paren) in Es. rewrite (proj2 (until_paren_spec _ name' s) (conj eq_refl H2)), (proj2 (until_paren_spec _ name b) (conj eq_refl Hp)) in Es. congruence. }
    rewrite (lower_case_spec _ _ H3) in H4. rewrite <- (lower_case_spec _ _ Hl) in H4. eauto 10.
Qed.
(** Options that refer to each other in a circle stand for nothing, and a file
    with such options is not accepted. *)
Theorem C146_circle : forall secs ls t, sections_ok secs -> writes None [] secs ls -> file_of ls t ->
  forall name opts, In (name, opts) secs ->
  forall circle : pystr -> Prop, (forall key v, circle key -> In (key, v) opts -> exists key', circle key' /\ refers v key') ->
  forall key v, circle key -> In (key, v) opts -> read_ini t = Err InterpolationError.
Proof.
  intros secs ls t Hs Hw Hf name opts Hin circle Hc key v Hk Hv.
  assert (K : forall d s w key, circle key -> refers s key -> expands opts d s w -> False).
  { induction d as [|d IH]; intros s w key' Hk' Hr He; destruct (refers_step _ _ _ _ _ He Hr) as (e & v' & w' & Ed & Hi & He'); [discriminate|].
    injection Ed as <-. destruct (Hc key' v' Hk' Hi) as (key'' & Hk'' & Hr'). exact (IH v' w' key'' Hk'' Hr' He'). }
  destruct (C146_references secs ls t Hs Hw Hf) as [P Q]. destruct (read_ini t) as [p|e] eqn:E; [|now rewrite (Q e eq_refl)].
  exfalso. pose proof (proj1 (P p) eq_refl) as F. clear - F Hin Hv Hc Hk K.
  induction F as [|sec sec' l l' [_ H] F IH]; [destruct Hin|]. destruct Hin as [->|Hin]; [|auto]. cbn [snd] in H.
  clear IH F. assert (exists w, expands opts 10 v w) as [w Hw].
  { destruct (Forall2_left _ _ _ H _ Hv) as (kv' & _ & X). eauto. }
  destruct (Hc key v Hk Hv) as (key' & Hk' & Hr). eauto.
Qed.
Print Assumptions C146_circle.

(** [main = 1 / %(Sub)s%%], [sub = %(base)s0], [base = 4]: main is 1 / 40%.
    With [base = %(main)s] the file is not accepted. *)
Definition rf_secs (base : pystr) : list (pystr * list (pystr * pystr)) :=
  [(S_ "run", [(S_ "main", S_ "1 / %(Sub)s%%"); (S_ "sub", S_ "%(base)s0"); (S_ "base", base)])].
Definition rf_lines (base : pystr) : list pystr := [S_ "[run]"; S_ "main = 1 / %(Sub)s%%"; S_ "sub = %(base)s0"; S_ "base = " ++ base].

Lemma rf_writes base : startb base && startb (rev base) = true -> forallb inlineb base = true -> writes None [] (rf_secs base) (rf_lines base).
Proof.
  intros H1 H2. unfold rf_secs, rf_lines.
  apply (writes_header None 0). { exact I. }
  { apply (header_is 0 (S_ "run") [] []); [constructor|reflexivity|discriminate|now apply inline_b|constructor|easy]. }
  apply (writes_option None 0 (S_ "main") (S_ "1 / %(Sub)s%%") [] _ []). { exact I. }
  { change (S_ "main = 1 / %(Sub)s%%") with ([] ++ S_ "main" ++ S_ " " ++ "="%char :: S_ " " ++ S_ "1 / %(Sub)s%%" ++ []).
    apply option_b; solve [reflexivity | now left]. }
  { constructor. }
  apply (writes_option (Some 0) 0 (S_ "sub") (S_ "%(base)s0") [] _ []). { cbn. lia. }
  { change (S_ "sub = %(base)s0") with ([] ++ S_ "sub" ++ S_ " " ++ "="%char :: S_ " " ++ S_ "%(base)s0" ++ []).
    apply option_b; solve [reflexivity | now left]. }
  { constructor. }
  apply (writes_option (Some 0) 0 (S_ "base") base [] _ []). { cbn. lia. }
  { replace (S_ "base = " ++ base) with ([] ++ S_ "base" ++ S_ " " ++ "="%char :: S_ " " ++ base ++ []) by (rewrite app_nil_r; reflexivity).
    apply option_b; solve [reflexivity | now left | assumption]. }
  { constructor. }
  constructor.
Qed.
Lemma rf_ok base : sections_ok (rf_secs base).
Proof. repeat split; [discriminate|repeat constructor; intros []|intros [H|[]]; discriminate|]. repeat constructor; cbn; intuition discriminate. Qed.
Local Transparent interpolate.
Example C146_example :
  read_ini (crlf (rf_lines (S_ "4"))) = Ok [(S_ "run", [(S_ "main", S_ "1 / 40%"); (S_ "sub", S_ "40"); (S_ "base", S_ "4")])] /\
  read_ini (crlf (rf_lines (S_ "%(Main)s"))) = Err InterpolationError /\
  read_ini (crlf (rf_lines (S_ "%(main)t"))) = Err InterpolationError.
Proof.
  split; [|split].
  - apply (C146_references _ _ _ (rf_ok _) (rf_writes (S_ "4") eq_refl eq_refl) (crlf_file _)). constructor; [|constructor]. split; [reflexivity|].
    constructor; [|constructor; [|constructor; [|constructor]]]; cbn [fst snd]; (split; [reflexivity|]).
    + repeat (apply expands_char; [discriminate|]).
      apply (expands_reference _ 9 (S_ "Sub") (S_ "sub") (S_ "%(base)s0") (S_ "40") (S_ "%%") (S_ "%"));
        [discriminate|cbn; intuition discriminate|now apply lower_case_intro|cbn; tauto| |apply expands_percent; constructor].
      apply (expands_reference _ 8 (S_ "base") (S_ "base") (S_ "4") (S_ "4") (S_ "0") (S_ "0"));
        [discriminate|cbn; intuition discriminate|now apply lower_case_intro|cbn; tauto| |]; apply expands_char; try discriminate; constructor.
    + apply (expands_reference _ 9 (S_ "base") (S_ "base") (S_ "4") (S_ "4") (S_ "0") (S_ "0"));
        [discriminate|cbn; intuition discriminate|now apply lower_case_intro|cbn; tauto| |]; apply expands_char; try discriminate; constructor.
    + apply expands_char; [discriminate|constructor].
  - apply (C146_circle _ _ _ (rf_ok _) (rf_writes (S_ "%(Main)s") eq_refl eq_refl) (crlf_file _) (S_ "run") _ (or_introl eq_refl) (fun k => In k [S_ "main"; S_ "sub"; S_ "base"])) with (key := S_ "main") (v := S_ "1 / %(Sub)s%%"); [|cbn; tauto|cbn; tauto].
    intros key v _ [H|[H|[H|[]]]]; injection H as <- <-.
    + exists (S_ "sub"). split; [cbn; tauto|]. exists (S_ "1 / "), (S_ "Sub"), (S_ "%%"). repeat split; [cbn; intuition discriminate|discriminate|cbn; intuition discriminate|now apply lower_case_intro].
    + exists (S_ "base"). split; [cbn; tauto|]. exists [], (S_ "base"), (S_ "0"). repeat split; [cbn; intuition discriminate|discriminate|cbn; intuition discriminate|now apply lower_case_intro].
    + exists (S_ "main"). split; [cbn; tauto|]. exists [], (S_ "Main"), []. repeat split; [cbn; intuition discriminate|discriminate|cbn; intuition discriminate|now apply lower_case_intro].
  - vm_compute. reflexivity.
Qed.

(** Ten levels of references are followed, eleven are not. *)
Fixpoint rf_chain (n : nat) : list (pystr * pystr) :=
  match n with
  | O => [([ascii_of_nat 97], S_ "x")]
  | S n => ([ascii_of_nat (98 + n)], S_ "%(" ++ [ascii_of_nat (97 + n)] ++ S_ ")s") :: rf_chain n
  end.
Example C146_example_deep : (exists t, section_dict [] (rf_chain 10) = Ok ((S_ "k", S_ "x") :: t)) /\
  section_dict [] (rf_chain 11) = Err InterpolationError.
Proof. split; [eexists|]; vm_compute; reflexivity. Qed.
