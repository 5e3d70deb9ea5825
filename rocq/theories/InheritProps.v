(** C147: the section DEFAULT of the ini-file. *)
From Coq Require Import List ZArith Bool Ascii String Arith Lia.
From Verif Require Import Base ParseModel ConfigModel DeprecatedModel IniModel IniSpec IniProofs IniProps ReferSpec ReferProofs InheritSpec InheritProofs.
Import ListNotations.
Local Open Scope nat_scope.
Local Open Scope list_scope.
Local Opaque interpolate.

Lemma section_dict_with d opts opts' : NoDup (map fst opts) -> NoDup (map fst d) ->
  (section_dict d opts = Ok opts' <->
   exists all, complete d opts all /\ Forall2 (fun kv kv' => fst kv' = fst kv /\ expands all 10 (snd kv) (snd kv')) all opts').
Proof.
  intros Hn Hd. pose proof (with_defaults_nodup d opts Hn Hd) as Hall.
  assert (M : section_dict d opts = Ok opts' <-> Forall2 (fun kv kv' => fst kv' = fst kv /\ expands (with_defaults d opts) 10 (snd kv) (snd kv')) (with_defaults d opts) opts').
  { unfold section_dict. apply mapM_Forall2. intros [k v] [k' v'] _. cbn [fst snd].
    assert (N10 : 10 <> 0) by discriminate. pose proof (interpolate_expands _ Hall 10 v) as X. split.
    - intros E. apply bind_Ok in E as (w & Hw & E). injection E as <- <-. split; [reflexivity|]. exact (proj1 (X w (or_introl N10)) Hw).
    - intros [-> H]. apply (proj2 (X v' (or_introl N10))) in H. rewrite H. reflexivity. }
  split.
  - intros H. exists (with_defaults d opts). split; [now apply complete_iff|]. now apply M.
  - intros (all & Hc & H). apply complete_iff in Hc. subst all. now apply M.
Qed.

(** A file with a section DEFAULT is read as its other sections, each with the
    options of DEFAULT that it does not have; references may use these options,
    too, and an option of DEFAULT refers to the options of the section that
    takes it over. *)
Theorem C147_default : forall a d b ls t, a ++ b <> [] ->
  NoDup (map fst (a ++ (S_ "DEFAULT", d) :: b)) -> Forall (fun sec => NoDup (map fst (snd sec))) (a ++ (S_ "DEFAULT", d) :: b) ->
  writes None [] (a ++ (S_ "DEFAULT", d) :: b) ls -> file_of ls t ->
  (forall p, read_ini t = Ok p <-> Forall2 (section_means_with d) (a ++ b) p) /\
  (forall e, read_ini t = Err e -> e = InterpolationError).
Proof.
  intros a d b ls t Hne Hnd Hall Hw Hf. unfold read_ini. rewrite (read_text_default a d b ls t Hnd Hall Hw Hf). cbn [bind fst snd].
  assert (Hd : NoDup (map fst d)).
  { rewrite Forall_forall in Hall. apply (Hall (S_ "DEFAULT", d)). apply in_or_app. right. now left. }
  assert (Hall' : forall sec, In sec (a ++ b) -> NoDup (map fst (snd sec))).
  { rewrite Forall_forall in Hall. intros sec Hi. apply Hall. apply in_or_app. apply in_app_or in Hi as [Hi|Hi]; [now left|right; now right]. }
  clear Hall Hnd Hw Hf. destruct (a ++ b) as [|sec secs]; [easy|]. set (l := sec :: secs) in *. clearbody l. split.
  - apply mapM_Forall2. intros [n opts] [n' opts'] Hin. unfold section_means_with. cbn [fst snd]. specialize (Hall' _ Hin). cbn [snd] in Hall'.
    pose proof (section_dict_with d opts opts' Hall' Hd) as X. split.
    + intros E. apply bind_Ok in E as (w & Ew & E). injection E as <- <-. split; [reflexivity|]. exact (proj1 X Ew).
    + intros [-> H]. apply (proj2 X) in H. rewrite H. reflexivity.
  - intros e He. pose proof (mapM_errs (fun ns : pystr * list (pystr * pystr) => let* t0 := section_dict d (snd ns) in Ok (fst ns, t0)) InterpolationError l) as K.
    rewrite He in K. apply K. intros [n opts] _. cbn [snd fst]. unfold section_dict.
    pose proof (mapM_errs (fun kv : pystr * pystr => let* v := interpolate 10 (with_defaults d opts) (snd kv) in Ok (fst kv, v)) InterpolationError (with_defaults d opts)) as J.
    destruct (mapM _ (with_defaults d opts)); cbn [bind]; [exact I|]. apply J. intros [k v] _. cbn [fst snd]. pose proof (interpolate_err (with_defaults d opts) 10 v) as Q.
    destruct (interpolate 10 _ v); cbn; auto.
Qed.
Print Assumptions C147_default.

(** Without references: each section gets the options of DEFAULT it does not have. *)
Theorem C147_plain : forall (a : list (pystr * list (pystr * pystr))) (d : list (pystr * pystr)) (b : list (pystr * list (pystr * pystr))) ls t, a ++ b <> [] ->
  NoDup (map fst (a ++ (S_ "DEFAULT", d) :: b)) -> Forall (fun sec => NoDup (map fst (snd sec))) (a ++ (S_ "DEFAULT", d) :: b) ->
  Forall (fun sec : pystr * list (pystr * pystr) => Forall (fun kv : pystr * pystr => ~ In "%"%char (snd kv)) (snd sec)) (a ++ (S_ "DEFAULT", d) :: b) ->
  writes None [] (a ++ (S_ "DEFAULT", d) :: b) ls -> file_of ls t ->
  exists p, read_ini t = Ok p /\ Forall2 (fun sec sec' : pystr * list (pystr * pystr) => fst sec' = fst sec /\ complete d (snd sec) (snd sec')) (a ++ b) p.
Proof.
  intros a d b ls t Hne Hnd Hall Hpl Hw Hf. destruct (C147_default a d b ls t Hne Hnd Hall Hw Hf) as [P _].
  assert (Hd : Forall (fun kv => ~ In "%"%char (snd kv)) d).
  { rewrite Forall_forall in Hpl. apply (Hpl (S_ "DEFAULT", d)). apply in_or_app. right. now left. }
  exists (map (fun sec => (fst sec, with_defaults d (snd sec))) (a ++ b)).
  assert (Hpl' : Forall (fun sec : pystr * list (pystr * pystr) => Forall (fun kv : pystr * pystr => ~ In "%"%char (snd kv)) (snd sec)) (a ++ b)).
  { apply Forall_app in Hpl as [H1 H2]. inversion_clear H2. now apply Forall_app. }
  clear Hpl. split.
  - apply P. clear - Hpl' Hd. revert Hpl'. generalize (a ++ b). intros l0 Hpl'. induction Hpl' as [|[n opts] l H Hl IH]; cbn [map]; constructor; [|exact IH]. cbn [snd fst] in *.
    split; [reflexivity|]. exists (with_defaults d opts). split; [now apply complete_iff|]. cbn [snd].
    assert (W : Forall (fun kv => ~ In "%"%char (snd kv)) (with_defaults d opts)).
    { apply Forall_app. split; [exact H|]. apply Forall_forall. intros kv Hi. apply filter_In in Hi as [Hi _]. now apply (proj1 (Forall_forall _ _) Hd). }
    generalize (with_defaults d opts) at 1. intros vals. induction W as [|[k v] r Hv Hr IHr]; constructor; [|exact IHr]. split; [reflexivity|]. cbn [snd] in *.
    clear - Hv. induction v as [|c v IH]; constructor; [intros ->; apply Hv; now left|]. apply IH. intros K. apply Hv. now right.
  - clear. induction (a ++ b) as [|[n opts] l IH]; cbn [map]; constructor; [|exact IH]. cbn [fst snd]. split; [reflexivity|]. now apply complete_iff.
Qed.
Print Assumptions C147_plain.

(** Two sections; [out] of DEFAULT refers to [name], which one section sets
    itself and the other one takes from DEFAULT. *)
Definition ih_a : list (pystr * list (pystr * pystr)) := [(S_ "run", [(S_ "name", S_ "x")])].
Definition ih_d : list (pystr * pystr) := [(S_ "name", S_ "y"); (S_ "out", S_ "%(name)s.npz")].
Definition ih_b : list (pystr * list (pystr * pystr)) := [(S_ "model", [])].
Definition ih_lines : list pystr := map S_ ["[run]"; "name = x"; "[DEFAULT]"; "name = y"; "out = %(name)s.npz"; "[model]"]%string.
Lemma ih_writes : writes None [] (ih_a ++ (S_ "DEFAULT", ih_d) :: ih_b) ih_lines.
Proof.
  unfold ih_a, ih_b, ih_d, ih_lines. cbn [map app].
  apply (writes_header None 0). { exact I. }
  { apply (header_is 0 (S_ "run") [] []); [constructor|reflexivity|discriminate|now apply inline_b|constructor|easy]. }
  apply (writes_option None 0 (S_ "name") (S_ "x") [] _ []). { exact I. }
  { change (S_ "name = x") with ([] ++ S_ "name" ++ S_ " " ++ "="%char :: S_ " " ++ S_ "x" ++ []). apply option_b; solve [reflexivity | now left]. }
  { constructor. }
  apply (writes_header (Some 0) 0). { cbn. lia. }
  { apply (header_is 0 (S_ "DEFAULT") [] []); [constructor|reflexivity|discriminate|now apply inline_b|constructor|easy]. }
  apply (writes_option None 0 (S_ "name") (S_ "y") [] _ []). { exact I. }
  { change (S_ "name = y") with ([] ++ S_ "name" ++ S_ " " ++ "="%char :: S_ " " ++ S_ "y" ++ []). apply option_b; solve [reflexivity | now left]. }
  { constructor. }
  apply (writes_option (Some 0) 0 (S_ "out") (S_ "%(name)s.npz") [] _ []). { cbn. lia. }
  { change (S_ "out = %(name)s.npz") with ([] ++ S_ "out" ++ S_ " " ++ "="%char :: S_ " " ++ S_ "%(name)s.npz" ++ []). apply option_b; solve [reflexivity | now left]. }
  { constructor. }
  apply (writes_header (Some 0) 0). { cbn. lia. }
  { apply (header_is 0 (S_ "model") [] []); [constructor|reflexivity|discriminate|now apply inline_b|constructor|easy]. }
  constructor.
Qed.
Example C147_example :
  read_ini (crlf ih_lines) = Ok [(S_ "run", [(S_ "name", S_ "x"); (S_ "out", S_ "x.npz")]); (S_ "model", [(S_ "name", S_ "y"); (S_ "out", S_ "y.npz")])] /\
  ih_a ++ ih_b <> [] /\ NoDup (map fst (ih_a ++ (S_ "DEFAULT", ih_d) :: ih_b)) /\
  Forall (fun sec => NoDup (map fst (snd sec))) (ih_a ++ (S_ "DEFAULT", ih_d) :: ih_b) /\
  writes None [] (ih_a ++ (S_ "DEFAULT", ih_d) :: ih_b) ih_lines /\ file_of ih_lines (crlf ih_lines).
Proof.
  split; [vm_compute; reflexivity|]. split; [discriminate|]. split; [repeat constructor; cbn; intuition discriminate|].
  split; [repeat constructor; cbn; intuition discriminate|]. split; [apply ih_writes|apply crlf_file].
Qed.
