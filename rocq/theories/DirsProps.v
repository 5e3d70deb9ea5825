(** Properties C13-C19, C70, C73-C75: output directories. *)
From Coq Require Import List ZArith Bool Ascii String Lia.
From Verif Require DeprecatedModel DeprecatedProps.
From Verif Require Import Base ParseModel ConfigModel ConfigProofs2 ParseProps ConfigProps DirsModel DirsSpec DirsProofs DirsProofs2.
Import ListNotations.
Local Open Scope string_scope.
Local Open Scope list_scope.

(** ** C13.  Run name and run directory *)

(** Name and directory from the ini file: [stem.ext]. *)
Theorem C13_default_name :
  forall (stem ext : pystr) (ini_path selected : path),
  ~ In "."%char ext -> (forall r, stem ++ "."%char :: ext <> r ++ S_ "autogenerated_backup.ini") ->
  plain_name stem ->
  set_paths None None ini_path (stem ++ "."%char :: ext) selected = Ok (mkPaths stem ini_path (ini_path ++ [stem])).
Proof.
  intros stem ext ip sel He Hb (P1 & P2 & _ & P4). unfold set_paths.
  assert (E1 : endswith (stem ++ "."%char :: ext) (S_ "autogenerated_backup.ini") = false).
  { destruct (endswith _ _) eqn:E; [|reflexivity]. apply endswith_spec in E as (r & E). now apply Hb in E. }
  assert (E2 : endswith (stem ++ "."%char :: ext) backup_suffix = false).
  { destruct (endswith _ backup_suffix) eqn:E; [|reflexivity]. apply endswith_spec in E as (r & E).
    exfalso. apply (Hb (r ++ ["_"%char])). rewrite E, <- app_assoc. reflexivity. }
  rewrite E1, E2, stem_name by assumption. now rewrite pjoin_plain.
Qed.
Print Assumptions C13_default_name.

Theorem C13_given_name :
  forall (rn ini_name : pystr) (ini_path selected : path),
  (forall r, ini_name <> r ++ S_ "_autogenerated_backup.ini") -> plain_name rn ->
  set_paths (Some rn) None ini_path ini_name selected = Ok (mkPaths rn ini_path (ini_path ++ [rn])).
Proof.
  intros rn n ip sel Hb (P1 & P2 & _ & P4). unfold set_paths.
  destruct (endswith n backup_suffix) eqn:E.
  - apply endswith_spec in E as (r & E). now apply Hb in E.
  - now rewrite pjoin_plain.
Qed.
Print Assumptions C13_given_name.

Theorem C13_backup :
  forall (runname modeldir : option pystr) (r : pystr) (ini_path selected : path),
  set_paths runname modeldir ini_path (r ++ S_ "_autogenerated_backup.ini") selected =
  Ok (mkPaths (match runname with Some n => n | None => r end) (removelast ini_path) ini_path).
Proof.
  intros. unfold set_paths. change (S_ "_autogenerated_backup.ini") with backup_suffix.
  rewrite endswith_app.
  assert (E : endswith (r ++ backup_suffix) (S_ "autogenerated_backup.ini") = true).
  { apply endswith_spec. exists (r ++ ["_"%char]). rewrite <- app_assoc. reflexivity. }
  rewrite E. change 25 with (List.length backup_suffix). now rewrite drop_last_app.
Qed.
Print Assumptions C13_backup.

(** Running the backup of a run: same name, same directory. *)
Theorem C13_backup_round_trip :
  forall (runname modeldir : option pystr) (ini_path selected selected' : path) (ini_name : pystr) (rp : run_paths),
  set_paths runname modeldir ini_path ini_name selected = Ok rp ->
  exists rp', set_paths runname modeldir (rp_rundir rp) (rp_runname rp ++ S_ "_autogenerated_backup.ini") selected' = Ok rp' /\
    rp_rundir rp' = rp_rundir rp /\ rp_runname rp' = rp_runname rp.
Proof.
  intros rn md ip sel sel' n rp H. rewrite C13_backup. eexists. split; [reflexivity|]. cbn [rp_rundir rp_runname].
  split; [reflexivity|]. destruct rn as [r|]; [|reflexivity].
  unfold set_paths in H. destruct (endswith n backup_suffix); [injection H as <-; reflexivity|].
  destruct md as [m|]; [destruct (pystr_eqb m _); [|discriminate]|]; injection H as <-; reflexivity.
Qed.
Print Assumptions C13_backup_round_trip.

Example C13_example :
  set_paths None None [S_ "home"; S_ "u"] (S_ "made.v2.ini") [] =
    Ok (mkPaths (S_ "made.v2") [S_ "home"; S_ "u"] [S_ "home"; S_ "u"; S_ "made.v2"]) /\
  plain_name (S_ "made.v2") /\ (forall r, S_ "made.v2.ini" <> r ++ S_ "autogenerated_backup.ini").
Proof.
  split; [reflexivity|]. split.
  - repeat split; try discriminate. cbn. intros H. repeat (destruct H as [H|H]; [discriminate|]). exact H.
  - intros r E. apply (f_equal (@List.length _)) in E. rewrite app_length in E. cbn in E. lia.
Qed.

(** ** C73.  The option modeldir *)
Theorem C73_modeldir_refuted :
  forall (runname : option pystr) (m ini_name : pystr) (ini_path selected : path),
  m <> S_ "select" -> (forall r, ini_name <> r ++ S_ "_autogenerated_backup.ini") ->
  set_paths runname (Some m) ini_path ini_name selected = Err TypeError.
Proof.
  intros rn m n ip sel Hm Hb. unfold set_paths. destruct (endswith n backup_suffix) eqn:E.
  - apply endswith_spec in E as (r & E). now apply Hb in E.
  - apply pystr_eqb_neq in Hm. now rewrite Hm.
Qed.
Print Assumptions C73_modeldir_refuted.

(** ** C14.  Proper subdirectory *)
Theorem C14_subdirectory_partial :
  forall (runname : option pystr) (ini_name : pystr) (ini_path selected : path) (rp : run_paths),
  set_paths runname None ini_path ini_name selected = Ok rp ->
  (forall r, ini_name <> r ++ S_ "_autogenerated_backup.ini") ->
  plain_name (rp_runname rp) ->
  rp_rundir rp = ini_path ++ [rp_runname rp] /\ rp_rundir rp <> ini_path /\
  (rp_runname rp <> ini_name -> ~ under (rp_rundir rp) (ini_path ++ [ini_name])).
Proof.
  intros rn n ip sel rp H Hb (P1 & P2 & P3 & P4). unfold set_paths in H.
  destruct (endswith n backup_suffix) eqn:E; [apply endswith_spec in E as (r & E); now apply Hb in E|].
  injection H as <-. cbn [rp_rundir rp_runname] in *. rewrite pjoin_plain by assumption.
  split; [reflexivity|]. split; [apply snoc_ne|]. intros Hne Hu. apply under_snoc_inj in Hu. contradiction.
Qed.
Print Assumptions C14_subdirectory_partial.

(** A configuration file without extension: its directory is the run
    directory, and if overwriting is on everything there is deleted. *)
Definition home : path := [S_ "home"].
Definition fs_noext : tree :=
  Dir [(S_ "home", Dir [(S_ "model", File (S_ "[run]")); (S_ "thesis", Dir [(S_ "text", File (S_ "words"))])])].
Theorem C14_subdirectory_refuted :
  exists rp, set_paths None None home (S_ "model") [] = Ok rp /\ rp_rundir rp = home /\
    kind_at fs_noext (home ++ [S_ "thesis"; S_ "text"]) = Some (KFile (S_ "words")) /\
    outcome (set_up_directories rp true None [S_ "[run]"]) fs_noext = Ok tt /\
    final (set_up_directories rp true None [S_ "[run]"]) fs_noext =
      Dir [(S_ "home", Dir [(S_ "_autogenerated_backup.ini", File (S_ "[run]"))])].
Proof. eexists. split; [reflexivity|]. vm_compute. repeat split. Qed.
Print Assumptions C14_subdirectory_refuted.

(** ** C15.  Existing output *)
Theorem C15_existing_output_kept :
  forall (rp : run_paths) (flag : option bool) (chunks : list pystr) (t : tree),
  is_dir t (rp_modeldir rp) = true -> exists_ t (rp_rundir rp) = true ->
  outcome (set_up_directories rp false flag chunks) t = Err FileExistsError /\
  forall t', interrupted (set_up_directories rp false flag chunks) t t' -> t' = t.
Proof.
  intros rp flag chunks t H1 H2. unfold outcome, interrupted. rewrite (set_up_refuses t rp flag chunks H1 H2).
  split; [reflexivity|]. intros t' (k & ->). cbn [fst]. now rewrite firstn_nil.
Qed.
Print Assumptions C15_existing_output_kept.

(** Nothing outside the run directory changes, at any point.  [R] is the
    directory which the run directory denotes. *)
Theorem C15_outside_untouched_partial :
  forall (rp : run_paths) (configured : bool) (flag : option bool) (chunks : list pystr) (t t' : tree) (R q : path),
  is_dir t (rp_modeldir rp) = true -> plain_name (rp_runname rp) -> location t rp R ->
  (forall l, kind_at t (R ++ [backup_name rp]) <> Some (KLink l)) ->
  interrupted (set_up_directories rp configured flag chunks) t t' ->
  ~ under R q -> kind_at t' q = kind_at t q.
Proof.
  intros rp c f ch t t' R q H1 H2 H3 H4 (k & ->) Hq.
  eapply do_ops_touches; [|exact Hq]. apply Forall_firstn. now apply set_up_touches.
Qed.
Print Assumptions C15_outside_untouched_partial.

(** With a run name that is an absolute path, a file next to the run directory
    is overwritten. *)
Definition fs_abs : tree :=
  Dir [(S_ "home", Dir [(S_ "m.ini", File [])]); (S_ "out", Dir []); (S_ "out_autogenerated_backup.ini", File (S_ "old"))].
Theorem C15_outside_refuted :
  exists rp, set_paths (Some (S_ "/out")) None home (S_ "m.ini") [] = Ok rp /\ rp_rundir rp = [S_ "out"] /\
    kind_at (final (set_up_directories rp true None [S_ "new"]) fs_abs) [S_ "out_autogenerated_backup.ini"]
      = Some (KFile (S_ "new")).
Proof. eexists. split; [reflexivity|]. vm_compute. repeat split. Qed.
Print Assumptions C15_outside_refuted.

(** ** C16.  Overwriting *)
Theorem C16_only_backup :
  forall (rp : run_paths) (flag : option bool) (chunks : list pystr) (t : tree),
  is_dir t (rp_modeldir rp) = true -> ~ In "/"%char (rp_runname rp) -> real_dir t (rp_rundir rp) ->
  (forall n, kind_at t (rp_rundir rp ++ [n]) <> None -> n <> S_ "..") ->
  (forall n q, kind_at t (rp_rundir rp ++ [n]) <> Some (KLink q)) ->
  let m := set_up_directories rp true flag chunks in
  outcome m t = Ok tt /\
  kind_at (final m t) (rp_rundir rp ++ [rp_runname rp ++ S_ "_autogenerated_backup.ini"]) = Some (KFile (List.concat chunks)) /\
  (forall n, kind_at (final m t) (rp_rundir rp ++ [n]) <> None -> n = rp_runname rp ++ S_ "_autogenerated_backup.ini").
Proof. intros rp flag chunks t. exact (set_up_overwrites t rp flag chunks). Qed.
Print Assumptions C16_only_backup.

Theorem C16_new_directory :
  forall (rp : run_paths) (configured : bool) (flag : option bool) (chunks : list pystr) (t : tree),
  real_dir t (rp_modeldir rp) -> plain_name (rp_runname rp) -> rp_rundir rp = rp_modeldir rp ++ [rp_runname rp] ->
  kind_at t (rp_rundir rp) = None ->
  let m := set_up_directories rp configured flag chunks in
  outcome m t = Ok tt /\
  kind_at (final m t) (rp_rundir rp ++ [rp_runname rp ++ S_ "_autogenerated_backup.ini"]) = Some (KFile (List.concat chunks)) /\
  (forall n, kind_at (final m t) (rp_rundir rp ++ [n]) <> None -> n = rp_runname rp ++ S_ "_autogenerated_backup.ini").
Proof. intros rp configured flag chunks t. exact (set_up_creates t rp configured flag chunks). Qed.
Print Assumptions C16_new_directory.

(** Why links are excluded: a link to another entry is dangling when its turn
    comes and stays. *)
Definition fs_link : tree :=
  Dir [(S_ "home", Dir [(S_ "m", Dir [(S_ "a", File []); (S_ "b", Link [S_ "home"; S_ "m"; S_ "a"])])])].
Theorem C16_links_refuted :
  let rp := mkPaths (S_ "m") home (home ++ [S_ "m"]) in
  outcome (set_up_directories rp true None []) fs_link = Ok tt /\
  kind_at (final (set_up_directories rp true None []) fs_link) (home ++ [S_ "m"; S_ "b"]) <> None.
Proof. vm_compute. split; [reflexivity|discriminate]. Qed.
Print Assumptions C16_links_refuted.

Definition fs_old : tree :=
  Dir [(S_ "home", Dir [(S_ "m.ini", File (S_ "[run]"));
    (S_ "m", Dir [(S_ "m.npz", File (S_ "data")); (S_ "real_001", Dir [(S_ "x", File []); (S_ "y", Link [])])])])].
Example C15_C16_example :
  let rp := mkPaths (S_ "m") home (home ++ [S_ "m"]) in
  is_dir fs_old home = true /\ plain_name (S_ "m") /\ location fs_old rp (home ++ [S_ "m"]) /\
  real_dir fs_old (rp_rundir rp) /\
  (forall n, kind_at fs_old (rp_rundir rp ++ [n]) <> None -> n <> S_ "..") /\
  (forall n q, kind_at fs_old (rp_rundir rp ++ [n]) <> Some (KLink q)) /\
  exists_ fs_old (rp_rundir rp) = true.
Proof.
  split; [reflexivity|]. split.
  { repeat split; try discriminate. cbn. intros [H|[]]; discriminate. }
  split; [left; reflexivity|]. split.
  { split; [reflexivity|]. cbn. intros [H|[H|[]]]; discriminate. }
  split.
  - intros n. unfold kind_at. rewrite get_snoc. change (get fs_old (rp_rundir _)) with
      (Some (Dir [(S_ "m.npz", File (S_ "data")); (S_ "real_001", Dir [(S_ "x", File []); (S_ "y", Link [])])])).
    cbn [entry]. destruct (pystr_eqb n (S_ "m.npz")) eqn:E1; [apply pystr_eqb_eq in E1; intros _; subst; discriminate|].
    destruct (pystr_eqb n (S_ "real_001")) eqn:E2; [apply pystr_eqb_eq in E2; intros _; subst; discriminate|].
    intros H. now exfalso.
  - split; [|reflexivity].
    intros n q. unfold kind_at. rewrite get_snoc. change (get fs_old (rp_rundir _)) with
      (Some (Dir [(S_ "m.npz", File (S_ "data")); (S_ "real_001", Dir [(S_ "x", File []); (S_ "y", Link [])])])).
    cbn [entry]. destruct (pystr_eqb n (S_ "m.npz")); [discriminate|].
    destruct (pystr_eqb n (S_ "real_001")); discriminate.
Qed.

(** ** C17.  The overwrite argument *)
Theorem C17_flag_refuted :
  let rp := mkPaths (S_ "m") home (home ++ [S_ "m"]) in
  (* asked to overwrite, but refuses *)
  outcome (set_up_directories rp false (Some true) []) fs_old = Err FileExistsError /\
  (* asked not to overwrite, but deletes *)
  outcome (set_up_directories rp true (Some false) []) fs_old = Ok tt /\
  kind_at fs_old (home ++ [S_ "m"; S_ "m.npz"]) = Some (KFile (S_ "data")) /\
  kind_at (final (set_up_directories rp true (Some false) []) fs_old) (home ++ [S_ "m"; S_ "m.npz"]) = None.
Proof. vm_compute. repeat split. Qed.
Print Assumptions C17_flag_refuted.

(** The argument is never looked at. *)
Theorem C17_flag_ignored :
  forall (F M : Type) (fo : fops F) trunc (model_init : config F -> list (pystr * Z) -> res M) p ini_path ini_name selected
    (flag flag' : option bool) chunks t,
  setup_from_inifile fo trunc model_init p ini_path ini_name selected flag chunks t =
  setup_from_inifile fo trunc model_init p ini_path ini_name selected flag' chunks t.
Proof. reflexivity. Qed.
Print Assumptions C17_flag_ignored.

(** ** C18.  Crashes *)
Definition fs_backup : tree :=
  Dir [(S_ "home", Dir [(S_ "m", Dir [(S_ "m_autogenerated_backup.ini", File (S_ "[run]"))])])].
Theorem C18_crash_refuted :
  exists rp t', set_paths None None (home ++ [S_ "m"]) (S_ "m_autogenerated_backup.ini") [] = Ok rp /\
    interrupted (set_up_directories rp true None [S_ "[run]"]) fs_backup t' /\
    kind_at fs_backup (home ++ [S_ "m"; S_ "m_autogenerated_backup.ini"]) = Some (KFile (S_ "[run]")) /\
    t' = Dir [(S_ "home", Dir [(S_ "m", Dir [])])].
Proof.
  eexists. eexists. split; [reflexivity|]. split; [exists 1; reflexivity|]. vm_compute. split; reflexivity.
Qed.
Print Assumptions C18_crash_refuted.

(** An ini file outside the run directory survives. *)
Theorem C18_crash_partial :
  forall (runname : option pystr) (ini_name : pystr) (ini_path selected : path) (rp : run_paths)
    (configured : bool) (flag : option bool) (chunks : list pystr) (t t' : tree) (text : pystr),
  set_paths runname None ini_path ini_name selected = Ok rp ->
  (forall r, ini_name <> r ++ S_ "_autogenerated_backup.ini") ->
  plain_name (rp_runname rp) -> rp_runname rp <> ini_name ->
  real_dir t ini_path ->
  (forall l, kind_at t (rp_rundir rp) <> Some (KLink l)) ->
  (forall l, kind_at t (rp_rundir rp ++ [backup_name rp]) <> Some (KLink l)) ->
  kind_at t (ini_path ++ [ini_name]) = Some (KFile text) ->
  interrupted (set_up_directories rp configured flag chunks) t t' ->
  kind_at t' (ini_path ++ [ini_name]) = Some (KFile text).
Proof.
  intros rn n ip sel rp c f ch t t' text Hp Hb Hpl Hne Hr Hl Hl2 Hk Hi.
  destruct (C14_subdirectory_partial _ _ _ _ _ Hp Hb Hpl) as (Hrd & _ & Hu). specialize (Hu Hne).
  assert (Hm : rp_modeldir rp = ip).
  { unfold set_paths in Hp. destruct (endswith n backup_suffix) eqn:E.
    - apply endswith_spec in E as (r & E). now apply Hb in E.
    - injection Hp as <-. reflexivity. }
  assert (Hmd : is_dir t ip = true).
  { unfold is_dir. rewrite (real_dir_resolve _ _ Hr). destruct Hr as [H _]. now apply kind_dir in H as (es & ->). }
  rewrite <- Hk. eapply C15_outside_untouched_partial; try eassumption; [rewrite Hm; exact Hmd|].
  destruct (resolve t (rp_rundir rp)) as [R|] eqn:ER; [left|right].
  - rewrite ER. f_equal.
    unfold kind_at in Hl. destruct (get t (rp_rundir rp)) as [u|] eqn:Eg.
    + rewrite (resolve_real t _ u Eg) in ER; [congruence| |].
      * intros q ->. now apply (Hl q).
      * rewrite Hrd. intros Hin. apply in_app_iff in Hin as [Hin|[Hin|[]]]; [now apply (proj2 Hr)|].
        now apply (proj1 (proj2 (proj2 Hpl))).
    + exfalso. rewrite Hrd in ER, Eg. unfold resolve in ER. apply walk_app in ER as (k' & c' & H1 & H2).
      fold (resolve t ip) in H1. rewrite (real_dir_resolve _ _ Hr) in H1. injection H1 as <-.
      rewrite walk_cons, Eg in H2. destruct Hpl as (_ & _ & P3 & _). apply pystr_eqb_neq in P3.
      rewrite P3 in H2. discriminate.
  - split; [exact ER|]. rewrite Hm. split; [exact Hrd|]. exists ip. split; [now apply real_dir_resolve|exact Hrd].
Qed.
Print Assumptions C18_crash_partial.

(** ** C74.  Run names with a directory part *)
Definition fs_sub : tree :=
  Dir [(S_ "home", Dir [(S_ "a", Dir [(S_ "b", Dir [(S_ "result", File (S_ "data"))])])])].
Theorem C74_nested_runname_refuted :
  exists rp, set_paths (Some (S_ "a/b")) None home (S_ "m.ini") [] = Ok rp /\
    rp_rundir rp = [S_ "home"; S_ "a"; S_ "b"] /\
    (* new run directory: created, then the backup cannot be written *)
    outcome (set_up_directories rp false None []) (Dir [(S_ "home", Dir [])]) = Err FileNotFoundError /\
    (* existing: the old output is deleted first *)
    outcome (set_up_directories rp true None []) fs_sub = Err FileNotFoundError /\
    kind_at (final (set_up_directories rp true None []) fs_sub) [S_ "home"; S_ "a"; S_ "b"; S_ "result"] = None.
Proof. eexists. split; [reflexivity|]. vm_compute. repeat split. Qed.
Print Assumptions C74_nested_runname_refuted.

(** ** C19.  Realizations *)
Theorem C19_realizations_distinct :
  forall (numsim : nat) (rundir : path), NoDup (realdirs numsim rundir) /\ List.length (realdirs numsim rundir) = numsim.
Proof.
  intros n rd. split; [apply realdirs_distinct|]. unfold realdirs. now rewrite map_length, seq_length.
Qed.
Print Assumptions C19_realizations_distinct.
Theorem C19_single_realization :
  forall (rundir : path), realdirs 1 rundir = [rundir].
Proof. reflexivity. Qed.
Print Assumptions C19_single_realization.
(** The directories of several realizations lie directly in the run directory. *)
Theorem C19_inside_run_directory :
  forall (numsim : nat) (rundir d : path), In d (realdirs numsim rundir) ->
  d = rundir \/ exists n, plain_name n /\ d = rundir ++ [n].
Proof.
  intros k rd d H. unfold realdirs in H. apply in_map_iff in H as (s & <- & _). unfold realdir.
  destruct (Nat.ltb 1 k); [right|now left]. eexists. split; [apply (real_name_plain s)|].
  destruct (real_name_plain s) as (P1 & P2 & _ & P4). now apply pjoin_plain.
Qed.
Print Assumptions C19_inside_run_directory.
Example C19_example : realdir 1000 [] 7 = [S_ "real_007"] /\ realdir 1000 [] 1000 = [S_ "real_1000"].
Proof. vm_compute. split; reflexivity. Qed.

(** ** C70.  Rejected configurations *)
Theorem C70_no_change_unless_accepted :
  forall (F M : Type) (fo : fops F) trunc (model_init : config F -> list (pystr * Z) -> res M) p ini_path ini_name selected
    flag chunks t,
  fst (setup_from_inifile fo trunc model_init p ini_path ini_name selected flag chunks t) <> [] ->
  exists cf ids m rp, DeprecatedModel.read_config fo trunc p = Ok cf /\ ae_ids cf = Ok ids /\ model_init cf ids = Ok m /\
    parameters fo trunc p ini_path ini_name selected = Ok (cf, rp).
Proof.
  intros F M fo trunc mi p ip n sel flag chunks t H. unfold setup_from_inifile in H.
  destruct (parameters fo trunc p ip n sel) as [[cf rp]|e] eqn:E; [|now exfalso].
  destruct (ae_ids cf) as [ids|e] eqn:E2; [|now exfalso].
  destruct (mi cf ids) as [m|e] eqn:E3; [|now exfalso].
  exists cf, ids, m, rp. repeat split; auto.
  unfold parameters in E. destruct p as [|s p]; [discriminate|].
  apply bind_Ok in E as (cf' & Ecf & E). apply bind_Ok in E as (? & _ & E). apply bind_Ok in E as (? & _ & E).
  apply bind_Ok in E as (? & _ & E). injection E as <- _. exact Ecf.
Qed.
Print Assumptions C70_no_change_unless_accepted.

Theorem C70_rejected_unchanged :
  forall (F M : Type) (fo : fops F) trunc (model_init : config F -> list (pystr * Z) -> res M) p ini_path ini_name selected
    flag chunks t e,
  parameters fo trunc p ini_path ini_name selected = Err e ->
  setup_from_inifile fo trunc model_init p ini_path ini_name selected flag chunks t = ([], Err e).
Proof. intros. unfold setup_from_inifile. rewrite H. reflexivity. Qed.
Print Assumptions C70_rejected_unchanged.

(** A configuration that is accepted and one that is not. *)
Example C70_example :
  (exists rp, snd (setup_from_inifile toyf DeprecatedProps.ztrunc (fun _ _ => Ok tt) (ex_ini "massive" []) home (S_ "m.ini") [] None []
     (Dir [(S_ "home", Dir [])])) = Ok (rp, tt)) /\
  parameters toyf DeprecatedProps.ztrunc (ex_ini "dip" []) home (S_ "m.ini") [] = Err MissingOptionError /\
  (* the old format: accepted, and refused because of an element table *)
  (exists rp, snd (setup_from_inifile toyf DeprecatedProps.ztrunc (fun _ _ => Ok tt)
     (DeprecatedProps.old_ini DeprecatedProps.old_run [] (firstn 2 DeprecatedProps.old_elements)) home (S_ "m.ini") [] None []
     (Dir [(S_ "home", Dir [])])) = Ok (rp, tt)) /\
  parameters toyf DeprecatedProps.ztrunc
    (DeprecatedProps.old_ini DeprecatedProps.old_run [(S_ "ae_table", S_ "t.txt")] DeprecatedProps.old_elements) home (S_ "m.ini") [] = Err NameError.
Proof. split; [eexists|split; [|split; [eexists|]]]; vm_compute; reflexivity. Qed.

(** ** C75.  Missing sections *)
Lemma require_sections (sections : list pystr) l s : In s l -> mem (S_ s) sections = false ->
  foldM (fun _ s => if mem (S_ s) sections then Ok tt else Err MissingSectionError) tt l = Err MissingSectionError.
Proof.
  induction l as [|x l IH]; intros Hin Hm; [destruct Hin|]. cbn [foldM].
  destruct Hin as [->|Hin]; [now rewrite Hm|].
  destruct (mem (S_ x) sections); [cbn [bind]; auto|reflexivity].
Qed.
Theorem C75_missing_section_partial :
  forall (F : Type) (fo : fops F) trunc (p : inifile) ini_path ini_name selected s t,
  In s ["model"; "strata"; "hydraulics"] -> ~ In (S_ s) (section_names p) ->
  section_texts p (S_ "run") = Some t -> ~ In (S_ "dataoutputs") (map fst t) ->
  parameters fo trunc p ini_path ini_name selected = Err MissingSectionError.
Proof.
  intros F fo trunc p ip n sel s t Hs Hm Hr Hd. unfold parameters. destruct p as [|x p]; [discriminate|].
  unfold DeprecatedModel.read_config, sec. rewrite Hr. cbn [bind].
  assert (E : dmem (raw_dict (F := F) t) (S_ "dataoutputs") = false).
  { clear -Hd. induction t as [|[k v] t IH]; [reflexivity|]. unfold dmem in *. cbn [raw_dict map dget fst snd] in *.
    destruct (pystr_eqb (S_ "dataoutputs") k) eqn:E; [apply pystr_eqb_eq in E; exfalso; apply Hd; now left|].
    apply IH. intros H. apply Hd. now right. }
  rewrite E. unfold parse_inifile. rewrite (require_sections _ _ s); [reflexivity| |].
  - simpl in *. tauto.
  - unfold mem. destruct (existsb _ _) eqn:Ex; [|reflexivity]. apply existsb_exists in Ex as (y & Hy & Ey).
    apply pystr_eqb_eq in Ey. subst. contradiction.
Qed.
Print Assumptions C75_missing_section_partial.
Theorem C75_missing_run_refuted :
  forall (F : Type) (fo : fops F) trunc (p : inifile) ini_path ini_name selected,
  p <> [] -> ~ In (S_ "run") (section_names p) ->
  parameters fo trunc p ini_path ini_name selected = Err KeyError.
Proof.
  intros F fo trunc p ip n sel Hp Hr. unfold parameters. destruct p as [|x p]; [congruence|]. unfold DeprecatedModel.read_config, sec.
  replace (section_texts (x :: p) (S_ "run")) with (@None (list (pystr * pystr))); [reflexivity|].
  symmetry. clear Hp. induction (x :: p) as [|[k v] l IH]; [reflexivity|]. cbn [section_texts section_names map fst] in *.
  destruct (pystr_eqb (S_ "run") k) eqn:E; [apply pystr_eqb_eq in E; exfalso; apply Hr; now left|].
  apply IH. intros H. apply Hr. now right.
Qed.
Print Assumptions C75_missing_run_refuted.
