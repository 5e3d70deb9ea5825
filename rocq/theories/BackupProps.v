(** Property C126: the backup of the ini-file is read as the ini-file. *)
From Coq Require Import List ZArith Bool Ascii String Arith Lia.
From Verif Require Import Base ParseModel ConfigModel DeprecatedModel IniModel DirsModel DirsSpec DirsProofs DirsProofs2 DirsProps BackupModel.
From Verif Require IniProps BackupProofs ConfigProps DeprecatedProps.
Import ListNotations.
Local Open Scope list_scope.

(** Whatever file is accepted: its backup can be written, is read as the same
    sections and options, and is its own backup. *)
Theorem C126_same_file :
  forall (bytes : pystr) (p : inifile), read_ini bytes = Ok p ->
  exists b, backup_text bytes = Ok b /\ read_ini b = Ok p /\ backup_text b = Ok b.
Proof.
  intros bytes p. unfold read_ini at 1, backup_text at 1.
  set (r := match read_text bytes with Err MissingSectionHeaderError => read_text (drop_bom bytes) | r => r end).
  assert (Hr : forall q, r = Ok q -> exists t, read_text t = Ok q).
  { intros q. unfold r. destruct (read_text bytes) as [q'|e] eqn:E; [intros [= <-]; eauto|]. destruct e; intros H; try discriminate H; eauto. }
  destruct r as [q|e]; cbn [bind]; [|discriminate]. destruct (Hr q eq_refl) as (t & Ht). apply BackupProofs.reread in Ht. intros H.
  exists (write_text q). split; [reflexivity|]. unfold read_ini, backup_text. rewrite Ht. cbn [bind]. auto.
Qed.
Print Assumptions C126_same_file.

(** Hence the same settings. *)
Theorem C126_same_settings :
  forall F (fo : fops F) (trunc : F -> res Z) (bytes b : pystr) (cf : config F),
  read_settings fo trunc bytes = Ok cf -> backup_text bytes = Ok b -> read_settings fo trunc b = Ok cf.
Proof.
  intros F fo trunc bytes b cf H Hb. unfold read_settings in *. destruct (read_ini bytes) as [p|] eqn:E; [|discriminate H].
  destruct (C126_same_file bytes p E) as (b' & E1 & E2 & _). assert (b' = b) as -> by congruence. now rewrite E2.
Qed.
Print Assumptions C126_same_settings.

(** From the start of a run to the file on disk and back: the run directory is
    new, or a directory without links that may be overwritten.  Afterwards it
    holds the backup; started from this file a run has the same settings, the
    same run name and the same run directory. *)
Definition run_directory_ready (t : tree) (rp : run_paths) (ow : bool) : Prop :=
  (real_dir t (rp_modeldir rp) /\ plain_name (rp_runname rp) /\ rp_rundir rp = rp_modeldir rp ++ [rp_runname rp] /\
   kind_at t (rp_rundir rp) = None) \/
  (ow = true /\ is_dir t (rp_modeldir rp) = true /\ ~ In "/"%char (rp_runname rp) /\ real_dir t (rp_rundir rp) /\
   (forall n, kind_at t (rp_rundir rp ++ [n]) <> None -> n <> S_ "..") /\
   (forall n q, kind_at t (rp_rundir rp ++ [n]) <> Some (KLink q))).

Theorem C126_run :
  forall F M (fo : fops F) (trunc : F -> res Z) (model_init : config F -> list (pystr * Z) -> res M)
    (bytes : pystr) (p : inifile) (chunks : list pystr) (ini_path selected : path) (ini_name : pystr) (flag : option bool) (t : tree)
    (cf : config F) (rp : run_paths) (ids : list (pystr * Z)) (m : M) (ow : val (atom F)),
  read_ini bytes = Ok p -> backup_text bytes = Ok (List.concat chunks) ->
  parameters fo trunc p ini_path ini_name selected = Ok (cf, rp) ->
  ae_ids cf = Ok ids -> model_init cf ids = Ok m -> lookup (cf_run cf) "overwrite_old_output" = Ok ow ->
  run_directory_ready t rp (as_bool ow) ->
  let run := setup_from_inifile fo trunc model_init p ini_path ini_name selected flag chunks in
  outcome run t = Ok (rp, m) /\
  exists b p' rp',
    kind_at (final run t) (rp_rundir rp ++ [rp_runname rp ++ S_ "_autogenerated_backup.ini"]) = Some (KFile b) /\
    read_ini b = Ok p' /\
    (forall selected', parameters fo trunc p' (rp_rundir rp) (rp_runname rp ++ S_ "_autogenerated_backup.ini") selected' = Ok (cf, rp')) /\
    rp_runname rp' = rp_runname rp /\ rp_rundir rp' = rp_rundir rp.
Proof.
  intros F M fo trunc mi bytes p chunks ip sel n flag t cf rp ids m ow Hp Hb Hpar Hids Hm How Hready run.
  assert (Hrun : outcome (set_up_directories rp (as_bool ow) flag chunks) t = Ok tt /\
    kind_at (final (set_up_directories rp (as_bool ow) flag chunks) t) (rp_rundir rp ++ [rp_runname rp ++ S_ "_autogenerated_backup.ini"]) = Some (KFile (List.concat chunks))).
  { destruct Hready as [(R1 & R2 & R3 & R4)|(R0 & R1 & R2 & R3 & R4 & R5)].
    - destruct (C16_new_directory rp (as_bool ow) flag chunks t R1 R2 R3 R4) as (G1 & G2 & _). auto.
    - rewrite R0. destruct (C16_only_backup rp flag chunks t R1 R2 R3 R4 R5) as (G1 & G2 & _). auto. }
  destruct Hrun as [G1 G2].
  assert (Erun : run = (do* _ := set_up_directories rp (as_bool ow) flag chunks in ret (rp, m))).
  { unfold run, setup_from_inifile. now rewrite Hpar, Hids, Hm, How. }
  assert (Et : run t = (fst (set_up_directories rp (as_bool ow) flag chunks t), Ok (rp, m))).
  { rewrite Erun. unfold andthen, ret, outcome in *. destruct (set_up_directories rp (as_bool ow) flag chunks t) as [ops r]. cbn [fst snd] in *. subst r. now rewrite app_nil_r. }
  unfold outcome, final. rewrite Et. cbn [fst snd]. split; [reflexivity|].
  destruct (C126_same_file bytes p Hp) as (b & E1 & E2 & _). rewrite Hb in E1. injection E1 as E1. rewrite E1 in G2.
  unfold parameters in Hpar |- *. destruct p as [|s p]; [discriminate Hpar|].
  apply bind_Ok in Hpar as (cf' & C1 & Hpar). apply bind_Ok in Hpar as (rn & C2 & Hpar). apply bind_Ok in Hpar as (md & C3 & Hpar).
  apply bind_Ok in Hpar as (rp1 & C4 & Hpar). injection Hpar as -> ->.
  destruct (C13_backup_round_trip _ _ _ _ sel _ _ C4) as (rp' & D1 & D2 & D3).
  exists b, (s :: p), rp'. split; [exact G2|]. split; [exact E2|]. split; [|auto].
  intros sel'. rewrite C1. cbn [bind]. rewrite C2. cbn [bind]. rewrite C3. cbn [bind]. rewrite C13_backup in D1 |- *. rewrite D1. reflexivity.
Qed.
Print Assumptions C126_run.

(** *** Examples *)
Local Open Scope string_scope.
Definition bk_file : pystr := IniProps.unlines
  [ "# the file"; "[run]"; "  NumSim : 2"; "  outputs = [vtr,"; ""; "     ; not this"; "     npz]"; ""; "[DEFAULT]"; "dx = 1"; "Empty ="; "[model] the model"; "dy = %(DX)s0%%"; "[] = [x"; "[trough]" ].
Definition bk_backup : pystr := (IniProps.unlines
  [ "[DEFAULT]"; "dx = 1"; "empty = "; ""; "[run]"; "numsim = 2" ] ++
  S_ "outputs = [vtr," ++ [nl; ascii_of_nat 9; nl; ascii_of_nat 9] ++ S_ "npz]" ++ [nl; nl] ++
  IniProps.unlines [ "[model]"; "dy = %(DX)s0%%"; "[] = [x"; ""; "[trough]"; "" ])%list.
Example C126_example :
  backup_text bk_file = Ok bk_backup /\ backup_text bk_backup = Ok bk_backup /\ read_ini bk_backup = read_ini bk_file /\
  read_ini bk_file = Ok
    [ (S_ "run", [(S_ "numsim", S_ "2"); (S_ "outputs", (S_ "[vtr," ++ [nl; nl] ++ S_ "npz]")%list); (S_ "dx", S_ "1"); (S_ "empty", [])]);
      (S_ "model", [(S_ "dy", S_ "10%"); (S_ "[]", S_ "[x"); (S_ "dx", S_ "1"); (S_ "empty", [])]);
      (S_ "trough", [(S_ "dx", S_ "1"); (S_ "empty", [])]) ].
Proof. repeat split; vm_compute; reflexivity. Qed.

(** The hypotheses of [C126_run]: a file that is accepted, in an empty
    directory and in one with old output. *)
Definition bk_ini : inifile := ConfigProps.ex_ini "massive" [].
Definition bk_bytes : pystr := write_text (bk_ini, []).
Definition bk_empty : tree := Dir [(S_ "home", Dir [])].
Definition bk_old : tree := Dir [(S_ "home", Dir [(S_ "m", Dir [(S_ "m.npz", File (S_ "data"))])])].
Example C126_run_example :
  read_ini bk_bytes = Ok bk_ini /\ backup_text bk_bytes = Ok (List.concat [bk_bytes]) /\
  exists cf rp ids,
    parameters ConfigProps.toyf DeprecatedProps.ztrunc bk_ini home (S_ "m.ini") [] = Ok (cf, rp) /\ ae_ids cf = Ok ids /\
    lookup (cf_run cf) "overwrite_old_output" = Ok (Leaf (ABool false)) /\
    run_directory_ready bk_empty rp false /\ run_directory_ready bk_old rp true.
Proof.
  split; [vm_compute; reflexivity|]. split; [vm_compute; reflexivity|].
  assert (H : exists cf ids, parameters ConfigProps.toyf DeprecatedProps.ztrunc bk_ini home (S_ "m.ini") [] =
      Ok (cf, mkPaths (S_ "m") home (home ++ [S_ "m"])%list) /\ ae_ids cf = Ok ids /\
      lookup (cf_run cf) "overwrite_old_output" = Ok (Leaf (ABool false))).
  { do 2 eexists. split; [vm_compute; reflexivity|]. split; vm_compute; reflexivity. }
  destruct H as (cf & ids & H1 & H2 & H3). exists cf, (mkPaths (S_ "m") home (home ++ [S_ "m"])%list), ids.
  split; [exact H1|]. split; [exact H2|]. split; [exact H3|]. split.
  - left. cbn [rp_modeldir rp_runname rp_rundir]. split; [|split; [|split; reflexivity]].
    + split; [vm_compute; reflexivity|]. cbn. intros [H|[]]; discriminate H.
    + split; [discriminate|]. split; [discriminate|]. split; [discriminate|]. cbn. intros [H|[]]; discriminate H.
  - right. cbn [rp_modeldir rp_runname rp_rundir]. split; [reflexivity|]. split; [vm_compute; reflexivity|].
    split; [cbn; intros [H|[]]; discriminate H|]. split; [split; [vm_compute; reflexivity|cbn; intros [H|[H|[]]]; discriminate H]|].
    split; intros n.
    + intros H ->. apply H. vm_compute. reflexivity.
    + intros q. unfold kind_at, bk_old, home. cbn [app get entry]. rewrite ?pystr_eqb_refl. cbn.
      destruct (pystr_eqb n _); discriminate.
Qed.
