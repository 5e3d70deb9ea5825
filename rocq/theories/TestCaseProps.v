(** C137: the built-in test case.  C138: the command line. *)
From Coq Require Import List ZArith Bool Ascii String Arith Lia QArith.
From Verif Require Import Base ParseModel ConfigModel DeprecatedModel DirsModel DirsSpec DirsProofs DirsProofs2 DirsProps BackupProps IniModel OutputModel
  SimModel SimSpec SimProofs SimProofs2 SimProps NumberModel MadeIni TestCaseModel TestCaseSpec TestCaseProofs.
From Verif Require ConfigProps DeprecatedProps RepoTests.
Import ListNotations.
Local Open Scope string_scope.
Local Open Scope list_scope.
Local Open Scope nat_scope.

(** ** C137.  The test case *)

(** A run that ends without an exception leaves the disk as it was, and it ends
    so exactly if all realizations can be generated and written and a
    temporary directory can be made. *)
Theorem C137_no_trace_partial :
  forall F D (fo : fops F) (trunc : F -> res Z) (model_init : config F -> list (pystr * Z) -> res (job D))
    (installed : pystr -> bool) (w : writers D) (p : inifile) (package selected tmp : path) (names : list pystr) (t : tree)
    (cf : config F) (rp : run_paths) (ids : list (pystr * Z)) (j : job D),
  parameters fo trunc p package (S_ "made.ini") selected = Ok (cf, rp) ->
  ae_ids cf = Ok ids -> model_init cf ids = Ok j -> plain_name (rp_runname rp) -> sound_writers w -> real_dir t tmp ->
  let run := run_test fo trunc model_init installed w p package selected tmp names in
  (exit_status (outcome run t) = 0 <->
     (exists n, In n names /\ n <> S_ ".." /\ kind_at t (tmp ++ [n]) = None) /\
     (forall s, 1 <= s <= j_numsim j -> goes_well installed w j s)) /\
  (exit_status (outcome run t) = 0 -> same_disk t (final run t)).
Proof.
  intros F D fo trunc mi installed w p package sel tmp names t cf rp ids j Hpar Hids Hj Hrn Hw Htmp run.
  assert (Hgw : Forall (goes_well installed w j) (seq 1 (j_numsim j)) <-> (forall s, 1 <= s <= j_numsim j -> goes_well installed w j s)).
  { rewrite Forall_forall. split; intros H s Hs; apply H; [apply in_seq; lia|apply in_seq in Hs; lia]. }
  unfold outcome, final.
  destruct (run_test_cases fo trunc mi installed w p package sel tmp names t cf rp ids j Hpar Hids Hj Hrn Hw Htmp)
    as [(E & Em)|(n & o & Hi & Em & Hk & Ho & [(Hg & E & Hgone)|(Hg & (e & E) & _)])]; fold run in E; rewrite E; cbn [fst snd exit_status].
  - split; [|discriminate]. split; [discriminate|]. intros ((n & Hi & Hn & Hk) & _).
    destruct (mkdtemp_fresh tmp names t n Htmp Hi Hn Hk) as (m & Em'). congruence.
  - split.
    + split; [|reflexivity]. intros _. split; [|now apply Hgw].
      destruct (mkdtemp_ok tmp names t Htmp) as [(m & Em' & Hi' & Hk' & Hn')|Em']; [|congruence]. eauto.
    + intros _ q.
      assert (Hd : (exists r, q = (tmp ++ [n]) ++ r) \/ ~ (exists r, q = (tmp ++ [n]) ++ r)).
      { clear. generalize (tmp ++ [n]) as a. clear. intros a; revert q; induction a as [|x a IH]; intros q; [left; now exists q|].
        destruct q as [|y q]; [right; intros (r & Hr); discriminate Hr|]. destruct (pystr_dec x y) as [->|Hxy]; [|right; intros (r & Hr); injection Hr; congruence].
        destruct (IH q) as [(r & ->)|H]; [left; now exists r|]. right. intros (r & Hr). injection Hr as ->. apply H. now exists r. }
      destruct Hd as [(r & ->)|Hd].
      * rewrite <- app_assoc, Hgone. symmetry. destruct r as [|x r]; [now rewrite app_assoc, app_nil_r|].
        rewrite app_assoc. apply kind_none. apply get_below. intros es Ees. apply kind_none in Hk. congruence.
      * eapply do_ops_touches; [exact Ho|exact Hd].
  - split; [|discriminate]. split; [discriminate|]. intros (_ & H). destruct Hg. now apply Hgw.
Qed.
Print Assumptions C137_no_trace_partial.

(** If a realization fails, the temporary directory stays. *)
Theorem C137_failure_leaves_refuted :
  forall F D (fo : fops F) (trunc : F -> res Z) (model_init : config F -> list (pystr * Z) -> res (job D))
    (installed : pystr -> bool) (w : writers D) (p : inifile) (package selected tmp : path) (names : list pystr) (t : tree)
    (cf : config F) (rp : run_paths) (ids : list (pystr * Z)) (j : job D) (s : nat) (n : pystr),
  parameters fo trunc p package (S_ "made.ini") selected = Ok (cf, rp) ->
  ae_ids cf = Ok ids -> model_init cf ids = Ok j -> plain_name (rp_runname rp) -> sound_writers w -> real_dir t tmp ->
  In n names -> n <> S_ ".." -> kind_at t (tmp ++ [n]) = None ->
  1 <= s <= j_numsim j -> ~ goes_well installed w j s ->
  let run := run_test fo trunc model_init installed w p package selected tmp names in
  exit_status (outcome run t) = 1 /\
  exists m, In m names /\ kind_at t (tmp ++ [m]) = None /\ kind_at (final run t) (tmp ++ [m]) = Some KDir.
Proof.
  intros F D fo trunc mi installed w p package sel tmp names t cf rp ids j s n Hpar Hids Hj Hrn Hw Htmp Hi Hn Hk Hs Hbad run.
  unfold outcome, final.
  destruct (run_test_cases fo trunc mi installed w p package sel tmp names t cf rp ids j Hpar Hids Hj Hrn Hw Htmp)
    as [(E & Em)|(m & o & Hi' & Em & Hk' & Ho & [(Hg & E & Hgone)|(Hg & (e & E) & Hd)])]; fold run in E.
  - destruct (mkdtemp_fresh tmp names t n Htmp Hi Hn Hk) as (m & Em'). congruence.
  - destruct Hbad. rewrite Forall_forall in Hg. apply Hg. apply in_seq. lia.
  - rewrite E. cbn [fst snd exit_status]. split; [reflexivity|]. exists m. auto.
Qed.
Print Assumptions C137_failure_leaves_refuted.

(** Whatever happens, whenever it is interrupted: nothing that was there before
    is changed, and everything new is in one new directory. *)
Theorem C137_only_new :
  forall F D (fo : fops F) (trunc : F -> res Z) (model_init : config F -> list (pystr * Z) -> res (job D))
    (installed : pystr -> bool) (w : writers D) (p : inifile) (package selected tmp : path) (names : list pystr) (t : tree),
  (forall cf rp, parameters fo trunc p package (S_ "made.ini") selected = Ok (cf, rp) -> plain_name (rp_runname rp)) ->
  sound_writers w -> real_dir t tmp ->
  let run := run_test fo trunc model_init installed w p package selected tmp names in
  exists n, forall t', interrupted run t t' ->
    (forall q, kind_at t q <> None -> kind_at t' q = kind_at t q) /\
    (forall q, kind_at t q = None -> kind_at t' q <> None -> under (tmp ++ [n]) q).
Proof.
  intros F D fo trunc mi installed w p package sel tmp names t Hrn Hw Htmp run.
  assert (Hnone : fst (run t) = [] -> exists n : pystr, forall t', interrupted run t t' ->
    (forall q, kind_at t q <> None -> kind_at t' q = kind_at t q) /\
    (forall q, kind_at t q = None -> kind_at t' q <> None -> under (tmp ++ [n]) q)).
  { intros E. exists []. intros t' (k & ->). rewrite E, firstn_nil. split; [reflexivity|]. intros q H1 H2. contradiction. }
  destruct (parameters fo trunc p package (S_ "made.ini") sel) as [[cf rp]|e] eqn:Hpar.
  2:{ apply Hnone. unfold run, run_test, setup_test, andthen. now rewrite Hpar. }
  destruct (ae_ids cf) as [ids|e] eqn:Hids.
  2:{ apply Hnone. unfold run, run_test, setup_test, andthen. now rewrite Hpar, Hids. }
  destruct (mi cf ids) as [j|e] eqn:Hj.
  2:{ apply Hnone. unfold run, run_test, setup_test, andthen. now rewrite Hpar, Hids, Hj. }
  destruct (run_test_cases fo trunc mi installed w p package sel tmp names t cf rp ids j Hpar Hids Hj (Hrn _ _ eq_refl) Hw Htmp)
    as [(E & Em)|(n & o & Hi & Em & Hk & Ho & H)]; [apply Hnone; unfold run; now rewrite E|].
  assert (E : fst (run t) = o) by (unfold run; destruct H as [(_ & E & _)|(_ & (e & E) & _)]; now rewrite E).
  exists n. intros t' (k & ->). rewrite E.
  assert (Hout : forall q, ~ under (tmp ++ [n]) q -> kind_at (do_ops t (firstn k o)) q = kind_at t q).
  { intros q Hq. eapply do_ops_touches; [|exact Hq]. now apply Forall_firstn. }
  assert (Hbelow : forall q, under (tmp ++ [n]) q -> kind_at t q = None).
  { intros q (r & ->). destruct r as [|x r]; [now rewrite app_nil_r|]. apply kind_none. apply get_below. intros es Ees. apply kind_none in Hk. congruence. }
  assert (Hdec : forall q, under (tmp ++ [n]) q \/ ~ under (tmp ++ [n]) q).
  { intros q. destruct (list_eq_dec pystr_dec (firstn (List.length (tmp ++ [n])) q) (tmp ++ [n])) as [E'|E'].
    - left. exists (skipn (List.length (tmp ++ [n])) q). rewrite <- E' at 1. now rewrite firstn_skipn.
    - right. intros (r & ->). apply E'. rewrite firstn_app, Nat.sub_diag, firstn_all. simpl. now rewrite app_nil_r. }
  split; intros q H1.
  - destruct (Hdec q) as [Hu|Hu]; [now apply Hbelow in Hu|now apply Hout].
  - intros H2. destruct (Hdec q) as [Hu|Hu]; [exact Hu|]. rewrite Hout in H2 by exact Hu. contradiction.
Qed.
Print Assumptions C137_only_new.

(** Without made.ini in the package nothing happens. *)
Theorem C137_not_packaged :
  forall F D (fo : fops F) (trunc : F -> res Z) (model_init : config F -> list (pystr * Z) -> res (job D))
    (installed : pystr -> bool) (w : writers D) (package selected tmp : path) (names : list pystr) (t : tree),
  run_test fo trunc model_init installed w [] package selected tmp names t = ([], Err FileNotFoundError).
Proof. reflexivity. Qed.
Print Assumptions C137_not_packaged.

(** The file of the test case is accepted.  The run is called "small". *)
Definition made_file : inifile := match read_ini made_ini with Ok p => p | Err _ => [] end.
Definition made_config : option (config (option Q) * run_paths) :=
  match parameters exact exact_trunc made_file [S_ "usr"; S_ "hyvr"] (S_ "made.ini") [] with Ok x => Some x | Err _ => None end.
Example C137_made :
  read_ini made_ini = Ok made_file /\ made_file = RepoTests.made_ini /\
  List.map fst made_file = List.map S_ ["run"; "model"; "strata"; "crossbedded_scour"; "meander_channel"; "sandy_gravel"; "sand_sheet"; "clay_sheet";
    "mc_sheet"; "clay_lens"; "hydraulics"; "flowtrans"] /\
  (exists cf, made_config = Some (cf, mkPaths (S_ "small") [S_ "usr"; S_ "hyvr"] [S_ "usr"; S_ "hyvr"; S_ "small"]) /\
    ae_ids cf = Ok (List.combine (List.map S_ ["crossbedded_scour"; "meander_channel"; "sandy_gravel"; "sand_sheet"; "clay_sheet"; "mc_sheet"; "clay_lens"]) [3; 6; 4; 1; 0; 5; 2]%Z) /\
    lookup (cf_model cf) "dz" = Ok (Leaf (AFlt (Some (1 # 10)%Q))) /\ lookup (cf_run cf) "numsim" = Ok (Leaf (AInt 1))).
Proof.
  do 3 (split; [vm_compute; reflexivity|]).
  destruct made_config as [[cf rp]|] eqn:E; [|vm_compute in E; discriminate E]. exists cf.
  vm_compute in E. injection E as <- <-. repeat split; vm_compute; reflexivity.
Qed.

(** A disk with a temporary directory in which the first name is used; one run
    that succeeds and one whose second realization fails. *)
Definition tc_disk : tree := Dir [(S_ "tmp", Dir [(S_ "tmpa", File (S_ "x"))]); (S_ "home", Dir [])].
Definition tc_run (bad : nat) : cmd unit :=
  run_test exact exact_trunc (fun _ _ => Ok (sm_job bad)) sm_installed sm_writers made_file [S_ "usr"; S_ "hyvr"] [] [S_ "tmp"] (List.map S_ ["tmpa"; "tmpb"]).
Example C137_example :
  real_dir tc_disk [S_ "tmp"] /\
  outcome (tc_run 0) tc_disk = Ok tt /\ final (tc_run 0) tc_disk = tc_disk /\ fst (tc_run 0 tc_disk) <> [] /\
  outcome (tc_run 2) tc_disk = Err ZeroDivisionError /\
  final (tc_run 2) tc_disk =
    Dir [(S_ "tmp", Dir [(S_ "tmpa", File (S_ "x")); (S_ "tmpb", Dir [(S_ "real_001", Dir [(S_ "small.npz", File (S_ "npz101"));
      (S_ "HGS", Dir [(S_ "a.txt", File (S_ "hgs101")); (S_ "b.txt", File (S_ "1010"))])])])]); (S_ "home", Dir [])].
Proof.
  split; [split; [reflexivity|intros [H|[]]; discriminate H]|]. split; [vm_compute; reflexivity|]. split; [vm_compute; reflexivity|].
  split; [vm_compute; discriminate|]. split; vm_compute; reflexivity.
Qed.

(** ** C138.  The command line *)

(** The documented forms are understood, whatever the name of the file. *)
Theorem C138_usage :
  forall (args : list pystr) (ow : bool) (file : option pystr), usage args ow file -> parse_args args = PRun ow file.
Proof.
  intros args ow file H. unfold parse_args. rewrite (plain_not_ambiguous args (usage_plain _ _ _ H)).
  apply (consume_usage _ _ _ H false).
Qed.
Print Assumptions C138_usage.

(** For any arguments: what is run was asked for.  The file is one of the
    arguments, all others are --overwrite or a separator. *)
Theorem C138_asked_for :
  forall (args : list pystr) (ow : bool) (file : option pystr), parse_args args = PRun ow file ->
  (ow = true -> exists s, In s args /\ overwrite_option s) /\
  (forall f, file = Some f -> In f args) /\
  Forall (fun s => overwrite_option s \/ s = S_ "--" \/ file = Some s) args.
Proof.
  intros args ow file. unfold parse_args. destruct (ambiguous args); [discriminate|]. intros H.
  apply consume_run in H as (_ & H2 & _ & _ & H5 & H6). repeat split; auto.
  - intros Ho. destruct (H2 Ho) as [H|H]; [discriminate H|exact H].
  - intros f Hf. destruct (H5 f Hf) as [H|H]; [discriminate H|exact H].
Qed.
Print Assumptions C138_asked_for.

(** The exit status: 0 if the run came to its end or only the help was asked
    for, 1 if it raised an exception, 2 if the arguments are wrong; in the last
    case and with the help the disk is not touched. *)
Theorem C138_status :
  forall (run_file : pystr -> option bool -> cmd unit) (run_none : option bool -> cmd unit) (args : list pystr) (t : tree),
  let status := snd (main run_file run_none args t) in
  let changes := fst (main run_file run_none args t) in
  (forall ow file, usage args ow file ->
     let run := match file with Some f => run_file f | None => run_none end (if ow then Some true else None) in
     changes = fst (run t) /\ (status = 0 <-> outcome run t = Ok tt) /\ (status = 1 <-> exists e, outcome run t = Err e)) /\
  (status = 0 \/ status = 1 \/ status = 2) /\
  ((forall ow file, parse_args args <> PRun ow file) -> changes = [] /\ status <> 1).
Proof.
  intros run_file run_none args t. cbv zeta. split; [|split].
  - intros ow file H. apply C138_usage in H. unfold main, outcome. rewrite H.
    set (flag := if ow then Some true else None). destruct file as [f|]; [destruct (run_file f flag t) as [l [[]|e]]|destruct (run_none flag t) as [l [[]|e]]];
      cbn [fst snd exit_status]; (split; [reflexivity|]); split; split; intros H0; try discriminate H0; try reflexivity; try (now exists e); destruct H0; discriminate.
  - unfold main. destruct (parse_args args) as [ow file| |]; cbn [fst snd]; auto.
    destruct (match file with Some f => _ | None => _ end) as [l [[]|e]]; cbn [snd exit_status]; auto.
  - intros H. unfold main. destruct (parse_args args) as [ow file| |]; cbn [fst snd]; [now destruct (H ow file)| |]; split; congruence.
Qed.
Print Assumptions C138_status.

(** The help says "--overwrite: whether to overwrite the old run directory".
    The option does nothing: *)
Definition hyvr_main {F D} (fo : fops F) (trunc : F -> res Z) (model_init : config F -> list (pystr * Z) -> res (job D))
  (installed : pystr -> bool) (w : writers D) (files : pystr -> inifile * path * pystr * list pystr) (selected tmp : path)
  (package : path) (made : inifile) (names : list pystr) : list pystr -> tree -> list op * nat :=
  main (fun f flag => let '(p, dir, name, chunks) := files f in run_cmd fo trunc model_init installed w p dir name selected flag chunks)
       (fun _ => run_test fo trunc model_init installed w made package selected tmp names).

Theorem C138_overwrite_refuted :
  forall F D (fo : fops F) (trunc : F -> res Z) (model_init : config F -> list (pystr * Z) -> res (job D))
    (installed : pystr -> bool) (w : writers D) (files : pystr -> inifile * path * pystr * list pystr) (selected tmp package : path)
    (made : inifile) (names : list pystr) (args args' : list pystr) (ow ow' : bool) (file : option pystr) (t : tree),
  usage args ow file -> usage args' ow' file ->
  hyvr_main fo trunc model_init installed w files selected tmp package made names args t =
  hyvr_main fo trunc model_init installed w files selected tmp package made names args' t.
Proof.
  intros. unfold hyvr_main, main. rewrite (C138_usage args ow file), (C138_usage args' ow' file) by assumption.
  destruct file as [f|]; [|reflexivity]. destruct (files f) as [[[p dir] name] chunks]. reflexivity.
Qed.
Print Assumptions C138_overwrite_refuted.

Lemma overwrite_long : overwrite_option (S_ "--overwrite").
Proof. exists (S_ "overwrite"), []. split; [discriminate|]. split; reflexivity. Qed.

(** An existing run directory, the option in the ini-file not set: refused with
    and without --overwrite; some other command lines. *)
Definition cl_main : list pystr -> tree -> list op * nat :=
  hyvr_main ConfigProps.toyf DeprecatedProps.ztrunc (fun _ _ => Ok (sm_job 0)) sm_installed sm_writers
    (fun f => if pystr_eqb f (S_ "m.ini") then (bk_ini, home, S_ "m.ini", [bk_bytes]) else ([], home, f, [])) [] [S_ "tmp"] home [] [].
Definition cl_disk : tree := Dir [(S_ "home", Dir [(S_ "m", Dir [(S_ "m.npz", File (S_ "old"))])])].
Example C138_example :
  usage (List.map S_ ["--overwrite"; "m.ini"]) true (Some (S_ "m.ini")) /\
  cl_main (List.map S_ ["m.ini"]) cl_disk = ([], 1) /\
  cl_main (List.map S_ ["--overwrite"; "m.ini"]) cl_disk = ([], 1) /\
  snd (cl_main (List.map S_ ["m.ini"; "--over"]) bk_empty) = 0 /\
  (* the number 0 is a file name here, and not there *)
  cl_main (List.map S_ ["0"]) cl_disk = ([], 1) /\
  cl_main (List.map S_ ["m.ini"; "n.ini"]) cl_disk = ([], 2) /\ cl_main (List.map S_ ["-o"; "m.ini"]) cl_disk = ([], 2) /\
  cl_main (List.map S_ ["--overwrite=1"; "m.ini"]) cl_disk = ([], 2) /\ cl_main (List.map S_ ["m.ini"; "--help"]) cl_disk = ([], 0) /\
  parse_args (List.map S_ ["--"; "-m.ini"]) = PRun false (Some (S_ "-m.ini")) /\ parse_args (List.map S_ ["-m.ini"]) = PUsage.
Proof.
  split. { apply usage_flag with (ow := false); [exact overwrite_long|]. apply usage_file; [discriminate|constructor]. }
  repeat split; vm_compute; reflexivity.
Qed.
