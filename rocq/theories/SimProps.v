(** C128: what a run leaves on disk. *)
From Coq Require Import List ZArith Bool Ascii String Arith Lia.
From Verif Require Import Base ParseModel ConfigModel DeprecatedModel DirsModel DirsSpec DirsProofs DirsProofs2 DirsProps BackupProps OutputModel SimModel SimSpec SimProofs SimProofs2.
From Verif Require ConfigProps DeprecatedProps.
Import ListNotations.
Local Open Scope list_scope.

Lemma dir_kind t p es : get t p = Some (Dir es) -> kind_at t p = Some KDir.
Proof. intros E. apply kind_dir. eauto. Qed.

(** The run directory after the setup. *)
Lemma set_up_ready t rp ow flag chunks : run_directory_ready t rp ow -> plain_name (rp_runname rp) ->
  let m := set_up_directories rp ow flag chunks in
  outcome m t = Ok tt /\ Forall (touches (rp_rundir rp)) (fst (m t)) /\ ~ In (S_ "..") (rp_rundir rp) /\
  shows (rp_rundir rp) (final m t)
    (fun q => if path_dec q [] then Some KDir else if path_dec q [rp_runname rp ++ backup_suffix] then Some (KFile (List.concat chunks)) else None).
Proof.
  intros H Hrn m.
  assert (Hm : outcome m t = Ok tt /\
    kind_at (final m t) (rp_rundir rp ++ [rp_runname rp ++ backup_suffix]) = Some (KFile (List.concat chunks)) /\
    (forall n, kind_at (final m t) (rp_rundir rp ++ [n]) <> None -> n = rp_runname rp ++ backup_suffix) /\
    ~ In (S_ "..") (rp_rundir rp) /\ Forall (touches (rp_rundir rp)) (fst (m t))).
  { destruct H as [(R1 & R2 & R3 & R4)|(R0 & R1 & R2 & R3 & R4 & R5)].
    - destruct (set_up_creates t rp ow flag chunks R1 R2 R3 R4) as (G1 & G2 & G3). split; [exact G1|]. split; [exact G2|]. split; [exact G3|].
      assert (Hup : rp_runname rp <> S_ "..") by (destruct Hrn as (_ & _ & Hup & _); exact Hup).
      split. { rewrite R3. intros Hi. apply in_app_iff in Hi as [Hi|[Hi|[]]]; [now apply (proj2 R1)|contradiction]. }
      assert (Hdir : is_dir t (rp_modeldir rp) = true).
      { unfold is_dir. rewrite (real_dir_resolve _ _ R1). destruct R1 as [R1 _]. now apply kind_dir in R1 as (es & ->). }
      apply set_up_touches; auto.
      + right. split; [|split; [exact R3|]].
        * destruct (resolve t (rp_rundir rp)) as [q|] eqn:Er; [|reflexivity]. exfalso. rewrite R3 in Er.
          unfold resolve in Er. apply walk_app in Er as (k' & c' & H1 & H2).
          fold (resolve t (rp_modeldir rp)) in H1. rewrite (real_dir_resolve _ _ R1) in H1. injection H1 as <-.
          apply pystr_eqb_neq in Hup. rewrite walk_cons, Hup in H2. rewrite R3 in R4. apply kind_none in R4. rewrite R4 in H2. discriminate H2.
        * exists (rp_modeldir rp). split; [now apply real_dir_resolve|exact R3].
      + intros q. assert (E : kind_at t (rp_rundir rp ++ [backup_name rp]) = None); [|rewrite E; discriminate].
        apply kind_none. apply get_below. intros es E. apply kind_none in R4. congruence.
    - unfold m in *. clear m. rewrite R0 in *. destruct (set_up_overwrites t rp flag chunks R1 R2 R3 R4 R5) as (G1 & G2 & G3). split; [exact G1|]. split; [exact G2|]. split; [exact G3|].
      split; [apply R3|]. apply set_up_touches; auto. left. now apply real_dir_resolve. }
  destruct Hm as (G1 & G2 & G3 & G4 & G5). split; [exact G1|]. split; [exact G5|]. split; [exact G4|].
  assert (HD : kind_at (final m t) (rp_rundir rp) = Some KDir).
  { destruct (get (final m t) (rp_rundir rp)) as [u|] eqn:Eu; [destruct u as [c|l|es]|];
      try (unfold kind_at; rewrite Eu; reflexivity);
      (rewrite (proj2 (kind_none _ _)) in G2; [discriminate G2|]; apply get_below; intros es'; rewrite Eu; discriminate). }
  intros q. destruct (path_dec q []) as [->|Hq]; [now rewrite app_nil_r|].
  destruct (path_dec q [rp_runname rp ++ backup_suffix]) as [->|Hq2]; [exact G2|].
  destruct q as [|n q]; [contradiction|]. destruct (kind_at (final m t) (rp_rundir rp ++ [n])) eqn:En.
  - assert (n = rp_runname rp ++ backup_suffix) as -> by (apply G3; congruence).
    destruct q as [|x q]; [contradiction|]. change (rp_rundir rp ++ (rp_runname rp ++ backup_suffix) :: x :: q) with (rp_rundir rp ++ [rp_runname rp ++ backup_suffix] ++ (x :: q)).
    rewrite app_assoc. apply kind_none. apply get_below. intros es E. pose proof (eq_trans (eq_sym G2) (dir_kind _ _ _ E)) as E2. discriminate E2.
  - destruct q as [|x q]; [exact En|]. change (rp_rundir rp ++ n :: x :: q) with (rp_rundir rp ++ [n] ++ (x :: q)).
    rewrite app_assoc. apply kind_none. apply get_below. intros es E. pose proof (eq_trans (eq_sym En) (dir_kind _ _ _ E)) as E2. discriminate E2.
Qed.

Lemma run_shows {F D} (fo : fops F) trunc (model_init : config F -> list (pystr * Z) -> res (job D)) installed (w : writers D) p ini_path ini_name selected flag chunks t cf rp ids j ow :
  parameters fo trunc p ini_path ini_name selected = Ok (cf, rp) ->
  ae_ids cf = Ok ids -> model_init cf ids = Ok j -> lookup (cf_run cf) "overwrite_old_output" = Ok ow ->
  run_directory_ready t rp (as_bool ow) -> plain_name (rp_runname rp) -> sound_writers w ->
  let run := run_cmd fo trunc model_init installed w p ini_path ini_name selected flag chunks in
  outcome run t = snd (plan_loop installed w rp j (seq 1 (j_numsim j))) /\
  Forall (touches (rp_rundir rp)) (fst (run t)) /\
  shows (rp_rundir rp) (final run t)
    (upds (fun q => if path_dec q [] then Some KDir else if path_dec q [rp_runname rp ++ backup_suffix] then Some (KFile (List.concat chunks)) else None)
       (fst (plan_loop installed w rp j (seq 1 (j_numsim j))))).
Proof.
  intros Hpar Hids Hj How Hready Hrn Hw run.
  destruct (set_up_ready t rp (as_bool ow) flag chunks Hready Hrn) as (S1 & S2 & S3 & S4).
  set (fm := fun q : path => if path_dec q [] then Some KDir else if path_dec q [rp_runname rp ++ backup_suffix] then Some (KFile (List.concat chunks)) else None) in *.
  assert (Hty : typed (is_file_path rp j) fm).
  { intros q k. unfold fm. destruct (path_dec q []) as [->|]; [intros [= <-]; apply root_not_file|].
    destruct (path_dec q [rp_runname rp ++ backup_suffix]) as [->|]; [|discriminate]. intros [= <-]. now left. }
  destruct (runs_loop installed w rp j Hw Hrn S3 fm (seq 1 (j_numsim j)) Hty) as [_ HL]; [unfold fm; now destruct (path_dec [] [])|].
  destruct (HL _ S4) as (o & E & Ho & Hs).
  assert (Erun : run = (do* (rp, j) := (do* _ := set_up_directories rp (as_bool ow) flag chunks in ret (rp, j)) in sim_loop installed w rp j (seq 1 (j_numsim j)))).
  { unfold run, run_cmd, setup_from_inifile. now rewrite Hpar, Hids, Hj, How. }
  assert (Et : run t = (fst (set_up_directories rp (as_bool ow) flag chunks t) ++ o, snd (plan_loop installed w rp j (seq 1 (j_numsim j))))).
  { rewrite Erun. unfold andthen, ret. unfold outcome, final in *. destruct (set_up_directories rp (as_bool ow) flag chunks t) as [ops r].
    cbn [fst snd] in *. rewrite S1, app_nil_r, E. reflexivity. }
  unfold outcome, final. rewrite Et. cbn [fst snd]. split; [reflexivity|]. split; [apply Forall_app; auto|].
  rewrite do_ops_app. exact Hs.
Qed.

(** ** C128.  The whole run *)
Theorem C128_outputs :
  forall F D (fo : fops F) (trunc : F -> res Z) (model_init : config F -> list (pystr * Z) -> res (job D))
    (installed : pystr -> bool) (w : writers D) (p : inifile) (ini_path selected : path) (ini_name : pystr)
    (flag : option bool) (chunks : list pystr) (t : tree)
    (cf : config F) (rp : run_paths) (ids : list (pystr * Z)) (j : job D) (ow : val (atom F)),
  parameters fo trunc p ini_path ini_name selected = Ok (cf, rp) ->
  ae_ids cf = Ok ids -> model_init cf ids = Ok j -> lookup (cf_run cf) "overwrite_old_output" = Ok ow ->
  run_directory_ready t rp (as_bool ow) -> plain_name (rp_runname rp) -> sound_writers w ->
  let run := run_cmd fo trunc model_init installed w p ini_path ini_name selected flag chunks in
  (exit_status (outcome run t) = 0%nat <-> forall s, (1 <= s <= j_numsim j)%nat -> goes_well installed w j s) /\
  kind_at (final run t) (rp_rundir rp ++ [rp_runname rp ++ S_ "_autogenerated_backup.ini"]) = Some (KFile (List.concat chunks)) /\
  (forall k s d f rel c, (k <= j_numsim j)%nat -> (forall s', (1 <= s' <= k)%nat -> goes_well installed w j s') ->
     (1 <= s <= k)%nat -> j_data j s = Ok d -> In f (j_formats j) -> usable installed f ->
     belongs w (rp_runname rp) d f rel c ->
     kind_at (final run t) (rp_rundir rp ++ real_of (j_numsim j) s ++ rel) = Some (KFile c)).
Proof.
  intros F D fo trunc mi installed w p ip sel name flag chunks t cf rp ids j ow Hpar Hids Hj How Hready Hrn Hw run.
  destruct (run_shows fo trunc mi installed w p ip name sel flag chunks t cf rp ids j ow Hpar Hids Hj How Hready Hrn Hw) as (E & _ & Hs).
  fold run in E, Hs. split; [|split].
  - rewrite E. transitivity (snd (plan_loop installed w rp j (seq 1 (j_numsim j))) = Ok tt).
    { destruct (snd _) as [[]|e]; cbn [exit_status]; split; intros H; first [reflexivity|discriminate H]. }
    rewrite loop_ok, Forall_forall. split; intros H s Hs'; apply H.
    + apply in_seq. lia. + apply in_seq in Hs'. lia.
  - etransitivity; [exact (Hs [rp_runname rp ++ backup_suffix])|]. rewrite upds_none; [|intros k; now apply loop_backup].
    destruct (path_dec _ []) as [H|_]; [discriminate H|]. now destruct (path_dec _ _).
  - intros k s d f rel c Hk Hg Hsk Hd Hf Ha Hb. rewrite (usable_iff _ _ (belongs_known _ _ _ _ _ _ Hb)) in Ha. rewrite Hs.
    assert (Eseq : seq 1 (j_numsim j) = seq 1 k ++ seq (1 + k) (j_numsim j - k)) by (rewrite <- seq_app; f_equal; lia).
    assert (Hgw : Forall (goes_well installed w j) (seq 1 k)).
    { apply Forall_forall. intros s' Hs'. apply Hg. apply in_seq in Hs'. lia. }
    assert (Hin : In s (seq 1 k)) by (apply in_seq; lia).
    apply upds_in.
    + rewrite Eseq. eapply loop_in; [exact Hgw|exact Hin|]. destruct (Hg s Hsk) as (d' & Hd' & Hall).
      rewrite Hd in Hd'. injection Hd' as <-. unfold plan_real. rewrite Hd. apply in_then_r; [reflexivity|].
      eapply outputs_in; [now apply outputs_ok|exact Hf|]. now apply output_in.
    + intros k' Hi. eapply loop_file; eauto.
Qed.
Print Assumptions C128_outputs.

Theorem C128_nothing_else :
  forall F D (fo : fops F) (trunc : F -> res Z) (model_init : config F -> list (pystr * Z) -> res (job D))
    (installed : pystr -> bool) (w : writers D) (p : inifile) (ini_path selected : path) (ini_name : pystr)
    (flag : option bool) (chunks : list pystr) (t : tree)
    (cf : config F) (rp : run_paths) (ids : list (pystr * Z)) (j : job D) (ow : val (atom F)),
  parameters fo trunc p ini_path ini_name selected = Ok (cf, rp) ->
  ae_ids cf = Ok ids -> model_init cf ids = Ok j -> lookup (cf_run cf) "overwrite_old_output" = Ok ow ->
  run_directory_ready t rp (as_bool ow) -> plain_name (rp_runname rp) -> sound_writers w ->
  let run := run_cmd fo trunc model_init installed w p ini_path ini_name selected flag chunks in
  (forall t' q, interrupted run t t' -> ~ under (rp_rundir rp) q -> kind_at t' q = kind_at t q) /\
  (forall q, kind_at (final run t) (rp_rundir rp ++ q) <> None ->
     q = [] \/ q = [rp_runname rp ++ S_ "_autogenerated_backup.ini"] \/
     exists s d, (1 <= s <= j_numsim j)%nat /\ j_data j s = Ok d /\
       (q = real_of (j_numsim j) s \/
        (exists f dir, In f (j_formats j) /\ In (f, dir) [(S_ "mf", S_ "MODFLOW"); (S_ "mf6", S_ "mf6"); (S_ "hgs", S_ "HGS")] /\ q = real_of (j_numsim j) s ++ [dir]) \/
        (exists f rel c, In f (j_formats j) /\ usable installed f /\ belongs w (rp_runname rp) d f rel c /\ q = real_of (j_numsim j) s ++ rel))).
Proof.
  intros F D fo trunc mi installed w p ip sel name flag chunks t cf rp ids j ow Hpar Hids Hj How Hready Hrn Hw run.
  destruct (run_shows fo trunc mi installed w p ip name sel flag chunks t cf rp ids j ow Hpar Hids Hj How Hready Hrn Hw) as (E & Ht & Hs).
  fold run in E, Ht, Hs. split.
  - intros t' q (k & ->) Hq. eapply do_ops_touches; [|exact Hq]. now apply Forall_firstn.
  - intros q Hq. rewrite Hs in Hq. destruct (upds _ _ q) as [k|] eqn:Eq; [|contradiction]. apply upds_some in Eq as [Eq|Eq].
    + destruct (path_dec q []) as [->|]; [now left|]. destruct (path_dec q _) as [->|]; [right; now left|discriminate Eq].
    + right. right. apply in_loop in Eq as (s & Hs' & Eq). apply in_real in Eq as (d & Hd & Eq). exists s, d.
      split; [apply in_seq in Hs'; lia|]. split; [exact Hd|]. destruct Eq as [(-> & _)|[(dir & f & H1 & H2 & _ & H4 & _)|(f & rel & c & H1 & H2 & H3 & H4 & _)]].
      * now left.
      * right. left. exists f, dir. split; [exact H1|]. split; [|exact H4]. apply target_cases in H2. cbn [In].
        repeat destruct H2 as [H2|H2]; destruct H2 as [-> H2]; try discriminate H2;
          apply (f_equal (fun t => match t with Single a => a | Folder a => a end)) in H2; cbn beta iota in H2; rewrite H2; tauto.
      * right. right. exists f, rel, c. rewrite (usable_iff _ _ (belongs_known _ _ _ _ _ _ H3)). auto.
Qed.
Print Assumptions C128_nothing_else.

(** Three realizations, one of which fails: the first two are complete, the
    exit status tells, and what was there before is untouched or gone as
    configured. *)
Local Open Scope string_scope.
Definition sm_writers : writers nat :=
  mkWriters nat (fun f d => Ok [f; decimal d])
    (fun f d => Ok [(S_ "a.txt", [f; decimal d]); (S_ "b.txt", [decimal (10 * d)])]).
Definition sm_job (bad : nat) : job nat :=
  mkJob nat 3 (map S_ ["npz"; "hgs"; "h5"; "npz"]) (fun s => if Nat.eqb s bad then Err ZeroDivisionError else Ok (100 + s)%nat).
Definition sm_installed (l : pystr) : bool := negb (pystr_eqb l (S_ "h5py")).
Definition sm_run (bad : nat) : cmd unit :=
  run_cmd ConfigProps.toyf DeprecatedProps.ztrunc (fun _ _ => Ok (sm_job bad)) sm_installed sm_writers bk_ini home (S_ "m.ini") [] None [bk_bytes].
Definition sm_real (s d : string) : pystr * tree :=
  (S_ s, Dir [(S_ "m.npz", File (S_ "npz" ++ S_ d)%list);
              (S_ "HGS", Dir [(S_ "a.txt", File (S_ "hgs" ++ S_ d)%list); (S_ "b.txt", File (S_ d ++ S_ "0")%list)])]).
Lemma plain_by_cases n : n <> [] -> n <> S_ "." -> n <> S_ ".." -> existsb (Ascii.eqb "/"%char) n = false -> plain_name n.
Proof.
  intros H1 H2 H3 H4. repeat split; auto. intros Hi. apply not_true_iff_false in H4. apply H4. apply existsb_exists. exists "/"%char. split; [exact Hi|apply Ascii.eqb_refl].
Qed.
Example C128_example :
  sound_writers sm_writers /\ plain_name (S_ "m") /\
  goes_well sm_installed sm_writers (sm_job 3) 1 /\ goes_well sm_installed sm_writers (sm_job 3) 2 /\ ~ goes_well sm_installed sm_writers (sm_job 3) 3 /\
  exit_status (outcome (sm_run 0) bk_empty) = 0%nat /\ exit_status (outcome (sm_run 3) bk_empty) = 1%nat /\
  final (sm_run 3) bk_empty =
    Dir [(S_ "home", Dir [(S_ "m", Dir [(S_ "m_autogenerated_backup.ini", File bk_bytes); sm_real "real_001" "101"; sm_real "real_002" "102"])])].
Proof.
  split. { intros f d l H. injection H as <-. split.
    - cbn [map fst]. constructor; [|constructor; [intros []|constructor]]. intros [H|[]]. discriminate H.
    - repeat constructor; apply plain_by_cases; cbn [fst]; first [discriminate|reflexivity]. }
  split; [apply plain_by_cases; first [discriminate|reflexivity]|].
  assert (Hw : forall d, Forall (writes sm_installed sm_writers d) (j_formats (sm_job 3))).
  { intros d. unfold sm_job. cbn [j_formats map]. repeat constructor; try (cbn [In]; tauto); intros _; cbn; eauto. }
  split; [exists 101%nat; split; [reflexivity|apply Hw]|]. split; [exists 102%nat; split; [reflexivity|apply Hw]|].
  split. { intros (d & H & _). discriminate H. }
  split; [vm_compute; reflexivity|]. split; vm_compute; reflexivity.
Qed.
