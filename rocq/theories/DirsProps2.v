(** Run names with a directory part: every run with such a name fails, after it
    deleted the old output. *)
From Coq Require Import List ZArith Bool Ascii String Lia.
From Verif Require Import Base ParseModel ConfigModel DirsModel DirsSpec DirsProofs DirsProofs2 DirsProps.
Import ListNotations.
Local Open Scope string_scope.
Local Open Scope list_scope.

(** A run name [x/y]. *)
Definition nested (x y : pystr) : pystr := x ++ "/"%char :: y.

Lemma nested_backup p x y : plain_name x -> plain_name y ->
  pjoin p (nested x y ++ backup_suffix) = p ++ [x; y ++ backup_suffix].
Proof.
  intros (X1 & X2 & X3 & X4) (Y1 & Y2 & Y3 & Y4). unfold nested. rewrite <- app_assoc. cbn [app].
  destruct (backup_name_plain y Y4) as (B1 & B2 & B3 & B4).
  assert (C : components (x ++ "/"%char :: y ++ backup_suffix) = [x; y ++ backup_suffix]).
  { unfold components. rewrite split1_app, filter_app.
    fold (components x). fold (components (y ++ backup_suffix)). now rewrite !components_plain by assumption. }
  destruct x as [|c x]; [congruence|]. unfold pjoin. cbn [app] in *.
  destruct (Ascii.eqb c "/"%char) eqn:E; [apply Ascii.eqb_eq in E; exfalso; apply X4; now left|]. now rewrite C.
Qed.

(** A file cannot be opened below a directory that is missing. *)
Lemma write_missing t R x n chunks : real_dir t R -> x <> S_ ".." -> kind_at t (R ++ [x]) = None ->
  write_file (R ++ [x; n]) chunks t = ([], Err FileNotFoundError).
Proof.
  intros H Hx Hk. unfold write_file. cbn [locate].
  replace (place t (R ++ [x; n])) with (@None path); [reflexivity|].
  unfold place. change (R ++ [x; n]) with (R ++ [x] ++ [n]). rewrite app_assoc, removelast_snoc, last_last.
  replace (resolve t (R ++ [x])) with (@None path); [reflexivity|].
  destruct (resolve t (R ++ [x])) as [q|] eqn:Er; [|reflexivity]. exfalso.
  unfold resolve in Er. apply walk_app in Er as (k' & c' & H1 & H2).
  fold (resolve t R) in H1. rewrite (real_dir_resolve _ _ H) in H1. injection H1 as <-.
  apply kind_none in Hk. apply pystr_eqb_neq in Hx. rewrite walk_cons, Hx, Hk in H2. discriminate.
Qed.

Lemma absent_unresolved t R x : real_dir t R -> x <> S_ ".." -> kind_at t (R ++ [x]) = None -> resolve t (R ++ [x]) = None.
Proof.
  intros H Hx Hk. destruct (resolve t (R ++ [x])) as [q|] eqn:Er; [|reflexivity]. exfalso.
  unfold resolve in Er. apply walk_app in Er as (k' & c' & H1 & H2).
  fold (resolve t R) in H1. rewrite (real_dir_resolve _ _ H) in H1. injection H1 as <-.
  apply kind_none in Hk. apply pystr_eqb_neq in Hx. rewrite walk_cons, Hx, Hk in H2. discriminate.
Qed.

(** The directory exists and overwriting is configured: the old output is
    deleted, then the run fails. *)
Theorem C74_overwriting_fails_refuted :
  forall (rp : run_paths) (x y : pystr) (flag : option bool) (chunks : list pystr) (t : tree),
  let R := rp_rundir rp in
  is_dir t (rp_modeldir rp) = true -> plain_name x -> plain_name y -> rp_runname rp = nested x y ->
  real_dir t R -> (forall n, kind_at t (R ++ [n]) <> None -> n <> S_ "..") ->
  (forall n q, kind_at t (R ++ [n]) <> Some (KLink q)) ->
  let m := set_up_directories rp true flag chunks in
  outcome m t = Err FileNotFoundError /\ kind_at (final m t) R = Some KDir /\
  forall n, kind_at (final m t) (R ++ [n]) = None.
Proof.
  intros rp x y flag chunks t R Hmd Hx Hy Hrn HR Hdd Hl m.
  destruct (proj1 (kind_dir t R) (proj1 HR)) as (es & HD).
  assert (Hin : ~ In (S_ "..") (map fst es)).
  { intros Hi. apply (Hdd (S_ "..")); [|reflexivity]. unfold kind_at. rewrite get_snoc, HD.
    clear -Hi. induction es as [|[k u] es IH]; [destruct Hi|]. cbn [entry].
    destruct (pystr_eqb (S_ "..") k) eqn:E; [destruct u; discriminate|]. apply IH.
    destruct Hi as [Hi|Hi]; [|exact Hi]. cbn [fst] in Hi. subst. rewrite pystr_eqb_refl in E. discriminate. }
  destruct (delete_entries_real t R (map fst es) HR Hin Hl) as (o & E & D & K).
  set (t1 := do_ops t o) in *.
  assert (HR1 : real_dir t1 R) by now apply do_ops_below.
  assert (K' : forall n, kind_at t1 (R ++ [n]) = None).
  { intros n. destruct (in_dec pystr_dec n (map fst es)) as [Hi|Hi]; [now apply K|].
    destruct (do_ops_deletions R t o D (R ++ [n])) as [E1|E1]; [|exact E1].
    unfold t1. rewrite E1. apply kind_none. rewrite get_snoc, HD.
    destruct (entry es n) eqn:En; [|reflexivity]. apply entry_In in En. contradiction. }
  assert (Em : m t = (o, Err FileNotFoundError)).
  { unfold m, set_up_directories, andthen at 1. rewrite (mkdirs_existing _ _ Hmd). cbn [app do_ops fold_left].
    rewrite Hrn, (nested_backup _ _ _ Hx Hy). unfold andthen at 1, exists_. fold R. rewrite (real_dir_resolve _ _ HR).
    unfold andthen at 1, listdir. rewrite (real_dir_resolve _ _ HR), HD. cbn [app do_ops fold_left].
    rewrite E. cbn [app]. fold t1. rewrite (write_missing t1 R x _ chunks HR1 (proj1 (proj2 (proj2 Hx))) (K' x)).
    now rewrite app_nil_r. }
  unfold outcome, final. rewrite Em. cbn [fst snd]. fold t1. split; [reflexivity|]. split; [apply HR1|exact K'].
Qed.
Print Assumptions C74_overwriting_fails_refuted.

(** The run directory does not exist: it is created and stays empty, and the run
    fails.  The directory part exists or not. *)
Theorem C74_new_fails_refuted :
  forall (rp : run_paths) (x y : pystr) (configured : bool) (flag : option bool) (chunks : list pystr) (t : tree),
  let M := rp_modeldir rp in let R := rp_rundir rp in
  real_dir t M -> plain_name x -> plain_name y -> rp_runname rp = nested x y -> R = M ++ [x; y] ->
  (kind_at t (M ++ [x]) = Some KDir \/ kind_at t (M ++ [x]) = None) -> kind_at t R = None ->
  let m := set_up_directories rp configured flag chunks in
  outcome m t = Err FileNotFoundError /\ kind_at (final m t) R = Some KDir /\
  forall n, kind_at (final m t) (R ++ [n]) = None.
Proof.
  intros rp x y configured flag chunks t M R HM Hx Hy Hrn HRe Hxk Hk m.
  assert (Hdir : is_dir t (rp_modeldir rp) = true).
  { unfold is_dir. fold M. rewrite (real_dir_resolve _ _ HM). destruct HM as [H _]. now apply kind_dir in H as (es & ->). }
  assert (Hx3 := proj1 (proj2 (proj2 Hx))). assert (Hy3 := proj1 (proj2 (proj2 Hy))).
  set (P := M ++ [x]) in *. assert (HRP : R = P ++ [y]) by (rewrite HRe; unfold P; now rewrite <- app_assoc).
  (* it suffices that the directory is made *)
  assert (Main : forall o t1, mkdirs R t = (o, Ok tt) -> do_ops t o = t1 -> resolve t R = None ->
    real_dir t1 P -> get t1 R = Some (Dir []) ->
    outcome m t = Err FileNotFoundError /\ kind_at (final m t) R = Some KDir /\
    forall n, kind_at (final m t) (R ++ [n]) = None).
  { intros o t1 Em Et Hnr HP HG.
    assert (HR1 : real_dir t1 R).
    { split; [unfold kind_at; now rewrite HG|]. rewrite HRP. intros Hi. apply in_app_iff in Hi as [Hi|[Hi|[]]].
      - now apply (proj2 HP).
      - now apply Hy3. }
    assert (K' : forall n, kind_at t1 (R ++ [n]) = None).
    { intros n. apply kind_none. rewrite get_snoc, HG. reflexivity. }
    assert (E : m t = (o, Err FileNotFoundError)).
    { unfold m, set_up_directories, andthen at 1. rewrite (mkdirs_existing _ _ Hdir). cbn [app].
      change (do_ops t []) with t.
      rewrite Hrn, (nested_backup _ _ _ Hx Hy). unfold andthen at 1, exists_. fold R. rewrite Hnr, Em, Et.
      rewrite (write_missing t1 R x _ chunks HR1 Hx3 (K' x)). now rewrite app_nil_r. }
    unfold outcome, final. rewrite E. cbn [fst snd]. rewrite Et. split; [reflexivity|]. split; [apply HR1|exact K']. }
  assert (HPn : ~ In (S_ "..") P).
  { unfold P. intros Hi. apply in_app_iff in Hi as [Hi|[Hi|[]]]; [now apply (proj2 HM)|now apply Hx3]. }
  destruct Hxk as [Hd|Hn].
  - assert (HP : real_dir t P) by (split; assumption).
    destruct (proj1 (kind_dir _ _) Hd) as (es & HD).
    assert (Hnr : resolve t R = None) by (rewrite HRP; apply absent_unresolved; [assumption|assumption|now rewrite <- HRP]).
    assert (Een : entry es y = None).
    { apply kind_none in Hk. rewrite HRP, get_snoc, HD in Hk. exact Hk. }
    assert (Emk : os_mkdir t R = Made [Mkdir R]).
    { rewrite HRP at 1. rewrite os_mkdir_snoc, (real_dir_resolve _ _ HP), HD.
      apply pystr_eqb_neq in Hy3. rewrite Hy3, Een. now rewrite HRP. }
    eapply Main; [|reflexivity|exact Hnr| |].
    + unfold mkdirs. destruct (List.length R); cbn [mkdirs_n]; rewrite Emk; reflexivity.
    + split; [|assumption]. cbn [do_ops fold_left do_op]. rewrite put_outside; [assumption|].
      rewrite HRP. apply under_snoc_self.
    + cbn [do_ops fold_left do_op]. rewrite HRP. eapply get_put_some; eauto.
  - destruct (proj1 (kind_dir _ _) (proj1 HM)) as (es & HD).
    assert (Een : entry es x = None).
    { apply kind_none in Hn. unfold P in Hn. rewrite get_snoc, HD in Hn. exact Hn. }
    assert (HnP : resolve t P = None) by (apply absent_unresolved; assumption).
    assert (Hnr : resolve t R = None).
    { destruct (resolve t R) as [q|] eqn:Er; [|reflexivity]. exfalso. rewrite HRP in Er. unfold resolve in Er.
      apply walk_app in Er as (k' & c' & H1 & _). fold (resolve t P) in H1. congruence. }
    set (t1 := do_op t (Mkdir P)).
    assert (HG1 : get t1 P = Some (Dir [])) by (unfold t1; cbn [do_op]; eapply get_put_some; eauto).
    assert (HP1 : real_dir t1 P) by (split; [unfold kind_at; now rewrite HG1|assumption]).
    assert (EmP : os_mkdir t P = Made [Mkdir P]).
    { unfold P. rewrite os_mkdir_snoc, (real_dir_resolve _ _ HM), HD.
      apply pystr_eqb_neq in Hx3. now rewrite Hx3, Een. }
    assert (EmR : os_mkdir t R = NoParent) by (rewrite HRP, os_mkdir_snoc, HnP; reflexivity).
    assert (EmR1 : os_mkdir t1 R = Made [Mkdir R]).
    { rewrite HRP at 1. rewrite os_mkdir_snoc, (real_dir_resolve _ _ HP1), HG1.
      apply pystr_eqb_neq in Hy3. rewrite Hy3. cbn [entry]. now rewrite HRP. }
    eapply (Main [Mkdir P; Mkdir R]); [|reflexivity|exact Hnr| |].
    + unfold mkdirs. assert (Hlen : exists k, List.length R = S k).
      { rewrite HRP, app_length. cbn. exists (List.length P). lia. }
      destruct Hlen as (k & ->). cbn [mkdirs_n]. rewrite EmR. unfold andthen.
      assert (E1 : mkdirs_n k (removelast R) t = ([Mkdir P], Ok tt)).
      { rewrite HRP, removelast_snoc. destruct k; cbn [mkdirs_n]; now rewrite EmP. }
      rewrite E1. change (do_ops t [Mkdir P]) with t1. rewrite EmR1. reflexivity.
    + split; [|assumption]. change (do_ops t [Mkdir P; Mkdir R]) with (do_op t1 (Mkdir R)).
      cbn [do_op]. rewrite put_outside; [apply HP1|]. rewrite HRP. apply under_snoc_self.
    + change (do_ops t [Mkdir P; Mkdir R]) with (do_op t1 (Mkdir R)). cbn [do_op].
      rewrite HRP. eapply get_put_some; eauto.
Qed.
Print Assumptions C74_new_fails_refuted.

Example C74_example : exists rp, set_paths (Some (S_ "a/b")) None home (S_ "m.ini") [] = Ok rp /\
  rp_runname rp = nested (S_ "a") (S_ "b") /\ rp_rundir rp = rp_modeldir rp ++ [S_ "a"; S_ "b"] /\
  kind_at (final (set_up_directories rp false None []) (Dir [(S_ "home", Dir [])])) (rp_rundir rp) = Some KDir.
Proof. eexists. split; [reflexivity|]. vm_compute. repeat split. Qed.
