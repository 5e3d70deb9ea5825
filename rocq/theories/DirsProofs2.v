(** Lemmas about setting up the directories, file names and realizations. *)
From Coq Require Import List ZArith Bool Ascii String Lia FinFun.
From Verif Require Import Base ParseModel ConfigModel DirsModel DirsSpec DirsProofs.
Import ListNotations.
Local Open Scope string_scope.
Local Open Scope list_scope.

(** ** Names *)
Lemma split1_none c s : ~ In c s -> split1 c s = [s].
Proof.
  induction s as [|x s IH]; intros H; simpl; [reflexivity|].
  destruct (Ascii.eqb x c) eqn:E; [apply Ascii.eqb_eq in E; subst; exfalso; apply H; now left|].
  rewrite IH; [reflexivity|]. intros Hs. apply H. now right.
Qed.
Lemma split1_nonnil c s : split1 c s <> [].
Proof. destruct s; simpl; [discriminate|]. destruct (Ascii.eqb a c); [discriminate|]. destruct (split1 c s); discriminate. Qed.
Lemma split1_app c s e : split1 c (s ++ c :: e) = split1 c s ++ split1 c e.
Proof.
  induction s as [|x s IH]; simpl.
  - now rewrite Ascii.eqb_refl.
  - destruct (Ascii.eqb x c); [now rewrite IH|]. rewrite IH.
    pose proof (split1_nonnil c s). destruct (split1 c s); [congruence|]. reflexivity.
Qed.
Lemma join_split c s : join_with c (split1 c s) = s.
Proof.
  induction s as [|x s IH]; [reflexivity|]. simpl. pose proof (split1_nonnil c s) as Hn.
  destruct (Ascii.eqb x c) eqn:E.
  - apply Ascii.eqb_eq in E. subst. cbn [join_with]. destruct (split1 c s); [congruence|]. simpl in *. now rewrite IH.
  - destruct (split1 c s) as [|h r]; [congruence|]. cbn [cons_head]. destruct r; simpl in *; now rewrite <- IH.
Qed.
Lemma stem_name stem ext : ~ In "."%char ext ->
  join_with "."%char (removelast (split1 "."%char (stem ++ "."%char :: ext))) = stem.
Proof. intros H. now rewrite split1_app, (split1_none _ ext H), removelast_last, join_split. Qed.

Lemma endswith_app s e : endswith (s ++ e) e = true.
Proof.
  unfold endswith. rewrite app_length. apply andb_true_iff. split; [apply Nat.leb_le; lia|].
  apply pystr_eqb_eq. replace (List.length s + List.length e - List.length e) with (List.length s) by lia.
  rewrite skipn_app, skipn_all, Nat.sub_diag. reflexivity.
Qed.
Lemma endswith_spec s e : endswith s e = true <-> exists r, s = r ++ e.
Proof.
  split; [|intros (r & ->); apply endswith_app].
  unfold endswith. intros H. apply andb_true_iff in H as [_ H]. apply pystr_eqb_eq in H.
  exists (firstn (List.length s - List.length e) s). rewrite <- H at 2. now rewrite firstn_skipn.
Qed.
Lemma drop_last_app s e : drop_last (List.length e) (s ++ e) = s.
Proof.
  unfold drop_last. rewrite app_length. replace (List.length s + List.length e - List.length e) with (List.length s) by lia.
  rewrite firstn_app, firstn_all, Nat.sub_diag. simpl. apply app_nil_r.
Qed.

Lemma components_plain n : n <> [] -> n <> S_ "." -> ~ In "/"%char n -> components n = [n].
Proof.
  intros H1 H2 H3. unfold components. rewrite split1_none by assumption. cbn [filter].
  apply pystr_eqb_neq in H1, H2. now rewrite H1, H2.
Qed.
Lemma pjoin_plain p n : n <> [] -> n <> S_ "." -> ~ In "/"%char n -> pjoin p n = p ++ [n].
Proof.
  intros H1 H2 H3. unfold pjoin. rewrite components_plain by assumption. destruct n as [|c n]; [congruence|].
  destruct (Ascii.eqb c "/"%char) eqn:E; [|reflexivity].
  apply Ascii.eqb_eq in E. exfalso. apply H3. now left.
Qed.
Lemma backup_name_plain rn : ~ In "/"%char rn ->
  rn ++ backup_suffix <> [] /\ rn ++ backup_suffix <> S_ "." /\ rn ++ backup_suffix <> S_ ".." /\
  ~ In "/"%char (rn ++ backup_suffix).
Proof.
  intros H.
  assert (Hl : List.length (rn ++ backup_suffix) >= 25) by (rewrite app_length; cbn; lia).
  repeat split; try (intros E; rewrite E in Hl; cbn in Hl; lia).
  intros Hi. apply in_app_iff in Hi as [Hi|Hi]; [auto|].
  cbn in Hi. repeat (destruct Hi as [Hi|Hi]; [discriminate|]). exact Hi.
Qed.

(** ** set_up_directories *)

(** The directory that the run directory denotes, existing or to be created
    as a new entry of the model directory. *)
Definition location (t : tree) (rp : run_paths) (R : path) : Prop :=
  resolve t (rp_rundir rp) = Some R \/
  (resolve t (rp_rundir rp) = None /\ rp_rundir rp = rp_modeldir rp ++ [rp_runname rp] /\
   exists M, resolve t (rp_modeldir rp) = Some M /\ R = M ++ [rp_runname rp]).

Definition backup_name (rp : run_paths) : pystr := rp_runname rp ++ backup_suffix.

Lemma backup_path rp : ~ In "/"%char (rp_runname rp) ->
  pjoin (rp_rundir rp) (rp_runname rp ++ backup_suffix) = rp_rundir rp ++ [backup_name rp].
Proof. intros H. destruct (backup_name_plain _ H) as (H1 & H2 & _ & H3). now apply pjoin_plain. Qed.

Lemma write_ops t d n R chunks : at_most t d R -> (forall q, kind_at t (R ++ [n]) <> Some (KLink q)) ->
  Forall (touches R) (fst (write_file (d ++ [n]) chunks t)).
Proof.
  intros H Hl. unfold write_file.
  assert (Hloc : forall e, locate 40 t (d ++ [n]) = Ok e -> e = R ++ [n]).
  { intros e. cbn [locate]. destruct (place t (d ++ [n])) as [e'|] eqn:E; [|discriminate].
    apply place_snoc in E as (q & es & Hq & _ & ->).
    assert (q = R) as -> by (destruct H; congruence).
    unfold kind_at in Hl. destruct (get t (R ++ [n])) as [[]|]; try congruence. exfalso. eapply Hl. reflexivity. }
  destruct (locate 40 t (d ++ [n])) as [e|]; [|constructor].
  rewrite (Hloc e eq_refl). cbn [fst].
  assert (Hu : under R (R ++ [n])) by (apply under_app, under_refl).
  constructor; [exact Hu|]. apply Forall_map. apply Forall_forall. intros c _. exact Hu.
Qed.

Lemma os_mkdir_snoc t p n : os_mkdir t (p ++ [n]) =
  match resolve t p with
  | None => NoParent
  | Some q => match get t q with
              | Some (Dir es) =>
                  if pystr_eqb n (S_ "..") then Refused
                  else match entry es n with None => Made [Mkdir (q ++ [n])] | Some _ => Refused end
              | _ => Refused
              end
  end.
Proof.
  unfold os_mkdir. rewrite removelast_snoc, last_last.
  destruct (p ++ [n]) eqn:E; [destruct p; discriminate|reflexivity].
Qed.

Lemma set_up_touches t rp configured flag chunks R :
  is_dir t (rp_modeldir rp) = true -> plain_name (rp_runname rp) -> location t rp R ->
  (forall q, kind_at t (R ++ [backup_name rp]) <> Some (KLink q)) ->
  Forall (touches R) (fst (set_up_directories rp configured flag chunks t)).
Proof.
  intros Hmd (Hp1 & Hp2 & Hp3 & Hp4) Hloc Hl.
  unfold set_up_directories, andthen at 1. rewrite (mkdirs_existing _ _ Hmd). cbn [app do_ops fold_left].
  rewrite backup_path by assumption.
  unfold andthen at 1. destruct Hloc as [HR|(HR & Hrd & M & HM & ->)].
  - unfold exists_. rewrite HR. destruct configured; [|cbn; constructor].
    unfold andthen at 1, listdir. rewrite HR.
    destruct (get t R) as [[]|] eqn:ER; try (cbn; constructor).
    cbn [app do_ops fold_left].
    assert (Ho := delete_entries_ops t (rp_rundir rp) (map fst entries) R (or_introl HR)).
    destruct (delete_entries _ _ t) as [o r]. cbn [fst] in Ho.
    assert (Ht : Forall (touches R) o) by (eapply Forall_impl; [apply deletion_touches|exact Ho]).
    destruct r as [[]|e]; [|exact Ht].
    assert (Hr := do_ops_deletions R t o Ho).
    assert (Hw := write_ops (do_ops t o) (rp_rundir rp) (backup_name rp) R chunks).
    destruct (write_file _ _ _) as [o' r']. cbn [fst] in *. apply Forall_app. split; [exact Ht|].
    apply Hw.
    + eapply at_most_removed; [exact Hr|now left].
    + intros q Hq. destruct (Hr (R ++ [backup_name rp])) as [E|E]; [|congruence]. eapply Hl. rewrite <- E. exact Hq.
  - unfold exists_. rewrite HR. unfold mkdirs.
    destruct (List.length (rp_rundir rp)) as [|len] eqn:Elen.
    { rewrite Hrd, app_length in Elen. simpl in Elen. lia. }
    cbn [mkdirs_n].
    destruct (is_dir_resolve _ _ Hmd) as (M' & es & HM' & HD). assert (M' = M) as -> by congruence.
    assert (Emk : os_mkdir t (rp_rundir rp) =
      match entry es (rp_runname rp) with None => Made [Mkdir (M ++ [rp_runname rp])] | Some _ => Refused end).
    { rewrite Hrd, os_mkdir_snoc, HM, HD. apply pystr_eqb_neq in Hp3. now rewrite Hp3. }
    rewrite Emk. set (R := M ++ [rp_runname rp]) in *.
    destruct (entry es (rp_runname rp)) as [u|] eqn:Een.
    + destruct (is_dir t (rp_rundir rp)) eqn:Eis; [|cbn; constructor].
      apply is_dir_resolve in Eis as (? & ? & ? & _). congruence.
    + cbn [do_ops fold_left]. set (t1 := do_op t (Mkdir R)).
      assert (HRn : get t R = None) by (unfold R; now rewrite get_snoc, HD, Een).
      assert (Hr1 : resolve t1 (rp_rundir rp) = Some R).
      { rewrite Hrd. unfold resolve. eapply walk_snoc.
        - eapply walk_more; [|exact HM]. intros q Hq. apply put_outside. intros (s & ->).
          apply Hq. apply kind_none. rewrite get_app, HRn. reflexivity.
        - assumption.
        - unfold t1. cbn [do_op]. unfold R. eapply get_put_some; eauto.
        - discriminate. }
      assert (Hw := write_ops t1 (rp_rundir rp) (backup_name rp) R chunks (or_introl Hr1)).
      destruct (write_file _ _ _) as [o' r']. cbn [fst] in *. constructor; [apply under_refl|]. apply Hw.
      intros q Hq. unfold kind_at in Hq. rewrite get_snoc in Hq. unfold t1 in Hq. cbn [do_op] in Hq.
      unfold R in Hq. rewrite (get_put_some t M es _ _ HD) in Hq. discriminate.
Qed.

(** Existing output and no overwriting. *)
Lemma set_up_refuses t rp flag chunks :
  is_dir t (rp_modeldir rp) = true -> exists_ t (rp_rundir rp) = true ->
  set_up_directories rp false flag chunks t = ([], Err FileExistsError).
Proof.
  intros Hmd He. unfold set_up_directories, andthen at 1. rewrite (mkdirs_existing _ _ Hmd). cbn [app do_ops fold_left].
  unfold andthen. rewrite He. reflexivity.
Qed.

(** *** Success *)
Lemma real_dir_resolve t p : real_dir t p -> resolve t p = Some p.
Proof.
  intros [H Hn]. apply kind_dir in H as (es & H). eapply resolve_real; eauto. discriminate.
Qed.

Lemma do_ops_below R t l : Forall (deletion R) l -> real_dir t R -> real_dir (do_ops t l) R.
Proof.
  intros H. revert t; induction H as [|o l Ho H IH]; intros t [Hd Hn]; [split; assumption|].
  unfold do_ops in *. simpl. apply IH. split; [|assumption].
  rewrite <- Hd. destruct o; simpl in Ho; try contradiction; destruct Ho as [Hu Hne]; simpl;
    apply put_outside; intros Hu2; apply Hne; destruct Hu as (s & ->);
    destruct Hu2 as (s2 & E); rewrite <- app_assoc in E;
    assert (E' : s ++ s2 = []) by (apply (app_inv_head R); now rewrite app_nil_r);
    apply app_eq_nil in E' as [-> _]; now rewrite app_nil_r.
Qed.

Lemma place_real t R n : real_dir t R -> place t (R ++ [n]) = Some (R ++ [n]).
Proof.
  intros H. unfold place. rewrite removelast_snoc, last_last, (real_dir_resolve _ _ H).
  destruct H as [H _]. apply kind_dir in H as (es & ->). reflexivity.
Qed.

Lemma delete_entry_real t R n : real_dir t R -> n <> S_ ".." ->
  (forall q, kind_at t (R ++ [n]) <> Some (KLink q)) ->
  exists l, delete_entry R n t = (l, Ok tt) /\ kind_at (do_ops t l) (R ++ [n]) = None.
Proof.
  intros H Hn Hl. unfold delete_entry. rewrite (place_real _ _ _ H).
  unfold is_file, is_dir. unfold kind_at in Hl.
  assert (Hin : ~ In (S_ "..") (R ++ [n])).
  { intros Hi. apply in_app_iff in Hi as [Hi|[Hi|[]]]; [now apply (proj2 H)|congruence]. }
  destruct (get t (R ++ [n])) as [u|] eqn:E.
  - assert (Hul : forall q, u <> Link q) by (intros q ->; now apply (Hl q)).
    rewrite (resolve_real _ _ _ E Hul Hin), E.
    destruct u as [c|q|es].
    + eexists. split; [reflexivity|]. apply kind_none. cbn [do_ops fold_left do_op].
      apply get_put_none; [apply snoc_nonnil|apply under_refl].
    + exfalso. now apply (Hul q).
    + eexists. split; [reflexivity|]. apply rmtree_gone. apply snoc_nonnil.
  - replace (resolve t (R ++ [n])) with (@None path).
    + exists []. split; [reflexivity|]. now apply kind_none.
    + destruct (resolve t (R ++ [n])) as [q|] eqn:Er; [|reflexivity]. exfalso.
      unfold resolve in Er. apply walk_app in Er as (k' & c' & H1 & H2).
      fold (resolve t R) in H1. rewrite (real_dir_resolve _ _ H) in H1. injection H1 as <-.
      rewrite walk_cons in H2. apply pystr_eqb_neq in Hn. rewrite Hn, E in H2. discriminate.
Qed.

Lemma delete_entries_real t R l : real_dir t R -> ~ In (S_ "..") l ->
  (forall n q, kind_at t (R ++ [n]) <> Some (KLink q)) ->
  exists o, delete_entries R l t = (o, Ok tt) /\ Forall (deletion R) o /\
    forall n, In n l -> kind_at (do_ops t o) (R ++ [n]) = None.
Proof.
  revert t; induction l as [|n l IH]; intros t H Hn Hl; simpl.
  - exists []. split; [reflexivity|]. split; [constructor|]. intros n [].
  - destruct (delete_entry_real t R n H) as (o1 & E1 & K1); [intros ->; apply Hn; now left|auto|].
    assert (D1 := delete_entry_ops t R n R (or_introl (real_dir_resolve _ _ H))). rewrite E1 in D1. cbn [fst] in D1.
    assert (Hr1 := do_ops_deletions R t o1 D1).
    destruct (IH (do_ops t o1)) as (o2 & E2 & D2 & K2).
    + now apply do_ops_below.
    + intros Hi. apply Hn. now right.
    + intros m q Hq. destruct (Hr1 (R ++ [m])) as [E|E]; rewrite E in Hq; [now apply Hl in Hq|discriminate].
    + exists (o1 ++ o2). unfold andthen. rewrite E1, E2. split; [reflexivity|]. split; [apply Forall_app; auto|].
      intros m Hm. rewrite do_ops_app. destruct (do_ops_deletions R (do_ops t o1) o2 D2 (R ++ [m])) as [E|E]; [|exact E].
      destruct Hm as [<-|Hm]; [now rewrite E|now apply K2].
Qed.

Lemma append_all t e d chunks p es n : e = p ++ [n] -> get t p = Some (Dir es) -> get t e = Some (File d) ->
  get (do_ops t (map (Append e) chunks)) e = Some (File (d ++ List.concat chunks)) /\
  (forall q, ~ under e q -> kind_at (do_ops t (map (Append e) chunks)) q = kind_at t q).
Proof.
  intros ->. revert t d es. induction chunks as [|c chunks IH]; intros t d es Hp Hg.
  - simpl. rewrite app_nil_r. auto.
  - cbn [map List.concat]. unfold do_ops. cbn [fold_left do_op]. rewrite Hg. fold (do_ops).
    set (t1 := put t (p ++ [n]) (Some (File (d ++ c)))).
    assert (Hp1 : exists es1, get t1 p = Some (Dir es1)).
    { apply kind_dir. unfold t1. rewrite put_outside by apply under_snoc_self. apply kind_dir. eauto. }
    destruct Hp1 as (es1 & Hp1).
    destruct (IH t1 (d ++ c) es1 Hp1) as [H1 H2]; [unfold t1; eapply get_put_some; eauto|].
    unfold do_ops in *. rewrite H1, <- app_assoc. split; [reflexivity|].
    intros q Hq. rewrite H2 by assumption. unfold t1. now apply put_outside.
Qed.

Lemma write_real t R n chunks : real_dir t R -> kind_at t (R ++ [n]) = None ->
  exists o, write_file (R ++ [n]) chunks t = (o, Ok tt) /\
    get (do_ops t o) (R ++ [n]) = Some (File (List.concat chunks)) /\
    (forall q, ~ under (R ++ [n]) q -> kind_at (do_ops t o) q = kind_at t q).
Proof.
  intros H Hk. unfold write_file. cbn [locate]. rewrite (place_real _ _ _ H).
  apply kind_none in Hk. rewrite Hk. eexists. split; [reflexivity|].
  destruct H as [H Hn]. apply kind_dir in H as (es & H).
  unfold do_ops. cbn [fold_left do_op]. set (t1 := put t (R ++ [n]) (Some (File []))).
  assert (Hp1 : exists es1, get t1 R = Some (Dir es1)).
  { apply kind_dir. unfold t1. rewrite put_outside by apply under_snoc_self. apply kind_dir. eauto. }
  destruct Hp1 as (es1 & Hp1).
  assert (H1 : get t1 (R ++ [n]) = Some (File [])) by (unfold t1; eapply get_put_some; eauto).
  destruct (append_all t1 _ [] chunks R es1 n eq_refl Hp1 H1) as [H2 H3]. split; [exact H2|].
  intros q Hq. unfold do_ops in H3. rewrite H3 by assumption. unfold t1. now apply put_outside.
Qed.

(** The run directory is a real directory without links among its entries and
    overwriting is configured. *)
Lemma set_up_overwrites t rp flag chunks :
  let R := rp_rundir rp in
  is_dir t (rp_modeldir rp) = true -> ~ In "/"%char (rp_runname rp) -> real_dir t R ->
  (forall n, kind_at t (R ++ [n]) <> None -> n <> S_ "..") ->
  (forall n q, kind_at t (R ++ [n]) <> Some (KLink q)) ->
  let m := set_up_directories rp true flag chunks in
  outcome m t = Ok tt /\
  kind_at (final m t) (R ++ [backup_name rp]) = Some (KFile (List.concat chunks)) /\
  (forall n, kind_at (final m t) (R ++ [n]) <> None -> n = backup_name rp).
Proof.
  intros R Hmd Hrn HR Hdd Hl m.
  destruct (proj1 (kind_dir t R) (proj1 HR)) as (es & HD).
  assert (Hin : ~ In (S_ "..") (map fst es)).
  { intros Hi. apply (Hdd (S_ "..")); [|reflexivity]. unfold kind_at. rewrite get_snoc, HD.
    clear -Hi. induction es as [|[k u] es IH]; [destruct Hi|]. cbn [entry].
    destruct (pystr_eqb (S_ "..") k) eqn:E; [destruct u; discriminate|]. apply IH.
    destruct Hi as [Hi|Hi]; [|exact Hi]. cbn [fst] in Hi. subst. rewrite pystr_eqb_refl in E. discriminate. }
  destruct (delete_entries_real t R (map fst es) HR Hin Hl) as (o & E & D & K).
  set (t1 := do_ops t o) in *.
  assert (K' : forall n, kind_at t1 (R ++ [n]) = None).
  { intros n. destruct (in_dec pystr_dec n (map fst es)) as [Hi|Hi]; [now apply K|].
    destruct (do_ops_deletions R t o D (R ++ [n])) as [E1|E1]; [|exact E1].
    unfold t1. rewrite E1. apply kind_none. rewrite get_snoc, HD.
    destruct (entry es n) eqn:En; [|reflexivity]. apply entry_In in En. contradiction. }
  destruct (write_real t1 R (backup_name rp) chunks) as (w & Ew & G & Ho); [now apply do_ops_below|apply K'|].
  assert (Em : m t = (o ++ w, Ok tt)).
  { unfold m, set_up_directories, andthen at 1. rewrite (mkdirs_existing _ _ Hmd). cbn [app do_ops fold_left].
    rewrite backup_path by assumption. unfold andthen at 1, exists_. fold R. rewrite (real_dir_resolve _ _ HR).
    unfold andthen at 1, listdir. rewrite (real_dir_resolve _ _ HR), HD. cbn [app do_ops fold_left].
    rewrite E. cbn [app]. fold t1. now rewrite Ew. }
  unfold outcome, final. rewrite Em. cbn [fst snd]. rewrite do_ops_app. fold t1. split; [reflexivity|]. split.
  - unfold kind_at. now rewrite G.
  - intros n Hn. destruct (pystr_dec n (backup_name rp)) as [|Hne]; [assumption|]. exfalso. apply Hn.
    rewrite Ho; [apply K'|]. intros Hu. apply under_snoc_inj in Hu. congruence.
Qed.

(** The run directory is new. *)
Lemma set_up_creates t rp configured flag chunks :
  let R := rp_rundir rp in
  real_dir t (rp_modeldir rp) -> plain_name (rp_runname rp) -> R = rp_modeldir rp ++ [rp_runname rp] ->
  kind_at t R = None ->
  let m := set_up_directories rp configured flag chunks in
  outcome m t = Ok tt /\
  kind_at (final m t) (R ++ [backup_name rp]) = Some (KFile (List.concat chunks)) /\
  (forall n, kind_at (final m t) (R ++ [n]) <> None -> n = backup_name rp).
Proof.
  intros R Hmd (Hp1 & Hp2 & Hp3 & Hp4) HR Hk m.
  assert (Hdir : is_dir t (rp_modeldir rp) = true).
  { unfold is_dir. rewrite (real_dir_resolve _ _ Hmd). destruct Hmd as [H _]. now apply kind_dir in H as (es & ->). }
  destruct (proj1 (kind_dir _ _) (proj1 Hmd)) as (es & HD).
  set (t1 := do_op t (Mkdir R)).
  assert (HRn : get t R = None) by now apply kind_none.
  assert (Een : entry es (rp_runname rp) = None) by (rewrite HR in HRn; now rewrite get_snoc, HD in HRn).
  assert (HR1 : get t1 R = Some (Dir [])).
  { unfold t1. cbn [do_op]. rewrite HR. eapply get_put_some; eauto. }
  assert (Hreal : real_dir t1 R).
  { split; [unfold kind_at; now rewrite HR1|]. rewrite HR. intros Hi. apply in_app_iff in Hi as [Hi|[Hi|[]]].
    - now apply (proj2 Hmd).
    - now apply Hp3. }
  assert (K' : forall n, kind_at t1 (R ++ [n]) = None).
  { intros n. apply kind_none. rewrite get_snoc, HR1. reflexivity. }
  destruct (write_real t1 R (backup_name rp) chunks Hreal (K' _)) as (w & Ew & G & Ho).
  assert (Hnr : resolve t R = None).
  { destruct (resolve t R) as [q|] eqn:Er; [|reflexivity]. exfalso. rewrite HR in Er.
    unfold resolve in Er. apply walk_app in Er as (k' & c' & H1 & H2).
    fold (resolve t (rp_modeldir rp)) in H1. rewrite (real_dir_resolve _ _ Hmd) in H1. injection H1 as <-.
    rewrite walk_cons in H2. apply pystr_eqb_neq in Hp3. rewrite Hp3, get_snoc, HD, Een in H2. discriminate. }
  assert (Em : m t = (Mkdir R :: w, Ok tt)).
  { unfold m, set_up_directories, andthen at 1. rewrite (mkdirs_existing _ _ Hdir). cbn [app do_ops fold_left].
    rewrite backup_path by assumption. unfold andthen at 1, exists_. fold R. rewrite Hnr. unfold mkdirs.
    assert (Emk : os_mkdir t R = Made [Mkdir R]).
    { rewrite HR, os_mkdir_snoc, (real_dir_resolve _ _ Hmd), HD.
      apply pystr_eqb_neq in Hp3. now rewrite Hp3, Een. }
    destruct (List.length R); cbn [mkdirs_n]; rewrite Emk; cbn [do_ops fold_left app];
      fold t1; now rewrite Ew. }
  unfold outcome, final. rewrite Em. cbn [fst snd]. unfold do_ops. cbn [fold_left]. fold (do_op t (Mkdir R)).
  fold t1. fold (do_ops t1 w). split; [reflexivity|]. split.
  - unfold kind_at. now rewrite G.
  - intros n Hn. destruct (pystr_dec n (backup_name rp)) as [|Hne]; [assumption|]. exfalso. apply Hn.
    rewrite Ho; [apply K'|]. intros Hu. apply under_snoc_inj in Hu. congruence.
Qed.

(** ** Decimal numbers *)
Fixpoint value_from (acc : nat) (s : pystr) : nat :=
  match s with [] => acc | c :: r => value_from (10 * acc + (nat_of_ascii c - 48)) r end.
Lemma digit_value k : (k < 10)%nat -> nat_of_ascii (ascii_of_nat (48 + k)) - 48 = k.
Proof. intros H. rewrite nat_ascii_embedding by lia. lia. Qed.
Fixpoint pow10 (n : nat) : nat := match n with O => 1 | S n => 10 * pow10 n end.
Lemma value_from_app a s r : value_from a (s ++ r) = value_from (value_from a s) r.
Proof. revert a; induction s; intros; simpl; auto. Qed.
Lemma value_from_shift a s : value_from a s = a * pow10 (List.length s) + value_from 0 s.
Proof.
  revert a; induction s as [|c s IH]; intros a; cbn [value_from List.length pow10]; [lia|].
  rewrite IH, (IH (10 * 0 + _)). lia.
Qed.
Lemma digits_value_spec fuel n acc : (n <= fuel)%nat -> value_from 0 (digits fuel n acc) = n * pow10 (List.length acc) + value_from 0 acc.
Proof.
  revert n acc; induction fuel as [|f IH]; intros n acc Hf.
  - assert (n = 0)%nat as -> by lia. cbn [digits]. cbn [value_from].
    rewrite value_from_shift. change (Nat.modulo 0 10) with 0%nat. rewrite digit_value by lia. lia.
  - cbn [digits]. destruct (Nat.ltb_spec n 10).
    + cbn [value_from]. rewrite value_from_shift, digit_value; rewrite (Nat.mod_small n 10) by lia; lia.
    + rewrite IH by (assert (Nat.div n 10 < n) by (apply Nat.div_lt; lia); lia).
      cbn [List.length pow10 value_from].
      rewrite (value_from_shift (10 * 0 + _)), digit_value by (apply Nat.mod_upper_bound; lia).
      pose proof (Nat.div_mod n 10 ltac:(lia)) as E. set (q := Nat.div n 10) in *. set (r := Nat.modulo n 10) in *.
      clearbody q r. subst n. nia.
Qed.
Lemma decimal_value n : value_from 0 (decimal n) = n.
Proof. unfold decimal. rewrite digits_value_spec by lia. simpl. lia. Qed.
Lemma format_value n : value_from 0 (format_03d n) = n.
Proof.
  unfold format_03d. rewrite value_from_app.
  replace (value_from 0 (repeat "0"%char (3 - List.length (decimal n)))) with 0%nat; [apply decimal_value|].
  induction (3 - List.length (decimal n)) as [|k IH]; [reflexivity|]. simpl. exact IH.
Qed.
Lemma format_inj n m : format_03d n = format_03d m -> n = m.
Proof. intros E. rewrite <- (format_value n), E. apply format_value. Qed.

Lemma digits_no_slash fuel n acc : ~ In "/"%char acc -> ~ In "/"%char (digits fuel n acc).
Proof.
  assert (Hd : forall k, (k < 10)%nat -> ascii_of_nat (48 + k) <> "/"%char).
  { intros k Hk E. apply (f_equal nat_of_ascii) in E. rewrite nat_ascii_embedding in E by lia.
    change (nat_of_ascii "/"%char) with 47%nat in E. lia. }
  revert n acc; induction fuel as [|f IH]; intros n acc H; cbn [digits].
  - intros [E|E]; [|auto]. revert E. apply Hd. apply Nat.mod_upper_bound. lia.
  - assert (H2 : ~ In "/"%char (ascii_of_nat (48 + Nat.modulo n 10) :: acc)).
    { intros [E|E]; [|auto]. revert E. apply Hd. apply Nat.mod_upper_bound. lia. }
    destruct (Nat.ltb n 10); auto.
Qed.
Lemma real_name_plain n : plain_name (S_ "real_" ++ format_03d n).
Proof.
  repeat split; try discriminate.
  intros Hi. apply in_app_iff in Hi as [Hi|Hi].
  - cbn in Hi. repeat (destruct Hi as [Hi|Hi]; [discriminate|]). exact Hi.
  - unfold format_03d in Hi. apply in_app_iff in Hi as [Hi|Hi].
    + apply repeat_spec in Hi. discriminate.
    + revert Hi. apply digits_no_slash. intros [].
Qed.

Lemma realdirs_distinct numsim rd : NoDup (realdirs numsim rd).
Proof.
  unfold realdirs, realdir. destruct (Nat.ltb_spec 1 numsim).
  - apply FinFun.Injective_map_NoDup; [|apply seq_NoDup].
    intros a b E. destruct (real_name_plain a) as (A1 & A2 & _ & A3). destruct (real_name_plain b) as (B1 & B2 & _ & B3).
    rewrite !pjoin_plain in E by assumption. apply app_inj_tail in E as [_ E].
    apply app_inv_head in E. now apply format_inj.
  - destruct numsim as [|[|n]]; [constructor|constructor; [intros []|constructor]|lia].
Qed.
