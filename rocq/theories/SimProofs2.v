(** The run as a list of updates of the run directory, and what is there at the end. *)
From Coq Require Import List ZArith Bool Ascii String Arith Lia.
From Verif Require Import Base ParseModel ConfigModel DirsModel DirsSpec DirsProofs DirsProofs2 OutputModel SimModel SimSpec SimProofs.
Import ListNotations.
Local Open Scope string_scope.
Local Open Scope list_scope.

Definition exts : list pystr := map S_ [".mat"; ".pickle"; ".npz"; ".h5"; ".vtr"].
Definition folders : list pystr := map S_ ["MODFLOW"; "mf6"; "HGS"].

(** The targets, one format at a time. *)
Lemma target_cases f tg : target_of f = Some tg ->
  (f = S_ "mat" /\ tg = Single (S_ ".mat")) \/ (f = S_ "py" /\ tg = Single (S_ ".pickle")) \/
  (f = S_ "npz" /\ tg = Single (S_ ".npz")) \/ (f = S_ "h5" /\ tg = Single (S_ ".h5")) \/
  (f = S_ "vtr" /\ tg = Single (S_ ".vtr")) \/ (f = S_ "mf" /\ tg = Folder (S_ "MODFLOW")) \/
  (f = S_ "mf6" /\ tg = Folder (S_ "mf6")) \/ (f = S_ "hgs" /\ tg = Folder (S_ "HGS")).
Proof.
  unfold target_of. intros H.
  repeat match type of H with
  | (if pystr_eqb f ?x then _ else _) = _ => let E := fresh "E" in destruct (pystr_eqb f x) eqn:E;
      [apply pystr_eqb_eq in E; apply (f_equal (fun o => match o with Some a => a | None => tg end)) in H; cbn beta iota in H; subst; tauto|clear E]
  end. discriminate H.
Qed.
Lemma target_ext f e : target_of f = Some (Single e) -> In e exts.
Proof.
  intros H. apply target_cases in H. unfold exts. cbn [map].
  repeat destruct H as [H|H]; destruct H as [_ H]; try discriminate H; apply (f_equal (fun t => match t with Single a => a | Folder a => a end)) in H; cbn beta iota in H; rewrite H; cbn [In]; tauto.
Qed.
Lemma target_folder f e : target_of f = Some (Folder e) -> In e folders.
Proof.
  intros H. apply target_cases in H. unfold folders. cbn [map].
  repeat destruct H as [H|H]; destruct H as [_ H]; try discriminate H; apply (f_equal (fun t => match t with Single a => a | Folder a => a end)) in H; cbn beta iota in H; rewrite H; cbn [In]; tauto.
Qed.

Lemma belongs_iff {D} (w : writers D) rn d f rel c :
  belongs w rn d f rel c <->
  exists tg, target_of f = Some tg /\
    match tg with
    | Single e => exists ch, single w f d = Ok ch /\ rel = [rn ++ e] /\ c = List.concat ch
    | Folder dir => exists l n ch, folder w f d = Ok l /\ In (n, ch) l /\ rel = [dir; n] /\ c = List.concat ch
    end.
Proof.
  split.
  - intros H. destruct H; (eexists; split; [vm_compute; reflexivity|]); cbn beta iota; eauto 10.
  - intros (tg & Ht & H). apply target_cases in Ht.
    repeat destruct Ht as [Ht|Ht]; destruct Ht as [-> ->]; cbn beta iota in H;
      first [destruct H as (ch & H & -> & ->)|destruct H as (l & n & ch & H & Hi & -> & ->)]; econstructor; eassumption.
Qed.

Lemma usable_iff installed f : In f (map S_ ["mat"; "py"; "npz"; "h5"; "vtr"; "mf"; "mf6"; "hgs"]) -> (usable installed f <-> available installed f = true).
Proof.
  intros Hf. unfold usable. cbn [map In] in Hf. split.
  - intros H. repeat destruct Hf as [Hf|Hf]; try contradiction; subst f; unfold available; vm_compute (library _); cbv iota; try reflexivity; apply H; cbn [In]; tauto.
  - intros H l Hl. cbn [In] in Hl. repeat destruct Hl as [Hl|Hl]; try contradiction; injection Hl as <- <-; exact H.
Qed.
Lemma belongs_known {D} (w : writers D) rn d f rel c : belongs w rn d f rel c -> In f (map S_ ["mat"; "py"; "npz"; "h5"; "vtr"; "mf"; "mf6"; "hgs"]).
Proof. intros H. destruct H; cbn [map In]; tauto. Qed.

Lemma writes_iff {D} installed (w : writers D) d f :
  writes installed w d f <->
  exists tg, target_of f = Some tg /\
    (available installed f = true -> match tg with Single _ => exists c, single w f d = Ok c | Folder _ => exists l, folder w f d = Ok l end).
Proof.
  unfold writes. split.
  - intros [Hi H]. rewrite usable_iff in H by exact Hi. cbn [map In] in Hi. repeat destruct Hi as [Hi|Hi]; try contradiction; subst f; (eexists; split; [vm_compute; reflexivity|]); exact H.
  - intros (tg & Ht & H). apply target_cases in Ht. repeat destruct Ht as [Ht|Ht]; destruct Ht as [-> ->]; (split; [cbn [map In]; tauto|rewrite usable_iff by (cbn [map In]; tauto); exact H]).
Qed.

Lemma digits_no_dot fuel n acc : ~ In "."%char acc -> ~ In "."%char (digits fuel n acc).
Proof.
  assert (Hd : forall k, (k < 10)%nat -> ascii_of_nat (48 + k) <> "."%char).
  { intros k Hk E. apply (f_equal nat_of_ascii) in E. rewrite nat_ascii_embedding in E by lia.
    change (nat_of_ascii "."%char) with 46%nat in E. lia. }
  revert n acc; induction fuel as [|f IH]; intros n acc H; cbn [digits].
  - intros [E|E]; [|auto]. revert E. apply Hd. apply Nat.mod_upper_bound. lia.
  - assert (Hn : ~ In "."%char (ascii_of_nat (48 + n mod 10) :: acc)).
    { intros [E|E]; [|auto]. revert E. apply Hd. apply Nat.mod_upper_bound. lia. }
    destruct (Nat.ltb n 10); [exact Hn|]. now apply IH.
Qed.
Lemma real_name_no_dot n : ~ In "."%char (S_ "real_" ++ format_03d n).
Proof.
  intros Hi. apply in_app_iff in Hi as [Hi|Hi].
  - cbn in Hi. repeat (destruct Hi as [Hi|Hi]; [discriminate|]). exact Hi.
  - unfold format_03d in Hi. apply in_app_iff in Hi as [Hi|Hi].
    + apply repeat_spec in Hi. discriminate.
    + revert Hi. apply digits_no_dot. intros [].
Qed.
Lemma ext_dot rn e : In e exts -> In "."%char (rn ++ e).
Proof. intros H. apply in_app_iff. right. unfold exts in H. cbn [map In] in H. repeat destruct H as [H|H]; try contradiction; subst e; now left. Qed.
Lemma backup_dot rn : In "."%char (rn ++ backup_suffix).
Proof. apply in_app_iff. right. unfold backup_suffix. cbn. tauto. Qed.
Lemma folder_no_dot e : In e folders -> ~ In "."%char e.
Proof. intros H Hi. unfold folders in H. cbn [map In] in H. repeat destruct H as [H|H]; try contradiction; subst e; cbn in Hi; repeat (destruct Hi as [Hi|Hi]; [discriminate Hi|]); exact Hi. Qed.
Lemma folder_plain e : In e folders -> e <> S_ "..".
Proof. intros H ->. apply folder_no_dot in H. apply H. now left. Qed.
Lemma ext_backup rn e : In e exts -> rn ++ e <> rn ++ backup_suffix.
Proof. intros H E. apply app_inv_head in E. unfold exts in H. cbn [map In] in H. repeat destruct H as [H|H]; try contradiction; subst e; discriminate E. Qed.

Section Run.
Context {D : Type} (installed : pystr -> bool) (w : writers D) (rp : run_paths) (j : job D).
Context (Hw : sound_writers w) (Hrn : plain_name (rp_runname rp)) (Rok : ~ In (S_ "..") (rp_rundir rp)).
Notation R := (rp_rundir rp).
Notation rn := (rp_runname rp).
Notation N := (j_numsim j).
Notation rel_dir := (real_of (j_numsim j)).

Definition is_file_path (q : path) : Prop :=
  q = [rn ++ backup_suffix] \/
  exists s, (exists e, In e exts /\ q = rel_dir s ++ [rn ++ e]) \/ (exists dir n, q = rel_dir s ++ [dir; n]).

Lemma real_of_cases s : (1 < N /\ rel_dir s = [S_ "real_" ++ format_03d s])%nat \/ ((N <= 1)%nat /\ rel_dir s = []).
Proof. unfold real_of. destruct (Nat.ltb_spec 1 N); [left|right]; auto. Qed.
Lemma rel_dir_up s : ~ In (S_ "..") (rel_dir s).
Proof. destruct (real_of_cases s) as [[_ ->]|[_ ->]]; [|intros []]. intros [H|[]]. discriminate H. Qed.
Lemma root_not_file : ~ is_file_path [].
Proof.
  intros [H|(s & [(e & _ & H)|(dir & n & H)])]; [discriminate H| |].
  - now apply app_cons_not_nil in H.
  - now apply app_cons_not_nil in H.
Qed.
Lemma real_not_file s : ~ is_file_path (rel_dir s).
Proof.
  intros H. destruct (real_of_cases s) as [[HN E]|[HN E]]; rewrite E in H; [|now apply root_not_file].
  destruct H as [H|(s' & H)].
  - apply (f_equal (hd [])) in H. cbn [hd] in H. apply (real_name_no_dot s). rewrite H. apply backup_dot.
  - destruct (real_of_cases s') as [[_ E']|[HN' _]]; [rewrite E' in H|lia].
    destruct H as [(e & _ & H)|(dir & n & H)]; discriminate H.
Qed.
Lemma folder_not_file s dir : In dir folders -> ~ is_file_path (rel_dir s ++ [dir]).
Proof.
  intros Hd [H|(s' & [(e & He & H)|(d' & n & H)])].
  - destruct (real_of_cases s) as [[HN E]|[HN E]]; rewrite E in H; [discriminate H|].
    cbn [app] in H. apply (f_equal (hd [])) in H. cbn [hd] in H. apply (folder_no_dot dir Hd). rewrite H. apply backup_dot.
  - apply app_inj_tail in H as [_ H]. apply (folder_no_dot dir Hd). rewrite H. now apply ext_dot.
  - apply (f_equal (@List.length _)) in H. rewrite !app_length in H. cbn [List.length] in H.
    destruct (real_of_cases s) as [[HN E]|[HN E]], (real_of_cases s') as [[HN' E']|[HN' E']]; rewrite E, E' in H; cbn in H; lia.
Qed.
Lemma real_path s : realdir N R s = R ++ rel_dir s.
Proof.
  unfold realdir, real_of. destruct (Nat.ltb 1 N); [|now rewrite app_nil_r].
  destruct (real_name_plain s) as (H1 & H2 & _ & H3). now apply pjoin_plain.
Qed.
Lemma single_path p e : In e exts -> pjoin p (rn ++ e) = p ++ [rn ++ e].
Proof.
  destruct Hrn as (H1 & H2 & H3 & H4). intros He. apply pjoin_plain.
  - intros E. apply app_eq_nil in E as [E _]. contradiction.
  - intros E. destruct rn as [|c [|c' r]]; [contradiction| |discriminate E].
    apply app_eq_unit in E as [[E _]|[_ E]]; [discriminate E|]. subst e. unfold exts in He. cbn in He. repeat destruct He as [He|He]; try contradiction; discriminate He.
  - intros Hi. apply in_app_iff in Hi as [Hi|Hi]; [contradiction|]. unfold exts in He. cbn [map In] in He.
    repeat destruct He as [He|He]; try contradiction; subst e; cbn in Hi; repeat (destruct Hi as [Hi|Hi]; [discriminate Hi|]); exact Hi.
Qed.
Lemma folder_path p : removelast (pjoin p rn) = p.
Proof. destruct Hrn as (H1 & H2 & _ & H3). rewrite pjoin_plain by assumption. apply removelast_last. Qed.

(** The plans. *)
Definition plan_files (p : path) (l : list (pystr * list pystr)) : list (path * kind) :=
  map (fun e => (p ++ [fst e], KFile (List.concat (snd e)))) l.
Definition plan_output (s : nat) (d : D) (f : pystr) : plan :=
  match target_of f with
  | None => ([], Err ValueError)
  | Some tg =>
      if available installed f then
        match tg with
        | Single e => match single w f d with
                      | Err x => ([], Err x)
                      | Ok c => ([(rel_dir s ++ [rn ++ e], KFile (List.concat c))], Ok tt)
                      end
        | Folder dir => then_plan ([(rel_dir s ++ [dir], KDir)], Ok tt)
                        match folder w f d with
                        | Err x => ([], Err x)
                        | Ok l => (plan_files (rel_dir s ++ [dir]) l, Ok tt)
                        end
        end
      else ([], Ok tt)
  end.
Fixpoint plan_outputs (s : nat) (d : D) (fs : list pystr) : plan :=
  match fs with [] => ([], Ok tt) | f :: r => then_plan (plan_output s d f) (plan_outputs s d r) end.
Definition plan_real (s : nat) : plan :=
  match j_data j s with
  | Err e => ([], Err e)
  | Ok d => then_plan ([(rel_dir s, KDir)], Ok tt) (plan_outputs s d (j_formats j))
  end.
Fixpoint plan_loop (sims : list nat) : plan :=
  match sims with [] => ([], Ok tt) | s :: r => then_plan (plan_real s) (plan_loop r) end.

Notation runs := (runs R is_file_path).
Notation typed := (typed is_file_path).

Lemma runs_files fm s dir l : In dir folders -> typed fm -> fm (rel_dir s ++ [dir]) = Some KDir -> Forall (fun e => plain_name (fst e)) l ->
  runs (write_files (R ++ rel_dir s ++ [dir]) l) fm (plan_files (rel_dir s ++ [dir]) l, Ok tt).
Proof.
  intros Hd Ht Hf Hl. revert fm Ht Hf; induction Hl as [|[n c] l Hn Hl IH]; intros fm Ht Hf; cbn [write_files plan_files map].
  - apply runs_ret.
  - assert (Hup : ~ In (S_ "..") (rel_dir s ++ [dir])).
    { intros Hi. apply in_app_iff in Hi as [Hi|[Hi|[]]]; [now apply (rel_dir_up s)|now apply (folder_plain dir)]. }
    assert (Hfile : is_file_path ((rel_dir s ++ [dir]) ++ [n])).
    { right. exists s. right. exists dir, n. now rewrite <- app_assoc. }
    pose proof (runs_write R Rok is_file_path fm (rel_dir s ++ [dir]) n c Ht Hf Hup Hfile) as H1.
    pose proof (runs_then R is_file_path _ (write_files (R ++ rel_dir s ++ [dir]) l) _ _ (plan_files (rel_dir s ++ [dir]) l, Ok tt) H1) as H2.
    unfold then_plan in H2. cbn [fst snd app] in H2. cbn [fst snd]. rewrite <- (app_assoc R) . apply H2. intros _. apply IH.
    + apply typed_upds; [exact Ht|]. (constructor; [exact Hfile|constructor]).
    + apply dir_stays with (fileT := is_file_path); [(constructor; [exact Hfile|constructor])|now apply folder_not_file|exact Hf].
Qed.

Lemma runs_output fm s d f : typed fm -> fm (rel_dir s) = Some KDir ->
  runs (output_cmd installed w (R ++ rel_dir s) rn d f) fm (plan_output s d f).
Proof.
  intros Ht Hf. unfold output_cmd, plan_output. destruct (target_of f) as [tg|] eqn:E; [|apply runs_raise].
  destruct (available installed f); [|apply runs_ret]. destruct tg as [e|dir].
  - apply target_ext in E. destruct (single w f d) as [c|x]; [|apply runs_raise].
    rewrite single_path by exact E. rewrite <- app_assoc. apply runs_write; auto using rel_dir_up. right. exists s. left. exists e. auto.
  - apply target_folder in E. rewrite folder_path, <- app_assoc.
    pose proof (folder_not_file s dir E) as Hnf.
    pose proof (runs_mkdir R Rok is_file_path fm (rel_dir s) dir Ht Hf (rel_dir_up s) (folder_plain dir E) Hnf) as H1.
    eapply runs_then; [exact H1|]. intros _. cbn [fst].
    destruct (folder w f d) as [l|x] eqn:El; [|apply runs_raise]. apply runs_files; [exact E| | |apply (Hw _ _ _ El)].
    + apply typed_upds; [exact Ht|]. (constructor; [exact Hnf|constructor]).
    + unfold upds. cbn [fold_left]. unfold upd. cbn [fst snd]. now destruct (path_dec _ _).
Qed.

Lemma runs_outputs fm s d fs : typed fm -> fm (rel_dir s) = Some KDir ->
  runs (outputs_cmd installed w (R ++ rel_dir s) rn d fs) fm (plan_outputs s d fs).
Proof.
  revert fm; induction fs as [|f fs IH]; intros fm Ht Hf; cbn [outputs_cmd plan_outputs]; [apply runs_ret|].
  pose proof (runs_output fm s d f Ht Hf) as H1. eapply runs_then; [exact H1|]. intros _. destruct H1 as [H1 _]. apply IH.
  - now apply typed_upds.
  - eapply dir_stays; [exact H1|apply real_not_file|exact Hf].
Qed.

Lemma runs_real fm s : typed fm -> fm [] = Some KDir -> runs (realization installed w rp j s) fm (plan_real s).
Proof.
  intros Ht Hf. unfold realization, plan_real. destruct (j_data j s) as [d|e]; [|apply runs_raise]. rewrite real_path.
  assert (H1 : runs (mkdirs (R ++ rel_dir s)) fm ([(rel_dir s, KDir)], Ok tt)).
  { destruct (real_of_cases s) as [[HN E]|[HN E]]; rewrite E.
    - apply (runs_mkdir R Rok is_file_path fm [] (S_ "real_" ++ format_03d s) Ht Hf); [intros []|discriminate|].
      cbn [app]. pose proof (real_not_file s) as H. rewrite E in H. exact H.
    - rewrite app_nil_r. apply runs_mkdir_here; auto. apply root_not_file. }
  eapply runs_then; [exact H1|]. intros _. cbn [fst]. apply runs_outputs.
  - apply typed_upds; [exact Ht|]. exact (proj1 H1).
  - unfold upds. cbn [fold_left]. unfold upd. cbn [fst snd]. now destruct (path_dec _ _).
Qed.

Lemma runs_loop fm sims : typed fm -> fm [] = Some KDir -> runs (sim_loop installed w rp j sims) fm (plan_loop sims).
Proof.
  revert fm; induction sims as [|s sims IH]; intros fm Ht Hf; cbn [sim_loop plan_loop]; [apply runs_ret|].
  pose proof (runs_real fm s Ht Hf) as H1. eapply runs_then; [exact H1|]. intros _. destruct H1 as [H1 _]. apply IH.
  - now apply typed_upds.
  - eapply dir_stays; [exact H1|apply root_not_file|exact Hf].
Qed.

(** What the plans contain. *)
Lemma in_then u p1 p2 : In u (fst (then_plan p1 p2)) -> In u (fst p1) \/ (snd p1 = Ok tt /\ In u (fst p2)).
Proof.
  unfold then_plan. destruct (snd p1) as [[]|e]; cbn [fst]; [|auto]. intros H. apply in_app_iff in H as [H|H]; auto.
Qed.
Lemma in_then_l u p1 p2 : In u (fst p1) -> In u (fst (then_plan p1 p2)).
Proof. unfold then_plan. destruct (snd p1) as [[]|e]; cbn [fst]; [|auto]. intros H. apply in_app_iff. auto. Qed.
Lemma in_then_r u p1 p2 : snd p1 = Ok tt -> In u (fst p2) -> In u (fst (then_plan p1 p2)).
Proof. unfold then_plan. intros -> H. cbn [fst]. apply in_app_iff. auto. Qed.
Lemma then_ok p1 p2 : snd (then_plan p1 p2) = Ok tt <-> snd p1 = Ok tt /\ snd p2 = Ok tt.
Proof. unfold then_plan. destruct (snd p1) as [[]|e]; cbn [snd]; [tauto|]. split; [discriminate|intros [H _]; discriminate H]. Qed.

Lemma in_output s d f q k : In (q, k) (fst (plan_output s d f)) ->
  (exists dir, In dir folders /\ q = rel_dir s ++ [dir] /\ k = KDir /\ target_of f = Some (Folder dir)) \/
  (available installed f = true /\ exists rel c, belongs w rn d f rel c /\ q = rel_dir s ++ rel /\ k = KFile c).
Proof.
  unfold plan_output. destruct (target_of f) as [tg|] eqn:E; [|intros []]. destruct (available installed f); [|intros []].
  destruct tg as [e|dir].
  - destruct (single w f d) as [c|] eqn:Ec; [|intros []]. intros [H|[]]. injection H as <- <-. right. split; [reflexivity|].
    exists [rn ++ e], (List.concat c). split; [|auto]. apply belongs_iff. exists (Single e). eauto.
  - intros H. apply in_then in H as [[H|[]]|[_ H]].
    + injection H as <- <-. left. exists dir. eauto using target_folder.
    + destruct (folder w f d) as [l|] eqn:El; [|destruct H]. right. split; [reflexivity|]. cbn [fst] in H.
      unfold plan_files in H. apply in_map_iff in H as ([n c] & H & Hi). cbn [fst snd] in H. injection H as <- <-.
      exists [dir; n], (List.concat c). split; [|rewrite <- app_assoc; auto]. apply belongs_iff. exists (Folder dir). split; [exact E|]. cbn beta iota. exists l, n, c. auto.
Qed.
Lemma output_in s d f rel c : available installed f = true -> belongs w rn d f rel c -> In (rel_dir s ++ rel, KFile c) (fst (plan_output s d f)).
Proof.
  intros Ha H. apply belongs_iff in H as (tg & E & H). unfold plan_output. rewrite E, Ha. destruct tg as [e|dir].
  - destruct H as (ch & -> & -> & ->). now left.
  - destruct H as (l & n & ch & -> & Hi & -> & ->). apply in_then_r; [reflexivity|]. cbn [fst]. unfold plan_files. apply in_map_iff. exists (n, ch). rewrite <- app_assoc. auto.
Qed.
Lemma output_ok s d f : snd (plan_output s d f) = Ok tt <-> writes installed w d f.
Proof.
  rewrite writes_iff. unfold plan_output. destruct (target_of f) as [tg|].
  2: { cbn [snd]. split; [discriminate|intros (tg & H & _); discriminate H]. }
  destruct (available installed f).
  2: { cbn [snd]. split; [intros _; exists tg; split; [reflexivity|discriminate]|reflexivity]. }
  destruct tg as [e|dir].
  - destruct (single w f d) as [c|x]; cbn [snd].
    + split; [intros _; exists (Single e); split; [reflexivity|eauto]|reflexivity].
    + split; [discriminate|]. intros (tg & H & H2). injection H as <-. destruct (H2 eq_refl) as (c & H). discriminate H.
  - rewrite then_ok. destruct (folder w f d) as [l|x]; cbn [snd].
    + split; [intros _; exists (Folder dir); split; [reflexivity|eauto]|auto].
    + split; [intros [_ H]; discriminate H|]. intros (tg & H & H2). injection H as <-. destruct (H2 eq_refl) as (l & H). discriminate H.
Qed.

Lemma in_outputs s d fs u : In u (fst (plan_outputs s d fs)) -> exists f, In f fs /\ In u (fst (plan_output s d f)).
Proof.
  induction fs as [|f fs IH]; cbn [plan_outputs]; [intros []|]. intros H. apply in_then in H as [H|[_ H]].
  - exists f. split; [now left|exact H]. - destruct (IH H) as (f' & Hf & Hu). exists f'. split; [now right|exact Hu].
Qed.
Lemma outputs_in s d fs f u : snd (plan_outputs s d fs) = Ok tt -> In f fs -> In u (fst (plan_output s d f)) -> In u (fst (plan_outputs s d fs)).
Proof.
  induction fs as [|f' fs IH]; cbn [plan_outputs]; [intros _ []|]. intros H Hi Hu. apply then_ok in H as [H1 H2].
  destruct Hi as [->|Hi]; [now apply in_then_l|]. apply in_then_r; auto.
Qed.
Lemma outputs_ok s d fs : snd (plan_outputs s d fs) = Ok tt <-> Forall (writes installed w d) fs.
Proof.
  induction fs as [|f fs IH]; cbn [plan_outputs]; [split; [constructor|reflexivity]|]. rewrite then_ok, output_ok, IH.
  split; [intros [H1 H2]; now constructor|]. intros H. inversion H; auto.
Qed.

Lemma in_real s q k : In (q, k) (fst (plan_real s)) -> exists d, j_data j s = Ok d /\
  ((q = rel_dir s /\ k = KDir) \/
   (exists dir f, In f (j_formats j) /\ target_of f = Some (Folder dir) /\ In dir folders /\ q = rel_dir s ++ [dir] /\ k = KDir) \/
   (exists f rel c, In f (j_formats j) /\ available installed f = true /\ belongs w rn d f rel c /\ q = rel_dir s ++ rel /\ k = KFile c)).
Proof.
  unfold plan_real. destruct (j_data j s) as [d|e]; [|intros []]. intros H. exists d. split; [reflexivity|].
  apply in_then in H as [[H|[]]|[_ H]]; [injection H as <- <-; auto|].
  apply in_outputs in H as (f & Hf & H). apply in_output in H as [(dir & H1 & H2 & H3 & H4)|(Ha & rel & c & H1 & H2 & H3)].
  - right. left. exists dir, f. auto.
  - right. right. exists f, rel, c. auto.
Qed.
Lemma real_ok s : snd (plan_real s) = Ok tt <-> goes_well installed w j s.
Proof.
  unfold plan_real, goes_well. destruct (j_data j s) as [d|e].
  - rewrite then_ok, outputs_ok. split; [intros [_ H]; eauto|]. intros (d' & H & H2). injection H as <-. auto.
  - split; [discriminate|intros (d & H & _); discriminate H].
Qed.
Lemma in_loop sims u : In u (fst (plan_loop sims)) -> exists s, In s sims /\ In u (fst (plan_real s)).
Proof.
  induction sims as [|s sims IH]; cbn [plan_loop]; [intros []|]. intros H. apply in_then in H as [H|[_ H]].
  - exists s. split; [now left|exact H]. - destruct (IH H) as (s' & Hs & Hu). exists s'. split; [now right|exact Hu].
Qed.
Lemma loop_ok sims : snd (plan_loop sims) = Ok tt <-> Forall (goes_well installed w j) sims.
Proof.
  induction sims as [|s sims IH]; cbn [plan_loop]; [split; [constructor|reflexivity]|]. rewrite then_ok, real_ok, IH.
  split; [intros [H1 H2]; now constructor|]. intros H. inversion H; auto.
Qed.
Lemma loop_in sims s rest u : Forall (goes_well installed w j) sims -> In s sims -> In u (fst (plan_real s)) -> In u (fst (plan_loop (sims ++ rest))).
Proof.
  induction sims as [|s' sims IH]; intros H Hi Hu; [destruct Hi|]. inversion H as [|? ? H1 H2]; subst. cbn [app plan_loop].
  destruct Hi as [->|Hi]; [now apply in_then_l|]. apply in_then_r; [now apply real_ok|]. auto.
Qed.

(** Different files do not meet. *)
Lemma belongs_path d f rel c : belongs w rn d f rel c -> rel <> [] /\ (forall dir, In dir folders -> rel <> [dir]) /\ rel <> [rn ++ backup_suffix].
Proof.
  intros H. apply belongs_iff in H as (tg & E & H). destruct tg as [e|dir].
  - destruct H as (ch & _ & -> & _). apply target_ext in E. split; [discriminate|]. split.
    + intros dir Hd H. apply (f_equal (hd [])) in H. cbn [hd] in H. apply (folder_no_dot dir Hd). rewrite <- H. now apply ext_dot.
    + intros H. apply (f_equal (hd [])) in H. cbn [hd] in H. now apply (ext_backup rn e E).
  - destruct H as (l & n & ch & _ & _ & -> & _). split; [discriminate|]. split; discriminate.
Qed.
Lemma nodup_content (l : list (pystr * list pystr)) n c c' : NoDup (map fst l) -> In (n, c) l -> In (n, c') l -> c = c'.
Proof.
  induction l as [|[m x] l IH]; cbn [map fst]; intros Hn H1 H2; [destruct H1|]. inversion Hn as [|? ? Hm Hn']; subst.
  destruct H1 as [H1|H1], H2 as [H2|H2]; [congruence| | |auto].
  - exfalso. apply Hm. injection H1 as -> _. apply in_map_iff. exists (n, c'). auto.
  - exfalso. apply Hm. injection H2 as -> _. apply in_map_iff. exists (n, c). auto.
Qed.
Lemma belongs_inj d f f' rel c c' : belongs w rn d f rel c -> belongs w rn d f' rel c' -> f = f' /\ c = c'.
Proof.
  intros H H'. apply belongs_iff in H as (tg & E & H). apply belongs_iff in H' as (tg' & E' & H').
  assert (Hff : forall e e', target_of f = Some e -> target_of f' = Some e' -> e = e' -> f = f').
  { intros e e' A A' ->. apply target_cases in A, A'.
    repeat destruct A as [A|A]; destruct A as [-> ->]; repeat destruct A' as [A'|A']; destruct A' as [-> A']; try reflexivity; discriminate A'. }
  destruct tg as [e|dir], tg' as [e'|dir'].
  - destruct H as (ch & H1 & H2 & ->), H' as (ch' & H1' & H2' & ->). rewrite H2 in H2'. apply (f_equal (hd [])) in H2'. cbn [hd] in H2'. apply app_inv_head in H2'.
    assert (f = f') as <- by (eapply Hff; eauto; congruence). split; [reflexivity|congruence].
  - destruct H as (ch & _ & -> & _), H' as (l & n & ch' & _ & _ & H & _). discriminate H.
  - destruct H as (l & n & ch' & _ & _ & -> & _), H' as (ch & _ & H & _). discriminate H.
  - destruct H as (l & n & ch & H1 & H2 & -> & ->), H' as (l' & n' & ch' & H1' & H2' & H3' & ->). apply (f_equal (fun p => (hd [] p, hd [] (tl p)))) in H3'. cbn [hd tl] in H3'.
    assert (dir = dir' /\ n = n') as [<- <-] by (split; congruence).
    assert (f = f') as <- by (eapply Hff; eauto). rewrite H1 in H1'. injection H1' as <-. split; [reflexivity|]. f_equal. eapply nodup_content; eauto. apply (Hw _ _ _ H1).
Qed.
Lemma rel_inj s s' p p' : In s (seq 1 N) -> In s' (seq 1 N) -> rel_dir s ++ p = rel_dir s' ++ p' -> s = s' /\ p = p'.
Proof.
  intros H H' E. apply in_seq in H, H'. unfold real_of in E. destruct (Nat.ltb_spec 1 N).
  - cbn [app] in E. injection E as E1 E2. split; [|exact E2]. apply format_inj. exact E1.
  - split; [lia|exact E].
Qed.

Lemma loop_file d s f rel c k sims rest : sims ++ rest = seq 1 N -> Forall (goes_well installed w j) sims -> In s sims ->
  j_data j s = Ok d -> In f (j_formats j) -> available installed f = true -> belongs w rn d f rel c ->
  In (rel_dir s ++ rel, k) (fst (plan_loop (seq 1 N))) -> k = KFile c.
Proof.
  intros Es Hg Hs Hd Hf Ha Hb H. apply in_loop in H as (s' & Hs' & H). apply in_real in H as (d' & Hd' & H).
  assert (Hss : In s (seq 1 N)) by (rewrite <- Es; apply in_app_iff; auto).
  destruct (belongs_path _ _ _ _ Hb) as (B1 & B2 & _).
  destruct H as [(E & _)|[(dir & f' & _ & _ & Hdir & E & _)|(f' & rel' & c' & Hf' & Ha' & Hb' & E & ->)]].
  - rewrite <- (app_nil_r (rel_dir s')) in E. apply rel_inj in E as [_ E]; auto. contradiction.
  - apply rel_inj in E as [_ E]; auto. now apply B2 in E.
  - apply rel_inj in E as [<- <-]; auto. rewrite Hd in Hd'. injection Hd' as <-. destruct (belongs_inj _ _ _ _ _ _ Hb Hb') as [_ ->]. reflexivity.
Qed.
Lemma loop_backup k : ~ In ([rn ++ backup_suffix], k) (fst (plan_loop (seq 1 N))).
Proof.
  intros H. apply in_loop in H as (s & Hs & H). apply in_real in H as (d & Hd & H).
  destruct H as [(E & _)|[(dir & f' & _ & _ & Hdir & E & _)|(f' & rel' & c' & Hf' & Ha' & Hb' & E & _)]].
  - apply (real_not_file s). rewrite <- E. now left.
  - apply (folder_not_file s dir Hdir). rewrite <- E. now left.
  - destruct (belongs_path _ _ _ _ Hb') as (B1 & B2 & B3). destruct (real_of_cases s) as [[HN El]|[HN El]]; rewrite El in E.
    + cbn [app] in E. apply (f_equal (@List.length _)) in E. cbn [List.length] in E. destruct rel'; [contradiction|discriminate E].
    + cbn [app] in E. now apply B3.
Qed.
End Run.
