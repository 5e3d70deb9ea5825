(** Proofs about the test case and the command line. *)
From Coq Require Import List ZArith Bool Ascii String Arith Lia.
From Verif Require Import Base ParseModel ConfigModel DirsModel DirsSpec DirsProofs DirsProofs2 OutputModel SimModel SimSpec SimProofs SimProofs2 TestCaseModel TestCaseSpec.
Import ListNotations.
Local Open Scope string_scope.
Local Open Scope list_scope.

(** ** Temporary directories *)

Lemma rmtree_touches R e t : under R e -> Forall (touches R) (rmtree_ops e t).
Proof.
  revert e. induction t as [c|l|es IH] using tree_ind2; intros e Hu.
  - simpl. constructor; simpl; auto.
  - simpl. constructor; simpl; auto.
  - simpl. apply Forall_app. split; [|constructor; simpl; auto].
    induction IH as [|[n u] es Hx IH IH2]; [constructor|].
    apply Forall_app. split; [|exact IH2]. apply Hx. now apply under_app.
Qed.

Lemma mkdtemp_ok tmp names t : real_dir t tmp ->
  (exists n, mkdtemp tmp names t = ([Mkdir (tmp ++ [n])], Ok (tmp ++ [n])) /\ In n names /\ kind_at t (tmp ++ [n]) = None /\ n <> S_ "..") \/
  mkdtemp tmp names t = ([], Err FileExistsError).
Proof.
  intros H. induction names as [|n r IH]; [now right|]. cbn [mkdtemp].
  rewrite os_mkdir_snoc, (real_dir_resolve _ _ H). destruct (proj1 (kind_dir _ _) (proj1 H)) as (es & E). rewrite E.
  assert (IH' : (exists m, mkdtemp tmp r t = ([Mkdir (tmp ++ [m])], Ok (tmp ++ [m])) /\ In m (n :: r) /\ kind_at t (tmp ++ [m]) = None /\ m <> S_ "..") \/
    mkdtemp tmp r t = ([], Err FileExistsError)).
  { destruct IH as [(m & E1 & E2 & E3)|E1]; [left; exists m; split; [exact E1|]; split; [now right|exact E3]|now right]. }
  destruct (pystr_eqb n (S_ "..")) eqn:En; [exact IH'|].
  destruct (entry es n) eqn:Ee; [exact IH'|]. left. exists n. split; [reflexivity|]. split; [now left|]. split.
  - apply kind_none. rewrite get_snoc, E. exact Ee.
  - now apply pystr_eqb_neq.
Qed.

Lemma mkdtemp_fresh tmp names t n : real_dir t tmp -> In n names -> n <> S_ ".." -> kind_at t (tmp ++ [n]) = None ->
  exists m, mkdtemp tmp names t = ([Mkdir (tmp ++ [m])], Ok (tmp ++ [m])).
Proof.
  intros H Hi Hn Hk. induction names as [|m r IH]; [destruct Hi|]. cbn [mkdtemp].
  rewrite os_mkdir_snoc, (real_dir_resolve _ _ H). destruct (proj1 (kind_dir _ _) (proj1 H)) as (es & E). rewrite E.
  destruct Hi as [->|Hi].
  - apply pystr_eqb_neq in Hn. rewrite Hn. apply kind_none in Hk. rewrite get_snoc, E in Hk. rewrite Hk. eauto.
  - destruct (pystr_eqb m (S_ "..")); [now apply IH|]. destruct (entry es m); [now apply IH|eauto].
Qed.

(** The new directory is empty. *)
Lemma fresh_shows t tmp n : real_dir t tmp -> n <> S_ ".." ->
  real_dir (do_ops t [Mkdir (tmp ++ [n])]) tmp /\ ~ In (S_ "..") (tmp ++ [n]) /\
  shows (tmp ++ [n]) (do_ops t [Mkdir (tmp ++ [n])]) (fun q => if path_dec q [] then Some KDir else None).
Proof.
  intros [H Hup] Hn. unfold do_ops. cbn [fold_left do_op]. split; [split; [|exact Hup]|split].
  - rewrite put_outside; [exact H|apply under_snoc_self].
  - intros Hi. apply in_app_iff in Hi as [Hi|[Hi|[]]]; [contradiction|congruence].
  - destruct (proj1 (kind_dir _ _) H) as (es & E). intros q. unfold kind_at. rewrite get_app.
    rewrite (get_put_some t tmp es n (Dir []) E). destruct (path_dec q []) as [->|Hq]; [reflexivity|].
    destruct q; [contradiction|reflexivity].
Qed.

Section Test.
Context {F D : Type} (fo : fops F) (trunc : F -> res Z) (model_init : config F -> list (pystr * Z) -> res (job D)).
Context (installed : pystr -> bool) (w : writers D) (p : inifile) (package selected tmp : path) (names : list pystr).
Notation run := (run_test fo trunc model_init installed w p package selected tmp names).

Lemma run_test_cases t cf rp ids j : parameters fo trunc p package (S_ "made.ini") selected = Ok (cf, rp) ->
  ae_ids cf = Ok ids -> model_init cf ids = Ok j -> plain_name (rp_runname rp) -> sound_writers w -> real_dir t tmp ->
  run t = ([], Err FileExistsError) /\ mkdtemp tmp names t = ([], Err FileExistsError) \/
  exists n o, In n names /\ mkdtemp tmp names t = ([Mkdir (tmp ++ [n])], Ok (tmp ++ [n])) /\ kind_at t (tmp ++ [n]) = None /\
    Forall (touches (tmp ++ [n])) o /\
    ((Forall (goes_well installed w j) (seq 1 (j_numsim j)) /\ run t = (o, Ok tt) /\ (forall q, kind_at (do_ops t o) (tmp ++ [n] ++ q) = None)) \/
     (~ Forall (goes_well installed w j) (seq 1 (j_numsim j)) /\ (exists e, run t = (o, Err e)) /\ kind_at (do_ops t o) (tmp ++ [n]) = Some KDir)).
Proof.
  intros Hpar Hids Hj Hrn Hw Htmp. unfold run_test, setup_test. rewrite Hpar, Hids, Hj.
  destruct (mkdtemp_ok tmp names t Htmp) as [(n & E & Hi & Hk & Hn)|E].
  2:{ left. split; [|exact E]. unfold andthen. rewrite E. reflexivity. }
  right. exists n. destruct (fresh_shows t tmp n Htmp Hn) as (Ht1 & Hup & Hs).
  set (t1 := do_ops t [Mkdir (tmp ++ [n])]) in *.
  set (rp1 := mkPaths (rp_runname rp) (rp_modeldir rp) (tmp ++ [n])).
  set (fm := fun q : path => if path_dec q [] then Some KDir else None) in *.
  assert (Hty : typed (is_file_path rp1 j) fm).
  { intros q k. unfold fm. destruct (path_dec q []) as [->|]; [intros [= <-]; apply root_not_file|discriminate]. }
  assert (Hfm : fm [] = Some KDir) by (unfold fm; now destruct (path_dec [] [])).
  destruct (runs_loop installed w rp1 j Hw Hrn Hup fm (seq 1 (j_numsim j)) Hty Hfm) as [Hpl HL].
  destruct (HL _ Hs) as (o & Eo & Ho & Hs').
  assert (Hd : kind_at (do_ops t1 o) (tmp ++ [n]) = Some KDir).
  { rewrite <- (app_nil_r (tmp ++ [n])). change (tmp ++ [n]) with (rp_rundir rp1). rewrite Hs'.
    apply (dir_stays (is_file_path rp1 j)); [exact Hpl|apply root_not_file|exact Hfm]. }
  assert (Hmk : Forall (touches (tmp ++ [n])) [Mkdir (tmp ++ [n])]) by (repeat constructor; apply under_refl).
  destruct (snd (plan_loop installed w rp1 j (seq 1 (j_numsim j)))) as [[]|e] eqn:Ep.
  - pose proof (proj1 (loop_ok installed w rp1 j (seq 1 (j_numsim j))) Ep) as Hgw.
    assert (Ht2 : real_dir (do_ops t1 o) tmp).
    { split; [|apply Htmp]. rewrite (do_ops_touches (tmp ++ [n])); [apply Ht1|exact Ho|apply under_snoc_self]. }
    destruct (proj1 (kind_dir _ _) Hd) as (es & Ees).
    exists ([Mkdir (tmp ++ [n])] ++ o ++ rmtree_ops (tmp ++ [n]) (Dir es)). split; [exact Hi|]. split; [exact E|]. split; [exact Hk|].
    assert (Hrm : Forall (touches (tmp ++ [n])) (rmtree_ops (tmp ++ [n]) (Dir es))) by (apply rmtree_touches, under_refl).
    split; [apply Forall_app; split; [exact Hmk|apply Forall_app; split; assumption]|]. left. split; [exact Hgw|]. split.
    + unfold andthen at 1. unfold andthen at 1. rewrite E. unfold ret. cbn [fst snd app]. cbv beta iota. rewrite ?app_nil_r.
      fold t1. fold rp1. unfold andthen at 1. rewrite Eo. cbv beta iota.
      assert (Hres : resolve (do_ops t1 o) (tmp ++ [n]) = Some (tmp ++ [n])).
      { apply (resolve_real _ _ (Dir es)); [exact Ees|discriminate|exact Hup]. }
      change (rp_rundir rp1) with (tmp ++ [n]). unfold exists_. rewrite Hres.
      unfold rmtree, place. rewrite removelast_snoc, last_last, (real_dir_resolve _ _ Ht2).
      destruct (proj1 (kind_dir _ _) (proj1 Ht2)) as (es2 & ->). rewrite Ees. reflexivity.
    + intros q. rewrite app_assoc, do_ops_app. fold t1. rewrite do_ops_app.
      destruct (rmtree_last (tmp ++ [n]) (Dir es)) as (l & x & -> & Hx). rewrite do_ops_app. apply kind_none.
      destruct Hx as [-> | ->]; (apply get_put_none; [apply snoc_nonnil|exists q; apply app_assoc]).
  - assert (Hgw : ~ Forall (goes_well installed w j) (seq 1 (j_numsim j))).
    { intros Hg. apply (proj2 (loop_ok installed w rp1 j (seq 1 (j_numsim j)))) in Hg. congruence. }
    exists ([Mkdir (tmp ++ [n])] ++ o). split; [exact Hi|]. split; [exact E|]. split; [exact Hk|].
    split; [apply Forall_app; split; assumption|]. right. split; [exact Hgw|]. split.
    + exists e. unfold andthen at 1. unfold andthen at 1. rewrite E. unfold ret. cbn [fst snd app]. cbv beta iota. rewrite ?app_nil_r.
      fold t1. fold rp1. unfold andthen at 1. rewrite Eo. reflexivity.
    + rewrite do_ops_app. exact Hd.
Qed.
End Test.

(** ** The command line *)
Lemma pystr_eqb_refl s : pystr_eqb s s = true.
Proof. now apply pystr_eqb_eq. Qed.
Lemma is_prefix_iff s e : is_prefix s e = true <-> exists b, s ++ b = e.
Proof.
  unfold is_prefix. rewrite pystr_eqb_eq. split.
  - intros E. exists (skipn (List.length s) e). rewrite E at 1. apply firstn_skipn.
  - intros (b & <-). rewrite firstn_app, Nat.sub_diag, firstn_all. cbn. now rewrite app_nil_r.
Qed.
Lemma before_eq_none s : ~ In "="%char s -> before_eq s = (s, false).
Proof.
  induction s as [|c s IH]; intros H; [reflexivity|]. cbn [before_eq].
  destruct (Ascii.eqb_spec c "="%char) as [->|Hc]; [destruct H; now left|]. rewrite IH; [reflexivity|]. intros Hi. apply H. now right.
Qed.
Lemma before_eq_false s a : before_eq s = (a, false) -> a = s.
Proof.
  revert a; induction s as [|c s IH]; intros a; cbn [before_eq]; [congruence|].
  destruct (Ascii.eqb c "="%char); [discriminate|]. destruct (before_eq s) as [a' b]. intros [= <- ->]. f_equal. now apply IH.
Qed.
Lemma after_h_cases s : after_h s = AHelp \/ after_h s = AValue.
Proof.
  induction s as [|c s IH]; [now left|]. cbn [after_h]. destruct (_ || _); [now right|]. destruct (Ascii.eqb _ _); [exact IH|now left].
Qed.
Lemma unknown_cases s : unknown s = AWord s \/ unknown s = AUnknown.
Proof. unfold unknown. destruct (existsb _ _); auto. Qed.

Lemma classify_flag s : overwrite_option s <-> classify s = AFlag.
Proof.
  split.
  - intros (a & b & Ha & Hab & ->). destruct a as [|c a]; [contradiction|].
    change (classify (S_ "--" ++ c :: a)) with
      (let (name, val) := before_eq (c :: a) in
       if pystr_eqb name [] then AAmbiguous
       else if is_prefix name (S_ "overwrite") then (if val then AValue else AFlag)
       else if is_prefix name (S_ "help") then (if val then AValue else AHelp) else unknown (S_ "--" ++ c :: a)).
    rewrite before_eq_none.
    + change (pystr_eqb (c :: a) []) with false. rewrite (proj2 (is_prefix_iff (c :: a) (S_ "overwrite"))); [reflexivity|now exists b].
    + intros Hi. assert (H : In "="%char (S_ "overwrite")) by (rewrite <- Hab; apply in_app_iff; now left).
      vm_compute in H. repeat destruct H as [H|H]; try discriminate H; contradiction.
  - unfold classify. destruct s as [|c s]; [discriminate|]. destruct (Ascii.eqb_spec c "-"%char) as [->|]; [|discriminate].
    destruct s as [|c2 s]; [discriminate|]. destruct (Ascii.eqb_spec c2 "-"%char) as [->|].
    + destruct s as [|c3 s]; [discriminate|]. destruct (before_eq (c3 :: s)) as [a v] eqn:E.
      destruct (pystr_eqb a []) eqn:Ea; [discriminate|]. destruct (is_prefix a (S_ "overwrite")) eqn:Ep.
      * destruct v; [discriminate|]. intros _. apply before_eq_false in E. subst a. apply is_prefix_iff in Ep as (b & Hb).
        exists (c3 :: s), b. split; [discriminate|]. split; [exact Hb|reflexivity].
      * destruct (is_prefix a (S_ "help")); [destruct v; discriminate|]. destruct (unknown_cases ("-"%char :: "-"%char :: c3 :: s)) as [-> | ->]; discriminate.
    + destruct (Ascii.eqb c2 "h"%char); [destruct (after_h_cases s) as [-> | ->]; discriminate|].
      destruct (negative _); [discriminate|]. destruct (unknown_cases ("-"%char :: c2 :: s)) as [-> | ->]; discriminate.
Qed.
Lemma classify_file s : file_word s -> classify s = AWord s.
Proof.
  destruct s as [|c s]; [reflexivity|]. cbn [file_word classify]. intros H. now destruct (Ascii.eqb_spec c "-"%char).
Qed.
Lemma classify_word s x : classify s = AWord x -> x = s.
Proof.
  unfold classify. destruct s as [|c s]; [congruence|]. destruct (Ascii.eqb c "-"%char); [|congruence].
  destruct s as [|c2 s]; [congruence|]. destruct (Ascii.eqb c2 "-"%char).
  - destruct s as [|c3 s]; [discriminate|]. destruct (before_eq (c3 :: s)) as [a v]. destruct (pystr_eqb a []); [discriminate|].
    destruct (is_prefix a (S_ "overwrite")); [destruct v; discriminate|]. destruct (is_prefix a (S_ "help")); [destruct v; discriminate|].
    unfold unknown. destruct (existsb _ _); [congruence|discriminate].
  - destruct (Ascii.eqb c2 "h"%char); [destruct (after_h_cases s) as [-> | ->]; discriminate|].
    destruct (negative _); [congruence|]. unfold unknown. destruct (existsb _ _); [congruence|discriminate].
Qed.
Lemma classify_sep s : classify s = ASep -> s = S_ "--".
Proof.
  unfold classify. destruct s as [|c s]; [discriminate|]. destruct (Ascii.eqb_spec c "-"%char) as [->|]; [|discriminate].
  destruct s as [|c2 s]; [discriminate|]. destruct (Ascii.eqb_spec c2 "-"%char) as [->|].
  - destruct s as [|c3 s]; [reflexivity|]. destruct (before_eq (c3 :: s)) as [a v]. destruct (pystr_eqb a []); [discriminate|].
    destruct (is_prefix a (S_ "overwrite")); [destruct v; discriminate|]. destruct (is_prefix a (S_ "help")); [destruct v; discriminate|].
    unfold unknown. destruct (existsb _ _); discriminate.
  - destruct (Ascii.eqb c2 "h"%char); [destruct (after_h_cases s) as [-> | ->]; discriminate|].
    destruct (negative _); [discriminate|]. unfold unknown. destruct (existsb _ _); discriminate.
Qed.

Lemma usage_plain args ow file : usage args ow file -> Forall (fun s => classify s = AFlag \/ classify s = AWord s) args.
Proof.
  induction 1 as [|s args ow file Hs _ IH|f args ow Hf _ IH]; constructor; auto.
  - left. now apply classify_flag. - right. now apply classify_file.
Qed.
Lemma plain_not_ambiguous args : Forall (fun s => classify s = AFlag \/ classify s = AWord s) args -> ambiguous args = false.
Proof. induction 1 as [|s args Hs _ IH]; [reflexivity|]. cbn [ambiguous]. now destruct Hs as [-> | ->]. Qed.
Lemma plain_not_sep args : Forall (fun s => classify s = AFlag \/ classify s = AWord s) args -> is_sep args = false.
Proof. intros H. destruct H as [|s args Hs H]; [reflexivity|]. destruct H; [|reflexivity]. cbn. now destruct Hs as [-> | ->]. Qed.

Lemma consume_usage args ow file : usage args ow file -> forall ow0,
  consume ow0 None false args = PRun (ow0 || ow) file /\
  (file = None -> forall f, consume ow0 (Some f) false args = PRun (ow0 || ow) (Some f)).
Proof.
  induction 1 as [|s args ow file Hs Hu IH|f args ow Hf Hu IH]; intros ow0.
  - cbn [consume]. rewrite orb_false_r. split; [reflexivity|]. intros _ f. reflexivity.
  - cbn [consume]. rewrite (proj1 (classify_flag s) Hs). destruct (IH true) as [IH1 IH2]. rewrite IH1. rewrite orb_true_r. split; [reflexivity|].
    intros E f. now apply IH2.
  - cbn [consume]. rewrite (classify_file f Hf). rewrite (plain_not_sep args (usage_plain _ _ _ Hu)).
    split; [|discriminate]. now apply IH.
Qed.

Lemma consume_run args : forall ow0 file0 ex ow file, consume ow0 file0 ex args = PRun ow file ->
  ex = false /\ (ow = true -> ow0 = true \/ exists s, In s args /\ overwrite_option s) /\
  (ow0 = true -> ow = true) /\
  (forall f, file0 = Some f -> file = Some f) /\
  (forall f, file = Some f -> file0 = Some f \/ In f args) /\
  Forall (fun s => overwrite_option s \/ s = S_ "--" \/ file = Some s) args.
Proof.
  induction args as [|s r IH]; intros ow0 file0 ex ow file.
  - cbn [consume]. destruct ex; [discriminate|]. intros [= <- <-]. repeat split; auto.
  - cbn [consume]. destruct (classify s) eqn:E.
    + intros H. apply IH in H as (H1 & H2 & H3 & H4 & H5 & H6). apply classify_flag in E. split; [exact H1|].
      split; [intros _; right; exists s; split; [now left|exact E]|]. split; [auto|]. split; [exact H4|].
      split; [intros f Hf; destruct (H5 f Hf); [now left|right; now right]|]. constructor; auto.
    + discriminate.
    + apply classify_word in E as E'. subst s0. destruct file0 as [g|].
      * intros H. apply IH in H as (H1 & _). discriminate H1.
      * destruct (is_sep r) eqn:Er.
        -- destruct ex; [discriminate|]. intros [= <- <-]. split; [reflexivity|]. split; [auto|]. split; [auto|]. split; [discriminate|].
           split; [intros f [= <-]; right; now left|]. destruct r as [|s2 [|]]; [discriminate| |discriminate]. cbn in Er.
           destruct (classify s2) eqn:E2; try discriminate. apply classify_sep in E2. apply Forall_cons; [auto|]. apply Forall_cons; [auto|apply Forall_nil].
        -- intros H. apply IH in H as (H1 & H2 & H3 & H4 & H5 & H6). split; [exact H1|].
           split; [intros Ho; destruct (H2 Ho) as [Hx|(x & Hx & Hx')]; [now left|right; exists x; split; [now right|exact Hx']]|].
           split; [exact H3|]. split; [discriminate|]. pose proof (H4 _ eq_refl) as ->.
           split; [intros f [= <-]; right; now left|]. constructor; auto.
    + apply classify_sep in E as ->. destruct file0 as [g|]; [destruct r as [|? [|]]; discriminate|].
      destruct r as [|x [|]]; [| |discriminate]; (destruct ex; [discriminate|]); intros [= <- <-].
      * split; [reflexivity|]. split; [auto|]. split; [auto|]. split; [discriminate|]. split; [discriminate|]. apply Forall_cons; [auto|apply Forall_nil].
      * split; [reflexivity|]. split; [auto|]. split; [auto|]. split; [discriminate|].
        split; [intros f [= <-]; right; right; now left|]. apply Forall_cons; [auto|]. apply Forall_cons; [auto|apply Forall_nil].
    + intros H. apply IH in H as (H1 & _). discriminate H1.
    + discriminate.
    + discriminate.
Qed.
