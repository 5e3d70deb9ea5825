(** Commands that write below the run directory, as updates of a finite map. *)
From Coq Require Import List ZArith Bool Ascii String Arith Lia.
From Verif Require Import Base ParseModel ConfigModel DirsModel DirsSpec DirsProofs DirsProofs2 OutputModel SimModel SimSpec.
Import ListNotations.
Local Open Scope list_scope.

Lemma path_dec (p q : path) : {p = q} + {p <> q}.
Proof. apply list_eq_dec. exact pystr_dec. Qed.

Lemma get_below t p x r : (forall es, get t p <> Some (Dir es)) -> get t (p ++ x :: r) = None.
Proof.
  intros H. rewrite get_app. destruct (get t p) as [[c|l|es]|]; try reflexivity. now destruct (H es).
Qed.

Lemma write_over t R n chunks : real_dir t R ->
  kind_at t (R ++ [n]) = None \/ (exists c, kind_at t (R ++ [n]) = Some (KFile c)) ->
  exists o, write_file (R ++ [n]) chunks t = (o, Ok tt) /\ Forall (touches (R ++ [n])) o /\
    get (do_ops t o) (R ++ [n]) = Some (File (List.concat chunks)) /\
    (forall q, ~ under (R ++ [n]) q -> kind_at (do_ops t o) q = kind_at t q).
Proof.
  intros H Hk. unfold write_file.
  assert (Hl : locate 40 t (R ++ [n]) = Ok (R ++ [n])).
  { cbn [locate]. rewrite (place_real _ _ _ H). unfold kind_at in Hk.
    destruct (get t (R ++ [n])) as [[c|l|es]|]; try reflexivity; destruct Hk as [Hk|(c & Hk)]; discriminate Hk. }
  rewrite Hl. eexists. split; [reflexivity|].
  split. { constructor; [apply under_refl|]. apply Forall_forall. intros o Ho. apply in_map_iff in Ho as (c & <- & _). apply under_refl. }
  destruct H as [H Hn]. apply kind_dir in H as (es & H).
  unfold do_ops. cbn [fold_left do_op]. set (t1 := put t (R ++ [n]) (Some (File []))).
  assert (Hp1 : exists es1, get t1 R = Some (Dir es1)).
  { apply kind_dir. unfold t1. rewrite put_outside by apply under_snoc_self. apply kind_dir. eauto. }
  destruct Hp1 as (es1 & Hp1).
  assert (H1 : get t1 (R ++ [n]) = Some (File [])) by (unfold t1; eapply get_put_some; eauto).
  destruct (append_all t1 _ [] chunks R es1 n eq_refl Hp1 H1) as [H2 H3]. split; [exact H2|].
  intros q Hq. unfold do_ops in H3. rewrite H3 by assumption. unfold t1. now apply put_outside.
Qed.

Definition fmap := path -> option kind.
Definition upd (fm : fmap) (u : path * kind) : fmap := fun q => if path_dec q (fst u) then Some (snd u) else fm q.
Definition upds (fm : fmap) (l : list (path * kind)) : fmap := fold_left upd l fm.
Lemma upds_app fm l l' : upds fm (l ++ l') = upds (upds fm l) l'.
Proof. apply fold_left_app. Qed.

Lemma upds_none fm l q : (forall k, ~ In (q, k) l) -> upds fm l q = fm q.
Proof.
  revert fm; induction l as [|[p k] l IH]; intros fm H; [reflexivity|]. cbn [upds fold_left]. fold (upds (upd fm (p, k)) l).
  rewrite IH. - unfold upd. cbn [fst]. destruct (path_dec q p) as [->|]; [|reflexivity]. exfalso. apply (H k). now left.
  - intros k' Hk. apply (H k'). now right.
Qed.
Lemma upds_in fm l q k : In (q, k) l -> (forall k', In (q, k') l -> k' = k) -> upds fm l q = Some k.
Proof.
  revert fm; induction l as [|[p k0] l IH]; intros fm Hi Hu; [destruct Hi|]. cbn [upds fold_left]. fold (upds (upd fm (p, k0)) l).
  assert (Hd : (exists k', In (q, k') l) \/ (forall k', ~ In (q, k') l)).
  { clear. induction l as [|[p1 k1] l IH]; [right; intros ? []|]. destruct (path_dec q p1) as [->|Hn]; [left; eexists; now left|].
    destruct IH as [(k' & H)|H]; [left; eexists; right; eassumption|]. right. intros k' [E|E]; [congruence|]. now apply (H k'). }
  destruct Hd as [(k' & Hd)|Hd].
  - apply IH; [|intros k2 H2; apply Hu; now right]. rewrite <- (Hu k'); [exact Hd|now right].
  - rewrite upds_none by exact Hd. unfold upd. cbn [fst snd]. destruct Hi as [Hi|Hi]; [|now destruct (Hd k)].
    injection Hi as -> ->. now destruct (path_dec q q).
Qed.
Lemma upds_some fm l q k : upds fm l q = Some k -> fm q = Some k \/ In (q, k) l.
Proof.
  revert fm; induction l as [|[p k0] l IH]; intros fm H; [now left|]. cbn [upds fold_left] in H. fold (upds (upd fm (p, k0)) l) in H.
  apply IH in H as [H|H]; [|right; now right]. unfold upd in H. cbn [fst snd] in H. destruct (path_dec q p) as [->|]; [|now left].
  right. left. congruence.
Qed.

Section Below.
Context (R : path) (Rok : ~ In (S_ "..") R) (fileT : path -> Prop).

Definition shows (t : tree) (fm : fmap) : Prop := forall q, kind_at t (R ++ q) = fm q.
Definition typed_at (q : path) (k : kind) : Prop :=
  match k with KDir => ~ fileT q | KFile _ => fileT q | KLink _ => False end.
Definition typed (fm : fmap) : Prop := forall q k, fm q = Some k -> typed_at q k.

Definition plan := (list (path * kind) * res unit)%type.
Definition then_plan (p1 p2 : plan) : plan :=
  match snd p1 with Ok _ => (fst p1 ++ fst p2, snd p2) | Err e => (fst p1, Err e) end.

Definition runs (m : cmd unit) (fm : fmap) (p : plan) : Prop :=
  Forall (fun u => typed_at (fst u) (snd u)) (fst p) /\
  forall t, shows t fm -> exists o, m t = (o, snd p) /\ Forall (touches R) o /\ shows (do_ops t o) (upds fm (fst p)).

Lemma runs_then m1 m2 fm p1 p2 : runs m1 fm p1 -> (snd p1 = Ok tt -> runs m2 (upds fm (fst p1)) p2) ->
  runs (do* _ := m1 in m2) fm (then_plan p1 p2).
Proof.
  intros [T1 H1] H2. unfold then_plan. destruct p1 as [l1 r1]; cbn [fst snd] in *. destruct r1 as [[]|e].
  - destruct (H2 eq_refl) as [T2 H2']. split; [apply Forall_app; split; assumption|]. intros t Ht.
    destruct (H1 t Ht) as (o1 & E1 & F1 & S1). destruct (H2' _ S1) as (o2 & E2 & F2 & S2).
    exists (o1 ++ o2). unfold andthen. rewrite E1, E2. split; [reflexivity|]. split; [apply Forall_app; auto|].
    rewrite do_ops_app. cbn [fst]. now rewrite upds_app.
  - split; [exact T1|]. intros t Ht. destruct (H1 t Ht) as (o1 & E1 & F1 & S1). exists o1. unfold andthen. rewrite E1. auto.
Qed.
Lemma runs_ret fm : runs (ret tt) fm ([], Ok tt).
Proof. split; [constructor|]. intros t Ht. exists []. repeat split; [constructor|exact Ht]. Qed.
Lemma runs_raise fm e : runs (raise e) fm ([], Err e).
Proof. split; [constructor|]. intros t Ht. exists []. repeat split; [constructor|exact Ht]. Qed.

Lemma typed_upds fm l : typed fm -> Forall (fun u => typed_at (fst u) (snd u)) l -> typed (upds fm l).
Proof.
  intros H Hl q k E. apply upds_some in E as [E|E]; [now apply H|]. rewrite Forall_forall in Hl. exact (Hl _ E).
Qed.
Lemma dir_stays fm l q : Forall (fun u => typed_at (fst u) (snd u)) l -> ~ fileT q -> fm q = Some KDir -> upds fm l q = Some KDir.
Proof.
  intros Hl Hq H. revert fm H; induction Hl as [|[p k] l Hu Hl IH]; intros fm H; [exact H|]. cbn [upds fold_left].
  apply IH. unfold upd. cbn [fst snd] in *. destruct (path_dec q p) as [->|]; [|exact H].
  destruct k; cbn in Hu; [contradiction|contradiction|reflexivity].
Qed.

Lemma below_real t fm p : shows t fm -> ~ In (S_ "..") p -> fm p = Some KDir -> real_dir t (R ++ p).
Proof. intros H Hp E. split; [now rewrite H|]. intros Hi. apply in_app_iff in Hi. tauto. Qed.

Lemma shows_upd t t' fm p n k : shows t fm -> (forall q, ~ under (R ++ p ++ [n]) q -> kind_at t' q = kind_at t q) ->
  kind_at t' (R ++ p ++ [n]) = Some k -> (forall x r, kind_at t (R ++ (p ++ [n]) ++ x :: r) = None /\ kind_at t' (R ++ (p ++ [n]) ++ x :: r) = None) ->
  shows t' (upd fm (p ++ [n], k)).
Proof.
  intros Hs Ho Hk Hb q. unfold upd. cbn [fst snd]. destruct (path_dec q (p ++ [n])) as [->|Hq]; [exact Hk|]. rewrite <- Hs.
  assert (Hd : (exists r, q = (p ++ [n]) ++ r) \/ ~ (exists r, q = (p ++ [n]) ++ r)).
  { clear. generalize (p ++ [n]) as a. clear. intros a; revert q; induction a as [|x a IH]; intros q; [left; now exists q|].
    destruct q as [|y q]; [right; intros (r & E); discriminate E|]. destruct (pystr_dec y x) as [->|Hn].
    - destruct (IH q) as [(r & ->)|H]; [left; now exists r|]. right. intros (r & E). injection E as ->. apply H. now exists r.
    - right. intros (r & E). cbn in E. congruence. }
  destruct Hd as [(r & ->)|Hd].
  - destruct r as [|x r]; [now rewrite app_nil_r in Hq|]. now rewrite (proj1 (Hb x r)), (proj2 (Hb x r)).
  - apply Ho. intros (r & E). apply Hd. exists r. rewrite <- app_assoc in E. now apply app_inv_head in E.
Qed.

Lemma touches_below p l : Forall (touches (R ++ p)) l -> Forall (touches R) l.
Proof.
  intros H. eapply Forall_impl; [|exact H]. intros o Ho. destruct o; cbn in *; destruct Ho as (r & ->); exists (p ++ r); now rewrite app_assoc.
Qed.

Lemma runs_write fm p n chunks : typed fm -> fm p = Some KDir -> ~ In (S_ "..") p -> fileT (p ++ [n]) ->
  runs (write_file (R ++ p ++ [n]) chunks) fm ([(p ++ [n], KFile (List.concat chunks))], Ok tt).
Proof.
  intros Hty Hd Hp Hf. split; [repeat constructor; exact Hf|]. intros t Ht.
  pose proof (below_real t fm p Ht Hp Hd) as HR.
  assert (Hk : kind_at t ((R ++ p) ++ [n]) = None \/ (exists c, kind_at t ((R ++ p) ++ [n]) = Some (KFile c))).
  { rewrite <- app_assoc, Ht. destruct (fm (p ++ [n])) as [k|] eqn:E; [|now left]. right. pose proof (Hty _ _ E) as Hk.
    destruct k as [c|l|]; cbn in Hk; [exists c; rewrite Ht; exact E|contradiction|contradiction]. }
  destruct (write_over t (R ++ p) n chunks HR Hk) as (o & H1 & H2 & H3 & H4). rewrite <- app_assoc in H1, H2, H3, H4.
  exists o. split; [exact H1|]. split; [now apply touches_below with (p := p ++ [n])|].
  cbn [fst upds fold_left]. eapply shows_upd; [exact Ht|exact H4|unfold kind_at; now rewrite H3|].
  intros x r. rewrite !app_assoc, <- (app_assoc R), !kind_none. split; apply get_below; intros es E.
  - rewrite <- app_assoc in Hk. unfold kind_at in Hk. rewrite E in Hk. destruct Hk as [Hk|(c & Hk)]; discriminate Hk.
  - rewrite H3 in E. discriminate E.
Qed.

Lemma runs_mkdir fm p n : typed fm -> fm p = Some KDir -> ~ In (S_ "..") p -> n <> S_ ".." -> ~ fileT (p ++ [n]) ->
  runs (mkdirs (R ++ p ++ [n])) fm ([(p ++ [n], KDir)], Ok tt).
Proof.
  intros Hty Hd Hp Hn Hf. split; [repeat constructor; exact Hf|]. intros t Ht.
  pose proof (below_real t fm p Ht Hp Hd) as HR. cbn [fst snd upds fold_left].
  destruct (fm (p ++ [n])) as [k|] eqn:E.
  - pose proof (Hty _ _ E) as Hk. destruct k as [c|l|]; cbn in Hk; [contradiction|contradiction|].
    exists []. split; [|split; [constructor|]].
    + apply mkdirs_existing. unfold is_dir. rewrite (real_dir_resolve t (R ++ p ++ [n])).
      * rewrite <- Ht in E. apply kind_dir in E as (es & ->). reflexivity.
      * apply (below_real t fm); [exact Ht| |exact E]. intros Hi. apply in_app_iff in Hi as [Hi|[Hi|[]]]; [tauto|congruence].
    + intros q. cbn [do_ops fold_left]. rewrite Ht. unfold upd. cbn [fst snd]. destruct (path_dec q (p ++ [n])) as [->|]; [exact E|reflexivity].
  - pose proof (proj1 (kind_dir t (R ++ p)) (proj1 HR)) as (es & He).
    assert (Hen : entry es n = None).
    { rewrite <- Ht in E. apply kind_none in E. rewrite app_assoc, get_snoc, He in E. exact E. }
    exists [Mkdir (R ++ p ++ [n])]. split; [|split].
    + unfold mkdirs. destruct (List.length (R ++ p ++ [n])); cbn [mkdirs_n]; rewrite app_assoc, os_mkdir_snoc, (real_dir_resolve _ _ HR), He;
        (destruct (pystr_eqb n (S_ "..")) eqn:En; [apply pystr_eqb_eq in En; contradiction|]); rewrite Hen; reflexivity.
    + repeat constructor. exists (p ++ [n]). reflexivity.
    + cbn [do_ops fold_left do_op].
      assert (Hg : get (put t (R ++ p ++ [n]) (Some (Dir []))) (R ++ p ++ [n]) = Some (Dir [])) by (rewrite app_assoc; eapply get_put_some; eauto).
      eapply shows_upd; [exact Ht|intros q Hq; now apply put_outside|unfold kind_at; now rewrite Hg|].
      intros x r. rewrite !app_assoc, <- (app_assoc R), !kind_none. split.
      * apply get_below. intros es' E'. rewrite <- Ht in E. apply kind_none in E. congruence.
      * rewrite get_app, Hg. reflexivity.
Qed.
Lemma runs_mkdir_here fm : typed fm -> fm [] = Some KDir -> ~ fileT [] -> runs (mkdirs R) fm ([([], KDir)], Ok tt).
Proof.
  intros Hty Hd Hf. split; [repeat constructor; exact Hf|]. intros t Ht. exists []. split; [|split; [constructor|]].
  - apply mkdirs_existing. pose proof (below_real t fm [] Ht (fun x => x) Hd) as HR. rewrite app_nil_r in HR.
    unfold is_dir. rewrite (real_dir_resolve _ _ HR). destruct HR as [HR _]. apply kind_dir in HR as (es & ->). reflexivity.
  - intros q. cbn [do_ops fold_left fst upds]. rewrite Ht. unfold upd. cbn [fst snd]. destruct (path_dec q []) as [->|]; [exact Hd|reflexivity].
Qed.
End Below.
