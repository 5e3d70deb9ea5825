(** Lemmas about the file system model. *)
From Coq Require Import List ZArith Bool Ascii String Lia.
From Verif Require Import Base ParseModel ConfigModel DirsModel DirsSpec.
Import ListNotations.
Local Open Scope string_scope.
Local Open Scope list_scope.

(** ** Entries, get and put *)
Lemma entry_set_same es n t : entry (set_entry es n t) n = Some t.
Proof.
  induction es as [|[m u] es IH]; simpl; [now rewrite pystr_eqb_refl|].
  destruct (pystr_eqb n m) eqn:E; simpl; rewrite E; auto.
Qed.
Lemma entry_set_other es n m t : n <> m -> entry (set_entry es n t) m = entry es m.
Proof.
  intros H. induction es as [|[k u] es IH]; simpl.
  - destruct (pystr_eqb m n) eqn:E; [apply pystr_eqb_eq in E; congruence|reflexivity].
  - destruct (pystr_eqb n k) eqn:E; simpl; destruct (pystr_eqb m k) eqn:E2; auto.
    apply pystr_eqb_eq in E, E2. congruence.
Qed.
Lemma entry_del_same es n : entry (del_entry es n) n = None.
Proof.
  induction es as [|[m u] es IH]; simpl; [reflexivity|].
  destruct (pystr_eqb n m) eqn:E; simpl; [auto|]. now rewrite E.
Qed.
Lemma entry_del_other es n m : n <> m -> entry (del_entry es n) m = entry es m.
Proof.
  intros H. induction es as [|[k u] es IH]; simpl; [reflexivity|].
  destruct (pystr_eqb n k) eqn:E; simpl; destruct (pystr_eqb m k) eqn:E2; auto.
  apply pystr_eqb_eq in E, E2. congruence.
Qed.
Lemma entry_In es n t : entry es n = Some t -> In n (map fst es).
Proof.
  induction es as [|[m u] es IH]; simpl; [discriminate|].
  destruct (pystr_eqb n m) eqn:E; [apply pystr_eqb_eq in E; now left|auto].
Qed.

Lemma get_app t p q : get t (p ++ q) = match get t p with Some u => get u q | None => None end.
Proof.
  revert t; induction p as [|n p IH]; intros t; simpl; [reflexivity|].
  destruct t; auto. destruct (entry entries n); auto.
Qed.
Lemma get_snoc t p n : get t (p ++ [n]) =
  match get t p with Some (Dir es) => entry es n | _ => None end.
Proof.
  rewrite get_app. destruct (get t p) as [u|]; [|reflexivity]. destruct u; simpl; auto.
  destruct (entry entries n); reflexivity.
Qed.

Lemma kind_at_eq t t' p : get t p = get t' p -> kind_at t p = kind_at t' p.
Proof. unfold kind_at. now intros ->. Qed.
Lemma kind_none t p : kind_at t p = None <-> get t p = None.
Proof. unfold kind_at. destruct (get t p) as [[]|]; split; congruence. Qed.
Lemma kind_dir t p : kind_at t p = Some KDir <-> exists es, get t p = Some (Dir es).
Proof.
  unfold kind_at. destruct (get t p) as [[]|]; split; try congruence; try (intros (? & [=])); eauto.
Qed.

Lemma under_refl p : under p p.
Proof. exists []. now rewrite app_nil_r. Qed.
Lemma under_app p q r : under p q -> under p (q ++ r).
Proof. intros (s & ->). exists (s ++ r). now rewrite app_assoc. Qed.
Lemma under_trans p q r : under p q -> under q r -> under p r.
Proof. intros (s & ->) (u & ->). exists (s ++ u). now rewrite app_assoc. Qed.
Lemma under_length p q : under p q -> List.length p <= List.length q.
Proof. intros (s & ->). rewrite app_length. lia. Qed.
Lemma under_snoc_self p n : ~ under (p ++ [n]) p.
Proof. intros H. apply under_length in H. rewrite app_length in H. simpl in H. lia. Qed.
Lemma under_snoc_inj p n m q : under (p ++ [n]) (p ++ m :: q) -> n = m.
Proof.
  intros (s & E). rewrite <- app_assoc in E. apply app_inv_head in E. simpl in E. congruence.
Qed.

Lemma put_outside t p v q : ~ under p q -> kind_at (put t p v) q = kind_at t q.
Proof.
  revert t q; induction p as [|n p IH]; intros t q Hu.
  - exfalso. apply Hu. now exists q.
  - cbn [put]. destruct t as [c|l|es]; auto.
    destruct p as [|n' p'].
    + destruct q as [|m q]; [reflexivity|].
      assert (n <> m) by (intros ->; apply Hu; now exists q).
      unfold kind_at. cbn [get].
      destruct v; [rewrite entry_set_other by auto|rewrite entry_del_other by auto]; reflexivity.
    + destruct (entry es n) as [t'|] eqn:E; [|reflexivity].
      destruct q as [|m q]; [reflexivity|].
      destruct (pystr_dec n m) as [->|Hn].
      * specialize (IH t' q). unfold kind_at in *. cbn [get]. rewrite entry_set_same, E. apply IH.
        intros (s & ->). apply Hu. now exists s.
      * unfold kind_at. cbn [get]. now rewrite entry_set_other by auto.
Qed.

Lemma get_put_some t p es n u : get t p = Some (Dir es) -> get (put t (p ++ [n]) (Some u)) (p ++ [n]) = Some u.
Proof.
  revert t; induction p as [|m p IH]; intros t H; simpl in *.
  - injection H as ->. cbn [get]. now rewrite entry_set_same.
  - destruct t as [c|l|es']; try discriminate.
    destruct (entry es' m) as [t'|] eqn:E; [|discriminate].
    destruct p as [|m' p']; cbn [app] in *; cbn [get]; rewrite entry_set_same; now apply IH.
Qed.

Lemma get_put_none t p q : p <> [] -> under p q -> get (put t p None) q = None.
Proof.
  intros Hp (s & ->). revert t; induction p as [|n p IH]; intros t; [congruence|].
  cbn [put app]. destruct t as [c|l|es]; try reflexivity.
  destruct p as [|n' p'].
  - cbn [app get]. now rewrite entry_del_same.
  - destruct (entry es n) as [t'|] eqn:E; cbn [get app].
    + rewrite entry_set_same. apply (IH ltac:(discriminate) t').
    + now rewrite E.
Qed.

(** ** Looking up paths *)
Lemma walk_nil k t c : walk k t c [] = Some c.
Proof. destruct k; reflexivity. Qed.
Lemma walk_cons k t c n r : walk k t c (n :: r) =
  if pystr_eqb n (S_ "..") then walk k t (removelast c) r
  else match get t (c ++ [n]) with
       | None => None
       | Some (Link q) => match k with O => None | S k => walk k t [] (q ++ r) end
       | Some _ => walk k t (c ++ [n]) r
       end.
Proof. destruct k; reflexivity. Qed.

Lemma walk_kinds k t t' c p r :
  (forall q, kind_at t' q = kind_at t q \/ kind_at t' q = None) ->
  walk k t' c p = Some r -> walk k t c p = Some r.
Proof.
  intros H. revert c p; induction k as [|k IHk]; intros c p; revert c;
    induction p as [|n p IH]; intros c; rewrite ?walk_nil, ?walk_cons; auto;
    (destruct (pystr_eqb n (S_ "..")); [apply IH|]);
    pose proof (H (c ++ [n])) as Hn; unfold kind_at in Hn;
    (destruct (get t' (c ++ [n])) as [[]|], (get t (c ++ [n])) as [[]|];
     try (destruct Hn; congruence); try discriminate; try apply IH).
  destruct Hn as [[= ->]|]; [apply IHk|discriminate].
Qed.

Lemma walk_more k t t' c p r :
  (forall q, kind_at t q <> None -> kind_at t' q = kind_at t q) ->
  walk k t c p = Some r -> walk k t' c p = Some r.
Proof.
  intros H. apply walk_kinds. intros q. destruct (kind_at t q) eqn:E; [left|right; reflexivity].
  rewrite H; congruence.
Qed.

Lemma walk_app k t c p s r : walk k t c (p ++ s) = Some r ->
  exists k' c', walk k t c p = Some c' /\ walk k' t c' s = Some r.
Proof.
  revert c p; induction k as [|k IHk]; intros c p; revert c;
    induction p as [|n p IH]; intros c; cbn [app]; rewrite ?walk_nil, ?walk_cons;
    try (intros HH; eexists; eexists; split; [reflexivity|exact HH]);
    (destruct (pystr_eqb n (S_ "..")); [apply IH|]);
    (destruct (get t (c ++ [n])) as [[]|]; try discriminate; try apply IH).
  intros HH. rewrite app_assoc in HH. apply IHk in HH. exact HH.
Qed.

Lemma walk_snoc k t c p c' n u : walk k t c p = Some c' -> n <> S_ ".." ->
  get t (c' ++ [n]) = Some u -> (forall q, u <> Link q) -> walk k t c (p ++ [n]) = Some (c' ++ [n]).
Proof.
  intros Hw Hn Hg Hl. revert c p Hw; induction k as [|k IHk]; intros c p; revert c;
    induction p as [|m p IH]; intros c; cbn [app]; rewrite ?walk_nil, ?walk_cons;
    try (intros [= ->]; apply pystr_eqb_neq in Hn; rewrite Hn, Hg;
         destruct u; [now rewrite walk_nil|exfalso; eapply Hl; reflexivity|now rewrite walk_nil]);
    (destruct (pystr_eqb m (S_ "..")); [apply IH|]);
    (destruct (get t (c ++ [m])) as [[]|]; try discriminate; try apply IH).
  intros HH. rewrite app_assoc. apply IHk. exact HH.
Qed.

Lemma get_prefix t p q u : get t (p ++ q) = Some u -> q <> [] -> exists es, get t p = Some (Dir es).
Proof.
  rewrite get_app. intros H Hq. destruct (get t p) as [w|]; [|discriminate]. destruct q; [congruence|].
  destruct w; try discriminate. eauto.
Qed.

Lemma walk_real k t c p : (exists u, get t (c ++ p) = Some u /\ forall q, u <> Link q) -> ~ In (S_ "..") p ->
  walk k t c p = Some (c ++ p).
Proof.
  revert c; induction p as [|n p IH]; intros c (u & Hg & Hl) Hn.
  - now rewrite walk_nil, app_nil_r.
  - rewrite walk_cons.
    assert (E : pystr_eqb n (S_ "..") = false) by (apply pystr_eqb_neq; intros ->; apply Hn; now left).
    rewrite E. replace (c ++ n :: p) with ((c ++ [n]) ++ p) in * by now rewrite <- app_assoc.
    assert (Hw : exists w, get t (c ++ [n]) = Some w /\ forall q, w <> Link q).
    { destruct p as [|m p].
      - rewrite app_nil_r in Hg. eauto.
      - apply get_prefix in Hg as (es & ->); [|discriminate]. eexists. split; [reflexivity|discriminate]. }
    destruct Hw as (w & Hw & Hwl). rewrite Hw.
    assert (Hrec : walk k t (c ++ [n]) p = Some ((c ++ [n]) ++ p)).
    { apply IH; eauto. intros H. apply Hn. now right. }
    destruct w; [exact Hrec|exfalso; eapply Hwl; reflexivity|exact Hrec].
Qed.

Lemma resolve_real t p u : get t p = Some u -> (forall q, u <> Link q) -> ~ In (S_ "..") p -> resolve t p = Some p.
Proof. intros. apply (walk_real 40 t [] p); [simpl; eauto|assumption]. Qed.

Lemma removelast_snoc {A} (p : list A) n : removelast (p ++ [n]) = p.
Proof. apply removelast_last. Qed.

Lemma place_snoc t p n e : place t (p ++ [n]) = Some e ->
  exists q es, resolve t p = Some q /\ get t q = Some (Dir es) /\ e = q ++ [n].
Proof.
  unfold place. rewrite removelast_snoc, last_last.
  destruct (resolve t p) as [q|]; [|discriminate].
  destruct (get t q) as [[]|] eqn:E; try discriminate. intros [= <-]. eauto.
Qed.

(** ** Deletions *)
Definition deletion (R : path) (o : op) : Prop :=
  match o with Unlink p | Rmdir p => under R p /\ p <> R | _ => False end.
Definition touches (R : path) (o : op) : Prop :=
  match o with
  | Mkdir p | Unlink p | Rmdir p | Create p | Append p _ => under R p
  end.

Lemma deletion_touches R o : deletion R o -> touches R o.
Proof. destruct o; simpl; tauto. Qed.

Definition removed (t t' : tree) : Prop := forall q, kind_at t' q = kind_at t q \/ kind_at t' q = None.
Lemma removed_refl t : removed t t.
Proof. now left. Qed.
Lemma removed_trans t u w : removed t u -> removed u w -> removed t w.
Proof. intros H1 H2 q. destruct (H2 q) as [->|]; auto. Qed.

Lemma strictly_not_nil R p : under R p -> p <> R -> p <> [].
Proof. intros (s & ->) H E. apply app_eq_nil in E as [-> ->]. now apply H. Qed.

Lemma do_op_deletion R t o : deletion R o -> removed t (do_op t o).
Proof.
  intros H q.
  assert (forall p, under R p /\ p <> R -> kind_at (put t p None) q = kind_at t q \/ kind_at (put t p None) q = None).
  { intros p [Hu Hne]. destruct (list_eq_dec pystr_dec (firstn (List.length p) q) p) as [E|E].
    - right. apply kind_none. apply get_put_none; [eapply strictly_not_nil; eauto|].
      exists (skipn (List.length p) q). rewrite <- E at 1. now rewrite firstn_skipn.
    - left. apply put_outside. intros (s & ->). apply E. rewrite firstn_app, Nat.sub_diag, firstn_all.
      simpl. now rewrite app_nil_r. }
  destruct o; simpl in *; try contradiction; auto.
Qed.

Lemma do_ops_deletions R t l : Forall (deletion R) l -> removed t (do_ops t l).
Proof.
  intros H. revert t; induction H as [|o l Ho H IH]; intros t; [apply removed_refl|].
  unfold do_ops. simpl. eapply removed_trans; [eapply do_op_deletion; eauto|apply IH].
Qed.

Lemma do_op_touches R t o q : touches R o -> ~ under R q -> kind_at (do_op t o) q = kind_at t q.
Proof.
  intros Ho Hq.
  assert (H : forall p v, under R p -> kind_at (put t p v) q = kind_at t q).
  { intros p v Hp. apply put_outside. intros Hpq. apply Hq. eapply under_trans; eauto. }
  destruct o; simpl in *; auto. destruct (get t p) as [[]|]; auto.
Qed.

Lemma do_ops_touches R t l q : Forall (touches R) l -> ~ under R q -> kind_at (do_ops t l) q = kind_at t q.
Proof.
  intros H Hq. revert t; induction H as [|o l Ho H IH]; intros t; [reflexivity|].
  unfold do_ops in *. simpl. rewrite IH. eapply do_op_touches; eauto.
Qed.

Lemma do_ops_app t l l' : do_ops t (l ++ l') = do_ops (do_ops t l) l'.
Proof. apply fold_left_app. Qed.

Lemma Forall_firstn {A} (P : A -> Prop) k l : Forall P l -> Forall P (firstn k l).
Proof. intros H. revert k; induction H; intros [|k]; simpl; auto. Qed.

Definition tree_ind2 (P : tree -> Prop) (hf : forall c, P (File c)) (hl : forall l, P (Link l))
    (hd : forall es, Forall (fun x => P (snd x)) es -> P (Dir es)) : forall t, P t :=
    fix F (t : tree) : P t := match t with
    | File c => hf c | Link l => hl l
    | Dir es => hd es ((fix G (es : list (pystr * tree)) : Forall (fun x => P (snd x)) es :=
        match es with [] => Forall_nil _ | x :: r => Forall_cons x (F (snd x)) (G r) end) es)
    end.

Lemma rmtree_deletion R e t : under R e -> e <> R -> Forall (deletion R) (rmtree_ops e t).
Proof.
  revert e. induction t as [c|l|es IH] using tree_ind2; intros e Hu Hne.
  - simpl. constructor; simpl; auto.
  - simpl. constructor; simpl; auto.
  - simpl. apply Forall_app. split; [|constructor; simpl; auto].
    assert (Hs : forall n, e ++ [n] <> R).
    { intros n E. apply under_length in Hu. rewrite <- E, app_length in Hu. simpl in Hu. lia. }
    induction IH as [|[n u] es Hx IH IH2]; [constructor|].
    apply Forall_app. split; [|exact IH2]. apply Hx; [now apply under_app|apply Hs].
Qed.

Lemma rmtree_last e t : exists l o, rmtree_ops e t = l ++ [o] /\ (o = Unlink e \/ o = Rmdir e).
Proof. destruct t; simpl; [exists [], (Unlink e)|exists [], (Unlink e)|eexists; exists (Rmdir e)]; eauto. Qed.

Lemma rmtree_gone t e u : e <> [] -> kind_at (do_ops t (rmtree_ops e u)) e = None.
Proof.
  intros H. destruct (rmtree_last e u) as (l & o & -> & Ho). rewrite do_ops_app. apply kind_none.
  destruct Ho as [-> | ->]; apply get_put_none; auto using under_refl.
Qed.

Lemma snoc_ne R (n : pystr) : R ++ [n] <> R.
Proof. intros E. apply (f_equal (@List.length _)) in E. rewrite app_length in E. simpl in E. lia. Qed.
Lemma snoc_nonnil (R : path) (n : pystr) : R ++ [n] <> [].
Proof. destruct R; discriminate. Qed.

Definition at_most (t : tree) (d R : path) : Prop := resolve t d = Some R \/ resolve t d = None.
Lemma at_most_removed t t' d R : removed t t' -> at_most t d R -> at_most t' d R.
Proof.
  intros Hr H. unfold at_most. destruct (resolve t' d) as [R'|] eqn:E; [|now right].
  left. unfold resolve in *. apply (walk_kinds _ t) in E; [|exact Hr]. unfold at_most, resolve in H.
  destruct H; congruence.
Qed.

Lemma delete_entry_ops t d n R : at_most t d R -> Forall (deletion R) (fst (delete_entry d n t)).
Proof.
  intros H. unfold delete_entry. destruct (place t (d ++ [n])) as [e|] eqn:E; [|constructor].
  apply place_snoc in E as (q & es & Hq & _ & ->).
  assert (q = R) as -> by (destruct H; congruence).
  assert (Hu : under R (R ++ [n])) by (apply under_app, under_refl).
  destruct (is_file t _); [constructor; simpl; auto using snoc_ne|].
  destruct (is_dir t _); [|constructor].
  destruct (get t (R ++ [n])) as [[]|]; cbn [fst]; try (now constructor);
    apply (rmtree_deletion R (R ++ [n])); auto using snoc_ne.
Qed.

Lemma delete_entries_ops t d l R : at_most t d R -> Forall (deletion R) (fst (delete_entries d l t)).
Proof.
  revert t; induction l as [|n l IH]; intros t H; simpl; [constructor|].
  unfold andthen. destruct (delete_entry d n t) as [o r] eqn:E.
  assert (Ho : Forall (deletion R) o) by (change o with (fst (o, r)); rewrite <- E; now apply delete_entry_ops).
  destruct r as [[]|e]; [|exact Ho].
  specialize (IH (do_ops t o)). destruct (delete_entries d l (do_ops t o)) as [o' r'].
  simpl in *. apply Forall_app. split; [exact Ho|]. apply IH.
  eapply at_most_removed; [|exact H]. eapply do_ops_deletions; eauto.
Qed.

(** ** Creating directories *)
Lemma is_dir_resolve t p : is_dir t p = true -> exists q es, resolve t p = Some q /\ get t q = Some (Dir es).
Proof.
  unfold is_dir. destruct (resolve t p) as [q|]; [|discriminate].
  destruct (get t q) as [[]|] eqn:E; try discriminate. eauto.
Qed.

Lemma path_snoc (p : path) : p <> [] -> exists q n, p = q ++ [n].
Proof. intros H. exists (removelast p), (last p []). now apply app_removelast_last. Qed.

Lemma mkdirs_existing t p : is_dir t p = true -> mkdirs p t = ([], Ok tt).
Proof.
  intros H. assert (Hm : os_mkdir t p = Refused).
  { destruct (list_eq_dec pystr_dec p []) as [->|Hp]; [reflexivity|].
    destruct (path_snoc p Hp) as (q & n & ->). unfold os_mkdir.
    destruct (q ++ [n]) as [|x y] eqn:E; [destruct q; discriminate|]. rewrite <- E in *.
    rewrite removelast_snoc, last_last.
    apply is_dir_resolve in H as (r & es & Hr & _). unfold resolve in Hr. apply walk_app in Hr as (k' & c' & H1 & H2).
    fold (resolve t q) in H1. rewrite H1. rewrite walk_cons in H2.
    destruct (get t c') as [[]|] eqn:Eg; try reflexivity.
    destruct (pystr_eqb n (S_ "..")); [reflexivity|]. rewrite get_snoc, Eg in H2.
    destruct (entry entries n); [reflexivity|discriminate]. }
  unfold mkdirs. destruct (List.length p); cbn [mkdirs_n]; rewrite Hm, H; reflexivity.
Qed.
