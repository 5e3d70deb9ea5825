(** Lemmas about the ini parser model. *)
From Coq Require Import List ZArith Bool Ascii String Lia.
From Verif Require Import Base ParseModel ParseSpec.
Import ListNotations.
Local Open Scope char_scope.

(** ** List literals *)

Lemma plain_neq c d : plain_char c -> (d = " " \/ d = "," \/ d = "[" \/ d = "]") ->
  Ascii.eqb c d = false.
Proof.
  intros (H1 & H2 & H3 & H4) H. apply Ascii.eqb_neq. intros ->.
  destruct H as [->|[->|[->| ->]]]; auto.
Qed.

Definition nospace (s : pystr) := Forall (fun c => c <> " ") s.

Lemma spaced_remove s t : spaced s t -> nospace s -> remove_spaces t = s.
Proof.
  induction 1; intros Hs; simpl; auto.
  inversion Hs; subst.
  destruct (Ascii.eqb c " ") eqn:E; simpl.
  - apply Ascii.eqb_eq in E. contradiction.
  - f_equal. now apply IHspaced.
Qed.

Lemma spaced_refl s : spaced s s.
Proof. induction s; constructor; auto. Qed.

Lemma spaced_length s t : spaced s t -> (List.length s <= List.length t)%nat.
Proof. induction 1; simpl; lia. Qed.

Lemma split1_none c s : Forall (fun x => x <> c) s -> split1 c s = [s].
Proof.
  induction 1; simpl; auto.
  apply Ascii.eqb_neq in H. rewrite H, IHForall. reflexivity.
Qed.

Lemma split1_app c s r : Forall (fun x => x <> c) s -> split1 c (s ++ c :: r) = s :: split1 c r.
Proof.
  induction 1; simpl.
  - now rewrite Ascii.eqb_refl.
  - apply Ascii.eqb_neq in H. rewrite H, IHForall. reflexivity.
Qed.

Lemma split1_join l :
  l <> [] -> Forall (Forall (fun x => x <> ",")) l -> split1 "," (join_comma l) = l.
Proof.
  induction l as [|x [|y l] IH]; intros Hn H; [congruence| |].
  - inversion H; subst. now apply split1_none.
  - inversion H; subst. change (join_comma (x :: y :: l)) with (x ++ "," :: join_comma (y :: l)).
    rewrite split1_app by assumption. rewrite IH; [reflexivity|congruence|assumption].
Qed.

Lemma split2_app c d s r :
  Forall (fun x => x <> c) s -> split2 c d (s ++ c :: d :: r) = s :: split2 c d r.
Proof.
  induction 1.
  - simpl. now rewrite !Ascii.eqb_refl.
  - change ((x :: l) ++ c :: d :: r) with (x :: (l ++ c :: d :: r)).
    apply Ascii.eqb_neq in H.
    destruct (l ++ c :: d :: r) as [|y r'] eqn:E; [destruct l; discriminate|].
    change (split2 c d (x :: y :: r')) with
      (if Ascii.eqb x c && Ascii.eqb y d then [] :: split2 c d r' else cons_head x (split2 c d (y :: r'))).
    rewrite H. simpl andb. rewrite IHForall. reflexivity.
Qed.

Lemma split2_last c d s :
  Forall (fun x => x <> c) s -> c <> d -> split2 c d (s ++ [c]) = [s ++ [c]].
Proof.
  intros Hs Hcd. induction Hs; [reflexivity|].
  change ((x :: l) ++ [c]) with (x :: (l ++ [c])).
  apply Ascii.eqb_neq in H.
  destruct (l ++ [c]) as [|y r'] eqn:E; [destruct l; discriminate|].
  change (split2 c d (x :: y :: r')) with
    (if Ascii.eqb x c && Ascii.eqb y d then [] :: split2 c d r' else cons_head x (split2 c d (y :: r'))).
  rewrite H. simpl andb. rewrite IHHs. reflexivity.
Qed.

Definition brack (s : pystr) : pystr := "[" :: s ++ ["]"].

Lemma split2_join l :
  l <> [] -> Forall (Forall (fun x => x <> "]")) l ->
  close_brackets (split2 "]" "," (join_comma (map brack l))) = map brack l.
Proof.
  induction l as [|x [|y l] IH]; intros Hn H; [congruence| |].
  - inversion H; subst. simpl map. unfold brack at 1. simpl join_comma.
    rewrite app_comm_cons, split2_last; [reflexivity| |discriminate].
    constructor; [discriminate|assumption].
  - inversion H as [|? ? Hx Hr]; subst.
    change (join_comma (map brack (x :: y :: l))) with
      (brack x ++ "," :: join_comma (map brack (y :: l))).
    replace (brack x ++ "," :: join_comma (map brack (y :: l))) with
      (("[" :: x) ++ "]" :: "," :: join_comma (map brack (y :: l)))
      by (generalize (join_comma (map brack (y :: l))); intros J; unfold brack; simpl;
          now rewrite <- app_assoc).
    rewrite split2_app by (constructor; [discriminate|assumption]).
    specialize (IH ltac:(congruence) Hr).
    destruct (split2 "]" "," (join_comma (map brack (y :: l)))) as [|p ps] eqn:E.
    { simpl in IH. discriminate. }
    change (close_brackets (("[" :: x) :: p :: ps)) with
      ((("[" :: x) ++ ["]"]) :: close_brackets (p :: ps)).
    rewrite IH. reflexivity.
Qed.

Lemma slice_brack s : slice_1_m1 (brack s) = s.
Proof. unfold slice_1_m1, brack. simpl. now rewrite removelast_last. Qed.

Lemma Forall_join (P : ascii -> Prop) l :
  P "," -> Forall (Forall P) l -> Forall P (join_comma l).
Proof.
  intros Hc. induction l as [|x [|y l] IH]; intros H.
  - constructor.
  - inversion H; auto.
  - inversion H; subst. change (join_comma (x :: y :: l)) with (x ++ "," :: join_comma (y :: l)).
    apply Forall_app; split; [assumption|]. constructor; auto.
Qed.

Lemma token_forall (P : ascii -> Prop) t :
  (forall c, plain_char c -> P c) -> token t -> Forall P t.
Proof. intros H [_ Ht]. eapply Forall_impl; eauto. Qed.

Lemma convert_all_node {A B} (f : A -> res B) l :
  convert_all f (Node l) = (let* l' := mapM (convert_all f) l in Ok (Node l')).
Proof.
  simpl. f_equal.
  induction l; simpl; auto. now rewrite IHl.
Qed.

Definition leaf_tok (v : val pystr) : pystr := match v with Leaf t => t | Node _ => [] end.

Lemma literal0 v : literal 0 v -> exists t, v = Leaf t /\ token t.
Proof. destruct v; simpl; [eauto|easy]. Qed.

Lemma literal1 v : literal 1 v -> exists ts, v = Node (map Leaf ts) /\ ts <> [] /\ Forall token ts.
Proof.
  destruct v as [|l]; simpl; [easy|]. intros [Hn H].
  assert (exists ts, l = map Leaf ts /\ Forall token ts) as (ts & -> & Ht).
  { clear Hn. induction H as [|x l Hx Hl (ts & -> & Ht)].
    - exists []. split; constructor.
    - destruct x as [t|]; [|easy]. exists (t :: ts). split; [reflexivity|]. now constructor. }
  exists ts. split; [reflexivity|]. split; [|assumption]. intros ->. now apply Hn.
Qed.

Lemma render1 ts : render (Node (map Leaf ts)) = brack (join_comma ts).
Proof. unfold brack. simpl. rewrite map_map. simpl. now rewrite map_id. Qed.

Lemma token_hd t : token t -> exists c r, t = c :: r /\ plain_char c.
Proof. intros [Hn H]. destruct t; [congruence|]. inversion H; eauto. Qed.

Lemma join_hd ts : ts <> [] -> Forall token ts ->
  exists c r, join_comma ts = c :: r /\ plain_char c.
Proof.
  intros Hn H. destruct ts as [|t ts]; [congruence|]. inversion H; subst.
  destruct (token_hd t H2) as (c & r & -> & Hc).
  destruct ts; simpl; eauto.
Qed.

Lemma mapM_leaf {A B} (f : A -> res B) ts :
  mapM (convert_all f) (map Leaf ts) = (let* l := mapM f ts in Ok (map Leaf l)).
Proof.
  induction ts as [|t ts IH]; simpl; auto.
  destruct (f t); simpl; auto. rewrite IH. destruct (mapM f ts); reflexivity.
Qed.

Lemma parse_list_f_0 {A} (f : pystr -> res A) n s t :
  token t -> spaced t s -> parse_list_f (S n) f s = convert_all f (Leaf t).
Proof.
  intros Ht Hs. cbn [parse_list_f].
  rewrite (spaced_remove _ _ Hs).
  2:{ apply token_forall; [|assumption]. intros c H; apply H. }
  destruct (token_hd t Ht) as (c & r & -> & Hc).
  rewrite (plain_neq c "[" Hc); auto.
Qed.

Lemma nospace_join ts : Forall token ts -> nospace (join_comma ts).
Proof.
  intros H. apply Forall_join; [discriminate|].
  eapply Forall_impl; [|exact H]. intros t Ht. apply token_forall; [|assumption].
  intros c Hc; apply Hc.
Qed.

Lemma nospace_brack s : nospace s -> nospace (brack s).
Proof.
  intros H. constructor; [discriminate|]. apply Forall_app. split; [assumption|].
  repeat constructor. discriminate.
Qed.

Lemma parse_list_f_1 {A} (f : pystr -> res A) n s ts :
  ts <> [] -> Forall token ts -> spaced (brack (join_comma ts)) s ->
  parse_list_f (S n) f s = convert_all f (Node (map Leaf ts)).
Proof.
  intros Hn Ht Hs. cbn [parse_list_f].
  rewrite (spaced_remove _ _ Hs) by (apply nospace_brack, nospace_join, Ht).
  unfold brack at 1. rewrite Ascii.eqb_refl. rewrite slice_brack.
  destruct (join_hd ts Hn Ht) as (c & r & E & Hc). rewrite E.
  rewrite (plain_neq c "[" Hc) by auto. rewrite <- E.
  rewrite split1_join; auto.
  2:{ eapply Forall_impl; [|exact Ht]. intros t H. apply token_forall; [|assumption].
      intros x Hx; apply Hx. }
  rewrite convert_all_node, mapM_leaf. destruct (mapM f ts); reflexivity.
Qed.

Lemma mapM_ext_in {A B} (f g : A -> res B) l :
  (forall x, In x l -> f x = g x) -> mapM f l = mapM g l.
Proof.
  induction l as [|x l IH]; intros H; simpl; auto.
  rewrite (H x (or_introl eq_refl)), IH; auto. intros; apply H; now right.
Qed.

Lemma mapM_map {A B C} (f : B -> res C) (g : A -> B) l :
  mapM f (map g l) = mapM (fun x => f (g x)) l.
Proof. induction l; simpl; auto. now rewrite IHl. Qed.

Lemma literal2 v : literal 2 v ->
  exists tss, v = Node (map (fun ts => Node (map Leaf ts)) tss) /\ tss <> [] /\
    Forall (fun ts => ts <> [] /\ Forall token ts) tss.
Proof.
  destruct v as [|l]; [easy|]. intros [Hn H].
  assert (exists tss, l = map (fun ts => Node (map Leaf ts)) tss /\
           Forall (fun ts => ts <> [] /\ Forall token ts) tss) as (tss & -> & Ht).
  { clear Hn. induction H as [|x l Hx Hl (tss & -> & Ht)].
    - exists []. split; constructor.
    - destruct (literal1 x Hx) as (ts & -> & H1 & H2).
      exists (ts :: tss). split; [reflexivity|]. constructor; auto. }
  exists tss. split; [reflexivity|]. split; [|assumption]. intros ->. now apply Hn.
Qed.

Lemma parse_list_f_2 {A} (f : pystr -> res A) n s tss :
  tss <> [] -> Forall (fun ts => ts <> [] /\ Forall token ts) tss ->
  spaced (render (Node (map (fun ts => Node (map Leaf ts)) tss))) s ->
  parse_list_f (S (S n)) f s = convert_all f (Node (map (fun ts => Node (map Leaf ts)) tss)).
Proof.
  intros Hn Ht Hs.
  assert (Hr : render (Node (map (fun ts => Node (map Leaf ts)) tss)) =
               brack (join_comma (map brack (map join_comma tss)))).
  { unfold brack at 1. cbn [render]. rewrite map_map. f_equal. f_equal. f_equal.
    rewrite map_map. apply map_ext. intros ts. apply render1. }
  rewrite Hr in Hs.
  assert (Hsp : nospace (brack (join_comma (map brack (map join_comma tss))))).
  { apply nospace_brack, Forall_join; [discriminate|].
    rewrite map_map. apply Forall_map. eapply Forall_impl; [|exact Ht].
    intros ts [_ H]. apply nospace_brack, nospace_join, H. }
  remember (S n) as m eqn:Em. cbn [parse_list_f].
  rewrite (spaced_remove _ _ Hs Hsp).
  unfold brack at 1. rewrite Ascii.eqb_refl. rewrite slice_brack.
  destruct tss as [|ts tss]; [congruence|].
  assert (exists r, join_comma (map brack (map join_comma (ts :: tss))) = "[" :: r) as (r & E).
  { destruct tss; unfold brack; simpl; eauto. }
  rewrite E. rewrite Ascii.eqb_refl. rewrite <- E.
  rewrite split2_join.
  2:{ discriminate. }
  2:{ apply Forall_map. eapply Forall_impl; [|exact Ht]. intros us [_ H].
      apply Forall_join; [discriminate|]. eapply Forall_impl; [|exact H].
      intros t Htok. apply token_forall; [|assumption]. intros c Hc; apply Hc. }
  rewrite convert_all_node, !mapM_map. f_equal. apply mapM_ext_in.
  intros us Hin. rewrite Forall_forall in Ht. destruct (Ht us Hin) as [H1 H2].
  subst m. apply parse_list_f_1; auto. apply spaced_refl.
Qed.

Lemma parse_list_literal {A} (f : pystr -> res A) d v s :
  (d <= 2)%nat -> literal d v -> spaced (render v) s ->
  parse_list f s = convert_all f v.
Proof.
  intros Hd Hv Hs. unfold parse_list.
  destruct d as [|[|[|d]]]; [| | |lia].
  - destruct (literal0 v Hv) as (t & -> & Ht). now apply parse_list_f_0.
  - destruct (literal1 v Hv) as (ts & -> & H1 & H2). rewrite render1 in Hs.
    now apply parse_list_f_1.
  - destruct (literal2 v Hv) as (tss & -> & H1 & H2).
    assert (1 <= List.length s)%nat.
    { apply spaced_length in Hs. cbn [render] in Hs. simpl in Hs. lia. }
    destruct (List.length s) as [|k]; [lia|].
    now apply parse_list_f_2.
Qed.

(** ** The recursion bound of [parse_list] is never reached. *)

Lemma split2_piece c d s p :
  In p (split2 c d s) ->
  (List.length p + (if (List.length (split2 c d s) =? 1)%nat then 0 else 2) <= List.length s)%nat.
Proof.
  enough (H : forall n s, (List.length s <= n)%nat -> forall p, In p (split2 c d s) ->
    (List.length p + (if (List.length (split2 c d s) =? 1)%nat then 0 else 2) <= List.length s)%nat)
    by (apply (H (List.length s)); lia).
  clear s p. induction n as [|n IH]; intros s Hn p Hp.
  - destruct s; simpl in *; [|lia]. destruct Hp as [<-|[]]. reflexivity.
  - destruct s as [|x [|y r]].
    + simpl in *. destruct Hp as [<-|[]]. simpl; lia.
    + simpl in *. destruct Hp as [<-|[]]. simpl; lia.
    + change (split2 c d (x :: y :: r)) with
        (if Ascii.eqb x c && Ascii.eqb y d then [] :: split2 c d r else cons_head x (split2 c d (y :: r))) in *.
      destruct (Ascii.eqb x c && Ascii.eqb y d).
      * assert (List.length (split2 c d r) <> 0)%nat.
        { intros E. destruct r as [|a [|b r]]; [discriminate|discriminate|].
          change (split2 c d (a :: b :: r)) with
           (if Ascii.eqb a c && Ascii.eqb b d then [] :: split2 c d r else cons_head a (split2 c d (b :: r))) in E.
          destruct (Ascii.eqb a c && Ascii.eqb b d); [discriminate|].
          destruct (split2 c d (b :: r)); discriminate. }
        simpl List.length at 2.
        destruct (S (List.length (split2 c d r)) =? 1)%nat eqn:E; [apply Nat.eqb_eq in E; lia|].
        destruct Hp as [<-|Hp]; [simpl; lia|].
        specialize (IH r ltac:(simpl in Hn; lia) p Hp). simpl.
        destruct (List.length (split2 c d r) =? 1)%nat; lia.
      * specialize (IH (y :: r) ltac:(simpl in *; lia)).
        destruct (split2 c d (y :: r)) as [|h t]; simpl in Hp.
        -- destruct Hp as [<-|[]]. simpl; lia.
        -- destruct Hp as [<-|Hp].
           ++ specialize (IH h (or_introl eq_refl)). cbn [List.length] in *.
              change (List.length (cons_head x (h :: t))) with (S (List.length t)).
              destruct (S (List.length t) =? 1)%nat; lia.
           ++ specialize (IH p (or_intror Hp)). cbn [List.length] in *.
              change (List.length (cons_head x (h :: t))) with (S (List.length t)).
              destruct (S (List.length t) =? 1)%nat; lia.
Qed.

Lemma close_brackets_len l p :
  In p (close_brackets l) ->
  exists q, In q l /\ (List.length p <= List.length q + (if (List.length l =? 1)%nat then 0 else 1))%nat.
Proof.
  induction l as [|x [|y l] IH]; intros H.
  - destruct H.
  - destruct H as [<-|[]]. exists x. simpl. split; auto. lia.
  - change (close_brackets (x :: y :: l)) with ((x ++ ["]"]) :: close_brackets (y :: l)) in H.
    destruct H as [<-|H].
    + exists x. split; [now left|]. rewrite app_length. simpl. lia.
    + destruct (IH H) as (q & Hq & Hl). exists q. split; [now right|].
      simpl. destruct l; simpl in *; lia.
Qed.

Lemma remove_spaces_len s : (List.length (remove_spaces s) <= List.length s)%nat.
Proof.
  unfold remove_spaces. induction s as [|x s IH]; simpl; [lia|].
  destruct (negb _); simpl; lia.
Qed.

Lemma removelast_len {A} (l : list A) : List.length (removelast l) = (List.length l - 1)%nat.
Proof.
  induction l as [|x [|y l] IH]; auto.
  change (removelast (x :: y :: l)) with (x :: removelast (y :: l)).
  cbn [List.length]. rewrite IH. simpl. lia.
Qed.

Lemma slice_len s : s <> [] -> (List.length (slice_1_m1 s) < List.length s)%nat.
Proof.
  intros H. destruct s as [|x s]; [congruence|]. unfold slice_1_m1. simpl tl.
  rewrite removelast_len. simpl. lia.
Qed.

Lemma parse_list_fuel {A} (f : pystr -> res A) n m s :
  (List.length s < n)%nat -> (List.length s < m)%nat -> parse_list_f n f s = parse_list_f m f s.
Proof.
  revert m s. induction n as [|n IH]; intros m s Hn Hm; [lia|].
  destruct m as [|m]; [lia|]. cbn [parse_list_f].
  pose proof (remove_spaces_len s) as Hl.
  destruct (remove_spaces s) as [|c r] eqn:E; [reflexivity|].
  destruct (Ascii.eqb c "["); [|reflexivity].
  pose proof (slice_len (c :: r) ltac:(congruence)) as Hs.
  destruct (slice_1_m1 (c :: r)) as [|c' r'] eqn:E'; [reflexivity|].
  destruct (Ascii.eqb c' "["); [|reflexivity].
  f_equal. apply mapM_ext_in. intros p Hp.
  destruct (close_brackets_len _ _ Hp) as (q & Hq & Hlen).
  pose proof (split2_piece _ _ _ _ Hq) as Hq'.
  assert (List.length p <= List.length (c' :: r'))%nat.
  { destruct (List.length (split2 "]" "," (c' :: r')) =? 1)%nat; lia. }
  apply IH; simpl in *; lia.
Qed.

Lemma parse_list_total {A} (f : pystr -> res A) s :
  (forall t, f t <> Err OutOfFuel) -> parse_list f s <> Err OutOfFuel.
Proof.
  intros Hf. unfold parse_list.
  enough (H : forall n s, (List.length s < n)%nat -> parse_list_f n f s <> Err OutOfFuel)
    by (apply H; lia).
  clear s. induction n as [|n IH]; intros s Hn; [lia|]. cbn [parse_list_f].
  pose proof (remove_spaces_len s) as Hl.
  destruct (remove_spaces s) as [|c r] eqn:E; [discriminate|].
  destruct (Ascii.eqb c "[").
  2:{ specialize (Hf (c :: r)). destruct (f (c :: r)); simpl; congruence. }
  pose proof (slice_len (c :: r) ltac:(congruence)) as Hs.
  destruct (slice_1_m1 (c :: r)) as [|c' r'] eqn:E'; [discriminate|].
  destruct (Ascii.eqb c' "[").
  - assert (H : mapM (parse_list_f n f) (close_brackets (split2 "]" "," (c' :: r'))) <> Err OutOfFuel).
    { enough (Hg : forall l, (forall p, In p l -> (List.length p < n)%nat) ->
                mapM (parse_list_f n f) l <> Err OutOfFuel).
      { apply Hg. intros p Hp.
        destruct (close_brackets_len _ _ Hp) as (q & Hq & Hlen).
        pose proof (split2_piece _ _ _ _ Hq) as Hq'.
        destruct (List.length (split2 "]" "," (c' :: r')) =? 1)%nat; simpl in *; lia. }
      induction l as [|x l IHl]; intros Hlen; simpl; [discriminate|].
      pose proof (IH x (Hlen x (or_introl eq_refl))) as Hx.
      destruct (parse_list_f n f x); simpl; [|congruence].
      specialize (IHl (fun p Hp => Hlen p (or_intror Hp))).
      destruct (mapM (parse_list_f n f) l); simpl; congruence. }
    destruct (mapM (parse_list_f n f) _); simpl; congruence.
  - assert (H : forall l, mapM f l <> Err OutOfFuel).
    { induction l as [|x l IHl]; simpl; [discriminate|].
      specialize (Hf x). destruct (f x); simpl; [|congruence].
      destruct (mapM f l); simpl; congruence. }
    specialize (H (split1 "," (c' :: r'))).
    destruct (mapM f _); simpl; congruence.
Qed.
