(** C02: exactly which lists nested three deep are read back.
    C72: where a list may be broken over lines. *)
From Coq Require Import List ZArith Bool Ascii String Arith Lia.
From Verif Require Import Base ParseModel ParseSpec ParseProofs.
Import ListNotations.
Local Open Scope char_scope.
Local Open Scope list_scope.

(** Every list in the middle has one list in it. *)
Definition single_middle (v : val pystr) : Prop :=
  match v with
  | Node l => Forall (fun g => match g with Node [_] => True | _ => False end) l
  | Leaf _ => False
  end.

(** ** Splitting at closing brackets *)
Lemma split2_cons c d x y r : (x <> c \/ y <> d) -> split2 c d (x :: y :: r) = cons_head x (split2 c d (y :: r)).
Proof.
  intros H. change (split2 c d (x :: y :: r)) with (if Ascii.eqb x c && Ascii.eqb y d then [] :: split2 c d r else cons_head x (split2 c d (y :: r))).
  destruct (Ascii.eqb_spec x c), (Ascii.eqb_spec y d); cbn [andb]; try reflexivity. tauto.
Qed.
Lemma split2_many c d m r : c <> d -> split2 c d (repeat c m ++ c :: d :: r) = repeat c m :: split2 c d r.
Proof.
  intros Hcd. induction m as [|m IH]; [cbn [repeat app split2]; now rewrite !Ascii.eqb_refl|].
  cbn [repeat app]. destruct (repeat c m ++ c :: d :: r) as [|y r'] eqn:E; [destruct m; discriminate|].
  assert (y = c) by (destruct m; cbn in E; congruence). subst y.
  rewrite split2_cons by auto. rewrite IH. reflexivity.
Qed.
Lemma split2_piece_app c d s m r : Forall (fun x => x <> c) s -> c <> d ->
  split2 c d (s ++ repeat c m ++ c :: d :: r) = (s ++ repeat c m) :: split2 c d r.
Proof.
  intros Hs Hcd. induction Hs as [|x l Hx _ IH]; [now apply split2_many|]. cbn [app].
  destruct (l ++ repeat c m ++ c :: d :: r) as [|y r'] eqn:E; [destruct l; [destruct m|]; discriminate|].
  rewrite split2_cons by auto. rewrite IH. reflexivity.
Qed.
Lemma split2_piece_last c d s m : Forall (fun x => x <> c) s -> c <> d -> split2 c d (s ++ repeat c m) = [s ++ repeat c m].
Proof.
  intros Hs Hcd. induction Hs as [|x l Hx _ IH].
  - induction m as [|[|m] IH]; [reflexivity|reflexivity|]. cbn [repeat app] in *. rewrite split2_cons by auto. rewrite IH. reflexivity.
  - cbn [app]. destruct (l ++ repeat c m) as [|y r'] eqn:E; [reflexivity|]. rewrite split2_cons by auto. rewrite IH. reflexivity.
Qed.
(** A text without closing brackets and then some of them. *)
Definition piece (p : pystr) : Prop := exists s m, p = s ++ repeat "]" m ++ ["]"] /\ Forall (fun x => x <> "]") s.
Lemma join_cons x y l : join_comma (x :: y :: l) = x ++ "," :: join_comma (y :: l).
Proof. reflexivity. Qed.
Lemma split2_pieces l : l <> [] -> Forall piece l -> close_brackets (split2 "]" "," (join_comma l)) = l.
Proof.
  induction l as [|x [|y l] IH]; intros Hn H; [congruence| |].
  - inversion H as [|? ? (s & m & -> & Hs) _]; subst. change (join_comma [s ++ repeat "]" m ++ ["]"]]) with (s ++ repeat "]" m ++ ["]"]).
    rewrite <- repeat_cons. change ("]" :: repeat "]" m) with (repeat "]" (S m)). rewrite split2_piece_last by (assumption || discriminate). reflexivity.
  - inversion H as [|? ? (s & m & -> & Hs) Hr]; subst. rewrite join_cons.
    replace ((s ++ repeat "]" m ++ ["]"]) ++ "," :: join_comma (y :: l)) with (s ++ repeat "]" m ++ "]" :: "," :: join_comma (y :: l)) by (now rewrite <- !app_assoc).
    rewrite split2_piece_app by (assumption || discriminate). specialize (IH ltac:(congruence) Hr).
    destruct (split2 "]" "," (join_comma (y :: l))) as [|p ps] eqn:E; [discriminate IH|].
    change (close_brackets ((s ++ repeat "]" m) :: p :: ps)) with (((s ++ repeat "]" m) ++ ["]"]) :: close_brackets (p :: ps)).
    rewrite IH. now rewrite <- app_assoc.
Qed.

(** ** The pieces of a list of lists of lists *)
Fixpoint tail_pieces (x : pystr) (xs : list pystr) : list pystr :=
  match xs with
  | [] => [brack x ++ ["]"]]
  | y :: xs => brack x :: tail_pieces y xs
  end.
Definition group_pieces (xs : list pystr) : list pystr :=
  match xs with
  | [] => []
  | x :: xs => match tail_pieces x xs with p :: ps => ("[" :: p) :: ps | [] => [] end
  end.
Lemma tail_nonempty x xs : exists p ps, tail_pieces x xs = p :: ps.
Proof. destruct xs; cbn; eauto. Qed.
Lemma join_tail xs : forall x, join_comma (tail_pieces x xs) = join_comma (map brack (x :: xs)) ++ ["]"].
Proof.
  induction xs as [|y xs IH]; intros x; [reflexivity|]. cbn [tail_pieces map]. destruct (tail_nonempty y xs) as (p & ps & E).
  specialize (IH y). rewrite E in *. rewrite !join_cons. rewrite IH. cbn [map]. now rewrite <- app_assoc.
Qed.
Lemma join_group xs : xs <> [] -> join_comma (group_pieces xs) = brack (join_comma (map brack xs)).
Proof.
  destruct xs as [|x xs]; [congruence|]. intros _. cbn [group_pieces]. pose proof (join_tail xs x) as J. destruct (tail_nonempty x xs) as (p & ps & E). rewrite E in *.
  unfold brack at 1. rewrite <- J. destruct ps as [|q ps]; [reflexivity|]. rewrite !join_cons. reflexivity.
Qed.
Lemma join_app l m : l <> [] -> m <> [] -> join_comma (l ++ m) = join_comma l ++ "," :: join_comma m.
Proof.
  intros Hl Hm. induction l as [|x [|y l] IH]; [congruence| |].
  - destruct m; [congruence|]. reflexivity.
  - cbn [app]. rewrite !join_cons. cbn [app] in IH. rewrite IH by congruence. now rewrite <- app_assoc.
Qed.
Lemma group_nonempty xs : xs <> [] -> group_pieces xs <> [].
Proof. destruct xs as [|x xs]; [congruence|]. intros _. cbn. destruct (tail_nonempty x xs) as (p & ps & ->). discriminate. Qed.
Lemma join_groups gs : Forall (fun xs => xs <> []) gs ->
  join_comma (flat_map group_pieces gs) = join_comma (map (fun xs => brack (join_comma (map brack xs))) gs).
Proof.
  induction 1 as [|xs gs Hx Hg IH]; [reflexivity|]. cbn [flat_map map]. destruct gs as [|ys gs].
  - cbn [flat_map map join_comma]. rewrite app_nil_r. now apply join_group.
  - rewrite join_app; [|now apply group_nonempty|].
    + rewrite IH, join_group by assumption. reflexivity.
    + inversion Hg; subst. cbn [flat_map]. destruct (group_pieces ys) eqn:E; [now apply group_nonempty in E|discriminate].
Qed.
Lemma brack_piece x : Forall (fun c => c <> "]") x -> piece (brack x) /\ piece (brack x ++ ["]"]).
Proof.
  intros H. split; exists ("[" :: x); [exists 0%nat|exists 1%nat]; (split; [unfold brack; cbn [app repeat]; now rewrite <- ?app_assoc|]); constructor; (discriminate || assumption).
Qed.
Lemma tail_all_pieces xs : forall x, Forall (Forall (fun c => c <> "]")) (x :: xs) -> Forall piece (tail_pieces x xs).
Proof.
  induction xs as [|y xs IH]; intros x H; inversion H as [|? ? Hx Hr]; subst; cbn [tail_pieces]; constructor.
  - now apply brack_piece. - constructor. - now apply brack_piece. - now apply IH.
Qed.
Lemma group_all_pieces xs : Forall (Forall (fun c => c <> "]")) xs -> Forall piece (group_pieces xs).
Proof.
  destruct xs as [|x xs]; intros H; [constructor|]. cbn. pose proof (tail_all_pieces xs x H) as Hp. destruct (tail_pieces x xs); [constructor|].
  inversion Hp as [|? ? (s & m & -> & Hs) Hr]; subst. constructor; [|assumption]. exists ("[" :: s), m. split; [reflexivity|]. constructor; [discriminate|assumption].
Qed.
Lemma tail_last xs : forall x, exists ts, In ts (x :: xs) /\ In (brack ts ++ ["]"]) (tail_pieces x xs).
Proof.
  induction xs as [|y xs IH]; intros x; cbn [tail_pieces].
  - exists x. split; now left.
  - destruct (IH y) as (ts & H1 & H2). exists ts. split; [now right|now right].
Qed.
Lemma group_last x y xs : exists ts, In ts (x :: y :: xs) /\ In (brack ts ++ ["]"]) (group_pieces (x :: y :: xs)).
Proof. cbn. destruct (tail_last xs y) as (ts & H1 & H2). exists ts. split; [now right|now right]. Qed.

(** ** Literals *)
Lemma literal3 v : literal 3 v -> exists tsss : list (list (list pystr)),
  v = Node (map (fun tss => Node (map (fun ts => Node (map Leaf ts)) tss)) tsss) /\ tsss <> [] /\
  Forall (fun tss => tss <> [] /\ Forall (fun ts => ts <> [] /\ Forall token ts) tss) tsss.
Proof.
  destruct v as [|l]; [easy|]. intros [Hn H].
  assert (exists tsss, l = map (fun tss => Node (map (fun ts => Node (map Leaf ts)) tss)) tsss /\
            Forall (fun tss => tss <> [] /\ Forall (fun ts => ts <> [] /\ Forall token ts) tss) tsss) as (tsss & -> & Ht).
  { clear Hn. induction H as [|x l Hx Hl (tsss & -> & Ht)]; [exists []; split; constructor|].
    destruct (literal2 x Hx) as (tss & -> & H1 & H2). exists (tss :: tsss). split; [reflexivity|]. constructor; auto. }
  exists tsss. split; [reflexivity|]. split; [|assumption]. intros ->. now apply Hn.
Qed.
Lemma render2 tss : render (Node (map (fun ts => Node (map Leaf ts)) tss)) = brack (join_comma (map brack (map join_comma tss))).
Proof. unfold brack at 1. cbn [render]. rewrite map_map. f_equal. f_equal. f_equal. rewrite map_map. apply map_ext. intros ts. apply render1. Qed.
Lemma nobracket_join ts : Forall token ts -> Forall (fun c => c <> "]") (join_comma ts).
Proof. intros H. apply Forall_join; [discriminate|]. eapply Forall_impl; [|exact H]. intros t Ht. apply token_forall; [|assumption]. intros c Hc; apply Hc. Qed.
Lemma nospace_piece p : nospace p -> nospace (p ++ ["]"]).
Proof. intros H. apply Forall_app. split; [assumption|]. repeat constructor. discriminate. Qed.
(** The last list of a group is read with a bracket too many. *)
Lemma parse_last {A} (f : pystr -> res A) n ts w : ts <> [] -> Forall token ts ->
  parse_list_f (S n) f (brack (join_comma ts) ++ ["]"]) = Ok w ->
  exists t us, w = Node (map Leaf us) /\ us <> [] /\ In "]" t /\ (exists a, f t = Ok a).
Proof.
  intros Hn Ht H. cbn [parse_list_f] in H.
  rewrite (spaced_remove _ _ (spaced_refl _)) in H by (apply nospace_piece, nospace_brack, nospace_join, Ht).
  unfold brack in H at 1. cbn [app] in H. rewrite Ascii.eqb_refl in H.
  replace (slice_1_m1 (brack (join_comma ts) ++ ["]"])) with (join_comma ts ++ ["]"]) in H.
  2:{ unfold slice_1_m1, brack. cbn [app tl]. symmetry. apply (removelast_last (join_comma ts ++ ["]"]) "]"). }
  destruct (join_hd ts Hn Ht) as (c & r & E & Hc). rewrite E in H. cbn [app] in H. rewrite (plain_neq c "[" Hc) in H by auto. rewrite app_comm_cons, <- E in H.
  assert (S : exists us t, split1 "," (join_comma ts ++ ["]"]) = us ++ [t] /\ In "]" t).
  { clear -Hn Ht. induction ts as [|t [|t' ts] IH]; [congruence| |].
    - inversion Ht; subst. cbn [join_comma]. exists [], (t ++ ["]"]). split; [|apply in_or_app; right; now left].
      apply split1_none. apply Forall_app. split; [|repeat constructor; discriminate]. apply token_forall; [|assumption]. intros c Hc; apply Hc.
    - inversion Ht as [|? ? H1 H2]; subst. destruct (IH ltac:(congruence) H2) as (us & u & E & Hu). exists (t :: us), u. split; [|assumption].
      rewrite join_cons, <- app_assoc. cbn [app]. rewrite split1_app by (apply token_forall; [intros c Hc; apply Hc|assumption]). rewrite E. reflexivity. }
  destruct S as (us & t & E1 & Hin). rewrite E1 in H. apply bind_Ok in H as (l & Hl & H). injection H as <-.
  apply mapM_Ok in Hl. exists t, l. split; [reflexivity|]. split; [|split; [exact Hin|]].
  - intros ->. inversion Hl. destruct us; discriminate.
  - apply Forall2_app_inv_l in Hl as (l1 & l2 & _ & H2 & _). inversion H2 as [|? a ? ? Ha]; subst. eauto.
Qed.

(** C02.  A list nested three deep is read back if every list in the middle has
    one element.  Otherwise what is read never has the form of what was written;
    lists of numbers are refused then. *)
Theorem C02_three_levels_partial :
  forall (A : Type) (dtype : pystr -> res A) (v : val pystr) (s : pystr), literal 3 v -> spaced (render v) s ->
  (single_middle v -> parse_list dtype s = convert_all dtype v) /\
  (~ single_middle v ->
     (forall w, parse_list dtype s = Ok w -> ~ same_shape v w) /\
     ((forall t a, dtype t = Ok a -> ~ In "]" t) -> forall w, parse_list dtype s <> Ok w)).
Proof.
  intros A f v s Hv Hs. destruct (literal3 v Hv) as (tsss & -> & Hn & Ht).
  set (grp := fun tss => brack (join_comma (map brack (map (@join_comma) tss)))) in *.
  assert (Hr : render (Node (map (fun tss => Node (map (fun ts => Node (map Leaf ts)) tss)) tsss)) = brack (join_comma (map grp tsss))).
  { unfold brack. cbn [render]. rewrite map_map. f_equal. f_equal. f_equal. apply map_ext. intros tss. apply render2. }
  rewrite Hr in Hs.
  assert (Hlen : (2 <= List.length s)%nat).
  { apply spaced_length in Hs. unfold brack in Hs. cbn [List.length] in Hs. rewrite app_length in Hs. cbn in Hs. lia. }
  assert (Hl3 : exists n, List.length s = S (S n)) by (destruct (List.length s) as [|[|n]]; [lia|lia|eauto]). destruct Hl3 as (n & En).
  assert (Hsp : nospace (brack (join_comma (map grp tsss)))).
  { apply nospace_brack, Forall_join; [discriminate|]. apply Forall_map. eapply Forall_impl; [|exact Ht]. intros tss [_ H]. unfold grp.
    apply nospace_brack, Forall_join; [discriminate|]. rewrite map_map. apply Forall_map. eapply Forall_impl; [|exact H]. intros ts [_ H']. apply nospace_brack, nospace_join, H'. }
  assert (Hp : parse_list f s = (let* l := mapM (parse_list_f (S (S n)) f) (flat_map group_pieces (map (map (@join_comma)) tsss)) in Ok (Node l))).
  { unfold parse_list. rewrite En. remember (S (S n)) as m eqn:Em. cbn [parse_list_f]. rewrite (spaced_remove _ _ Hs Hsp). unfold brack at 1. rewrite Ascii.eqb_refl, slice_brack.
    assert (exists r, join_comma (map grp tsss) = "[" :: r) as (r & E) by (destruct tsss as [|x [|y l]]; [congruence| |]; unfold grp, brack; cbn; eauto).
    rewrite E, Ascii.eqb_refl, <- E.
    replace (join_comma (map grp tsss)) with (join_comma (flat_map group_pieces (map (map (@join_comma)) tsss))).
    2:{ rewrite join_groups; [|apply Forall_map; eapply Forall_impl; [|exact Ht]; intros tss [H _]; destruct tss; [congruence|discriminate]].
        rewrite map_map. reflexivity. }
    rewrite split2_pieces; [reflexivity| |].
    - destruct tsss as [|x l]; [congruence|]. cbn [map flat_map]. inversion Ht as [|? ? [Hx _] _]; subst.
      destruct (group_pieces (map (@join_comma) x)) eqn:E'; [|discriminate]. exfalso. revert E'. apply group_nonempty. destruct x; [congruence|discriminate].
    - clear -Ht. induction Ht as [|tss l [_ H] _ IH]; [constructor|]. cbn [map flat_map]. apply Forall_app. split; [|exact IH].
      apply group_all_pieces. apply Forall_map. eapply Forall_impl; [|exact H]. intros ts [_ H']. now apply nobracket_join. }
  split.
  - intros Hm. rewrite Hp, convert_all_node, mapM_map. f_equal. cbn [single_middle] in Hm. clear Hs Hr Hsp Hp Hv En Hlen Hn.
    induction tsss as [|tss l IH]; [reflexivity|]. inversion Ht as [|? ? [Hx Hxs] Hrest]; subst. inversion Hm as [|? ? Hm1 Hm2]; subst.
    destruct tss as [|ts [|]]; [contradiction| |contradiction]. inversion Hxs; subst.
    cbn [map flat_map group_pieces tail_pieces app mapM]. rewrite (IH Hrest Hm2).
    rewrite (parse_list_f_2 f n ("[" :: brack (join_comma ts) ++ ["]"]) [ts]); [reflexivity|discriminate|assumption|]. rewrite render2. apply spaced_refl.
  - intros Hm.
    assert (Hbad : exists ts, ts <> [] /\ Forall token ts /\ In (brack (join_comma ts) ++ ["]"]) (flat_map group_pieces (map (map (@join_comma)) tsss))).
    { cbn [single_middle] in Hm. clear -Ht Hm. induction tsss as [|tss l IH]; [exfalso; apply Hm; constructor|]. inversion Ht as [|? ? [Hx Hxs] Hrest]; subst.
      destruct tss as [|ts [|ts2 tss]]; [congruence| |].
      - destruct IH as (t & H1 & H2 & H3); [assumption| |]. { intros H. apply Hm. cbn [map]. constructor; [exact I|exact H]. }
        exists t. split; [assumption|]. split; [assumption|]. cbn [map flat_map]. apply in_or_app. now right.
      - destruct (group_last (join_comma ts) (join_comma ts2) (map (@join_comma) tss)) as (t & H1 & H2).
        assert (In t (map (@join_comma) (ts :: ts2 :: tss))) as Hi by exact H1. apply in_map_iff in Hi as (u & <- & Hi).
        rewrite Forall_forall in Hxs. destruct (Hxs u Hi) as [U1 U2]. exists u. split; [assumption|]. split; [assumption|].
        cbn [map flat_map]. apply in_or_app. left. exact H2. }
    destruct Hbad as (ts & T1 & T2 & T3).
    assert (Hw : forall w, parse_list f s = Ok w -> exists l t us, w = Node l /\ In (Node (map Leaf us)) l /\ us <> [] /\ In "]" t /\ exists a, f t = Ok a).
    { intros w H. rewrite Hp in H. apply bind_Ok in H as (l & Hl & H). injection H as <-. apply mapM_Ok in Hl.
      apply in_split in T3 as (l1 & l2 & E). rewrite E in Hl. apply Forall2_app_inv_l in Hl as (m1 & m2 & _ & H2 & ->).
      inversion H2 as [|? x ? ? Hx]; subst. destruct (parse_last f (S n) ts x T1 T2 Hx) as (t & us & -> & U1 & U2 & U3).
      exists (m1 ++ Node (map Leaf us) :: l'), t, us. split; [reflexivity|]. split; [apply in_or_app; right; now left|]. auto. }
    split.
    + intros w H Hss. destruct (Hw w H) as (l & t & us & -> & Hin & Hus & _). inversion Hss as [|? ? F2]; subst.
      apply in_split in Hin as (m1 & m2 & ->). apply Forall2_app_inv_r in F2 as (l1 & l2 & _ & F3 & E). inversion F3 as [|x ? xs ? Hx]; subst.
      assert (Hi : In x (map (fun tss : list (list pystr) => Node (map (fun ts => Node (map Leaf ts)) tss)) tsss)) by (rewrite E; apply in_or_app; right; now left).
      apply in_map_iff in Hi as (tss & <- & Hi). rewrite Forall_forall in Ht. destruct (Ht tss Hi) as [H1 _].
      inversion Hx as [|? ? F4]; subst. destruct tss as [|u tss]; [congruence|]. destruct us as [|u' us]; [congruence|]. cbn [map] in F4.
      inversion F4 as [|? ? ? ? F5]; subst. inversion F5.
    + intros Hd w H. destruct (Hw w H) as (l & t & us & _ & _ & _ & Hin & a & Ha). exact (Hd t a Ha Hin).
Qed.
Print Assumptions C02_three_levels_partial.

(** Two files: the first is read, in the second nothing is. *)
Example C02_example :
  let one := Node [Node [Node [Leaf (S_ "10"); Leaf (S_ "20")]]; Node [Node [Leaf (S_ "30")]]] in
  let two := Node [Node [Node [Leaf (S_ "10"); Leaf (S_ "20")]; Node [Leaf (S_ "30")]]] in
  literal 3 one /\ single_middle one /\ literal 3 two /\ ~ single_middle two /\
  parse_list (fun t => Ok t) (S_ "[[[10,20]],[[30]]]") = Ok one /\
  parse_list (fun t => Ok t) (S_ "[[[10, 20],[30]]]") = Ok (Node [Node [Node [Leaf (S_ "10"); Leaf (S_ "2")]]; Node [Leaf (S_ "30]")]]).
Proof.
  cbv zeta. assert (L : forall a b c : pystr, token a -> token b -> token c -> literal 3 (Node [Node [Node [Leaf a; Leaf b]]; Node [Node [Leaf c]]]) /\ literal 3 (Node [Node [Node [Leaf a; Leaf b]; Node [Leaf c]]])).
  { intros a b c Ha Hb Hc. split; repeat (first [assumption | split | constructor | discriminate]). }
  assert (T : forall a b, plain_char a -> plain_char b -> token [a; b]) by (intros a b Ha Hb; split; [discriminate|constructor; [exact Ha|constructor; [exact Hb|constructor]]]).
  destruct (L (S_ "10") (S_ "20") (S_ "30")) as [L1 L2]; try (apply T; repeat split; discriminate).
  split; [exact L1|]. split; [repeat constructor|]. split; [exact L2|]. split; [intros H; inversion H; contradiction|]. split; vm_compute; reflexivity.
Qed.

(** ** C72.  Lists broken over lines *)
Definition line_break : ascii := ascii_of_nat 10.
Definition breaks (s : pystr) : Prop := Forall (fun c => c = line_break) s.
(** [w] is [v] with line breaks put before and after the entries. *)
Inductive broken : val pystr -> val pystr -> Prop :=
  | br_leaf a t b : breaks a -> breaks b -> broken (Leaf t) (Leaf (a ++ t ++ b))
  | br_node l m : Forall2 broken l m -> broken (Node l) (Node m).
Lemma break_plain s : breaks s -> Forall plain_char s.
Proof. intros H. eapply Forall_impl; [|exact H]. intros c ->. repeat split; discriminate. Qed.
Lemma broken_literal d : forall v w, broken v w -> literal d v -> literal d w.
Proof.
  induction d as [|d IH]; intros v w Hb Hv; inversion Hb as [a t b Ha Hb'|l m F]; subst; try contradiction.
  - destruct Hv as [H1 H2]. split.
    + intros E. apply app_eq_nil in E as [_ E]. apply app_eq_nil in E as [E _]. contradiction.
    + apply Forall_app. split; [now apply break_plain|]. apply Forall_app. split; [assumption|now apply break_plain].
  - destruct Hv as [H1 H2]. split; [intros ->; inversion F; subst; contradiction|].
    clear H1 Hb. revert H2. induction F; intros H2; inversion H2; subst; constructor; eauto.
Qed.
Lemma broken_convert {A} (f : pystr -> res A) d : (forall a t b, breaks a -> breaks b -> f (a ++ t ++ b) = f t) ->
  forall v w, broken v w -> literal d v -> convert_all f w = convert_all f v.
Proof.
  intros Hf. induction d as [|d IH]; intros v w Hb Hv; inversion Hb as [a t b Ha Hb'|l m F]; subst; try contradiction.
  - cbn. now rewrite Hf.
  - rewrite !convert_all_node. f_equal. destruct Hv as [_ H2]. clear Hb. revert H2.
    induction F as [|x y l m Hxy F IHF]; intros H2; inversion H2; subst; [reflexivity|]. cbn [mapM]. rewrite (IH x y) by assumption. now rewrite IHF.
Qed.

(** Numbers, which float and int take with white space around, may stand on
    several lines inside one list; line breaks beside names become part of them. *)
Theorem C72_entries_partial :
  (forall (A : Type) (dtype : pystr -> res A) (d : nat) (v w : val pystr) (s : pystr),
     (forall a t b, breaks a -> breaks b -> dtype (a ++ t ++ b) = dtype t) ->
     (d <= 2)%nat -> literal d v -> broken v w -> spaced (render w) s -> parse_list dtype s = convert_all dtype v) /\
  (forall (d : nat) (v w : val pystr) (s : pystr), (d <= 2)%nat -> literal d v -> broken v w -> spaced (render w) s -> parse_list (fun t => Ok t) s = Ok w).
Proof.
  split.
  - intros A f d v w s Hf Hd Hv Hb Hs. rewrite (parse_list_literal f d w s Hd (broken_literal d v w Hb Hv) Hs). now apply (broken_convert f d).
  - intros d v w s Hd Hv Hb Hs. pose proof (broken_literal d v w Hb Hv) as Hw. rewrite (parse_list_literal _ d w s Hd Hw Hs). clear -Hw.
    revert w Hw. induction d as [|d IH]; intros w Hw; destruct w as [t|l]; try contradiction; [reflexivity|].
    rewrite convert_all_node. destruct Hw as [_ H]. enough (E : mapM (convert_all (fun t => Ok t)) l = Ok l) by (now rewrite E).
    induction H as [|x l Hx _ IHl]; [reflexivity|]. cbn [mapM]. rewrite (IH x Hx), IHl. reflexivity.
Qed.
Print Assumptions C72_entries_partial.

(** ** Line breaks between the lists of a list *)
Definition element : Type := pystr * list pystr * pystr.
Definition e_text (e : element) : pystr := let '(a, ts, b) := e in a ++ brack (join_comma ts) ++ b.
Definition e_ok (e : element) : Prop := let '(a, ts, b) := e in breaks a /\ breaks b /\ ts <> [] /\ Forall token ts.
Definition e_broken (e : element) : Prop := let '(a, _, b) := e in a <> [] \/ b <> [].

Lemma split1_has c s x : In x s -> x <> c -> exists t, In t (split1 c s) /\ In x t.
Proof.
  intros Hi Hx. induction s as [|y s IH]; [destruct Hi|]. cbn [split1]. destruct (Ascii.eqb_spec y c) as [->|Hy].
  - destruct Hi as [->|Hi]; [congruence|]. destruct (IH Hi) as (t & H1 & H2). exists t. split; [now right|assumption].
  - destruct Hi as [->|Hi].
    + destruct (split1 c s) as [|h t] eqn:E; [exists [x]; split; now left|]. exists (x :: h). split; now left.
    + destruct (IH Hi) as (t & H1 & H2). destruct (split1 c s) as [|h r] eqn:E; [destruct H1|]. cbn [cons_head].
      destruct H1 as [<-|H1]; [exists (y :: h); split; [now left|now right]|exists t; split; [now right|assumption]].
Qed.
(** The first piece begins with the beginning of the text up to a place where
    nothing is cut. *)
Lemma split2_nonempty c d : forall s, exists p ps, split2 c d s = p :: ps.
Proof.
  intros s. destruct s as [|x [|y r]]; [cbn; eauto|cbn; eauto|].
  change (split2 c d (x :: y :: r)) with (if Ascii.eqb x c && Ascii.eqb y d then [] :: split2 c d r else cons_head x (split2 c d (y :: r))).
  destruct (Ascii.eqb x c && Ascii.eqb y d); [eauto|]. destruct (split2 c d (y :: r)); cbn; eauto.
Qed.
Lemma split2_cons1 c d x s : x <> c -> exists q ps, split2 c d (x :: s) = @cons pystr (x :: q) ps.
Proof.
  intros H. destruct s as [|y r]; [cbn; eauto|]. rewrite split2_cons by auto. destruct (split2_nonempty c d (y :: r)) as (p & ps & ->). cbn; eauto.
Qed.
Lemma split2_start c d u s : Forall (fun x => x <> c) u -> exists q ps, split2 c d (u ++ s) = @cons pystr (u ++ q) ps.
Proof.
  induction 1 as [|x u Hx _ (q & ps & IH)].
  - cbn [app]. destruct (split2_nonempty c d s) as (p & ps & ->). eauto.
  - cbn [app]. destruct (u ++ s) as [|y r] eqn:E.
    + cbn. apply app_eq_nil in E as [-> ->]. exists [], []. reflexivity.
    + rewrite split2_cons by auto. rewrite IH. cbn. eauto.
Qed.
Lemma split2_cut c d u x s : Forall (fun x => x <> c) u -> x <> d -> x <> c -> exists q ps, split2 c d (u ++ c :: x :: s) = @cons pystr (u ++ c :: x :: q) ps.
Proof.
  intros Hu Hx Hc. induction Hu as [|y u Hy _ (q & ps & IH)].
  - cbn [app]. rewrite split2_cons by auto. destruct (split2_cons1 c d x s Hc) as (q & ps & ->). cbn; eauto.
  - cbn [app]. destruct (u ++ c :: x :: s) as [|z r] eqn:E; [destruct u; discriminate|]. rewrite split2_cons by auto. rewrite IH. cbn. eauto.
Qed.
Lemma close_head p ps : exists q qs, close_brackets (p :: ps) = @cons pystr (p ++ q) qs /\ (q = [] \/ q = ["]"]).
Proof. destruct ps as [|p' ps]; [exists [], []; rewrite app_nil_r; auto|]. exists ["]"], (close_brackets (p' :: ps)). auto. Qed.

Section Refused.
Context {A : Type} (f : pystr -> res A).
Hypothesis Hf : forall t a, f t = Ok a -> ~ In "[" t /\ ~ In "]" t.

(** A piece that does not begin with a bracket but contains one is refused. *)
Lemma refused_item n c q : c <> "[" -> c <> " " -> In "[" q -> forall w, parse_list_f n f (c :: q) <> Ok w.
Proof.
  intros Hc Hs Hi w H. destruct n as [|n]; [discriminate H|]. cbn [parse_list_f] in H. unfold remove_spaces in H. cbn [filter] in H.
  apply Ascii.eqb_neq in Hc, Hs. rewrite Hs in H. cbn [negb] in H. rewrite Hc in H. apply bind_Ok in H as (a & Ha & _). destruct (Hf _ _ Ha) as [Hno _]. apply Hno. right.
  apply filter_In. split; [exact Hi|reflexivity].
Qed.
(** A piece with something behind its closing bracket is refused. *)
Lemma refused_closed n ts x q : ts <> [] -> Forall token ts -> x <> " " ->
  forall w, parse_list_f n f ("[" :: join_comma ts ++ "]" :: x :: q) <> Ok w.
Proof.
  intros Hn Ht Hx w H. destruct n as [|n]; [discriminate H|]. cbn [parse_list_f] in H.
  assert (Er : remove_spaces ("[" :: join_comma ts ++ "]" :: x :: q) = "[" :: join_comma ts ++ "]" :: x :: remove_spaces q).
  { pose proof (spaced_remove _ _ (spaced_refl _) (nospace_join ts Ht)) as E. unfold remove_spaces in *. cbn [filter]. change (negb (Ascii.eqb "[" " ")) with true. cbv iota.
    rewrite filter_app, E. cbn [filter]. change (negb (Ascii.eqb "]" " ")) with true. cbv iota. apply Ascii.eqb_neq in Hx. rewrite Hx. reflexivity. }
  rewrite Er in H. rewrite Ascii.eqb_refl in H. generalize (remove_spaces q) as q', H. clear H Er q. intros q H.
  assert (E : slice_1_m1 ("[" :: join_comma ts ++ "]" :: x :: q) = join_comma ts ++ "]" :: removelast (x :: q)).
  { unfold slice_1_m1. cbn [tl]. rewrite removelast_app by discriminate. reflexivity. }
  rewrite E in H. destruct (join_hd ts Hn Ht) as (c & r & Ej & Hc). rewrite Ej in H. cbn [app] in H. rewrite (plain_neq c "[" Hc) in H by auto.
  rewrite app_comm_cons, <- Ej in H. apply bind_Ok in H as (l & Hl & _). apply mapM_Ok in Hl.
  destruct (split1_has "," (join_comma ts ++ "]" :: removelast (x :: q)) "]") as (t & H1 & H2); [apply in_or_app; right; now left|discriminate|].
  apply in_split in H1 as (l1 & l2 & E1). rewrite E1 in Hl. apply Forall2_app_inv_l in Hl as (m1 & m2 & _ & F & _). inversion F as [|? a ? ? Ha]; subst.
  destruct (Hf _ _ Ha) as [_ Hno]. exact (Hno H2).
Qed.
Lemma break_hd a : breaks a -> a <> [] -> exists r, a = line_break :: r.
Proof. intros H Hn. destruct H as [|c r -> _]; [congruence|eauto]. Qed.
Lemma join_first x l : exists r, join_comma (x :: l) = x ++ r.
Proof. destruct l as [|y l]; [exists []; cbn; now rewrite app_nil_r|]. rewrite join_cons. eauto. Qed.
Lemma bad_piece n : forall es, Forall e_ok es -> Exists e_broken es ->
  exists p, In p (close_brackets (split2 "]" "," (join_comma (map e_text es)))) /\ forall w, parse_list_f n f p <> Ok w.
Proof.
  induction es as [|[[a ts] b] es IH]; intros Hok Hbr; [inversion Hbr|]. inversion Hok as [|? ? He Hrest]; subst. destruct He as (Ha & Hb & Hn & Ht).
  assert (Hnb : forall u, breaks u -> Forall (fun x => x <> "]") u) by (intros u Hu; eapply Forall_impl; [|exact Hu]; intros c ->; discriminate).
  destruct a as [|a0 a].
  2:{ destruct (break_hd _ Ha ltac:(discriminate)) as (r & Er). cbn [map]. match goal with |- context [join_comma (?x :: ?l)] => destruct (join_first x l) as (r2 & Ej) end. rewrite Ej.
      unfold e_text, brack. replace (((a0 :: a) ++ ("[" :: join_comma ts ++ ["]"]) ++ b) ++ r2) with (((a0 :: a) ++ ["["]) ++ ((join_comma ts ++ ["]"]) ++ b) ++ r2)
        by (repeat (rewrite <- ?app_assoc; cbn [app]); reflexivity).
      destruct (split2_start "]" "," ((a0 :: a) ++ ["["]) (((join_comma ts ++ ["]"]) ++ b) ++ r2)) as (q & ps & ->); [apply Forall_app; split; [now apply Hnb|repeat constructor; discriminate]|].
      match goal with |- context [close_brackets (?x :: ?l)] => destruct (close_head x l) as (q2 & qs & -> & _) end. eexists. split; [now left|]. inversion Ha as [|? ? -> _]; subst. cbn [app].
      apply refused_item; [discriminate|discriminate|]. apply in_or_app. left. apply in_or_app. left. apply in_or_app. right. now left. }
  destruct b as [|b0 b].
  2:{ inversion Hb as [|? ? -> _]; subst. cbn [map]. match goal with |- context [join_comma (?x :: ?l)] => destruct (join_first x l) as (r2 & Ej) end. rewrite Ej.
      unfold e_text, brack. cbn [app]. replace ("[" :: ((join_comma ts ++ ["]"]) ++ line_break :: b) ++ r2) with (("[" :: join_comma ts) ++ "]" :: line_break :: b ++ r2)
        by (repeat (rewrite <- ?app_assoc; cbn [app]); reflexivity).
      destruct (split2_cut "]" "," ("[" :: join_comma ts) line_break (b ++ r2)) as (q & ps & ->); [constructor; [discriminate|now apply nobracket_join]|discriminate|discriminate|].
      match goal with |- context [close_brackets (?x :: ?l)] => destruct (close_head x l) as (q2 & qs & -> & _) end. eexists. split; [now left|].
      cbn [app]. rewrite <- app_assoc. cbn [app]. apply refused_closed; [assumption|assumption|discriminate]. }
  inversion Hbr as [? ? Hx|? ? Hx]; subst; [destruct Hx; congruence|]. destruct (IH Hrest Hx) as (p & Hp & Hw). exists p. split; [|exact Hw].
  destruct es as [|e es]; [inversion Hx|]. cbn [map] in *. rewrite join_cons. unfold e_text at 1, brack. cbn [app]. rewrite app_nil_r.
  replace ("[" :: (join_comma ts ++ ["]"]) ++ "," :: join_comma (e_text e :: map e_text es)) with (("[" :: join_comma ts) ++ "]" :: "," :: join_comma (e_text e :: map e_text es))
    by (repeat (rewrite <- ?app_assoc; cbn [app]); reflexivity).
  rewrite split2_app by (constructor; [discriminate|now apply nobracket_join]).
  destruct (split2_nonempty "]" "," (join_comma (e_text e :: map e_text es))) as (p1 & ps & E). rewrite E in *.
  change (close_brackets (("[" :: join_comma ts) :: p1 :: ps)) with ((("[" :: join_comma ts) ++ ["]"]) :: close_brackets (p1 :: ps)). now right.
Qed.
End Refused.

(** A line break between the lists of a list of lists of numbers, or between a
    bracket and the first or last of them, is refused. *)
Theorem C72_between_refuted :
  forall (A : Type) (dtype : pystr -> res A) (es : list element) (s : pystr),
  (forall t a, dtype t = Ok a -> ~ In "[" t /\ ~ In "]" t) ->
  Forall e_ok es -> Exists e_broken es -> spaced (brack (join_comma (map e_text es))) s ->
  forall w, parse_list dtype s <> Ok w.
Proof.
  intros A f es s Hf Hok Hbr Hs w H. unfold parse_list in H. remember (List.length s) as n eqn:En. clear En. cbn [parse_list_f] in H.
  assert (Hsp : nospace (brack (join_comma (map e_text es)))).
  { apply nospace_brack, Forall_join; [discriminate|]. apply Forall_map. eapply Forall_impl; [|exact Hok]. intros [[a ts] b] (Ha & Hb & _ & Ht). unfold e_text.
    assert (Hn : forall u, breaks u -> nospace u) by (intros u Hu; eapply Forall_impl; [|exact Hu]; intros c ->; discriminate).
    apply Forall_app. split; [now apply Hn|]. apply Forall_app. split; [apply nospace_brack, nospace_join, Ht|now apply Hn]. }
  rewrite (spaced_remove _ _ Hs Hsp) in H. unfold brack in H at 1. rewrite Ascii.eqb_refl, slice_brack in H.
  destruct es as [|[[a ts] b] es]; [inversion Hbr|]. destruct (bad_piece f Hf n _ Hok Hbr) as (p & Hp & Hw).
  cbn [map] in *. match type of H with context [join_comma (?x :: ?l)] => destruct (join_first x l) as (r & Ej); set (J := join_comma (x :: l)) in * end. destruct a as [|a0 a].
  - assert (Ej' : exists r', J = "[" :: r') by (rewrite Ej; unfold e_text, brack; cbn [app]; eauto). destruct Ej' as (r' & Ej'). clearbody J. clear Ej. subst J. rewrite Ascii.eqb_refl in H.
    apply bind_Ok in H as (l & Hl & _). apply mapM_Ok in Hl. apply in_split in Hp as (l1 & l2 & E1). rewrite E1 in Hl.
    apply Forall2_app_inv_l in Hl as (m1 & m2 & _ & F & _). inversion F as [|? x ? ? Hx]; subst. exact (Hw _ Hx).
  - inversion Hok as [|? ? He _]; subst. destruct He as (Ha & _). inversion Ha as [|? ? -> Ha']; subst.
    unfold e_text in Ej. cbn [app] in Ej. clearbody J. subst J. change (Ascii.eqb line_break "[") with false in H. cbv iota in H.
    apply bind_Ok in H as (l & Hl & _). apply mapM_Ok in Hl.
    destruct (split1_has "," (line_break :: (a ++ brack (join_comma ts) ++ b) ++ r) "[") as (t & H1 & H2); [|discriminate|].
    { right. apply in_or_app. left. apply in_or_app. right. now left. }
    apply in_split in H1 as (l1 & l2 & E1). rewrite E1 in Hl. apply Forall2_app_inv_l in Hl as (m1 & m2 & _ & F & _). inversion F as [|? x ? ? Hx]; subst.
    destruct (Hf _ _ Hx) as [Hno _]. exact (Hno H2).
Qed.
Print Assumptions C72_between_refuted.

Example C72_example :
  let number := fun t => if ParseModel.isdigit (filter (fun c => negb (Ascii.eqb c line_break)) t) then Ok (digits_value (filter (fun c => negb (Ascii.eqb c line_break)) t)) else Err ValueError in
  parse_list number (S_ "[[1," ++ line_break :: S_ "2],[3]]") = Ok (Node [Node [Leaf 1%Z; Leaf 2%Z]; Node [Leaf 3%Z]]) /\
  parse_list number (S_ "[[1,2]," ++ line_break :: S_ "[3]]") = Err ValueError.
Proof. split; vm_compute; reflexivity. Qed.
