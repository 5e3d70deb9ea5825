(** Reading sections, one of which may be DEFAULT: as IniProofs, for a current
    section that is an ordinary one or DEFAULT. *)
From Coq Require Import List ZArith Bool Ascii String Arith Lia.
From Verif Require Import Base ParseModel ConfigModel DeprecatedModel IniModel IniSpec IniProofs ReferSpec ReferProofs InheritSpec.
Import ListNotations.
Local Open Scope nat_scope.
Local Open Scope list_scope.

(** [c] is the current section ([None]: DEFAULT) with the options [cur], [pre]
    are the ordinary sections above, [D] the options of DEFAULT read before *)
Definition holds (D : raw_section) (s : istate) (pre : list (pystr * raw_section)) (c : option pystr) (cur : raw_section) : Prop :=
  match c with
  | Some nm => i_sections s = pre ++ [(nm, cur)] /\ ~ In nm (map fst pre) /\ i_defaults s = D
  | None => i_sections s = pre /\ i_defaults s = cur
  end.
Definition inside (D : raw_section) (s : istate) (pre : list (pystr * raw_section)) (c : option pystr)
    (cur : raw_section) (o : option nat) : Prop :=
  holds D s pre c cur /\ i_cur s = Some c /\ i_error s = false /\
  match o with
  | None => i_opt s = None
  | Some k => i_indent s = k /\
      exists cur' key vs, cur = cur' ++ [(key, vs)] /\ i_opt s = Some key /\ key <> [] /\
                          vs <> [] /\ ~ In key (map fst cur')
  end.
Lemma holds_cursect D s pre c cur : holds D s pre c cur -> cursect s c = cur.
Proof. destruct c as [nm|]; cbn; intros H; [destruct H as (-> & H & _); now rewrite aget_last|apply H]. Qed.
Lemma holds_change D s pre c cur f : holds D s pre c cur -> i_cur s = Some c -> holds D (change s f) pre c (f cur).
Proof.
  intros H E. unfold change. rewrite E. destruct c as [nm|]; cbn in *.
  - destruct H as (-> & H & ->). now rewrite aupd_last.
  - destruct H as [-> ->]. auto.
Qed.
Lemma holds_eq D s s' pre c cur : i_sections s = i_sections s' -> i_defaults s = i_defaults s' -> holds D s pre c cur -> holds D s' pre c cur.
Proof. unfold holds. intros -> ->. auto. Qed.
Lemma change_opt s f : i_opt (change s f) = i_opt s.
Proof. unfold change. destruct (i_cur s) as [[n|]|]; reflexivity. Qed.
Lemma change_cur s f : i_cur (change s f) = i_cur s.
Proof. unfold change. destruct (i_cur s) as [[n|]|] eqn:E; cbn; congruence. Qed.
Lemma change_error s f : i_error (change s f) = i_error s.
Proof. unfold change. destruct (i_cur s) as [[n|]|]; reflexivity. Qed.
Lemma change_indent s f : i_indent (change s f) = i_indent s.
Proof. unfold change. destruct (i_cur s) as [[n|]|]; reflexivity. Qed.

Section Inside.
Variable D : raw_section.

Lemma inside_append s pre c cur' key vs k v :
  inside D s pre c (cur' ++ [(key, vs)]) (Some k) -> i_opt s = Some key ->
  ~ In key (map fst cur') ->
  open_option s = Some key /\
  inside D (append_line s key v) pre c (cur' ++ [(key, vs ++ [v])]) (Some k) /\
  i_opt (append_line s key v) = Some key.
Proof.
  intros (H1 & H3 & H5 & H6 & c2 & k2 & v2 & E & H7 & H8 & H9 & H10) Ho Hk.
  rewrite Ho in H7. injection H7 as <-.
  apply app_inj_tail in E as [<- E]. injection E as <-.
  split; [|split].
  - unfold open_option. rewrite H3, Ho. destruct key; [easy|reflexivity].
  - unfold append_line, inside. rewrite change_cur, change_error, change_indent, change_opt.
    split; [|repeat split; auto].
    + pose proof (holds_change D s pre c _ (aupd key (fun vs => vs ++ [v])) H1 H3) as X. now rewrite aupd_last in X by exact Hk.
    + exists cur', key, (vs ++ [v]). repeat split; auto. destruct vs; discriminate.
  - unfold append_line. now rewrite change_opt.
Qed.

Lemma inside_more k vs ls :
  more_lines k vs ls -> forall s pre c0 cur' key ws,
  inside D s pre c0 (cur' ++ [(key, ws)]) (Some k) -> i_opt s = Some key -> ~ In key (map fst cur') ->
  exists s', foldM read_line s ls = Ok s' /\
    inside D s' pre c0 (cur' ++ [(key, ws ++ vs)]) (Some k) /\ i_opt s' = Some key.
Proof.
  induction 1 as [|sp c t vs ls H1 H2 H3 H IH|sp v vs ls H1 H IH|sp v b vs ls H1 H2 H3 H4 H5 H6 H7 H IH];
    intros s pre c0 cur' key ws Hw Ho Hk.
  - exists s. rewrite app_nil_r. auto.
  - cbn [foldM]. rewrite read_comment by assumption. cbn [bind]. now apply IH.
  - cbn [foldM]. rewrite read_blank by assumption.
    destruct (inside_append _ _ _ _ _ _ _ [] Hw Ho Hk) as (E1 & E2 & E3).
    rewrite E1. cbn [bind]. destruct (IH _ _ _ _ _ _ E2 E3 Hk) as (s' & F1 & F2 & F3).
    exists s'. rewrite <- app_assoc in F2. auto.
  - cbn [foldM]. destruct (inside_append _ _ _ _ _ _ _ v Hw Ho Hk) as (E1 & E2 & E3).
    assert (E : read_line s (sp ++ v ++ b) = Ok (append_line s key v)).
    { unfold read_line. rewrite strip_between by assumption.
      replace (is_comment v) with false.
      2:{ destruct v as [|c v]; [reflexivity|]. destruct (H6 c v eq_refl).
          cbn. symmetry. apply orb_false_iff. split; now apply Ascii.eqb_neq. }
      rewrite E1. rewrite leading_blanks.
      2: assumption.
      2:{ destruct (trimmed_solid v H3 H4 H5) as (c & r & -> & Hc). exists c, (r ++ b). auto. }
      destruct Hw as (_ & _ & _ & Hk' & _). rewrite Hk'.
      replace (k <? List.length sp) with true by (symmetry; now apply Nat.ltb_lt).
      destruct v; [easy|reflexivity]. }
    rewrite E. cbn [bind]. destruct (IH _ _ _ _ _ _ E2 E3 Hk) as (s' & F1 & F2 & F3).
    exists s'. rewrite <- app_assoc in F2. auto.
Qed.

Lemma inside_open s pre c0 cur o :
  inside D s pre c0 cur o ->
  match o with
  | None => open_option s = None
  | Some k => i_indent s = k /\ exists key, open_option s = Some key
  end.
Proof.
  intros (H1 & H3 & H5 & H6). destruct o as [k|].
  - destruct H6 as (H6 & c & key & vs & E & H7 & H8 & _). split; [exact H6|]. exists key.
    unfold open_option. rewrite H3, H7. destruct key; [easy|reflexivity].
  - unfold open_option. now rewrite H3, H6.
Qed.

Lemma inside_fitting s pre c0 cur o k sp v :
  inside D s pre c0 cur o -> fits o k -> blanks sp -> List.length sp = k ->
  solid v -> is_comment (rstrip_sp v) = false ->
  read_line s (sp ++ v) =
    let s := set_indent s k in
    match section_header (rstrip_sp v) with
    | Some n => header_line s n
    | None => option_line s c0 (rstrip_sp v)
    end.
Proof.
  intros Hw Hf Hs Hl Hv Hc. pose proof (inside_open _ _ _ _ _ Hw) as Hop.
  destruct Hw as (_ & H3 & _). unfold read_line, strip_sp.
  rewrite lstrip_blanks by exact Hs.
  rewrite (lstrip_solid0 v Hv).
  rewrite Hc, leading_blanks, Hl by assumption.
  destruct Hv as (c & r & -> & Hsp). destruct (rstrip_start c r Hsp) as [r' ->].
  destruct o as [j|].
  - destruct Hop as [Hi [key ->]]. rewrite Hi. cbn in Hf.
    replace (j <? k) with false by (symmetry; now apply Nat.ltb_ge).
    cbn [i_cur set_indent]. now rewrite H3.
  - rewrite Hop. cbn [i_cur set_indent]. now rewrite H3.
Qed.

Lemma inside_option s pre c0 cur o k key v l :
  inside D s pre c0 cur o -> fits o k -> option_written k key v l -> ~ In key (map fst cur) ->
  exists s', read_line s l = Ok s' /\ inside D s' pre c0 (cur ++ [(key, [v])]) (Some k) /\
             i_opt s' = Some key.
Proof.
  intros Hw Hf Ho Hk. destruct Ho as [sp name b1 d b2 b3 Hs Hl Hn Hlow Hb1 Hd Hb2 Hb3 Ht Hi].
  destruct Hn as (Hn & Hnt & Hni & Hnc & Hnd & Hnb).
  pose proof (trimmed_solid _ Hn Hnt Hni) as Hsol.
  destruct name as [|c name]; [easy|].
  assert (Hc : is_space c = false) by (destruct Hsol as (? & ? & [= <- <-] & H); exact H).
  assert (Er : exists w, rstrip_sp ((c :: name) ++ b1 ++ d :: b2 ++ v ++ b3) = (c :: name) ++ b1 ++ d :: w
               /\ strip_sp w = v).
  { destruct (last_case v) as [Ev|(r & e & Ev)].
    - subst v. exists []. split; [|reflexivity].
      replace ((c :: name) ++ b1 ++ d :: b2 ++ [] ++ b3)
        with (((c :: name) ++ b1 ++ [d]) ++ (b2 ++ b3))
        by now rewrite <- !app_assoc.
      rewrite rstrip_blanks by now apply Forall_app.
      replace ((c :: name) ++ b1 ++ [d]) with (((c :: name) ++ b1) ++ [d]) by now rewrite <- !app_assoc.
      apply rstrip_end. destruct Hd; subst d; reflexivity.
    - exists (b2 ++ v). split.
      + replace ((c :: name) ++ b1 ++ d :: b2 ++ v ++ b3)
          with (((c :: name) ++ b1 ++ d :: b2 ++ v) ++ b3)
          by (rewrite <- !app_assoc; cbn [app]; now rewrite <- !app_assoc).
        rewrite rstrip_blanks by exact Hb3. subst v.
        replace ((c :: name) ++ b1 ++ d :: b2 ++ r ++ [e])
          with (((c :: name) ++ b1 ++ d :: b2 ++ r) ++ [e])
          by (rewrite <- !app_assoc; cbn [app]; now rewrite <- !app_assoc).
        apply rstrip_end. apply is_space_not; [now apply (proj2 Ht e r)|].
        apply (inline_in _ _ Hi), in_or_app. right. now left.
      + rewrite <- (app_nil_r v) at 1. apply strip_between; auto. constructor. }
  destruct Er as (w & Er & Ew).
  rewrite (inside_fitting s pre c0 cur o k); auto.
  2:{ exists c, (name ++ b1 ++ d :: b2 ++ v ++ b3). auto. }
  2:{ rewrite Er. cbn. destruct (Hnc c name eq_refl). apply orb_false_iff.
      split; now apply Ascii.eqb_neq. }
  rewrite Er. cbv zeta.
  replace (section_header ((c :: name) ++ b1 ++ d :: w)) with (@None pystr).
  2:{ cbn [app section_header]. destruct (Ascii.eqb_spec c "["%char) as [E|_]; [|reflexivity].
      now contradiction (Hnb c name eq_refl). }
  unfold option_line.
  replace ((c :: name) ++ b1 ++ d :: w) with (((c :: name) ++ b1) ++ d :: w) by now rewrite <- app_assoc.
  rewrite split_option_spec; [|apply Forall_app; split; [exact Hnd|]|exact Hd].
  2:{ eapply Forall_impl; [|exact Hb1]. intros a Ha. split; intros ->; cbv in Ha;
      repeat destruct Ha as [Ha|Ha]; discriminate || easy. }
  rewrite rstrip_blanks by exact Hb1. rewrite rstrip_trimmed by assumption.
  cbv zeta. rewrite <- (lower_case_spec _ _ Hlow).
  destruct Hw as (H1 & H3 & H5 & H6).
  replace (cursect (set_indent s k) c0) with (cursect s c0) by reflexivity.
  rewrite (holds_cursect _ _ _ _ _ H1). replace (amem cur key) with false by (symmetry; now apply amem_false).
  eexists; split; [reflexivity|]. split; [|now rewrite change_opt].
  unfold inside. rewrite change_cur, change_error, change_indent, change_opt. cbn [i_cur i_error i_indent i_opt set_opt set_indent].
  split; [|split; [exact H3|split; [exact H5|split; [reflexivity|]]]].
  - rewrite Ew. apply (holds_change D (set_opt (set_indent s k) (Some key)) pre c0 cur (fun opts => opts ++ [(key, [v])])); [|exact H3].
    now apply (holds_eq D s).
  - exists cur, key, [v]. repeat split; auto.
    + apply (lower_case_nil _ _ Hlow Hn).
    + discriminate.
Qed.

(** A line without meaning leaves the contents *)
Lemma inside_filler s pre c0 cur o l :
  inside D s pre c0 cur o -> filler l ->
  exists s' cur', read_line s l = Ok s' /\ inside D s' pre c0 cur' o /\
                  join_section cur' = join_section cur.
Proof.
  intros Hw Hf. destruct Hf as [sp Hs|sp c t Hs Hc Hi].
  - rewrite read_blank by exact Hs. pose proof (inside_open _ _ _ _ _ Hw) as Hop.
    destruct o as [k|].
    + destruct Hop as [_ [key Hop]].
      pose proof Hw as (H1 & H3 & H5 & H6 & cur0 & key' & vs & -> & E1 & E2 & E3 & E4).
      destruct (inside_append _ _ _ _ _ _ _ [] Hw E1 E4) as (F1 & F2 & F3).
      rewrite F1. eexists; eexists; split; [reflexivity|]. split; [exact F2|].
      rewrite !join_section_app. f_equal. unfold join_section. cbn [map fst snd]. now rewrite join_value_blank.
    + rewrite Hop. exists s, cur. auto.
  - rewrite read_comment by assumption. exists s, cur. auto.
Qed.

End Inside.

Lemma inside_header D s pre c cur o k name l :
  inside D s pre c cur o -> fits o k -> header_written k name l ->
  ~ In name (map fst (i_sections s)) ->
  exists s', read_line s l = Ok s' /\
    if pystr_eqb name default_name
    then c <> None -> inside [] s' (i_sections s) None D None
    else match c with Some nm => inside D s' (pre ++ [(nm, cur)]) (Some name) [] None | None => inside cur s' pre (Some name) [] None end.
Proof.
  intros Hw Hf Hh H1. destruct (header_line_ok _ _ _ Hh) as (sp & v & -> & Hs & Hl & Hv & Hc & Hsec).
  rewrite (inside_fitting D s pre c cur o k) by assumption. cbv zeta. rewrite Hsec. unfold header_line. cbn [i_sections set_indent].
  replace (amem (i_sections s) name) with false by (symmetry; now apply amem_false).
  destruct Hw as (W1 & W2 & W3 & W4). destruct (pystr_eqb name default_name); (eexists; split; [reflexivity|]).
  - intros Hn. destruct c as [nm|]; [|easy]. destruct W1 as (E1 & E2 & E3). unfold inside, holds. cbn. auto.
  - destruct c as [nm|]; unfold inside, holds; cbn.
    + destruct W1 as (E1 & E2 & E3). rewrite E1 in H1. rewrite E1. auto 10.
    + destruct W1 as (E1 & E2). rewrite E1 in H1. rewrite E1. auto 10.
Qed.

Lemma pystr_eqb_sym a b : pystr_eqb a b = pystr_eqb b a.
Proof.
  destruct (pystr_eqb b a) eqn:E; [apply pystr_eqb_eq in E as ->; apply pystr_eqb_refl|].
  apply pystr_eqb_neq. intros ->. now rewrite pystr_eqb_refl in E.
Qed.
Definition others (secs : list (pystr * list (pystr * pystr))) := filter (fun ns => negb (pystr_eqb (fst ns) default_name)) secs.
Lemma joined_app a b : joined (a ++ b) = joined a ++ joined b.
Proof. apply map_app. Qed.
Lemma inside_writes o opts secs ls :
  writes o opts secs ls -> forall D s pre c cur,
  inside D s pre c cur o -> NoDup (map fst cur ++ map fst opts) ->
  NoDup (map fst (i_sections s) ++ map fst secs) -> (In default_name (map fst secs) -> c <> None /\ D = []) ->
  Forall (fun sec => NoDup (map fst (snd sec))) secs ->
  exists s', foldM read_line s ls = Ok s' /\ i_error s' = false /\
    joined (i_sections s') = joined pre ++ match c with Some nm => [(nm, join_section cur ++ opts)] | None => [] end ++ others secs /\
    join_section (i_defaults s') = match c with None => join_section cur ++ opts | Some _ => match aget secs default_name with Some d => d | None => join_section D end end.
Proof.
  induction 1 as [o|o opts secs l ls Hf H IH|o k key v vs l more opts secs ls Hf Ho Hm H IH
                 |o k name l opts secs ls Hf Hh H IH];
    intros D s pre c cur Hw Hnd Hns Hdef Hall.
  - exists s. destruct Hw as (H1 & H3 & H5 & _). cbn [foldM]. split; [reflexivity|]. split; [exact H5|].
    destruct c as [nm|]; cbn in H1.
    + destruct H1 as (E1 & E2 & E3). rewrite E1, E3, joined_app. cbn. now rewrite app_nil_r.
    + destruct H1 as (E1 & E2). rewrite E1, E2. cbn. now rewrite !app_nil_r.
  - destruct (inside_filler _ _ _ _ _ _ _ Hw Hf) as (s1 & cur' & E & Hw' & Ej).
    cbn [foldM]. rewrite E. cbn [bind]. rewrite <- Ej. apply IH; auto.
    + now rewrite (join_keys_eq _ _ Ej).
    + replace (map fst (i_sections s1)) with (map fst (i_sections s)); [exact Hns|].
      destruct Hw as (W & _), Hw' as (W' & _). destruct c; cbn in W, W'.
      * destruct W as (-> & _), W' as (-> & _). now rewrite !map_app.
      * destruct W as (-> & _), W' as (-> & _). reflexivity.
  - cbn [map fst] in Hnd.
    assert (Hk : ~ In key (map fst cur)).
    { intros Hin. apply NoDup_remove_2 in Hnd. apply Hnd, in_or_app. now left. }
    destruct (inside_option _ _ _ _ _ _ _ _ _ _ Hw Hf Ho Hk) as (s1 & E1 & Hw1 & Eo).
    cbn [foldM]. rewrite E1. cbn [bind].
    destruct (inside_more _ _ _ _ Hm _ _ _ _ _ _ Hw1 Eo Hk) as (s2 & E2 & Hw2 & Eo2).
    rewrite foldM_app, E2. cbn [bind].
    destruct (IH D s2 pre c (cur ++ [(key, [v] ++ vs)])) as (s' & F1 & F2 & F3 & F4); auto.
    { rewrite map_app, <- app_assoc. exact Hnd. }
    { replace (map fst (i_sections s2)) with (map fst (i_sections s)); [exact Hns|].
      destruct Hw as (W & _), Hw2 as (W' & _). destruct c; cbn in W, W'.
      - destruct W as (-> & _), W' as (-> & _). now rewrite !map_app.
      - destruct W as (-> & _), W' as (-> & _). reflexivity. }
    exists s'. assert (EJ : join_section (cur ++ [(key, [v] ++ vs)]) ++ opts = join_section cur ++ (key, value_text v vs) :: opts).
    { rewrite join_section_app, <- app_assoc.
      cbn [join_section map app fst snd]. destruct Ho as [sp name b1 d b2 b3 Q1 Q2 Q3 Q4 Q5 Q6 Q7 Q8 Q9 Q10].
      now rewrite (join_written k v vs more Q9 Q10 Hm). }
    rewrite F3, F4, EJ. repeat split; auto.
  - cbn [map fst In] in Hns, Hdef. rewrite app_nil_r.
    assert (Hin : ~ In name (map fst (i_sections s))).
    { intros Hin. apply NoDup_remove_2 in Hns. apply Hns, in_or_app. now left. }
    destruct (inside_header _ _ _ _ _ _ _ _ _ Hw Hf Hh Hin) as (s1 & E1 & Hw1).
    cbn [foldM]. rewrite E1. cbn [bind].
    inversion_clear Hall as [|? ? Ha1 Ha2]. cbn [snd] in Ha1.
    unfold others. cbn [aget filter fst]. change (filter (fun ns => negb (pystr_eqb (fst ns) default_name)) secs) with (others secs).
    rewrite (pystr_eqb_sym default_name name).
    destruct (pystr_eqb name default_name) eqn:Edef.
    + apply pystr_eqb_eq in Edef. subst name. destruct Hdef as [Hc ->]; [now left|]. specialize (Hw1 Hc).
      destruct (IH [] s1 (i_sections s) None [] Hw1) as (s' & F1 & F2 & F3 & F4); auto.
      { destruct Hw1 as ([-> _] & _). apply NoDup_remove_1 in Hns. exact Hns. }
      { intros Hi. apply NoDup_remove_2 in Hns. destruct Hns. apply in_or_app. now right. }
      exists s'. repeat split; auto.
      * rewrite F3. destruct c as [nm|]; [|easy]. destruct Hw as ((E & _) & _). rewrite E, joined_app, <- app_assoc. reflexivity.
      * rewrite F4. destruct c; [reflexivity|easy].
    + assert (Hnm : name <> default_name) by (intros ->; rewrite pystr_eqb_refl in Edef; discriminate).
      destruct c as [nm|].
      * destruct (IH D s1 (pre ++ [(nm, cur)]) (Some name) [] Hw1) as (s' & F1 & F2 & F3 & F4); auto.
        { destruct Hw1 as ((-> & _) & _). destruct Hw as ((E & _) & _). rewrite E in Hns. rewrite map_app, <- app_assoc. exact Hns. }
        { intros Hi. split; [discriminate|]. apply Hdef. now right. }
        exists s'. repeat split; auto. rewrite F3, joined_app, <- !app_assoc. reflexivity.
      * destruct (IH cur s1 pre (Some name) [] Hw1) as (s' & F1 & F2 & F3 & F4); auto.
        { destruct Hw1 as ((-> & _) & _). destruct Hw as ((E & _) & _). rewrite E in Hns. rewrite map_app, <- app_assoc. exact Hns. }
        { intros Hi. now destruct (proj1 (Hdef (or_intror Hi))). }
        exists s'. repeat split; auto. rewrite F4.
        assert (Hno : ~ In default_name (map fst secs)) by (intros Hi; now destruct (proj1 (Hdef (or_intror Hi)))).
        apply aget_none in Hno. now rewrite Hno.
Qed.

Lemma inside_start o opts secs ls :
  writes o opts secs ls -> o = None -> opts = [] -> secs <> [] ->
  NoDup (map fst secs) -> Forall (fun sec => NoDup (map fst (snd sec))) secs ->
  exists s', foldM read_line istart ls = Ok s' /\ i_error s' = false /\ joined (i_sections s') = others secs /\
    join_section (i_defaults s') = match aget secs default_name with Some d => d | None => [] end.
Proof.
  induction 1 as [o|o opts secs l ls Hf H IH|o k key v vs l more opts secs ls Hf Ho Hm H IH
                 |o k name l opts secs ls Hf Hh H IH];
    intros -> Hop Hne Hns Hall; [easy| |discriminate|].
  - cbn [foldM]. replace (read_line istart l) with (Ok istart).
    2:{ destruct Hf as [sp Hs|sp c t Hs Hc Hi]; [now rewrite read_blank | now rewrite read_comment]. }
    cbn [bind]. now apply IH.
  - destruct (header_line_ok _ _ _ Hh) as (sp & v & -> & Hs & Hl & Hv & Hc & Hsec).
    assert (E : read_line istart (sp ++ v) = header_line (set_indent istart k) name).
    { unfold read_line, strip_sp. rewrite lstrip_blanks by exact Hs. rewrite (lstrip_solid0 v Hv).
      rewrite Hc, leading_blanks, Hl by assumption. rewrite Hsec.
      destruct Hv as (c & r & -> & Hsp). destruct (rstrip_start c r Hsp) as [r' ->]. reflexivity. }
    cbn [foldM]. rewrite E. unfold header_line. cbn [i_sections set_indent istart amem aget].
    inversion_clear Hall as [|? ? Ha1 Ha2]. cbn [map fst In] in Hns. cbn [snd] in Ha1.
    inversion_clear Hns as [|? ? Hn1 Hn2].
    unfold others. cbn [aget filter fst]. change (filter (fun ns => negb (pystr_eqb (fst ns) default_name)) secs) with (others secs).
    rewrite (pystr_eqb_sym default_name name). destruct (pystr_eqb name default_name) eqn:Edef; cbn [bind].
    + apply pystr_eqb_eq in Edef. subst name.
      destruct (inside_writes _ _ _ _ H [] (set_cur (set_indent istart k) None) [] None []) as (s' & F1 & F2 & F3 & F4); auto.
      { unfold inside, holds. cbn. auto. }
      exists s'. repeat split; auto.
    + assert (Hnm : name <> default_name) by (intros ->; rewrite pystr_eqb_refl in Edef; discriminate).
      destruct (inside_writes _ _ _ _ H [] (set_cur (new_section (set_indent istart k) name) (Some name)) [] (Some name) []) as (s' & F1 & F2 & F3 & F4); auto.
      { unfold inside, holds. cbn. auto 10. }
      { now constructor. }
      { intros _. split; [discriminate|reflexivity]. }
      exists s'. repeat split; auto.
Qed.

Lemma others_all secs : ~ In default_name (map fst secs) -> others secs = secs.
Proof.
  induction secs as [|[n x] secs IH]; intros H; [reflexivity|]. cbn [map fst In] in H. unfold others. cbn [filter fst].
  replace (pystr_eqb n default_name) with false by (symmetry; apply pystr_eqb_neq; tauto). cbn [negb]. f_equal. apply IH. tauto.
Qed.
Lemma others_app a b : others (a ++ b) = others a ++ others b.
Proof. apply filter_app. Qed.
Lemma read_text_default a d b ls t : NoDup (map fst (a ++ (default_name, d) :: b)) ->
  Forall (fun sec => NoDup (map fst (snd sec))) (a ++ (default_name, d) :: b) ->
  writes None [] (a ++ (default_name, d) :: b) ls -> file_of ls t -> read_text t = Ok (a ++ b, d).
Proof.
  intros Hnd Hall Hw Hf. unfold read_text. rewrite (file_lines _ _ Hf (writes_inline _ _ _ _ Hw)).
  assert (Hne : a ++ (default_name, d) :: b <> []) by (destruct a; discriminate).
  destruct (inside_start _ _ _ _ Hw eq_refl eq_refl Hne Hnd Hall) as (s' & E & H1 & H2 & H3).
  rewrite E. cbn [bind]. rewrite H1. unfold joined in H2. rewrite H2, H3. rewrite map_app in Hnd. cbn [map fst] in Hnd.
  assert (Ha : ~ In default_name (map fst a)) by (apply NoDup_remove_2 in Hnd; intros K; apply Hnd; apply in_or_app; now left).
  assert (Hb : ~ In default_name (map fst b)) by (apply NoDup_remove_2 in Hnd; intros K; apply Hnd; apply in_or_app; now right).
  rewrite others_app. change ((default_name, d) :: b) with ([(default_name, d)] ++ b) at 1. rewrite others_app, (others_all a Ha), (others_all b Hb).
  replace (aget (a ++ (default_name, d) :: b) default_name) with (Some d); [reflexivity|]. symmetry. clear - Ha.
  induction a as [|[n x] a IH]; cbn [app aget]; [now rewrite pystr_eqb_refl|]. cbn [map fst In] in Ha.
  replace (pystr_eqb default_name n) with false by (symmetry; apply pystr_eqb_neq; intros K; apply Ha; left; now symmetry). apply IH. intros K. apply Ha. now right.
Qed.

(** The options of a section with those of DEFAULT *)
Lemma complete_iff d opts all : complete d opts all <-> all = with_defaults d opts.
Proof.
  unfold complete, with_defaults. split.
  - intros (l & H & ->). f_equal. induction H as [|key v d l Hi H IH|key v d l Hi H IH]; [reflexivity| |]; cbn [filter fst].
    + replace (amem opts key) with true; [exact IH|]. symmetry. apply not_false_iff_true. now rewrite <- amem_false.
    + rewrite (proj1 (amem_false opts key) Hi). cbn [negb]. now f_equal.
  - intros ->. eexists. split; [|reflexivity]. induction d as [|[key v] d IH]; cbn [filter fst]; [constructor|].
    destruct (amem opts key) eqn:E; cbn [negb]; [apply inherited_own|apply inherited_new]; auto.
    + destruct (in_dec (list_eq_dec ascii_dec) key (map fst opts)) as [Hi|Hi]; [exact Hi|]. apply amem_false in Hi. congruence.
    + now apply amem_false.
Qed.
Lemma with_defaults_nodup d opts : NoDup (map fst opts) -> NoDup (map fst d) -> NoDup (map fst (with_defaults d opts)).
Proof.
  intros Ho Hd. unfold with_defaults. rewrite map_app. induction d as [|[k v] d IH]; cbn [filter map fst]; [now rewrite app_nil_r|].
  cbn [map fst] in Hd. inversion_clear Hd as [|? ? H1 H2]. destruct (amem opts k) eqn:E; cbn [negb]; [auto|]. cbn [map fst].
  apply NoDup_Add with (a := k) (l := map fst opts ++ map fst (filter (fun kv => negb (amem opts (fst kv))) d)); [apply Add_app|].
  split; [auto|]. intros Hi. apply in_app_or in Hi as [Hi|Hi]; [now apply amem_false in E|].
  apply H1. apply in_map_iff in Hi as (kv & <- & Hi). apply filter_In in Hi as [Hi _]. now apply in_map.
Qed.
