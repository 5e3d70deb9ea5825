(** Proofs about the reader of ini-files. *)
From Coq Require Import List ZArith Bool Ascii String Arith Lia.
From Verif Require Import Base ParseModel ConfigModel DeprecatedModel IniModel IniSpec.
Import ListNotations.
Local Open Scope nat_scope.
Local Open Scope list_scope.

(** ** Characters *)
Lemma nat_of_nl c : is_nl c <-> nat_of_ascii c = 10.
Proof.
  unfold is_nl. split; [now intros -> |]. intros H.
  now rewrite <- (ascii_nat_embedding c), H.
Qed.
Lemma nat_of_cr c : is_cr c <-> nat_of_ascii c = 13.
Proof.
  unfold is_cr. split; [now intros -> |]. intros H.
  now rewrite <- (ascii_nat_embedding c), H.
Qed.

Lemma is_space_spec c : is_space c = true <-> blank c \/ is_nl c \/ is_cr c.
Proof.
  rewrite nat_of_nl, nat_of_cr. unfold is_space, blank.
  rewrite orb_true_iff, !andb_true_iff, !Nat.leb_le. cbn [In]. lia.
Qed.
Lemma is_space_blank c : blank c -> is_space c = true.
Proof. intros H. apply is_space_spec. now left. Qed.
Lemma is_space_not c : ~ blank c -> ~ is_nl c /\ ~ is_cr c -> is_space c = false.
Proof.
  intros H [H1 H2]. destruct (is_space c) eqn:E; [|reflexivity].
  apply is_space_spec in E as [E|[E|E]]; tauto.
Qed.
Lemma blank_inline c : blank c -> ~ is_nl c /\ ~ is_cr c.
Proof. rewrite nat_of_nl, nat_of_cr. unfold blank. cbn [In]. lia. Qed.
Lemma blanks_inline s : blanks s -> inline s.
Proof. apply Forall_impl. apply blank_inline. Qed.

Lemma lower_char_spec c d : lower_char c d -> d = lower c.
Proof.
  unfold lower_char, lower. intros [[H1 H2]|[H1 H2]].
  - replace ((65 <=? nat_of_ascii c) && (nat_of_ascii c <=? 90)) with true.
    + rewrite <- H2. now rewrite ascii_nat_embedding.
    + symmetry. apply andb_true_iff. rewrite !Nat.leb_le. lia.
  - replace ((65 <=? nat_of_ascii c) && (nat_of_ascii c <=? 90)) with false; [exact H2|].
    symmetry. apply andb_false_iff. rewrite !Nat.leb_gt. lia.
Qed.
Lemma lower_case_spec s t : lower_case s t -> t = str_lower s.
Proof.
  induction 1 as [|c d s t H _ IH]; [reflexivity|]. cbn. rewrite <- (lower_char_spec _ _ H). now f_equal.
Qed.

(** ** Stripping *)
Lemma lstrip_blanks s v : blanks s -> lstrip_sp (s ++ v) = lstrip_sp v.
Proof.
  induction 1 as [|c s H _ IH]; [reflexivity|]. cbn. now rewrite (is_space_blank _ H).
Qed.
Lemma lstrip_all s : blanks s -> lstrip_sp s = [].
Proof. intros H. rewrite <- (app_nil_r s). now rewrite lstrip_blanks. Qed.
Lemma lstrip_start c v : is_space c = false -> lstrip_sp (c :: v) = c :: v.
Proof. intros H. cbn. now rewrite H. Qed.
Lemma blanks_rev s : blanks s -> blanks (rev s).
Proof. intros H. apply Forall_rev. exact H. Qed.

Lemma rstrip_blanks v b : blanks b -> rstrip_sp (v ++ b) = rstrip_sp v.
Proof.
  intros H. unfold rstrip_sp. rewrite rev_app_distr.
  rewrite lstrip_blanks by now apply blanks_rev. reflexivity.
Qed.
Lemma rstrip_end v c : is_space c = false -> rstrip_sp (v ++ [c]) = v ++ [c].
Proof.
  intros H. unfold rstrip_sp. rewrite rev_app_distr. cbn [rev app].
  rewrite lstrip_start by exact H. cbn [rev]. now rewrite rev_involutive.
Qed.

Lemma last_case {A} (l : list A) : l = [] \/ exists r a, l = r ++ [a].
Proof.
  destruct l as [|x l]; [now left|right].
  destruct (exists_last (l := x :: l)) as (r & a & ->); [discriminate|]. now exists r, a.
Qed.

Lemma inline_in s c : inline s -> In c s -> ~ is_nl c /\ ~ is_cr c.
Proof. intros H. exact (proj1 (Forall_forall _ s) H c). Qed.

Lemma rstrip_trimmed v : trimmed v -> inline v -> rstrip_sp v = v.
Proof.
  intros [_ H] Hi. destruct (last_case v) as [->|(r & c & ->)]; [reflexivity|].
  apply rstrip_end. apply is_space_not; [now apply (H c r)|].
  apply (inline_in _ _ Hi), in_or_app. right. now left.
Qed.
Lemma lstrip_trimmed v : trimmed v -> inline v -> lstrip_sp v = v.
Proof.
  intros [H _] Hi. destruct v as [|c v]; [reflexivity|].
  apply lstrip_start. apply is_space_not; [now apply (H c v)|].
  apply (inline_in _ _ Hi). now left.
Qed.

(** A line that starts and ends with other characters than blanks *)
Definition solid (v : pystr) : Prop :=
  exists c r, v = c :: r /\ is_space c = false.

Lemma lstrip_solid v w : solid v -> lstrip_sp (v ++ w) = v ++ w.
Proof. intros (c & r & -> & H). cbn [app]. now apply lstrip_start. Qed.

Lemma lstrip_solid0 v : solid v -> lstrip_sp v = v.
Proof. intros (c & r & -> & H). now apply lstrip_start. Qed.

Lemma trimmed_solid v : v <> [] -> trimmed v -> inline v -> solid v.
Proof.
  intros Hn [H _] Hi. destruct v as [|c v]; [easy|]. exists c, v. split; [reflexivity|].
  apply is_space_not; [now apply (H c v)|]. apply (inline_in _ _ Hi). now left.
Qed.

Lemma strip_blanks b : blanks b -> strip_sp b = [].
Proof. intros H. unfold strip_sp. now rewrite lstrip_all. Qed.

Lemma strip_between s v b :
  blanks s -> blanks b -> trimmed v -> inline v -> strip_sp (s ++ v ++ b) = v.
Proof.
  intros Hs Hb Ht Hi. unfold strip_sp. rewrite lstrip_blanks by exact Hs.
  destruct v as [|c v]; [cbn [app]; now rewrite lstrip_all|].
  rewrite lstrip_solid by (apply trimmed_solid; auto; discriminate).
  rewrite rstrip_blanks by exact Hb. now apply rstrip_trimmed.
Qed.

Lemma leading_blanks s v : blanks s -> solid v -> leading (s ++ v) = List.length s.
Proof.
  intros Hs (c & r & -> & Hc). induction Hs as [|b s H _ IH]; cbn.
  - now rewrite Hc.
  - rewrite (is_space_blank _ H). now f_equal.
Qed.

Lemma rstrip_start c r : is_space c = false -> exists r', rstrip_sp (c :: r) = c :: r'.
Proof.
  intros Hc. assert (H : forall l, exists m, lstrip_sp (l ++ [c]) = m ++ [c]).
  { induction l as [|a l [m IH]]; cbn.
    - rewrite Hc. now exists [].
    - destruct (is_space a); [now exists m | now exists (a :: l)]. }
  unfold rstrip_sp. cbn [rev]. destruct (H (rev r)) as [m ->].
  rewrite rev_app_distr. cbn. now exists (rev m).
Qed.

Lemma comment_strip s c t :
  blanks s -> (c = "#"%char \/ c = ";"%char) -> is_comment (strip_sp (s ++ c :: t)) = true.
Proof.
  intros Hs Hc. unfold strip_sp. rewrite lstrip_blanks by exact Hs.
  assert (Hsp : is_space c = false) by (destruct Hc; subst c; reflexivity).
  rewrite lstrip_start by exact Hsp.
  destruct (rstrip_start c t Hsp) as [r' ->]. cbn. destruct Hc; subst c; reflexivity.
Qed.

(** ** Lines of a file *)
Lemma universal_inline l t :
  inline l -> universal (l ++ t) = l ++ universal t.
Proof.
  induction 1 as [|c l [H1 H2] _ IH]; [reflexivity|]. cbn [app universal].
  destruct (Ascii.eqb_spec c cr) as [->|_]; [now contradiction H2|]. now rewrite IH.
Qed.
Lemma lines_of_nl l t : inline l -> lines_of (l ++ nl :: t) = l :: lines_of t.
Proof.
  induction 1 as [|c l [H1 H2] _ IH]; [reflexivity|]. cbn [app lines_of].
  destruct (Ascii.eqb_spec c nl) as [->|_]; [now contradiction H1|]. now rewrite IH.
Qed.
Lemma lines_of_last l : inline l -> l <> [] -> lines_of l = [l].
Proof.
  induction 1 as [|c l [H1 H2] Hl IH]; [easy|]. intros _. cbn [lines_of].
  destruct (Ascii.eqb_spec c nl) as [->|_]; [now contradiction H1|].
  destruct l as [|d l]; [reflexivity|]. now rewrite IH.
Qed.

Lemma universal_cr_nl t : universal (cr :: nl :: t) = nl :: universal t.
Proof. reflexivity. Qed.
Lemma universal_cr t : (forall r, t <> nl :: r) -> universal (cr :: t) = nl :: universal t.
Proof.
  intros H. destruct t as [|b t]; [reflexivity|]. cbn [universal].
  replace (Ascii.eqb cr cr) with true by reflexivity.
  destruct (Ascii.eqb_spec b nl) as [->|_]; [now contradiction (H t)|]. reflexivity.
Qed.

Lemma file_lines ls t :
  file_of ls t -> Forall inline ls -> lines_of (universal t) = ls.
Proof.
  induction 1 as [|l Hl|l ls t H IH|l ls t H IH|l ls t Hc H IH]; intros Hi.
  - reflexivity.
  - inversion_clear Hi as [|? ? H1 _]. rewrite <- (app_nil_r l) at 1.
    rewrite universal_inline by exact H1. cbn [universal]. rewrite app_nil_r.
    now apply lines_of_last.
  - inversion_clear Hi as [|? ? H1 H2]. rewrite universal_inline by exact H1.
    change (universal (ascii_of_nat 10 :: t)) with (nl :: universal t).
    rewrite lines_of_nl by exact H1. now rewrite IH.
  - inversion_clear Hi as [|? ? H1 H2]. rewrite universal_inline by exact H1.
    change (ascii_of_nat 13 :: ascii_of_nat 10 :: t) with (cr :: nl :: t).
    rewrite universal_cr_nl, lines_of_nl by exact H1. now rewrite IH.
  - inversion_clear Hi as [|? ? H1 H2]. rewrite universal_inline by exact H1.
    change (ascii_of_nat 13 :: t) with (cr :: t).
    rewrite universal_cr by exact Hc. rewrite lines_of_nl by exact H1. now rewrite IH.
Qed.

(** ** Association lists *)
Lemma aget_none {A} (l : list (pystr * A)) k : ~ In k (map fst l) <-> aget l k = None.
Proof.
  induction l as [|[k' a] l IH]; cbn; [tauto|].
  destruct (pystr_eqb k k') eqn:E.
  - apply pystr_eqb_eq in E. subst. split; [tauto|discriminate].
  - apply pystr_eqb_neq in E. rewrite <- IH. split; [tauto|]. intros H [H1|H1]; [congruence|tauto].
Qed.
Lemma amem_false {A} (l : list (pystr * A)) k : ~ In k (map fst l) <-> amem l k = false.
Proof. rewrite aget_none. unfold amem. destruct (aget l k); split; congruence. Qed.
Lemma aget_last {A} (pre : list (pystr * A)) k a :
  ~ In k (map fst pre) -> aget (pre ++ [(k, a)]) k = Some a.
Proof.
  induction pre as [|[k' b] pre IH]; cbn; intros H.
  - now rewrite pystr_eqb_refl.
  - destruct (pystr_eqb k k') eqn:E; [apply pystr_eqb_eq in E; subst; tauto|]. apply IH. tauto.
Qed.
Lemma aupd_last {A} (pre : list (pystr * A)) k a f :
  ~ In k (map fst pre) -> aupd k f (pre ++ [(k, a)]) = pre ++ [(k, f a)].
Proof.
  induction pre as [|[k' b] pre IH]; cbn; intros H.
  - now rewrite pystr_eqb_refl.
  - destruct (pystr_eqb k k') eqn:E; [apply pystr_eqb_eq in E; subst; tauto|]. f_equal. apply IH. tauto.
Qed.

(** ** Headers and options *)
Lemma before_last_none c t : ~ In c t -> before_last c t = None.
Proof.
  induction t as [|a t IH]; cbn; [easy|]. intros H. rewrite IH by tauto.
  destruct (Ascii.eqb_spec a c) as [->|_]; [tauto|reflexivity].
Qed.
Lemma before_last_spec c h t : ~ In c t -> before_last c (h ++ c :: t) = Some h.
Proof.
  intros H. induction h as [|a h IH]; cbn.
  - rewrite before_last_none by exact H. now rewrite Ascii.eqb_refl.
  - now rewrite IH.
Qed.
Lemma section_header_spec name t :
  name <> [] -> ~ In "]"%char t ->
  section_header ("["%char :: name ++ "]"%char :: t) = Some name.
Proof.
  intros Hn Ht. unfold section_header. rewrite Ascii.eqb_refl, before_last_spec by exact Ht.
  destruct name; [easy|reflexivity].
Qed.

Lemma split_option_spec name d w :
  Forall (fun c => c <> "="%char /\ c <> ":"%char) name -> (d = "="%char \/ d = ":"%char) ->
  split_option (name ++ d :: w) = Some (name, w).
Proof.
  intros Hn Hd. induction Hn as [|c name [H1 H2] _ IH].
  - cbn. destruct Hd; subst d; reflexivity.
  - cbn [app split_option]. destruct (Ascii.eqb_spec c "="%char); [easy|].
    destruct (Ascii.eqb_spec c ":"%char); [easy|]. cbn [orb]. now rewrite IH.
Qed.

(** ** Joining the lines of a value *)
Lemma join_value_text v vs : join_nl (v :: vs) = value_text v vs.
Proof.
  revert v; induction vs as [|w vs IH]; intros v; [reflexivity|].
  change (join_nl (v :: w :: vs)) with (v ++ nl :: join_nl (w :: vs)). now rewrite IH.
Qed.
Lemma join_nl_app_nil vs : vs <> [] -> join_nl (vs ++ [[]]) = join_nl vs ++ [nl].
Proof.
  induction vs as [|v vs IH]; [easy|]. intros _. destruct vs as [|w vs]; [reflexivity|].
  change ((v :: w :: vs) ++ [[]]) with (v :: (w :: vs) ++ [[]]).
  change (join_nl (v :: (w :: vs) ++ [[]])) with (v ++ nl :: join_nl ((w :: vs) ++ [[]])).
  rewrite IH by discriminate. change (join_nl (v :: w :: vs)) with (v ++ nl :: join_nl (w :: vs)).
  now rewrite <- app_assoc.
Qed.
Lemma rstrip_nl v : rstrip_sp (v ++ [nl]) = rstrip_sp v.
Proof. unfold rstrip_sp. now rewrite rev_app_distr. Qed.
Lemma join_value_blank vs : vs <> [] -> join_value (vs ++ [[]]) = join_value vs.
Proof. intros H. unfold join_value. now rewrite join_nl_app_nil, rstrip_nl. Qed.

Lemma value_text_end v vs c r :
  is_space c = false -> last (v :: vs) [] = r ++ [c] -> exists r', value_text v vs = r' ++ [c].
Proof.
  intros Hc. revert v; induction vs as [|w vs IH]; intros v H.
  - cbn in H. now exists r.
  - destruct (IH w) as [r' E]; [exact H|]. exists (v ++ nl :: r').
    cbn [value_text]. rewrite E. now rewrite <- app_assoc.
Qed.

Lemma more_lines_last k vs ls :
  more_lines k vs ls -> vs <> [] ->
  forall v, exists r c, last (v :: vs) [] = r ++ [c] /\ is_space c = false.
Proof.
  induction 1 as [|s c t vs ls H1 H2 H3 H IH|s v vs ls H1 H IH|s v b vs ls H1 H2 H3 H4 H5 H6 H7 H IH];
    intros Hn v0; [easy|auto| |].
  - exact (IH ltac:(discriminate) []).
  - destruct vs as [|w vs].
    + cbn. destruct (last_case v) as [->|(r & c & ->)]; [easy|]. exists r, c. split; [reflexivity|].
      apply is_space_not; [now apply (proj2 H4 c r)|].
      apply (inline_in _ _ H5), in_or_app. right. now left.
    + apply (IH ltac:(discriminate) v).
Qed.

Lemma join_written k v vs ls :
  trimmed v -> inline v -> more_lines k vs ls -> join_value (v :: vs) = value_text v vs.
Proof.
  intros Ht Hi Hm. unfold join_value. rewrite join_value_text.
  destruct vs as [|w vs]; [now apply rstrip_trimmed|].
  destruct (more_lines_last _ _ _ Hm ltac:(discriminate) v) as (r & c & E & Hc).
  destruct (value_text_end v (w :: vs) c r Hc E) as [r' ->]. now apply rstrip_end.
Qed.

Lemma join_section_app a b : join_section (a ++ b) = join_section a ++ join_section b.
Proof. apply map_app. Qed.
Lemma join_section_keys a : map fst (join_section a) = map fst a.
Proof. unfold join_section. rewrite map_map. reflexivity. Qed.

(** ** Single lines *)
Lemma read_comment s sp c t :
  blanks sp -> (c = "#"%char \/ c = ";"%char) -> read_line s (sp ++ c :: t) = Ok s.
Proof. intros H1 H2. unfold read_line. now rewrite comment_strip. Qed.

Lemma read_blank s sp :
  blanks sp -> read_line s sp = Ok match open_option s with Some k => append_line s k [] | None => s end.
Proof. intros H. unfold read_line. now rewrite strip_blanks. Qed.

(** The state within a section: [nm] is the current section with the options
    [cur], [o] the indentation of the last option *)
Definition within (s : istate) (pre : list (pystr * raw_section)) (nm : pystr)
    (cur : raw_section) (o : option nat) : Prop :=
  i_sections s = pre ++ [(nm, cur)] /\ ~ In nm (map fst pre) /\ i_cur s = Some (Some nm) /\
  i_defaults s = [] /\ i_error s = false /\
  match o with
  | None => i_opt s = None
  | Some k => i_indent s = k /\
      exists cur' key vs, cur = cur' ++ [(key, vs)] /\ i_opt s = Some key /\ key <> [] /\
                          vs <> [] /\ ~ In key (map fst cur')
  end.

Lemma within_append s pre nm cur' key vs k v :
  within s pre nm (cur' ++ [(key, vs)]) (Some k) -> i_opt s = Some key ->
  ~ In key (map fst cur') ->
  open_option s = Some key /\
  within (append_line s key v) pre nm (cur' ++ [(key, vs ++ [v])]) (Some k) /\
  i_opt (append_line s key v) = Some key.
Proof.
  intros (H1 & H2 & H3 & H4 & H5 & H6 & c2 & k2 & v2 & E & H7 & H8 & H9 & H10) Ho Hk.
  rewrite Ho in H7. injection H7 as <-.
  apply app_inj_tail in E as [<- E]. injection E as <-.
  split; [|split].
  - unfold open_option. rewrite H3, Ho. destruct key; [easy|reflexivity].
  - unfold append_line, change. rewrite H3. unfold within. cbn.
    rewrite H1, aupd_last by exact H2. rewrite aupd_last by exact Hk.
    repeat split; auto. exists cur', key, (vs ++ [v]). repeat split; auto.
    destruct vs; discriminate.
  - unfold append_line, change. rewrite H3. exact Ho.
Qed.

Lemma read_more k vs ls :
  more_lines k vs ls -> forall s pre nm cur' key ws,
  within s pre nm (cur' ++ [(key, ws)]) (Some k) -> i_opt s = Some key -> ~ In key (map fst cur') ->
  exists s', foldM read_line s ls = Ok s' /\
    within s' pre nm (cur' ++ [(key, ws ++ vs)]) (Some k) /\ i_opt s' = Some key.
Proof.
  induction 1 as [|sp c t vs ls H1 H2 H3 H IH|sp v vs ls H1 H IH|sp v b vs ls H1 H2 H3 H4 H5 H6 H7 H IH];
    intros s pre nm cur' key ws Hw Ho Hk.
  - exists s. rewrite app_nil_r. auto.
  - cbn [foldM]. rewrite read_comment by assumption. cbn [bind]. now apply IH.
  - cbn [foldM]. rewrite read_blank by assumption.
    destruct (within_append _ _ _ _ _ _ _ [] Hw Ho Hk) as (E1 & E2 & E3).
    rewrite E1. cbn [bind]. destruct (IH _ _ _ _ _ _ E2 E3 Hk) as (s' & F1 & F2 & F3).
    exists s'. rewrite <- app_assoc in F2. auto.
  - cbn [foldM]. destruct (within_append _ _ _ _ _ _ _ v Hw Ho Hk) as (E1 & E2 & E3).
    assert (E : read_line s (sp ++ v ++ b) = Ok (append_line s key v)).
    { unfold read_line. rewrite strip_between by assumption.
      replace (is_comment v) with false.
      2:{ destruct v as [|c v]; [reflexivity|]. destruct (H6 c v eq_refl).
          cbn. symmetry. apply orb_false_iff. split; now apply Ascii.eqb_neq. }
      rewrite E1. rewrite leading_blanks.
      2: assumption.
      2:{ destruct (trimmed_solid v H3 H4 H5) as (c & r & -> & Hc). exists c, (r ++ b). auto. }
      destruct Hw as (_ & _ & _ & _ & _ & Hk' & _). rewrite Hk'.
      replace (k <? List.length sp) with true by (symmetry; now apply Nat.ltb_lt).
      destruct v; [easy|reflexivity]. }
    rewrite E. cbn [bind]. destruct (IH _ _ _ _ _ _ E2 E3 Hk) as (s' & F1 & F2 & F3).
    exists s'. rewrite <- app_assoc in F2. auto.
Qed.

Lemma within_open s pre nm cur o :
  within s pre nm cur o ->
  match o with
  | None => open_option s = None
  | Some k => i_indent s = k /\ exists key, open_option s = Some key
  end.
Proof.
  intros (H1 & H2 & H3 & H4 & H5 & H6). destruct o as [k|].
  - destruct H6 as (H6 & c & key & vs & E & H7 & H8 & _). split; [exact H6|]. exists key.
    unfold open_option. rewrite H3, H7. destruct key; [easy|reflexivity].
  - unfold open_option. now rewrite H3, H6.
Qed.

(** A line that is not indented deeper than the option above is a header or an
    option *)
Lemma read_fitting s pre nm cur o k sp v :
  within s pre nm cur o -> fits o k -> blanks sp -> List.length sp = k ->
  solid v -> is_comment (rstrip_sp v) = false ->
  read_line s (sp ++ v) =
    let s := set_indent s k in
    match section_header (rstrip_sp v) with
    | Some n => header_line s n
    | None => option_line s (Some nm) (rstrip_sp v)
    end.
Proof.
  intros Hw Hf Hs Hl Hv Hc. pose proof (within_open _ _ _ _ _ Hw) as Hop.
  destruct Hw as (_ & _ & H3 & _). unfold read_line, strip_sp.
  rewrite lstrip_blanks by exact Hs.
  rewrite (lstrip_solid0 v Hv).
  rewrite Hc, leading_blanks, Hl by assumption.
  destruct Hv as (c & r & -> & Hsp). destruct (rstrip_start c r Hsp) as [r' ->].
  destruct o as [j|].
  - destruct Hop as [Hi [key ->]]. rewrite Hi. cbn in Hf.
    replace (j <? k) with false by (symmetry; now apply Nat.ltb_ge).
    cbn [i_cur set_indent]. now rewrite H3.
  - rewrite Hop. cbn [i_cur set_indent]. now rewrite H3.
Qed.

Lemma lower_case_nil s t : lower_case s t -> s <> [] -> t <> [].
Proof. intros H. destruct H; easy. Qed.

Lemma read_option s pre nm cur o k key v l :
  within s pre nm cur o -> fits o k -> option_written k key v l -> ~ In key (map fst cur) ->
  exists s', read_line s l = Ok s' /\ within s' pre nm (cur ++ [(key, [v])]) (Some k) /\
             i_opt s' = Some key.
Proof.
  intros Hw Hf Ho Hk. destruct Ho as [sp name b1 d b2 b3 Hs Hl Hn Hlow Hb1 Hd Hb2 Hb3 Ht Hi].
  destruct Hn as (Hn & Hnt & Hni & Hnc & Hnd & Hnb).
  pose proof (trimmed_solid _ Hn Hnt Hni) as Hsol.
  destruct name as [|c name]; [easy|].
  assert (Hc : is_space c = false) by (destruct Hsol as (? & ? & [= <- <-] & H); exact H).
  assert (Er : exists w, rstrip_sp ((c :: name) ++ b1 ++ d :: b2 ++ v ++ b3) = (c :: name) ++ b1 ++ d :: w
               /\ strip_sp w = v).
  { destruct (last_case v) as [Ev|(r & e & Ev)].
    - subst v. exists []. split; [|reflexivity].
      replace ((c :: name) ++ b1 ++ d :: b2 ++ [] ++ b3)
        with (((c :: name) ++ b1 ++ [d]) ++ (b2 ++ b3))
        by now rewrite <- !app_assoc.
      rewrite rstrip_blanks by now apply Forall_app.
      replace ((c :: name) ++ b1 ++ [d]) with (((c :: name) ++ b1) ++ [d]) by now rewrite <- !app_assoc.
      apply rstrip_end. destruct Hd; subst d; reflexivity.
    - exists (b2 ++ v). split.
      + replace ((c :: name) ++ b1 ++ d :: b2 ++ v ++ b3)
          with (((c :: name) ++ b1 ++ d :: b2 ++ v) ++ b3)
          by (rewrite <- !app_assoc; cbn [app]; now rewrite <- !app_assoc).
        rewrite rstrip_blanks by exact Hb3. subst v.
        replace ((c :: name) ++ b1 ++ d :: b2 ++ r ++ [e])
          with (((c :: name) ++ b1 ++ d :: b2 ++ r) ++ [e])
          by (rewrite <- !app_assoc; cbn [app]; now rewrite <- !app_assoc).
        apply rstrip_end. apply is_space_not; [now apply (proj2 Ht e r)|].
        apply (inline_in _ _ Hi), in_or_app. right. now left.
      + rewrite <- (app_nil_r v) at 1. apply strip_between; auto. constructor. }
  destruct Er as (w & Er & Ew).
  rewrite (read_fitting s pre nm cur o k); auto.
  2:{ exists c, (name ++ b1 ++ d :: b2 ++ v ++ b3). auto. }
  2:{ rewrite Er. cbn. destruct (Hnc c name eq_refl). apply orb_false_iff.
      split; now apply Ascii.eqb_neq. }
  rewrite Er. cbv zeta.
  replace (section_header ((c :: name) ++ b1 ++ d :: w)) with (@None pystr).
  2:{ cbn [app section_header]. destruct (Ascii.eqb_spec c "["%char) as [E|_]; [|reflexivity].
      now contradiction (Hnb c name eq_refl). }
  unfold option_line.
  replace ((c :: name) ++ b1 ++ d :: w) with (((c :: name) ++ b1) ++ d :: w) by now rewrite <- app_assoc.
  rewrite split_option_spec; [|apply Forall_app; split; [exact Hnd|]|exact Hd].
  2:{ eapply Forall_impl; [|exact Hb1]. intros a Ha. split; intros ->; cbv in Ha;
      repeat destruct Ha as [Ha|Ha]; discriminate || easy. }
  rewrite rstrip_blanks by exact Hb1. rewrite rstrip_trimmed by assumption.
  cbv zeta. rewrite <- (lower_case_spec _ _ Hlow).
  destruct Hw as (H1 & H2 & H3 & H4 & H5 & H6).
  replace (amem (cursect (set_indent s k) (Some nm)) key) with false.
  2:{ symmetry. apply amem_false. cbn. rewrite H1, aget_last by exact H2. exact Hk. }
  eexists; split; [reflexivity|]. unfold change. cbn. rewrite H3. split; [|reflexivity].
  unfold within. cbn. rewrite H1, aupd_last by exact H2. rewrite Ew. repeat split; auto.
  exists cur, key, [v]. repeat split; auto.
  - apply (lower_case_nil _ _ Hlow Hn).
  - discriminate.
Qed.

Lemma rstrip_prefix r a c t :
  is_space c = false -> exists t', rstrip_sp (r ++ a ++ c :: t) = r ++ a ++ c :: t' /\ (forall x, In x t' -> In x t).
Proof.
  intros Hc.
  assert (H : forall l, exists m, (forall m2, lstrip_sp (l ++ c :: m2) = m ++ c :: m2) /\ (forall x, In x m -> In x l)).
  { induction l as [|x l [m [IH1 IH2]]]; cbn.
    - exists []. rewrite Hc. auto.
    - destruct (is_space x).
      + exists m. auto.
      + exists (x :: l). auto. }
  destruct (H (rev t)) as (m & Hm1 & Hm2). exists (rev m). split.
  - unfold rstrip_sp.
    replace (rev (r ++ a ++ c :: t)) with (rev t ++ c :: rev (r ++ a)).
    2:{ rewrite app_assoc, (rev_app_distr (r ++ a)). cbn [rev]. now rewrite <- app_assoc. }
    rewrite Hm1. rewrite rev_app_distr. cbn [rev]. rewrite rev_involutive, <- !app_assoc. reflexivity.
  - intros x Hx. apply in_rev in Hx. apply Hm2 in Hx. now apply in_rev.
Qed.

Lemma header_line_ok k name l :
  header_written k name l -> exists sp v, l = sp ++ v /\ blanks sp /\ List.length sp = k /\ solid v /\
    is_comment (rstrip_sp v) = false /\ section_header (rstrip_sp v) = Some name.
Proof.
  intros H. destruct H as [sp t Hs Hl Hn Hni Hti Ht].
  exists sp, ("["%char :: name ++ "]"%char :: t). repeat split; auto.
  - exists "["%char, (name ++ "]"%char :: t). auto.
  - destruct (rstrip_prefix ["["%char] name "]"%char t eq_refl) as (t' & E & _).
    change ("["%char :: name ++ "]"%char :: t) with (["["%char] ++ name ++ "]"%char :: t).
    rewrite E. reflexivity.
  - destruct (rstrip_prefix ["["%char] name "]"%char t eq_refl) as (t' & E & Hin).
    change ("["%char :: name ++ "]"%char :: t) with (["["%char] ++ name ++ "]"%char :: t).
    rewrite E. apply section_header_spec; auto.
Qed.

Lemma new_section_within s name (l : list (pystr * raw_section)) :
  i_sections s = l -> i_defaults s = [] -> i_error s = false ->
  ~ In name (map fst l) -> name <> default_name ->
  exists s', header_line s name = Ok s' /\ within s' l name [] None.
Proof.
  intros H1 H2 H3 H4 H5. unfold header_line. rewrite H1.
  replace (amem l name) with false by (symmetry; now apply amem_false).
  replace (pystr_eqb name default_name) with false by (symmetry; now apply pystr_eqb_neq).
  eexists; split; [reflexivity|]. unfold within. cbn. now rewrite H1.
Qed.

Lemma read_header s pre nm cur o k name l :
  within s pre nm cur o -> fits o k -> header_written k name l ->
  ~ In name (map fst (pre ++ [(nm, cur)])) -> name <> default_name ->
  exists s', read_line s l = Ok s' /\ within s' (pre ++ [(nm, cur)]) name [] None.
Proof.
  intros Hw Hf Hh H1 H2. destruct (header_line_ok _ _ _ Hh) as (sp & v & -> & Hs & Hl & Hv & Hc & Hsec).
  rewrite (read_fitting s pre nm cur o k) by assumption. cbv zeta. rewrite Hsec.
  destruct Hw as (W1 & W2 & W3 & W4 & W5 & W6). now apply new_section_within.
Qed.

(** A line without meaning leaves the contents *)
Lemma read_filler s pre nm cur o l :
  within s pre nm cur o -> filler l ->
  exists s' cur', read_line s l = Ok s' /\ within s' pre nm cur' o /\
                  join_section cur' = join_section cur.
Proof.
  intros Hw Hf. destruct Hf as [sp Hs|sp c t Hs Hc Hi].
  - rewrite read_blank by exact Hs. pose proof (within_open _ _ _ _ _ Hw) as Hop.
    destruct o as [k|].
    + destruct Hop as [_ [key Hop]].
      pose proof Hw as (H1 & H2 & H3 & H4 & H5 & H6 & cur0 & key' & vs & -> & E1 & E2 & E3 & E4).
      destruct (within_append _ _ _ _ _ _ _ [] Hw E1 E4) as (F1 & F2 & F3).
      rewrite F1. eexists; eexists; split; [reflexivity|]. split; [exact F2|].
      rewrite !join_section_app. f_equal. unfold join_section. cbn [map fst snd]. now rewrite join_value_blank.
    + rewrite Hop. exists s, cur. auto.
  - rewrite read_comment by assumption. exists s, cur. auto.
Qed.

Lemma foldM_app {A S} (f : S -> A -> res S) l1 l2 x :
  foldM f x (l1 ++ l2) = (let* y := foldM f x l1 in foldM f y l2).
Proof.
  revert x; induction l1 as [|a l1 IH]; intros x; [reflexivity|]. cbn. destruct (f x a); [apply IH|reflexivity].
Qed.

Definition joined (l : list (pystr * raw_section)) : inifile :=
  map (fun ns => (fst ns, join_section (snd ns))) l.
Lemma joined_names l : map fst (joined l) = map fst l.
Proof. unfold joined. rewrite map_map. reflexivity. Qed.

Lemma join_keys_eq a b : join_section a = join_section b -> map fst a = map fst b.
Proof. intros H. now rewrite <- (join_section_keys a), <- (join_section_keys b), H. Qed.

Lemma read_writes o opts secs ls :
  writes o opts secs ls -> forall s pre nm cur,
  within s pre nm cur o -> NoDup (map fst cur ++ map fst opts) ->
  NoDup (map fst pre ++ nm :: map fst secs) -> ~ In default_name (map fst secs) ->
  Forall (fun sec => NoDup (map fst (snd sec))) secs ->
  exists s', foldM read_line s ls = Ok s' /\ i_error s' = false /\ i_defaults s' = [] /\
    joined (i_sections s') = joined pre ++ (nm, join_section cur ++ opts) :: secs.
Proof.
  induction 1 as [o|o opts secs l ls Hf H IH|o k key v vs l more opts secs ls Hf Ho Hm H IH
                 |o k name l opts secs ls Hf Hh H IH];
    intros s pre nm cur Hw Hnd Hns Hdef Hall.
  - exists s. destruct Hw as (H1 & H2 & H3 & H4 & H5 & _). cbn. repeat split; auto.
    rewrite H1. unfold joined. rewrite map_app. cbn. now rewrite app_nil_r.
  - destruct (read_filler _ _ _ _ _ _ Hw Hf) as (s1 & cur' & E & Hw' & Ej).
    cbn [foldM]. rewrite E. cbn [bind]. rewrite <- Ej. apply IH; auto.
    now rewrite (join_keys_eq _ _ Ej).
  - cbn [map fst] in Hnd.
    assert (Hk : ~ In key (map fst cur)).
    { intros Hin. apply NoDup_remove_2 in Hnd. apply Hnd, in_or_app. now left. }
    destruct (read_option _ _ _ _ _ _ _ _ _ Hw Hf Ho Hk) as (s1 & E1 & Hw1 & Eo).
    cbn [foldM]. rewrite E1. cbn [bind].
    destruct (read_more _ _ _ Hm _ _ _ _ _ _ Hw1 Eo Hk) as (s2 & E2 & Hw2 & Eo2).
    rewrite foldM_app, E2. cbn [bind].
    destruct (IH s2 pre nm (cur ++ [(key, [v] ++ vs)])) as (s' & F1 & F2 & F3 & F4); auto.
    { rewrite map_app, <- app_assoc. exact Hnd. }
    exists s'. repeat split; auto. rewrite F4. rewrite join_section_app, <- app_assoc.
    cbn [join_section map app fst snd]. destruct Ho as [sp name b1 d b2 b3 Q1 Q2 Q3 Q4 Q5 Q6 Q7 Q8 Q9 Q10].
    now rewrite (join_written k v vs more Q9 Q10 Hm).
  - cbn [map fst In] in Hns, Hdef.
    assert (Hin : ~ In name (map fst (pre ++ [(nm, cur)]))).
    { rewrite map_app. cbn. intros Hin. change (nm :: name :: map fst secs) with ([nm] ++ name :: map fst secs) in Hns.
      rewrite app_assoc in Hns. apply NoDup_remove_2 in Hns. apply Hns, in_or_app. now left. }
    destruct (read_header _ _ _ _ _ _ _ _ Hw Hf Hh Hin) as (s1 & E1 & Hw1); [firstorder congruence|].
    cbn [foldM]. rewrite E1. cbn [bind].
    inversion_clear Hall as [|? ? Ha1 Ha2]. cbn [snd] in Ha1.
    destruct (IH s1 (pre ++ [(nm, cur)]) name []) as (s' & F1 & F2 & F3 & F4); auto.
    { rewrite map_app, <- app_assoc. exact Hns. }
    exists s'. repeat split; auto. rewrite F4. unfold joined. rewrite map_app, <- app_assoc. cbn.
    now rewrite app_nil_r.
Qed.

Lemma read_start o opts secs ls :
  writes o opts secs ls -> o = None -> opts = [] -> secs <> [] ->
  NoDup (map fst secs) -> ~ In default_name (map fst secs) ->
  Forall (fun sec => NoDup (map fst (snd sec))) secs ->
  exists s', foldM read_line istart ls = Ok s' /\ i_error s' = false /\ i_defaults s' = [] /\
    joined (i_sections s') = secs.
Proof.
  induction 1 as [o|o opts secs l ls Hf H IH|o k key v vs l more opts secs ls Hf Ho Hm H IH
                 |o k name l opts secs ls Hf Hh H IH];
    intros -> Hop Hne Hns Hdef Hall; [easy| |discriminate|].
  - cbn [foldM]. replace (read_line istart l) with (Ok istart).
    2:{ destruct Hf as [sp Hs|sp c t Hs Hc Hi]; [now rewrite read_blank | now rewrite read_comment]. }
    cbn [bind]. now apply IH.
  - destruct (header_line_ok _ _ _ Hh) as (sp & v & -> & Hs & Hl & Hv & Hc & Hsec).
    assert (E : read_line istart (sp ++ v) = header_line (set_indent istart k) name).
    { unfold read_line, strip_sp. rewrite lstrip_blanks by exact Hs. rewrite (lstrip_solid0 v Hv).
      rewrite Hc, leading_blanks, Hl by assumption. rewrite Hsec.
      destruct Hv as (c & r & -> & Hsp). destruct (rstrip_start c r Hsp) as [r' ->]. reflexivity. }
    cbn [foldM]. rewrite E.
    inversion_clear Hall as [|? ? Ha1 Ha2]. cbn [map fst In] in Hns, Hdef. cbn [snd] in Ha1.
    inversion_clear Hns as [|? ? Hn1 Hn2].
    destruct (new_section_within (set_indent istart k) name []) as (s1 & E1 & Hw1);
      [reflexivity|reflexivity|reflexivity|now intros []|intros ->; apply Hdef; now left|].
    rewrite E1. cbn [bind].
    destruct (read_writes _ _ _ _ H s1 [] name [] Hw1) as (s' & F1 & F2 & F3 & F4); auto.
    { now constructor. }
    exists s'. repeat split; auto.
Qed.

(** ** All lines of a written file are lines *)
Lemma inline_app a b : inline a -> inline b -> inline (a ++ b).
Proof. intros. now apply Forall_app. Qed.
Lemma inline_cons c b : ~ is_nl c -> ~ is_cr c -> inline b -> inline (c :: b).
Proof. now constructor. Qed.
Local Ltac chr := rewrite ?nat_of_nl, ?nat_of_cr; discriminate.

Lemma filler_inline l : filler l -> inline l.
Proof.
  intros [s H|s c t H Hc Ht]; [now apply blanks_inline|].
  apply inline_app; [now apply blanks_inline|]. destruct Hc; subst c; apply inline_cons; auto; chr.
Qed.
Lemma more_inline k vs ls : more_lines k vs ls -> Forall inline ls.
Proof.
  induction 1; constructor; auto.
  - apply filler_inline. now constructor.
  - now apply blanks_inline.
  - auto using inline_app, blanks_inline.
Qed.
Lemma option_inline k key v l : option_written k key v l -> inline l.
Proof.
  intros [s name b1 d b2 b3 H1 H2 (N1 & N2 & N3 & _) H4 H5 H6 H7 H8 H9 H10].
  repeat apply inline_app; auto using blanks_inline.
  apply inline_cons; [destruct H6; subst d; chr ..|]. auto using inline_app, blanks_inline.
Qed.
Lemma header_inline k name l : header_written k name l -> inline l.
Proof.
  intros [s t H1 H2 H3 H4 H5 H6]. apply inline_app; [now apply blanks_inline|].
  apply inline_cons; [chr ..|]. apply inline_app; [exact H4|]. apply inline_cons; [chr ..|exact H5].
Qed.
Lemma writes_inline o opts secs ls : writes o opts secs ls -> Forall inline ls.
Proof.
  induction 1; auto.
  - constructor; auto using filler_inline.
  - constructor; [eauto using option_inline|]. apply Forall_app. eauto using more_inline.
  - constructor; eauto using header_inline.
Qed.

(** ** Interpolation of values without references *)
Lemma interpolate_plain d vals s : ~ In "%"%char s -> interpolate (S d) vals s = Ok s.
Proof.
  intros H. cbn [interpolate].
  assert (G : forall n t, List.length t <= n -> ~ In "%"%char t ->
    (fix go (fuel : nat) (s : pystr) {struct fuel} : res pystr :=
         match fuel, s with
         | _, [] => Ok []
         | O, _ => Err OutOfFuel
         | S fuel, a :: r =>
             if Ascii.eqb a "%"%char then
               match r with
               | b :: r' =>
                   if Ascii.eqb b "%"%char then let* t := go fuel r' in Ok ("%"%char :: t)
                   else if Ascii.eqb b "("%char then
                     match until_paren r' with
                     | Some (c :: n, rest) =>
                         match aget vals (str_lower (c :: n)) with
                         | None => Err InterpolationError
                         | Some v =>
                             let* v := (if existsb (Ascii.eqb "%"%char) v
                                        then interpolate d vals v else Ok v) in
                             let* t := go fuel rest in Ok (v ++ t)
                         end
                     | _ => Err InterpolationError
                     end
                   else Err InterpolationError
               | [] => Err InterpolationError
               end
             else let* t := go fuel r in Ok (a :: t)
         end) n t = Ok t).
  { induction n as [|n IH]; intros [|a t] Hl Hin; cbn in Hl; [reflexivity|lia|reflexivity|].
    cbn [In] in Hin. destruct (Ascii.eqb_spec a "%"%char) as [->|_]; [tauto|].
    rewrite IH by (lia || tauto). reflexivity. }
  apply G; auto.
Qed.

Lemma section_dict_plain opts :
  Forall (fun kv => ~ In "%"%char (snd kv)) opts -> section_dict [] opts = Ok opts.
Proof.
  intros H. unfold section_dict, with_defaults. cbn [filter]. rewrite app_nil_r.
  generalize opts at 1 as vals. intros vals. induction H as [|[k v] opts H _ IH]; [reflexivity|].
  cbn [mapM fst snd]. rewrite interpolate_plain by exact H. cbn [bind]. rewrite IH. reflexivity.
Qed.
