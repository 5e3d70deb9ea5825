(** Lemmas on reading and converting the old ini format. *)
From Coq Require Import List ZArith Bool Ascii String Reals Lia.
From Verif Require Import Base ParseModel ParseSpec ParseProps SectionProofs ConfigModel ConfigProofs ConfigProps DeprecatedModel DeprecatedSpec TroughModel.
Import ListNotations.
Local Open Scope string_scope.

Section Lemmas.
Context {F : Type}.
Implicit Types d e : dict F.

Lemma dget_dset d k k' v : dget (dset d k v) k' = if pystr_eqb k' k then Some v else dget d k'.
Proof.
  destruct (pystr_eqb k' k) eqn:E; [apply pystr_eqb_eq in E; subst; apply dget_dset_same|].
  apply dget_dset_other. intros ->. rewrite pystr_eqb_refl in E. discriminate.
Qed.
Lemma lookup_dget d k v : lookup d k = Ok v <-> dget d (S_ k) = Some v.
Proof. unfold lookup. destruct (dget d (S_ k)); split; congruence. Qed.
Lemma is_str_eq (v : val (atom F)) s : is_str v s = true <-> v = Leaf (AStr (S_ s)).
Proof.
  unfold is_str. split; [apply value_eqb_eq|]. intros ->. cbn. apply pystr_eqb_refl.
Qed.

(** Everything a section parser knows is in the result. *)
Lemma section_parse_keys c (os : list (option_ F)) d d' :
  (forall o o', In o os -> In o' os -> ~ In (o_name o) (o_alts o')) ->
  section_parse c os d = Ok d' -> forall o, In o os -> dmem d' (o_name o) = true.
Proof.
  intros Hd. unfold section_parse.
  assert (G : forall os' d d', incl os' os -> foldM (fun d o => let* (d', v) := option_parse c o d in Ok (dset d' (o_name o) v)) d os' = Ok d' ->
     (forall o, In o os -> dmem d (o_name o) = true -> dmem d' (o_name o) = true) /\ (forall o, In o os' -> dmem d' (o_name o) = true)).
  { induction os' as [|o r IH]; intros d1 d1' Hi H; cbn [foldM] in H; [injection H as <-; split; [auto|intros ? []]|].
    destruct (option_parse c o d1) as [[d2 v]|] eqn:E; [|discriminate]. cbn [bind] in H.
    destruct (IH _ _ (fun x Hx => Hi x (or_intror Hx)) H) as (H1 & H2).
    assert (Ho : In o os) by (apply Hi; now left).
    assert (Hdict : d2 = find_alternative d1 (o_name o) (o_alts o)).
    { unfold option_parse in E. destruct (dget _ (o_name o)) as [raw|]; [|destruct (o_optional o); [congruence|discriminate]].
      destruct (o_type o).
      - destruct (parse_bool raw); [|discriminate]. cbn [bind] in E. destruct (o_valid o _); congruence.
      - destruct raw as [[]|]; try discriminate. destruct (convert _ _ _); [|discriminate]. cbn [bind] in E. destruct (o_valid o _); congruence.
      - destruct raw as [[]|]; try discriminate. destruct (parse_list _ _); [|discriminate]. cbn [bind] in E. destruct (all_true _ _); [|discriminate].
        destruct (apply_shape _ _ _); [|discriminate]. cbn [bind] in E. congruence. }
    assert (Hk : forall o', In o' os -> dmem d1 (o_name o') = true -> dmem (dset d2 (o_name o) v) (o_name o') = true).
    { intros o' Ho' H'. unfold dmem. rewrite dget_dset. destruct (pystr_eqb (o_name o') (o_name o)) eqn:En; [reflexivity|].
      rewrite Hdict, find_alternative_other; [exact H'| |apply Hd; assumption]. intros E2. rewrite E2, pystr_eqb_refl in En. discriminate. }
    split; [intros o' Ho' H'; apply H1; auto|]. intros o' [<-|Ho']; [|auto]. apply H1; [assumption|]. unfold dmem. now rewrite dget_dset_same. }
  intros H. apply (G os d d'); [apply incl_refl|assumption].
Qed.
End Lemmas.

Ltac keys := repeat (rewrite dget_dset; match goal with |- context [pystr_eqb (S_ ?a) (S_ ?b)] => let r := eval vm_compute in (pystr_eqb (S_ a) (S_ b)) in change (pystr_eqb (S_ a) (S_ b)) with r; cbn iota end).
Ltac keys_in H := repeat (rewrite dget_dset in H; match type of H with context [pystr_eqb (S_ ?a) (S_ ?b)] => let r := eval vm_compute in (pystr_eqb (S_ a) (S_ b)) in change (pystr_eqb (S_ a) (S_ b)) with r in H; cbn iota in H end).
Ltac step H := match type of H with
  | (let* _ := ?r in _) = Ok _ => let E := fresh "E" in destruct r eqn:E; [cbn [bind] in H|discriminate H]
  end.

Lemma foldM_app {A S} (f : S -> A -> res S) l1 l2 x : foldM f x (l1 ++ l2) = (let* y := foldM f x l1 in foldM f y l2).
Proof. revert x. induction l1 as [|a r IH]; intros x; [reflexivity|]. cbn [List.app foldM]. destruct (f x a); [apply IH|reflexivity]. Qed.

Lemma bind_assoc {A B C} (r : res A) (f : A -> res B) (g : B -> res C) : bind (bind r f) g = bind r (fun x => bind (f x) g).
Proof. destruct r; reflexivity. Qed.

Lemma Ok_pair {A B} (a c : A) (b d : B) : Ok (a, b) = Ok (c, d) -> c = a /\ d = b.
Proof. intros H. injection H as -> ->. split; reflexivity. Qed.

Lemma Ok_inj' {A} (a b : A) : Ok a = Ok b -> a = b.
Proof. congruence. Qed.

Ltac run H := repeat match type of H with
  | bind (bind _ _) _ = Ok _ => rewrite bind_assoc in H
  | bind (if ?b then _ else _) _ = Ok _ => let E := fresh "C" in destruct b eqn:E
  | (if ?b then _ else _) = Ok _ => let E := fresh "C" in destruct b eqn:E
  | bind (Ok _) _ = Ok _ => cbn [bind] in H
  | bind ?r _ = Ok _ => let E := fresh "E" in destruct r eqn:E; [cbn [bind] in H|discriminate H]
  end.

Section Lemmas2.
Context {F : Type} (fo : fops F) (trunc : F -> res Z).
Implicit Types d e : dict F.

Lemma foldM_other c (os : list (option_ F)) k : ~ In k (map o_name os) -> ~ In k (flat_map o_alts os) ->
  forall d d', section_parse c os d = Ok d' -> dget d' k = dget d k.
Proof.
  unfold section_parse. induction os as [|o r IH]; intros Hn Ha d d' H; cbn [foldM] in H; [injection H as <-; reflexivity|].
  destruct (option_parse c o d) as [[d2 v]|] eqn:E; [|discriminate]. cbn [bind] in H.
  cbn [map flat_map In] in Hn, Ha. rewrite in_app_iff in Ha.
  rewrite (IH ltac:(tauto) ltac:(tauto) _ _ H), dget_dset_other by (intros ->; tauto).
  apply option_parse_dict in E. subst d2. apply find_alternative_other; [intros ->; tauto|tauto].
Qed.

Definition disjointb (os : list (option_ F)) : bool := forallb (fun o => negb (mem (o_name o) (flat_map o_alts os))) os.
Lemma mem_In k l : mem k l = true <-> In k l.
Proof.
  induction l as [|a r IH]; cbn; [split; [discriminate|tauto]|]. rewrite orb_true_iff, IH.
  split; intros [H|H]; auto; [left; symmetry; now apply pystr_eqb_eq|left; subst; apply pystr_eqb_refl].
Qed.
Lemma disjointb_spec os : disjointb os = true -> forall o o', In o os -> In o' os -> ~ In (o_name o) (o_alts o').
Proof.
  unfold disjointb. rewrite forallb_forall. intros H o o' Ho Ho' Hi. specialize (H o Ho). apply negb_true_iff in H.
  assert (mem (o_name o) (flat_map o_alts os) = true) by (apply mem_In, in_flat_map; eauto). congruence.
Qed.

(** A scalar string option that is not touched by the options after it. *)
Lemma string_option_last c n valid optional dflt (before after : list (option_ F)) d d' s :
  ~ In n (map o_name after) -> ~ In n (flat_map o_alts after) ->
  section_parse c (before ++ mkOption n (OScalar TStr) optional dflt (ShInt (-1)%Z) valid [] :: after) d = Ok d' ->
  dget d' n = Some (Leaf (AStr s)) -> (optional = false \/ dflt <> Leaf (AStr s)) -> valid (AStr s) = true.
Proof.
  intros Hn Ha H Hs Hopt. unfold section_parse in H. rewrite foldM_app in H.
  destruct (foldM _ d before) as [d1|] eqn:E1; [cbn [bind] in H|discriminate].
  cbn [foldM] in H. destruct (option_parse c _ d1) as [[d2 v]|] eqn:E; [|discriminate]. cbn [bind o_name] in H.
  pose proof (foldM_other _ _ _ Hn Ha _ _ H) as Hd. rewrite dget_dset_same, Hs in Hd. injection Hd as <-.
  unfold option_parse in E. cbn [o_name o_alts o_type o_valid o_optional o_default find_alternative] in E.
  destruct (dget _ n) as [[[]|]|]; try discriminate.
  - cbn [convert bind] in E. destruct (valid (AStr _)) eqn:Ev; [|discriminate]. injection E as <- <-. assumption.
  - destruct optional; [|discriminate]. injection E as _ Ed. destruct Hopt; [discriminate|contradiction].
Qed.
End Lemmas2.

(** ** Conversion of elements *)
Section Elements.
Context {F : Type} (fo : fops F).
Implicit Types d e : dict F.

Lemma copy_spec a b d d' : copy a b d = Ok d' <-> exists v, has d a v /\ d' = dset d (S_ b) v.
Proof.
  unfold copy, has, lookup. destruct (dget d (S_ a)) as [v|]; cbn [bind]; split.
  - intros H. exists v. split; [reflexivity|congruence].
  - intros (w & H1 & ->). congruence.
  - discriminate.
  - intros (w & H1 & _). discriminate.
Qed.

Definition bg_stage e : res (dict F) :=
  let* bg := lookup e "bg" in
  (if is_none bg then
     Ok (dset (dset (dset e (S_ "bg_facies") (Leaf (AInt (-1)%Z))) (S_ "bg_azim") (Leaf (AFlt (f_nan fo)))) (S_ "bg_dip") (Leaf (AFlt (f_nan fo))))
   else
     let* b0 := py_item bg 0 in
     let e := dset e (S_ "bg_facies") b0 in
     let* b1 := py_item bg 1 in
     let e := dset e (S_ "bg_azim") b1 in
     let* b2 := py_item bg 1 in
     Ok (dset e (S_ "bg_dip") b2)).
Definition bulb_stage e : res (dict F) := if dmem e (S_ "bulbset_d") then copy "bulbset_d" "bulbset_dist" e else Ok e.
Definition geo_stage e : res (dict F) :=
  let* g := lookup e "geometry" in
  if is_str g "trunc_ellip" then copy "el_z" "trough_density" (dset e (S_ "geometry") (Leaf (AStr (S_ "trough")))) else Ok e.
Definition lag_stage e : res (dict F) :=
  let* g := lookup e "geometry" in
  if is_str g "trough" || is_str g "channel" then
    let* lag := lookup e "lag" in
    if is_none lag then Ok (dset (dset e (S_ "lag_height") (Leaf (AFlt (f_zero fo)))) (S_ "lag_facies") (Leaf (AInt (-1)%Z)))
    else
      let* l0 := py_item lag 0 in
      let e := dset e (S_ "lag_height") l0 in
      let* l1 := py_item lag 1 in
      Ok (dset e (S_ "lag_facies") l1)
  else Ok e.

Lemma stages e e' cm : convert_element fo e = Ok (e', cm) -> exists e1 e2 e3 e4 e5,
  copy "geo_ztrend" "size_ztrend" e = Ok e1 /\ bg_stage e1 = Ok e2 /\ copy "dipset_d" "dipset_dist" e2 = Ok e3 /\
  bulb_stage e3 = Ok e4 /\ geo_stage e4 = Ok e5 /\ lag_stage e5 = Ok e'.
Proof.
  unfold convert_element. intros H.
  step H. rename a into e1. step H. rename a into bg. step H. rename a into e2. step H. rename a into e3. step H. rename a into e4.
  step H. rename a into g. step H. rename a into e5. step H. step H. step H. step H.
  apply Ok_pair in H. destruct H as [-> _]. exists e1, e2, e3, e4, e5.
  unfold bg_stage, bulb_stage, geo_stage, lag_stage. rewrite E0, E4, E8. cbn [bind]. tauto.
Qed.

Lemma eqb_S a b : pystr_eqb (S_ a) (S_ b) = String.eqb a b.
Proof.
  revert b. induction a as [|c a IH]; intros [|c' b]; try reflexivity.
  cbn [S_ list_ascii_of_string]. cbn [pystr_eqb String.eqb list_ascii_of_string]. destruct (Ascii.eqb c c'); [apply IH|reflexivity].
Qed.
Lemma dget_S d k v k' : dget (dset d (S_ k) v) (S_ k') = if String.eqb k' k then Some v else dget d (S_ k').
Proof. now rewrite dget_dset, eqb_S. Qed.


Definition bg_values e f a p : Prop :=
  (unset e "bg" /\ f = Leaf (AInt (-1)%Z) /\ a = Leaf (AFlt (f_nan fo)) /\ p = a) \/
  (exists bg, has e "bg" bg /\ is_none bg = false /\ py_item bg 0 = Ok f /\ py_item bg 1 = Ok a /\ p = a).
Definition lag_values e h l : Prop :=
  (unset e "lag" /\ h = Leaf (AFlt (f_zero fo)) /\ l = Leaf (AInt (-1)%Z)) \/
  (exists lag, has e "lag" lag /\ is_none lag = false /\ py_item lag 0 = Ok h /\ py_item lag 1 = Ok l).

Lemma is_none_eq (v : val (atom F)) : is_none v = true <-> v = Leaf ANone.
Proof. destruct v as [[]|]; cbn; split; congruence. Qed.

Lemma bg_stage_spec e e' : bg_stage e = Ok e' -> exists f a p, bg_values e f a p /\ e' = dset (dset (dset e (S_ "bg_facies") f) (S_ "bg_azim") a) (S_ "bg_dip") p.
Proof.
  unfold bg_stage, bg_values. intros H. step H. apply lookup_dget in E. destruct (is_none a) eqn:En.
  - apply is_none_eq in En. subst a. injection H as <-. eexists _, _, _. split; [left; repeat split; eassumption || reflexivity|reflexivity].
  - step H. step H. injection H as <-. exists a0, a1, a1. split; [right; exists a; tauto|reflexivity].
Qed.
Lemma bulb_stage_spec e e' : bulb_stage e = Ok e' -> e' = match dget e (S_ "bulbset_d") with Some v => dset e (S_ "bulbset_dist") v | None => e end.
Proof. unfold bulb_stage, dmem, copy, lookup. destruct (dget e (S_ "bulbset_d")); cbn [bind]; congruence. Qed.
Lemma geo_stage_trough e e' : has e "geometry" (Leaf (AStr (S_ "trunc_ellip"))) -> geo_stage e = Ok e' ->
  exists v, has e "el_z" v /\ e' = dset (dset e (S_ "geometry") (Leaf (AStr (S_ "trough")))) (S_ "trough_density") v.
Proof.
  intros Hg H. unfold geo_stage in H. rewrite (proj2 (lookup_dget _ _ _) Hg) in H. cbn [bind] in H.
  rewrite (proj2 (is_str_eq _ _) eq_refl) in H. apply copy_spec in H. destruct H as (v & Hv & ->). exists v. split; [|reflexivity].
  unfold has in *. rewrite dget_S in Hv. exact Hv.
Qed.
Lemma geo_stage_other e e' : ~ has e "geometry" (Leaf (AStr (S_ "trunc_ellip"))) -> geo_stage e = Ok e' -> e' = e.
Proof.
  intros Hg H. unfold geo_stage in H. step H. apply lookup_dget in E. destruct (is_str a "trunc_ellip") eqn:Ei; [|congruence].
  apply is_str_eq in Ei. subst a. contradiction.
Qed.
Lemma lag_stage_trough e e' : has e "geometry" (Leaf (AStr (S_ "trough"))) -> lag_stage e = Ok e' ->
  exists h l, lag_values e h l /\ e' = dset (dset e (S_ "lag_height") h) (S_ "lag_facies") l.
Proof.
  intros Hg H. unfold lag_stage in H. rewrite (proj2 (lookup_dget _ _ _) Hg) in H. cbn [bind] in H.
  rewrite (proj2 (is_str_eq _ _) eq_refl) in H. cbn [orb] in H. step H. apply lookup_dget in E. unfold lag_values. destruct (is_none a) eqn:En.
  - apply is_none_eq in En. subst a. injection H as <-. eexists _, _. split; [left; repeat split; eassumption || reflexivity|reflexivity].
  - step H. step H. injection H as <-. exists a0, a1. split; [right; exists a; tauto|reflexivity].
Qed.
Lemma lag_stage_other e e' : ~ has e "geometry" (Leaf (AStr (S_ "trough"))) -> ~ has e "geometry" (Leaf (AStr (S_ "channel"))) -> lag_stage e = Ok e' -> e' = e.
Proof.
  intros Hg Hc H. unfold lag_stage in H. step H. apply lookup_dget in E. destruct (is_str a "trough") eqn:Ei; [apply is_str_eq in Ei; subst a; contradiction|].
  destruct (is_str a "channel") eqn:Ej; [apply is_str_eq in Ej; subst a; contradiction|]. cbn [orb] in H. congruence.
Qed.

Lemma common_view e e1 e2 e3 e4 : copy "geo_ztrend" "size_ztrend" e = Ok e1 -> bg_stage e1 = Ok e2 -> copy "dipset_d" "dipset_dist" e2 = Ok e3 -> bulb_stage e3 = Ok e4 ->
  exists z f a p dd, has e "geo_ztrend" z /\ bg_values e f a p /\ has e "dipset_d" dd /\
  forall k, dget e4 (S_ k) =
    if String.eqb k "bulbset_dist" then match dget e (S_ "bulbset_d") with Some v => Some v | None => dget e (S_ k) end
    else if String.eqb k "dipset_dist" then Some dd else if String.eqb k "bg_dip" then Some p else if String.eqb k "bg_azim" then Some a
    else if String.eqb k "bg_facies" then Some f else if String.eqb k "size_ztrend" then Some z else dget e (S_ k).
Proof.
  intros H1 H2 H3 H4. apply copy_spec in H1. destruct H1 as (z & Hz & ->). apply bg_stage_spec in H2. destruct H2 as (f & a & p & Hb & ->).
  apply copy_spec in H3. destruct H3 as (dd & Hd & ->). apply bulb_stage_spec in H4.
  exists z, f, a, p, dd. split; [assumption|]. split; [|split].
  - unfold bg_values, unset, has in *. rewrite !dget_S in Hb. exact Hb.
  - unfold has in *. rewrite !dget_S in Hd. exact Hd.
  - intros k. rewrite !(dget_S _ _ _ "bulbset_d") in H4. cbn [String.eqb Ascii.eqb Bool.eqb] in H4. subst e4.
    destruct (dget e (S_ "bulbset_d")) as [v|]; [rewrite !dget_S; reflexivity|].
    destruct (String.eqb k "bulbset_dist") eqn:Ek; [apply String.eqb_eq in Ek; subst k|]; rewrite !dget_S; reflexivity.
Qed.

Lemma trough_view e e' cm : has e "geometry" (Leaf (AStr (S_ "trunc_ellip"))) -> convert_element fo e = Ok (e', cm) ->
  exists z f a p dd t h l, has e "geo_ztrend" z /\ bg_values e f a p /\ has e "dipset_d" dd /\ has e "el_z" t /\ lag_values e h l /\
  forall k, dget e' (S_ k) =
    if String.eqb k "lag_facies" then Some l else if String.eqb k "lag_height" then Some h
    else if String.eqb k "trough_density" then Some t else if String.eqb k "geometry" then Some (Leaf (AStr (S_ "trough")))
    else if String.eqb k "bulbset_dist" then match dget e (S_ "bulbset_d") with Some v => Some v | None => dget e (S_ k) end
    else if String.eqb k "dipset_dist" then Some dd else if String.eqb k "bg_dip" then Some p else if String.eqb k "bg_azim" then Some a
    else if String.eqb k "bg_facies" then Some f else if String.eqb k "size_ztrend" then Some z else dget e (S_ k).
Proof.
  intros Hg H. apply stages in H. destruct H as (e1 & e2 & e3 & e4 & e5 & H1 & H2 & H3 & H4 & H5 & H6).
  destruct (common_view _ _ _ _ _ H1 H2 H3 H4) as (z & f & a & p & dd & Hz & Hb & Hd & V).
  apply geo_stage_trough in H5; [|unfold has; now rewrite V]. destruct H5 as (t & Ht & ->).
  apply lag_stage_trough in H6; [|unfold has; now rewrite !dget_S]. destruct H6 as (h & l & Hl & ->).
  exists z, f, a, p, dd, t, h, l. split; [assumption|]. split; [assumption|]. split; [assumption|].
  split; [unfold has in *; now rewrite V in Ht|].
  split; [unfold lag_values, unset, has in *; rewrite !dget_S in Hl; cbn [String.eqb Ascii.eqb Bool.eqb] in Hl; rewrite V in Hl; exact Hl|].
  intros k. rewrite !dget_S, V. reflexivity.
Qed.

Lemma other_view e e' cm g : has e "geometry" (Leaf (AStr (S_ g))) -> ~ In g ["trunc_ellip"; "trough"; "channel"] -> convert_element fo e = Ok (e', cm) ->
  exists z f a p dd, has e "geo_ztrend" z /\ bg_values e f a p /\ has e "dipset_d" dd /\
  forall k, dget e' (S_ k) =
    if String.eqb k "bulbset_dist" then match dget e (S_ "bulbset_d") with Some v => Some v | None => dget e (S_ k) end
    else if String.eqb k "dipset_dist" then Some dd else if String.eqb k "bg_dip" then Some p else if String.eqb k "bg_azim" then Some a
    else if String.eqb k "bg_facies" then Some f else if String.eqb k "size_ztrend" then Some z else dget e (S_ k).
Proof.
  intros Hg Hn H. apply stages in H. destruct H as (e1 & e2 & e3 & e4 & e5 & H1 & H2 & H3 & H4 & H5 & H6).
  destruct (common_view _ _ _ _ _ H1 H2 H3 H4) as (z & f & a & p & dd & Hz & Hb & Hd & V).
  assert (Hg4 : dget e4 (S_ "geometry") = Some (Leaf (AStr (S_ g)))) by (now rewrite V).
  assert (N : forall s, In s ["trunc_ellip"; "trough"; "channel"] -> ~ has e4 "geometry" (Leaf (AStr (S_ s)))).
  { intros s Hs Hh. unfold has in Hh. rewrite Hg4 in Hh. apply Hn. assert (S_ g = S_ s) by congruence.
    replace g with s; [assumption|]. pose proof (eqb_S g s) as Q. rewrite H, pystr_eqb_refl in Q. symmetry in Q. apply String.eqb_eq in Q. congruence. }
  apply geo_stage_other in H5; [|apply N; cbn; tauto]. subst e5.
  apply lag_stage_other in H6; [|apply N; cbn; tauto..]. subst e'.
  exists z, f, a, p, dd. auto.
Qed.
End Elements.
