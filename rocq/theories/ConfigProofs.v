(** Lemmas about reading configurations. *)
From Coq Require Import List ZArith Bool Ascii String Lia.
From Verif Require Import Base ParseModel ParseSpec SectionSpec ParseProofs ShapeProofs ShapeProofs2 ShapeProofs3
  SectionProofs OptionProofs ConfigModel ConfigSpec.
Import ListNotations.

(** ** Stripping quotes *)
Lemma is_quote_spec a : is_quote a = true <-> quote_char a.
Proof. unfold is_quote, quote_char. rewrite orb_true_iff, !Ascii.eqb_eq. tauto. Qed.

Lemma lstrip_decomp s :
  exists pre, s = pre ++ lstrip s /\ Forall quote_char pre /\ (forall a r, lstrip s = a :: r -> ~ quote_char a).
Proof.
  induction s as [|a s IH]; simpl.
  - exists []. repeat split; auto. discriminate.
  - destruct (is_quote a) eqn:E.
    + destruct IH as (pre & H1 & H2 & H3). exists (a :: pre). simpl. rewrite <- H1. split; [reflexivity|].
      split; [constructor; [now apply is_quote_spec|assumption]|assumption].
    + exists []. repeat split; auto. intros b r [= <- <-]. rewrite <- is_quote_spec. congruence.
Qed.

Lemma lstrip_app pre t :
  Forall quote_char pre -> (forall a r, t = a :: r -> ~ quote_char a) -> lstrip (pre ++ t) = t.
Proof.
  intros Hp Ht. induction Hp as [|a pre Ha Hp IH]; simpl.
  - destruct t as [|a t]; [reflexivity|]. simpl. destruct (is_quote a) eqn:E; [|reflexivity].
    exfalso. apply is_quote_spec in E. now apply (Ht a t eq_refl).
  - apply is_quote_spec in Ha. now rewrite Ha.
Qed.

Lemma lstrip_all pre : Forall quote_char pre -> lstrip pre = [].
Proof. intros H. rewrite <- (app_nil_r pre). apply lstrip_app; [assumption|discriminate]. Qed.

Lemma strip_quotes_spec m w : strip_quotes m = w <-> unquoted m w.
Proof.
  unfold strip_quotes. split.
  - intros <-. destruct (lstrip_decomp m) as (pre & H1 & H2 & H3).
    set (t := lstrip m) in *.
    destruct (lstrip_decomp (rev t)) as (post & G1 & G2 & G3).
    set (u := lstrip (rev t)) in *.
    assert (Et : t = rev u ++ rev post).
    { rewrite <- (rev_involutive t), G1, rev_app_distr. reflexivity. }
    exists pre, (rev post). split; [now rewrite H1, Et|]. split; [assumption|]. split; [now apply Forall_rev|]. split.
    + intros a r E. apply (H3 a (r ++ rev post)). now rewrite Et, E.
    + intros r a E. apply (G3 a (rev r)). rewrite <- (rev_involutive u), E, rev_app_distr. reflexivity.
  - intros (pre & post & -> & Hpre & Hpost & Hh & Hl).
    destruct w as [|a w].
    + simpl. rewrite (lstrip_all (pre ++ post)); [reflexivity|]. apply Forall_app. auto.
    + rewrite lstrip_app; [|assumption|].
      2:{ intros b r E. simpl in E. injection E as <- _. now apply (Hh a w). }
      rewrite rev_app_distr, lstrip_app; [apply rev_involutive|now apply Forall_rev|].
      intros b r E. apply (Hl (rev r) b). rewrite <- (rev_involutive (a :: w)), E. reflexivity.
Qed.

Lemma w_flat : Forall (fun y => ~ (65 <= nat_of_ascii y <= 90)%nat) (S_ "flat").
Proof. charlist. Qed.
Lemma w_random : Forall (fun y => ~ (65 <= nat_of_ascii y <= 90)%nat) (S_ "random").
Proof. charlist. Qed.

Lemma pyget_0 {A} (a : A) l : pyget (a :: l) 0 = Ok a.
Proof. exact (pyget_nat (a :: l) 0 a eq_refl). Qed.
Lemma pyget_1 {A} (a b : A) l : pyget (a :: b :: l) 1 = Ok b.
Proof. exact (pyget_nat (a :: b :: l) 1 b eq_refl). Qed.
Lemma pyget_2 {A} (a b d : A) l : pyget (a :: b :: d :: l) 2 = Ok d.
Proof. exact (pyget_nat (a :: b :: d :: l) 2 d eq_refl). Qed.

Section Contact.
Context {F : Type} (c : converters F).

Definition texts (ts : list pystr) : val (atom F) := Node (map (fun s => Leaf (AStr s)) ts).

Lemma parse_contact_spec depth ts cm :
  parse_contact_model c (texts ts) depth = Ok cm <-> contact_spec (to_float c) depth ts cm.
Proof.
  unfold parse_contact_model, texts. cbn [items bind]. split.
  - destruct ts as [|m ts]; [discriminate|].
    cbn [map]. rewrite pyget_0. cbn [bind py_strip].
    set (w := strip_quotes m). assert (Hw : unquoted m w) by now apply strip_quotes_spec.
    intros H. apply bind_Ok in H as ([z rest] & Hz & H).
    destruct depth.
    + destruct ts as [|zt ts]; [discriminate|].
      cbn [map List.length Nat.ltb Nat.leb] in Hz.
      cbn [map] in Hz. rewrite pyget_1 in Hz.
      cbn [bind py_float skipn map] in Hz. apply bind_Ok in Hz as (zf & Hzf & [= <- <-]).
      rewrite map_length in H.
      destruct (pystr_eqb (str_lower w) (S_ "flat")) eqn:E1.
      * apply str_lower_spec in E1; [|exact w_flat]. destruct ts as [|t ts].
        -- simpl in H. injection H as <-. now constructor.
        -- exfalso. cbn [List.length Nat.eqb andb] in H.
           assert (E2 : pystr_eqb (str_lower w) (S_ "random") = false).
           { apply pystr_eqb_neq. apply str_lower_spec in E1; [|exact w_flat]. apply pystr_eqb_eq in E1.
             rewrite E1. discriminate. }
           rewrite E2 in H. discriminate.
      * cbn [andb] in H. destruct (pystr_eqb (str_lower w) (S_ "random")) eqn:E2; [|discriminate].
        apply str_lower_spec in E2; [|exact w_random].
        destruct ts as [|t0 [|t1 [|t2 [|t3 ts]]]]; try discriminate.
        simpl in H. apply bind_Ok in H as (v & Hv & H). apply bind_Ok in H as (x & Hx & H).
        apply bind_Ok in H as (y & Hy & [= <-]). now constructor.
    + cbn [skipn map] in Hz. injection Hz as <- <-. rewrite map_length in H.
      destruct (pystr_eqb (str_lower w) (S_ "flat")) eqn:E1.
      * apply str_lower_spec in E1; [|exact w_flat]. destruct ts as [|t ts].
        -- simpl in H. injection H as <-. now constructor.
        -- exfalso. cbn [List.length Nat.eqb andb] in H.
           assert (E2 : pystr_eqb (str_lower w) (S_ "random") = false).
           { apply pystr_eqb_neq. apply str_lower_spec in E1; [|exact w_flat]. apply pystr_eqb_eq in E1.
             rewrite E1. discriminate. }
           rewrite E2 in H. discriminate.
      * cbn [andb] in H. destruct (pystr_eqb (str_lower w) (S_ "random")) eqn:E2; [|discriminate].
        apply str_lower_spec in E2; [|exact w_random].
        destruct ts as [|t0 [|t1 [|t2 [|t3 ts]]]]; try discriminate.
        simpl in H. apply bind_Ok in H as (v & Hv & H). apply bind_Ok in H as (x & Hx & H).
        apply bind_Ok in H as (y & Hy & [= <-]). now constructor.
  - intros [m w Hw Hf|m w zt z Hw Hf Hz|m w vt xt yt v x y Hw Hr Hv Hx Hy|m w zt vt xt yt z v x y Hw Hr Hz Hv Hx Hy];
      apply strip_quotes_spec in Hw;
      [apply (str_lower_spec _ _ w_flat) in Hf|apply (str_lower_spec _ _ w_flat) in Hf
      |apply (str_lower_spec _ _ w_random) in Hr|apply (str_lower_spec _ _ w_random) in Hr];
      cbn [map]; rewrite pyget_0; cbn [bind py_strip]; rewrite Hw;
      cbn [List.length Nat.ltb Nat.leb bind skipn Nat.eqb].
    + now rewrite Hf.
    + rewrite pyget_1. cbn [bind py_float]. rewrite Hz. cbn [bind List.length Nat.eqb]. now rewrite Hf.
    + rewrite andb_false_r, Hr. cbn [andb]. rewrite pyget_0, pyget_1, pyget_2. cbn [bind py_float].
      rewrite Hv. cbn [bind]. rewrite Hx. cbn [bind]. now rewrite Hy.
    + rewrite pyget_1. cbn [bind py_float]. rewrite Hz. cbn [bind List.length Nat.eqb].
      rewrite andb_false_r, Hr. cbn [andb]. rewrite pyget_0, pyget_1, pyget_2. cbn [bind py_float].
      rewrite Hv. cbn [bind]. rewrite Hx. cbn [bind]. now rewrite Hy.
Qed.

Lemma parse_contact_error depth ts e :
  ts <> [] -> (forall s e', to_float c s = Err e' -> e' = ValueError) ->
  parse_contact_model c (texts ts) depth = Err e -> e = ValueError.
Proof.
  intros Hne Hfl. unfold parse_contact_model, texts. cbn [items bind].
  destruct ts as [|m ts]; [congruence|].
  cbn [map]. rewrite pyget_0. cbn [bind py_strip]. set (w := strip_quotes m).
  assert (Htail : forall z (l : list pystr),
    (if pystr_eqb (str_lower w) (S_ "flat") && (List.length (map (fun s => Leaf (@AStr F s)) l) =? 0)%nat
     then Ok (mkContact w z None)
     else if pystr_eqb (str_lower w) (S_ "random") && (List.length (map (fun s => Leaf (@AStr F s)) l) =? 3)%nat
     then let* p0 := pyget (map (fun s => Leaf (@AStr F s)) l) 0 in let* var := py_float c p0 in
          let* p1 := pyget (map (fun s => Leaf (@AStr F s)) l) 1 in let* corlx := py_float c p1 in
          let* p2 := pyget (map (fun s => Leaf (@AStr F s)) l) 2 in let* corly := py_float c p2 in
          Ok (mkContact w z (Some (var, corlx, corly)))
     else Err ValueError) = Err e -> e = ValueError).
  { intros z l. destruct (pystr_eqb (str_lower w) (S_ "flat") && _); [discriminate|]. destruct (pystr_eqb _ _); cbn [andb]; [|now intros [= <-]].
    destruct l as [|t0 [|t1 [|t2 [|t3 l]]]]; try (now intros [= <-]). simpl.
    destruct (to_float c t0) eqn:E0; cbn [bind]; [|intros [= <-]; eauto].
    destruct (to_float c t1) eqn:E1; cbn [bind]; [|intros [= <-]; eauto].
    destruct (to_float c t2) eqn:E2; cbn [bind]; [discriminate|intros [= <-]; eauto]. }
  destruct depth.
  - destruct ts as [|zt ts]; [now intros [= <-]|].
    cbn [map List.length Nat.ltb Nat.leb]. rewrite pyget_1.
    cbn [bind py_float skipn map]. destruct (to_float c zt) eqn:E; cbn [bind]; [|intros [= <-]; eauto].
    apply Htail.
  - cbn [bind skipn map]. apply Htail.
Qed.
End Contact.

(** ** Positions *)
Section Index.
Context {F : Type}.
Implicit Types x y : val (atom F).

(** Values all of whose leaves are strings. *)
Fixpoint stringy x : Prop :=
  match x with
  | Leaf (AStr _) => True
  | Leaf _ => False
  | Node l => (fix go l := match l with [] => True | y :: r => stringy y /\ go r end) l
  end.

Lemma value_eqb_eq x : forall y, value_eqb x y = true -> x = y.
Proof.
  revert x. fix IH 1. intros [a|l] [b|m]; simpl; try discriminate.
  - destruct a, b; try discriminate. simpl. intros H. apply pystr_eqb_eq in H. now subst.
  - revert m. induction l as [|x l IHl]; intros [|y m]; try discriminate; [reflexivity|].
    intros H. apply andb_true_iff in H as [H1 H2]. apply IH in H1. specialize (IHl m H2). congruence.
Qed.

Lemma value_eqb_refl x : stringy x -> value_eqb x x = true.
Proof.
  revert x. fix IH 1. intros [a|l]; simpl.
  - destruct a; try easy. intros _. apply pystr_eqb_refl.
  - induction l as [|x l IHl]; [reflexivity|]. intros [H1 H2]. rewrite (IH x H1). simpl. now apply IHl.
Qed.

Lemma index_in_some x l k : index_in x l = Some k ->
  nth_error l k = Some x /\ (stringy x -> forall j, (j < k)%nat -> nth_error l j <> Some x).
Proof.
  revert k. induction l as [|y l IH]; intros k; simpl; [discriminate|].
  destruct (value_eqb x y) eqn:E.
  - intros [= <-]. apply value_eqb_eq in E. subst. split; [reflexivity|]. lia.
  - destruct (index_in x l) as [k'|]; [|discriminate]. intros [= <-].
    destruct (IH k' eq_refl) as [H1 H2]. split; [exact H1|]. intros Hx [|j] Hj.
    + simpl. intros [= ->]. rewrite value_eqb_refl in E; [discriminate|assumption].
    + simpl. apply H2; [assumption|lia].
Qed.

Lemma index_in_none x l : stringy x -> index_in x l = None -> ~ In x l.
Proof.
  intros Hx. induction l as [|y l IH]; simpl; [tauto|].
  destruct (value_eqb x y) eqn:E; [discriminate|]. destruct (index_in x l); [discriminate|].
  intros _ [->|H]; [rewrite value_eqb_refl in E; [discriminate|assumption]|]. now apply IH.
Qed.

Lemma index_in_stringy x l k : index_in x l = Some k -> stringy x.
Proof.
  revert k. induction l as [|y l IH]; intros k; simpl; [discriminate|].
  destruct (value_eqb x y) eqn:E.
  - intros _. clear -E. revert x y E. fix IHx 1. intros [a|l] [b|m]; simpl; try discriminate.
    + destruct a, b; easy.
    + revert m. induction l as [|x l IHl]; intros [|y m]; try discriminate; [easy|].
      intros H. apply andb_true_iff in H as [H1 H2]. split; [now apply (IHx x y)|]. now apply (IHl m).
  - destruct (index_in x l); [|discriminate]. intros _. now apply (IH n).
Qed.

Lemma list_index_Ok hf x i : list_index hf x = Ok i -> exists l, hf = Node l /\ position l x i.
Proof.
  unfold list_index. destruct hf as [|l]; [discriminate|]. destruct (index_in x l) as [k|] eqn:E; [|discriminate].
  intros [= <-]. exists l. split; [reflexivity|]. exists k. pose proof (index_in_stringy x l k E) as Hs.
  destruct (index_in_some x l k E) as [H1 H2]. auto.
Qed.

Lemma position_bound l x i : position l x i -> (0 <= i < Z.of_nat (List.length l))%Z.
Proof.
  intros (k & -> & H & _). assert (k < List.length l)%nat by (apply nth_error_Some; congruence). lia.
Qed.

Lemma position_fun l x i j : position l x i -> position l x j -> i = j.
Proof.
  intros (k & -> & H1 & H2) (k' & -> & G1 & G2). f_equal.
  destruct (Nat.lt_trichotomy k k') as [H|[H|H]]; auto.
  - exfalso. now apply (G2 k H).
  - exfalso. now apply (H2 k' H).
Qed.

Lemma position_inj l x y i : position l x i -> position l y i -> x = y.
Proof. intros (k & -> & H & _) (k' & E & G & _). assert (k = k') by lia. subst. congruence. Qed.

Lemma parse_facies_Ok (fac : val (atom F)) l idx : (forall s, fac <> Leaf (AStr s)) ->
  parse_facies fac (Node l) = Ok idx -> positions l fac idx.
Proof.
  intros Hs H. unfold parse_facies in H. destruct fac as [[]|ns]; try discriminate; [now destruct (Hs s)|].
  cbn [items bind] in H. apply bind_Ok in H as (ks & H & [= <-]). apply mapM_Ok in H.
  exists ns, ks. repeat split; auto. clear Hs. induction H as [|n k ns ks Hn H IH]; constructor; auto.
  apply list_index_Ok in Hn as (l' & [= <-] & Hp). exact Hp.
Qed.
End Index.

(** ** Accepted shapes are never empty *)
Lemma fit_shape_node {A} sh (v v' : val A) : fit_shape sh v = Ok v' -> exists x l, v' = Node (x :: l).
Proof.
  intros H. unfold fit_shape in H. apply bind_Ok in H as (sh' & Hr & H). apply bind_Ok in H as (w & He & H).
  apply bind_Ok in H as (real & Hreal & H). apply bind_Ok in H as (b & Hc & H). destruct b; [|discriminate].
  injection H as <-.
  assert (Hnode : exists l, w = Node l).
  { unfold expand_to_shape in He. apply bind_Ok in He as (dep & Hd & He).
    destruct (dep =? List.length sh')%nat eqn:E.
    - injection He as <-. destruct v as [a|l]; [|eauto]. exfalso. simpl in Hd. injection Hd as <-.
      apply Nat.eqb_eq in E. destruct sh' as [|]; [|discriminate].
      cbn in Hreal. injection Hreal as <-. cbn in Hc. discriminate.
    - apply bind_Ok in He as (s & _ & [= <-]). destruct s; simpl; eauto. }
  destruct Hnode as (l & ->). destruct l as [|x l]; [|eauto]. cbn in Hreal. discriminate.
Qed.

Lemma parse_list_f_nonempty {A} n (f : pystr -> res A) s v :
  parse_list_f n f s = Ok v -> match v with Node [] => False | _ => True end.
Proof.
  destruct n as [|n]; [discriminate|]. cbn [parse_list_f]. destruct (remove_spaces s) as [|a r]; [discriminate|].
  destruct (Ascii.eqb a _).
  - destruct (slice_1_m1 _) as [|b q]; [discriminate|]. destruct (Ascii.eqb b _).
    + intros H. apply bind_Ok in H as (l & H & [= <-]). apply mapM_length in H.
      destruct l; [|exact I]. exfalso. change (List.length (@nil (val A))) with 0%nat in H.
      assert (List.length (close_brackets (split2 "]" "," (b :: q))) <> 0)%nat; [|lia].
      clear H. assert (Hs : split2 "]" "," (b :: q) <> []).
      { cbn [split2]. destruct q; [discriminate|]. destruct (_ && _); [discriminate|].
        destruct (split2 _ _ _); discriminate. }
      destruct (split2 _ _ _) as [|x [|y l]]; [congruence|discriminate|discriminate].
    + intros H. apply bind_Ok in H as (l & H & [= <-]). apply mapM_length in H.
      destruct l; [|exact I]. exfalso. change (List.length (@nil A)) with 0%nat in H.
      assert (Hs : split1 "," (b :: q) <> []); [clear H|destruct (split1 "," (b :: q)); [congruence|discriminate H]].
      cbn [split1]. destruct (Ascii.eqb _ _); [discriminate|]. destruct (split1 _ _); discriminate.
  - intros H. apply bind_Ok in H as (x & _ & [= <-]). exact I.
Qed.
