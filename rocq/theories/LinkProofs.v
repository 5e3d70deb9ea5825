(** From the configuration to the element types of the generated model. *)
From Coq Require Import List ZArith Bool Ascii String Reals Lia.
From Verif Require Import Base Num ParseModel ConfigModel ConfigSpec ConfigProofs ConfigProofs2 DeprecatedModel DeprecatedSpec DeprecatedProofs SurfaceModel StrataModel AssignModel FaciesModel
  TroughModel SheetModel ChannelModel FullModel FullSpec LinkModel LinkSpec.
Import ListNotations.
Local Open Scope string_scope.

Lemma Forall2_nth_r {A B} (P : A -> B -> Prop) l m : Forall2 P l m -> forall k b, nth_error m k = Some b -> exists a, nth_error l k = Some a /\ P a b.
Proof. induction 1 as [|a b l m Hab H IH]; intros [|k] c Hc; cbn in *; try discriminate; [injection Hc as <-; eauto|eauto]. Qed.
Lemma Forall2_in_r {A B} (P : A -> B -> Prop) l m b : Forall2 P l m -> In b m -> exists a, In a l /\ P a b.
Proof. intros H Hb. apply In_nth_error in Hb as [k Hk]. destruct (Forall2_nth_r _ _ _ H _ _ Hk) as (a & Ha & Hp). exists a. split; [eapply nth_error_In; eauto|assumption]. Qed.
Lemma pyget_neg {A} (l : list A) si a : pyget l (-1 - Z.of_nat si) = Ok a -> (si < List.length l)%nat /\ nth_error l (List.length l - 1 - si) = Some a.
Proof.
  intros H. unfold pyget, pyidx in H. destruct (_ && _) eqn:E1 in H.
  { apply andb_true_iff in E1 as [E1 _]. apply Z.leb_le in E1. lia. }
  destruct (_ && _) eqn:E2 in H; [|discriminate]. apply andb_true_iff in E2 as [E2 _]. apply Z.leb_le in E2.
  match type of H with context [nth_error l ?n] => replace n with (List.length l - 1 - si)%nat in H by lia end.
  destruct (nth_error l _); [|discriminate]. injection H as <-. split; [lia|reflexivity].
Qed.

Section Link.
Context {F : Type} (fin : F -> option R) (is_nan : F -> bool).
Notation value := (val (atom F)).
Notation dic := (dict F).

Lemma get_Ok {A} (conv : value -> res A) (e : dic) k a : get conv e k = Ok a -> exists v, has e k v /\ conv v = Ok a.
Proof. unfold get. intros H. apply bind_Ok in H as (v & Hv & H). apply lookup_Ok in Hv. exists v. now split. Qed.
Lemma facies_number_Ok (v : value) z : facies_number v = Ok z -> v = Leaf (AInt z).
Proof. destruct v as [[]|]; cbn; congruence. Qed.
Lemma facies_list_Ok (v : value) l : facies_list v = Ok l -> exists vs, v = Node vs /\ forall f, In f l -> In (Leaf (AInt f)) vs.
Proof.
  destruct v as [|vs]; [discriminate|]. cbn. intros H. apply mapM_Ok in H. exists vs. split; [reflexivity|]. intros f Hf.
  destruct (Forall2_in_r _ _ _ _ H Hf) as (a & Ha & Hp). apply facies_number_Ok in Hp. now subst.
Qed.
Lemma facies_lists_Ok (v : value) l : facies_lists v = Ok l -> forall f, In f (alternatives l) -> exists vs k, v = Node vs /\ In (Node k) vs /\ In (Leaf (AInt f)) k.
Proof.
  destruct v as [[]|vs]; try discriminate; cbn; [intros [= <-] f []|]. intros H f Hf. apply bind_Ok in H as (ls & H & [= <-]). apply mapM_Ok in H.
  cbn in Hf. apply in_concat in Hf as (x & Hx & Hf). destruct (Forall2_in_r _ _ _ _ H Hx) as (a & Ha & Hp).
  apply facies_list_Ok in Hp as (k & -> & Hk). exists vs, k. auto.
Qed.
Lemma structure_name_Ok (v : value) s : structure_name v = Ok s -> v = Leaf (AStr s).
Proof. destruct v as [[]|]; cbn; congruence. Qed.

(** The dictionary AEType keeps differs in the structure only. *)
Lemma type_params_has (e p : dic) k v : type_params e = Ok p -> k <> "structure" -> (has p k v <-> has e k v).
Proof.
  unfold type_params. intros H Hk. apply bind_Ok in H as (s & _ & H). apply Ok_inj' in H. subst p. destruct (is_str s "flat"); [|tauto].
  unfold has. rewrite dget_dset, eqb_S. destruct (String.eqb_spec k "structure"); [contradiction|tauto].
Qed.
Lemma is_str_true (v : value) s : is_str v s = true -> v = Leaf (AStr (S_ s)).
Proof. unfold is_str. destruct v as [[]|]; cbn; try discriminate. intros H. apply pystr_eqb_eq in H. now subst. Qed.
Lemma type_params_structure (e p : dic) s : type_params e = Ok p -> has p "structure" (Leaf (AStr s)) -> ~ In s (map S_ ["massive"; "bulb"]) -> has_layers e.
Proof.
  unfold type_params. intros H Hs Hn. apply bind_Ok in H as (v & Hv & H). apply Ok_inj' in H. subst p. apply lookup_Ok in Hv. destruct (is_str v "flat") eqn:Ef.
  - unfold has in Hs. rewrite dget_dset, eqb_S in Hs. cbn in Hs. injection Hs as <-. exfalso. apply Hn. now left.
  - exists s. split; [exact Hs|]. intros K. cbn [map In] in K, Hn. destruct K as [K|[K|K]]; try tauto. subst s.
    unfold has in Hs. rewrite Hv in Hs. injection Hs as ->. vm_compute in Ef. discriminate.
Qed.
Lemma realization_kind_geometry (e : dic) k : realization_kind e = Ok k ->
  geometry_is e (match k with KTrough => "trough" | KChannel => "channel" | KSheet => "sheet" end).
Proof.
  unfold realization_kind. intros H. apply bind_Ok in H as (g & Hg & H). apply lookup_Ok in Hg. unfold geometry_is, has. rewrite Hg.
  destruct (is_str g "trough") eqn:E1; [injection H as <-; apply is_str_true in E1; now subst|].
  destruct (is_str g "channel") eqn:E2; [injection H as <-; apply is_str_true in E2; now subst|].
  destruct (is_str g "sheet") eqn:E3; [injection H as <-; apply is_str_true in E3; now subst|discriminate].
Qed.

Ltac steps H := repeat match type of H with
  | bind (get _ _ _) _ = Ok _ => let v := fresh "v" in let E := fresh "E" in apply bind_Ok in H as (v & E & H); apply get_Ok in E
  | bind _ _ = Ok _ => let v := fresh "v" in let E := fresh "E" in apply bind_Ok in H as (v & E & H)
  end.

(** What an element type takes from its section. *)
Record type_from (ec : dic * contact F) (id : Z) (ft : full_type) : Prop := {
  tf_id : ft_id ft = id;
  tf_facies : forall f, In f (section_facies ft) -> mentions (fst ec) f;
  tf_bg : exists f, has (fst ec) "bg_facies" (Leaf (AInt f)) /\ bg_facies (ft_bg ft) = (if (f =? -1)%Z then None else Some f);
  tf_layers : layered ft -> has_layers (fst ec);
  tf_sheets : is_sheets ft <-> geometry_is (fst ec) "sheet" }.

Lemma link_type_from id ec ft : link_type fin is_nan id ec = Ok ft -> type_from ec id ft.
Proof.
  destruct ec as [e cm]. unfold link_type. cbn [fst snd]. intros H.
  apply bind_Ok in H as (p & Hp & H). apply bind_Ok in H as (k & Hk & H). apply bind_Ok in H as (cm' & Hcm & H). apply bind_Ok in H as (bg & Hbg & H). apply bind_Ok in H as (kp & Hkp & H).
  injection H as <-. apply realization_kind_geometry in Hk.
  assert (T : forall k v, has p k v -> k <> "structure" -> has e k v) by (intros; now apply (type_params_has e p)).
  assert (G : geometry_is e (match k with KTrough => "trough" | KChannel => "channel" | KSheet => "sheet" end)) by (apply T; [exact Hk|discriminate]).
  assert (Hb : exists f, has e "bg_facies" (Leaf (AInt f)) /\ bg_facies bg = (if (f =? -1)%Z then None else Some f)).
  { unfold link_background in Hbg. steps Hbg. injection Hbg as <-. destruct E as (w & W1 & W2). apply facies_number_Ok in W2. subst w. exists v. split; [apply T; [exact W1|discriminate]|reflexivity]. }
  assert (D : forall g g', geometry_is e g -> geometry_is e g' -> g = g').
  { unfold geometry_is, has. intros g g' H1 H2. rewrite H1 in H2. injection H2 as H2. pose proof (eqb_S g g') as Q. rewrite H2, pystr_eqb_refl in Q. symmetry in Q. now apply String.eqb_eq in Q. }
  assert (K : forall lf fac alt, (exists v, has p "facies" v /\ facies_list v = Ok fac) -> (exists v, has p "altfacies" v /\ facies_lists v = Ok alt) ->
     (forall f, In f lf -> ~ geometry_is e "sheet" /\ has p "lag_facies" (Leaf (AInt f))) -> forall f, In f ((lf ++ fac) ++ alternatives alt)%list -> mentions e f).
  { intros lf fac alt (v1 & F1 & F2) (v2 & A1 & A2) Hl f Hf. apply in_app_or in Hf as [Hf|Hf]; [apply in_app_or in Hf as [Hf|Hf]|].
    - apply is_lag; [now apply (Hl f)|]. apply T; [now apply Hl|discriminate].
    - apply facies_list_Ok in F2 as (vs & -> & F2). eapply in_facies; [apply T; [exact F1|discriminate]|now apply F2].
    - destruct (facies_lists_Ok _ _ A2 f Hf) as (vs & ks & -> & K1 & K2). eapply in_altfacies; [apply T; [exact A1|discriminate]|exact K1|exact K2]. }
  assert (L : forall s, (exists v, has p "structure" v /\ structure_name v = Ok s) -> s <> S_ "massive" -> s <> S_ "bulb" -> has_layers e).
  { intros s (v & S1 & S2) N1 N2. apply structure_name_Ok in S2. subst v. eapply type_params_structure; [exact Hp|exact S1|]. cbn [map In]. intuition congruence. }
  destruct k; cbn in G, Hkp.
  - unfold link_troughs in Hkp. steps Hkp. injection Hkp as <-. constructor; cbn [ft_id ft_bg ft_kind fst]; auto.
    + unfold section_facies, listed_facies. cbn [ft_kind tp_type tt_facies tt_altfacies tt_lag_facies]. apply (K [_]); auto.
      intros f [<-|[]]. split; [intros G'; discriminate (D _ _ G G')|]. match goal with E : exists v, has p "lag_facies" v /\ _ |- _ => destruct E as (w & W1 & W2); apply facies_number_Ok in W2; now subst end.
    + unfold layered. cbn [ft_kind tp_type tt_structure]. intros [N1 N2]. eapply L; eauto.
    + split; [intros (a & b & c & K'); discriminate|]. intros K'. discriminate (D _ _ G K').
  - unfold link_channels in Hkp. steps Hkp. injection Hkp as <-. constructor; cbn [ft_id ft_bg ft_kind fst]; auto.
    + unfold section_facies, listed_facies. cbn [ft_kind cc_type ct_facies ct_altfacies ct_lag_facies]. apply (K [_]); auto.
      intros f [<-|[]]. split; [intros G'; discriminate (D _ _ G G')|]. match goal with E : exists v, has p "lag_facies" v /\ _ |- _ => destruct E as (w & W1 & W2); apply facies_number_Ok in W2; now subst end.
    + unfold layered. cbn [ft_kind cc_type ct_structure]. intros N. eapply L; eauto; rewrite N; discriminate.
    + split; [intros (a & b & c & K'); discriminate|]. intros K'. discriminate (D _ _ G K').
  - unfold link_sheets in Hkp. steps Hkp. injection Hkp as <-. constructor; cbn [ft_id ft_bg ft_kind fst]; auto.
    + unfold section_facies, listed_facies. cbn [ft_kind st_facies st_altfacies]. apply (K []); auto. intros f [].
    + unfold layered. cbn [ft_kind st_structure]. intros N. eapply L; eauto; rewrite N; discriminate.
    + split; [auto|]. intros _. repeat eexists.
Qed.

Lemma assoc_In {A} (l : list (pystr * A)) n a : assoc l n = Ok a -> In (n, a) l.
Proof.
  induction l as [|[m b] l IH]; cbn; [discriminate|]. destruct (pystr_eqb n m) eqn:E; [|auto]. apply pystr_eqb_eq in E. intros [= <-]. subst. now left.
Qed.

(** What a stratum takes from the configuration. *)
Lemma link_stratum_inv cf ids si fp : link_stratum fin is_nan cf ids (-1 - Z.of_nat si) = Ok fp ->
  (exists ls v, has (cf_strata cf) "bg_facies" ls /\ py_item ls (-1 - Z.of_nat si) = Ok v /\ v = Leaf (AInt (s_facies (fp_bg fp)))) /\
  exists ls t names, has (cf_strata cf) "ae_in_strata" ls /\ py_item ls (-1 - Z.of_nat si) = Ok t /\ items t = Ok names /\
    Forall2 (fun v ft => named_type fin is_nan cf ids v = Ok ft) names (fp_types fp).
Proof.
  intros H. unfold link_stratum, item in H.
  repeat match type of H with bind _ _ = Ok _ => let v := fresh "v" in let E := fresh "E" in apply bind_Ok in H as (v & E & H) end.
  injection H as <-. cbn [fp_bg s_facies fp_types]. split.
  - apply bind_Ok in E as (ls & L1 & L2). apply lookup_Ok in L1. apply facies_number_Ok in E0. subst. eauto 10.
  - match goal with E : bind (lookup _ "ae_in_strata") _ = Ok _ |- _ => apply bind_Ok in E as (ls & L1 & L2); apply lookup_Ok in L1 end.
    match goal with E : mapM _ _ = Ok _ |- _ => apply mapM_Ok in E end. eauto 10.
Qed.

Lemma link_inv cf lk : link fin is_nan cf = Ok lk ->
  exists ids sts, ae_ids cf = Ok ids /\ has (cf_strata cf) "strata" sts /\ py_len sts = Ok (Z.of_nat (List.length (lk_params lk))) /\
    forall si fp, nth_error (lk_params lk) (List.length (lk_params lk) - 1 - si) = Some fp -> (si < List.length (lk_params lk))%nat ->
      link_stratum fin is_nan cf ids (-1 - Z.of_nat si) = Ok fp.
Proof.
  intros H. unfold link in H. apply bind_Ok in H as (ids & Hids & H).
  repeat match type of H with bind _ _ = Ok _ => let v := fresh "v" in let E := fresh "E" in apply bind_Ok in H as (v & E & H) end.
  injection H as <-. cbn [lk_params].
  match goal with E : mapM _ _ = Ok ?l |- _ => pose proof (mapM_length _ _ _ E) as Hl; apply mapM_Ok in E; rename E into HM; rename l into params end.
  rewrite seq_length in Hl.
  match goal with E : lookup _ "strata" = Ok ?s, E2 : py_len ?s = Ok ?n |- _ => apply lookup_Ok in E; exists ids, s; rename E2 into Hn; rename n into n0 end.
  assert (0 <= n0)%Z. { revert Hn. match goal with |- py_len ?s = _ -> _ => destruct s as [[]|]; cbn; try discriminate; intros [= <-]; lia end. }
  split; [assumption|]. split; [assumption|]. split; [rewrite Hn; f_equal; lia|].
  intros si fp Hs Hlt. destruct (Forall2_nth_r _ _ _ HM _ _ Hs) as (i & Hi & Hf).
  assert (i = (List.length params - 1 - si)%nat).
  { rewrite nth_error_nth' with (d := 0%nat) in Hi by (rewrite seq_length; lia). rewrite seq_nth in Hi by lia. injection Hi as <-. reflexivity. }
  replace (-1 - Z.of_nat si)%Z with (Z.of_nat i - n0)%Z by lia. exact Hf.
Qed.
End Link.
