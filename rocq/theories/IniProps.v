(** C123: the text of the ini-file. *)
From Coq Require Import List ZArith Bool Ascii String Arith Lia.
From Verif Require Import Base ParseModel ConfigModel DeprecatedModel IniModel IniSpec IniProofs.
Import ListNotations.
Local Open Scope nat_scope.
Local Open Scope list_scope.

Lemma read_text_written secs ls t :
  document secs -> writes None [] secs ls -> file_of ls t -> read_text t = Ok (secs, []).
Proof.
  intros (Hne & Hnd & Hdef & Hall) Hw Hf. unfold read_text.
  rewrite (file_lines _ _ Hf (writes_inline _ _ _ _ Hw)).
  destruct (read_start _ _ _ _ Hw eq_refl eq_refl Hne Hnd Hdef) as (s' & E & H1 & H2 & H3).
  { eapply Forall_impl; [|exact Hall]. now intros sec [? _]. }
  rewrite E. cbn [bind]. rewrite H1. unfold joined in H3. now rewrite H3, H2.
Qed.

(** A file whose lines write the sections [secs] is read as these sections. *)
Theorem C123_read : forall secs ls t,
  document secs -> writes None [] secs ls -> file_of ls t -> read_ini t = Ok secs.
Proof.
  intros secs ls t Hd Hw Hf. unfold read_ini. rewrite (read_text_written _ _ _ Hd Hw Hf).
  cbn [bind fst snd]. destruct Hd as (Hne & _ & _ & Hall).
  destruct secs as [|sec secs]; [easy|]. clear Hw Hf Hne. revert Hall.
  generalize (sec :: secs) as l. intros l Hall.
  induction Hall as [|[n opts] l [_ Ho] _ IH]; [reflexivity|].
  cbn [mapM fst snd]. rewrite section_dict_plain by exact Ho. cbn [bind]. rewrite IH. reflexivity.
Qed.

(** ** Byte order mark *)
Lemma universal_bom t : universal (bom ++ t) = bom ++ universal t.
Proof. reflexivity. Qed.
Lemma lines_of_bom t : exists l ls, lines_of (bom ++ t) = (bom ++ l) :: ls.
Proof.
  assert (H : forall c s, Ascii.eqb c nl = false ->
    exists l ls, lines_of (c :: s) = (c :: l) :: ls /\
      match lines_of s with [] => l = [] | l' :: _ => l = l' end).
  { intros c s Hc. cbn [lines_of]. rewrite Hc. destruct (lines_of s) as [|l' ls']; eauto. }
  unfold bom. cbn [app].
  destruct (H (ascii_of_nat 191) t eq_refl) as (l1 & ls1 & E1 & _).
  destruct (H (ascii_of_nat 187) (ascii_of_nat 191 :: t) eq_refl) as (l2 & ls2 & E2 & F2).
  destruct (H (ascii_of_nat 239) (ascii_of_nat 187 :: ascii_of_nat 191 :: t) eq_refl) as (l3 & ls3 & E3 & F3).
  rewrite E1 in F2. rewrite E2 in F3. subst l2 l3. eauto.
Qed.
Lemma read_text_bom t : read_text (bom ++ t) = Err MissingSectionHeaderError.
Proof.
  unfold read_text. rewrite universal_bom. destruct (lines_of_bom (universal t)) as (l & ls & ->).
  cbn [foldM].
  replace (read_line istart (bom ++ l)) with (@Err istate MissingSectionHeaderError); [reflexivity|].
  unfold read_line, strip_sp. rewrite (lstrip_solid0 (bom ++ l)) by (eexists _, _; split; reflexivity).
  destruct (rstrip_start (ascii_of_nat 239) (ascii_of_nat 187 :: ascii_of_nat 191 :: l) eq_refl) as [r E].
  change (bom ++ l) with (ascii_of_nat 239 :: ascii_of_nat 187 :: ascii_of_nat 191 :: l).
  rewrite E. reflexivity.
Qed.

(** A byte order mark in front of a file does not matter. *)
Theorem C123_byte_order_mark : forall t,
  (forall r, t <> byte_order_mark ++ r) -> read_ini (byte_order_mark ++ t) = read_ini t.
Proof.
  intros t Ht. unfold read_ini. change byte_order_mark with bom in *. rewrite read_text_bom.
  replace (drop_bom (bom ++ t)) with t by reflexivity.
  assert (Hd : drop_bom t = t).
  { destruct t as [|a [|b [|c t]]]; try reflexivity. unfold drop_bom.
    destruct (pystr_eqb [a; b; c] bom) eqn:E; [|reflexivity].
    apply pystr_eqb_eq in E. exfalso. apply (Ht t). rewrite <- E. reflexivity. }
  rewrite Hd. destruct (read_text t) as [p|[]] eqn:E; reflexivity || (rewrite E; reflexivity).
Qed.

(** ** Accepted files *)
Definition good (sec : raw_section) : Prop :=
  NoDup (map fst sec) /\ Forall (fun kv => lower_case (fst kv) (fst kv)) sec.
Definition inv (s : istate) : Prop :=
  NoDup (map fst (i_sections s)) /\ ~ In default_name (map fst (i_sections s)) /\
  Forall (fun ns => good (snd ns)) (i_sections s) /\ good (i_defaults s).

Lemma aupd_names {A} k f (l : list (pystr * A)) : map fst (aupd k f l) = map fst l.
Proof.
  induction l as [|[k' a] l IH]; [reflexivity|]. cbn. destruct (pystr_eqb k k'); cbn; congruence.
Qed.
Lemma aupd_forall {A} (P : pystr * A -> Prop) k f l :
  Forall P l -> (forall a, aget l k = Some a -> P (k, a) -> P (k, f a)) -> Forall P (aupd k f l).
Proof.
  induction 1 as [|[k' a] l H Hl IH]; intros Hf; [constructor|]. cbn.
  destruct (pystr_eqb k k') eqn:E.
  - apply pystr_eqb_eq in E. subst k'. constructor; [|exact Hl]. apply Hf; [|exact H].
    cbn. now rewrite pystr_eqb_refl.
  - constructor; [exact H|]. apply IH. intros b Hb. apply Hf. cbn. now rewrite E.
Qed.

Lemma lower_lower c : lower_char (lower c) (lower c).
Proof.
  unfold lower_char. right. split; [|reflexivity]. unfold lower.
  destruct ((65 <=? nat_of_ascii c) && (nat_of_ascii c <=? 90)) eqn:E.
  - apply andb_true_iff in E as [E1 E2]. apply Nat.leb_le in E1, E2.
    rewrite nat_ascii_embedding by lia. lia.
  - apply andb_false_iff in E. rewrite !Nat.leb_gt in E. lia.
Qed.
Lemma str_lower_lower s : lower_case (str_lower s) (str_lower s).
Proof. induction s; constructor; auto using lower_lower. Qed.

Lemma good_append k v sec : good sec -> good (aupd k (fun vs => vs ++ [v]) sec).
Proof.
  intros [H1 H2]. split; [now rewrite aupd_names|]. apply aupd_forall; auto.
Qed.
Lemma good_new k v sec : good sec -> ~ In k (map fst sec) -> lower_case k k -> good (sec ++ [(k, v)]).
Proof.
  intros [H1 H2] Hk Hl. split.
  - rewrite map_app. cbn. apply NoDup_rev in H1. rewrite <- (rev_involutive (map fst sec ++ [k])).
    apply NoDup_rev. rewrite rev_app_distr. cbn. constructor; [|exact H1]. now rewrite <- in_rev.
  - apply Forall_app. split; [exact H2|]. constructor; [exact Hl|constructor].
Qed.

Lemma change_inv s f :
  inv s -> (forall c, i_cur s = Some c -> good (cursect s c) -> good (f (cursect s c))) -> inv (change s f).
Proof.
  intros Hi Hf. pose proof Hi as (H1 & H2 & H3 & H4). unfold change.
  destruct (i_cur s) as [[n|]|] eqn:E; [| |exact Hi].
  - unfold inv. cbn. rewrite !aupd_names. repeat split; auto; try apply H4.
    apply aupd_forall; [exact H3|]. intros a Ha Hg. specialize (Hf (Some n) eq_refl). cbn in Hf.
    rewrite Ha in Hf. auto.
  - unfold inv. cbn. repeat split; auto; apply (Hf None eq_refl H4).
Qed.

Lemma good_nil : good [].
Proof. split; constructor. Qed.

Lemma rest_inv s v s' (k : nat) :
  inv s ->
  (let s := set_indent s k in
   match section_header v with
   | Some n => header_line s n
   | None => match i_cur s with
             | None => Err MissingSectionHeaderError
             | Some c => option_line s c v
             end
   end) = Ok s' -> inv s'.
Proof.
  intros (H1 & H2 & H3 & H4). cbv zeta. destruct (section_header v) as [n|].
  - unfold header_line. cbn [set_indent i_sections]. destruct (amem (i_sections s) n) eqn:Em; [discriminate|].
    apply amem_false in Em.
    destruct (pystr_eqb n default_name) eqn:Ed; intros [= <-]; [now repeat split; auto; apply H4|].
    apply pystr_eqb_neq in Ed. unfold inv. cbn. rewrite map_app. cbn. repeat split; try apply H4.
    + apply NoDup_rev in H1. rewrite <- (rev_involutive (map fst (i_sections s) ++ [n])).
      apply NoDup_rev. rewrite rev_app_distr. cbn. constructor; [|exact H1]. now rewrite <- in_rev.
    + intros Hin. apply in_app_or in Hin as [Hin|[Hin|[]]]; [now apply H2|now apply Ed].
    + apply Forall_app. split; [exact H3|]. constructor; [apply good_nil|constructor].
  - cbn [set_indent i_cur]. destruct (i_cur s) as [c|] eqn:Ec; [|discriminate].
    unfold option_line. destruct (split_option v) as [[key w]|]; [|intros [= <-]; now repeat split; auto; apply H4].
    cbv zeta. set (s1 := match rstrip_sp key with [] => _ | _ => _ end).
    destruct (amem (cursect s1 c) (str_lower (rstrip_sp key))) eqn:Em; [discriminate|].
    apply amem_false in Em. intros [= <-]. apply change_inv.
    + unfold s1. destruct (rstrip_sp key); repeat split; auto; apply H4.
    + intros c' Hc' Hg. assert (c' = c) as ->.
      { unfold s1 in Hc'. destruct (rstrip_sp key); cbn in Hc'; congruence. }
      assert (cursect (set_opt s1 (Some (str_lower (rstrip_sp key)))) c = cursect s1 c) as E
        by now destruct c.
      rewrite E in *. apply good_new; auto using str_lower_lower.
Qed.

Lemma read_line_inv s l s' : inv s -> read_line s l = Ok s' -> inv s'.
Proof.
  intros Hi. unfold read_line. destruct (is_comment (strip_sp l)); [now intros [= <-]|].
  assert (Ha : forall k v, inv (append_line s k v)).
  { intros k v. apply change_inv; [exact Hi|]. intros c _ Hg. now apply good_append. }
  destruct (strip_sp l) as [|a v].
  - destruct (open_option s); intros [= <-]; auto.
  - destruct (open_option s) as [k|].
    + destruct (i_indent s <? leading l); [intros [= <-]; auto|]. now apply rest_inv.
    + now apply rest_inv.
Qed.

Lemma fold_inv ls s s' : inv s -> foldM read_line s ls = Ok s' -> inv s'.
Proof.
  revert s; induction ls as [|l ls IH]; intros s Hi; cbn [foldM].
  - now intros [= <-].
  - destruct (read_line s l) as [s1|e] eqn:E; cbn [bind]; [|discriminate].
    apply IH. now apply (read_line_inv s l).
Qed.

Lemma mapM_fst {A B} (f : pystr * A -> res B) l l' :
  mapM (fun ns => let* t := f ns in Ok (fst ns, t)) l = Ok l' -> map fst l' = map fst l.
Proof.
  revert l'; induction l as [|x l IH]; intros l'; cbn [mapM]; [now intros [= <-]|].
  destruct (f x); cbn [bind]; [|discriminate].
  destruct (mapM _ l) as [l2|]; cbn [bind]; [|discriminate]. intros [= <-]. cbn. now rewrite (IH l2).
Qed.

Definition nice (opts : list (pystr * pystr)) : Prop :=
  NoDup (map fst opts) /\ Forall (fun k => lower_case k k) (map fst opts).

Lemma NoDup_app' {A} (l m : list A) :
  NoDup l -> NoDup m -> (forall x, In x l -> ~ In x m) -> NoDup (l ++ m).
Proof.
  induction 1 as [|x l Hx Hl IH]; intros Hm Hd; [exact Hm|]. cbn. constructor.
  - intros Hin. apply in_app_or in Hin as [Hin|Hin]; [tauto|]. apply (Hd x); [now left|exact Hin].
  - apply IH; [exact Hm|]. intros y Hy. apply Hd. now right.
Qed.

Lemma nice_defaults d opts : nice d -> nice opts -> nice (with_defaults d opts).
Proof.
  intros [D1 D2] [O1 O2]. unfold with_defaults, nice. rewrite map_app.
  assert (Hf : forall k, In k (map fst (filter (fun kv => negb (amem opts (fst kv))) d)) -> In k (map fst d) /\ ~ In k (map fst opts)).
  { intros k Hk. apply in_map_iff in Hk as (kv & <- & Hk). apply filter_In in Hk as [Hk Hn].
    split; [now apply in_map|]. apply amem_false. now destruct (amem opts (fst kv)). }
  split.
  - apply NoDup_app'; [exact O1| |].
    + clear Hf D2. induction d as [|[k v] d IH]; [constructor|]. cbn in D1 |- *. inversion_clear D1 as [|? ? N1 N2].
      destruct (negb (amem opts k)); [|auto]. cbn. constructor; [|auto].
      intros Hin. apply N1. apply in_map_iff in Hin as (kv & E & Hin). apply filter_In in Hin as [Hin _].
      apply in_map_iff. eauto.
    + intros k Hk Hin. now apply Hf in Hin.
  - apply Forall_app. split; [exact O2|]. apply Forall_forall. intros k Hk. apply Hf in Hk as [Hk _].
    rewrite Forall_forall in D2. auto.
Qed.

Lemma good_nice sec : good sec -> nice (join_section sec).
Proof.
  intros [H1 H2]. unfold nice. rewrite join_section_keys. split; [exact H1|].
  apply Forall_forall. intros k Hk. apply in_map_iff in Hk as (kv & <- & Hk).
  rewrite Forall_forall in H2. auto.
Qed.

(** An accepted file has at least one section; no section and no option of a
    section occurs twice, and the names of options are in lower case. *)
Theorem C123_accepted : forall t p, read_ini t = Ok p ->
  p <> [] /\ NoDup (map fst p) /\ ~ In (S_ "DEFAULT") (map fst p) /\
  Forall (fun sec => NoDup (map fst (snd sec)) /\ Forall (fun k => lower_case k k) (map fst (snd sec))) p.
Proof.
  intros t p H. unfold read_ini in H.
  assert (G : forall b q, read_text b = Ok q ->
    NoDup (map fst (fst q)) /\ ~ In default_name (map fst (fst q)) /\
    Forall (fun ns => nice (snd ns)) (fst q) /\ nice (snd q)).
  { intros b q Hq. unfold read_text in Hq.
    destruct (foldM read_line istart (lines_of (universal b))) as [s|] eqn:E; cbn [bind] in Hq; [|discriminate].
    destruct (i_error s); [discriminate|]. injection Hq as <-. cbn [fst snd].
    assert (I0 : inv istart) by (unfold inv; cbn; repeat split; try constructor; easy).
    destruct (fold_inv _ _ _ I0 E) as (I1 & I2 & I3 & I4).
    change (map _ (i_sections s)) with (joined (i_sections s)). rewrite joined_names.
    repeat split; auto; try apply (good_nice _ I4).
    unfold joined. apply Forall_map. eapply Forall_impl; [|exact I3]. intros ns. apply good_nice. }
  assert (E : exists b q, read_text b = Ok q /\
     match fst q with
     | [] => Err FileNotFoundError
     | _ => mapM (fun ns => let* u := section_dict (snd q) (snd ns) in Ok (fst ns, u)) (fst q)
     end = Ok p).
  { destruct (read_text t) as [q|e] eqn:E; [cbn [bind] in H; exists t, q; split; [exact E|]|].
    - destruct q as [[|? ?] ?]; exact H.
    - destruct e; cbn [bind] in H; try discriminate.
      destruct (read_text (drop_bom t)) as [q|e] eqn:E2; cbn [bind] in H; [|discriminate].
      exists (drop_bom t), q. split; [exact E2|]. destruct q as [[|? ?] ?]; exact H. }
  destruct E as (b & [secs d] & E & Hp). destruct (G _ _ E) as (G1 & G2 & G3 & G4). cbn [fst snd] in *.
  destruct secs as [|sec0 secs0]; [discriminate|]. remember (sec0 :: secs0) as secs eqn:Es.
  pose proof (mapM_fst _ _ _ Hp) as Hn. rewrite Hn. repeat split; auto.
  - intros ->. subst secs. discriminate.
  - clear E G Hn G1 G2 Es sec0 secs0 H t b. revert p Hp. induction G3 as [|[n opts] secs Ho _ IH]; intros p Hp.
    + injection Hp as <-. constructor.
    + cbn [mapM fst snd] in Hp. destruct (section_dict d opts) as [u|] eqn:Eu; cbn [bind] in Hp; [|discriminate].
      destruct (mapM _ secs) as [p2|]; cbn [bind] in Hp; [|discriminate]. injection Hp as <-.
      constructor; [|now apply IH]. cbn [snd]. unfold section_dict in Eu. apply mapM_fst in Eu. rewrite Eu.
      apply (nice_defaults d opts); auto.
Qed.

(** The settings depend on the contents only, not on the layout. *)
Theorem C123_settings : forall F (fo : fops F) (trunc : F -> res Z) secs ls1 ls2 t1 t2,
  document secs -> writes None [] secs ls1 -> file_of ls1 t1 ->
  writes None [] secs ls2 -> file_of ls2 t2 ->
  read_settings fo trunc t1 = read_config fo trunc secs /\
  read_settings fo trunc t2 = read_config fo trunc secs.
Proof.
  intros F fo trunc secs ls1 ls2 t1 t2 Hd H1 H2 H3 H4. unfold read_settings.
  now rewrite (C123_read secs ls1 t1), (C123_read secs ls2 t2).
Qed.

(** *** Examples *)
Definition ex_secs : inifile :=
  [ (S_ "run", [(S_ "numsim", S_ "1"); (S_ "outputs", S_ "[vtr," ++ [nl] ++ S_ "npz]")]);
    (S_ "model", [(S_ "dx", S_ "0.5"); (S_ "runname", [])]) ].
Definition tab : ascii := ascii_of_nat 9.
Definition ex_lines : list pystr :=
  [ S_ "# A comment";
    [];
    S_ "[run]";
    S_ "  NumSim = 1";
    [tab];
    S_ "; another comment";
    S_ "  outputs:   [vtr,";
    S_ "# in between";
    S_ "       npz]  ";
    [];
    S_ " [model] the model";
    S_ "dx=0.5";
    S_ "runname =" ].

Example ex_document : document ex_secs.
Proof.
  unfold document, ex_secs. split; [discriminate|]. split; [|split].
  - repeat constructor; cbn; intuition discriminate.
  - cbn. intuition discriminate.
  - repeat constructor; cbn; intuition discriminate.
Qed.

Lemma lower_case_intro s t : t = str_lower s -> lower_case s t.
Proof.
  intros ->. induction s as [|c s IH]; constructor; [|exact IH]. unfold lower_char, lower.
  destruct ((65 <=? nat_of_ascii c) && (nat_of_ascii c <=? 90)) eqn:E.
  - apply andb_true_iff in E as [E1 E2]. apply Nat.leb_le in E1, E2.
    left. split; [lia|]. rewrite nat_ascii_embedding by lia. reflexivity.
  - apply andb_false_iff in E. rewrite !Nat.leb_gt in E. right. split; [lia|reflexivity].
Qed.

Definition inlineb (c : ascii) : bool := negb (Ascii.eqb c nl) && negb (Ascii.eqb c cr).
Definition blankb (c : ascii) : bool := is_space c && inlineb c.
Lemma inlineb_spec c : inlineb c = true -> ~ is_nl c /\ ~ is_cr c.
Proof.
  unfold inlineb. intros H. apply andb_true_iff in H as [H1 H2].
  split; intros ->; [now rewrite Ascii.eqb_refl in H1 | now rewrite Ascii.eqb_refl in H2].
Qed.
Lemma blankb_spec c : blankb c = true <-> blank c.
Proof.
  unfold blankb. split.
  - intros H. apply andb_true_iff in H as [H1 H2]. apply inlineb_spec in H2.
    apply is_space_spec in H1 as [H|[H|H]]; tauto.
  - intros H. rewrite is_space_blank by exact H. apply blank_inline in H as [H1 H2]. unfold inlineb.
    destruct (Ascii.eqb_spec c nl); [tauto|]. destruct (Ascii.eqb_spec c cr); [tauto|]. reflexivity.
Qed.
Lemma blanks_b s : forallb blankb s = true -> blanks s.
Proof. intros H. apply Forall_forall. intros c Hc. apply blankb_spec. now apply (proj1 (forallb_forall _ _) H). Qed.
Lemma inline_b s : forallb inlineb s = true -> inline s.
Proof. intros H. apply Forall_forall. intros c Hc. apply inlineb_spec. now apply (proj1 (forallb_forall _ _) H). Qed.
Definition startb (s : pystr) : bool := match s with c :: _ => negb (blankb c) | [] => true end.
Lemma trimmed_b s : startb s && startb (rev s) = true -> trimmed s.
Proof.
  intros H. apply andb_true_iff in H as [H1 H2]. split; intros c r ->.
  - cbn in H1. rewrite <- blankb_spec. now destruct (blankb c).
  - rewrite rev_app_distr in H2. cbn in H2. rewrite <- blankb_spec. now destruct (blankb c).
Qed.
Definition nameb (s : pystr) : bool :=
  match s with
  | c :: _ => negb (Ascii.eqb c "#"%char) && negb (Ascii.eqb c ";"%char) && negb (Ascii.eqb c "["%char)
  | [] => false
  end && (startb s && startb (rev s)) && forallb inlineb s
  && forallb (fun c => negb (Ascii.eqb c "="%char) && negb (Ascii.eqb c ":"%char)) s.
Lemma name_b s : nameb s = true -> option_name s.
Proof.
  intros H. unfold nameb in H. apply andb_true_iff in H as [H H4]. apply andb_true_iff in H as [H H3].
  apply andb_true_iff in H as [H1 H2].
  destruct s as [|c s]; [discriminate|]. rewrite !andb_true_iff, !negb_true_iff, !Ascii.eqb_neq in H1.
  split; [discriminate|]. split; [now apply trimmed_b|]. split; [now apply inline_b|].
  split; [intros ? ? [= <- <-]; tauto|]. split; [|intros ? ? [= <- <-]; tauto].
  apply Forall_forall. intros x Hx. apply (proj1 (forallb_forall _ _) H4) in Hx.
  now rewrite andb_true_iff, !negb_true_iff, !Ascii.eqb_neq in Hx.
Qed.
Lemma option_b k key v s name b1 d b2 b3 :
  forallb blankb s = true -> forallb blankb b1 = true -> forallb blankb b2 = true -> forallb blankb b3 = true ->
  nameb name = true -> startb v && startb (rev v) = true -> forallb inlineb v = true ->
  List.length s = k -> key = str_lower name -> (d = "="%char \/ d = ":"%char) ->
  option_written k key v (s ++ name ++ b1 ++ d :: b2 ++ v ++ b3).
Proof.
  intros H1 H2 H3 H4 H5 H6 H7 H8 H9 H10.
  apply option_is; auto using blanks_b, inline_b, name_b, lower_case_intro, trimmed_b.
Qed.
Local Ltac opt := apply option_b; solve [reflexivity | now left | now right].

Example ex_writes : writes None [] ex_secs ex_lines.
Proof.
  unfold ex_lines, ex_secs.
  apply writes_filler. { apply (filler_comment [] "#"%char); [constructor|now left|now apply inline_b]. }
  apply writes_filler. { apply filler_blank. constructor. }
  apply (writes_header None 0). { exact I. }
  { apply (header_is 0 (S_ "run") [] []); [constructor|reflexivity|discriminate|now apply inline_b|constructor|easy]. }
  apply (writes_option None 2 (S_ "numsim") (S_ "1") [] _ []). { exact I. }
  { change (S_ "  NumSim = 1") with (S_ "  " ++ S_ "NumSim" ++ S_ " " ++ "="%char :: S_ " " ++ S_ "1" ++ []). opt. }
  { constructor. }
  cbn [app].
  apply writes_filler. { apply filler_blank. now apply blanks_b. }
  apply writes_filler. { apply (filler_comment [] ";"%char); [constructor|now right|now apply inline_b]. }
  apply (writes_option (Some 2) 2 (S_ "outputs") (S_ "[vtr,") [S_ "npz]"] _
           [S_ "# in between"; S_ "       npz]  "] [] _ [[]; S_ " [model] the model"; S_ "dx=0.5"; S_ "runname ="]).
  { cbn. lia. }
  { change (S_ "  outputs:   [vtr,") with (S_ "  " ++ S_ "outputs" ++ [] ++ ":"%char :: S_ "   " ++ S_ "[vtr," ++ []). opt. }
  { apply (more_comment 2 [] "#"%char (S_ " in between")); [constructor|now left|now apply inline_b|].
    apply (more_line 2 (S_ "       ") (S_ "npz]") (S_ "  ") [] []);
      [now apply blanks_b|cbn; lia|discriminate|now apply trimmed_b|now apply inline_b
      |intros ? ? [= <- <-]; split; discriminate|now apply blanks_b|constructor]. }
  apply writes_filler. { apply filler_blank. constructor. }
  apply (writes_header (Some 2) 1). { cbn. lia. }
  { apply (header_is 1 (S_ "model") [" "%char] (S_ " the model"));
      [now apply blanks_b|reflexivity|discriminate|now apply inline_b|now apply inline_b|cbn; intuition discriminate]. }
  apply (writes_option None 0 (S_ "dx") (S_ "0.5") [] _ []). { exact I. }
  { change (S_ "dx=0.5") with ([] ++ S_ "dx" ++ [] ++ "="%char :: [] ++ S_ "0.5" ++ []). opt. }
  { constructor. }
  cbn [app].
  apply (writes_option (Some 0) 0 (S_ "runname") [] [] _ []). { cbn. lia. }
  { change (S_ "runname =") with ([] ++ S_ "runname" ++ S_ " " ++ "="%char :: [] ++ [] ++ []). opt. }
  { constructor. }
  constructor.
Qed.

(** Lines with the line ends of Windows, as in tests/simple_testcases/made_simple.ini *)
Definition crlf (ls : list pystr) : pystr := flat_map (fun l => l ++ [cr; nl]) ls.
Lemma crlf_file ls : file_of ls (crlf ls).
Proof.
  induction ls as [|l ls IH]; [constructor|]. cbn. rewrite <- app_assoc. now apply (file_crnl l ls).
Qed.

Example C123_example : read_ini (crlf ex_lines) = Ok ex_secs /\
  read_ini (byte_order_mark ++ crlf ex_lines) = Ok ex_secs.
Proof.
  assert (E : read_ini (crlf ex_lines) = Ok ex_secs)
    by exact (C123_read _ _ _ ex_document ex_writes (crlf_file _)).
  split; [exact E|]. rewrite C123_byte_order_mark; [exact E|]. discriminate.
Qed.

(** What is not accepted, and what is easily misread: an option that is
    indented deeper than the one above is part of its value; there are no
    comments behind a value; a single percent sign makes the file unreadable *)
Local Open Scope string_scope.
Definition unlines (ls : list string) : pystr := flat_map (fun l => (S_ l ++ [nl])%list) ls.
Example C123_example_rejected :
  read_ini (unlines ["[run]"; "a = 1"; "A = 2"]) = Err DuplicateOptionError /\
  read_ini (unlines ["[run]"; "[run]"]) = Err DuplicateSectionError /\
  read_ini (unlines ["a = 1"; "[run]"]) = Err MissingSectionHeaderError /\
  read_ini (unlines ["[run]"; "a"]) = Err ParsingError /\
  read_ini (unlines ["# nothing"]) = Err FileNotFoundError /\
  read_ini (unlines ["[run]"; "runname = 50%"]) = Err InterpolationError.
Proof. repeat split; vm_compute; reflexivity. Qed.
Example C123_example_misread :
  read_ini (unlines ["[model]"; "dx = 1"; "  dy = 2"]) =
    Ok [(S_ "model", [(S_ "dx", (S_ "1" ++ [nl] ++ S_ "dy = 2")%list)])] /\
  read_ini (unlines ["[model]"; "dx = 1 # metres"]) = Ok [(S_ "model", [(S_ "dx", S_ "1 # metres")])] /\
  read_ini (unlines ["[DEFAULT]"; "dx = 1"; "[model]"; "dy = %(DX)s0%%"]) =
    Ok [(S_ "model", [(S_ "dy", S_ "10%"); (S_ "dx", S_ "1")])].
Proof. repeat split; vm_compute; reflexivity. Qed.

Print Assumptions C123_read.
Print Assumptions C123_byte_order_mark.
Print Assumptions C123_accepted.
Print Assumptions C123_settings.
