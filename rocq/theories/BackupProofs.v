(** Proofs about reading what ConfigParser.write has written. *)
From Coq Require Import List ZArith Bool Ascii String Arith Lia.
From Verif Require Import Base ParseModel ConfigModel DeprecatedModel IniModel IniSpec IniProofs IniProps BackupModel.
Import ListNotations.
Local Open Scope nat_scope.
Local Open Scope list_scope.

(** ** Strings *)
Definition tight (s : pystr) : Prop :=
  (forall c r, s = c :: r -> is_space c = false) /\ (forall c r, s = r ++ [c] -> is_space c = false).
Lemma lstrip_split s : exists b, s = b ++ lstrip_sp s /\ Forall (fun c => is_space c = true) b /\ (forall c r, lstrip_sp s = c :: r -> is_space c = false).
Proof.
  induction s as [|a s (b & E & H1 & H2)]; [exists []; repeat split; [constructor|discriminate]|].
  cbn. destruct (is_space a) eqn:Ea.
  - exists (a :: b). cbn. rewrite <- E. auto.
  - exists []. repeat split; [constructor|]. now intros c r [= <- <-].
Qed.
Lemma rstrip_split s : exists b, s = rstrip_sp s ++ b /\ Forall (fun c => is_space c = true) b /\ (forall c r, rstrip_sp s = r ++ [c] -> is_space c = false).
Proof.
  unfold rstrip_sp. destruct (lstrip_split (rev s)) as (b & E & H1 & H2). exists (rev b). split; [|split].
  - rewrite <- rev_app_distr, <- E. symmetry. apply rev_involutive.
  - now apply Forall_rev.
  - intros c r H. apply (f_equal (@rev _)) in H. rewrite rev_involutive, rev_app_distr in H. exact (H2 c (rev r) H).
Qed.
Lemma rstrip_in c s : In c (rstrip_sp s) -> In c s.
Proof. destruct (rstrip_split s) as (b & E & _). intros H. rewrite E. apply in_or_app. now left. Qed.
Lemma lstrip_in c s : In c (lstrip_sp s) -> In c s.
Proof. destruct (lstrip_split s) as (b & E & _). intros H. rewrite E. apply in_or_app. now right. Qed.
Lemma strip_in c s : In c (strip_sp s) -> In c s.
Proof. intros H. now apply lstrip_in, rstrip_in. Qed.
Lemma strip_tight s : tight (strip_sp s).
Proof.
  unfold strip_sp. destruct (lstrip_split s) as (b & E & _ & H2). destruct (rstrip_split (lstrip_sp s)) as (b' & E' & _ & H3).
  split; [|exact H3]. intros c r H. rewrite H in E'. eapply H2. exact E'.
Qed.
Lemma tight_lstrip s : tight s -> lstrip_sp s = s.
Proof. intros [H _]. destruct s as [|c r]; [reflexivity|]. apply lstrip_start. eauto. Qed.
Lemma tight_rstrip s : tight s -> rstrip_sp s = s.
Proof. intros [_ H]. destruct (last_case s) as [->|(r & c & ->)]; [reflexivity|]. apply rstrip_end. eauto. Qed.
Lemma tight_strip s : tight s -> strip_sp s = s.
Proof. intros H. unfold strip_sp. now rewrite tight_lstrip, tight_rstrip. Qed.
Lemma rstrip_idem s : rstrip_sp (rstrip_sp s) = rstrip_sp s.
Proof. destruct (rstrip_split s) as (b & _ & _ & H). destruct (last_case (rstrip_sp s)) as [E|(r & c & E)]; rewrite E; [reflexivity|]. apply rstrip_end. eauto. Qed.
Lemma inline_incl s t : (forall c, In c s -> In c t) -> inline t -> inline s.
Proof. unfold inline. rewrite !Forall_forall. auto. Qed.

(** Lines of a text *)
Lemma universal_cr_free s : ~ In cr (universal s).
Proof.
  assert (G : forall n s, List.length s <= n -> ~ In cr (universal s)); [|now apply (G (List.length s))].
  induction n as [|n IH]; intros [|a t] Hn; cbn [List.length] in Hn; [intros []|lia|intros []|].
  destruct (Ascii.eqb_spec a cr) as [->|Ha].
  - destruct t as [|b t]; [intros [H|[]]; discriminate|]. cbn [List.length] in Hn. destruct (Ascii.eqb_spec b nl) as [->|Hb].
    + rewrite universal_cr_nl. intros [H|H]; [discriminate|]. revert H. apply IH. lia.
    + rewrite universal_cr by (intros r [= E _]; now apply Hb). intros [H|H]; [discriminate|]. revert H. apply IH. cbn. lia.
  - cbn [universal]. destruct (Ascii.eqb_spec a cr); [contradiction|]. intros [H|H]; [now apply Ha|]. revert H. apply IH. lia.
Qed.
Lemma lines_inline s : ~ In cr s -> Forall inline (lines_of s).
Proof.
  induction s as [|a s IH]; intros H; cbn [lines_of]; [constructor|]. cbn [In] in H.
  destruct (Ascii.eqb_spec a nl) as [->|Ha]; [constructor; [constructor|apply IH; tauto]|].
  assert (Hi : ~ is_nl a /\ ~ is_cr a) by (split; [exact Ha|unfold is_cr; intros E; apply H; left; exact E]).
  destruct (lines_of s) as [|l ls]; [repeat constructor; apply Hi|]. specialize (IH ltac:(tauto)). inversion IH; subst. constructor; [|assumption]. constructor; auto.
Qed.
Lemma text_inline t : Forall inline (lines_of (universal t)).
Proof. apply lines_inline, universal_cr_free. Qed.

(** Capital letters *)
Lemma lower_eq c d : ~ 97 <= nat_of_ascii d <= 122 -> lower c = d -> c = d.
Proof.
  intros Hd. unfold lower. destruct ((65 <=? nat_of_ascii c) && (nat_of_ascii c <=? 90)) eqn:E; [|auto].
  apply andb_true_iff in E as [E1 E2]. apply Nat.leb_le in E1, E2. intros <-. rewrite nat_ascii_embedding in Hd by lia. lia.
Qed.
Lemma lower_back s d : ~ 97 <= nat_of_ascii d <= 122 -> In d (str_lower s) -> In d s.
Proof. intros Hd H. apply in_map_iff in H as (c & E & H). apply lower_eq in E; [now subst|assumption]. Qed.
Lemma lower_space c : is_space (lower c) = is_space c.
Proof.
  unfold lower. destruct ((65 <=? nat_of_ascii c) && (nat_of_ascii c <=? 90)) eqn:E; [|reflexivity].
  apply andb_true_iff in E as [E1 E2]. apply Nat.leb_le in E1, E2. unfold is_space. rewrite nat_ascii_embedding by lia.
  repeat match goal with |- context [?a <=? ?b] => destruct (Nat.leb_spec a b); try lia end; reflexivity.
Qed.
Lemma lower_idem s : str_lower (str_lower s) = str_lower s.
Proof. symmetry. apply lower_case_spec, str_lower_lower. Qed.

(** Headers *)
Lemma before_last_in c s : before_last c s = None -> ~ In c s.
Proof.
  induction s as [|a s IH]; cbn; [tauto|]. destruct (before_last c s); [discriminate|]. destruct (Ascii.eqb_spec a c) as [->|Ha]; [discriminate|].
  intros _ [H|H]; [now apply Ha|now apply IH].
Qed.
Lemma before_last_nil c s : before_last c s = Some [] -> exists r, s = c :: r /\ ~ In c r.
Proof.
  destruct s as [|a s]; cbn; [discriminate|]. destruct (before_last c s) eqn:E; [discriminate|]. destruct (Ascii.eqb_spec a c) as [->|Ha]; [|discriminate].
  intros _. exists s. split; [reflexivity|]. now apply before_last_in.
Qed.
Definition rb : ascii := "]"%char.
Lemma no_header v : section_header v = None <->
  (forall r, v = "["%char :: r -> ~ In rb r \/ exists r', r = rb :: r' /\ ~ In rb r').
Proof.
  split.
  - intros H r ->. unfold section_header in H. rewrite Ascii.eqb_refl in H. fold rb in H. destruct (before_last rb r) as [[|b h]|] eqn:E; [|discriminate|].
    + right. now apply before_last_nil.
    + left. now apply before_last_in.
  - intros H. destruct v as [|a r]; [reflexivity|]. cbn. destruct (Ascii.eqb_spec a "["%char) as [->|_]; [|reflexivity].
    destruct (H r eq_refl) as [H1|(r' & -> & H1)].
    + now rewrite before_last_none.
    + change (before_last "]"%char (rb :: r')) with (before_last rb ([] ++ rb :: r')). now rewrite before_last_spec.
Qed.

(** ** What the reader keeps *)
Definition free_key (k : pystr) : Prop := Forall (fun c => c <> "="%char /\ c <> ":"%char) k.
Definition good_key (k : pystr) : Prop :=
  k <> [] /\ tight k /\ inline k /\ is_comment k = false /\ free_key k /\ str_lower k = k.
Definition good_lines (k : pystr) (vs : list pystr) : Prop :=
  exists v0 r, vs = v0 :: r /\ tight v0 /\ inline v0 /\ section_header (k ++ S_ " = " ++ v0) = None /\
    Forall (fun v => tight v /\ inline v /\ is_comment v = false) r.
Definition good_sec (sec : raw_section) : Prop :=
  NoDup (map fst sec) /\ Forall (fun kv => good_key (fst kv) /\ good_lines (fst kv) (snd kv)) sec.
Definition good_name (n : pystr) : Prop := n <> [] /\ inline n.
Definition kept (s : istate) : Prop :=
  NoDup (map fst (i_sections s)) /\ ~ In default_name (map fst (i_sections s)) /\
  Forall (fun ns => good_name (fst ns) /\ good_sec (snd ns)) (i_sections s) /\ good_sec (i_defaults s).

Lemma split_option_inv v k w : split_option v = Some (k, w) -> exists d, v = k ++ d :: w /\ (d = "="%char \/ d = ":"%char) /\ free_key k.
Proof.
  revert k. induction v as [|a v IH]; intros k; cbn; [discriminate|].
  destruct (Ascii.eqb_spec a "="%char) as [->|H1]; [intros [= <- <-]; exists "="%char; repeat split; auto; constructor|].
  destruct (Ascii.eqb_spec a ":"%char) as [->|H2]; cbn [orb]; [intros [= <- <-]; exists ":"%char; repeat split; auto; constructor|].
  destruct (split_option v) as [[k' w']|]; [|discriminate]. intros [= <- <-]. destruct (IH k' eq_refl) as (d & -> & Hd & Hk).
  exists d. repeat split; auto. constructor; auto.
Qed.

Lemma good_option v k w : tight v -> inline v -> is_comment v = false -> section_header v = None -> split_option v = Some (k, w) -> rstrip_sp k <> [] ->
  good_key (str_lower (rstrip_sp k)) /\ good_lines (str_lower (rstrip_sp k)) [strip_sp w].
Proof.
  intros Ht Hi Hc Hh Hs Hk. apply split_option_inv in Hs as (d & -> & Hd & Hf).
  assert (Hd' : is_space d = false /\ d <> rb /\ d <> "["%char) by (destruct Hd; subst; repeat split; discriminate).
  destruct (rstrip_split k) as (b & Ek & Hb & Hend). set (k1 := rstrip_sp k) in *.
  destruct k1 as [|a k2] eqn:E1; [now contradiction Hk|].
  assert (Ha : is_space a = false). { apply (proj1 Ht a (k2 ++ b ++ d :: w)). rewrite Ek. rewrite <- !app_assoc. reflexivity. }
  assert (Hin : forall c, In c (str_lower (a :: k2)) -> ~ 97 <= nat_of_ascii c <= 122 -> In c (k ++ d :: w)).
  { intros c H1 H2. apply in_or_app. left. rewrite Ek. apply in_or_app. left. now apply lower_back. }
  split.
  - split; [discriminate|]. split; [|split; [|split; [|split]]].
    + split.
      * intros c r [= <- <-]. now rewrite lower_space.
      * intros c r H. unfold str_lower in H. destruct (last_case (a :: k2)) as [E|(r' & e & E)]; [discriminate|]. rewrite E in H, Hend. rewrite map_app in H. cbn [map] in H.
        apply app_inj_tail in H as [_ <-]. rewrite lower_space. eapply Hend. reflexivity.
    + apply Forall_forall. intros c H. assert (G : is_nl c \/ is_cr c -> ~ 97 <= nat_of_ascii c <= 122).
      { rewrite nat_of_nl, nat_of_cr. lia. }
      split; intros E; (assert (Hkc : In c (k ++ d :: w)) by (apply Hin; [exact H|apply G; tauto])); destruct (inline_in _ _ Hi Hkc); tauto.
    + rewrite Ek in Hc. change (Ascii.eqb a "#"%char || Ascii.eqb a ";"%char = false) in Hc. change (Ascii.eqb (lower a) "#"%char || Ascii.eqb (lower a) ";"%char = false).
      apply orb_false_iff in Hc as [C1 C2]. apply Ascii.eqb_neq in C1, C2. apply orb_false_iff.
      split; apply Ascii.eqb_neq; intros E; (apply lower_eq in E; [|cbn; lia]); auto.
    + apply Forall_forall. intros c H. rewrite Ek in Hf. apply Forall_app in Hf as [Hf _]. unfold free_key in Hf. rewrite Forall_forall in Hf.
      split; intros ->; (apply lower_back in H; [|cbn; lia]); apply Hf in H; tauto.
    + apply lower_idem.
  - exists (strip_sp w), []. split; [reflexivity|]. split; [apply strip_tight|]. split; [|split; [|constructor]].
    + apply (inline_incl _ (k ++ d :: w)); [|exact Hi]. intros c H. apply in_or_app. right. right. now apply strip_in.
    + rewrite no_header in Hh |- *. intros r E. cbn [str_lower map app] in E. injection E as E <-.
      assert (a = "["%char) as -> by (apply lower_eq in E; [exact E|cbn; lia]).
      assert (Hw : In rb (strip_sp w) -> In rb w) by apply strip_in.
      assert (Hrb : ~ 97 <= nat_of_ascii rb <= 122) by (cbn; lia).
      destruct (Hh (k2 ++ b ++ d :: w)) as [H|(r' & E' & H)]; [rewrite Ek, <- !app_assoc; reflexivity| |].
      * left. intros G. apply H. apply in_app_or in G as [G|G]; [apply in_or_app; left; now apply lower_back|].
        destruct G as [G|[G|[G|G]]]; try discriminate G. apply in_or_app. right. apply in_or_app. right. right. auto.
      * destruct k2 as [|e k3].
        { exfalso. cbn in E'. destruct b as [|e b]; cbn in E'; [injection E' as E' _; now destruct Hd' as (_ & G & _)|]. injection E' as -> _. inversion Hb; discriminate. }
        injection E' as -> <-. right. eexists. split; [reflexivity|]. intros G. apply H.
        apply in_app_or in G as [G|G]; [apply in_or_app; left; now apply lower_back|].
        destruct G as [G|[G|[G|G]]]; try discriminate G. apply in_or_app. right. apply in_or_app. right. right. auto.
Qed.

Lemma kept_change s f : kept s ->
  (forall c, i_cur s = Some c -> good_sec (cursect s c) -> good_sec (f (cursect s c))) -> kept (change s f).
Proof.
  intros Hi Hf. pose proof Hi as (H1 & H2 & H3 & H4). unfold change.
  destruct (i_cur s) as [[n|]|] eqn:E; [| |exact Hi].
  - unfold kept. cbn [i_sections i_defaults]. rewrite !aupd_names. split; [auto|]. split; [auto|]. split; [|auto].
    apply aupd_forall; [exact H3|]. intros a Ha [Hn Hg]. split; [exact Hn|]. specialize (Hf (Some n) eq_refl). cbn in Hf.
    rewrite Ha in Hf. auto.
  - unfold kept. cbn. split; [auto|]. split; [auto|]. split; [auto|]. apply (Hf None eq_refl H4).
Qed.
Lemma good_sec_nil : good_sec [].
Proof. split; constructor. Qed.
Lemma NoDup_snoc {A} (l : list A) a : NoDup l -> ~ In a l -> NoDup (l ++ [a]).
Proof.
  intros H Ha. rewrite <- (rev_involutive (l ++ [a])). apply NoDup_rev. rewrite rev_app_distr. cbn. constructor; [now rewrite <- in_rev|now apply NoDup_rev].
Qed.
Lemma good_more k v sec : tight v -> inline v -> is_comment v = false -> good_sec sec -> good_sec (aupd k (fun vs => vs ++ [v]) sec).
Proof.
  intros V1 V2 V3 [H1 H2]. split; [now rewrite aupd_names|]. apply aupd_forall; [exact H2|].
  intros vs _ [G1 (v0 & r & E & G2 & G3 & G4 & G5)]. cbn [fst snd] in *. subst vs. split; [exact G1|]. exists v0, (r ++ [v]). repeat split; auto; try apply G2. apply Forall_app. auto.
Qed.
Lemma rest_kept s v s' (k : nat) : tight v -> inline v -> is_comment v = false ->
  kept s ->
  (let s := set_indent s k in
   match section_header v with
   | Some n => header_line s n
   | None => match i_cur s with
             | None => Err MissingSectionHeaderError
             | Some c => option_line s c v
             end
   end) = Ok s' -> i_error s' = false -> i_error s = false /\ kept s'.
Proof.
  intros V1 V2 V3 (H1 & H2 & H3 & H4). cbv zeta. destruct (section_header v) as [n|] eqn:Eh.
  - assert (Hn : good_name n).
    { unfold section_header in Eh. destruct v as [|a r]; [discriminate|]. destruct (Ascii.eqb a "["%char); [|discriminate].
      destruct (before_last "]"%char r) as [[|b h]|] eqn:Eb; try discriminate. injection Eh as <-. split; [discriminate|].
      apply (inline_incl _ (a :: r)); [|exact V2]. intros c Hc. right. clear - Eb Hc. revert b h Eb Hc. induction r as [|x r IH]; intros b h; [discriminate|]. cbn [before_last].
      destruct (before_last "]"%char r) as [h'|] eqn:E.
      - intros [= <- <-] [<-|Hc]; [now left|right]. destruct h' as [|b' h']; [destruct Hc|]. eapply IH; [reflexivity|exact Hc].
      - destruct (Ascii.eqb x "]"%char); discriminate. }
    unfold header_line. cbn [set_indent i_sections]. destruct (amem (i_sections s) n) eqn:Em; [discriminate|].
    apply amem_false in Em.
    destruct (pystr_eqb n default_name) eqn:Ed; intros [= <-] He; (split; [exact He|]); [now repeat split; auto; apply H4|].
    apply pystr_eqb_neq in Ed. unfold kept. cbn [set_cur new_section i_sections i_defaults set_indent]. rewrite map_app. cbn [map fst]. split; [|split; [|split]].
    + now apply NoDup_snoc.
    + intros Hin. apply in_app_or in Hin as [Hin|[Hin|[]]]; [now apply H2|now apply Ed].
    + apply Forall_app. split; [exact H3|]. constructor; [split; [exact Hn|apply good_sec_nil]|constructor].
    + exact H4.
  - cbn [set_indent i_cur]. destruct (i_cur s) as [c|] eqn:Ec; [|discriminate].
    unfold option_line. destruct (split_option v) as [[key w]|] eqn:Es; [|intros [= <-] He; discriminate He].
    cbv zeta. destruct (rstrip_sp key) as [|a k'] eqn:Ek.
    + destruct (amem _ _); [discriminate|]. intros [= <-] He. exfalso. revert He. unfold change. destruct (i_cur _) as [[]|]; discriminate.
    + rewrite <- Ek in *. destruct (amem (cursect (set_indent s k) c) (str_lower (rstrip_sp key))) eqn:Em; [discriminate|].
      apply amem_false in Em. intros [= <-] He. split.
      { revert He. unfold change. destruct (i_cur _) as [[]|]; auto. }
      apply kept_change; [repeat split; auto; apply H4|].
      intros c' Hc' Hg. assert (c' = c) as -> by (cbn in Hc'; congruence).
      assert (cursect (set_opt (set_indent s k) (Some (str_lower (rstrip_sp key)))) c = cursect (set_indent s k) c) as E by now destruct c.
      rewrite E in *. destruct Hg as [G1 G2]. split; [rewrite map_app; now apply NoDup_snoc|].
      apply Forall_app. split; [exact G2|]. constructor; [|constructor]. cbn [fst snd]. apply (good_option v); auto. rewrite Ek. discriminate.
Qed.
Lemma read_line_kept s l s' : inline l -> kept s -> read_line s l = Ok s' -> i_error s' = false -> i_error s = false /\ kept s'.
Proof.
  intros Hl Hi. unfold read_line. pose proof (strip_tight l) as V1. assert (V2 : inline (strip_sp l)) by (apply (inline_incl _ l); auto using strip_in).
  destruct (is_comment (strip_sp l)) eqn:Ec; [now intros [= <-]|].
  assert (Ha : forall k, kept (append_line s k (strip_sp l))) by (intros k; apply kept_change; [exact Hi|]; intros c _ Hg; now apply good_more).
  assert (He : forall k v, i_error (append_line s k v) = i_error s) by (intros; unfold append_line, change; destruct (i_cur s) as [[]|]; reflexivity).
  destruct (strip_sp l) as [|a v].
  - destruct (open_option s); intros [= <-]; rewrite ?He; auto.
  - destruct (open_option s) as [k|].
    + destruct (i_indent s <? leading l); [intros [= <-]; rewrite ?He; auto|]. now apply rest_kept.
    + now apply rest_kept.
Qed.
Lemma fold_kept ls : forall s s', Forall inline ls -> kept s -> foldM read_line s ls = Ok s' -> i_error s' = false -> kept s'.
Proof.
  induction ls as [|l ls IH]; intros s s' Hl Hi; cbn [foldM]; [now intros [= <-]|]. inversion Hl; subst.
  destruct (read_line s l) as [s1|e] eqn:E; cbn [bind]; [|discriminate]. intros F He.
  destruct (i_error s1) eqn:E1.
  - exfalso. clear - F He E1. revert s1 E1 F. induction ls as [|l ls IH]; intros s1 E1; cbn [foldM]; [intros [= <-]; congruence|].
    destruct (read_line s1 l) as [s2|] eqn:E; cbn [bind]; [|discriminate]. intros F. apply (IH s2); [|exact F].
    clear - E E1. unfold read_line in E.
    assert (Ha : forall k v, i_error (append_line s1 k v) = true) by (intros; unfold append_line, change; destruct (i_cur s1) as [[]|]; exact E1).
    assert (Hr : forall n v s2, (let s := set_indent s1 n in match section_header v with Some n => header_line s n | None => match i_cur s with None => Err MissingSectionHeaderError | Some c => option_line s c v end end) = Ok s2 -> i_error s2 = true).
    { clear - E1. intros n v s2. cbv zeta. destruct (section_header v); [unfold header_line; destruct (amem _ _); [discriminate|]; destruct (pystr_eqb _ _); intros [= <-]; exact E1|].
      destruct (i_cur (set_indent s1 n)); [|discriminate]. unfold option_line. destruct (split_option v) as [[k w]|]; [|now intros [= <-]]. cbv zeta.
      destruct (amem _ _); [discriminate|]. intros [= <-]. unfold change. destruct (rstrip_sp k); cbn; destruct (i_cur s1) as [[]|]; auto. }
    destruct (is_comment _); [now injection E as <-|]. destruct (strip_sp l) as [|a v]; [destruct (open_option s1); injection E as <-; auto|].
    destruct (open_option s1); [destruct (_ <? _); [injection E as <-; auto|]|]; eauto.
  - apply (IH s1); auto. now apply (read_line_kept s l s1).
Qed.
Lemma kept_start : kept istart.
Proof. repeat split; try constructor. cbn. tauto. Qed.

(** ** Values as they are stored *)
Definition good_value (k v : pystr) : Prop :=
  exists v0 vs, v = join_nl (v0 :: vs) /\ rstrip_sp v = v /\ good_lines k (v0 :: vs).
Lemma join_nl_snoc vs v : vs <> [] -> join_nl (vs ++ [v]) = join_nl vs ++ nl :: v.
Proof.
  induction vs as [|w vs IH]; [easy|]. intros _. destruct vs as [|w' vs]; [reflexivity|].
  change ((w :: w' :: vs) ++ [v]) with (w :: (w' :: vs) ++ [v]).
  change (join_nl (w :: (w' :: vs) ++ [v])) with (w ++ nl :: join_nl ((w' :: vs) ++ [v])). rewrite IH by discriminate.
  change (join_nl (w :: w' :: vs)) with (w ++ nl :: join_nl (w' :: vs)). now rewrite <- app_assoc.
Qed.
Lemma stored_value k vs : good_lines k vs -> good_value k (join_value vs).
Proof.
  intros (v0 & r & -> & H1 & H2 & H3 & H4). induction r as [|v r IH] using rev_ind.
  - exists v0, []. unfold join_value. cbn [join_nl]. rewrite tight_rstrip by exact H1. split; [reflexivity|]. split; [now apply tight_rstrip|]. exists v0, []. auto.
  - apply Forall_app in H4 as [H4 H5]. inversion H5 as [|? ? (V1 & V2 & V3) _]; subst. rewrite app_comm_cons.
    destruct (last_case v) as [->|(v' & c & ->)].
    + rewrite join_value_blank by discriminate. now apply IH.
    + exists v0, (r ++ [v' ++ [c]]). assert (E : join_value ((v0 :: r) ++ [v' ++ [c]]) = join_nl ((v0 :: r) ++ [v' ++ [c]])).
      { unfold join_value. rewrite join_nl_snoc by discriminate. rewrite app_comm_cons, app_assoc. apply rstrip_end. eapply (proj2 V1). reflexivity. }
      split; [exact E|]. split; [exact (f_equal rstrip_sp E)|]. exists v0, (r ++ [v' ++ [c]]). repeat split; auto; try apply H1. apply Forall_app. auto.
Qed.

(** ** Reading the written text *)
Definition tab : ascii := ascii_of_nat 9.
Definition option_lines (k v0 : pystr) (vs : list pystr) : list pystr := (k ++ S_ " = " ++ v0) :: map (cons tab) vs.
Definition text_of (ls : list pystr) : pystr := flat_map (fun l => l ++ [nl]) ls.
Lemma text_of_app a b : text_of (a ++ b) = text_of a ++ text_of b.
Proof. apply flat_map_app. Qed.
Lemma read_text_of ls : Forall inline ls -> lines_of (universal (text_of ls)) = ls.
Proof.
  induction 1 as [|l ls Hl _ IH]; [reflexivity|]. cbn [text_of flat_map]. fold (text_of ls). rewrite <- app_assoc. cbn [app].
  rewrite universal_inline by exact Hl. change (universal (nl :: text_of ls)) with (nl :: universal (text_of ls)). rewrite lines_of_nl by exact Hl. now rewrite IH.
Qed.
Lemma retab_inline v : inline v -> retab v = v.
Proof.
  induction 1 as [|c v [H _] _ IH]; [reflexivity|]. cbn [retab flat_map]. fold (retab v). rewrite IH.
  destruct (Ascii.eqb_spec c nl) as [->|_]; [now contradiction H|reflexivity].
Qed.
Lemma retab_app a b : retab (a ++ b) = retab a ++ retab b.
Proof. apply flat_map_app. Qed.
Lemma option_text k v0 vs : inline v0 -> Forall inline vs ->
  write_option (k, join_nl (v0 :: vs)) = text_of (option_lines k v0 vs).
Proof.
  intros H0 Hv. unfold write_option, option_lines. cbn [fst snd text_of flat_map]. fold (text_of (map (cons tab) vs)).
  rewrite <- !app_assoc. f_equal. f_equal. revert v0 H0. induction Hv as [|v vs H _ IH]; intros v0 H0.
  - cbn [join_nl]. now rewrite retab_inline.
  - change (join_nl (v0 :: v :: vs)) with (v0 ++ nl :: join_nl (v :: vs)). rewrite retab_app, (retab_inline v0) by exact H0. rewrite <- app_assoc. f_equal.
    change (retab (nl :: join_nl (v :: vs))) with (nl :: tab :: retab (join_nl (v :: vs))). cbn [app]. f_equal.
    cbn [map text_of flat_map]. fold (text_of (map (cons tab) vs)). cbn [app]. f_equal. rewrite <- app_assoc. now apply IH.
Qed.

Definition st (pre : list (pystr * raw_section)) (defs : raw_section) (c : option pystr) (sec : raw_section) (o : option pystr) : istate :=
  match c with
  | None => mkIstate pre sec (Some None) o 0 false
  | Some n => mkIstate (pre ++ [(n, sec)]) defs (Some (Some n)) o 0 false
  end.
Definition new_to (c : option pystr) (pre : list (pystr * raw_section)) : Prop :=
  match c with None => True | Some n => ~ In n (map fst pre) end.
Lemma st_cursect pre defs c sec o : new_to c pre -> cursect (st pre defs c sec o) c = sec.
Proof. destruct c as [n|]; [|reflexivity]. cbn. intros H. now rewrite aget_last. Qed.
Lemma st_change pre defs c sec o f : new_to c pre -> change (st pre defs c sec o) f = st pre defs c (f sec) o.
Proof. destruct c as [n|]; [|reflexivity]. cbn. intros H. unfold change. cbn. now rewrite aupd_last. Qed.
Lemma st_set_opt pre defs c sec o o' : set_opt (st pre defs c sec o) o' = st pre defs c sec o'.
Proof. now destruct c. Qed.
Lemma st_indent pre defs c sec o : set_indent (st pre defs c sec o) 0 = st pre defs c sec o.
Proof. now destruct c. Qed.
Lemma st_cur pre defs c sec o : i_cur (st pre defs c sec o) = Some c.
Proof. now destruct c. Qed.
Lemma st_i_indent pre defs c sec o : i_indent (st pre defs c sec o) = 0.
Proof. now destruct c. Qed.
Lemma st_open pre defs c sec o : open_option (st pre defs c sec o) = match o with Some (a :: k) => Some (a :: k) | _ => None end.
Proof. now destruct c. Qed.

Definition after (v0 : pystr) : pystr := match v0 with [] => [] | _ => " "%char :: v0 end.
Lemma after_strip v0 : tight v0 -> strip_sp (after v0) = v0.
Proof.
  intros H. destruct v0 as [|c v]; [reflexivity|].
  change (strip_sp (after (c :: v))) with (strip_sp (c :: v)). now apply tight_strip.
Qed.
Lemma rstrip_blank v c : is_space c = true -> rstrip_sp (v ++ [c]) = rstrip_sp v.
Proof. intros H. unfold rstrip_sp. rewrite rev_app_distr. cbn [rev app lstrip_sp]. now rewrite H. Qed.
Lemma first_strip k v0 : good_key k -> tight v0 -> strip_sp (k ++ S_ " = " ++ v0) = k ++ S_ " =" ++ after v0.
Proof.
  intros (K1 & K2 & _) H. unfold strip_sp. destruct k as [|a k]; [easy|].
  assert (E : lstrip_sp ((a :: k) ++ S_ " = " ++ v0) = (a :: k) ++ S_ " = " ++ v0).
  { cbn [app]. apply lstrip_start. eapply (proj1 K2). reflexivity. }
  rewrite E. destruct (last_case v0) as [->|(r & c & ->)].
  - change ((a :: k) ++ S_ " = " ++ []) with ((a :: k) ++ (S_ " =" ++ S_ " ")). rewrite app_assoc.
    change (S_ " ") with [" "%char]. rewrite rstrip_blank by reflexivity. change (S_ " =") with ([" "%char] ++ ["="%char]). rewrite app_assoc.
    change (after []) with (@nil ascii). rewrite app_nil_r. etransitivity; [exact (rstrip_end ((a :: k) ++ [" "%char]) "="%char eq_refl)|]. now rewrite <- app_assoc.
  - replace (after (r ++ [c])) with (" "%char :: r ++ [c]) by now destruct r.
    change ((a :: k) ++ S_ " =" ++ " "%char :: r ++ [c]) with ((a :: k) ++ S_ " = " ++ r ++ [c]). rewrite !app_assoc. apply rstrip_end. eapply (proj2 H). reflexivity.
Qed.
Lemma first_split k v0 : good_key k -> split_option (k ++ S_ " =" ++ after v0) = Some (k ++ S_ " ", after v0).
Proof.
  intros (_ & _ & _ & _ & H & _). induction H as [|c k [H1 H2] _ IH]; [reflexivity|]. cbn [app split_option].
  destruct (Ascii.eqb_spec c "="%char) as [->|_]; [now contradiction H1|]. destruct (Ascii.eqb_spec c ":"%char) as [->|_]; [now contradiction H2|].
  cbn [orb]. now rewrite IH.
Qed.
Lemma first_key k : good_key k -> str_lower (rstrip_sp (k ++ S_ " ")) = k.
Proof.
  intros (K1 & K2 & _ & _ & _ & K3). replace (rstrip_sp (k ++ S_ " ")) with k; [exact K3|].
  change (S_ " ") with [" "%char]. rewrite rstrip_blank by reflexivity. symmetry. now apply tight_rstrip.
Qed.
Lemma first_header k v0 : section_header (k ++ S_ " = " ++ v0) = None -> section_header (k ++ S_ " =" ++ after v0) = None.
Proof.
  destruct v0 as [|c v0]; [|auto]. rewrite !no_header. intros H r E.
  destruct (H (r ++ S_ " ")) as [G|(r' & E' & G)].
  - rewrite app_comm_cons, <- E. now rewrite <- !app_assoc.
  - left. intros G'. apply G. apply in_or_app. now left.
  - destruct r as [|b r].
    + exfalso. destruct k as [|x [|y k]]; discriminate E.
    + right. injection E' as -> <-. exists r. split; [reflexivity|]. intros G'. apply G. apply in_or_app. now left.
Qed.
Lemma read_first pre defs c sec o k v0 : new_to c pre -> good_key k -> tight v0 -> section_header (k ++ S_ " = " ++ v0) = None ->
  ~ In k (map fst sec) ->
  read_line (st pre defs c sec o) (k ++ S_ " = " ++ v0) = Ok (st pre defs c (sec ++ [(k, [v0])]) (Some k)).
Proof.
  intros Hc Hk Hv Hh Hn. unfold read_line. rewrite first_strip by assumption.
  pose proof Hk as (K1 & K2 & _ & K4 & _). assert (exists a k', k = a :: k') as (a & k' & Ek) by (destruct k as [|a k']; [easy|now exists a, k']).
  assert (Ha : is_space a = false) by (apply (proj1 K2 a k' Ek)).
  assert (Hl : leading (k ++ S_ " = " ++ v0) = 0) by (rewrite Ek in *; cbn [app leading]; now rewrite Ha). rewrite Hl.
  assert (Hcm : is_comment (k ++ S_ " =" ++ after v0) = false) by (rewrite Ek in *; exact K4). rewrite Hcm.
  apply first_header in Hh. rewrite Hh.
  assert (Hrest : option_line (st pre defs c sec o) c (k ++ S_ " =" ++ after v0) = Ok (st pre defs c (sec ++ [(k, [v0])]) (Some k))).
  { unfold option_line. rewrite first_split by exact Hk. cbv zeta. rewrite first_key by exact Hk.
    destruct (rstrip_sp (k ++ S_ " ")) as [|x xs] eqn:Ex.
    - exfalso. pose proof (first_key k Hk) as E. rewrite Ex in E. now apply K1.
    - rewrite st_cursect by exact Hc. apply amem_false in Hn. rewrite Hn. rewrite st_set_opt, st_change by exact Hc. now rewrite after_strip. }
  destruct (k ++ S_ " =" ++ after v0) as [|y ys] eqn:Ey; [rewrite Ek in *; discriminate|].
  rewrite st_open, st_i_indent, st_indent, st_cur. rewrite Hrest.
  change (0 <? 0) with false. cbn iota. destruct o as [[|b o]|]; reflexivity.
Qed.
Lemma read_more pre defs c sec k vs v : new_to c pre -> k <> [] -> ~ In k (map fst sec) -> tight v -> is_comment v = false ->
  read_line (st pre defs c (sec ++ [(k, vs)]) (Some k)) (tab :: v) = Ok (st pre defs c (sec ++ [(k, vs ++ [v])]) (Some k)).
Proof.
  intros Hc Hk Hn Hv Hm. unfold read_line. assert (E : strip_sp (tab :: v) = v).
  { unfold strip_sp. cbn [lstrip_sp]. change (is_space tab) with true. cbn iota. exact (tight_strip v Hv). }
  rewrite E, Hm. rewrite st_open, st_i_indent. destruct k as [|a k]; [easy|].
  assert (Ea : append_line (st pre defs c (sec ++ [(a :: k, vs)]) (Some (a :: k))) (a :: k) v = st pre defs c (sec ++ [(a :: k, vs ++ [v])]) (Some (a :: k))).
  { unfold append_line. rewrite st_change by exact Hc. now rewrite aupd_last. }
  destruct v as [|b v]; [now rewrite Ea|]. change (0 <? leading (tab :: b :: v)) with true. cbn iota. now rewrite Ea.
Qed.
Lemma read_blank pre defs c sec k vs : new_to c pre -> k <> [] -> ~ In k (map fst sec) ->
  read_line (st pre defs c (sec ++ [(k, vs)]) (Some k)) [] = Ok (st pre defs c (sec ++ [(k, vs ++ [[]])]) (Some k)).
Proof.
  intros Hc Hk Hn. unfold read_line. cbn [strip_sp lstrip_sp rstrip_sp rev is_comment]. change (strip_sp []) with (@nil ascii). cbn [is_comment]. rewrite st_open. destruct k as [|a k]; [easy|].
  unfold append_line. rewrite st_change by exact Hc. now rewrite aupd_last.
Qed.
Lemma foldM_app {A B} (f : A -> B -> res A) a l l' : foldM f a (l ++ l') = let* b := foldM f a l in foldM f b l'.
Proof. revert a. induction l as [|x l IH]; intros a; [reflexivity|]. cbn [app foldM]. destruct (f a x); cbn [bind]; [apply IH|reflexivity]. Qed.
Lemma read_option pre defs c sec o k v0 vs : new_to c pre -> good_key k -> good_lines k (v0 :: vs) -> ~ In k (map fst sec) ->
  foldM read_line (st pre defs c sec o) (option_lines k v0 vs) = Ok (st pre defs c (sec ++ [(k, v0 :: vs)]) (Some k)).
Proof.
  intros Hc Hk (v0' & r & [= <- <-] & H1 & H2 & H3 & H4) Hn. unfold option_lines. cbn [foldM]. rewrite read_first by assumption. cbn [bind].
  clear H2. change (v0 :: vs) with ([v0] ++ vs). generalize [v0]. induction H4 as [|v vs (V1 & V2 & V3) _ IH]; intros w; [cbn; now rewrite app_nil_r|].
  cbn [map foldM]. rewrite read_more; try assumption; [|apply Hk]. cbn [bind]. rewrite IH. now rewrite <- app_assoc.
Qed.

(** A section of values as the reader returns it. *)
Definition good_opts (opts : list (pystr * pystr)) : Prop :=
  NoDup (map fst opts) /\ Forall (fun kv => good_key (fst kv) /\ good_value (fst kv) (snd kv)) opts.
Lemma join_section_app a b : join_section (a ++ b) = join_section a ++ join_section b.
Proof. apply map_app. Qed.
Lemma join_section_names s : map fst (join_section s) = map fst s.
Proof. unfold join_section. rewrite map_map. reflexivity. Qed.
Lemma good_join sec : good_sec sec -> good_opts (join_section sec).
Proof.
  intros [H1 H2]. split; [now rewrite join_section_names|]. unfold join_section. apply Forall_map. eapply Forall_impl; [|exact H2].
  intros kv [G1 G2]. split; [exact G1|now apply stored_value].
Qed.
Lemma options_lines opts : Forall (fun kv => good_key (fst kv) /\ good_value (fst kv) (snd kv)) opts ->
  exists ls, flat_map write_option opts = text_of ls /\ Forall inline ls /\
    forall pre defs c sec o, new_to c pre -> NoDup (map fst sec ++ map fst opts) ->
      exists raw, foldM read_line (st pre defs c sec o) ls =
          Ok (st pre defs c (sec ++ raw) (match rev opts with [] => o | kv :: _ => Some (fst kv) end)) /\ join_section raw = opts.
Proof.
  induction opts as [|[k v] opts IH]; intros Hg.
  - exists []. split; [reflexivity|]. split; [constructor|]. intros pre defs c sec o _ _. exists []. cbn. now rewrite app_nil_r.
  - inversion Hg as [|? ? [Hk (v0 & vs & Ev & Er & Hv)] Hg']; subst. cbn [fst snd] in *. destruct (IH Hg') as (ls & E & Hi & Hr).
    pose proof Hv as (v0' & r & [= <- <-] & H1 & H2 & H3 & H4).
    exists (option_lines k v0 vs ++ ls). split; [|split].
    + cbn [flat_map]. rewrite E, text_of_app. f_equal. subst v. apply option_text; [exact H2|]. eapply Forall_impl; [|exact H4]. now intros ? (_ & ? & _).
    + apply Forall_app. split; [|exact Hi]. constructor.
      * apply Forall_app. split; [apply Hk|]. apply Forall_app. split; [|exact H2]. repeat constructor; discriminate.
      * apply Forall_map. eapply Forall_impl; [|exact H4]. intros w (_ & G & _). constructor; [split; discriminate|exact G].
    + intros pre defs c sec o Hc Hn. cbn [map] in Hn.
      assert (Hk' : ~ In k (map fst sec)). { apply NoDup_remove_2 in Hn. intros G. apply Hn. apply in_or_app. now left. }
      destruct (Hr pre defs c (sec ++ [(k, v0 :: vs)]) (Some k) Hc) as (raw & F & J).
      { rewrite map_app, <- app_assoc. exact Hn. }
      exists ((k, v0 :: vs) :: raw). rewrite foldM_app, read_option by assumption. cbn [bind]. rewrite F. split.
      * rewrite <- app_assoc. cbn [app rev]. destruct (rev opts); reflexivity.
      * cbn [join_section map fst snd]. fold (join_section raw). rewrite J. unfold join_value. subst v. now rewrite Er.
Qed.
Definition idle (s : istate) : Prop := i_error s = false /\ i_indent s = 0.
Lemma read_header s n : idle s -> n <> [] -> inline n -> read_line s ("["%char :: n ++ [rb]) = header_line (set_indent s 0) n.
Proof.
  intros [H1 H2] Hn Hi. unfold read_line.
  assert (E : strip_sp ("["%char :: n ++ [rb]) = "["%char :: n ++ [rb]).
  { unfold strip_sp. rewrite lstrip_start by reflexivity. rewrite app_comm_cons. now apply rstrip_end. }
  rewrite E. cbn [is_comment leading]. change (Ascii.eqb "[" "#" || Ascii.eqb "[" ";") with false. change (is_space "[") with false. cbn iota.
  assert (Eh : section_header ("["%char :: n ++ [rb]) = Some n).
  { unfold section_header. rewrite Ascii.eqb_refl. change "]"%char with rb. rewrite before_last_spec by auto. destruct n; [easy|reflexivity]. }
  rewrite Eh, H2. change (0 <? 0) with false. cbn iota. destruct (open_option s); reflexivity.
Qed.
Lemma read_section n opts : good_name n -> good_opts opts ->
  exists ls, write_section n opts = text_of ls /\ Forall inline ls /\
    forall s c pre defs, idle s -> header_line (set_indent s 0) n = Ok (st pre defs c [] None) -> new_to c pre ->
      exists raw o, foldM read_line s ls = Ok (st pre defs c raw o) /\ join_section raw = opts.
Proof.
  intros [Hn Hi] [Ho1 Ho2]. destruct (options_lines opts Ho2) as (ls & E & Hl & Hr).
  exists (("["%char :: n ++ [rb]) :: ls ++ [[]]). split; [|split].
  - unfold write_section. cbn [text_of flat_map]. fold (text_of (ls ++ [[]])). rewrite text_of_app, <- E. cbn [app]. rewrite <- !app_assoc. reflexivity.
  - constructor; [|apply Forall_app; split; [exact Hl|repeat constructor]].
    constructor; [split; discriminate|]. apply Forall_app. split; [exact Hi|]. repeat constructor; discriminate.
  - intros s c pre defs Hs Hh Hc. destruct (Hr pre defs c [] None Hc Ho1) as (raw & F & J). cbn [app] in F.
    cbn [foldM]. rewrite read_header by assumption. rewrite Hh. cbn [bind]. rewrite foldM_app, F. cbn [bind foldM].
    destruct (last_case raw) as [->|(raw' & [k vs] & ->)].
    + cbn in J. subst opts. cbn [rev]. exists [], None. split; [|reflexivity]. destruct c; reflexivity.
    + rewrite join_section_app in J. cbn [join_section map fst snd] in J. fold (join_section raw') in J. subst opts.
      rewrite rev_app_distr. cbn [rev app fst].
      apply Forall_app in Ho2 as [_ Ho2]. inversion Ho2 as [|? ? [Hk (v0 & r & Ev & Er & v0' & r' & Ev' & _)] _]; subst. cbn [fst snd] in *.
      rewrite map_app, join_section_names in Ho1. cbn [map fst] in Ho1. apply NoDup_remove_2 in Ho1. rewrite app_nil_r in Ho1.
      rewrite read_blank; try assumption; [|apply Hk]. cbn [bind]. do 2 eexists. split; [reflexivity|].
      rewrite join_section_app. f_equal. cbn [join_section map fst snd]. f_equal. f_equal.
      destruct vs as [|w vs]; [reflexivity|]. now apply join_value_blank.
Qed.
Lemma st_idle pre defs c sec o : idle (st pre defs c sec o).
Proof. destruct c; split; reflexivity. Qed.
Definition joined (secs : list (pystr * raw_section)) : inifile := map (fun ns => (fst ns, join_section (snd ns))) secs.
Lemma read_sections (secs : inifile) :
  Forall (fun ns => good_name (fst ns) /\ good_opts (snd ns)) secs -> ~ In default_name (map fst secs) ->
  exists ls, flat_map (fun ns => write_section (fst ns) (snd ns)) secs = text_of ls /\ Forall inline ls /\
    forall s, idle s -> NoDup (map fst (i_sections s) ++ map fst secs) ->
      exists s', foldM read_line s ls = Ok s' /\ idle s' /\ i_defaults s' = i_defaults s /\
        joined (i_sections s') = joined (i_sections s) ++ secs.
Proof.
  induction secs as [|[n opts] secs IH]; intros Hg Hd.
  - exists []. split; [reflexivity|]. split; [constructor|]. intros s Hs _. exists s. rewrite app_nil_r. auto.
  - inversion Hg as [|? ? [H1 H2] Hg']; subst. cbn [fst snd map] in *. destruct (IH Hg') as (ls & E & Hi & Hr); [intros G; apply Hd; now right|].
    destruct (read_section n opts H1 H2) as (ls1 & E1 & Hi1 & Hr1). exists (ls1 ++ ls). split; [|split].
    + cbn [flat_map fst snd]. now rewrite E, E1, text_of_app.
    + apply Forall_app. auto.
    + intros s Hs Hn. assert (Hn' : ~ In n (map fst (i_sections s))). { apply NoDup_remove_2 in Hn. intros G. apply Hn. apply in_or_app. now left. }
      destruct (Hr1 s (Some n) (i_sections s) (i_defaults s)) as (raw & o & F & J); [exact Hs| |exact Hn'|].
      { unfold header_line. cbn [set_indent i_sections]. apply amem_false in Hn'. rewrite Hn'.
        destruct (pystr_eqb n default_name) eqn:Ed; [exfalso; apply Hd; left; now apply pystr_eqb_eq|]. unfold set_cur, new_section, set_indent. cbn. now rewrite (proj1 Hs). }
      destruct (Hr (st (i_sections s) (i_defaults s) (Some n) raw o)) as (s' & F' & G1 & G2 & G3).
      { apply st_idle. }
      { cbn [st i_sections]. rewrite map_app. cbn [map fst]. rewrite <- app_assoc. exact Hn. }
      exists s'. rewrite foldM_app, F. cbn [bind]. split; [exact F'|]. split; [exact G1|]. split; [exact G2|]. rewrite G3. cbn [st i_sections].
      unfold joined. rewrite map_app. cbn [map fst snd]. rewrite J, <- app_assoc. reflexivity.
Qed.
Lemma read_written secs defs :
  NoDup (map fst secs) -> ~ In default_name (map fst secs) ->
  Forall (fun ns => good_name (fst ns) /\ good_opts (snd ns)) secs -> good_opts defs ->
  read_text (write_text (secs, defs)) = Ok (secs, defs).
Proof.
  intros Hn Hd Hg Hdef. destruct (read_sections secs Hg Hd) as (ls & E & Hi & Hr). unfold write_text. cbn [fst snd]. rewrite E. clear E.
  assert (Hdl : exists ls1, match defs with [] => [] | d :: l => write_section default_name (d :: l) end = text_of ls1 /\ Forall inline ls1 /\
    exists s, foldM read_line istart ls1 = Ok s /\ idle s /\ i_sections s = [] /\ join_section (i_defaults s) = defs).
  { destruct defs as [|kv defs].
    - exists []. split; [reflexivity|]. split; [constructor|]. exists istart. repeat split.
    - destruct (read_section default_name (kv :: defs)) as (ls1 & E1 & Hi1 & Hr1); [split; [discriminate|repeat constructor; discriminate]|exact Hdef|].
      exists ls1. split; [exact E1|]. split; [exact Hi1|]. destruct (Hr1 istart None [] []) as (raw & o & F & J); [split; reflexivity|reflexivity|exact I|].
      exists (st [] [] None raw o). repeat split; auto. }
  destruct Hdl as (ls1 & E1 & Hi1 & s1 & F1 & S1 & S2 & S3). destruct (Hr s1 S1) as (s2 & F2 & T1 & T2 & T3); [now rewrite S2|].
  rewrite E1, <- text_of_app. unfold read_text. rewrite read_text_of by (apply Forall_app; auto). rewrite foldM_app, F1. cbn [bind]. rewrite F2. cbn [bind].
  rewrite (proj1 T1), T2, S3. unfold joined in T3. rewrite T3, S2. reflexivity.
Qed.
Lemma reread t p : read_text t = Ok p -> read_text (write_text p) = Ok p.
Proof.
  unfold read_text at 1. destruct (foldM read_line istart (lines_of (universal t))) as [s|e] eqn:E; cbn [bind]; [|discriminate].
  destruct (i_error s) eqn:Ee; [discriminate|]. intros [= <-].
  destruct (fold_kept _ _ _ (text_inline t) kept_start E Ee) as (H1 & H2 & H3 & H4).
  apply read_written.
  - rewrite map_map. exact H1.
  - rewrite map_map. exact H2.
  - apply Forall_map. eapply Forall_impl; [|exact H3]. intros ns [G1 G2]. split; [exact G1|now apply good_join].
  - now apply good_join.
Qed.
