(** Proofs about references between options. *)
From Coq Require Import List ZArith Bool Ascii String Arith Lia.
From Verif Require Import Base ParseModel ConfigModel DeprecatedModel IniModel IniSpec IniProofs ReferSpec.
Import ListNotations.
Local Open Scope nat_scope.
Local Open Scope list_scope.

Section Text.
Variables (rec : pystr -> res pystr) (vals : list (pystr * pystr)).
Fixpoint go (fuel : nat) (s : pystr) : res pystr :=
  match fuel, s with
  | _, [] => Ok []
  | O, _ => Err OutOfFuel
  | S fuel, a :: r =>
      if Ascii.eqb a "%"%char then
        match r with
        | b :: r' =>
            if Ascii.eqb b "%"%char then let* t := go fuel r' in Ok ("%"%char :: t)
            else if Ascii.eqb b "("%char then
              match until_paren r' with
              | Some (c :: n, rest) =>
                  match aget vals (str_lower (c :: n)) with
                  | None => Err InterpolationError
                  | Some v =>
                      let* v := (if existsb (Ascii.eqb "%"%char) v then rec v else Ok v) in
                      let* t := go fuel rest in Ok (v ++ t)
                  end
              | _ => Err InterpolationError
              end
            else Err InterpolationError
        | [] => Err InterpolationError
        end
      else let* t := go fuel r in Ok (a :: t)
  end.
End Text.
Lemma interpolate_S d vals s : interpolate (S d) vals s = go (interpolate d vals) vals (List.length s) s.
Proof. reflexivity. Qed.

Lemma until_paren_spec s n r : until_paren s = Some (n, r) <-> s = n ++ ")"%char :: "s"%char :: r /\ ~ In ")"%char n.
Proof.
  split.
  - revert n r. induction s as [|a s IH]; intros n r H; [discriminate|]. cbn in H. destruct (Ascii.eqb_spec a ")") as [->|Ha].
    + destruct s as [|b s]; [discriminate|]. destruct (Ascii.eqb_spec b "s") as [->|]; [|discriminate]. injection H as <- <-. split; [reflexivity|intros []].
    + destruct (until_paren s) as [[n' t]|]; [|discriminate]. injection H as <- <-. destruct (IH n' t eq_refl) as [-> Hn]. split; [reflexivity|]. intros [|]; auto.
  - intros [-> Hn]. induction n as [|a n IH]; [reflexivity|]. cbn in *. destruct (Ascii.eqb_spec a ")") as [->|]; [exfalso; auto|]. rewrite IH by auto. reflexivity.
Qed.
Lemma aget_In {A} (l : list (pystr * A)) k v : NoDup (map fst l) -> (aget l k = Some v <-> In (k, v) l).
Proof.
  intros Hn. induction l as [|[k' v'] l IH]; [split; [discriminate|intros []]|]. cbn [map fst] in Hn. inversion_clear Hn as [|? ? H1 H2]. specialize (IH H2). cbn [aget In].
  destruct (pystr_eqb k k') eqn:E.
  - apply pystr_eqb_eq in E as ->. split; [intros [= ->]; now left|]. intros [[= ->]|H]; [reflexivity|]. destruct H1. apply (in_map fst) in H. exact H.
  - rewrite IH. split; [now right|]. intros [X|H]; [|assumption]. injection X as <- <-. rewrite (proj2 (pystr_eqb_eq k' k') eq_refl) in E. discriminate.
Qed.
Lemma lower_case_self s : lower_case s (str_lower s).
Proof.
  induction s as [|c s IH]; constructor; [|exact IH]. unfold lower_char, lower. destruct ((65 <=? nat_of_ascii c) && (nat_of_ascii c <=? 90)) eqn:E.
  - apply andb_true_iff in E as [E1 E2]. apply Nat.leb_le in E1, E2. left. split; [lia|]. apply nat_ascii_embedding. lia.
  - right. split; [|reflexivity]. intros [H1 H2]. apply Nat.leb_le in H1, H2. rewrite H1, H2 in E. discriminate.
Qed.
Lemma existsb_percent v : existsb (Ascii.eqb "%"%char) v = true <-> In "%"%char v.
Proof. rewrite existsb_exists. split; [intros (x & H & E); apply Ascii.eqb_eq in E; now subst|]. intros H. exists "%"%char. auto. Qed.

Lemma expands_plain opts d s : ~ In "%"%char s -> expands opts d s s.
Proof. induction s as [|c s IH]; intros H; constructor; [intros ->; apply H; now left|]. apply IH. intros K. apply H. now right. Qed.
Lemma expands_plain_inv opts d s t : expands opts d s t -> ~ In "%"%char s -> t = s.
Proof.
  induction 1 as [|d c s t Hc H IH|d s t H IH|d name key v w s t H1 H2 H3 H4 H5 IH5 H6 IH6]; intros K; [reflexivity| | |].
  - f_equal. apply IH. intros Q. apply K. now right.
  - destruct K. now left.
  - destruct K. now left.
Qed.
Lemma expands_0 opts s t : expands opts 0 s t -> ~ In "%"%char s.
Proof.
  remember 0 as d. induction 1 as [|d c s t Hc H IH| |]; try discriminate; [intros []|]. intros [->|K]; [congruence|]. now apply IH.
Qed.

Section Go.
Variables (vals : list (pystr * pystr)) (d : nat).
Hypothesis Hn : NoDup (map fst vals).
Hypothesis rec_ok : forall s t, In "%"%char s -> (interpolate d vals s = Ok t <-> expands vals d s t).

Lemma value_ok v w : (if existsb (Ascii.eqb "%"%char) v then interpolate d vals v else Ok v) = Ok w <-> expands vals d v w.
Proof.
  destruct (existsb (Ascii.eqb "%"%char) v) eqn:E.
  - apply rec_ok. now apply existsb_percent.
  - assert (K : ~ In "%"%char v) by (rewrite <- existsb_percent, E; discriminate). split; [intros [= <-]; now apply expands_plain|].
    intros H. now rewrite (expands_plain_inv _ _ _ _ H K).
Qed.
Lemma go_sound : forall fuel s t, go (interpolate d vals) vals fuel s = Ok t -> expands vals (S d) s t.
Proof.
  induction fuel as [|fuel IH]; intros [|a r] t H; cbn [go] in H; try discriminate; try (injection H as <-; constructor).
  destruct (Ascii.eqb_spec a "%") as [->|Ha].
  - destruct r as [|b r']; [discriminate|]. destruct (Ascii.eqb_spec b "%") as [->|_].
    + apply bind_Ok in H as (t' & Ht & [= <-]). apply expands_percent. now apply IH.
    + destruct (Ascii.eqb_spec b "(") as [->|]; [|discriminate]. destruct (until_paren r') as [[[|c n] rest]|] eqn:Eu; try discriminate.
      destruct (aget vals (str_lower (c :: n))) as [v|] eqn:Ev; [|discriminate]. apply bind_Ok in H as (w & Hw & H). apply bind_Ok in H as (t' & Ht & [= <-]).
      apply until_paren_spec in Eu as [-> Hc]. apply value_ok in Hw. apply (aget_In _ _ _ Hn) in Ev.
      apply (expands_reference vals d (c :: n) (str_lower (c :: n)) v w rest t'); auto; [discriminate|apply lower_case_self].
  - apply bind_Ok in H as (t' & Ht & [= <-]). constructor; auto.
Qed.
Lemma go_complete : forall s t e, e = S d -> expands vals e s t -> forall fuel, List.length s <= fuel -> go (interpolate d vals) vals fuel s = Ok t.
Proof.
  intros s t e He H. revert He.
  induction H as [e|e c s t Hc H IH|e s t H IH|e name key v w s t H1 H2 H3 H4 H5 IH5 H6 IH6]; intros He fuel Hl.
  - destruct fuel; reflexivity.
  - destruct fuel as [|fuel]; cbn in Hl; [lia|]. cbn [go]. destruct (Ascii.eqb_spec c "%"); [congruence|]. rewrite IH by (auto; lia). reflexivity.
  - destruct fuel as [|fuel]; cbn in Hl; [lia|]. cbn [go Ascii.eqb]. rewrite IH by (auto; lia). reflexivity.
  - injection He as ->. destruct fuel as [|fuel]; cbn in Hl; [lia|]. rewrite app_length in Hl. cbn in Hl. cbn [go].
    change (Ascii.eqb "%" "%") with true. change (Ascii.eqb "(" "%") with false. change (Ascii.eqb "(" "(") with true. cbv iota.
    rewrite (proj2 (until_paren_spec _ name s) (conj eq_refl H2)). destruct name as [|c n]; [congruence|].
    rewrite <- (lower_case_spec _ _ H3). rewrite (proj2 (aget_In _ _ _ Hn) H4). match goal with |- bind ?r _ = _ => replace r with (Ok w) by (symmetry; exact (proj2 (value_ok v w) H5)) end. cbn [bind]. rewrite IH6 by (auto; lia). reflexivity.
Qed.
End Go.

Lemma interpolate_expands vals : NoDup (map fst vals) -> forall d s t, d <> 0 \/ In "%"%char s -> (interpolate d vals s = Ok t <-> expands vals d s t).
Proof.
  intros Hn. induction d as [|d IH]; intros s t Hd.
  - cbn. split; [discriminate|]. intros H. apply expands_0 in H. tauto.
  - rewrite interpolate_S. split.
    + apply go_sound; auto.
    + intros H. apply (go_complete vals d Hn ltac:(auto) s t (S d)); auto.
Qed.

(** The only error is that of the interpolation. *)
Lemma go_err vals rec : (forall s, match rec s with Ok _ => True | Err e => e = InterpolationError end) ->
  forall fuel s, List.length s <= fuel -> match go rec vals fuel s with Ok _ => True | Err e => e = InterpolationError end.
Proof.
  intros Hr. induction fuel as [|fuel IH]; intros [|a r] Hl; cbn in Hl; cbn [go]; try lia; auto.
  destruct (Ascii.eqb a "%").
  - destruct r as [|b r']; [reflexivity|]. destruct (Ascii.eqb b "%").
    + cbn in Hl. specialize (IH r' ltac:(lia)). destruct (go rec vals fuel r'); cbn; auto.
    + destruct (Ascii.eqb b "("); [|reflexivity]. destruct (until_paren r') as [[[|c n] rest]|] eqn:Eu; try reflexivity.
      destruct (aget vals _) as [v|]; [|reflexivity]. apply until_paren_spec in Eu as [-> _].
      assert (K : match (if existsb (Ascii.eqb "%"%char) v then rec v else Ok v) with Ok _ => True | Err e => e = InterpolationError end) by (destruct (existsb _ v); [apply Hr|exact I]).
      destruct (if existsb _ v then rec v else Ok v); cbn [bind]; [|exact K]. specialize (IH rest). cbn in Hl. rewrite app_length in Hl. cbn in Hl. specialize (IH ltac:(lia)).
      destruct (go rec vals fuel rest); cbn; auto.
  - specialize (IH r ltac:(lia)). destruct (go rec vals fuel r); cbn; auto.
Qed.
Lemma interpolate_err vals : forall d s, match interpolate d vals s with Ok _ => True | Err e => e = InterpolationError end.
Proof.
  induction d as [|d IH]; intros s; [reflexivity|]. rewrite interpolate_S. now apply go_err.
Qed.

Lemma mapM_Forall2 {A B} (f : A -> res B) (P : A -> B -> Prop) l : (forall a b, In a l -> (f a = Ok b <-> P a b)) -> forall r, mapM f l = Ok r <-> Forall2 P l r.
Proof.
  induction l as [|a l IH]; intros H r; cbn [mapM].
  - split; [intros [= <-]; constructor|]. intros K. now inversion K.
  - assert (IH' := IH (fun a b Ha => H a b (or_intror Ha))). split.
    + intros E. apply bind_Ok in E as (b & Hb & E). apply bind_Ok in E as (r' & Hr & [= <-]). constructor; [now apply H; [left|]|]. now apply IH'.
    + intros K. inversion K as [|? b ? r' Hb Hr]; subst. apply H in Hb; [|now left]. rewrite Hb. cbn [bind]. apply IH' in Hr. now rewrite Hr.
Qed.
Lemma mapM_errs {A B} (f : A -> res B) e l : (forall a, In a l -> match f a with Ok _ => True | Err e' => e' = e end) -> match mapM f l with Ok _ => True | Err e' => e' = e end.
Proof.
  induction l as [|a l IH]; intros H; cbn [mapM]; [exact I|]. pose proof (H a (or_introl eq_refl)) as Ha. destruct (f a); cbn [bind]; [|exact Ha].
  specialize (IH (fun x Hx => H x (or_intror Hx))). destruct (mapM f l); cbn; auto.
Qed.
