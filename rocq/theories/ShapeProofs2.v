(** Acceptance of list options with a declared shape. *)
From Coq Require Import List ZArith Bool Lia.
From Verif Require Import Base ParseModel ParseSpec ShapeProofs.
Import ListNotations.

Lemma zrepeat_pos {A} (a : A) z : zrepeat a z <> [] -> (0 < z)%Z.
Proof. unfold zrepeat. destruct z; simpl; try congruence; lia. Qed.

Lemma zrepeat_len {A} (a : A) z : (0 <= z)%Z -> Z.of_nat (List.length (zrepeat a z)) = z.
Proof. intros H. unfold zrepeat. rewrite repeat_length. lia. Qed.

Lemma Forall_zrepeat {A} (P : A -> Prop) a z : P a -> Forall P (zrepeat a z).
Proof. intros H. apply Forall_forall. intros x Hx. apply repeat_spec in Hx. now subst. Qed.

Lemma depth_zrepeat {A} d (v : val A) z : depth_is d v -> (0 < z)%Z -> depth_is (S d) (Node (zrepeat v z)).
Proof.
  intros Hv Hz. simpl. split; [|now apply Forall_zrepeat].
  intros H. apply (f_equal (@List.length _)) in H. unfold zrepeat in H. rewrite repeat_length in H. simpl in H. lia.
Qed.

Lemma get_shape_nil {A} : get_shape (Node (@nil (val A))) = Err IndexError.
Proof. reflexivity. Qed.

Lemma expand_shape_len l sh : expand_shape l = Ok sh -> List.length sh = List.length l.
Proof.
  destruct l as [|z l]; [discriminate|]. intros [= <-]. simpl.
  rewrite map_length, seq_length. lia.
Qed.

Lemma pyget_neg {A} (l : list A) k a :
  (k < List.length l)%nat -> nth_error l (List.length l - 1 - k) = Some a ->
  pyget l (-1 - Z.of_nat k) = Ok a.
Proof.
  intros Hk H. remember (-1 - Z.of_nat k)%Z as i eqn:Ei. unfold pyget, pyidx.
  replace (0 <=? i)%Z with false by (symmetry; apply Z.leb_gt; lia).
  replace (- Z.of_nat (List.length l) <=? i)%Z with true by (symmetry; apply Z.leb_le; lia).
  replace (i <? 0)%Z with true by (symmetry; apply Z.ltb_lt; lia). cbn [andb].
  replace (Z.to_nat (i + Z.of_nat (List.length l))) with (List.length l - 1 - k)%nat by lia.
  now rewrite H.
Qed.

Lemma fit_value {A} (shape : list (val Z)) (v v' : val A) :
  fit_shape shape v = Ok v' ->
  exists sh, resolve_flat shape v = Ok sh /\ expand_to_shape sh v = Ok v' /\
    exists real, get_shape v' = Ok real /\ compare_shapes (Node sh) real = Ok true.
Proof.
  unfold fit_shape. intros H. apply bind_Ok in H as (sh & H1 & H).
  apply bind_Ok in H as (v2 & H2 & H). apply bind_Ok in H as (real & H3 & H).
  apply bind_Ok in H as ([|] & H4 & H); [|discriminate]. injection H as ->.
  exists sh. repeat split; auto. eauto.
Qed.

Lemma has_shape_depth {A} dims (v : val A) : has_shape dims v -> forall d, depth_is d v -> d = List.length dims.
Proof.
  revert v. induction dims as [|z dims IH]; intros [a|l] Hs [|d] Hd; try easy.
  destruct Hd as [Hn Hl]. destruct Hs as [_ Hs]. destruct l as [|x l]; [congruence|].
  inversion Hl; subst. inversion Hs; subst. simpl. f_equal. now apply (IH x).
Qed.

(** Soundness: an accepted value has the declared dimensions. *)
Theorem fit_flat_sound {A} dims d (v v' : val A) :
  depth_is d v ->
  (d = 0 \/ List.length dims <= d + 2)%nat ->
  fit_shape (flat_shape dims) v = Ok v' ->
  has_shape dims v' /\ copies v (List.length dims - d) v' /\ depth_is (List.length dims) v'.
Proof.
  intros Hv Hd H. apply fit_value in H as (sh & Hr & He & real & Hreal & Hcmp).
  destruct d as [|d].
  - (* a single value *)
    destruct (depth0_leaf v Hv) as (a & ->).
    unfold resolve_flat in Hr. rewrite is_flat_flat in Hr. simpl in Hr. injection Hr as <-.
    unfold expand_to_shape in He. simpl numdim in He. cbn [bind] in He.
    unfold flat_shape in He at 1. rewrite map_length in He.
    destruct dims as [|z dims] using rev_ind.
    { simpl in He. injection He as <-. simpl in Hreal. injection Hreal as <-.
      simpl in Hcmp. discriminate. }
    clear IHdims. rewrite app_length, Nat.add_1_r in He.
    assert (Hg : pyget (flat_shape (dims ++ [z])) (-1) = Ok (Leaf z)).
    { apply (pyget_neg _ 0); unfold flat_shape; rewrite map_length, app_length; simpl; [lia|].
      replace (List.length dims + 1 - 1 - 0)%nat with (List.length dims) by lia.
      rewrite map_app. simpl.
      rewrite nth_error_app2 by (rewrite map_length; lia). rewrite map_length, Nat.sub_diag. reflexivity. }
    simpl in He. rewrite Hg in He. cbn [bind expand_to1] in He. injection He as <-.
    destruct (zrepeat (Leaf a) z) as [|x l] eqn:El.
    { rewrite get_shape_nil in Hreal. discriminate. }
    assert (Hz : (0 < z)%Z) by (apply (zrepeat_pos (Leaf a)); congruence).
    rewrite <- El in *.
    pose proof (depth_zrepeat 0 (Leaf a) z Hv Hz) as Hdep.
    destruct (get_shape_spec 0 _ Hdep) as (ss & Hg' & HF).
    assert (real = Node ss) by congruence. subst real.
    inversion HF as [|? s0 ? ? [Hs0 Hu0] HF']; subst. inversion HF'; subst.
    destruct (depth0_leaf s0 Hs0) as (z0 & ->).
    destruct dims as [|z1 dims].
    + simpl. repeat split; auto.
      * right. now apply zrepeat_len; lia.
      * apply Forall_zrepeat. exact I.
      * constructor. apply Forall_zrepeat. constructor.
      * apply Hdep.
      * apply Hdep.
    + exfalso. unfold compare_shapes in Hcmp.
      assert (Hn1 : numdim (Node (flat_shape ((z1 :: dims) ++ [z]))) = Ok 1).
      { unfold flat_shape. rewrite map_app. apply last_dim_eq. }
      rewrite Hn1 in Hcmp. cbn [bind numdim Nat.eqb negb] in Hcmp.
      rewrite unroll_node, Hn1 in Hcmp. cbn [bind] in Hcmp.
      simpl in Hcmp. unfold flat_shape in Hcmp. rewrite map_app, app_length in Hcmp. simpl in Hcmp.
      rewrite Nat.add_1_r in Hcmp. discriminate.
  - (* a list *)
    destruct (resolve_flat_spec dims d v sh Hv Hr) as (Hle & pre & ds & Hdims & Hds & Hs & Hlev & Hpre & Hexp).
    set (fs := map (fun i => common (lens i v)) (seq 0 (S d))) in *.
    assert (Hfs : List.length fs = S d) by (unfold fs; now rewrite map_length, seq_length).
    clearbody fs.
    pose proof (expand_shape_len _ _ Hexp) as Hshl. rewrite app_length in Hshl.
    assert (Hdl : List.length dims = (List.length pre + S d)%nat) by (rewrite Hdims, app_length; lia).
    unfold expand_to_shape in He. rewrite (numdim_depth _ _ Hv) in He. cbn [bind] in He.
    destruct pre as [|p0 pre].
    + (* all dimensions given *)
      simpl in *. rewrite Hshl, Hfs, Nat.eqb_refl in He. injection He as <-.
      rewrite Hdl. rewrite Nat.sub_diag. subst dims. repeat split; auto; try apply Hv. constructor.
    + simpl List.length in *.
      replace (S d =? List.length sh)%nat with false in He by (symmetry; apply Nat.eqb_neq; lia).
      destruct pre as [|p1 pre].
      * (* one dimension missing *)
        simpl app in *. destruct sh as [|s0 sh]; [simpl in Hshl; lia|].
        assert (s0 = Leaf p0) by (simpl in Hexp; congruence). subst s0.
        rewrite (pyget_neg _ (S d) (Leaf p0)) in He.
        2:{ lia. }
        2:{ rewrite Hshl, Hfs. simpl List.length. replace (1 + S d - 1 - S d)%nat with 0%nat by lia. reflexivity. }
        cbn [bind expand_to1] in He. injection He as <-.
        destruct (zrepeat v p0) as [|x l] eqn:El.
        { rewrite get_shape_nil in Hreal. discriminate. }
        assert (Hz : (0 < p0)%Z) by (apply (zrepeat_pos v); congruence).
        rewrite <- El in *. subst dims. simpl app. simpl List.length. rewrite Hds.
        replace (S (S d) - S d)%nat with 1%nat by lia.
        repeat split.
        -- right. now apply zrepeat_len; lia.
        -- now apply Forall_zrepeat.
        -- constructor. apply Forall_zrepeat. constructor.
        -- congruence.
        -- apply Forall_zrepeat. exact Hv.
      * (* two dimensions missing *)
        assert (pre = []) by (destruct pre; [reflexivity|simpl in *; lia]). subst pre.
        simpl app in *. destruct sh as [|s0 [|s1 sh]]; [simpl in Hshl; lia|simpl in Hshl; lia|].
        assert (s1 = Node (zrepeat (Leaf p1) p0)).
        { simpl in Hexp. injection Hexp as _ H1 _. symmetry. exact H1. }
        subst s1.
        rewrite (pyget_neg _ (S d) (Node (zrepeat (Leaf p1) p0))) in He.
        2:{ lia. }
        2:{ rewrite Hshl, Hfs. simpl List.length. replace (2 + S d - 1 - S d)%nat with 1%nat by lia. reflexivity. }
        cbn [bind expand_to1] in He. injection He as <-.
        assert (Hm : map (fun s => expand_to1 s v) (zrepeat (Leaf p1) p0) = zrepeat (Node (zrepeat v p1)) p0).
        { unfold zrepeat at 1 2. generalize (Z.to_nat p0) as n.
          induction n as [|n IHn]; simpl; [reflexivity|]. now rewrite IHn. }
        rewrite Hm in *.
        destruct (zrepeat (Node (zrepeat v p1)) p0) as [|x l] eqn:El.
        { rewrite get_shape_nil in Hreal. discriminate. }
        assert (Hz0 : (0 < p0)%Z) by (apply (zrepeat_pos (Node (zrepeat v p1))); congruence).
        rewrite <- El in *.
        assert (Hz1 : (0 < p1)%Z).
        { destruct (zrepeat v p1) as [|y m] eqn:Em.
          - exfalso. revert Hreal. unfold get_shape. rewrite get_shape1_node.
            assert (Hnd : numdim (Node (zrepeat (Node (@nil (val A))) p0)) = Err IndexError).
            { unfold zrepeat. destruct (Z.to_nat p0) as [|n] eqn:En; [lia|].
              change (repeat (Node (@nil (val A))) (S n)) with (Node (@nil (val A)) :: repeat (Node []) n).
              rewrite repeat_cons, last_dim_eq. reflexivity. }
            rewrite Hnd. discriminate.
          - apply (zrepeat_pos v); congruence. }
        subst dims. simpl app. simpl List.length. rewrite Hds.
        replace (S (S (S d)) - S d)%nat with 2%nat by lia.
        pose proof (depth_zrepeat (S d) v p1 Hv Hz1) as Hd1.
        pose proof (depth_zrepeat (S (S d)) _ p0 Hd1 Hz0) as Hd2.
        repeat split.
        -- right. now apply zrepeat_len; lia.
        -- apply Forall_zrepeat. simpl. split; [right; now apply zrepeat_len; lia|].
           now apply Forall_zrepeat.
        -- constructor. apply Forall_zrepeat. constructor. apply Forall_zrepeat. constructor.
        -- apply Hd2.
        -- apply Hd2.
Qed.

Lemma pyget_flat dims i s : pyget (flat_shape dims) i = Ok s -> exists z, s = Leaf z.
Proof.
  unfold pyget. destruct (pyidx _ _) as [n|]; [|discriminate].
  destruct (nth_error (flat_shape dims) n) eqn:E; [|discriminate]. intros [= ->].
  apply nth_error_In in E. apply in_map_iff in E as (z & <- & _). eauto.
Qed.

(** A single value is never accepted for a shape with two or more dimensions. *)
Lemma fit_scalar_multi {A} z0 z1 dims (a : A) v' :
  fit_shape (flat_shape (z0 :: z1 :: dims)) (Leaf a) <> Ok v'.
Proof.
  intros H.
  destruct (fit_flat_sound _ 0 (Leaf a) v' I ltac:(now left) H) as (Hs & Hc & Hd).
  apply fit_value in H as (sh & Hr & He & real & Hreal & Hcmp).
  unfold resolve_flat in Hr. rewrite is_flat_flat in Hr. simpl in Hr. injection Hr as <-.
  unfold expand_to_shape in He. simpl in He.
  apply bind_Ok in He as (s & Hg & [= <-]).
  assert (exists z, s = Leaf z) as (z & ->).
{ exact (pyget_flat (z0 :: z1 :: dims) _ _ Hg). }
  simpl in Hd. destruct Hd as [Hn HF]. destruct (zrepeat (Leaf a) z) eqn:E; [congruence|].
  inversion HF; subst. assert (In v (zrepeat (Leaf a) z)) as Hin by (rewrite E; now left).
  apply repeat_spec in Hin. now subst.
Qed.

(** Shape comparison reduces to comparing the level lengths. *)
Lemma unroll_shape {A} (v : val A) d ss :
  Forall2 (entry_of v) (seq 0 (S d)) ss ->
  unroll (Node ss) = Ok (zl (flat_map (fun i => lens i v) (seq 0 (S d)))).
Proof.
  intros H. rewrite unroll_node, (numdim_shape v d ss H). cbn [bind].
  destruct d as [|d].
  - inversion H as [|? s ? ? [Hs Hu] Hn]; subst. inversion Hn; subst.
    destruct (depth0_leaf s Hs) as (z & ->). simpl in *. rewrite app_nil_r.
    injection Hu as ->. reflexivity.
  - assert (Hm : mapM unroll ss = Ok (map (fun i => zl (lens i v)) (seq 0 (S (S d))))).
    { apply mapM_Ok. clear -H. induction H as [|? ? ? ? [_ Hu]]; simpl; constructor; auto. }
    rewrite Hm. cbn [bind]. f_equal. clear. induction (seq 0 (S (S d))); simpl; auto.
    now rewrite zl_app, IHl.
Qed.

Lemma compare_zl l m : List.length l = List.length m ->
  compare_entries (zl l) (zl m) = true <-> l = m.
Proof.
  revert m. induction l as [|x l IH]; intros [|y m] Hl; try discriminate; [easy|].
  simpl. injection Hl as Hl. specialize (IH m Hl).
  destruct (Z.eqb_spec (Z.of_nat x) (Z.of_nat y)) as [E|E]; simpl.
  - assert (x = y) by lia. subst. split; [intros H; f_equal; tauto|intros [= ->]; tauto].
  - destruct (Z.eqb_spec (Z.of_nat x) (-1)); [lia|]. destruct (Z.eqb_spec (Z.of_nat y) (-1)); [lia|].
    simpl. split; [discriminate|]. intros [= ->]. congruence.
Qed.

Lemma unroll_flat_2 n (l : list (val Z)) :
  l <> [] -> depth_is 1 (Node l) -> unroll (Node [Leaf n; Node l]) = Ok (Leaf n :: l) /\
  numdim (Node [Leaf n; Node l]) = Ok 2.
Proof.
  intros Hn Hl.
  assert (Hd : numdim (Node [Leaf n; Node l]) = Ok 2).
  { change [Leaf n; Node l] with ([Leaf n] ++ [Node l]). rewrite last_dim_eq.
    rewrite (numdim_depth 1 _ Hl). reflexivity. }
  split; [|assumption]. rewrite unroll_node, Hd. cbn [bind mapM].
  rewrite (unroll_node l), (numdim_depth 1 _ Hl). simpl. rewrite app_nil_r. reflexivity.
Qed.

Lemma lens1_rows {A} (rows : list (val A)) :
  Forall (depth_is 1) rows ->
  lens 1 (Node rows) = map (fun r => match r with Node l => List.length l | Leaf _ => 0 end) rows.
Proof. induction 1 as [|x rows Hx H IH]; [reflexivity|]. destruct x; [easy|]. simpl in *. now f_equal. Qed.

Lemma lens1_length {A} (rows : list (val A)) :
  Forall (depth_is 1) rows -> List.length (lens 1 (Node rows)) = List.length rows.
Proof. intros H. rewrite (lens1_rows _ H). apply map_length. Qed.

Lemma compare_common c l :
  (c = (-1)%Z \/ Forall (fun n => Z.of_nat n = c) l) ->
  compare_entries (zrepeat (Leaf c) (Z.of_nat (List.length l))) (zl l) = true.
Proof.
  intros H. unfold zrepeat. rewrite Nat2Z.id. induction l as [|n l IH]; [reflexivity|].
  simpl. destruct H as [->|H].
  - simpl. rewrite IH by now left. rewrite andb_false_r. reflexivity.
  - inversion H; subst. rewrite Z.eqb_refl. simpl. apply IH. now right.
Qed.

(** Completeness in two dimensions: a table with the declared form is kept. *)
Lemma fit_table {A} a b (rows : list (val A)) :
  depth_is 2 (Node rows) -> has_shape [a; b] (Node rows) ->
  fit_shape (flat_shape [a; b]) (Node rows) = Ok (Node rows).
Proof.
  intros Hv Hs. set (v := Node rows) in *.
  assert (Hn0 : lens 0 v = [List.length rows]) by reflexivity.
  unfold fit_shape, resolve_flat. rewrite is_flat_flat. cbn [bind].
  destruct (get_shape_spec 1 v Hv) as (ss & Hg & HF). rewrite Hg. cbn [bind].
  rewrite (try_flattening_spec v 1 ss Hv HF). cbn [bind]. rewrite leaves_flat.
  set (fs := map (fun i => common (lens i v)) (seq 0 2)).
  change [a; b] with ([] ++ [a; b]). rewrite (get_positive_spec [] [a; b] fs eq_refl). cbn [bind app].
  assert (Hf : fill_all [a; b] fs = fs).
  { unfold fs. cbn [seq map fill_all]. f_equal; [|f_equal].
    - unfold fill. destruct (Z.eqb_spec a (-1)); [reflexivity|].
      pose proof (has_shape_lens [a; b] v 0 a Hs eq_refl n) as H. rewrite Hn0 in *.
      inversion H; subst. reflexivity.
    - unfold fill. destruct (Z.eqb_spec b (-1)); [reflexivity|].
      pose proof (has_shape_lens [a; b] v 1 b Hs eq_refl n) as H.
      pose proof (lens_nonempty 1 1 v Hv ltac:(lia)) as Hne.
      destruct (lens 1 v) as [|k r] eqn:E; [congruence|]. inversion H; subst.
      symmetry. apply (common_const k); [discriminate|]. constructor; auto.
      eapply Forall_impl; [|eassumption]. intros x Hx. simpl in Hx. lia. }
  rewrite Hf. change (lastn (List.length fs) fs) with fs.
  assert (Heq : list_Z_eqb fs fs = true) by now apply list_Z_eqb_eq. rewrite Heq. cbn [negb].
  assert (Hneg : (match index_of_neg fs with
                  | None => Ok tt
                  | Some k => let* depth := numdim v in
                      if (depth <? List.length fs - k + 1)%nat then Err ValueError else Ok tt
                  end) = Ok tt).
  { unfold fs. cbn [seq map]. rewrite Hn0. cbn [common forallb index_of_neg].
    destruct (Z.eqb_spec (Z.of_nat (List.length rows)) (-1)); [lia|].
    destruct (Z.eqb_spec (common (lens 1 v)) (-1)); [|reflexivity].
    rewrite (numdim_depth 2 v Hv). reflexivity. }
  rewrite Hneg. cbn [bind]. unfold fs. cbn [seq map]. rewrite Hn0. cbn [common forallb].
  unfold expand_shape. cbn [map seq List.length Nat.sub]. unfold expand_level. simpl seq. cbn [fold_left].
  cbn [nth Nat.sub].
  set (n := Z.of_nat (List.length rows)). set (c := common (lens 1 v)).
  unfold expand_to_shape. rewrite (numdim_depth 2 v Hv). cbn [bind List.length Nat.eqb].
  rewrite Hg. cbn [bind]. unfold compare_shapes.
  assert (Hrows : Forall (depth_is 1) rows) by apply Hv.
  assert (Hz : (0 < n)%Z).
  { destruct Hv as [Hne _]. unfold n. destruct rows; [congruence|simpl; lia]. }
  destruct (unroll_flat_2 n (zrepeat (Leaf c) n)) as [Hu1 Hd1].
  { destruct (depth_zrepeat 0 (Leaf c) n I Hz) as [H _]. exact H. }
  { apply depth_zrepeat; [exact I|exact Hz]. }
  rewrite Hd1, (numdim_shape v 1 ss HF). cbn [bind Nat.eqb negb].
  rewrite Hu1, (unroll_shape v 1 ss HF). cbn [bind].
  assert (Hfm : flat_map (fun i => lens i v) (seq 0 2) = List.length rows :: lens 1 v).
  { cbn [seq flat_map]. now rewrite app_nil_r. }
  rewrite Hfm. cbn [zl map]. fold (zl (lens 1 v)). fold n.
  assert (Hl1 : List.length (lens 1 v) = List.length rows) by now apply lens1_length.
  replace (List.length (Leaf n :: zrepeat (Leaf c) n) =? List.length (Leaf n :: zl (lens 1 v)))%nat with true.
  2:{ symmetry. apply Nat.eqb_eq. cbn [List.length]. f_equal. unfold zrepeat, zl. rewrite repeat_length, map_length.
      rewrite Hl1. unfold n. lia. }
  cbn [negb]. cbn [compare_entries]. simpl val_eqb at 1. rewrite Z.eqb_refl. cbn [negb andb].
  unfold n. rewrite <- Hl1. rewrite compare_common; [reflexivity|].
  destruct (common_range (lens 1 v)) as [H|(k & Hk & HFk)].
  - apply (lens_nonempty 1 1); auto.
  - now left.
  - right. eapply Forall_impl; [|exact HFk]. intros x <-. symmetry. exact Hk.
Qed.
