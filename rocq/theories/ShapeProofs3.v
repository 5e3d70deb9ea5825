(** Completeness for one- and two-dimensional shapes, and shapes taken from
    another option. *)
From Coq Require Import List ZArith Bool Lia.
From Verif Require Import Base ParseModel ParseSpec ShapeProofs ShapeProofs2.
Import ListNotations.

Lemma compare_table {A} (rows : list (val A)) c ss :
  depth_is 2 (Node rows) -> Forall2 (entry_of (Node rows)) (seq 0 2) ss ->
  (c = (-1)%Z \/ Forall (fun n => Z.of_nat n = c) (lens 1 (Node rows))) ->
  let n := Z.of_nat (List.length rows) in
  compare_shapes (Node [Leaf n; Node (zrepeat (Leaf c) n)]) (Node ss) = Ok true.
Proof.
  intros Hv HF Hc n. unfold compare_shapes.
  assert (Hrows : Forall (depth_is 1) rows) by apply Hv.
  assert (Hz : (0 < n)%Z).
  { destruct Hv as [Hne _]. unfold n. destruct rows; [congruence|simpl; lia]. }
  destruct (unroll_flat_2 n (zrepeat (Leaf c) n)) as [Hu1 Hd1].
  { destruct (depth_zrepeat 0 (Leaf c) n I Hz) as [H _]. exact H. }
  { apply depth_zrepeat; [exact I|exact Hz]. }
  rewrite Hd1, (numdim_shape _ 1 ss HF). cbn [bind Nat.eqb negb].
  rewrite Hu1, (unroll_shape _ 1 ss HF). cbn [bind].
  assert (Hfm : flat_map (fun i => lens i (Node rows)) (seq 0 2) = List.length rows :: lens 1 (Node rows)).
  { cbn [seq flat_map]. now rewrite app_nil_r. }
  rewrite Hfm. cbn [zl map]. fold (zl (lens 1 (Node rows))). fold n.
  assert (Hl1 : List.length (lens 1 (Node rows)) = List.length rows) by now apply lens1_length.
  replace (List.length (Leaf n :: zrepeat (Leaf c) n) =? List.length (Leaf n :: zl (lens 1 (Node rows))))%nat with true.
  2:{ symmetry. apply Nat.eqb_eq. cbn [List.length]. f_equal. unfold zrepeat, zl. rewrite repeat_length, map_length.
      rewrite Hl1. unfold n. lia. }
  cbn [negb]. cbn [compare_entries]. simpl val_eqb at 1. rewrite Z.eqb_refl. cbn [negb andb].
  unfold n. rewrite <- Hl1. now rewrite compare_common.
Qed.

(** A list for the innermost dimension is copied. *)
Lemma fit_row {A} n b (l : list (val A)) :
  depth_is 1 (Node l) -> (0 < n)%Z -> (b = (-1)%Z \/ Z.of_nat (List.length l) = b) ->
  fit_shape (flat_shape [n; b]) (Node l) = Ok (Node (zrepeat (Node l) n)).
Proof.
  intros Hv Hn Hb. set (v := Node l) in *.
  unfold fit_shape, resolve_flat. rewrite is_flat_flat. cbn [bind].
  destruct (get_shape_spec 0 v Hv) as (ss & Hg & HF). rewrite Hg. cbn [bind].
  rewrite (try_flattening_spec v 0 ss Hv HF). cbn [bind]. rewrite leaves_flat.
  cbn [seq map]. change (lens 0 v) with [List.length l]. cbn [common forallb].
  set (m := Z.of_nat (List.length l)) in *.
  change [n; b] with ([n] ++ [b]). rewrite (get_positive_spec [n] [b] [m] eq_refl). cbn [bind app fill_all].
  assert (Hf : fill b m = m).
  { unfold fill. destruct (Z.eqb_spec b (-1)); [reflexivity|]. destruct Hb; congruence. }
  rewrite Hf. change (lastn (List.length [m]) [n; m]) with [m].
  replace (list_Z_eqb [m] [m]) with true by (symmetry; now apply list_Z_eqb_eq). cbn [negb].
  cbn [index_of_neg].
  destruct (Z.eqb_spec n (-1)); [lia|]. destruct (Z.eqb_spec m (-1)); [unfold m in *; lia|].
  cbn [bind]. unfold expand_shape. cbn [List.length Nat.sub seq map]. unfold expand_level. simpl seq.
  cbn [fold_left nth Nat.sub].
  unfold expand_to_shape. rewrite (numdim_depth 1 v Hv). cbn [bind List.length Nat.eqb].
  rewrite (pyget_neg _ 1 (Leaf n)) by (simpl; auto; lia). cbn [bind expand_to1].
  pose proof (depth_zrepeat 1 v n Hv Hn) as Hd2.
  destruct (get_shape_spec 1 _ Hd2) as (ss2 & Hg2 & HF2). rewrite Hg2. cbn [bind].
  pose proof (compare_table (zrepeat v n) m ss2 Hd2 HF2) as Hc. cbv zeta in Hc.
  rewrite zrepeat_len in Hc by lia. rewrite Hc; [reflexivity|].
  right. rewrite lens1_rows by apply Hd2. apply Forall_forall. intros x Hx.
  apply in_map_iff in Hx as (y & <- & Hy). apply repeat_spec in Hy. subst y. reflexivity.
Qed.

Lemma compare_vec {A} (l : list (val A)) ss n :
  depth_is 1 (Node l) -> Forall2 (entry_of (Node l)) (seq 0 1) ss ->
  Z.of_nat (List.length l) = n ->
  compare_shapes (Node [Leaf n]) (Node ss) = Ok true.
Proof.
  intros Hv HF Hn. unfold compare_shapes. rewrite (numdim_shape _ 0 ss HF). cbn [bind numdim Nat.eqb negb].
  rewrite (unroll_shape _ 0 ss HF). simpl. rewrite Hn, Z.eqb_refl. reflexivity.
Qed.

Lemma fit_vec {A} n (l : list (val A)) :
  depth_is 1 (Node l) -> (n = (-1)%Z \/ Z.of_nat (List.length l) = n) ->
  fit_shape (flat_shape [n]) (Node l) = Ok (Node l).
Proof.
  intros Hv Hb. set (v := Node l) in *.
  unfold fit_shape, resolve_flat. rewrite is_flat_flat. cbn [bind].
  destruct (get_shape_spec 0 v Hv) as (ss & Hg & HF). rewrite Hg. cbn [bind].
  rewrite (try_flattening_spec v 0 ss Hv HF). cbn [bind]. rewrite leaves_flat.
  cbn [seq map]. change (lens 0 v) with [List.length l]. cbn [common forallb].
  set (m := Z.of_nat (List.length l)) in *.
  change [n] with ([] ++ [n]). rewrite (get_positive_spec [] [n] [m] eq_refl). cbn [bind app fill_all].
  assert (Hf : fill n m = m).
  { unfold fill. destruct (Z.eqb_spec n (-1)); [reflexivity|]. destruct Hb; congruence. }
  rewrite Hf. change (lastn (List.length [m]) [m]) with [m].
  replace (list_Z_eqb [m] [m]) with true by (symmetry; now apply list_Z_eqb_eq). cbn [negb].
  cbn [index_of_neg]. destruct (Z.eqb_spec m (-1)); [unfold m in *; lia|].
  cbn [bind]. unfold expand_shape. cbn [List.length Nat.sub seq map].
  unfold expand_to_shape. rewrite (numdim_depth 1 v Hv). cbn [bind List.length Nat.eqb].
  rewrite Hg. cbn [bind]. rewrite (compare_vec l ss m Hv HF eq_refl). reflexivity.
Qed.

Lemma fit_scalar {A} n (a : A) :
  (0 < n)%Z -> fit_shape (flat_shape [n]) (Leaf a) = Ok (Node (zrepeat (Leaf a) n)).
Proof.
  intros Hn. unfold fit_shape, resolve_flat. rewrite is_flat_flat. cbn [bind].
  rewrite get_shape_leaf. cbn [bind]. unfold expand_to_shape. cbn [numdim bind].
  change (List.length (flat_shape [n])) with 1%nat. cbn [Nat.eqb].
  rewrite (pyget_neg _ 0 (Leaf n)) by (simpl; auto; lia). cbn [bind expand_to1].
  pose proof (depth_zrepeat 0 (Leaf a) n I Hn) as Hd.
  destruct (get_shape_spec 0 _ Hd) as (ss & Hg & HF). rewrite Hg. cbn [bind].
  unfold flat_shape. cbn [map].
  rewrite (compare_vec _ ss n Hd HF) by (apply zrepeat_len; lia). reflexivity.
Qed.

(** ** Shapes given by the name of another option *)

(** Total number of lists one level down. *)
Lemma lens_children {A} i d (v : val A) :
  depth_is (S d) v -> (S i <= d)%nat ->
  List.length (lens (S i) v) = list_sum (lens i v).
Proof.
  revert d v. induction i as [|i IH]; intros d v Hv Hi.
  - destruct v as [|l]; [easy|]. destruct Hv as [_ Hl]. cbn [lens].
    simpl. rewrite Nat.add_0_r. destruct d as [|d]; [lia|].
    induction Hl as [|x l Hx Hl IHl]; [reflexivity|]. simpl. rewrite app_length.
    destruct x; [easy|]. simpl. rewrite <- IHl. reflexivity.
  - destruct v as [|l]; [easy|]. destruct Hv as [_ Hl].
    change (lens (S (S i)) (Node l)) with (flat_map (lens (S i)) l).
    change (lens (S i) (Node l)) with (flat_map (lens i) l).
    destruct d as [|d]; [lia|].
    induction Hl as [|x l Hx Hl IHl]; [reflexivity|]. cbn [flat_map].
    rewrite app_length, list_sum_app. rewrite (IH d x Hx) by lia. now rewrite IHl.
Qed.

Lemma app_inv_len {A} (a b c d : list A) :
  List.length a = List.length c -> a ++ b = c ++ d -> a = c /\ b = d.
Proof.
  revert c. induction a as [|x a IH]; intros [|y c] Hl H; try discriminate; [auto|].
  injection H as -> H. destruct (IH c ltac:(simpl in Hl; lia) H) as [-> ->]. auto.
Qed.

(** Equal concatenated levels mean equal levels. *)
Lemma levels_equal {A B} d (v : val A) (w : val B) :
  depth_is (S d) v -> depth_is (S d) w ->
  flat_map (fun i => lens i v) (seq 0 (S d)) = flat_map (fun i => lens i w) (seq 0 (S d)) ->
  forall i, (i <= d)%nat -> lens i v = lens i w.
Proof.
  intros Hv Hw.
  enough (H : forall n k, (k + n = S d)%nat ->
    List.length (lens k v) = List.length (lens k w) \/ n = 0%nat ->
    flat_map (fun i => lens i v) (seq k n) = flat_map (fun i => lens i w) (seq k n) ->
    forall i, (k <= i < k + n)%nat -> lens i v = lens i w).
  { intros E i Hi. apply (H (S d) 0%nat); auto; try lia.
    left. destruct v as [|l]; [easy|]. destruct w as [|m]; [easy|]. reflexivity. }
  induction n as [|n IH]; intros k Hk Hlen E i Hi; [lia|].
  destruct Hlen as [Hlen|]; [|discriminate].
  simpl in E. apply app_inv_len in E as [E1 E2]; [|assumption].
  destruct (Nat.eq_dec i k) as [->|Hne]; [assumption|].
  apply (IH (S k)); auto; try lia.
  destruct n as [|n]; [now right|left].
  rewrite (lens_children k d v), (lens_children k d w) by (auto; lia). now rewrite E1.
Qed.

(** Forests with equal levels have the same form. *)
Definition kids {A} (v : val A) : list (val A) := match v with Leaf _ => [] | Node l => l end.

Lemma flat_map_kids {A} (f : list (val A)) i d :
  Forall (depth_is (S d)) f -> flat_map (lens (S i)) f = flat_map (lens i) (flat_map kids f).
Proof.
  induction 1 as [|x f Hx Hf IH]; [reflexivity|]. cbn [flat_map]. rewrite flat_map_app, IH.
  destruct x; [easy|]. reflexivity.
Qed.

Lemma Forall2_app_len {A B} (R : A -> B -> Prop) l1 l2 m1 m2 :
  List.length l1 = List.length m1 -> Forall2 R (l1 ++ l2) (m1 ++ m2) -> Forall2 R l1 m1 /\ Forall2 R l2 m2.
Proof.
  revert m1. induction l1 as [|x l1 IH]; intros [|y m1] Hl H; try discriminate.
  - split; [constructor|exact H].
  - simpl in H. inversion H as [|? ? ? ? Hxy Hr]; subst. destruct (IH m1 ltac:(simpl in Hl; lia) Hr). split; auto.
Qed.

Lemma forest_same {A B} d (f : list (val A)) (g : list (val B)) :
  Forall (depth_is d) f -> Forall (depth_is d) g -> List.length f = List.length g ->
  (forall i, (i < d)%nat -> flat_map (lens i) f = flat_map (lens i) g) ->
  Forall2 same_shape f g.
Proof.
  revert f g. induction d as [|d IH]; intros f g Hf Hg Hlen H.
  - clear H. revert g Hg Hlen. induction Hf as [|x f Hx Hf IHf]; intros [|y g] Hg Hlen; try discriminate; constructor.
    + inversion Hg; subst. destruct x; [|easy]. destruct y; [|easy]. constructor.
    + inversion Hg; subst. apply IHf; auto.
  - assert (HK : Forall2 same_shape (flat_map kids f) (flat_map kids g)).
    { apply IH.
      - clear -Hf. induction Hf as [|x f Hx Hf]; simpl; [constructor|]. apply Forall_app. split; [|assumption].
        destruct x; [easy|]. apply Hx.
      - clear -Hg. induction Hg as [|x f Hx Hf]; simpl; [constructor|]. apply Forall_app. split; [|assumption].
        destruct x; [easy|]. apply Hx.
      - pose proof (H 0%nat ltac:(lia)) as H0. apply (f_equal list_sum) in H0.
        assert (HS : forall C (k : list (val C)), Forall (depth_is (S d)) k ->
                  list_sum (flat_map (lens 0) k) = List.length (flat_map kids k)).
        { intros C k Hk. induction Hk as [|x k Hx Hk IHk]; [reflexivity|].
          destruct x; [easy|]. simpl. rewrite app_length. now rewrite <- IHk. }
        now rewrite <- !HS.
      - intros i Hi. rewrite <- (flat_map_kids f i d Hf), <- (flat_map_kids g i d Hg). apply H. lia. }
    pose proof (H 0%nat ltac:(lia)) as H0. clear H IH.
    revert g Hg Hlen HK H0. induction Hf as [|x f Hx Hf IHf]; intros [|y g] Hg Hlen HK H0; try discriminate; constructor.
    + inversion Hg; subst. destruct x as [|lx]; [easy|]. destruct y as [|ly]; [easy|].
      simpl in H0. injection H0 as Hl _. simpl in HK.
      apply Forall2_app_len in HK as [HK _]; [|assumption]. now constructor.
    + inversion Hg; subst. destruct x as [|lx]; [easy|]. destruct y as [|ly]; [easy|].
      simpl in H0. injection H0 as Hl H0. simpl in HK.
      apply Forall2_app_len in HK as [_ HK]; [|assumption]. apply IHf; auto.
Qed.

Lemma expand_to1_depth {A} k (s : val Z) (v : val A) d n :
  depth_is k s -> depth_is d v -> unroll s = Ok (zl n) -> Forall (fun m => (0 < m)%nat) n ->
  depth_is (k + S d) (expand_to1 s v).
Proof.
  revert s n. induction k as [|k IH]; intros s n Hs Hv Hu Hn.
  - destruct (depth0_leaf s Hs) as (z & ->). simpl in Hu. destruct n as [|m [|]]; try discriminate.
    injection Hu as ->. inversion Hn; subst. apply depth_zrepeat; [assumption|lia].
  - pose proof (numdim_depth _ _ Hs) as Hd. destruct s as [|l]; [easy|]. destruct Hs as [Hne Hl].
    rewrite unroll_node, Hd in Hu. cbn [bind] in Hu.
    simpl. split; [destruct l; [congruence|discriminate]|].
    apply Forall_map. apply Forall_forall. intros x Hx. rewrite Forall_forall in Hl.
    destruct k as [|k].
    + injection Hu as ->. apply in_map_iff in Hx as (m & <- & Hm).
      simpl. rewrite Forall_forall in Hn. apply (depth_zrepeat d v _ Hv). specialize (Hn m Hm). lia.
    + apply bind_Ok in Hu as (us & Hus & [= Hu]).
      apply mapM_Ok in Hus.
      assert (exists u, unroll x = Ok u /\ incl u (concat us)) as (u & Hxu & Hincl).
      { clear -Hus Hx. induction Hus as [|y u l us Hy Hus IHus]; [destruct Hx|].
        destruct Hx as [->|Hx].
        - exists u. split; auto. simpl. apply incl_appl, incl_refl.
        - destruct (IHus Hx) as (u' & H1 & H2). exists u'. split; auto. simpl. now apply incl_appr. }
      assert (exists n', u = zl n' /\ Forall (fun m => (0 < m)%nat) n') as (n' & -> & Hn').
      { rewrite Hu in Hincl. clear -Hincl Hn. induction u as [|y u IHu].
        - exists []. split; [reflexivity|constructor].
        - destruct IHu as (n' & -> & Hn'). { intros z Hz. apply Hincl. now right. }
          assert (Hy : In y (zl n)) by (apply Hincl; now left).
          apply in_map_iff in Hy as (m & <- & Hm). exists (m :: n'). split; [reflexivity|].
          constructor; auto. rewrite Forall_forall in Hn. now apply Hn. }
      apply (IH x n'); auto.
Qed.

Lemma lens_pos {A} d (v : val A) i : depth_is (S d) v -> (i <= d)%nat -> Forall (fun m => (0 < m)%nat) (lens i v).
Proof.
  revert i v. induction d as [|d IH]; intros i v Hv Hi.
  - destruct v as [|l]; [easy|]. destruct Hv as [Hn _]. replace i with 0%nat by lia. simpl.
    constructor; [|constructor]. destruct l; [congruence|simpl; lia].
  - destruct v as [|l]; [easy|]. destruct Hv as [Hn Hl]. destruct i as [|i].
    + simpl. constructor; [|constructor]. destruct l; [congruence|simpl; lia].
    + simpl. apply Forall_forall. intros m Hm. apply in_flat_map in Hm as (x & Hx & Hm).
      rewrite Forall_forall in Hl. specialize (IH i x (Hl x Hx) ltac:(lia)).
      rewrite Forall_forall in IH. now apply IH.
Qed.

Lemma copies_expand {A} k (s : val Z) (v : val A) : depth_is k s -> copies v (S k) (expand_to1 s v).
Proof.
  revert s. induction k as [|k IH]; intros s Hs.
  - destruct (depth0_leaf s Hs) as (z & ->). simpl. constructor. apply Forall_zrepeat. constructor.
  - destruct s as [|l]; [easy|]. destruct Hs as [_ Hl]. simpl. constructor.
    apply Forall_map. eapply Forall_impl; [|exact Hl]. intros x Hx. now apply IH.
Qed.

Lemma is_flat_entries {A} (w : val A) d ss :
  Forall2 (entry_of w) (seq 0 (S (S d))) ss -> is_flat ss = Ok false.
Proof.
  intros H. simpl seq in H. inversion H as [|? s0 ? ss1 [H0 _] H1]; subst.
  inversion H1 as [|? s1 ? ss2 [Hs1 _] _]; subst.
  destruct (depth0_leaf s0 H0) as (z & ->). cbn [is_flat numdim bind].
  rewrite (numdim_depth _ _ Hs1). reflexivity.
Qed.

Lemma forall2_seq_nth {B} (P : nat -> B -> Prop) n l i :
  Forall2 P (seq 0 n) l -> (i < n)%nat -> exists b, nth_error l i = Some b /\ P i b.
Proof.
  intros H Hi.
  assert (Hl : List.length l = n).
  { rewrite <- (seq_length n 0). clear Hi. induction H; simpl; auto. }
  destruct (nth_error l i) as [b|] eqn:E.
  - exists b. split; auto. 
    assert (HG : forall k m l i b, Forall2 P (seq k m) l -> nth_error l i = Some b -> P (k + i)%nat b).
    { clear. intros k m. revert k. induction m as [|m IH]; intros k l i b H E.
      - inversion H; subst. destruct i; discriminate.
      - simpl in H. inversion H; subst. destruct i as [|i]; simpl in E.
        + injection E as <-. now rewrite Nat.add_0_r.
        + replace (k + S i)%nat with (S k + i)%nat by lia. eapply IH; eauto. }
    exact (HG 0%nat n l i b H E).
  - apply nth_error_None in E. lia.
Qed.

Lemma expand_named {A B} d (w : val B) ss k (v v' : val A) :
  depth_is (S d) w -> Forall2 (entry_of w) (seq 0 (S d)) ss -> depth_is k v ->
  expand_to_shape ss v = Ok v' ->
  (k <= S d)%nat /\ depth_is (S d) v' /\ copies v (S d - k) v'.
Proof.
  intros Hw HF Hv He. unfold expand_to_shape in He. rewrite (numdim_depth _ _ Hv) in He. cbn [bind] in He.
  assert (Hl : List.length ss = S d).
  { rewrite <- (seq_length (S d) 0). clear -HF. induction HF; simpl; auto. }
  rewrite Hl in He. destruct (Nat.eqb_spec k (S d)) as [->|Hne].
  - injection He as <-. rewrite Nat.sub_diag. repeat split; auto; try apply Hv. constructor.
  - destruct (Nat.le_gt_cases k d) as [Hle|Hgt].
    2:{ exfalso. apply bind_Ok in He as (s & Hs & _). unfold pyget, pyidx in Hs. rewrite Hl in Hs.
        replace (0 <=? -1 - Z.of_nat k)%Z with false in Hs by (symmetry; apply Z.leb_gt; lia).
        replace (- Z.of_nat (S d) <=? -1 - Z.of_nat k)%Z with false in Hs by (symmetry; apply Z.leb_gt; lia).
        discriminate. }
    destruct (forall2_seq_nth _ _ _ (d - k) HF ltac:(lia)) as (s & Hs & Hds & Hus).
    rewrite (pyget_neg ss k s) in He; [|lia|rewrite Hl; now replace (S d - 1 - k)%nat with (d - k)%nat by lia].
    cbn [bind] in He. injection He as <-. split; [lia|]. split.
    + replace (S d) with (d - k + S k)%nat by lia.
      apply (expand_to1_depth (d - k) s v k (lens (d - k) w)); auto. apply (lens_pos d); auto. lia.
    + replace (S d - k)%nat with (S (d - k)) by lia. now apply copies_expand.
Qed.

(** An option shaped like another one (of at least two dimensions) has exactly
    the form of that option's value. *)
Theorem fit_named_sound {A B} d (w : val B) ss k (v v' : val A) :
  depth_is (S (S d)) w -> get_shape w = Ok (Node ss) -> depth_is k v ->
  fit_shape ss v = Ok v' -> same_shape w v' /\ copies v (S (S d) - k) v'.
Proof.
  intros Hw Hg Hv H.
  destruct (get_shape_spec _ w Hw) as (ss' & Hg' & HF).
  assert (ss' = ss) by congruence. subst ss'.
  apply fit_value in H as (sh & Hr & He & real & Hreal & Hcmp).
  unfold resolve_flat in Hr. rewrite (is_flat_entries w d ss HF) in Hr. cbn [bind] in Hr. injection Hr as <-.
  destruct (expand_named (S d) w ss k v v' Hw HF Hv He) as (Hk & Hd' & Hcp).
  split; [|exact Hcp].
  destruct (get_shape_spec _ v' Hd') as (ss2 & Hg2 & HF2).
  assert (real = Node ss2) by congruence. subst real.
  unfold compare_shapes in Hcmp.
  rewrite (numdim_shape w (S d) ss HF), (numdim_shape v' (S d) ss2 HF2) in Hcmp.
  cbn [bind] in Hcmp. rewrite Nat.eqb_refl in Hcmp. cbn [negb] in Hcmp.
  rewrite (unroll_shape w _ ss HF), (unroll_shape v' _ ss2 HF2) in Hcmp. cbn [bind] in Hcmp.
  destruct (Nat.eqb_spec (List.length (zl (flat_map (fun i => lens i w) (seq 0 (S (S d))))))
                         (List.length (zl (flat_map (fun i => lens i v') (seq 0 (S (S d)))))))
    as [Hlen|]; [|discriminate].
  cbn [negb] in Hcmp. injection Hcmp as Hcmp. unfold zl in Hlen. rewrite !map_length in Hlen.
  apply compare_zl in Hcmp; [|exact Hlen].
  pose proof (levels_equal (S d) w v' Hw Hd' Hcmp) as Hlev.
  assert (HS : Forall2 same_shape [w] [v']).
  { apply (forest_same (S (S d))); auto. intros i Hi. simpl. rewrite Hlev by lia. reflexivity. }
  now inversion HS.
Qed.

Lemma same_shape_lens {A B} d (w : val A) (v : val B) :
  depth_is d w -> same_shape w v -> depth_is d v /\ forall i, lens i w = lens i v.
Proof.
  revert w v. induction d as [|d IH]; intros w v Hw H.
  - destruct w; [|easy]. inversion H; subst. split; [exact I|intros [|i]; reflexivity].
  - destruct w as [|l]; [easy|]. inversion H as [|? m HF]; subst. destruct Hw as [Hn Hl].
    assert (HH : Forall (depth_is d) m /\ List.length l = List.length m /\
                 forall i, flat_map (lens i) l = flat_map (lens i) m).
    { clear H Hn. induction HF as [|x y l m Hxy HF IHF].
      - repeat split; auto.
      - inversion Hl; subst. destruct (IH x y) as [H1' H2']; auto.
        destruct IHF as (H3' & H4' & H5'); auto. repeat split.
        + now constructor.
        + simpl. lia.
        + intros i. cbn [flat_map]. now rewrite H2', H5'. }
    destruct HH as (H1 & H2 & H3). split.
    + simpl. split; [|assumption]. intros ->. destruct l; [congruence|discriminate].
    + intros [|i]; simpl; [now rewrite H2|apply H3].
Qed.

Lemma expand_get_shape1 {A B} d (w : val B) (a : A) s :
  depth_is (S d) w -> get_shape1 w = Ok s -> same_shape w (expand_to1 s (Leaf a)).
Proof.
  revert w s. induction d as [|d IH]; intros w s Hw Hs.
  - pose proof (numdim_depth 1 w Hw) as Hd. destruct w as [|l]; [easy|].
    rewrite get_shape1_node, Hd in Hs. simpl in Hs. injection Hs as <-. simpl. constructor.
    destruct Hw as [_ Hl]. unfold zrepeat. rewrite Nat2Z.id.
    clear Hd. induction Hl as [|x l Hx Hl IHl]; simpl; constructor; auto.
    destruct x; [constructor|easy].
  - pose proof (numdim_depth _ w Hw) as Hd. destruct w as [|l]; [easy|].
    rewrite get_shape1_node, Hd in Hs. cbn [bind] in Hs.
    apply bind_Ok in Hs as (ss & Hss & [= <-]). simpl. constructor.
    apply mapM_Ok in Hss. destruct Hw as [_ Hl]. clear Hd.
    induction Hss as [|x s l ss Hx Hss IHs]; simpl; constructor.
    + inversion Hl; subst. now apply IH.
    + inversion Hl; subst. now apply IHs.
Qed.

(** A single value is expanded to the form of the other option. *)
Theorem fit_named_scalar {A B} d (w : val B) ss (a : A) :
  depth_is (S (S d)) w -> get_shape w = Ok (Node ss) ->
  exists v', fit_shape ss (Leaf a) = Ok v' /\ same_shape w v'.
Proof.
  intros Hw Hg.
  destruct (get_shape_spec _ w Hw) as (ss' & Hg' & HF).
  assert (ss' = ss) by congruence. subst ss'.
  destruct (get_shape1_depth _ w Hw) as (s & Hs & Hds & _).
  assert (Hlast : exists pre, ss = pre ++ [s]).
  { unfold get_shape in Hg. rewrite Hs in Hg. cbn [bind] in Hg.
    destruct s as [|l]; [easy|]. apply bind_Ok in Hg as (n & _ & Hg).
    apply bind_Ok in Hg as (more & _ & [= <-]). simpl. eauto. }
  destruct Hlast as (pre & Hpre).
  pose proof (expand_get_shape1 _ w a s Hw Hs) as Hss.
  destruct (same_shape_lens _ w _ Hw Hss) as [Hdep Hlens].
  exists (expand_to1 s (Leaf a)). split; [|exact Hss].
  unfold fit_shape, resolve_flat. rewrite (is_flat_entries w d ss HF). cbn [bind].
  assert (Hlen : List.length ss = S (S d)).
  { rewrite <- (seq_length (S (S d)) 0). clear -HF. induction HF; simpl; auto. }
  unfold expand_to_shape. cbn [numdim bind]. rewrite Hlen. cbn [Nat.eqb].
  rewrite (pyget_neg ss 0 s).
  2:{ lia. }
  2:{ rewrite Hpre, app_length. simpl List.length.
      replace (List.length pre + 1 - 1 - 0)%nat with (List.length pre) by lia. apply nth_error_mid. }
  cbn [bind].
  destruct (get_shape_spec _ _ Hdep) as (ss2 & Hg2 & HF2). rewrite Hg2. cbn [bind].
  unfold compare_shapes.
  rewrite (numdim_shape _ _ ss HF), (numdim_shape _ _ ss2 HF2). cbn [bind].
  rewrite Nat.eqb_refl. cbn [negb].
  rewrite (unroll_shape _ _ ss HF), (unroll_shape _ _ ss2 HF2). cbn [bind].
  assert (Heq : flat_map (fun i => lens i w) (seq 0 (S (S d))) =
                flat_map (fun i => lens i (expand_to1 s (Leaf a))) (seq 0 (S (S d)))).
  { apply flat_map_ext. intros i. apply Hlens. }
  rewrite <- Heq, Nat.eqb_refl. cbn [negb].
  replace (compare_entries _ _) with true; [reflexivity|].
  symmetry. now apply compare_zl.
Qed.
