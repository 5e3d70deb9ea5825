(** Lemmas about shapes in the ini parser model. *)
From Coq Require Import List ZArith Bool Lia.
From Verif Require Import Base ParseModel ParseSpec.
Import ListNotations.

Section Shapes.
Context {A : Type}.
Implicit Types v : val A.

(** Lengths of all lists at level [i], from left to right. *)
Fixpoint lens {B} (i : nat) (v : val B) : list nat :=
  match v with
  | Leaf _ => []
  | Node l => match i with
              | O => [List.length l]
              | S i => flat_map (lens i) l
              end
  end.

End Shapes.

Lemma last_dim_eq {A} (l : list (val A)) (x : val A) :
  numdim (Node (l ++ [x])) = match x with
                             | Leaf _ => Ok 1
                             | Node _ => let* n := numdim x in Ok (S n)
                             end.
Proof.
  induction l as [|y l IH]; [reflexivity|].
  simpl app. destruct (l ++ [x]) as [|z r] eqn:E; [destruct l; discriminate|].
  rewrite <- IH. reflexivity.
Qed.

Lemma snoc_cases {A} (l : list A) : l <> [] -> exists l' x, l = l' ++ [x].
Proof.
  intros H. destruct (exists_last H) as (l' & x & E). eauto.
Qed.

Lemma numdim_depth {A} d (v : val A) : depth_is d v -> numdim v = Ok d.
Proof.
  revert v. induction d as [|d IH]; intros [a|l]; simpl depth_is; try easy.
  intros [Hn H]. destruct (snoc_cases l Hn) as (l' & x & ->).
  rewrite last_dim_eq. apply Forall_app in H as [_ H]. inversion H as [|? ? Hx _]; subst.
  destruct x as [a|m].
  - destruct d; [reflexivity|easy].
  - rewrite (IH _ Hx). reflexivity.
Qed.

Lemma get_shape1_node {A} (l : list (val A)) :
  get_shape1 (Node l) =
    let* d := numdim (Node l) in
    match d with
    | 1 => Ok (Leaf (Z.of_nat (List.length l)))
    | _ => let* r := mapM get_shape1 l in Ok (Node r)
    end.
Proof.
  assert (H : (fix go (l : list (val A)) : res (list (val Z)) :=
                 match l with
                 | [] => Ok []
                 | x :: r => let* y := get_shape1 x in let* ys := go r in Ok (y :: ys)
                 end) l = mapM get_shape1 l).
  { induction l as [|x l IH]; [reflexivity|]. cbn [mapM]. now rewrite IH. }
  cbn [get_shape1]. rewrite H. reflexivity.
Qed.

Lemma unroll_node (l : list (val Z)) :
  unroll (Node l) =
    let* d := numdim (Node l) in
    match d with
    | 1 => Ok l
    | _ => let* r := mapM unroll l in Ok (concat r)
    end.
Proof.
  cbn [unroll]. destruct (numdim (Node l)) as [[|[|d]]|e]; simpl; auto;
  (induction l as [|x l IH]; simpl; [reflexivity|];
   destruct (unroll x); simpl; [|reflexivity]; rewrite IH;
   destruct (mapM unroll l); reflexivity).
Qed.

Definition zl (l : list nat) : list (val Z) := map (fun n => Leaf (Z.of_nat n)) l.

Lemma zl_app l m : zl (l ++ m) = zl l ++ zl m.
Proof. apply map_app. Qed.

Lemma depth0_leaf {B} (v : val B) : depth_is 0 v -> exists b, v = Leaf b.
Proof. destruct v; [eauto|easy]. Qed.

(** [_get_shape] removes one level and replaces it by lengths. *)
Lemma get_shape1_depth {A} d (v : val A) :
  depth_is (S d) v ->
  exists s, get_shape1 v = Ok s /\ depth_is d s /\
    (forall i, (i < d)%nat -> lens i s = lens i v) /\
    unroll s = Ok (zl (lens d v)).
Proof.
  revert v. induction d as [|d IH]; intros v Hv.
  - pose proof (numdim_depth 1 v Hv) as Hd.
    destruct v as [|l]; [easy|]. rewrite get_shape1_node, Hd. simpl.
    eexists. repeat split. intros i Hi; lia.
  - pose proof (numdim_depth _ v Hv) as Hd.
    destruct v as [|l]; [easy|]. rewrite get_shape1_node, Hd. cbn [bind].
    destruct Hv as [Hn Hl].
    assert (Hm : exists ss, mapM get_shape1 l = Ok ss /\ Forall (depth_is d) ss /\
      List.length ss = List.length l /\
      (forall i, (i < d)%nat -> flat_map (lens i) ss = flat_map (lens i) l) /\
      exists us, mapM unroll ss = Ok us /\ concat us = zl (flat_map (lens d) l)).
    { clear Hd Hn. induction Hl as [|x l Hx Hl IHl].
      - exists []. simpl. repeat split; auto. exists []. auto.
      - destruct (IH x Hx) as (s & E & Hs & Hi & Hu).
        destruct IHl as (ss & E2 & Hss & Hlen & Hi2 & us & Hus & Hcat).
        exists (s :: ss). simpl. rewrite E. simpl. rewrite E2. simpl.
        repeat split; auto.
        + intros i Hlt. rewrite Hi, Hi2; auto.
        + exists (zl (lens d x) :: us). rewrite Hu. simpl. rewrite Hus. simpl.
          split; [reflexivity|]. now rewrite Hcat, zl_app. }
    destruct Hm as (ss & E & Hss & Hlen & Hi & us & Hus & Hcat).
    rewrite E. cbn [bind]. exists (Node ss).
    assert (Hdep : depth_is (S d) (Node ss)).
    { simpl. split; [|assumption]. intros ->. destruct l; [congruence|discriminate]. }
    repeat split; try apply Hdep.
    + intros [|i] Hlt; simpl; [now rewrite Hlen|]. apply Hi. lia.
    + rewrite unroll_node, (numdim_depth _ _ Hdep). cbn [bind].
      destruct d as [|d].
      * (* all entries are leaves *)
        f_equal. change (lens 1 (Node l)) with (flat_map (lens 0) l). rewrite <- Hcat. clear -Hss Hus.
        revert us Hus. induction Hss as [|x ss Hx Hss IHs]; intros us Hus.
        -- simpl in Hus. injection Hus as <-. reflexivity.
        -- destruct (depth0_leaf x Hx) as (z & ->). simpl in Hus.
           destruct (mapM unroll ss) as [us'|]; [|discriminate].
           simpl in Hus. injection Hus as <-. simpl. now rewrite <- (IHs us').
      * rewrite Hus. cbn [bind]. now rewrite Hcat.
Qed.

(** One entry of the expanded shape of [v]. *)
Definition entry_of {A} (v : val A) (i : nat) (s : val Z) : Prop :=
  depth_is i s /\ unroll s = Ok (zl (lens i v)).

Lemma Forall2_nth {A B} (P : A -> B -> Prop) l m :
  List.length l = List.length m ->
  (forall i a b, nth_error l i = Some a -> nth_error m i = Some b -> P a b) -> Forall2 P l m.
Proof.
  revert m. induction l as [|x l IH]; intros [|y m] Hl H; try discriminate; constructor.
  - apply (H 0%nat); reflexivity.
  - apply IH; [simpl in Hl; lia|]. intros i a b Ha Hb. apply (H (S i)); assumption.
Qed.

Lemma shape_levels_spec {A} (v : val A) d s :
  depth_is d s -> (forall i, (i < d)%nat -> lens i s = lens i v) ->
  exists more, shape_levels d s = Ok more /\
    Forall2 (entry_of v) (seq 0 d) (rev more).
Proof.
  revert s. induction d as [|d IH]; intros s Hs Hi.
  - exists []. split; [reflexivity|constructor].
  - destruct (get_shape1_depth d s Hs) as (s' & E & Hs' & Hi' & Hu).
    destruct (IH s' Hs') as (more & Em & HF).
    { intros i Hlt. rewrite Hi' by lia. apply Hi. lia. }
    exists (s' :: more). cbn [shape_levels]. rewrite E. cbn [bind]. rewrite Em. split; [reflexivity|].
    rewrite seq_S. simpl. apply Forall2_app; [assumption|].
    constructor; [|constructor]. split; [assumption|]. rewrite Hu, Hi by lia. reflexivity.
Qed.

Lemma get_shape_spec {A} d (v : val A) :
  depth_is (S d) v ->
  exists ss, get_shape v = Ok (Node ss) /\ Forall2 (entry_of v) (seq 0 (S d)) ss.
Proof.
  intros Hv. destruct (get_shape1_depth d v Hv) as (s & E & Hs & Hi & Hu).
  unfold get_shape. rewrite E. cbn [bind].
  destruct d as [|d].
  - destruct (depth0_leaf s Hs) as (z & ->).
    assert (z <> -1)%Z.
    { simpl in Hu. destruct v as [|l]; [easy|]. simpl in Hu. injection Hu as Hz. lia. }
    destruct (Z.eqb_spec z (-1)); [contradiction|].
    exists [Leaf z]. split; [reflexivity|]. constructor; [|constructor]. now split.
  - destruct s as [|l]; [easy|]. rewrite (numdim_depth _ _ Hs). cbn [bind].
    destruct (shape_levels_spec v (S d) (Node l) Hs Hi) as (more & Em & HF).
    rewrite Em. cbn [bind]. exists (rev (Node l :: more)). split; [reflexivity|].
    rewrite (seq_S (S d) 0). simpl rev. apply Forall2_app; [assumption|].
    constructor; [|constructor]. now split.
Qed.

Lemma get_shape_leaf {A} (a : A) : get_shape (Leaf a) = Ok (Leaf 1%Z).
Proof. reflexivity. Qed.

Lemma forall2_seq_snoc {B} (P : nat -> B -> Prop) d ss :
  Forall2 P (seq 0 (S d)) ss -> exists ss' s, ss = ss' ++ [s] /\ Forall2 P (seq 0 d) ss' /\ P d s.
Proof.
  intros H. rewrite seq_S in H. apply Forall2_app_inv_l in H as (l1 & l2 & H1 & H2 & ->).
  inversion H2 as [|? s ? ? Hs Hn]; subst. inversion Hn; subst. eauto 6.
Qed.

Lemma numdim_shape {A} (v : val A) d ss :
  Forall2 (entry_of v) (seq 0 (S d)) ss -> numdim (Node ss) = Ok (S d).
Proof.
  intros H. destruct (forall2_seq_snoc _ _ _ H) as (ss' & s & -> & _ & Hs & _).
  rewrite last_dim_eq. destruct s as [z|l].
  - destruct d; [reflexivity|easy].
  - rewrite (numdim_depth _ _ Hs). reflexivity.
Qed.

(** Common value of a list, or -1. *)
Definition common (l : list nat) : Z :=
  match l with
  | [] => 0
  | n :: r => if forallb (Nat.eqb n) r then Z.of_nat n else -1
  end.

Lemma all_true_node {A} (f : A -> bool) l : all_true f (Node l) = forallb (all_true f) l.
Proof. simpl. induction l; reflexivity || (simpl; now rewrite IHl). Qed.

Lemma all_true_zl n l :
  all_true (fun x => val_eqb (Leaf x) (Leaf (Z.of_nat n))) (Node (zl l)) = forallb (Nat.eqb n) l.
Proof.
  rewrite all_true_node. induction l as [|m l IH]; simpl; auto.
  simpl in IH. rewrite IH. f_equal.
  destruct (Nat.eqb_spec n m) as [->|Hn]; [apply Z.eqb_refl|].
  apply Z.eqb_neq. lia.
Qed.

Lemma lens_nonempty {A} i d (v : val A) : depth_is (S d) v -> (i <= d)%nat -> lens i v <> [].
Proof.
  revert i v. induction d as [|d IH]; intros i v Hv Hi.
  - destruct v; [easy|]. replace i with 0 by lia. discriminate.
  - destruct v as [|l]; [easy|]. destruct Hv as [Hn Hl].
    destruct i as [|i]; [discriminate|]. simpl.
    destruct l as [|x l]; [congruence|]. inversion Hl; subst. simpl.
    intros H. apply app_eq_nil in H as [H _]. apply (IH i x); auto. lia.
Qed.

Lemma flatten_level_spec {A} (v : val A) i s :
  entry_of v i s -> lens i v <> [] -> flatten_level s = Ok (common (lens i v)).
Proof.
  intros [_ Hu] Hn. unfold flatten_level. rewrite Hu. cbn [bind].
  destruct (lens i v) as [|n r]; [congruence|].
  change (zl (n :: r)) with (Leaf (Z.of_nat n) :: zl r) at 1. cbn [common].
  change (Leaf (Z.of_nat n) :: zl r) with (zl (n :: r)).
  rewrite all_true_zl. simpl. rewrite Nat.eqb_refl. simpl.
  destruct (forallb (Nat.eqb n) r); reflexivity.
Qed.

Lemma try_flattening_spec {A} (v : val A) d ss :
  depth_is (S d) v -> Forall2 (entry_of v) (seq 0 (S d)) ss ->
  try_flattening_shape ss = Ok (map (fun i => common (lens i v)) (seq 0 (S d))).
Proof.
  intros Hv H. unfold try_flattening_shape. rewrite (numdim_shape v d ss H). cbn [bind].
  simpl seq in H. inversion H as [|? s0 ? rest [H0 Hu0] Hrest]; subst.
  destruct (depth0_leaf s0 H0) as (z & ->).
  assert (Hlen : List.length rest = d).
  { clear -Hrest. assert (List.length (seq 1 d) = List.length rest).
    { induction Hrest; simpl; auto. } rewrite seq_length in H. auto. }
  simpl (S d - 1). rewrite Nat.sub_0_r. rewrite <- Hlen at 1. rewrite firstn_all.
  assert (Hm : mapM flatten_level rest = Ok (map (fun i => common (lens i v)) (seq 1 d))).
  { apply mapM_Ok.
    assert (Hb : forall i, In i (seq 1 d) -> lens i v <> []).
    { intros i Hi. apply in_seq in Hi. apply (lens_nonempty i d); auto. lia. }
    clear -Hrest Hb. induction Hrest; simpl; constructor.
    - apply flatten_level_spec; auto. apply Hb. now left.
    - apply IHHrest. intros i Hi. apply Hb. now right. }
  rewrite Hm. cbn [bind]. rewrite Hlen, Nat.leb_refl.
  f_equal. simpl. f_equal.
  destruct v as [|l]; [easy|]. simpl in *. injection Hu0 as ->. reflexivity.
Qed.

Lemma common_spec l n : common l = Z.of_nat n -> Forall (eq n) l \/ l = [].
Proof.
  destruct l as [|m r]; [now right|]. simpl. destruct (forallb (Nat.eqb m) r) eqn:E; [|lia].
  intros H. left. assert (m = n) by lia. subst.
  constructor; auto. rewrite forallb_forall in E. apply Forall_forall.
  intros x Hx. now apply Nat.eqb_eq, E.
Qed.

Lemma common_const n l : l <> [] -> Forall (eq n) l -> common l = Z.of_nat n.
Proof.
  destruct l as [|m r]; [easy|]. intros _ H. inversion H; subst. simpl.
  replace (forallb (Nat.eqb m) r) with true; auto. symmetry.
  apply forallb_forall. intros x Hx. rewrite Forall_forall in H3.
  apply Nat.eqb_eq. now apply H3.
Qed.

Lemma common_range l : l <> [] -> common l = (-1)%Z \/ exists n, common l = Z.of_nat n /\ Forall (eq n) l.
Proof.
  destruct l as [|m r]; [easy|]. intros _. simpl. destruct (forallb (Nat.eqb m) r) eqn:E; [|now left].
  right. exists m. split; auto. constructor; auto.
  rewrite forallb_forall in E. apply Forall_forall. intros x Hx. now apply Nat.eqb_eq, E.
Qed.

(** A value has the dimensions [dims] if the lists at every level do. *)
Lemma has_shape_levels {A} dims (v : val A) :
  depth_is (List.length dims) v ->
  (forall i z, nth_error dims i = Some z -> z = (-1)%Z \/ Forall (fun n => Z.of_nat n = z) (lens i v)) ->
  has_shape dims v.
Proof.
  revert v. induction dims as [|z dims IH]; intros v Hv H.
  - destruct v; easy.
  - destruct v as [|l]; [easy|]. destruct Hv as [Hn Hl]. simpl. split.
    + destruct (H 0%nat z eq_refl) as [->|H0]; [now left|right]. simpl in H0. now inversion H0.
    + apply Forall_forall. intros x Hx. rewrite Forall_forall in Hl. apply IH; [now apply Hl|].
      intros i z' Hi. destruct (H (S i) z' Hi) as [->|H1]; [now left|right].
      simpl in H1. apply Forall_forall. intros n Hin.
      rewrite Forall_forall in H1. apply H1. apply in_flat_map. eauto.
Qed.

Lemma has_shape_lens {A} dims (v : val A) i z :
  has_shape dims v -> nth_error dims i = Some z -> z <> (-1)%Z ->
  Forall (fun n => Z.of_nat n = z) (lens i v).
Proof.
  revert v i. induction dims as [|d dims IH]; intros v i Hv Hi Hz; [destruct i; discriminate|].
  destruct v as [|l]; [easy|]. destruct Hv as [H0 Hl].
  destruct i as [|i].
  - simpl in Hi. injection Hi as ->. simpl. constructor; [|constructor]. destruct H0; [congruence|assumption].
  - simpl in Hi. simpl. apply Forall_forall. intros n Hn. apply in_flat_map in Hn as (x & Hx & Hn).
    rewrite Forall_forall in Hl. specialize (IH x i (Hl x Hx) Hi Hz).
    rewrite Forall_forall in IH. now apply IH.
Qed.

(** ** [get_positive_shape] *)

Lemma pyget_some {A} (l : list A) z k a :
  z = Z.of_nat k -> nth_error l k = Some a -> pyget l z = Ok a.
Proof. intros ->. apply pyget_nat. Qed.

Lemma pyset_nat {A} (l : list A) z k a :
  z = Z.of_nat k -> (k < List.length l)%nat -> pyset l z a = Ok (upd l k a).
Proof.
  intros -> H. unfold pyset, pyidx.
  replace (0 <=? Z.of_nat k)%Z with true by (symmetry; apply Z.leb_le; lia).
  replace (Z.of_nat k <? Z.of_nat (List.length l))%Z with true by (symmetry; apply Z.ltb_lt; lia).
  simpl. now rewrite Nat2Z.id.
Qed.

(** Replacement of free entries position by position. *)
Definition fill (d f : Z) : Z := if Z.eqb d (-1) then f else d.

Fixpoint fill_all (ds fs : list Z) : list Z :=
  match ds, fs with
  | d :: ds, f :: fs => fill d f :: fill_all ds fs
  | _, _ => []
  end.

Lemma fill_all_length ds fs : List.length ds = List.length fs -> List.length (fill_all ds fs) = List.length ds.
Proof. revert fs; induction ds; intros [|f fs]; simpl; auto; lia. Qed.

Lemma upd_app {A} (l : list A) x r a : upd (l ++ x :: r) (List.length l) a = l ++ a :: r.
Proof. induction l; simpl; auto. now rewrite IHl. Qed.

Lemma nth_error_mid {A} (l : list A) x r : nth_error (l ++ x :: r) (List.length l) = Some x.
Proof. induction l; simpl; auto. Qed.

Lemma positive_loop_spec pre ds fs done :
  List.length ds = List.length fs ->
  positive_loop (pre ++ ds ++ done) (List.length done) (rev fs) = Ok (pre ++ fill_all ds fs ++ done).
Proof.
  revert fs done. induction ds as [|d ds IH] using rev_ind; intros fs done Hl.
  - destruct fs; [reflexivity|discriminate].
  - destruct fs as [|f fs _] using rev_ind; [rewrite app_length in Hl; simpl in Hl; lia|].
    rewrite !app_length in Hl. simpl in Hl.
    rewrite rev_app_distr. simpl rev. simpl app at 3. cbn [app].
    cbn [positive_loop].
    assert (Hidx : (Z.of_nat (List.length (pre ++ (ds ++ [d]) ++ done)) - 1 - Z.of_nat (List.length done) =
                   Z.of_nat (List.length (pre ++ ds)))%Z).
    { rewrite !app_length. simpl. lia. }
    assert (Heq : pre ++ (ds ++ [d]) ++ done = (pre ++ ds) ++ d :: done).
    { rewrite <- !app_assoc. reflexivity. }
    rewrite Hidx.
    rewrite (pyget_some _ _ (List.length (pre ++ ds)) d eq_refl) by (rewrite Heq; apply nth_error_mid).
    cbn [bind].
    assert (Hset : (if Z.eqb d (-1)
      then pyset (pre ++ (ds ++ [d]) ++ done) (Z.of_nat (List.length (pre ++ ds))) f
      else Ok (pre ++ (ds ++ [d]) ++ done)) = Ok (pre ++ ds ++ (fill d f :: done))).
    { unfold fill. destruct (Z.eqb d (-1)).
      - rewrite (pyset_nat _ _ (List.length (pre ++ ds)) _ eq_refl) by (rewrite Heq, !app_length; simpl; lia).
        rewrite Heq, upd_app. now rewrite <- app_assoc.
      - now rewrite Heq, <- app_assoc. }
    rewrite Hset. cbn [bind].
    change (S (List.length done)) with (List.length (fill d f :: done)).
    rewrite IH by lia. f_equal. f_equal.
    assert (Hfa : fill_all (ds ++ [d]) (fs ++ [f]) = fill_all ds fs ++ [fill d f]).
    { assert (Hl' : List.length ds = List.length fs) by lia. clear -Hl'.
      revert fs Hl'; induction ds; intros [|g fs]; simpl; intros; try lia; auto.
      rewrite IHds; auto. }
    rewrite Hfa, <- app_assoc. reflexivity.
Qed.

Lemma get_positive_spec pre ds fs :
  List.length ds = List.length fs ->
  get_positive_shape (pre ++ ds) fs = Ok (pre ++ fill_all ds fs).
Proof.
  intros H. unfold get_positive_shape.
  pose proof (positive_loop_spec pre ds fs [] H) as E. rewrite !app_nil_r in E. exact E.
Qed.

Lemma lastn_app {A} (l m : list A) k : k = List.length m -> lastn k (l ++ m) = m.
Proof.
  intros ->. unfold lastn. rewrite app_length. replace (_ + _ - _)%nat with (List.length l) by lia.
  rewrite skipn_app, skipn_all, Nat.sub_diag. reflexivity.
Qed.

Lemma list_Z_eqb_eq l m : list_Z_eqb l m = true <-> l = m.
Proof.
  revert m; induction l as [|x l IH]; intros [|y m]; simpl; split; try easy.
  - intros H. apply andb_true_iff in H as [H1 H2]. apply Z.eqb_eq in H1. apply IH in H2. congruence.
  - intros [= -> ->]. rewrite Z.eqb_refl. simpl. now apply IH.
Qed.

Lemma positive_loop_length shape i fr s :
  positive_loop shape i fr = Ok s -> List.length s = List.length shape.
Proof.
  revert shape i. induction fr as [|f fr IH]; intros shape i; cbn [positive_loop].
  - intros [= ->]. reflexivity.
  - intros H. apply bind_Ok in H as (x & Hx & H). apply bind_Ok in H as (s' & Hs & H).
    apply IH in H. rewrite H. destruct (Z.eqb x (-1)).
    + unfold pyset in Hs. destruct (pyidx _ _); [|discriminate]. injection Hs as <-. apply upd_length.
    + congruence.
Qed.

Definition flat_shape (dims : list Z) : list (val Z) := map Leaf dims.

Lemma is_flat_flat dims : is_flat (flat_shape dims) = Ok true.
Proof. induction dims; simpl; auto. Qed.

Lemma leaves_flat dims : leaves_of (flat_shape dims) = dims.
Proof. induction dims; simpl; auto. now rewrite IHdims. Qed.

Lemma fill_all_eq ds fs i d f :
  List.length ds = List.length fs -> fs = fill_all ds fs ->
  nth_error ds i = Some d -> nth_error fs i = Some f -> d = (-1)%Z \/ d = f.
Proof.
  revert fs i. induction ds as [|x ds IH]; intros [|y fs] i Hl He Hd Hf; try discriminate.
  - destruct i; discriminate.
  - simpl in He. injection He as H1 H2.
    destruct i as [|i]; simpl in Hd, Hf.
    + injection Hd as ->. injection Hf as ->. unfold fill in H1.
      destruct (Z.eqb_spec d (-1)); auto.
    + apply (IH fs i); auto.
Qed.

Lemma index_of_neg_none l : index_of_neg l = None -> ~ In (-1)%Z l.
Proof.
  induction l as [|z l IH]; simpl; [tauto|]. destruct (Z.eqb_spec z (-1)); [discriminate|].
  destruct (index_of_neg l); [discriminate|]. intros _ [H|H]; [congruence|]. now apply IH.
Qed.

Lemma index_of_neg_some l k : index_of_neg l = Some k ->
  forall j, (j < k)%nat -> nth_error l j <> Some (-1)%Z.
Proof.
  revert k; induction l as [|z l IH]; simpl; [discriminate|]. intros k.
  destruct (Z.eqb_spec z (-1)); [intros [= <-]; lia|].
  destruct (index_of_neg l) as [k'|]; [|discriminate]. intros [= <-] [|j] Hj; simpl; [congruence|].
  apply (IH k'); auto. lia.
Qed.

Lemma nth_error_map_seq {B} (f : nat -> B) n i : (i < n)%nat -> nth_error (map f (seq 0 n)) i = Some (f i).
Proof.
  intros H. rewrite nth_error_map.
  assert (nth_error (seq 0 n) i = Some i).
  { rewrite (nth_error_nth' _ 0%nat) by (rewrite seq_length; lia). now rewrite seq_nth by lia. }
  now rewrite H0.
Qed.

(** What the flat branch establishes for a list value. *)
Lemma resolve_flat_spec {A} dims d (v : val A) sh :
  depth_is (S d) v ->
  resolve_flat (flat_shape dims) v = Ok sh ->
  (S d <= List.length dims)%nat /\
  exists pre ds, dims = pre ++ ds /\ List.length ds = S d /\
    has_shape ds v /\
    (forall i z, nth_error ds i = Some z -> z <> (-1)%Z -> Forall (fun n => Z.of_nat n = z) (lens i v)) /\
    let fs := map (fun i => common (lens i v)) (seq 0 (S d)) in
    (~ In (-1)%Z pre) /\
    expand_shape (pre ++ fs) = Ok sh.
Proof.
  intros Hv. unfold resolve_flat. rewrite is_flat_flat. cbn [bind].
  destruct (get_shape_spec d v Hv) as (ss & Hg & HF). rewrite Hg. cbn [bind].
  rewrite (try_flattening_spec v d ss Hv HF). cbn [bind].
  set (fs := map (fun i => common (lens i v)) (seq 0 (S d))).
  assert (Hfs : List.length fs = S d) by (unfold fs; now rewrite map_length, seq_length).
  rewrite leaves_flat.
  destruct (Nat.le_gt_cases (S d) (List.length dims)) as [Hle|Hgt].
  2:{ intros H. apply bind_Ok in H as (s & Hs & H).
      apply positive_loop_length in Hs.
      destruct (list_Z_eqb fs (lastn (List.length fs) s)) eqn:E; [|discriminate].
      apply list_Z_eqb_eq in E. apply (f_equal (@List.length Z)) in E.
      unfold lastn in E. rewrite skipn_length in E. lia. }
  intros H. split; [assumption|].
  set (pre := firstn (List.length dims - S d) dims).
  set (ds := skipn (List.length dims - S d) dims).
  assert (Hdims : dims = pre ++ ds) by (symmetry; apply firstn_skipn).
  assert (Hds : List.length ds = S d) by (unfold ds; rewrite skipn_length; lia).
  rewrite Hdims in H. rewrite get_positive_spec in H by lia. cbn [bind] in H.
  rewrite lastn_app in H by (rewrite fill_all_length; lia).
  destruct (list_Z_eqb fs (fill_all ds fs)) eqn:E; [|discriminate].
  apply list_Z_eqb_eq in E. cbn [negb] in H. rewrite <- E in H.
  assert (Hlev : forall i z, nth_error ds i = Some z -> z <> (-1)%Z -> Forall (fun n => Z.of_nat n = z) (lens i v)).
  { intros i z Hi Hz.
    assert (Hilt : (i < S d)%nat) by (rewrite <- Hds; apply nth_error_Some; congruence).
    assert (Hfi : nth_error fs i = Some (common (lens i v))) by (apply (nth_error_map_seq (fun i => common (lens i v))); lia).
    destruct (fill_all_eq ds fs i z _ ltac:(lia) E Hi Hfi) as [->|Hc]; [congruence|].
    destruct (common_range (lens i v)) as [Hm|(n & Hn & HFn)].
    - apply (lens_nonempty i d); auto. lia.
    - congruence.
    - eapply Forall_impl; [|exact HFn]. intros k <-. congruence. }
  exists pre, ds. repeat split; auto.
  - apply has_shape_levels; [now rewrite Hds|]. intros i z Hi.
    destruct (Z.eq_dec z (-1)); [now left|right]. now apply (Hlev i z).
  - intros Hin.
    destruct (index_of_neg (pre ++ fs)) as [k|] eqn:Ek.
    + apply bind_Ok in H as (u & Hu & _). rewrite (numdim_depth _ _ Hv) in Hu. cbn [bind] in Hu.
      destruct (Nat.ltb_spec (S d) (List.length (pre ++ fs) - k + 1)) as [|Hge]; [discriminate|].
      rewrite app_length, Hfs in Hge.
      apply In_nth_error in Hin as (j & Hj).
      assert (Hjl : (j < List.length pre)%nat) by (apply nth_error_Some; congruence).
      apply (index_of_neg_some _ _ Ek j); [lia|]. rewrite nth_error_app1 by assumption. exact Hj.
    + apply index_of_neg_none in Ek. apply Ek. apply in_or_app. now left.
  - apply bind_Ok in H as (u & _ & H). exact H.
Qed.
