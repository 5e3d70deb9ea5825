(** Proofs about the generated model as assign_points sees it: the conditions
    under which the resumed search finds every cell hold for it. *)
From Coq Require Import List ZArith Reals Sorted Lia Lra Bool.
From Verif Require Import Base Num OrderSpec ParseModel ConfigModel SurfaceModel SurfaceSpec SurfaceProofs StrataModel StrataSpec StrataProofs StrataProofs2 StrataProofs3
  StrataProps AssignModel AssignSpec AssignProofs AssignProofs2 BuildModel BuildSpec BuildProofs.
Import ListNotations.
Local Open Scope R_scope.

Section Order.
Context {N : Num R} {O : TrueOrder N}.

Section Build.
Context {D : Type}.
Notation aobj := (aobj R D).
Notation aelem := (aelem R D).
Notation astrat := (astrat R D).
Notation point := (point R).
Notation write := (write R).
Variable d0 : D.
Variable ny : nat.
Variable type_id : nat -> nat -> Z.
Variable look : nat -> nat -> point -> write.
Variable probe : nat -> nat -> D -> point -> D * option write.
Notation hit := (fun (o : aobj) p => snd (o_check o d0 p)).
Notation to_objs := (to_objs ny look probe).
Notation to_aelem := (to_aelem ny type_id look probe).
Notation to_aelems := (to_aelems ny type_id look probe).
Notation to_model := (to_model ny type_id look probe).

Lemma to_model_in st : forall l si num s, In s (to_model st si num l) ->
  exists s0 si' num', In s0 l /\ s = mkAstrat (s_zmin s0) (to_aelems st si' num' (s_aes s0)).
Proof.
  induction l as [|x l IH]; intros si num s Hin; [destruct Hin|]. destruct Hin as [<-|Hin].
  - exists x, si, num. split; [now left|reflexivity].
  - apply IH in Hin as (s0 & a & b & H1 & H2). exists s0, a, b. split; [now right|assumption].
Qed.
Lemma to_aelems_in st si : forall l num e, In e (to_aelems st si num l) ->
  exists e0 num', In e0 l /\ e = to_aelem st si num' e0.
Proof.
  induction l as [|x l IH]; intros num e Hin; [destruct Hin|]. destruct Hin as [<-|Hin].
  - exists x, num. split; [now left|reflexivity].
  - apply IH in Hin as (s0 & b & H1 & H2). exists s0, b. split; [now right|assumption].
Qed.
Lemma to_aelems_of st si : forall l num e0, In e0 l -> exists num', In (to_aelem st si num' e0) (to_aelems st si num l).
Proof.
  induction l as [|x l IH]; intros num e Hin; [destruct Hin|]. destruct Hin as [<-|Hin].
  - exists num. now left.
  - apply (IH (S num)) in Hin as (n & Hn). exists n. now right.
Qed.
Lemma to_model_of st : forall l si num s0, In s0 l ->
  exists si' num', In (mkAstrat (s_zmin s0) (to_aelems st si' num' (s_aes s0))) (to_model st si num l).
Proof.
  induction l as [|x l IH]; intros si num s Hin; [destruct Hin|]. destruct Hin as [<-|Hin].
  - exists si, num. now left.
  - apply (IH (S si) (num + List.length (s_aes x))%nat) in Hin as (a & n & Hn). exists a, n. now right.
Qed.
Lemma to_objs_nth num : forall l cs oi k o, nth_error (to_objs num oi l cs) k = Some o ->
  exists o0 c, nth_error l k = Some o0 /\ nth_error cs k = Some c /\
    o = mkAobj (ob_zmin o0) (ob_zmax o0)
          (match ob_surfaces o0 with Some _ => sheet_probe ny c (look num (oi + k)) | None => probe num (oi + k) end).
Proof.
  induction l as [|x l IH]; intros cs oi k o E; [destruct k; discriminate|].
  destruct cs as [|c cs]; [destruct k; discriminate|]. destruct k as [|k]; cbn in E |- *.
  - injection E as <-. exists x, c. rewrite Nat.add_0_r. auto.
  - apply IH in E as (o0 & c0 & H1 & H2 & ->). exists o0, c0. split; [assumption|]. split; [assumption|].
    now rewrite Nat.add_succ_r.
Qed.
Lemma to_objs_of num : forall l cs oi k o0 c, nth_error l k = Some o0 -> nth_error cs k = Some c ->
  nth_error (to_objs num oi l cs) k =
    Some (mkAobj (ob_zmin o0) (ob_zmax o0)
          (match ob_surfaces o0 with Some _ => sheet_probe ny c (look num (oi + k)) | None => probe num (oi + k) end)).
Proof.
  induction l as [|x l IH]; intros cs oi k o0 c E E'; [destruct k; discriminate|].
  destruct cs as [|c1 cs]; [destruct k; discriminate|]. destruct k as [|k]; cbn in E, E' |- *.
  - injection E as <-. injection E' as <-. now rewrite Nat.add_0_r.
  - rewrite (IH cs (S oi) k o0 c E E'). now rewrite Nat.add_succ_r.
Qed.

Lemma elevation_col st a i j v : col st a (i * ny + j) = Some v -> elevation ny st a i j = v.
Proof.
  unfold col, elevation. destruct (nth_error st a) as [s|]; [|discriminate]. intros E. now apply nth_error_nth.
Qed.

Lemma Forall2_nth {A B} (P : A -> B -> Prop) l m : Forall2 P l m ->
  forall k a, nth_error l k = Some a -> exists b, nth_error m k = Some b /\ P a b.
Proof.
  induction 1 as [|a b l m Hab H IH]; intros k x Hk; [destruct k; discriminate|].
  destruct k as [|k]; cbn in Hk |- *; [injection Hk as <-; eauto|eauto].
Qed.

(** ** One column of a generated model *)
Variable g : grid R.
Variable st : store R.
Variable strata : list (stratum R).
Hypothesis W : wf (columns g) st.
Hypothesis Hok : Forall (stratum_ok st) strata.
Hypothesis Hobj : Forall (fun s => Forall (objects_ok st) (s_aes s)) strata.
Variables xi yi : nat.
Hypothesis Hk : (xi * ny + yi < columns g)%nat.
Notation k := (xi * ny + yi)%nat.
Variable ps : list point.
Hypothesis Hps : forall p, In p ps -> p_xi p = xi /\ p_yi p = yi.
Notation m := (to_model st 0 0 strata).
Hypothesis Hlook : forall num oi p, w_facies (look num oi p) <> (-1)%Z.
Hypothesis Hfit : objects_fit hit m ps.

Lemma elem_of s e : In s m -> In e (t_aes s) ->
  exists s0 e0 si num, In s0 strata /\ In e0 (s_aes s0) /\ e = to_aelem st si num e0 /\ t_zmin s = s_zmin s0 /\
    ae_ok st e0 /\ objects_ok st e0 /\ below st (ae_bottom e0) (ae_top e0) /\
    s_zmin s0 <= ae_zmin e0.
Proof.
  intros Hs He. apply to_model_in in Hs as (s0 & si & num & Hs0 & ->). cbn in He.
  apply to_aelems_in in He as (e0 & num' & He0 & ->). exists s0, e0, si, num'.
  rewrite Forall_forall in Hok, Hobj. specialize (Hok s0 Hs0). specialize (Hobj s0 Hs0).
  destruct Hok as (_ & _ & _ & _ & Hall & _). rewrite Forall_forall in Hall, Hobj.
  destruct (Hall e0 He0) as (H1 & H2 & _ & _ & H3 & _). specialize (Hobj e0 He0). repeat split; try assumption; apply H1.
Qed.

Lemma surf_col a : (a < List.length st)%nat -> exists v, col st a k = Some v /\ elevation ny st a xi yi = v.
Proof.
  intros Ha. destruct (col_some (columns g) st a k W Ha Hk) as (v & Hv). exists v. split; [assumption|now apply elevation_col].
Qed.

(** Sheets: what the probe of sheet [j] says. *)
Lemma sheet_hit si num e0 j o p : ae_ok st e0 -> sheets_ok st e0 -> In p ps ->
  nth_error (e_objs (to_aelem st si num e0)) j = Some o ->
  exists o0 x y b t, nth_error (ae_objects e0) j = Some o0 /\ ob_surfaces o0 = Some (x, y) /\
    col st x k = Some b /\ col st y k = Some t /\ (x < List.length st)%nat /\ (y < List.length st)%nat /\
    ob_zmin o0 <= b /\ t <= ob_zmax o0 /\ o_zmin o = ob_zmin o0 /\ o_zmax o = ob_zmax o0 /\
    (forall d, fst (o_check o d p) = d) /\
    (forall d, snd (o_check o d p) = if Rle_dec b (p_z p) then if Rle_dec (p_z p) t then Some (look num j p) else None else None).
Proof.
  intros (_ & _ & _ & Hbd & _ & Hcp) (_ & _ & _ & Hs & _) Hp Hn. cbn in Hn.
  apply to_objs_nth in Hn as (o0 & c & Hl & Hc & ->).
  destruct (Hs o0 (nth_error_In _ _ Hl)) as (x & y & Ho & Hx & Hy).
  destruct (Forall2_nth _ _ _ Hcp j o0 Hl) as (c' & Hc' & Hcc). rewrite Hc in Hc'. injection Hc' as <-. rewrite Ho in Hcc.
  destruct Hcc as [Hc1 Hc2].
  rewrite Forall_forall in Hbd. specialize (Hbd o0 (nth_error_In _ _ Hl)). unfold object_bounds in Hbd. rewrite Ho in Hbd.
  destruct Hbd as (_ & Hb1 & Hb2).
  destruct (surf_col x Hx) as (b & Hb & _). destruct (surf_col y Hy) as (t & Ht & _).
  exists o0, x, y, b, t. rewrite Ho. cbn. repeat (split; [solve [eauto]|]).
  destruct (Hps p Hp) as [E1 E2]. rewrite Hc1 in Hb. rewrite Hc2 in Ht.
  unfold sheet_probe. rewrite E1, E2. rewrite (nth_error_nth _ _ n0 Hb), (nth_error_nth _ _ n0 Ht).
  rewrite !nleb_ord. unfold Rleb. split; intros d; destruct (Rle_dec b (p_z p)), (Rle_dec (p_z p) t); cbn; auto.
Qed.

Lemma is_sheet_ok e0 : sheets_ok st e0 -> is_sheet e0 = true.
Proof.
  intros (_ & _ & Hne & Hs & _). unfold is_sheet. destruct (ae_objects e0) as [|o l]; [congruence|].
  destruct (Hs o (or_introl eq_refl)) as (x & y & -> & _). reflexivity.
Qed.
Lemma is_sheet_no (e0 : ae R) : Forall (fun o => ob_surfaces o = None) (ae_objects e0) -> is_sheet e0 = false.
Proof. unfold is_sheet. destruct 1 as [|o l H]; [reflexivity|]. now rewrite H. Qed.

Lemma built_pure : pure hit m.
Proof.
  intros s e o Hs He Ho d p. destruct (elem_of s e Hs He) as (s0 & e0 & si & num & Hs0 & He0 & Ee & _ & Ha & [Hsh|Hno] & _).
  - subst e. cbn in Ho. apply In_nth_error in Ho as [j Hj]. apply to_objs_nth in Hj as (o0 & c & Hl & _ & ->).
    destruct Hsh as (_ & _ & _ & H3 & _). destruct (H3 o0 (nth_error_In _ _ Hl)) as (x & y & E & _). rewrite E.
    cbn [o_check]. unfold sheet_probe. now destruct (_ || _).
  - destruct (Hfit s e Hs He) as (_ & _ & Hp & _); [subst e; now apply is_sheet_no|]. exact (Hp o d p Ho).
Qed.

Lemma built_no_lost : no_lost_facies hit m ps.
Proof.
  intros s e o Hs He Ho p w Hp Hw. destruct (elem_of s e Hs He) as (s0 & e0 & si & num & Hs0 & He0 & Ee & _ & Ha & [Hsh|Hno] & _).
  - subst e. apply In_nth_error in Ho as [j Hj]. destruct (sheet_hit si num e0 j o p Ha Hsh Hp Hj) as (o0 & x & y & b & t & H).
    destruct H as (_ & _ & _ & _ & _ & _ & _ & _ & _ & _ & _ & H). rewrite H in Hw.
    destruct (Rle_dec b (p_z p)); [|discriminate]. destruct (Rle_dec (p_z p) t); [|discriminate]. injection Hw as <-. apply Hlook.
  - destruct (Hfit s e Hs He) as (_ & H & _); [subst e; now apply is_sheet_no|]. now apply (H o p w).
Qed.

Lemma built_obj_bounds s e o p w : In s m -> In e (t_aes s) -> In o (e_objs e) -> In p ps -> snd (o_check o d0 p) = Some w ->
  o_zmin o <= p_z p <= o_zmax o.
Proof.
  intros Hs He Ho Hp Hw. destruct (elem_of s e Hs He) as (s0 & e0 & si & num & Hs0 & He0 & Ee & _ & Ha & [Hsh|Hno] & _).
  - subst e. apply In_nth_error in Ho as [j Hj]. destruct (sheet_hit si num e0 j o p Ha Hsh Hp Hj) as (o0 & x & y & b & t & H).
    destruct H as (_ & _ & _ & _ & _ & _ & H1 & H2 & -> & -> & _ & H). rewrite H in Hw.
    destruct (Rle_dec b (p_z p)); [|discriminate]. destruct (Rle_dec (p_z p) t); [|discriminate]. lra.
  - destruct (Hfit s e Hs He) as (_ & H & _); [subst e; now apply is_sheet_no|]. now apply (H o p w).
Qed.

Lemma hits_hit p o w : hits hit p o = Some w -> snd (o_check o d0 p) = Some w.
Proof. unfold hits. destruct (snd (o_check o d0 p)) as [w'|]; [|discriminate]. now destruct (Z.eqb _ _). Qed.

Lemma search_ae_inv p e j i : search_ae hit p e = Some (j, i) ->
  (exists jj o w, j = Some jj /\ first (hits hit p) (e_objs e) 0 = Some (jj, w) /\ nth_error (e_objs e) jj = Some o /\ snd (o_check o d0 p) = Some w) \/
  (j = None /\ first (hits hit p) (e_objs e) 0 = None /\ e_sheet e = false /\ e_bottom e (p_xi p) (p_yi p) < p_z p < e_top e (p_xi p) (p_yi p)).
Proof.
  unfold search_ae. destruct (first (hits hit p) (e_objs e) 0) as [[jj w]|] eqn:E.
  - intros [= <- _]. left. assert (E0 := E). apply first_some in E as (_ & (o & Ho & Hw) & _). rewrite Nat.sub_0_r in Ho.
    exists jj, o, w. repeat split; auto. now apply hits_hit.
  - unfold within. destruct (e_sheet e); [discriminate|]. destruct (Rlt_dec _ _); [|discriminate]. destruct (Rlt_dec _ _); [|discriminate].
    destruct (Z.eqb _ _); [discriminate|]. intros [= <- _]. right. auto.
Qed.

Lemma built_ae_zmin s e p r : In s m -> In e (t_aes s) -> In p ps -> search_ae hit p e = Some r ->
  e_zmin e <= p_z p /\ t_zmin s <= p_z p.
Proof.
  intros Hs He Hp E. destruct (elem_of s e Hs He) as (s0 & e0 & si & num & Hs0 & He0 & Ee & Ez & Ha & Ho & Hbt & Hz).
  rewrite Ez. assert (e_zmin e <= p_z p); [|subst e; cbn in *; split; lra].
  destruct r as [j i]. apply search_ae_inv in E as [(jj & o & w & _ & _ & Hn & Hw)|(_ & _ & _ & Hb)].
  - pose proof (built_obj_bounds s e o p w Hs He (nth_error_In _ _ Hn) Hp Hw) as Hbd. subst e. cbn in Hn |- *.
    apply to_objs_nth in Hn as (o0 & c & Hl & _ & ->). cbn in Hbd. destruct Ha as (_ & _ & _ & _ & Hin & _).
    rewrite Forall_forall in Hin. destruct (Hin o0 (nth_error_In _ _ Hl)). lra.
  - subst e. cbn in Hb |- *. destruct Ha as ((Hb1 & Hb2) & Hlo & _). destruct (surf_col _ Hb1) as (v & Hv & Ev).
    destruct (Hps p Hp) as [-> ->] in Hb. rewrite Ev in Hb. specialize (Hlo _ _ Hv). lra.
Qed.

Lemma built_bounds : bounds_cover hit m ps.
Proof.
  split; [|split].
  - intros s e o Hs He Ho p w. now apply (built_obj_bounds s e o p w).
  - intros s e p r Hs He Hp E. now apply (built_ae_zmin s e p r).
  - intros s p [a r] Hs Hp E. unfold search_stratum in E. apply first_some in E as (_ & (e & He & Hr) & _).
    apply (built_ae_zmin s e p r Hs (nth_error_In _ _ He) Hp Hr).
Qed.

Lemma SS_of_nth {A} (Rel : A -> A -> Prop) l :
  (forall i j a b, (i < j)%nat -> nth_error l i = Some a -> nth_error l j = Some b -> Rel a b) -> StronglySorted Rel l.
Proof.
  induction l as [|x l IH]; intros H; constructor.
  - apply IH. intros i j a b Hij Ha Hb. apply (H (S i) (S j)); [lia|assumption|assumption].
  - apply Forall_forall. intros b Hb. apply In_nth_error in Hb as [j Hj]. apply (H 0%nat (S j)); [lia|reflexivity|assumption].
Qed.

Lemma tops_col e0 i j o o' x y x' y' t t' : sheets_ok st e0 -> (i < j)%nat ->
  nth_error (ae_objects e0) i = Some o -> nth_error (ae_objects e0) j = Some o' ->
  ob_surfaces o = Some (x, y) -> ob_surfaces o' = Some (x', y') -> col st y k = Some t -> col st y' k = Some t' -> t' <= t.
Proof.
  intros (_ & _ & _ & _ & Hsort & _) Hij Hi Hj Ho Ho' Ht Ht'.
  exact (SS_nth _ _ Hsort i j o o' Hij Hi Hj x y x' y' Ho Ho' k t' t Ht' Ht).
Qed.

Lemma built_tops : tops_in_order hit m ps.
Proof.
  intros s e Hs He. destruct (elem_of s e Hs He) as (s0 & e0 & si & num & Hs0 & He0 & Ee & _ & Ha & [Hsh|Hno] & _).
  - apply SS_of_nth. intros i j o o' Hij Hi Hj p w Hp Hw. subst e.
    destruct (sheet_hit si num e0 i o p Ha Hsh Hp Hi) as (o0 & x & y & b & t & F1 & F2 & F3 & F4 & _ & _ & _ & F8 & _ & -> & _).
    destruct (sheet_hit si num e0 j o' p Ha Hsh Hp Hj) as (o1 & x1 & y1 & b1 & t1 & G1 & G2 & G3 & G4 & _ & _ & _ & G8 & _ & _ & _ & G).
    rewrite G in Hw. destruct (Rle_dec b1 (p_z p)); [|discriminate]. destruct (Rle_dec (p_z p) t1); [|discriminate].
    pose proof (tops_col e0 i j o0 o1 x y x1 y1 t t1 Hsh Hij F1 G1 F2 G2 F4 G4). lra.
  - destruct (Hfit s e Hs He) as (_ & Hh & _ & Hsort & _); [subst e; now apply is_sheet_no|].
    assert (Hin : forall o, In o (e_objs e) -> forall p w, In p ps -> snd (o_check o d0 p) = Some w -> p_z p <= o_zmax o).
    { intros o Ho p w Hp Hw. now destruct (Hh o p w Ho Hp Hw) as (_ & ? & _). }
    revert Hin Hsort. generalize (e_objs e). intros l Hin Hsort. induction Hsort as [|o l Hs' IH Hall]; constructor.
    + apply IH. intros o' Ho'. apply Hin. now right.
    + rewrite Forall_forall in *. intros o' Ho' p w Hp Hw. specialize (Hall o' Ho').
      pose proof (Hin o' (or_intror Ho') p w Hp Hw). lra.
Qed.

Lemma sheet_chain_next : forall l top bottom i o o' x y x' y', sheet_chain top l bottom ->
  nth_error l i = Some o -> nth_error l (S i) = Some o' -> ob_surfaces o = Some (x, y) -> ob_surfaces o' = Some (x', y') -> y' = x.
Proof.
  induction l as [|z l IH]; intros top bottom i o o' x y x' y' Hc Hi Hj Ho Ho'; [destruct i; discriminate|].
  destruct Hc as (b & Hz & Hc). destruct i as [|i]; cbn in Hi, Hj.
  - injection Hi as <-. rewrite Ho in Hz. injection Hz as <- ->. destruct l as [|o1 l]; [discriminate|]. injection Hj as <-.
    destruct Hc as (b' & Ho1 & _). rewrite Ho' in Ho1. now injection Ho1.
  - eapply IH; eauto.
Qed.
Lemma sheet_chain_prefix : forall l top bottom j o x y, sheet_chain top l bottom ->
  nth_error l j = Some o -> ob_surfaces o = Some (x, y) -> sheet_chain top (firstn (S j) l) x.
Proof.
  induction l as [|z l IH]; intros top bottom j o x y Hc Hj Ho; [destruct j; discriminate|].
  destruct Hc as (b & Hz & Hc). destruct j as [|j]; cbn in Hj.
  - injection Hj as <-. rewrite Ho in Hz. injection Hz as <- ->. exists x. split; [assumption|reflexivity].
  - exists b. split; [assumption|]. eapply IH; eauto.
Qed.

Lemma built_objects_once : objects_left_once hit m ps.
Proof.
  intros p p' s a j i j' i' Hp Hp' Hz E E'.
  assert (E0 := E). apply search_inv in E as (sm & e & Hst & He & _ & _ & w & Hw).
  apply search_inv in E' as (sm' & e' & Hst' & He' & _ & _ & w' & Hw').
  rewrite Hst in Hst'. injection Hst' as <-. rewrite He in He'. injection He' as <-.
  destruct (Nat.le_gt_cases j j') as [|Hlt]; [assumption|exfalso].
  apply first_some in Hw as (_ & (o & Hno & Hh) & Hn). apply first_some in Hw' as (_ & (o' & Hno' & Hh') & _).
  rewrite Nat.sub_0_r in *. specialize (Hn j' o' Hlt Hno'). apply nth_error_In in Hst, He.
  destruct (elem_of sm e Hst He) as (s0 & e0 & si & num & Hs0 & He0 & Ee & _ & Ha & [Hsh|Hob] & _).
  - subst e. apply hits_hit in Hh, Hh'.
    destruct (sheet_hit si num e0 j o p Ha Hsh Hp Hno) as (o0 & x & y & b & t & F1 & F2 & F3 & F4 & _ & _ & _ & _ & _ & _ & _ & F).
    destruct (sheet_hit si num e0 j' o' p' Ha Hsh Hp' Hno') as (o1 & x1 & y1 & b1 & t1 & G1 & G2 & G3 & G4 & _ & _ & _ & _ & _ & _ & _ & G).
    rewrite F in Hh. rewrite G in Hh'.
    destruct (Rle_dec b (p_z p)); [|discriminate]. destruct (Rle_dec (p_z p) t); [|discriminate].
    destruct (Rle_dec b1 (p_z p')); [|discriminate]. destruct (Rle_dec (p_z p') t1); [|discriminate].
    destruct (nth_error (ae_objects e0) (S j')) as [o2|] eqn:E2.
    2:{ apply nth_error_None in E2. assert (j < List.length (ae_objects e0))%nat by (apply nth_error_Some; congruence). lia. }
    destruct Hsh as (S0 & S1 & S2 & S3 & S4 & S5). destruct (S3 o2 (nth_error_In _ _ E2)) as (x2 & y2 & Ho2 & _ & _).
    pose proof (sheet_chain_next _ _ _ _ _ _ _ _ _ _ S1 G1 E2 G2 Ho2) as ->.
    destruct (Nat.eq_dec (S j') j) as [<-|Hne].
    + rewrite E2 in F1. injection F1 as <-. rewrite Ho2 in F2. injection F2 as <- <-. rewrite G3 in F4. injection F4 as <-. lra.
    + assert (t <= b1); [|lra].
      eapply (tops_col e0 (S j') j o2 o0 x2 x1 x y); eauto; [|lia]. unfold sheets_ok. auto 10.
  - destruct (Hfit sm e Hst He) as (_ & Hf & _ & Hsort & Hhang); [subst e; now apply is_sheet_no|].
    assert (Hz1 : p_z p <= o_zmax o).
    { apply hits_hit in Hh. now destruct (Hf o p w (nth_error_In _ _ Hno) Hp Hh) as (_ & ? & _). }
    pose proof (SS_nth _ _ Hsort j' j o' o Hlt Hno' Hno) as Hz2. cbn in Hz2.
    assert (Hz3 : p_z p' < p_z p <= o_zmax o') by lra.
    pose proof (Hhang o' p p' (nth_error_In _ _ Hno') Hp Hp' Hz3 Hn). congruence.
Qed.

Lemma sheet_covers si num e0 p : ae_ok st e0 -> sheets_ok st e0 -> In p ps ->
  forall l x b t, sheet_chain (ae_top e0) l x -> l <> [] -> (forall o, In o l -> In o (ae_objects e0)) ->
  col st x k = Some b -> col st (ae_top e0) k = Some t -> b <= p_z p <= t ->
  search_ae hit p (to_aelem st si num e0) <> None.
Proof.
  intros Ha Hsh Hp l x b t Hc Hne Hin Hb Ht Hz.
  destruct (sheet_chain_covers (columns g) st W l (ae_top e0) x k (p_z p) b t) as (o0 & x0 & y0 & lo & hi & Ho & Hs & Hlo & Hhi & Hzz);
    try assumption.
  { intros o x1 y1 Ho Hs. destruct Hsh as (_ & _ & _ & H3 & _). destruct (H3 o (Hin o Ho)) as (x2 & y2 & E & Hx & _).
    rewrite Hs in E. now injection E as <- <-. }
  apply Hin in Ho. apply In_nth_error in Ho as [j Hj].
  destruct Ha as (A1 & A2 & A3 & A4 & A5 & A6). destruct (Forall2_nth _ _ _ A6 j o0 Hj) as (c & Hcj & _).
  assert (Hnth : exists o, nth_error (e_objs (to_aelem st si num e0)) j = Some o).
  { cbn. eexists. apply to_objs_of; eassumption. }
  destruct Hnth as (o & Hoj).
  destruct (sheet_hit si num e0 j o p (conj A1 (conj A2 (conj A3 (conj A4 (conj A5 A6))))) Hsh Hp Hoj) as (o1 & x1 & y1 & b1 & t1 & G1 & G2 & G3 & G4 & _ & _ & _ & _ & _ & _ & _ & G).
  rewrite Hj in G1. injection G1 as <-. rewrite Hs in G2. injection G2 as <- <-. rewrite Hlo in G3. rewrite Hhi in G4.
  injection G3 as <-. injection G4 as <-.
  assert (Hh : hits hit p o = Some (look num j p)).
  { unfold hits. rewrite G. destruct (Rle_dec lo (p_z p)); [|lra]. destruct (Rle_dec (p_z p) hi); [|lra].
    pose proof (Hlook num j p) as Hl. apply Z.eqb_neq in Hl. now rewrite Hl. }
  unfold search_ae. destruct (first (hits hit p) _ 0) as [[jj w]|] eqn:E; [discriminate|].
  rewrite first_none in E. specialize (E o (nth_error_In _ _ Hoj)). congruence.
Qed.

Lemma built_connected s e p p' : In s m -> In e (t_aes s) -> In p ps -> In p' ps -> search_ae hit p e <> None ->
  p_z p < p_z p' <= e_bottom e (p_xi p) (p_yi p) -> search_ae hit p' e <> None.
Proof.
  intros Hs He Hp Hp' En Hz. destruct (Hps p Hp) as [Ex Ey]. destruct (search_ae hit p e) as [[jo i]|] eqn:E; [clear En|congruence].
  destruct (elem_of s e Hs He) as (s0 & e0 & si & num & Hs0 & He0 & Ee & _ & Ha & [Hsh|Hob] & Hbt & _).
  - apply search_ae_inv in E as [(j & o & w & -> & Hfi & Hn & Hw)|(_ & _ & Hf & _)]; [|subst e; cbn in Hf; rewrite is_sheet_ok in Hf; [discriminate|assumption]].
    subst e. destruct (sheet_hit si num e0 j o p Ha Hsh Hp Hn) as (o0 & x & y & b & t & F1 & F2 & F3 & F4 & _ & _ & _ & _ & _ & _ & _ & F).
    rewrite F in Hw. destruct (Rle_dec b (p_z p)); [|discriminate]. destruct (Rle_dec (p_z p) t); [|discriminate].
    destruct Ha as ((La & Lb) & Ha'). destruct (surf_col _ La) as (vb & Hvb & Eb). destruct (surf_col _ Lb) as (vt & Hvt & Et).
    cbn [e_top e_bottom to_aelem BuildModel.to_aelem] in Hz. rewrite Ex, Ey, Eb in Hz.
    pose proof (Hbt k vb vt Hvb Hvt).
    apply (sheet_covers si num e0 p' (conj (conj La Lb) Ha') Hsh Hp' (firstn (S j) (ae_objects e0)) x b vt); try assumption; [| | |lra].
    + destruct Hsh as (_ & S1 & _). eapply sheet_chain_prefix; eauto.
    + destruct (ae_objects e0); [destruct j; discriminate|]. discriminate.
    + intros o1 Ho1. rewrite <- (firstn_skipn (S j)). apply in_or_app. now left.
  - destruct (Hfit s e Hs He) as (_ & Hf & _ & _ & Hhang); [subst e; now apply is_sheet_no|].
    apply search_ae_inv in E as [(j & o & w & -> & Hfi & Hn & Hw)|(_ & _ & _ & Hb)]; [|lra].
    destruct (Hf o p w (nth_error_In _ _ Hn) Hp Hw) as (_ & _ & Hbz).
    intros Hnone. assert (Hh : hits hit p' o = None).
    { unfold search_ae in Hnone. destruct (first (hits hit p') (e_objs e) 0) as [[? ?]|] eqn:E1; [discriminate|].
      rewrite first_none in E1. apply E1. eapply nth_error_In; eauto. }
    assert (Hc : p_z p < p_z p' <= o_zmax o) by lra.
    pose proof (Hhang o p' p (nth_error_In _ _ Hn) Hp' Hp Hc Hh) as Hh'.
    apply first_some in Hfi as (_ & (o1 & Hn1 & Hw1) & _). rewrite Nat.sub_0_r in Hn1. rewrite Hn in Hn1. injection Hn1 as <-. congruence.
Qed.

Lemma ae_sorted si num l : forall top bottom,
  Forall (fun e => (ae_bottom e < List.length st)%nat /\ (ae_top e < List.length st)%nat /\ below st (ae_bottom e) (ae_top e)) l ->
  (top < List.length st)%nat -> ae_chain top l bottom ->
  StronglySorted (fun e e' => forall p, In p ps -> e_top e' (p_xi p) (p_yi p) <= e_bottom e (p_xi p) (p_yi p)) (to_aelems st si num l).
Proof.
  revert num. induction l as [|e l IH]; intros num top bottom Hf Ht Hc; cbn [BuildModel.to_aelems]; constructor.
  - inversion Hf as [|? ? (F1 & F2 & F3) Hf']; subst. destruct Hc as (_ & Hc). apply (IH (S num) (ae_bottom e) bottom); auto.
  - inversion Hf as [|? ? (F1 & F2 & F3) Hf']; subst. destruct Hc as (_ & Hc).
    apply Forall_forall. intros e' He' p Hp. apply to_aelems_in in He' as (e1 & n1 & He1 & ->).
    cbn. destruct (Hps p Hp) as [-> ->].
    assert (Hb : below st (ae_top e1) (ae_bottom e)).
    { apply (ae_chain_below (columns g) st W l (ae_bottom e) bottom); auto.
      revert Hf'. apply Forall_impl. tauto. }
    rewrite Forall_forall in Hf'. destruct (Hf' e1 He1) as (_ & L1 & _).
    destruct (surf_col _ L1) as (v & Hv & ->). destruct (surf_col _ F1) as (u & Hu & ->). exact (Hb _ _ _ Hv Hu).
Qed.

Lemma stratum_chain_below : forall l top bottom,
  Forall (fun s => (s_bottom s < List.length st)%nat /\ (s_top s < List.length st)%nat /\ below st (s_bottom s) (s_top s)) l -> (top < List.length st)%nat ->
  stratum_chain top l bottom -> forall s, In s l -> below st (s_top s) top.
Proof.
  induction l as [|x l IH]; intros top bottom Hf Ht Hc s Hin; [easy|].
  inversion Hf as [|? ? (G1 & G2 & G3) G4]; subst. destruct Hc as (<- & Hc). destruct Hin as [<-|Hin]; [apply below_refl|].
  apply (below_trans (columns g) _ _ (s_bottom x)); auto. eapply IH; eauto.
Qed.

Lemma strata_sorted : forall l si num top bottom, Forall (stratum_ok st) l -> stratum_chain top l bottom ->
  StronglySorted (fun e e' => forall p, In p ps -> e_top e' (p_xi p) (p_yi p) <= e_bottom e (p_xi p) (p_yi p))
    (flat_map t_aes (to_model st si num l)).
Proof.
  induction l as [|s l IH]; intros si num top bottom Hf Hc; cbn [BuildModel.to_model flat_map]; [constructor|].
  inversion Hf as [|? ? Hs Hf']; subst. destruct Hc as (_ & Hc). specialize (IH (S si) (num + List.length (s_aes s))%nat _ _ Hf' Hc).
  cbn [t_aes]. destruct Hs as ((L1 & L2) & Bst & _ & _ & Hall & Hch).
  assert (Hfe : Forall (fun e => (ae_bottom e < List.length st)%nat /\ (ae_top e < List.length st)%nat /\ below st (ae_bottom e) (ae_top e)) (s_aes s)).
  { revert Hall. apply Forall_impl. intros e (((A1 & A2) & _) & A3 & _). auto. }
  destruct (nth_error st (s_bottom s)) as [sb|] eqn:Esb; [|apply nth_error_None in Esb; lia].
  destruct (nth_error st (s_top s)) as [stp|] eqn:Est; [|apply nth_error_None in Est; lia].
  destruct (Hch _ _ eq_refl eq_refl) as (Hpos & Hneg).
  assert (Hss : StronglySorted (fun e e' => forall p, In p ps -> e_top e' (p_xi p) (p_yi p) <= e_bottom e (p_xi p) (p_yi p)) (to_aelems st si num (s_aes s))).
  { destruct (Rle_lt_dec (zmean stp) (zmean sb)) as [Hz|Hz].
    - rewrite (Hneg Hz). constructor.
    - destruct (Hpos Hz) as (_ & Hac). eapply ae_sorted; eauto. }
  assert (Hcross : forall e e', In e (to_aelems st si num (s_aes s)) -> In e' (flat_map t_aes (to_model st (S si) (num + List.length (s_aes s)) l)) ->
     forall p, In p ps -> e_top e' (p_xi p) (p_yi p) <= e_bottom e (p_xi p) (p_yi p)).
  { intros e e' He He' p Hp. apply to_aelems_in in He as (e1 & n1 & He1 & ->).
    apply in_flat_map in He' as (s2 & Hs2 & He'). apply to_model_in in Hs2 as (s3 & a & b & Hs3 & ->). cbn in He'.
    apply to_aelems_in in He' as (e2 & n2 & He2 & ->). cbn. destruct (Hps p Hp) as [-> ->].
    rewrite Forall_forall in Hall. destruct (Hall e1 He1) as (((A1 & A2) & _) & _ & A3 & _).
    assert (Hf2 := Hf'). rewrite Forall_forall in Hf2. destruct (Hf2 s3 Hs3) as ((M1 & M2) & _ & _ & _ & Hall3 & _).
    rewrite Forall_forall in Hall3. destruct (Hall3 e2 He2) as (((B1 & B2) & _) & _ & _ & B3 & _).
    assert (Hb : below st (s_top s3) (s_bottom s)).
    { apply (stratum_chain_below l _ bottom); auto. revert Hf'. apply Forall_impl. intros s4 ((? & ?) & ? & _). auto. }
    destruct (surf_col _ B2) as (v & Hv & ->). destruct (surf_col _ A1) as (u & Hu & ->).
    destruct (surf_col _ M2) as (v1 & Hv1 & _). destruct (surf_col _ L1) as (u1 & Hu1 & _).
    pose proof (B3 _ _ _ Hv Hv1). pose proof (Hb _ _ _ Hv1 Hu1). pose proof (A3 _ _ _ Hu1 Hu). lra. }
  revert Hss Hcross IH. generalize (to_aelems st si num (s_aes s)) (flat_map t_aes (to_model st (S si) (num + List.length (s_aes s)) l)).
  clear. intros l1 l2 Hss Hcross IH. induction Hss as [|e l1 Hs IHs Hall]; [assumption|]. cbn. constructor.
  - apply IHs. intros a b Ha. apply Hcross. now right.
  - apply Forall_app. split; [assumption|]. apply Forall_forall. intros e' He'. apply Hcross; [now left|assumption].
Qed.

Lemma stratum_chain_covers : forall l top bottom z b t,
  Forall (stratum_ok st) l -> stratum_chain top l bottom -> l <> [] ->
  col st bottom k = Some b -> col st top k = Some t -> b <= z <= t ->
  exists s lo hi, In s l /\ col st (s_bottom s) k = Some lo /\ col st (s_top s) k = Some hi /\ lo <= z <= hi.
Proof.
  induction l as [|s l IH]; intros top bottom z b t Hf Hc Hne Hb Ht Hz; [congruence|].
  inversion Hf as [|? ? Hs Hf']; subst. destruct Hc as (Ht0 & Hc). subst top.
  destruct Hs as ((L1 & L2) & _). destruct (surf_col _ L1) as (v & Hv & _).
  destruct (Rle_lt_dec v z) as [Hle|Hlt].
  - exists s, v, t. repeat split; auto; [now left|lra].
  - destruct l as [|s' l].
    + cbn in Hc. subst bottom. rewrite Hv in Hb. injection Hb as ->. lra.
    + destruct (IH (s_bottom s) bottom z b v Hf' Hc ltac:(discriminate) Hb Hv ltac:(lra)) as (s1 & lo & hi & H1 & H2).
      exists s1, lo, hi. split; [now right|assumption].
Qed.

Lemma built_covered top base p : stratum_chain top strata base -> strata <> [] -> Forall (fun s => s_aes s <> []) strata ->
  (top < List.length st)%nat ->
  In p ps -> (forall a, col st a k <> Some (p_z p)) ->
  (exists b t, col st base k = Some b /\ col st top k = Some t /\ b <= p_z p <= t) ->
  exists s e, In s m /\ In e (t_aes s) /\
    e_bottom e (p_xi p) (p_yi p) <= p_z p <= e_top e (p_xi p) (p_yi p) /\ search_ae hit p e <> None.
Proof.
  intros Hc Hne Haes Htop Hp Hav (b & t & Hb & Ht & Hz).
  destruct (stratum_chain_covers strata top base (p_z p) b t Hok Hc Hne Hb Ht Hz) as (s & lo & hi & Hs & Hlo & Hhi & Hz1).
  assert (Hso := Hok). rewrite Forall_forall in Hso. destruct (Hso s Hs) as ((L1 & L2) & Bst & _ & _ & Hall & Hch).
  destruct (nth_error st (s_bottom s)) as [sb|] eqn:Esb; [|apply nth_error_None in Esb; lia].
  destruct (nth_error st (s_top s)) as [stp|] eqn:Est; [|apply nth_error_None in Est; lia].
  destruct (Hch _ _ eq_refl eq_refl) as (Hpos & Hneg).
  rewrite Forall_forall in Haes. specialize (Haes s Hs).
  destruct (Rle_lt_dec (zmean stp) (zmean sb)) as [Hzm|Hzm]; [now specialize (Hneg Hzm)|].
  destruct (Hpos Hzm) as (_ & Hac). assert (Halle := Hall). rewrite Forall_forall in Halle.
  destruct (ae_chain_covers (columns g) st W (s_aes s) (s_top s) (s_bottom s) k (p_z p) lo hi) as (e0 & elo & ehi & He0 & Helo & Hehi & Hz2); try assumption.
  { intros e He. destruct (Halle e He) as (((? & ?) & _) & _). assumption. }
  destruct (to_model_of st strata 0 0 s Hs) as (si & num & Hsm).
  destruct (to_aelems_of st si (s_aes s) num e0 He0) as (num' & Hem).
  set (s' := mkAstrat (s_zmin s) (to_aelems st si num (s_aes s))) in *.
  set (e' := to_aelem st si num' e0) in *.
  assert (Hfe : search_ae hit p e' <> None).
  { destruct (Halle e0 He0) as (Ha & _). assert (Ho := Hobj). rewrite Forall_forall in Ho. specialize (Ho s Hs).
    rewrite Forall_forall in Ho. destruct (Ho e0 He0) as [Hsh|Hno].
    - assert (Hsh' := Hsh). destruct Hsh' as (S0 & S1 & S2 & _).
      eapply (sheet_covers si num' e0 p Ha Hsh Hp (ae_objects e0) (ae_bottom e0) elo ehi); auto.
    - destruct (Hfit s' e' Hsm Hem) as (Hbg & _); [now apply is_sheet_no|].
      unfold search_ae. destruct (first (hits hit p) (e_objs e') 0) as [[? ?]|]; [discriminate|].
      assert (Hes : e_sheet e' = false) by now apply is_sheet_no. rewrite Hes. cbn [negb andb].
      unfold within. destruct (Hps p Hp) as [-> ->]. unfold e'. cbn [e_bottom e_top BuildModel.to_aelem].
      rewrite (elevation_col _ _ _ _ _ Helo), (elevation_col _ _ _ _ _ Hehi).
      assert (elo <> p_z p) by (intros ->; exact (Hav _ Helo)). assert (ehi <> p_z p) by (intros ->; exact (Hav _ Hehi)).
      destruct (Rlt_dec elo (p_z p)); [|lra]. destruct (Rlt_dec (p_z p) ehi); [|lra].
      apply Z.eqb_neq in Hbg. cbn in Hbg |- *. rewrite Hbg. discriminate. }
  exists s', e'. split; [assumption|]. split; [assumption|]. split; [|assumption].
  destruct (Hps p Hp) as [-> ->]. unfold e'. cbn [e_bottom e_top BuildModel.to_aelem].
  rewrite (elevation_col _ _ _ _ _ Helo), (elevation_col _ _ _ _ _ Hehi). assumption.
Qed.

Lemma covered_found p s e : In s m -> In e (t_aes s) -> search_ae hit p e <> None -> search hit m p <> None.
Proof.
  intros Hs He Hf Hn. unfold search in Hn. rewrite first_none in Hn. specialize (Hn s Hs).
  unfold search_stratum in Hn. rewrite first_none in Hn. exact (Hf (Hn e He)).
Qed.
End Build.
End Order.
