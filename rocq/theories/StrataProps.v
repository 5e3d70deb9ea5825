(** Properties C23-C31 and C77: strata, elements and sheets. *)
From Coq Require Import List ZArith QArith Bool Ascii String Reals Lra Lia.
From Verif Require Import Base Num ParseModel ConfigModel SurfaceModel SurfaceSpec SurfaceProofs StrataModel StrataSpec
  StrataProofs StrataProofs2 StrataProofs3.
Import ListNotations.
Local Open Scope R_scope.

(** ** Example data (rationals, two columns) *)
Definition exg (z0 lz : Q) : grid Q := (mkGrid 0 0 z0 1 1 1 2 1 lz [1#2; 3#2] [1#2] [])%Q.
Definition nobg : background (T := Q) := mkBg None None None.
Definition flat_cm : contact Q := mkContact (S_ "flat") None None.
Definition rand_cm (z : Q) : contact Q := mkContact (S_ "random") (Some z) (Some (1, 1, 1)%Q).
Definition trough_type : ae_type Q := mkType flat_cm GObjects nobg.
Definition rtrough_type : ae_type Q := mkType (mkContact (S_ "random") None (Some (1, 1, 1)%Q)) GObjects nobg.
Definition sheet_type (lens : Q) : ae_type Q := mkType flat_cm (GSheet lens None) nobg.
Definition exsp (ts : list (ae_type Q)) : stratum_params Q := mkSP ts 0%Q (mkSbg 3%Z (Some 4%Q) None).
Definition dr (h : Q) (next : nat) (field : list Q) (objs : list (Q * Q)) : draw Q := mkDraw h 1%Q 0%Q next field objs.

(** Two strata, an uneven contact at 2 +- 3 between them, an uneven element
    boundary, sheets below. *)
Definition ex_model_run :=
  generate_model (exg 0 6) 20 [rand_cm 2] [exsp [sheet_type 1]; exsp [trough_type; rtrough_type]]
    [mkSD [-1; 1]%Q 0 [dr 1 1 [-4; 4]%Q [(1, 2)%Q]; dr 9 0 [0; 0]%Q []]; mkSD [0; 0]%Q 0 [dr 7 0 [0; 0]%Q []]].
Example ex_model_runs :
  exists st strata, ex_model_run = Ok (st, strata) /\ List.length strata = 2%nat /\
    map (fun s => List.length (s_aes s)) strata = [2; 1]%nat.
Proof. do 2 eexists. split; [vm_compute; reflexivity|]. split; vm_compute; reflexivity. Qed.

(** ** C23: the strata are stacked *)
Theorem C23_strata_stack :
  forall (g : grid R) fuel contacts params draws st strata,
  Forall (sd_ok (columns g)) draws -> params <> [] ->
  generate_model g fuel contacts params draws = Ok (st, strata) ->
  List.length strata = List.length params /\
  (* the bottom of a stratum is the top of the next one *)
  (exists base, stratum_chain 0 strata base /\
     (* base not above the origin of the grid *)
     forall k v, col st base k = Some v -> v <= g_z0 g) /\
  (* no bottom above its top *)
  Forall (fun s => below st (s_bottom s) (s_top s)) strata /\
  (* first top flat *)
  (forall k, (k < columns g)%nat -> col st 0 k = Some (g_lz g)).
Proof.
  intros g fuel contacts params draws st strata Hd Hp E. unfold generate_model in E.
  apply bind_Ok in E as (s & Hs & E). apply flat_surface in Hs as ->. cbn [alloc] in E.
  assert (W0 : wf (columns g) ([] ++ [mkSurface (repeat (g_lz g) (columns g)) (g_lz g) (g_lz g) (g_lz g)])).
  { apply wf_alloc; [constructor|apply repeat_length|apply flat_bounded]. }
  apply (model_loop_spec _ _ _ _ _ _ _ _ _ _ _ _ 0%nat) in E; try assumption; try (simpl; lia); try (now constructor); try reflexivity.
  destruct E as (W & K & base & Hch & Hok & Hbl & Hn & Hz & Hnil & Hlen). simpl in Hn, Hlen.
  split; [congruence|]. split; [|split].
  - exists base. split; [assumption|]. apply Hz. intros ->. simpl in Hn. destruct params; [congruence|discriminate].
  - revert Hok. apply Forall_impl. intros s0 (_ & H & _). exact H.
  - intros k Hk. rewrite (same_col _ _ _ _ (K 0%nat ltac:(simpl; lia))). apply (col_flat _ []). exact Hk.
Qed.
Print Assumptions C23_strata_stack.

Lemma generate_strata_ok g fuel contacts params draws st strata :
  Forall (sd_ok (columns g)) draws ->
  generate_model g fuel contacts params draws = Ok (st, strata) -> wf (columns g) st /\ Forall (stratum_ok st) strata.
Proof.
  intros Hd E. unfold generate_model in E.
  apply bind_Ok in E as (s & Hs & E). apply flat_surface in Hs as ->. cbn [alloc] in E.
  assert (W0 : wf (columns g) ([] ++ [mkSurface (repeat (g_lz g) (columns g)) (g_lz g) (g_lz g) (g_lz g)])).
  { apply wf_alloc; [constructor|apply repeat_length|apply flat_bounded]. }
  apply (model_loop_spec _ _ _ _ _ _ _ _ _ _ _ _ 0%nat) in E; try assumption; try (simpl; lia); try (now constructor); try reflexivity.
  destruct E as (W & K & base & Hch & Hok & _). auto.
Qed.

(** ** C24: the top of the stack *)

(** The uppermost surface is at z0+lz only for z0 = 0. *)
Theorem C24_top_partial :
  forall (g : grid R) fuel contacts params draws st strata,
  Forall (sd_ok (columns g)) draws -> params <> [] ->
  generate_model g fuel contacts params draws = Ok (st, strata) ->
  forall k, (k < columns g)%nat -> (col st 0 k = Some (g_zmax g) <-> g_z0 g = 0).
Proof.
  intros g fuel contacts params draws st strata Hd Hp E k Hk.
  destruct (C23_strata_stack _ _ _ _ _ _ _ Hd Hp E) as (_ & _ & _ & H). rewrite H by assumption.
  unfold g_zmax. numR. split; [intros [= Hz]; lra|intros ->; f_equal; lra].
Qed.
Print Assumptions C24_top_partial.

(** Grid from 10 m to 16 m: the stack ends at 6 m, below the whole grid. *)
Theorem C24_top_refuted :
  exists st strata,
    generate_model (exg 10 6) 20 [] [exsp [trough_type]] [mkSD [] 0 [dr 7 0 [0; 0]%Q []]] = Ok (st, strata) /\
    Forall (fun s => Forall (fun v => Qle v 6) (vals s)) st /\ (g_zmax (exg 10 6) == 16)%Q.
Proof.
  do 2 eexists. split; [vm_compute; reflexivity|]. split; [|reflexivity].
  repeat constructor; vm_compute; discriminate.
Qed.
Print Assumptions C24_top_refuted.

(** ** C25: the elements tile their stratum *)
Theorem C25_elements_tile :
  forall (g : grid R) fuel contacts params draws st strata s sb stp,
  Forall (sd_ok (columns g)) draws ->
  generate_model g fuel contacts params draws = Ok (st, strata) ->
  In s strata ->
  nth_error st (s_bottom s) = Some sb -> nth_error st (s_top s) = Some stp -> zmean sb < zmean stp ->
  (* first at the top, each where the previous one ends, last at the bottom *)
  ae_chain (s_top s) (s_aes s) (s_bottom s) /\
  (* in order and inside the stratum *)
  Forall (fun e => below st (ae_bottom e) (ae_top e) /\ below st (s_bottom s) (ae_bottom e) /\ below st (ae_top e) (s_top s)) (s_aes s) /\
  (* no gaps *)
  (forall k z b t, col st (s_bottom s) k = Some b -> col st (s_top s) k = Some t -> b <= z <= t ->
     exists e lo hi, In e (s_aes s) /\ col st (ae_bottom e) k = Some lo /\ col st (ae_top e) k = Some hi /\ lo <= z <= hi).
Proof.
  intros g fuel contacts params draws st strata s sb stp Hd E Hin Hb Ht Hz.
  destruct (generate_strata_ok _ _ _ _ _ _ _ Hd E) as (W & Hok). rewrite Forall_forall in Hok.
  destruct (Hok s Hin) as ((L1 & L2) & _ & _ & _ & He & Hc). destruct (proj1 (Hc _ _ Hb Ht) Hz) as (Hne & Hch).
  split; [assumption|]. split.
  - revert He. apply Forall_impl. intros e (_ & A & B & C & _). auto.
  - intros k z b t Hkb Hkt Hzz. eapply ae_chain_covers; eauto.
    intros e Hie. rewrite Forall_forall in He. destruct (He e Hie) as (((G & _) & _) & _). exact G.
Qed.
Print Assumptions C25_elements_tile.

(** The elements of a stratum do not overlap: an elevation strictly inside one
    element is not strictly inside another one. *)
Lemma ae_chain_below n st : wf n st -> forall l top bottom,
  Forall (fun e => (ae_bottom e < List.length st)%nat /\ below st (ae_bottom e) (ae_top e)) l -> (top < List.length st)%nat ->
  ae_chain top l bottom -> forall e, In e l -> below st (ae_top e) top.
Proof.
  intros Hw. induction l as [|x l IH]; intros top bottom Hf Ht Hc e Hin; [easy|].
  inversion Hf as [|? ? (G1 & G2) G3]; subst. destruct Hc as (<- & Hc). destruct Hin as [<-|Hin]; [apply below_refl|].
  apply (below_trans n _ _ (ae_bottom x)); auto. eapply IH; eauto.
Qed.
Lemma ae_chain_disjoint n st : wf n st -> forall l top bottom,
  Forall (fun e => (ae_bottom e < List.length st)%nat /\ below st (ae_bottom e) (ae_top e)) l -> (top < List.length st)%nat ->
  ae_chain top l bottom ->
  forall i j e f k z b1 t1 b2 t2, (i < j)%nat -> nth_error l i = Some e -> nth_error l j = Some f ->
  col st (ae_bottom e) k = Some b1 -> col st (ae_top e) k = Some t1 ->
  col st (ae_bottom f) k = Some b2 -> col st (ae_top f) k = Some t2 -> b1 < z < t1 -> b2 < z < t2 -> False.
Proof.
  intros Hw. induction l as [|x l IH]; intros top bottom Hf Ht Hc i j e f k z b1 t1 b2 t2 Hij Hi Hj E1 E2 E3 E4 H1 H2;
    [destruct i; discriminate|].
  inversion Hf as [|? ? (G1 & G2) G3]; subst. destruct Hc as (<- & Hc). destruct j as [|j]; [lia|]. cbn [nth_error] in Hj.
  destruct i as [|i]; cbn [nth_error] in Hi.
  - injection Hi as ->. pose proof (ae_chain_below n st Hw l _ _ G3 G1 Hc f (nth_error_In _ _ Hj) _ _ _ E4 E1). lra.
  - apply (IH _ _ G3 G1 Hc i j e f k z b1 t1 b2 t2); auto. lia.
Qed.

Theorem C25_elements_disjoint :
  forall (g : grid R) fuel contacts params draws st strata s,
  Forall (sd_ok (columns g)) draws ->
  generate_model g fuel contacts params draws = Ok (st, strata) ->
  In s strata ->
  forall i j e f k z b1 t1 b2 t2, i <> j -> nth_error (s_aes s) i = Some e -> nth_error (s_aes s) j = Some f ->
  col st (ae_bottom e) k = Some b1 -> col st (ae_top e) k = Some t1 ->
  col st (ae_bottom f) k = Some b2 -> col st (ae_top f) k = Some t2 -> b1 < z < t1 -> b2 < z < t2 -> False.
Proof.
  intros g fuel contacts params draws st strata s Hd E Hin i j e f k z b1 t1 b2 t2 Hij Hi Hj E1 E2 E3 E4 H1 H2.
  destruct (generate_strata_ok _ _ _ _ _ _ _ Hd E) as (W & Hok). rewrite Forall_forall in Hok.
  destruct (Hok s Hin) as ((L1 & L2) & _ & _ & _ & He & Hc).
  destruct (nth_error st (s_bottom s)) as [sb|] eqn:Esb; [|apply nth_error_None in Esb; lia].
  destruct (nth_error st (s_top s)) as [stp|] eqn:Est; [|apply nth_error_None in Est; lia].
  destruct (Hc _ _ eq_refl eq_refl) as (Hpos & Hneg).
  destruct (Rle_lt_dec (zmean stp) (zmean sb)) as [Hl|Hl].
  { rewrite (Hneg Hl) in Hi. destruct i; discriminate. }
  destruct (Hpos Hl) as (_ & Hch).
  assert (Hf : Forall (fun e => (ae_bottom e < List.length st)%nat /\ below st (ae_bottom e) (ae_top e)) (s_aes s)).
  { revert He. apply Forall_impl. intros e' (((A & _) & _) & B & _). auto. }
  destruct (Nat.lt_trichotomy i j) as [Hlt|[Heq|Hgt]]; [|congruence|].
  - eapply (ae_chain_disjoint _ st W _ _ _ Hf L2 Hch i j); eauto.
  - eapply (ae_chain_disjoint _ st W _ _ _ Hf L2 Hch j i); eauto.
Qed.
Print Assumptions C25_elements_disjoint.

(** ** C77: a stratum that is somewhere thick contains an element *)

(** The generation compares means stored before clipping.  Top 2+-2 (mean 2),
    flat bottom at 2: the upper stratum is 2 m thick in the first column and
    gets no element. *)
Theorem C77_nonempty_stratum_refuted :
  exists st s1 s2 s3, 
    generate_model (exg 0 6) 20 [mkContact (S_ "flat") (Some 2%Q) None; rand_cm 2] [exsp [trough_type]; exsp [trough_type]; exsp [trough_type]]
      [mkSD [2; -2]%Q 0 [dr 9 0 [0; 0]%Q []]; mkSD [0; 0]%Q 0 []; mkSD [0; 0]%Q 0 [dr 9 0 [0; 0]%Q []]] = Ok (st, [s1; s2; s3]) /\
    s_aes s2 = [] /\
    option_map vals (nth_error st (s_top s2)) = Some [4; 0]%Q /\ option_map vals (nth_error st (s_bottom s2)) = Some [2; 0]%Q.
Proof. do 4 eexists. split; [vm_compute; reflexivity|]. repeat split; vm_compute; reflexivity. Qed.
Print Assumptions C77_nonempty_stratum_refuted.

(** ** C26: generation of a stratum ends *)

(** If every net thickness is at least eps, N elements suffice for N*eps at
    least the mean thickness: further draws are never looked at. *)
Theorem C26_ends_partial :
  forall (g : grid R) fuel sp first draws more st bottom top sb stp eps,
  0 < eps -> Forall (fun d => eps <= net sp d) draws ->
  nth_error st bottom = Some sb -> nth_error st top = Some stp ->
  zmean stp - zmean sb <= INR (List.length draws) * eps ->
  new_stratum g fuel sp first (draws ++ more) st bottom top = new_stratum g fuel sp first draws st bottom top /\
  forall st' s, new_stratum g fuel sp first (draws ++ more) st bottom top = Ok (st', s) ->
    (List.length (s_aes s) <= List.length draws)%nat.
Proof.
  intros g fuel sp first draws more st bottom top sb stp eps He Hd Hb Ht Hn.
  assert (E : new_stratum g fuel sp first (draws ++ more) st bottom top = new_stratum g fuel sp first draws st bottom top).
  { unfold new_stratum. apply getS_Ok in Ht. assert (Hb' := Hb). apply getS_Ok in Hb'. rewrite Hb', Ht. cbn [bind]. rewrite (stratum_loop_bounded g fuel sp bottom eps (zmean sb) (zmean stp) He _ _ _ _ _ _ _ _ _ sb); try assumption; try reflexivity; [|lra].
    revert Hd. apply Forall_impl. intros d Hd z _. rewrite next_depth_net. lra. }
  split; [exact E|]. intros st' s Es. rewrite E in Es. unfold new_stratum in Es.
  apply bind_Ok in Es as (s1 & _ & Es). apply bind_Ok in Es as (s2 & _ & Es).
  apply bind_Ok in Es as ((st2 & (lo & hi) & aes) & Hl & Es). injection Es as <- <-. cbn [s_aes].
  apply stratum_loop_count in Hl. simpl in Hl. exact Hl.
Qed.
Print Assumptions C26_ends_partial.

(** If the net thickness is never positive (avulsion depths at least the
    heights) no number of elements completes the stratum. *)
Theorem C26_ends_refuted :
  forall (g : grid R) fuel sp first draws st bottom top sb stp r,
  Forall (fun d => net sp d <= 0) draws ->
  nth_error st bottom = Some sb -> nth_error st top = Some stp -> zmean sb < zmean stp ->
  new_stratum g fuel sp first draws st bottom top <> Ok r.
Proof.
  intros g fuel sp first draws st bottom top sb stp r Hd Hb Ht Hz E. unfold new_stratum in E.
  unfold getS at 1 2 in E. rewrite Hb, Ht in E. cbn [bind] in E.
  apply bind_Ok in E as (x & Hx & _). revert Hx. apply (stratum_loop_endless _ _ _ _ (fun z => zmean sb < z) (zmean sb)) with (s := sb); try assumption; try reflexivity; [tauto|].
  revert Hd. apply Forall_impl. intros d Hd z Hzz. rewrite next_depth_net. lra.
Qed.
Print Assumptions C26_ends_refuted.

(** Mean height 1, avulsion depth 1 with probability 1: still running after 30
    elements (the only thing that is missing are further draws). *)
Example C26_example :
  new_stratum (exg 0 6) 20 (mkSP [trough_type] 1%Q (mkSbg 3%Z None None)) 0
    (repeat (mkDraw 1%Q (1#2) 1%Q 0 [0; 0]%Q []) 30) [mkSurface [0; 0] 0 0 0; mkSurface [6; 6] 6 6 6]%Q 0 1 = Err OutOfFuel.
Proof. vm_compute. reflexivity. Qed.

(** ** C27: depth bounds *)

(** Nothing of an element or stratum is outside its bounds; hence a cell with
    z below zmin (or above zmax) is not between its surfaces. *)
Theorem C27_bounds :
  forall (g : grid R) fuel contacts params draws st strata s,
  Forall (sd_ok (columns g)) draws ->
  generate_model g fuel contacts params draws = Ok (st, strata) -> In s strata ->
  (forall k b t z, col st (s_bottom s) k = Some b -> col st (s_top s) k = Some t -> b <= z <= t -> s_zmin s <= z <= s_zmax s) /\
  forall e, In e (s_aes s) ->
    s_zmin s <= ae_zmin e /\ ae_zmax e <= s_zmax s /\
    (forall k b t z, col st (ae_bottom e) k = Some b -> col st (ae_top e) k = Some t -> b <= z <= t -> ae_zmin e <= z <= ae_zmax e) /\
    forall o, In o (ae_objects e) ->
      ae_zmin e <= ob_zmin o /\ ob_zmax o <= ae_zmax e /\
      forall x y k b t z, ob_surfaces o = Some (x, y) -> col st x k = Some b -> col st y k = Some t -> b <= z <= t ->
        ob_zmin o <= z <= ob_zmax o.
Proof.
  intros g fuel contacts params draws st strata s Hd E Hin.
  destruct (generate_strata_ok _ _ _ _ _ _ _ Hd E) as (W & Hok). rewrite Forall_forall in Hok.
  destruct (Hok s Hin) as ((L1 & L2) & _ & Hlo & Hhi & He & _). rewrite Forall_forall in He. split.
  { intros k b t z Hb Ht Hz. specialize (Hlo _ _ Hb). specialize (Hhi _ _ Ht). lra. }
  intros e Hie. destruct (He e Hie) as ((_ & Alo & Ahi & Hob & Hin' & _) & _ & _ & _ & B1 & B2).
  split; [assumption|]. split; [assumption|]. split.
  { intros k b t z Hb Ht Hz. specialize (Alo _ _ Hb). specialize (Ahi _ _ Ht). lra. }
  intros o Ho. rewrite Forall_forall in Hob, Hin'. destruct (Hin' o Ho) as (C1 & C2). split; [assumption|]. split; [assumption|].
  intros x y k b t z Hs Hb Ht Hz. specialize (Hob o Ho). unfold object_bounds in Hob. rewrite Hs in Hob.
  destruct Hob as (_ & D1 & D2). specialize (D1 _ _ Hb). specialize (D2 _ _ Ht). lra.
Qed.
Print Assumptions C27_bounds.

(** ** C28: sheets fill their element *)
Theorem C28_sheets_fill :
  forall (g : grid R) fuel st ty kind sbg bottom top objs st' e lens trend,
  wf (columns g) st -> (bottom < List.length st)%nat -> (top < List.length st)%nat -> below st bottom top ->
  t_geometry ty = GSheet lens trend ->
  new_ae g fuel st ty kind sbg bottom top objs = Ok (st', e) ->
  sheet_chain top (ae_objects e) bottom /\
  (* the surfaces copied for the cell assignment are these surfaces *)
  Forall2 (fun o c => exists x y, ob_surfaces o = Some (x, y) /\
     (forall k, col st' x k = nth_error (fst c) k) /\ (forall k, col st' y k = nth_error (snd c) k)) (ae_objects e) (ae_copies e) /\
  forall k z b t, col st' bottom k = Some b -> col st' top k = Some t -> b <= z <= t ->
    exists o x y lo hi, In o (ae_objects e) /\ ob_surfaces o = Some (x, y) /\
      col st' x k = Some lo /\ col st' y k = Some hi /\ lo <= z <= hi.
Proof.
  intros g fuel st ty kind sbg bottom top objs st' e lens trend Hw Hb Ht Hbt Hg E.
  assert (Hne : ae_objects e <> []).
  { unfold new_ae in E. apply bind_Ok in E as (sb & Hsb & E). apply bind_Ok in E as (sp & Hsp & E).
    apply bind_Ok in E as ((st1 & (l & lo) & hi) & Hl & E). apply bind_Ok in E as (cp & Hcp & E). injection E as <- <-.
    cbn [ae_objects]. rewrite Hg in Hl.
    eapply (sheet_loop_spec (columns g) bottom (List.length st)) in Hl; try assumption; try lia; [|intros _; assumption].
    destruct Hl as (_ & _ & _ & _ & _ & _ & new & -> & Hne & _). destruct new; [congruence|discriminate]. }
  apply new_ae_spec in E; try assumption. destruct E as (W & K & Eb & Et & Hok & Hch).
  destruct Hok as (_ & _ & _ & Hob & _ & Hcp). specialize (Hch _ _ Hg). split; [assumption|].
  assert (Hall : forall l t b, sheet_chain t l b -> Forall (fun o => exists x y, ob_surfaces o = Some (x, y)) l).
  { induction l as [|o l IH]; intros t b H; [constructor|]. destruct H as (x & H1 & H2). constructor; eauto. }
  specialize (Hall _ _ _ Hch). split.
  - apply (Forall_Forall2 _ _ _ _ _ Hall Hcp). intros o c (x & y & Hs) Ho. rewrite Hs in Ho. eauto.
  - intros k z b t Hkb Hkt Hz. eapply sheet_chain_covers; eauto.
    intros o x y Ho Hs. rewrite Forall_forall in Hob. specialize (Hob o Ho). unfold object_bounds in Hob. rewrite Hs in Hob. tauto.
Qed.
Print Assumptions C28_sheets_fill.

(** Generation ends, with at most N sheets if N >= 1 lens thicknesses cover the
    element from its highest to its lowest point. *)
Theorem C28_sheets_end :
  forall (g : grid R) fuel st ty kind sbg bottom top objs lens sb stp N,
  (0 < columns g)%nat -> wf (columns g) st -> nth_error st bottom = Some sb -> nth_error st top = Some stp -> below st bottom top ->
  t_geometry ty = GSheet lens None -> 0 < lens ->
  zmax stp - zmin sb <= INR (S N) * lens -> (N < fuel)%nat ->
  exists st' e, new_ae g fuel st ty kind sbg bottom top objs = Ok (st', e) /\ (List.length (ae_objects e) <= S N)%nat.
Proof.
  intros g fuel st ty kind sbg bottom top objs lens sb stp N Hn Hw Hb Ht Hbt Hg Hl HN Hf.
  assert (Lb := nth_error_lt _ _ _ Hb). assert (Lt := nth_error_lt _ _ _ Ht).
  assert (Bb := proj2 (wf_nth _ _ _ _ Hw Hb)).
  unfold new_ae. unfold getS at 1 2. rewrite Hb, Ht. cbn [bind]. rewrite Hg.
  assert (Eth : sheet_thickness g lens None (zmin sb) (zmax stp) = lens).
  { unfold sheet_thickness, neqb. numR. destruct (Rleb_spec lens (0 - 1)); [lra|]. reflexivity. }
  rewrite Eth.
  assert (Hv : Forall (fun v => zmin sb <= v) (vals sb)) by (revert Bb; apply Forall_impl; intros v; lra).
  destruct (sheet_loop_total (columns g) bottom lens lens (zmax stp) N fuel st top (zmax stp - lens) [] (zmin sb) (zmax stp))
    as (st' & l & lo & hi & E & Hlen); try assumption.
  - intros s Hs. rewrite Hb in Hs. injection Hs as <-. lra.
  - intros k v Hk. destruct (col_like _ st st bottom _ _ _ Hw Hw Lb Hk) as (u & Hu).
    pose proof (Hbt _ _ _ Hu Hk). unfold col in Hu. rewrite Hb in Hu. pose proof (bounded_nth _ _ _ Bb Hu). lra.
  - intros s Hs. rewrite Hb in Hs. injection Hs as <-. assumption.
  - intros z _. numR. lra.
  - lra.
  - rewrite S_INR in HN. lra.
  - numR. rewrite E. cbn [bind].
    assert (Hspec := E). apply (sheet_loop_spec (columns g) bottom (List.length st)) in Hspec; try assumption; try lia; [|intros _; assumption].
    destruct Hspec as (_ & _ & _ & _ & _ & _ & new & El & _ & _ & Hob & _). simpl in El. subst l.
    assert (Hcp : exists cp, mapM (copy_object st') new = Ok cp).
    { clear -Hob. induction Hob as [|o l Ho Hob IH]; [eexists; reflexivity|]. destruct IH as (cp & IH). cbn [mapM]. rewrite IH.
      unfold object_bounds in Ho. unfold copy_object. destruct (ob_surfaces o) as [[x y]|]; [|eexists; reflexivity].
      destruct Ho as ((H1 & H2) & _). destruct (getS_some st' x H1) as (s1 & -> & _). destruct (getS_some st' y H2) as (s2 & -> & _).
      eexists. reflexivity. }
    destruct Hcp as (cp & ->). cbn [bind]. do 2 eexists. split; [reflexivity|]. cbn [ae_objects]. simpl in Hlen. lia.
Qed.
Print Assumptions C28_sheets_end.

(** Element from [0,2] to 5 with sheets of 2: three sheets. *)
Example C28_example :
  exists st' e, new_ae (exg 0 6) 20 [mkSurface [0; 2] 1 0 2; mkSurface [5; 5] 5 5 5]%Q (sheet_type 2) 0 (mkSbg 3%Z None None) 0 1 []
    = Ok (st', e) /\ ae_copies e = [([3; 3], [5; 5]); ([1; 1], [3; 3]); ([0; 2], [1; 1])]%Q.
Proof. do 2 eexists. split; vm_compute; reflexivity. Qed.

(** ** C29: sheets stay inside their element *)

(** Nothing of a sheet is above the element; of the sheets only the one before
    the last may reach below the element. *)
Theorem C29_inside_partial :
  forall (g : grid R) fuel st ty kind sbg bottom top objs st' e lens trend,
  wf (columns g) st -> (bottom < List.length st)%nat -> (top < List.length st)%nat -> below st bottom top ->
  t_geometry ty = GSheet lens trend ->
  new_ae g fuel st ty kind sbg bottom top objs = Ok (st', e) ->
  forall i o x y, nth_error (ae_objects e) i = Some o -> ob_surfaces o = Some (x, y) ->
    below st' y top /\ ((i + 2)%nat <> List.length (ae_objects e) -> below st' bottom x).
Proof.
  intros g fuel st ty kind sbg bottom top objs st' e lens trend Hw Hb Ht Hbt Hg E i o x y Hi Ho.
  unfold new_ae in E. apply bind_Ok in E as (sb & Hsb & E). apply bind_Ok in E as (sp & Hsp & E).
  apply bind_Ok in E as ((st1 & (l & lo) & hi) & Hl & E). apply bind_Ok in E as (cp & Hcp & E). injection E as <- <-.
  cbn [ae_objects] in *. rewrite Hg in Hl.
  eapply (sheet_loop_inside (columns g) bottom (List.length st) _ top) in Hl; try assumption; try lia; [|intros _; assumption|apply below_refl].
  destruct Hl as (new & El & _ & _ & H1 & H2). simpl in El. subst l. split.
  - exact (proj2 (H1 o x y (nth_error_In _ _ Hi) Ho)).
  - intros Hn. exact (H2 i o x y Hi Ho Hn).
Qed.
Print Assumptions C29_inside_partial.

(** In the example above the second sheet covers 1..3 in the second column,
    where the element begins at 2. *)
Theorem C29_inside_refuted :
  exists st' e, new_ae (exg 0 6) 20 [mkSurface [0; 2] 1 0 2; mkSurface [5; 5] 5 5 5]%Q (sheet_type 2) 0 (mkSbg 3%Z None None) 0 1 []
    = Ok (st', e) /\
  exists i k bot_ top_ b t, nth_error (ae_copies e) i = Some (bot_, top_) /\ nth_error bot_ k = Some b /\ nth_error top_ k = Some t /\
    (b < t)%Q /\ exists s v, nth_error st' (ae_bottom e) = Some s /\ nth_error (vals s) k = Some v /\ (b < v)%Q.
Proof.
  do 2 eexists. split; [vm_compute; reflexivity|]. exists 1%nat, 1%nat. do 4 eexists.
  split; [reflexivity|]. split; [reflexivity|]. split; [reflexivity|]. split; [reflexivity|].
  do 2 eexists. split; [reflexivity|]. split; reflexivity.
Qed.
Print Assumptions C29_inside_refuted.

(** ** C30: sheet generation ends for every lens thickness *)

(** It never ends for a thickness of zero, or a negative one other than -1. *)
Theorem C30_ends_refuted :
  forall (g : grid R) fuel st ty kind sbg bottom top objs lens sb stp r,
  wf (columns g) st -> nth_error st bottom = Some sb -> nth_error st top = Some stp -> below st bottom top ->
  t_geometry ty = GSheet lens None -> lens <= 0 -> lens <> -1 -> zmin sb < zmax stp ->
  new_ae g fuel st ty kind sbg bottom top objs <> Ok r.
Proof.
  intros g fuel st ty kind sbg bottom top objs lens sb stp r Hw Hb Ht Hbt Hg Hl Hm Hz E.
  assert (Lb := nth_error_lt _ _ _ Hb). assert (Lt := nth_error_lt _ _ _ Ht).
  assert (Bb := proj2 (wf_nth _ _ _ _ Hw Hb)).
  unfold new_ae in E. unfold getS at 1 2 in E. rewrite Hb, Ht in E. cbn [bind] in E. rewrite Hg in E.
  assert (Eth : sheet_thickness g lens None (zmin sb) (zmax stp) = lens).
  { unfold sheet_thickness, neqb. numR. destruct (Rleb_spec lens (0 - 1)), (Rleb_spec (0 - 1) lens); try reflexivity. lra. }
  rewrite Eth in E. apply bind_Ok in E as (x & Hx & _). revert Hx. apply sheet_loop_endless with (P := fun z => zmin sb < z); try assumption.
  - intros z Hzz. numR. lra.
  - numR. lra.
  - tauto.
  - intros k v Hk. destruct (col_like _ st st bottom _ _ _ Hw Hw Lb Hk) as (u & Hu).
    pose proof (Hbt _ _ _ Hu Hk). unfold col in Hu. rewrite Hb in Hu. pose proof (bounded_nth _ _ _ Bb Hu). lra.
Qed.
Print Assumptions C30_ends_refuted.

Example C30_example :
  new_ae (exg 0 6) 50 [mkSurface [0; 2] 1 0 2; mkSurface [5; 5] 5 5 5]%Q (sheet_type 0) 0 (mkSbg 3%Z None None) 0 1 [] = Err OutOfFuel.
Proof. vm_compute. reflexivity. Qed.

(** The remaining cases: positive (C28_sheets_end) and -1, which gives one
    sheet. *)
Theorem C30_ends_partial :
  forall (g : grid R) fuel st ty kind sbg bottom top objs trend sb stp,
  nth_error st bottom = Some sb -> nth_error st top = Some stp ->
  t_geometry ty = GSheet (-1) trend ->
  exists e, new_ae g (S fuel) st ty kind sbg bottom top objs = Ok (st, e) /\
    exists o, ae_objects e = [o] /\ ob_surfaces o = Some (bottom, top).
Proof.
  intros g fuel st ty kind sbg bottom top objs trend sb stp Hb Ht Hg. unfold new_ae. unfold getS at 1 2. rewrite Hb, Ht. cbn [bind]. rewrite Hg.
  assert (Eth : sheet_thickness g (-1) trend (zmin sb) (zmax stp) = zmax stp - zmin sb).
  { unfold sheet_thickness, neqb. numR. destruct (Rleb_spec (-1) (0 - 1)), (Rleb_spec (0 - 1) (-1)); try reflexivity; lra. }
  rewrite Eth. cbn [sheet_loop]. numR. destruct (Rleb_spec (zmax stp - (zmax stp - zmin sb)) (zmin sb)); [|lra]. cbn [negb].
  unfold getS at 1 2. rewrite Hb, Ht. cbn [bind]. rewrite add_object_eq. cbn [mapM copy_object ob_surfaces app].
  unfold copy_object. cbn [ob_surfaces]. unfold getS. rewrite Hb, Ht. cbn [bind].
  eexists. split; [reflexivity|]. eexists. split; reflexivity.
Qed.
Print Assumptions C30_ends_partial.

(** ** C31: background values *)
Theorem C31_background :
  forall (g : grid R) fuel st ty kind sbg bottom top objs st' e,
  new_ae g fuel st ty kind sbg bottom top objs = Ok (st', e) ->
  (forall f, bg_facies (t_bg ty) = Some f -> ae_bg_facies e = f) /\ (bg_facies (t_bg ty) = None -> ae_bg_facies e = s_facies sbg) /\
  (forall a, bg_azim (t_bg ty) = Some a -> ae_bg_azim e = Some a) /\ (bg_azim (t_bg ty) = None -> ae_bg_azim e = s_azim sbg) /\
  (forall d, bg_dip (t_bg ty) = Some d -> ae_bg_dip e = Some d) /\ (bg_dip (t_bg ty) = None -> ae_bg_dip e = s_dip sbg).
Proof.
  intros g fuel st ty kind sbg bottom top objs st' e E.
  unfold new_ae in E. apply bind_Ok in E as (sb & Hsb & E). apply bind_Ok in E as (sp & Hsp & E).
  apply bind_Ok in E as ((st1 & (l & lo) & hi) & Hl & E). apply bind_Ok in E as (cp & Hcp & E). injection E as <- <-.
  cbn [ae_bg_facies ae_bg_azim ae_bg_dip]. repeat split; intros; unfold pick; try (now rewrite H); reflexivity.
Qed.
Print Assumptions C31_background.

Example C31_example :
  exists st' e, new_ae (exg 0 6) 20 [mkSurface [0; 2] 1 0 2; mkSurface [5; 5] 5 5 5]%Q
    (mkType flat_cm GObjects (mkBg None (Some 10%Q) None)) 0 (mkSbg 3%Z (Some 7%Q) (Some 8%Q)) 0 1 [] = Ok (st', e) /\
    ae_bg_facies e = 3%Z /\ ae_bg_azim e = Some 10%Q /\ ae_bg_dip e = Some 8%Q.
Proof. do 2 eexists. split; [vm_compute; reflexivity|]. repeat split. Qed.
