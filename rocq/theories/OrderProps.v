(** C131: what does not depend on rounding. *)
From Coq Require Import List ZArith QArith Bool Ascii String Reals Sorted Lra Lia.
From Flocq Require Import Core BinarySingleNaN.
From Verif Require Import Base Num OrderSpec OrderModel FloatModel ParseModel ConfigModel SurfaceModel SurfaceSpec SurfaceProofs StrataModel StrataSpec
  StrataProofs StrataProofs2 StrataProofs3 AssignModel AssignSpec AssignProofs AssignProofs2 AssignProps AssignProps2 BuildModel BuildSpec BuildProofs BuildProofs2.
Import ListNotations.
Local Open Scope R_scope.
Local Open Scope list_scope.

Lemma strata_of_model (N : Num R) (O : TrueOrder N) g fuel contacts params draws st strata :
  Forall (sd_ok (columns g)) draws ->
  generate_model (H := N) g fuel contacts params draws = Ok (st, strata) ->
  wf (columns g) st /\ Forall (stratum_ok st) strata /\ List.length strata = List.length params /\
  (exists base, stratum_chain 0 strata base /\ (strata <> [] -> forall k v, col st base k = Some v -> v <= g_z0 g)) /\
  (forall k, (k < columns g)%nat -> col st 0 k = Some (g_lz g)).
Proof.
  intros Hd E. unfold generate_model in E.
  apply bind_Ok in E as (s & Hs & E). apply flat_surface in Hs as ->. cbn [alloc] in E.
  assert (W0 : wf (columns g) ([] ++ [mkSurface (repeat (g_lz g) (columns g)) (g_lz g) (g_lz g) (g_lz g)])).
  { apply wf_alloc; [constructor|apply repeat_length|apply flat_bounded]. }
  apply (model_loop_spec _ _ _ _ _ _ _ _ _ _ _ _ 0%nat) in E; try assumption; try (simpl; lia); try (now constructor); try reflexivity.
  destruct E as (W & K & base & Hch & Hok & Hbl & Hn & Hz & Hnil & Hlen). simpl in Hn, Hlen.
  split; [exact W|]. split; [exact Hok|]. split; [congruence|]. split; [exists base; split; [exact Hch|]; intros Hs; apply Hz; intros ->; apply Hs; destruct strata; [reflexivity|discriminate Hlen]|].
  intros k Hk. rewrite (same_col _ _ _ _ (K 0%nat ltac:(simpl; lia))). apply (col_flat _ []). exact Hk.
Qed.

(** C131.  However sums, products and quotients are rounded: the strata are
    stacked from lz down to the origin or below, without gaps; *)
Theorem C131_strata :
  forall (N : Num R), TrueOrder N ->
  forall (g : grid R) fuel contacts params draws st strata,
  Forall (sd_ok (columns g)) draws -> params <> [] ->
  generate_model (H := N) g fuel contacts params draws = Ok (st, strata) ->
  List.length strata = List.length params /\
  (exists base, stratum_chain 0 strata base /\ forall k v, col st base k = Some v -> v <= g_z0 g) /\
  Forall (fun s => below st (s_bottom s) (s_top s)) strata /\
  (forall k, (k < columns g)%nat -> col st 0 k = Some (g_lz g)).
Proof.
  intros N O g fuel contacts params draws st strata Hd Hp E.
  destruct (strata_of_model N O g fuel contacts params draws st strata Hd E) as (_ & Hok & Hlen & (base & Hch & Hb) & Ht).
  split; [exact Hlen|]. split; [|split; [|exact Ht]].
  - exists base. split; [exact Hch|]. apply Hb. intros ->. destruct params; [congruence|discriminate].
  - revert Hok. apply Forall_impl. intros s0 (_ & H & _). exact H.
Qed.
Print Assumptions C131_strata.

(** the elements of a stratum fill it, do not overlap, and lie between its
    surfaces and within their vertical bounds; *)
Theorem C131_elements :
  forall (N : Num R), TrueOrder N ->
  forall (g : grid R) fuel contacts params draws st strata s,
  Forall (sd_ok (columns g)) draws ->
  generate_model (H := N) g fuel contacts params draws = Ok (st, strata) -> In s strata ->
  Forall (fun e => below st (ae_bottom e) (ae_top e) /\ below st (s_bottom s) (ae_bottom e) /\ below st (ae_top e) (s_top s)) (s_aes s) /\
  (forall sb stp, nth_error st (s_bottom s) = Some sb -> nth_error st (s_top s) = Some stp -> zmean sb < zmean stp ->
     ae_chain (s_top s) (s_aes s) (s_bottom s) /\
     forall k z b t, col st (s_bottom s) k = Some b -> col st (s_top s) k = Some t -> b <= z <= t ->
       exists e lo hi, In e (s_aes s) /\ col st (ae_bottom e) k = Some lo /\ col st (ae_top e) k = Some hi /\ lo <= z <= hi) /\
  (forall k b t z, col st (s_bottom s) k = Some b -> col st (s_top s) k = Some t -> b <= z <= t -> s_zmin s <= z <= s_zmax s) /\
  (forall e, In e (s_aes s) ->
    s_zmin s <= ae_zmin e /\ ae_zmax e <= s_zmax s /\
    forall k b t z, col st (ae_bottom e) k = Some b -> col st (ae_top e) k = Some t -> b <= z <= t -> ae_zmin e <= z <= ae_zmax e).
Proof.
  intros N O g fuel contacts params draws st strata s Hd E Hin.
  destruct (strata_of_model N O g fuel contacts params draws st strata Hd E) as (W & Hok & _). rewrite Forall_forall in Hok.
  destruct (Hok s Hin) as ((L1 & L2) & _ & Hlo & Hhi & He & Hc). split; [|split; [|split]].
  - revert He. apply Forall_impl. intros e (_ & A & B & C & _). auto.
  - intros sb stp Hb Ht Hz. destruct (proj1 (Hc _ _ Hb Ht) Hz) as (Hne & Hch). split; [exact Hch|].
    intros k z b t Hkb Hkt Hzz. eapply ae_chain_covers; eauto.
    intros e Hie. rewrite Forall_forall in He. destruct (He e Hie) as (((G & _) & _) & _). exact G.
  - intros k b t z Hb Ht Hz. specialize (Hlo _ _ Hb). specialize (Hhi _ _ Ht). lra.
  - intros e Hie. rewrite Forall_forall in He. destruct (He e Hie) as ((_ & Alo & Ahi & _) & _ & _ & _ & B1 & B2).
    split; [assumption|]. split; [assumption|]. intros k b t z Hb Ht Hz. specialize (Alo _ _ Hb). specialize (Ahi _ _ Ht). lra.
Qed.
Print Assumptions C131_elements.

(** the sheets of an element fill it; *)
Theorem C131_sheets :
  forall (N : Num R), TrueOrder N ->
  forall (g : grid R) fuel st ty kind sbg bottom top objs st' e lens trend,
  wf (columns g) st -> (bottom < List.length st)%nat -> (top < List.length st)%nat -> below st bottom top ->
  t_geometry ty = GSheet lens trend ->
  new_ae (H := N) g fuel st ty kind sbg bottom top objs = Ok (st', e) ->
  sheet_chain top (ae_objects e) bottom /\
  forall k z b t, col st' bottom k = Some b -> col st' top k = Some t -> b <= z <= t ->
    exists o x y lo hi, In o (ae_objects e) /\ ob_surfaces o = Some (x, y) /\
      col st' x k = Some lo /\ col st' y k = Some hi /\ lo <= z <= hi.
Proof.
  intros N O g fuel st ty kind sbg bottom top objs st' e lens trend Hw Hb Ht Hbt Hg E.
  assert (Hne : ae_objects e <> []).
  { unfold new_ae in E. apply bind_Ok in E as (sb & Hsb & E). apply bind_Ok in E as (sp & Hsp & E).
    apply bind_Ok in E as ((st1 & (l & lo) & hi) & Hl & E). apply bind_Ok in E as (cp & Hcp & E). injection E as <- <-.
    cbn [ae_objects]. rewrite Hg in Hl.
    eapply (sheet_loop_spec (columns g) bottom (List.length st)) in Hl; try assumption; try lia; [|intros _; assumption].
    destruct Hl as (_ & _ & _ & _ & _ & _ & new & -> & Hne & _). destruct new; [congruence|discriminate]. }
  apply new_ae_spec in E; try assumption. destruct E as (W & K & Eb & Et & Hok & Hch).
  destruct Hok as (_ & _ & _ & Hob & _ & Hcp). specialize (Hch _ _ Hg). split; [assumption|].
  intros k z b t Hkb Hkt Hz. eapply sheet_chain_covers; eauto.
  intros o x y Ho Hs. rewrite Forall_forall in Hob. specialize (Hob o Ho). unfold object_bounds in Hob. rewrite Hs in Hob. tauto.
Qed.
Print Assumptions C131_sheets.

(** every cell is in the element and object reported for it; *)
Theorem C131_cells :
  forall (N : Num R), TrueOrder N ->
  forall (D : Type) (m : list (astrat R D)) (xs ys zs : list R) (d : D) xi yi zi x y z,
  nth_error xs xi = Some x -> nth_error ys yi = Some y -> nth_error zs zi = Some z ->
  exists v, assign_points (H := N) m xs ys zs d xi yi zi = Some v /\
  (v = mkCell 0 0 (-1) (-1) (-1) (Some n0) (Some n0) \/
   c_facies v <> (-1)%Z /\
   exists si s e, c_strata v = Z.of_nat si /\ nth_error m si = Some s /\ In e (t_aes s) /\ c_ae v = e_num e /\ c_hat v = e_type e /\
     let p := mkPoint x y z xi yi in
     ((exists o d1 d2 w, In o (e_objs e) /\ o_zmin o <= z <= o_zmax o /\ o_check o d1 p = (d2, Some w) /\
         c_facies v = w_facies w /\ c_azim v = w_azim w /\ c_dip v = w_dip w /\ c_ha v = w_ha w) \/
      (e_sheet e = false /\ e_bottom e xi yi < z < e_top e xi yi /\
         c_facies v = e_bg_facies e /\ c_azim v = e_bg_azim e /\ c_dip v = e_bg_dip e))).
Proof.
  intros N O D m xs ys zs d xi yi zi x y z Hx Hy Hz. unfold assign_points.
  destruct (AssignProps2.Forall2_nth _ _ _ _ _ (towers_sound (N := N) m (grid_towers xs ys zs) d) (grid_tower xs ys zs xi yi x y Hx Hy)) as (rs & Er & Hr).
  rewrite Er. destruct (AssignProps2.Forall2_nth _ _ _ _ _ Hr (tower_cell zs xi yi x y zi z Hz)) as (r & Err & Hl). rewrite Err. eexists. split; [reflexivity|].
  destruct r as [[i si]|]; [right|left; reflexivity].
  destruct (Hl i si eq_refl) as (Hf & s & e & H1 & H2 & _ & _ & H3 & H4 & H5). cbn [cell_of c_facies c_strata c_ae c_ha c_hat c_azim c_dip].
  split; [assumption|]. exists si, s, e. repeat (split; [first [assumption|reflexivity]|]).
  destruct H5 as [(o & d1 & d2 & w & Ho & Hb & Hc & Hw)|(Hs & Hb & Hw)]; [left; exists o, d1, d2, w; auto|right; auto].
Qed.
Print Assumptions C131_cells.

(** and under the conditions of C34 every cell of a generated model is
    assigned, as if all elements and objects had been searched. *)
Theorem C131_every_cell :
  forall (N : Num R), TrueOrder N ->
  forall (D : Type) (d0 : D) (g : grid R) fuel contacts params draws st strata ny type_id look probe xi yi ps,
  Forall (sd_ok (columns g)) draws -> params <> [] ->
  generate_model (H := N) g fuel contacts params draws = Ok (st, strata) ->
  Forall (fun s => s_aes s <> []) strata ->
  (xi * ny + yi < columns g)%nat -> column (xi, yi) ps ->
  Forall (fun p => g_z0 g <= p_z p <= g_lz g) ps ->
  (forall p a, In p ps -> col st a (xi * ny + yi) <> Some (p_z p)) ->
  (forall num oi p, w_facies (look num oi p) <> (-1)%Z) ->
  let m := to_model (H := N) ny type_id look probe st 0 0 strata in
  let hit := fun (o : aobj R D) p => snd (o_check o d0 p) in
  objects_fit hit m ps ->
  forall d,
  snd (tower (H := N) m ps (0, 0, 0)%nat d) = map (exhaustive hit m) ps /\
  Forall (fun r => r <> None) (snd (tower (H := N) m ps (0, 0, 0)%nat d)).
Proof.
  intros N O D d0 g fuel contacts params draws st strata ny type_id look probe xi yi ps Hd Hne E Haes Hk Hcol Hz Hav Hlook m hit Hfit d.
  destruct (strata_of_model N O _ _ _ _ _ _ _ Hd E) as (W & Hok & _).
  pose proof (generate_objects_ok _ _ _ _ _ _ _ Hd E) as Hobj.
  destruct (C131_strata N O _ _ _ _ _ _ _ Hd Hne E) as (Hlen & (base & Hch & Hbase) & _ & Htop).
  assert (Hps : forall p, In p ps -> p_xi p = xi /\ p_yi p = yi).
  { intros p Hp. destruct Hcol as [Hc _]. rewrite Forall_forall in Hc. specialize (Hc p Hp). now injection Hc. }
  assert (Hs0 : strata <> []). { intros ->. destruct params; [congruence|discriminate]. }
  assert (Ltop : (0 < List.length st)%nat).
  { specialize (Htop _ Hk). unfold col in Htop. destruct st; [discriminate|cbn; lia]. }
  assert (Hcov : forall p, In p ps -> exists s e, In s m /\ In e (t_aes s) /\
     e_bottom e (p_xi p) (p_yi p) <= p_z p <= e_top e (p_xi p) (p_yi p) /\ search_ae hit p e <> None).
  { intros p Hp.
    apply (built_covered d0 ny type_id look probe g st strata W Hok Hobj xi yi Hk ps Hps Hlook Hfit 0%nat base); auto.
    rewrite Forall_forall in Hz. specialize (Hz p Hp).
    assert (Lb : (base < List.length st)%nat).
    { clear -Hch Hok Hs0. revert Hch Hok. generalize 0%nat. induction strata as [|s l IH]; intros t Hc Ho; [congruence|].
      inversion Ho as [|? ? Hs Ho']; subst. destruct Hc as (_ & Hc). destruct l as [|s' l].
      - cbn in Hc. subst base. apply Hs.
      - apply (IH ltac:(discriminate) _ Hc Ho'). }
    destruct (surf_col ny g st W xi yi Hk base Lb) as (b & Hb & _). exists b, (g_lz g). repeat split; auto; [|lra].
    specialize (Hbase _ _ Hb). lra. }
  assert (Hfound : forall p, In p ps -> exhaustive hit m p <> None).
  { intros p Hp. destruct (Hcov p Hp) as (s & e & H1 & H2 & _ & H3).
    assert (search hit m p <> None); [|unfold exhaustive; now destruct (search hit m p) as [[? [? [? ?]]]|]].
    exact (covered_found d0 ny type_id look probe st strata p s e H1 H2 H3). }
  assert (EE : snd (tower m ps (0, 0, 0)%nat d) = map (exhaustive hit m) ps).
  { rewrite <- (until_missed_all (map (exhaustive hit m) ps)); [|apply Forall_map; now apply Forall_forall].
    apply (resume_exhaustive hit m (xi, yi)).
    - exact (built_pure d0 ny type_id look probe st strata Hok Hobj ps Hfit).
    - exact (built_no_lost d0 ny type_id look probe g st strata W Hok Hobj xi yi Hk ps Hps Hlook Hfit).
    - exact (built_bounds d0 ny type_id look probe g st strata W Hok Hobj xi yi Hk ps Hps Hfit).
    - exact (built_tops d0 ny type_id look probe g st strata W Hok Hobj xi yi Hk ps Hps Hfit).
    - exact Hcol.
    - exact (built_objects_once d0 ny type_id look probe g st strata W Hok Hobj xi yi Hk ps Hps Hfit).
    - apply (tiled_left_once hit m (xi, yi) ps Hcol). split; [exact Hcov|split].
      + exact (built_connected d0 ny type_id look probe g st strata W Hok Hobj xi yi Hk ps Hps Hlook Hfit).
      + exact (strata_sorted ny type_id look probe g st W xi yi Hk ps Hps strata 0 0 0 base Hok Hch). }
  split; [exact EE|]. rewrite EE. apply Forall_map. now apply Forall_forall.
Qed.
Print Assumptions C131_every_cell.

(** The arithmetic of double precision is such an arithmetic: on finite numbers
    of binary64, as long as nothing overflows, the operations used by Python
    give what [NumF] gives. *)
Lemma TrueOrderF : TrueOrder NumF.
Proof. intros x y. reflexivity. Qed.
Theorem C131_doubles :
  TrueOrder NumF /\
  (forall x y : b64, is_finite x = true -> is_finite y = true ->
   let big := bpow radix2 1024 in
   (Rabs (nadd (Num := NumF) (B2R x) (B2R y)) < big -> B2R (fadd x y) = nadd (Num := NumF) (B2R x) (B2R y) /\ is_finite (fadd x y) = true) /\
   (Rabs (nsub (Num := NumF) (B2R x) (B2R y)) < big -> B2R (fsub x y) = nsub (Num := NumF) (B2R x) (B2R y) /\ is_finite (fsub x y) = true) /\
   (Rabs (nmul (Num := NumF) (B2R x) (B2R y)) < big -> B2R (fmul x y) = nmul (Num := NumF) (B2R x) (B2R y) /\ is_finite (fmul x y) = true) /\
   (B2R y <> 0 -> Rabs (ndiv (Num := NumF) (B2R x) (B2R y)) < big ->
      B2R (fdiv x y) = ndiv (Num := NumF) (B2R x) (B2R y) /\ is_finite (fdiv x y) = true) /\
   Bleb x y = nleb (Num := NumF) (B2R x) (B2R y)) /\
  (forall z, Rabs (nofZ (Num := NumF) z) < bpow radix2 1024 -> B2R (fofZ z) = nofZ (Num := NumF) z /\ is_finite (fofZ z) = true).
Proof.
  split; [exact TrueOrderF|]. split.
  - intros x y Fx Fy big. cbn [nadd nsub nmul ndiv nleb NumF]. unfold fl, fadd, fsub, fmul, fdiv. repeat split.
    + pose proof (Bplus_correct 53 1024 _ _ mode_NE x y Fx Fy) as C. rewrite Rlt_bool_true in C by exact H. apply C.
    + pose proof (Bplus_correct 53 1024 _ _ mode_NE x y Fx Fy) as C. rewrite Rlt_bool_true in C by exact H. apply C.
    + pose proof (Bminus_correct 53 1024 _ _ mode_NE x y Fx Fy) as C. rewrite Rlt_bool_true in C by exact H. apply C.
    + pose proof (Bminus_correct 53 1024 _ _ mode_NE x y Fx Fy) as C. rewrite Rlt_bool_true in C by exact H. apply C.
    + pose proof (Bmult_correct 53 1024 _ _ mode_NE x y) as C. rewrite Rlt_bool_true in C by exact H. apply C.
    + pose proof (Bmult_correct 53 1024 _ _ mode_NE x y) as C. rewrite Rlt_bool_true in C by exact H.
      destruct C as (_ & C & _). rewrite C, Fx, Fy. reflexivity.
    + pose proof (Bdiv_correct 53 1024 _ _ mode_NE x y H) as C. rewrite Rlt_bool_true in C by assumption. apply C.
    + pose proof (Bdiv_correct 53 1024 _ _ mode_NE x y H) as C. rewrite Rlt_bool_true in C by assumption.
      destruct C as (_ & C & _). rewrite C. exact Fx.
    + pose proof (Bleb_correct 53 1024 x y Fx Fy) as C. rewrite C. destruct (Rle_bool_spec (B2R x) (B2R y)) as [L|L]; symmetry.
      * apply Rleb_true. exact L.
      * apply Rleb_false. exact L.
  - intros z. cbn [nofZ NumF]. unfold fl, fofZ. intros H.
    pose proof (binary_normalize_correct 53 1024 _ _ mode_NE z 0 false) as C. cbv zeta in C.
    replace (F2R {| Fnum := z; Fexp := 0 |} : R) with (IZR z) in C by (unfold F2R; cbn; lra).
    rewrite Rlt_bool_true in C by exact H. split; apply C.
Qed.
Print Assumptions C131_doubles.

(** An element of 0.1 m on top of one filling the rest of a grid of 6 m, in
    double precision. *)
Definition odraws : list (stratum_draws R) := [mkSD [0] 0 [mkDraw (1/10) 1 0 0 [0] []; mkDraw 9 1 0 0 [0] []]].
Definition oz : R := fl (6 - fl (1 / 10 + 0)).
Lemma fl_sixteenths z : (Z.abs z < 2 ^ 53)%Z -> fl (IZR z / 16) = IZR z / 16.
Proof.
  intros Hz. apply round_generic; [apply valid_rnd_N|]. apply generic_format_FLT.
  exists (Float radix2 z (-4)); [|exact Hz|cbn; lia]. unfold F2R. cbn. lra.
Qed.
Lemma fl_mono x y : x <= y -> fl x <= fl y.
Proof. apply round_le; [apply FLT_exp_valid; reflexivity|apply valid_rnd_N]. Qed.
Lemma fl_between z x y : (Z.abs x < 2 ^ 53)%Z -> (Z.abs y < 2 ^ 53)%Z -> IZR x / 16 <= z <= IZR y / 16 -> IZR x / 16 <= fl z <= IZR y / 16.
Proof. intros Hx Hy [A B]. rewrite <- (fl_sixteenths x Hx) at 1. rewrite <- (fl_sixteenths y Hy) at 1. split; now apply fl_mono. Qed.
Lemma oz_between : 94 / 16 <= oz <= 95 / 16.
Proof.
  pose proof (fl_between (1 / 10 + 0) 1 2 ltac:(reflexivity) ltac:(reflexivity) ltac:(lra)).
  apply (fl_between (6 - fl (1 / 10 + 0)) 94 95); [reflexivity|reflexivity|lra].
Qed.
Example C131_example :
  exists st s e1 e2, generate_model (H := NumF) rg 5 [] rparams odraws = Ok (st, [s]) /\ s_aes s = [e1; e2] /\
  col st (ae_top e1) 0 = Some 6 /\ col st (ae_bottom e1) 0 = Some oz /\ col st (ae_top e2) 0 = Some oz /\ col st (ae_bottom e2) 0 = Some 0 /\
  5.8 < oz < 6 /\ Forall (sd_ok (columns rg)) odraws.
Proof.
  pose proof oz_between as Hz.
  assert (H2 : fl (oz - fl (9 + 0)) <= 0).
  { pose proof (fl_between (9 + 0) 144 144 ltac:(reflexivity) ltac:(reflexivity) ltac:(lra)) as H9.
    pose proof (fl_between (oz - fl (9 + 0)) (-160) 0 ltac:(reflexivity) ltac:(reflexivity) ltac:(lra)). lra. }
  unfold generate_model.
  repeat (cbn -[Rleb Rplus Rmult Rminus Rdiv IZR Int_part fl oz]; try fold oz; rdec).
  cbn -[Rleb Rplus Rmult Rminus Rdiv IZR Int_part fl oz].
  do 4 eexists. split; [reflexivity|]. split; [reflexivity|]. cbn. repeat split; try lra. repeat constructor.
Qed.
