(** C119: the starting points of channels and their migration, and the same from
    the ini-file. *)
From Coq Require Import List ZArith Reals Lra Lia String.
From Verif Require Import Base Num ParseModel ConfigModel ConfigSpec ConfigProofs ConfigProofs2 DeprecatedModel DeprecatedSpec DeprecatedProofs SurfaceModel SurfaceSpec SurfaceProofs
  StrataModel StrataProofs StrataProofs2 StrataProps AssignModel FaciesModel TroughModel TroughSpec TroughProps SheetModel ChannelModel ChannelProps2 FullModel FullSpec FullProofs FullProofs2 FullProps LinkModel LinkSpec LinkProofs LinkProps SizeSpec SizeProofs TroughProofs ChannelProofs ChannelProps2 SizeProps.
Import ListNotations.
Local Open Scope R_scope.

(** The channels that are first, second, ... on their level form rows; [offset k]
    is where the channel on level [k] (from the top) starts, measured to the left
    of the flow axis.  [mig] is the largest step between two levels, [width] the
    extent of the domain across the flow. *)
Definition migrates (width mig : R) (u : R) (steps : nat -> R) (offset : nat -> R) : Prop :=
  offset 0%nat = width * (u - 1 / 2) /\ forall k, offset (S k) = offset k + mig * (1 - 2 * steps k).

Lemma migrates_bounded width mig u steps offset k : migrates width mig u steps offset ->
  0 <= width -> 0 <= mig -> 0 <= u <= 1 -> (forall j, (j < k)%nat -> 0 <= steps j <= 1) ->
  Rabs (offset k) <= width / 2 + INR k * mig /\ forall j, (j < k)%nat -> Rabs (offset (S j) - offset j) <= mig.
Proof.
  intros [H0 HS] Hw Hm Hu Hs. split.
  - revert Hs. induction k as [|k IH]; intros Hs.
    + rewrite H0. cbn. apply Rabs_le. nra.
    + rewrite HS, S_INR. assert (IH' := IH ltac:(intros j K; apply Hs; lia)). specialize (Hs k ltac:(lia)).
      pose proof (Rle_abs (offset k)). pose proof (Rle_abs (- offset k)) as K. rewrite Rabs_Ropp in K. apply Rabs_le. nra.
  - intros j K. rewrite HS. specialize (Hs j K). apply Rabs_le. nra.
Qed.

Lemma make_level_nth cp g z : forall ys ds cs ys', make_level cp g z ys ds = Ok (cs, ys') ->
  List.length cs = List.length ys /\ List.length ys' = List.length ys /\
  forall i y, nth_error ys i = Some y -> exists d c, nth_error ds i = Some d /\ nth_error cs i = Some c /\
    ch_ztop c = z /\
    ld_curve d (channel_start (cc_flow cp * PI / 180) (g_x0 g) (g_y0 g) (g_lx g) (g_ly g) (cc_width cp) y) (cc_width cp) = Ok (ch_line c) /\
    nth_error ys' i = Some (y + cc_mig cp * (1 - 2 * ld_mig d)).
Proof.
  induction ys as [|y ys IH]; intros ds cs ys' H; cbn [make_level] in H.
  - injection H as <- <-. cbn. split; [reflexivity|]. split; [reflexivity|]. intros [|i] y; discriminate.
  - destruct ds as [|d ds]; [discriminate|]. apply bind_Ok in H as (line & Hl & H). apply bind_Ok in H as (c & Hc & H).
    apply bind_Ok in H as ([cs1 ys1] & Hr & H). cbn [fst snd] in H. injection H as <- <-.
    destruct (IH _ _ _ Hr) as (L1 & L2 & K). cbn [List.length]. rewrite L1, L2. split; [reflexivity|]. split; [reflexivity|].
    intros [|i] y' E; cbn [nth_error] in *; [|exact (K i y' E)]. injection E as <-. exists d, c.
    destruct (new_channel_fields _ _ _ _ _ _ _ _ _ Hc) as (-> & E2 & _). do 3 (split; [reflexivity || assumption|]).
    split; [assumption|]. f_equal. unfold uniform. lra.
Qed.

Lemma make_channels_nth cp g : forall zs ys ds cs, make_channels cp g zs ys ds = Ok cs ->
  forall i y, nth_error ys i = Some y -> exists dr : nat -> level_draw, exists offset : nat -> R,
    offset 0%nat = y /\ (forall k, offset (S k) = offset k + cc_mig cp * (1 - 2 * ld_mig (dr k))) /\
    forall k z, nth_error zs k = Some z -> nth_error (ds k) i = Some (dr k) /\
      exists c, nth_error cs (k * List.length ys + i) = Some c /\ ch_ztop c = z /\
      ld_curve (dr k) (channel_start (cc_flow cp * PI / 180) (g_x0 g) (g_y0 g) (g_lx g) (g_ly g) (cc_width cp) (offset k)) (cc_width cp) = Ok (ch_line c).
Proof.
  induction zs as [|z zs IH]; intros ys ds cs H i y Hy; cbn [make_channels] in H.
  - injection H as <-. exists (fun _ => mkLD (fun _ _ => Err OutOfFuel) 0 (mkCD 0 0 0%nat (fun _ => 0%nat))).
    exists (fix f k := match k with O => y | S k => f k + cc_mig cp * (1 - 2 * 0) end).
    split; [reflexivity|]. split; [reflexivity|]. intros [|k] z; discriminate.
  - apply bind_Ok in H as ([c1 y1] & H1 & H). apply bind_Ok in H as (rest & H2 & H). cbn [fst snd] in *. injection H as <-.
    destruct (make_level_nth _ _ _ _ _ _ _ H1) as (L1 & L2 & K). destruct (K i y Hy) as (d & c & D1 & C1 & C2 & C3 & Y1).
    destruct (IH _ _ _ H2 i _ Y1) as (dr & offset & O1 & O2 & O3).
    exists (fun k => match k with O => d | S k => dr k end), (fun k => match k with O => y | S k => offset k end).
    split; [reflexivity|]. split; [intros [|k]; [exact O1|apply O2]|]. intros [|k] z' E; cbn [nth_error] in E.
    + injection E as <-. split; [assumption|]. exists c. split; [|auto]. cbn. rewrite nth_error_app1; [assumption|].
      rewrite L1. apply nth_error_Some. congruence.
    + destruct (O3 k z' E) as (E1 & c' & E2 & E3 & E4). split; [assumption|]. exists c'. split; [|auto].
      rewrite nth_error_app2 by (rewrite L1; cbn; lia). rewrite L1, L2 in *. replace (S k * List.length ys + i - List.length ys)%nat with (k * List.length ys + i)%nat by (cbn; lia).
      assumption.
Qed.

(** C119: the starts of the [i]-th channels of all levels; the curve of a channel
    begins at the start (given relative to the flow axis) of its level. *)
Theorem C119_starts : forall fuel cp g bz tz us ds cs, generate_channels fuel cp g bz tz us ds = Ok cs ->
  (cc_no cp <= List.length us)%nat ->
  forall i u, (i < cc_no cp)%nat -> nth_error us i = Some u ->
  let flow := cc_flow cp * PI / 180 in
  exists dr offset, migrates (Rabs (g_lx g * sin flow) + Rabs (g_ly g * cos flow)) (cc_mig cp) u (fun k => ld_mig (dr k)) offset /\
    forall k c, nth_error cs (k * cc_no cp + i) = Some c -> nth_error (ds k) i = Some (dr k) /\
      let s := upstream flow (g_x0 g) (g_y0 g) (g_lx g) (g_ly g) (cc_width cp) (offset k) in
      ld_curve (dr k) (fst s - g_x0 g / 2, snd s - g_y0 g / 2) (cc_width cp) = Ok (ch_line c).
Proof.
  intros fuel cp g bz tz us ds cs H Hn i u Hi Hu flow. unfold generate_channels in H. apply bind_Ok in H as (f & _ & H).
  apply bind_Ok in H as (zs & _ & H). fold flow in H. set (ys := map _ _) in H.
  assert (Ly : List.length ys = cc_no cp) by (unfold ys; now rewrite map_length, firstn_length_le).
  assert (Hy : nth_error ys i = Some (domain_width flow (g_lx g) (g_ly g) * (u - 1 / 2))).
  { unfold ys. rewrite nth_error_map. rewrite <- (firstn_skipn (cc_no cp) us) in Hu. rewrite nth_error_app1 in Hu by (rewrite firstn_length_le; assumption).
    rewrite Hu. cbn. f_equal. unfold uniform. lra. }
  destruct (make_channels_nth _ _ _ _ _ _ H _ _ Hy) as (dr & offset & O1 & O2 & O3). rewrite Ly in O3.
  exists dr, offset. split; [split; assumption|]. intros k c Hc.
  destruct (make_channels_spec _ _ _ _ _ _ H) as [HT _]. rewrite Ly in HT.
  assert (LC : List.length cs = (List.length zs * cc_no cp)%nat).
  { rewrite <- (map_length ch_ztop), HT. clear. induction zs as [|z zs IH]; [reflexivity|]. cbn. now rewrite app_length, repeat_length, IH. }
  destruct (nth_error zs k) as [z|] eqn:Ez.
  - destruct (O3 k z Ez) as (E1 & c' & E2 & E3 & E4). rewrite Hc in E2. injection E2 as <-. split; [assumption|]. cbv zeta.
    rewrite <- C80_start_partial. exact E4.
  - exfalso. apply nth_error_None in Ez. assert (k * cc_no cp + i < List.length cs)%nat by (apply nth_error_Some; congruence). nia.
Qed.

(** C119: with draws from the unit interval no start is further from the flow
    axis than half the extent of the domain plus one [mig] per level, and one
    [mig] from the start above it. *)
Theorem C119_bounds : forall width mig u steps offset k, migrates width mig u steps offset ->
  0 <= width -> 0 <= mig -> 0 <= u <= 1 -> (forall j, (j < k)%nat -> 0 <= steps j <= 1) ->
  Rabs (offset k) <= width / 2 + INR k * mig /\ forall j, (j < k)%nat -> Rabs (offset (S j) - offset j) <= mig.
Proof. exact migrates_bounded. Qed.

(** Both directions are possible: every step up to [mig] to the left or right is
    taken for some draw. *)
Theorem C119_both_sides : forall mig s, 0 < mig -> Rabs s <= mig -> exists step, 0 <= step <= 1 /\ mig * (1 - 2 * step) = s.
Proof.
  intros mig s Hm Hs. exists ((1 - s / mig) / 2). pose proof (Rle_abs s). pose proof (Rle_abs (- s)) as K. rewrite Rabs_Ropp in K.
  assert (E : s = s / mig * mig) by (field; lra). split; [|field; lra]. split; nra.
Qed.

Section Link.
Context {F : Type} (fin : F -> option R) (is_nan : F -> bool).

(** C119: from the ini-file. *)
Theorem C119_from_file : forall (cf : config F) lk fuel draws st strata,
  link fin is_nan cf = Ok lk -> Forall (fsd_ok (columns (lk_grid lk))) draws -> generate lk fuel draws = Ok (st, strata) ->
  forall si fs ei e cs, nth_error strata si = Some fs -> nth_error (s_aes (fst fs)) ei = Some e -> nth_error (snd fs) ei = Some (OChannels cs) ->
  exists sec no angle width mig lx ly x0 y0 od, section_of cf si e sec /\
    has sec "channel_no" (Leaf (AInt (Z.of_nat no))) /\ number_at fin sec "flow_angle" angle /\ number_at fin sec "width" width /\
    (has sec "mig" (Leaf ANone) /\ mig = 0 \/ number_at fin sec "mig" mig) /\
    number_at fin (cf_model cf) "lx" lx /\ number_at fin (cf_model cf) "ly" ly /\ number_at fin (cf_model cf) "x0" x0 /\ number_at fin (cf_model cf) "y0" y0 /\
    (exists sd d, In sd draws /\ In d (fsd_draws sd) /\ od = fd_objects d) /\
    let flow := angle * PI / 180 in
    ((no <= List.length (od_starts od))%nat -> forall i u, (i < no)%nat -> nth_error (od_starts od) i = Some u ->
     exists dr offset, migrates (Rabs (lx * sin flow) + Rabs (ly * cos flow)) mig u (fun k => ld_mig (dr k)) offset /\
       forall k c, nth_error cs (k * no + i) = Some c -> nth_error (od_levels od k) i = Some (dr k) /\
         let s := upstream flow x0 y0 lx ly width (offset k) in
         ld_curve (dr k) (fst s - x0 / 2, snd s - y0 / 2) width = Ok (ch_line c)).
Proof.
  intros cf lk fuel draws st strata Hlk Hd Hg si fs ei e cs Hs He Ho.
  destruct (element_source _ _ _ _ _ _ _ _ Hlk Hd Hg _ _ _ _ _ Hs He Ho) as (sd & d & n & sec & cm & t & names & ids & id & fp & ft & S1 & S2 & S3 & S4 & S5 & S6 & S7 & S8 & _ & st0 & st1 & S9 & S10 & S11 & S12 & _).
  apply link_type_written in S8. cbn [fst] in S8. apply full_ae_inv in S9 as (sb0 & sp0 & B0 & T0 & o0 & Q1 & Q2 & Q3).
  destruct (ft_kind ft) as [lens tr shp|tp buffer agg mig te0|cp]; [destruct Q3 as (? & _ & Q3); discriminate|subst o0; cbn in Q1; apply bind_Ok in Q1 as (? & _ & Q1); apply bind_Ok in Q1 as (? & _ & Q1); discriminate|].
  subst o0. cbn in Q1. apply bind_Ok in Q1 as (l & Hl & Q1). injection Q1 as ->.
  destruct S8 as (A1 & A2 & A3 & A4 & A5 & A6 & A7 & A8 & _).
  destruct (C113_grid _ _ _ _ Hlk) as (X0 & Y0 & _ & _ & _ & _ & LX & LY & _).
  exists sec, (cc_no cp), (cc_flow cp), (cc_width cp), (cc_mig cp), (g_lx (lk_grid lk)), (g_ly (lk_grid lk)), (g_x0 (lk_grid lk)), (g_y0 (lk_grid lk)), (fd_objects d).
  split; [exists n, cm, t, names; auto|]. do 8 (split; [assumption|]). split; [eauto|]. cbv zeta. exact (C119_starts _ _ _ _ _ _ _ _ Hl).
Qed.
End Link.
(** Two channels on two levels; the first moves by its full step, the second
    stays. *)
Example migrate_case :
  let draw m := mkLD (fun s w => Ok [mkCP (fst s) (snd s) 1 0]) m ex_cd in
  exists cs, generate_channels 5 (mkCParams 2 0 3 4 2 (1/2) None 1 (ex_ct (S_ "massive") 0)) ex_grid 0 10 [0; 1] (fun _ => [draw 0; draw (1/2)]) = Ok cs /\
  map (fun c => map cp_y (ch_line c)) cs = [[0]; [10]; [1]; [10]].
Proof.
  cbv zeta. unfold generate_channels. cbn [cc_trend first_zfactor bind cc_agg cc_depth cc_buffer channel_levels].
  do 3 (match goal with |- context [Rltb ?a ?b] =>
    first [replace (Rltb a b) with true by (symmetry; apply Rltb_true; lra) | replace (Rltb a b) with false by (symmetry; apply Rltb_false; lra)] end; cbn [channel_levels bind]).
  eexists. split; [reflexivity|]. cbn -[cos sin PI Rabs]. replace (0 * PI / 180) with 0 by lra. rewrite sin_0, cos_0.
  unfold uniform, domain_width. cbn -[cos sin PI Rabs]. rewrite sin_0, cos_0. rewrite !Rmult_0_r, !Rmult_1_r, Rabs_R0, (Rabs_pos_eq 10) by lra.
  repeat (apply f_equal2; [apply f_equal2; [lra|reflexivity]|]). reflexivity.
Qed.
Print Assumptions C119_starts.
Print Assumptions C119_bounds.
Print Assumptions C119_both_sides.
Print Assumptions C119_from_file.
