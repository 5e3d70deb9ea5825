(** A run for C116 and C117: the file of LinkExamples with the numbers of the
    random generators. *)
From Coq Require Import List ZArith QArith Bool Ascii String Reals Lia Lra.
From Verif Require Import Base Num ParseModel ConfigModel ConfigSpec ConfigProofs2 ConfigProps DeprecatedModel DeprecatedSpec
  SurfaceModel SurfaceSpec SurfaceProps StrataModel StrataProps AssignModel AssignSpec AssignProps BuildModel FaciesModel TroughModel SheetModel ChannelModel FullModel FullSpec FullProps LinkModel LinkSpec LinkProofs LinkProps LinkExamples SizeSpec ChoiceModel ChoiceSpec ChoiceProofs ChoiceProps.
Import ListNotations.
Local Open Scope string_scope.
Local Open Scope R_scope.

(** Eight standard deviations: 5 + 0.5 * 8 = 9. *)
Definition ch_raw : raw_stratum := mkRawS [0] (1/2) [mkRaw 8 1 0 (1/2) [0] lk_od].
Lemma ch_choose : prob_choose 1 [1] (1/2) = Ok 0%nat.
Proof.
  apply C116_choice_interval; [lra| |].
  - apply C116_choice_fails. unfold sum_first. cbn. split; [lia|]. split; [reflexivity|]. split; [lra|]. constructor; [lra|constructor].
  - split; [cbn; lia|]. unfold sum_first. cbn. lra.
Qed.
Lemma ch_options i n : In (i, n) [(-1, "gravel"); (-2, "mud")]%Z -> link_options lk_fin lk_cf i = Ok (mkOptions [S_ n] [1] [5] (0, 0)).
Proof. intros [[= <- <-]|[[= <- <-]|[]]]; lazy -[IZR]; reflexivity. Qed.
Lemma ch_draw n : draw_stratum (mkOptions [S_ n] [1] [5] (0, 0)) 0 ch_raw = Ok (mkFSD [0] 0 [mkFD 9 1 0 0 [0] lk_od]).
Proof.
  unfold draw_stratum. cbn [so_names so_probs List.length ch_raw rs_first rs_rounds rs_field]. rewrite ch_choose. cbn [bind draw_rounds].
  assert (E : draw_round (mkOptions [S_ n] [1] [5] (0, 0)) 0 0 (mkRaw 8 1 0 (1/2) [0] lk_od) = Ok (mkFD 9 1 0 0 [0] lk_od)).
  { unfold draw_round. cbn [so_names choose nth_error bind index_of so_probs List.length so_means so_avul]. rewrite (proj2 (pystr_eqb_eq (S_ n) (S_ n)) eq_refl). cbn [bind].
    change (pyget [5] (Z.of_nat 0)) with (Ok 5). cbn [bind]. unfold normal. destruct (Rltb (5 * (1 / 10)) 0) eqn:K; [apply TroughProofs.Rltb_true in K; lra|].
    cbn [bind rw_normal rw_next rw_u rw_avul rw_field rw_objects fst snd]. rewrite ch_choose. cbn [bind].
    destruct (Rleb_spec 1 0); [lra|]. replace (5 + 5 * (1 / 10) * 8) with 9 by lra. reflexivity. }
  rewrite E. reflexivity.
Qed.
Example ch_runs : Forall (raw_ok (columns (lk_grid lk_linked))) [ch_raw; ch_raw] /\ generate_raw lk_fin lk_cf lk_linked 5 [ch_raw; ch_raw] = Ok (lk_st, lk_strata).
Proof.
  split.
  - assert (K : raw_ok 1 ch_raw) by (split; [reflexivity|]; split; [cbn; lra|]; constructor; [split; [reflexivity|cbn; lra]|constructor]).
    constructor; [exact K|]. constructor; [exact K|constructor].
  - unfold generate_raw. cbn [draw_strata]. rewrite (ch_options (-1 - Z.of_nat 0) "gravel") by (left; reflexivity). cbn [bind].
    match goal with |- context [pyget ?l (-1 - Z.of_nat 0)] => change (pyget l (-1 - Z.of_nat 0)) with (Ok (mkFP [lk_type 1 1] 0 (mkSbg 0%Z (Some 0) (Some 0)))) end.
    cbn [bind fp_avul_prob]. rewrite ch_draw. cbn [bind]. rewrite (ch_options (-1 - Z.of_nat 1) "mud") by (right; left; reflexivity). cbn [bind].
    match goal with |- context [pyget ?l (-1 - Z.of_nat 1)] => change (pyget l (-1 - Z.of_nat 1)) with (Ok (mkFP [lk_type 0 0] 0 (mkSbg 1%Z (Some 0) (Some 0)))) end.
    cbn [bind fp_avul_prob]. rewrite ch_draw. cbn [bind]. exact lk_runs.
Qed.

(** C118: with an avulsion the bottom of an element should lie deeper, at the
    expense of the element below (docs/methods.rst l. 62-66).  It lies higher: an
    element from 6 with thickness 2 has its bottom at 4, with an avulsion of 1 at
    5, in every column. *)
Definition av_run (u : Q) :=
  generate_model (exg 0 6) 20 [] [mkSP [StrataProps.trough_type] (1#2)%Q (mkSbg 3%Z None None)]
    [mkSD [0; 0]%Q 0 [mkDraw 2%Q u 1%Q 0 [0; 0]%Q []; mkDraw 9%Q 1%Q 1%Q 0 [0; 0]%Q []]].
Definition first_bottom (r : res (store Q * list (stratum Q))) : option (list Q) :=
  match r with
  | Ok (st, s :: _) => match s_aes s with e :: _ => option_map vals (nth_error st (ae_bottom e)) | [] => None end
  | _ => None
  end.
Theorem C118_avulsion_refuted : exists u0 u1 : Q, (u0 <= 1#2)%Q /\ ~ (u1 <= 1#2)%Q /\
  first_bottom (av_run u1) = Some [4; 4]%Q /\ first_bottom (av_run u0) = Some [5; 5]%Q.
Proof. exists 0%Q, 1%Q. split; [discriminate|]. split; [intros K; apply Qle_bool_iff in K; discriminate|]. split; vm_compute; reflexivity. Qed.
(** In general, from the thickness of C117: the bottom is the higher the larger
    the avulsion. *)
Theorem C118_raised_partial : forall names means pr a0 a1 i r h, thickness names means pr a0 a1 i r h ->
  exists m, In m means /\ 0 <= m /\
    (pr < rw_u r -> forall z, z - h = z - (m + m / 10 * rw_normal r)) /\
    (rw_u r <= pr -> 0 < a0 -> a0 <= a1 -> 0 <= rw_avul r <= 1 -> forall z, z - (m + m / 10 * rw_normal r) < z - h).
Proof.
  intros names means pr a0 a1 i r h (n & j & m & _ & _ & _ & Hm & Hm0 & H). exists m. split; [eapply nth_error_In; eassumption|]. split; [assumption|].
  split.
  - intros K z. destruct H as [[K' _]|[_ ->]]; lra.
  - intros K Ha Hb Hu z. destruct H as [[_ ->]|[K' _]]; [|lra]. assert (0 <= (a1 - a0) * rw_avul r) by (apply Rmult_le_pos; lra). lra.
Qed.
Print Assumptions C118_avulsion_refuted.
Print Assumptions C118_raised_partial.
