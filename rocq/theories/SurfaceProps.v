(** Properties C09 and C20-C22: grids and contact surfaces. *)
From Coq Require Import List ZArith QArith Bool Ascii String Reals Lra Lia.
From Verif Require Import Base Num ParseModel ConfigModel ConfigSpec ConfigProofs SurfaceModel SurfaceSpec SurfaceProofs.
Import ListNotations.
Local Open Scope R_scope.

(** ** C09: every accepted contact model can be built *)

(** A mode written with other letters is accepted and stored as written, and
    the constructor then fails. *)
Theorem C09_contact_model_refuted :
  forall (c : converters R) (z : R), to_float c (S_ "2") = Ok z ->
  exists (ts : list pystr) (cm : contact R),
    parse_contact_model c (Node (map (fun s => Leaf (AStr s)) ts)) true = Ok cm /\
    forall n field, new_surface n cm field = Err AttributeError.
Proof.
  intros c z Hz. exists [S_ "Flat"; S_ "2"], (mkContact (S_ "Flat") (Some z) None). split.
  - cbv - [to_float]. cbv - [to_float] in Hz. now rewrite Hz.
  - intros n field. reflexivity.
Qed.
Print Assumptions C09_contact_model_refuted.

(** With the mode written in small letters every accepted model gives a surface
    (contact models of strata; those of elements get their depth from the
    stratum).  The full statement would not need the first hypothesis. *)
Theorem C09_contact_model_partial :
  forall (c : converters R) (depth : bool) (ts : list pystr) (cm : contact R) (z : R) (n : nat) (field : list R),
  cm_mode cm = S_ "flat" \/ cm_mode cm = S_ "random" ->
  (0 < n)%nat -> List.length field = n ->
  parse_contact_model c (Node (map (fun s => Leaf (AStr s)) ts)) depth = Ok cm ->
  exists s, new_surface n (if depth then cm else mkContact (cm_mode cm) (Some z) (cm_random cm)) field = Ok s.
Proof.
  intros c depth ts cm z n field Hm Hn Hf H. apply parse_contact_spec in H.
  assert (Hne : forall w, map (fun f : R => f + w) field <> []).
  { intros w E. apply (f_equal (@List.length R)) in E. rewrite map_length in E. simpl in E. lia. }
  assert (Hflat : forall m z r, m = S_ "flat" -> exists s, new_surface n (mkContact m (Some z) r) field = Ok s).
  { intros m z0 r ->. eexists. reflexivity. }
  assert (Hrand : forall m z r, m = S_ "random" -> exists s, new_surface n (mkContact m (Some z) (Some r)) field = Ok s).
  { intros m z0 r ->. unfold new_surface. cbn [cm_z cm_mode cm_random].
    replace (pystr_eqb (S_ "random") (S_ "random")) with true by reflexivity. numR.
    destruct (list_max_ok _ (Hne z0)) as (mx & ->). destruct (list_min_ok _ (Hne z0)) as (mn & ->). eexists. reflexivity. }
  destruct H as [m w Hu Hw | m w zt z1 Hu Hw Hz | m w vt xt yt v x y Hu Hw Hv Hx Hy | m w zt vt xt yt z1 v x y Hu Hw Hz Hv Hx Hy];
    cbn [cm_mode cm_random] in *; destruct Hm as [->| ->]; auto;
    inversion Hw as [|? ? ? ? H1 H2]; subst; vm_compute in H1; exfalso; intuition discriminate.
Qed.
Print Assumptions C09_contact_model_partial.

(** ** C20: the cells tile the domain *)

(** Domain size n cells: cell i is [x0+i*dx, x0+(i+1)*dx], the centre is in
    its middle and there are n of them. *)
Theorem C20_exact_tiling :
  forall (x0 dx : R) (n : nat), 0 < dx ->
  exists l, centres x0 dx (INR n * dx) = Ok l /\ List.length l = n /\
    forall i c, nth_error l i = Some c -> c = x0 + (INR i + 1/2) * dx.
Proof.
  intros x0 dx n Hd. unfold centres. rewrite arange_R by assumption. eexists. split; [reflexivity|].
  assert (E : nceil ((x0 + INR n * dx - (x0 + dx / two)) / dx) = Z.of_nat n).
  { apply nceil_R_unique. unfold two. numR. rewrite <- INR_IZR_INZ.
    replace ((x0 + INR n * dx - (x0 + dx / (1 + 1))) / dx) with (INR n - / 2) by (field; lra). lra. }
  numR. unfold two in E. numR. unfold two. numR. rewrite E, Nat2Z.id. rewrite map_length, seq_length. split; [reflexivity|].
  intros i c Hc. rewrite nth_error_map in Hc. destruct (nth_error (seq 0 n) i) as [j|] eqn:Ej; [|discriminate].
  cbn in Hc. injection Hc as <-.
  assert (Hi : (i < n)%nat) by (apply nth_error_lt in Ej; now rewrite seq_length in Ej).
  rewrite nth_error_nth' with (d := 0%nat) in Ej by (now rewrite seq_length).
  rewrite seq_nth in Ej by assumption. injection Ej as <-. simpl (0 + i)%nat. field.
Qed.
Print Assumptions C20_exact_tiling.

(** Any positive sizes: centres inside the domain and equally spaced; the
    union of the cells ends at most half a cell from the end of the domain. *)
Theorem C20_any_size :
  forall x0 dx lx : R, 0 < dx -> 0 < lx ->
  exists l, centres x0 dx lx = Ok l /\
    (forall i c, nth_error l i = Some c -> c = x0 + (INR i + 1/2) * dx /\ x0 < c < x0 + lx) /\
    Rabs (INR (List.length l) * dx - lx) <= dx / 2.
Proof.
  intros x0 dx lx Hd Hl. unfold centres. rewrite arange_R by assumption. eexists. split; [reflexivity|].
  assert (Etwo : @two R _ = 2) by (unfold two; numR; ring). numR. rewrite Etwo.
  set (q := (x0 + lx - (x0 + dx / 2)) / dx).
  assert (Eq : q = lx / dx - / 2) by (unfold q; field; lra).
  pose proof (nceil_R_spec q) as Hc.
  assert (Hq : - / 2 < q) by (rewrite Eq; assert (0 < lx / dx) by (apply Rdiv_lt_0_compat; lra); lra).
  assert (Hn : (0 <= nceil q)%Z).
  { apply Z.lt_pred_le. apply lt_IZR. rewrite <- Z.sub_1_r, minus_IZR. lra. }
  assert (Hm : q * dx = lx - dx / 2) by (rewrite Eq; field; lra).
  rewrite map_length, seq_length, to_nat_INR by assumption.
  assert (Hup : IZR (nceil q) * dx < lx + dx / 2).
  { apply Rlt_le_trans with ((q + 1) * dx); [apply Rmult_lt_compat_r; lra|lra]. }
  assert (Hlo : lx - dx / 2 <= IZR (nceil q) * dx).
  { rewrite <- Hm. apply Rmult_le_compat_r; lra. }
  split.
  - intros i c Hi. rewrite nth_error_map in Hi. destruct (nth_error (seq 0 (Z.to_nat (nceil q))) i) as [j|] eqn:Ej; [|discriminate].
    cbn in Hi. injection Hi as <-.
    assert (Hi : (i < Z.to_nat (nceil q))%nat) by (apply nth_error_lt in Ej; now rewrite seq_length in Ej).
    rewrite nth_error_nth' with (d := 0%nat) in Ej by (now rewrite seq_length).
    rewrite seq_nth in Ej by assumption. injection Ej as <-. simpl (0 + i)%nat.
    split; [field|]. pose proof (pos_INR i).
    assert (0 <= INR i * dx) by (apply Rmult_le_pos; lra). split; [lra|].
    assert (Hi1 : INR (S i) <= IZR (nceil q)) by (rewrite <- to_nat_INR by assumption; apply le_INR; lia).
    rewrite S_INR in Hi1.
    assert (INR i * dx < q * dx) by (apply Rmult_lt_compat_r; lra). lra.
  - apply Rabs_le. lra.
Qed.
Print Assumptions C20_any_size.

(** Non-trivial case: 7 cells of 1/2 from x0 = 3. *)
Example C20_example :
  centres 3%Q (1#2)%Q (7#2)%Q = Ok [13#4; 15#4; 17#4; 19#4; 21#4; 23#4; 25#4]%Q.
Proof. vm_compute. reflexivity. Qed.

(** ** C21: node coordinates of the vtr output *)

(** Whole numbers of cells: one node more than cells, nodes bound the cells. *)
Theorem C21_nodes_partial :
  forall (x0 dx : R) (n : nat), 0 < dx ->
  exists cells nodes, centres x0 dx (INR n * dx) = Ok cells /\ vtr_nodes x0 dx (INR n * dx) = Ok nodes /\
    List.length nodes = S (List.length cells) /\
    forall i c, nth_error cells i = Some c ->
      nth_error nodes i = Some (c - dx / 2) /\ nth_error nodes (S i) = Some (c + dx / 2).
Proof.
  intros x0 dx n Hd. destruct (C20_exact_tiling x0 dx n Hd) as (l & E & L & Hl). exists l.
  unfold vtr_nodes. rewrite arange_R by assumption. eexists. split; [exact E|]. split; [reflexivity|]. numR.
  assert (En : nceil ((x0 + INR n * dx + dx - x0) / dx) = Z.of_nat (S n)).
  { apply nceil_R_unique. rewrite <- INR_IZR_INZ, S_INR.
    replace ((x0 + INR n * dx + dx - x0) / dx) with (INR n + 1) by (field; lra). lra. }
  rewrite En, Nat2Z.id, map_length, seq_length. split; [congruence|].
  intros i c Hc. pose proof (nth_error_lt _ _ _ Hc). rewrite (Hl _ _ Hc).
  assert (Hn : forall j, (j <= n)%nat ->
     nth_error (map (fun i0 : nat => x0 + INR i0 * dx) (seq 0 (S n))) j = Some (x0 + INR j * dx)).
  { intros j Hj. rewrite nth_error_map, nth_error_nth' with (d := 0%nat) by (rewrite seq_length; lia).
    rewrite seq_nth by lia. reflexivity. }
  rewrite !Hn by lia. rewrite S_INR. split; f_equal; field.
Qed.
Print Assumptions C21_nodes_partial.

(** In general the number of nodes fits if and only if the cells reach the end
    of the domain. *)
Theorem C21_nodes_fit_iff :
  forall x0 dx lx : R, 0 < dx -> 0 < lx ->
  forall cells nodes, centres x0 dx lx = Ok cells -> vtr_nodes x0 dx lx = Ok nodes ->
  (List.length nodes = S (List.length cells) <-> lx <= INR (List.length cells) * dx).
Proof.
  intros x0 dx lx Hd Hl cells nodes Ec En.
  destruct (C20_any_size x0 dx lx Hd Hl) as (l & E & _ & Hlen). rewrite Ec in E. injection E as <-.
  assert (Hlen' : - (dx / 2) <= INR (List.length cells) * dx - lx <= dx / 2).
  { revert Hlen. unfold Rabs. destruct (Rcase_abs _); lra. }
  clear Hlen. rename Hlen' into Hlen.
  pose proof (arange_length _ _ _ _ Hd En) as Hn. numR.
  assert (Hn' : lx / dx + 1 <= INR (List.length nodes) < lx / dx + 2).
  { replace ((x0 + lx + dx - x0) / dx) with (lx / dx + 1) in Hn by (field; lra).
    specialize (Hn ltac:(lra)). lra. }
  assert (Ediv : lx = lx / dx * dx) by (field; lra).
  split; intros H.
  - rewrite H, S_INR in Hn'. rewrite Ediv at 1. apply Rmult_le_compat_r; lra.
  - assert (Hge : lx / dx <= INR (List.length cells)).
    { apply Rmult_le_reg_r with dx; [assumption|]. lra. }
    assert (Hlt : INR (List.length cells) < lx / dx + 1).
    { apply Rmult_lt_reg_r with dx; [assumption|]. replace ((lx / dx + 1) * dx) with (lx + dx) by (field; lra). lra. }
    assert (H1 : INR (List.length nodes) < INR (S (S (List.length cells)))) by (rewrite !S_INR; lra).
    assert (H2 : INR (List.length cells) < INR (List.length nodes)) by lra.
    apply INR_lt in H1, H2. lia.
Qed.
Print Assumptions C21_nodes_fit_iff.

(** Domain 5 m, cells 4 m: one cell, three nodes. *)
Theorem C21_nodes_refuted :
  exists x0 dx lx : Q, exists cells nodes,
    (0 < dx)%Q /\ (0 < lx)%Q /\ centres x0 dx lx = Ok cells /\ vtr_nodes x0 dx lx = Ok nodes /\
    List.length nodes <> S (List.length cells).
Proof.
  exists 0%Q, 4%Q, 5%Q. do 2 eexists. split; [reflexivity|]. split; [reflexivity|].
  split; [vm_compute; reflexivity|]. split; [vm_compute; reflexivity|]. discriminate.
Qed.
Print Assumptions C21_nodes_refuted.

(** ** C22: clipping *)
Theorem C22_use_lower :
  forall (st st' : store R) (a b : nat), use_lower st a b = Ok st' ->
  (forall c k, c <> a -> col st' c k = col st c k) /\
  (forall k x y, col st a k = Some x -> col st b k = Some y -> col st' a k = Some (Rmin x y)).
Proof. intros st st' a b E. destruct (use_lower_col _ _ _ _ E) as (H1 & H2 & _). auto. Qed.
Print Assumptions C22_use_lower.

Theorem C22_use_higher :
  forall (st st' : store R) (a b : nat), use_higher st a b = Ok st' ->
  (forall c k, c <> a -> col st' c k = col st c k) /\
  (forall k x y, col st a k = Some x -> col st b k = Some y -> col st' a k = Some (Rmax x y)).
Proof. intros st st' a b E. destruct (use_higher_col _ _ _ _ E) as (H1 & H2 & _). auto. Qed.
Print Assumptions C22_use_higher.

(** Any sequence of calls keeps the number of columns and the bounds. *)
Inductive clips : store R -> list clip -> store R -> Prop :=
  | clips_nil st : clips st [] st
  | clips_cons st c st1 cs st2 : do_clip st c = Ok st1 -> clips st1 cs st2 -> clips st (c :: cs) st2.

Theorem C22_bounds_kept :
  forall n st cs st', clips st cs st' -> wf n st -> wf n st'.
Proof. intros n st cs st' H. induction H; eauto using do_clip_wf. Qed.
Print Assumptions C22_bounds_kept.

(** Every new surface has its values in its bounds. *)
Theorem C22_new_surface_bounds :
  forall n cm field s, new_surface n cm field = Ok s ->
  (cm_random cm <> None -> List.length field = n) -> List.length (vals s) = n /\ bounded s.
Proof. exact new_surface_ok. Qed.
Print Assumptions C22_new_surface_bounds.

(** Calls succeed on existing surfaces of at least one column, so the
    hypotheses above are reachable. *)
Theorem C22_clip_defined :
  forall n st a b, (0 < n)%nat -> wf n st -> (a < List.length st)%nat -> (b < List.length st)%nat ->
  (exists st', use_lower st a b = Ok st') /\ (exists st', use_higher st a b = Ok st').
Proof.
  intros n st a b Hn Hw Ha Hb. unfold use_lower, use_higher, getS.
  destruct (nth_error st a) as [sa|] eqn:Ea; [|apply nth_error_None in Ea; lia].
  destruct (nth_error st b) as [sb|] eqn:Eb; [|apply nth_error_None in Eb; lia].
  destruct (wf_nth _ _ _ _ Hw Ea) as [La _]. destruct (wf_nth _ _ _ _ Hw Eb) as [Lb _]. cbn [bind].
  split.
  - destruct (list_min_ok (zip_with (fun x y : R => if (y <? x)%num then y else x) (vals sa) (vals sb))) as (m & E).
    { intros E. apply (f_equal (@List.length R)) in E. rewrite zip_length in E by congruence. simpl in E. lia. }
    rewrite E. cbn [bind]. eauto.
  - destruct (list_max_ok (zip_with (fun x y : R => if (x <? y)%num then y else x) (vals sa) (vals sb))) as (m & E).
    { intros E. apply (f_equal (@List.length R)) in E. rewrite zip_length in E by congruence. simpl in E. lia. }
    rewrite E. cbn [bind]. eauto.
Qed.
Print Assumptions C22_clip_defined.

(** Two surfaces crossing each other (rationals). *)
Example C22_example :
  use_lower [mkSurface [0; 5] (5#2) 0 5; mkSurface [3; 3] 3 3 3]%Q 0 1
  = Ok [mkSurface [0; 3] (5#2) 0 5; mkSurface [3; 3] 3 3 3]%Q /\
  use_higher [mkSurface [0; 5] (5#2) 0 5; mkSurface [3; 3] 3 3 3]%Q 0 1
  = Ok [mkSurface [3; 5] (5#2) 0 5; mkSurface [3; 3] 3 3 3]%Q.
Proof. split; vm_compute; reflexivity. Qed.
