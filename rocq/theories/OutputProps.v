(** C59-C62 and C91-C97: output files. *)
From Coq Require Import List ZArith Bool Ascii String Reals Lra Lia.
From Verif Require Import Base Num ParseModel SurfaceModel SurfaceProofs SurfaceProps ArrayModel ArrayProofs TroughSpec SheetSpec
  TensorModel TensorSpec OutputModel OutputSpec.
Import ListNotations.
Local Open Scope R_scope.

(** ** C59: formats *)

Lemma documented_known f l : documented f l -> known f = true /\ library f = l.
Proof. intros []; split; reflexivity. Qed.
Lemma known_documented f : known f = true -> documented f (library f).
Proof.
  unfold known, known_formats. intros H. apply existsb_exists in H as (x & Hx & E). apply pystr_eqb_eq in E. subst x.
  cbn [map In] in Hx. intuition (subst f; constructor).
Qed.

(** Everything that can be written is written in the order of the list; a
    missing library only costs a warning; an undocumented format or a failing
    writer ends the run with its exception after the formats before it. *)
Theorem C59_formats installed write formats :
  (exists es, handled installed write formats es /\ create_outputs installed write formats = (es, Ok tt)) \/
  (exists pre f post es, formats = pre ++ f :: post /\ handled installed write pre es /\ (forall l, ~ documented f l) /\
     create_outputs installed write formats = (es, Err ValueError)) \/
  (exists pre f l post es e, formats = pre ++ f :: post /\ handled installed write pre es /\ documented f l /\ available installed l /\ write f = Err e /\
     e <> ImportError /\ create_outputs installed write formats = (es, Err e)) \/
  (exists f, In f formats /\ write f = Err ImportError).
Proof.
  induction formats as [|f r IH]; [left; exists []; split; constructor|]. cbn [create_outputs]. destruct (known f) eqn:Ek.
  2:{ right. left. exists [], f, r, []. split; [reflexivity|]. split; [constructor|]. split; [|reflexivity]. intros l Hl. apply documented_known in Hl as (Hl & _). congruence. }
  pose proof (known_documented _ Ek) as Hd.
  assert (Hcons : forall hd, (forall r' es, handled installed write r' es -> handled installed write (f :: r') (hd f :: Said_saved f :: es)) ->
    forall X, X = (let '(l, x) := create_outputs installed write r in (hd f :: Said_saved f :: l, x)) ->
      (exists es, handled installed write (f :: r) es /\ X = (es, Ok tt)) \/
      (exists pre f0 post es, f :: r = pre ++ f0 :: post /\ handled installed write pre es /\ (forall l, ~ documented f0 l) /\ X = (es, Err ValueError)) \/
      (exists pre f0 l post es e, f :: r = pre ++ f0 :: post /\ handled installed write pre es /\ documented f0 l /\ available installed l /\ write f0 = Err e /\ e <> ImportError /\ X = (es, Err e)) \/
      (exists f0, In f0 (f :: r) /\ write f0 = Err ImportError)).
  { intros hd Hh X ->. destruct IH as [(es & Hes & E)|[(pre & f0 & post & es & E1 & Hes & Hn & E)|[(pre & f0 & l & post & es & e & E1 & Hes & Hl & Ha & Hw & He & E)|(f0 & Hf & Hw)]]]; try rewrite E.
    - left. exists (hd f :: Said_saved f :: es). auto.
    - right. left. exists (f :: pre), f0, post, (hd f :: Said_saved f :: es). rewrite E1. auto.
    - right. right. left. exists (f :: pre), f0, l, post, (hd f :: Said_saved f :: es), e. rewrite E1. auto 10.
    - right. right. right. exists f0. split; [now right|assumption]. }
  unfold output_function. destruct (library f) as [l|] eqn:El.
  - destruct (installed l) eqn:Ei.
    + destruct (write f) as [[]|e] eqn:Ew.
      * apply (Hcons Written); [|reflexivity]. intros. eapply h_written; eauto.
      * destruct e; try (right; right; left; eexists [], f, (Some l), r, [], _; repeat split; [constructor|assumption|exact Ei|exact Ew|discriminate]).
        right. right. right. exists f. split; [now left|assumption].
    + apply (Hcons Warned); [|reflexivity]. intros. eapply h_missing; eauto.
  - destruct (write f) as [[]|e] eqn:Ew.
    + apply (Hcons Written); [|reflexivity]. intros. eapply h_written; eauto; exact I.
    + destruct e; try (right; right; left; eexists [], f, None, r, [], _; repeat split; [constructor|assumption|exact Ew|discriminate]).
      right. right. right. exists f. split; [now left|assumption].
Qed.
Print Assumptions C59_formats.

(** Documented formats, writers without errors: success, and the files are
    those of the available formats. *)
Theorem C59_files installed write formats : (forall f, In f formats -> exists l, documented f l /\ (available installed l -> write f = Ok tt)) ->
  exists es, create_outputs installed write formats = (es, Ok tt) /\
    forall f, In (Written f) es <-> In f formats /\ exists l, documented f l /\ available installed l.
Proof.
  induction formats as [|f r IH]; intros H; [exists []; split; [reflexivity|]; cbn; tauto|].
  destruct IH as (es & E & Hes); [intros; apply H; now right|]. destruct (H f (or_introl eq_refl)) as (l & Hd & Hw). pose proof (documented_known _ _ Hd) as (Hk & Hl).
  cbn [create_outputs]. rewrite Hk. unfold output_function. rewrite Hl, E.
  assert (Hu : forall l', documented f l' -> l' = l) by (intros l' Hl'; apply documented_known in Hl'; destruct Hl' as (_ & ?); congruence).
  assert (Hav : available installed l -> exists es', (Written f :: Said_saved f :: es, @Ok unit tt) = (es', Ok tt) /\
     forall f0, In (Written f0) es' <-> In f0 (f :: r) /\ exists l, documented f0 l /\ available installed l).
  { intros Ha. exists (Written f :: Said_saved f :: es). split; [reflexivity|]. intros f0. cbn [In]. rewrite Hes. split.
    - intros [[= <-]|[?|[? ?]]]; [split; [now left|now exists l]|discriminate|split; [now right|assumption]].
    - intros [[->|?] ?]; [now left|right; right; split; assumption]. }
  assert (Hno : ~ available installed l -> exists es', (Warned f :: Said_saved f :: es, @Ok unit tt) = (es', Ok tt) /\
     forall f0, In (Written f0) es' <-> In f0 (f :: r) /\ exists l, documented f0 l /\ available installed l).
  { intros Ha. exists (Warned f :: Said_saved f :: es). split; [reflexivity|]. intros f0. cbn [In]. rewrite Hes. split.
    - intros [?|[?|[? ?]]]; [discriminate|discriminate|split; [now right|assumption]].
    - intros [[->|?] (l' & Hl' & Ha')]; [exfalso; apply Ha; rewrite <- (Hu _ Hl'); assumption|right; right; split; [assumption|now exists l']]. }
  destruct l as [n|].
  - destruct (installed n) eqn:Ei; [rewrite Hw by exact Ei; apply Hav; exact Ei|apply Hno; cbn; congruence].
  - rewrite Hw by exact I. apply Hav. exact I.
Qed.
Print Assumptions C59_files.

(** Non-trivial case: no flopy, and an unknown format at the end. *)
Example C59_example :
  create_outputs (fun l => negb (pystr_eqb l (S_ "flopy"))) (fun _ => Ok tt) (map S_ ["npz"; "mf"; "vtr"; "xyz"; "mat"]%string) =
  ([Written (S_ "npz"); Said_saved (S_ "npz"); Warned (S_ "mf"); Said_saved (S_ "mf"); Written (S_ "vtr"); Said_saved (S_ "vtr")], Err ValueError).
Proof. reflexivity. Qed.

(** ** C91: "Saved ..." is only said of formats that were written

    False for every format that is skipped. *)
Theorem C91_saved_message_refuted installed write f n : documented f (Some n) -> installed n = false ->
  create_outputs installed write [f] = ([Warned f; Said_saved f], Ok tt).
Proof.
  intros Hd Hi. apply documented_known in Hd as (Hk & Hl). cbn [create_outputs]. rewrite Hk. unfold output_function. now rewrite Hl, Hi.
Qed.
Print Assumptions C91_saved_message_refuted.
(** It is said of all written ones. *)
Theorem C91_saved_message_partial installed write formats es x f : create_outputs installed write formats = (es, x) ->
  In (Written f) es -> In (Said_saved f) es.
Proof.
  revert es x. induction formats as [|f0 r IH]; intros es x; cbn [create_outputs]; [intros [= <- <-] []|].
  destruct (known f0); [|intros [= <- <-] []]. destruct (create_outputs installed write r) as [l y]. specialize (IH _ _ eq_refl).
  destruct (output_function _ _ _) as [|e]; [|destruct e]; intros [= <- <-]; cbn [In]; try tauto.
  - intros [[= ->]|[?|?]]; [right; now left|discriminate|right; right; auto].
  - intros [?|[?|?]]; [discriminate|discriminate|right; right; auto].
Qed.
Print Assumptions C91_saved_message_partial.

(** ** Grids *)

Lemma whole_grid_facts g x0 y0 z0 dx dy dz i j k : whole_grid g x0 y0 z0 dx dy dz i j k ->
  (nx g = i /\ ny g = j /\ nz g = k) /\ (g_x0 g = x0 /\ g_y0 g = y0 /\ g_z0 g = z0) /\ (g_dx g = dx /\ g_dy g = dy /\ g_dz g = dz) /\
  (g_lx g = INR i * dx /\ g_ly g = INR j * dy /\ g_lz g = INR k * dz) /\
  (forall c, (c < i)%nat -> nth c (g_x g) 0 = x0 + (INR c + 1 / 2) * dx) /\
  (forall c, (c < j)%nat -> nth c (g_y g) 0 = y0 + (INR c + 1 / 2) * dy) /\
  (forall c, (c < k)%nat -> nth c (g_z g) 0 = z0 + (INR c + 1 / 2) * dz).
Proof.
  intros (Hx & Hy & Hz & H). unfold grid_init in H.
  destruct (C20_exact_tiling x0 dx i Hx) as (lx & Ex & Lx & Nx). destruct (C20_exact_tiling y0 dy j Hy) as (ly & Ey & Ly & Ny). destruct (C20_exact_tiling z0 dz k Hz) as (lz & Ez & Lz & Nz).
  rewrite Ex, Ey, Ez in H. cbn [bind] in H. injection H as <-. unfold nx, ny, nz. cbn.
  repeat split; try assumption; intros c Hc; [apply Nx|apply Ny|apply Nz]; apply nth_error_nth'; congruence.
Qed.
(** Such grids exist. *)
Lemma whole_grid_exists x0 y0 z0 dx dy dz i j k : 0 < dx -> 0 < dy -> 0 < dz -> exists g, whole_grid g x0 y0 z0 dx dy dz i j k.
Proof.
  intros Hx Hy Hz. unfold whole_grid, grid_init.
  destruct (C20_exact_tiling x0 dx i Hx) as (lx & Ex & _). destruct (C20_exact_tiling y0 dy j Hy) as (ly & Ey & _). destruct (C20_exact_tiling z0 dz k Hz) as (lz & Ez & _).
  rewrite Ex, Ey, Ez. eexists. repeat split; assumption.
Qed.
