(** Lemmas on the loop over the realizations. *)
From Coq Require Import List ZArith Bool Ascii String Lia.
From Verif Require Import Base Num ParseModel ConfigModel SurfaceModel StrataModel DirsModel RunModel.
Import ListNotations.
Local Open Scope num_scope.

Section Generation.
Context {T : Type} `{Num T}.

(** Contact models that differ at most in their depth. *)
Definition same_contact (a b : contact T) : Prop := cm_mode a = cm_mode b /\ cm_random a = cm_random b.
Definition same_heap (h h' : heap (T := T)) : Prop := Forall2 same_contact h h'.

Lemma same_refl h : same_heap h h.
Proof. induction h; constructor; [split; reflexivity|assumption]. Qed.
Lemma same_sym h h' : same_heap h h' -> same_heap h' h.
Proof. induction 1 as [|a b l m [A B] _ IH]; constructor; [split; congruence|assumption]. Qed.
Lemma same_trans h1 h2 h3 : same_heap h1 h2 -> same_heap h2 h3 -> same_heap h1 h3.
Proof.
  intros H1. revert h3. induction H1 as [|a b l m [A B] _ IH]; intros h3 H3; inversion H3 as [|b' c m' n [C D] Q]; subst; constructor;
    [split; congruence|apply IH; assumption].
Qed.
Lemma set_z_same (a b : contact T) z : same_contact a b -> set_z a z = set_z b z.
Proof. intros [A B]. unfold set_z. now rewrite A, B. Qed.
Lemma same_upd h h' n a b : same_heap h h' -> same_contact a b -> same_heap (upd h n a) (upd h' n b).
Proof.
  intros Hh Hab. revert n. induction Hh as [|x y l m Hxy Hl IH]; intros n; cbn; [constructor|].
  destruct n as [|n]; constructor; try assumption. apply IH.
Qed.
Lemma same_nth h h' n : same_heap h h' ->
  match nth_error h n, nth_error h' n with
  | Some a, Some b => same_contact a b
  | None, None => True
  | _, _ => False
  end.
Proof.
  intros Hh. revert n. induction Hh as [|x y l m Hxy Hl IH]; intros n; destruct n; cbn; trivial. apply IH.
Qed.
Lemma same_choose h h' n : same_heap h h' ->
  (exists a b, nth_error h n = Some a /\ nth_error h' n = Some b /\ choose h n = Ok a /\ choose h' n = Ok b /\ same_contact a b) \/
  (choose h n = Err ValueError /\ choose h' n = Err ValueError).
Proof.
  intros Hh. pose proof (same_nth h h' n Hh) as Q. unfold choose.
  destruct (nth_error h n) as [a|], (nth_error h' n) as [b|]; try contradiction; [left; exists a, b; auto|right; auto].
Qed.
Lemma upd_nth {A} (l : list A) n a b : nth_error l n = Some b -> nth_error (upd l n a) n = Some a.
Proof. revert n. induction l as [|x l IH]; intros [|n] E; cbn in *; try discriminate; [reflexivity|apply IH; assumption]. Qed.
Lemma same_set h n c z : nth_error h n = Some c -> same_heap h (upd h n (set_z c z)).
Proof.
  revert n. induction h as [|x l IH]; intros [|n] E; cbn in *; try discriminate.
  - injection E as ->. constructor; [split; reflexivity|apply same_refl].
  - constructor; [split; reflexivity|apply IH; assumption].
Qed.

(** Two outcomes that differ at most in the depths left in the heap [h]. *)
Definition agree {A} (h : heap (T := T)) (x y : res (heap (T := T) * A)) : Prop :=
  match x, y with
  | Ok (h1, a), Ok (h2, b) => a = b /\ same_heap h h1 /\ same_heap h h2
  | Err e, Err e' => e = e'
  | _, _ => False
  end.

(** The element reads nothing of the contact model of its type. *)
Lemma new_ae_contact g sf st c c' geo bg kind sbg bot top objs :
  new_ae g sf st (mkType c geo bg) kind sbg bot top objs = new_ae g sf st (mkType c' geo bg) kind sbg bot top objs.
Proof. reflexivity. Qed.

Lemma agree_weaken {A} h h' (x y : res (heap (T := T) * A)) : same_heap h h' -> agree h' x y -> agree h x y.
Proof.
  intros Hh. destruct x as [[h1 a]|], y as [[h2 b]|]; cbn; trivial. intros (E & H1 & H2). split; [assumption|]. split; eapply same_trans; eassumption.
Qed.

Lemma stratum_loop_agree g sf ets sp bot : forall draws h h' st top curr znow lo hi aes, same_heap h h' ->
  agree h (stratum_loop_h g sf ets sp bot draws h st top curr znow lo hi aes)
          (stratum_loop_h g sf ets sp bot draws h' st top curr znow lo hi aes).
Proof.
  induction draws as [|d draws IH]; intros h h' st top curr znow lo hi aes Hh; cbn [stratum_loop_h];
    destruct (getS st bot) as [sbot|]; cbn [bind]; [|reflexivity| |reflexivity];
    (destruct (znow <=? zmean sbot); [cbn; split; [reflexivity|split; [apply same_refl|assumption]]|]); [reflexivity|].
  destruct (choose (r_types sp) curr) as [ty|]; cbn [bind]; [|reflexivity].
  destruct (choose ets ty) as [et|]; cbn [bind]; [|reflexivity].
  destruct (same_choose h h' ty Hh) as [(cm & cm' & _ & _ & E1 & E2 & _)|[E1 E2]]; rewrite E1, E2; cbn [bind]; [|reflexivity].
  destruct (choose (r_types sp) (d_next d)) as [next|]; cbn [bind]; [|reflexivity].
  destruct (choose ets next) as [net|]; cbn [bind]; [|reflexivity].
  destruct (same_choose h h' next Hh) as [(nc & nc' & En & En' & F1 & F2 & Hn)|[F1 F2]]; rewrite F1, F2; cbn [bind]; [|reflexivity].
  set (z1 := next_depth (r_avul_prob sp) znow d).
  destruct (z1 <=? zmean sbot); cbn [bind].
  - destruct (use_lower st bot top) as [st1|]; cbn [bind]; [|reflexivity].
    destruct (use_higher st1 bot bot) as [st2|]; cbn [bind]; [|reflexivity].
    rewrite (new_ae_contact g sf st2 cm' cm).
    destruct (new_ae g sf st2 _ _ _ _ _ _) as [[st3 e]|]; cbn [bind]; [|reflexivity]. apply IH. assumption.
  - unfold choose. rewrite (upd_nth h next _ nc En), (upd_nth h' next _ nc' En'). cbn [bind].
    rewrite <- (set_z_same nc nc' z1 Hn).
    destruct (new_surface (columns g) (set_z nc z1) (d_field d)) as [s|]; cbn [bind]; [|reflexivity].
    destruct (alloc st s) as [st0 b]. cbn [bind].
    destruct (use_lower st0 b top) as [st1|]; cbn [bind]; [|reflexivity].
    destruct (use_higher st1 b bot) as [st2|]; cbn [bind]; [|reflexivity].
    rewrite (new_ae_contact g sf st2 cm' cm).
    destruct (new_ae g sf st2 _ _ _ _ _ _) as [[st3 e]|]; cbn [bind]; [|reflexivity].
    eapply agree_weaken; [|apply IH; apply same_upd; [assumption|split; reflexivity]]. eapply same_set. eassumption.
Qed.

Lemma new_stratum_agree g sf ets sp first draws h h' st bot top : same_heap h h' ->
  agree h (new_stratum_h g sf ets sp first draws h st bot top) (new_stratum_h g sf ets sp first draws h' st bot top).
Proof.
  intros Hh. unfold new_stratum_h. destruct (getS st bot) as [sb|]; cbn [bind]; [|reflexivity].
  destruct (getS st top) as [stp|]; cbn [bind]; [|reflexivity].
  pose proof (stratum_loop_agree g sf ets sp bot draws h h' st top first (zmean stp) (zmin sb) (zmax stp) [] Hh) as Q.
  destruct (stratum_loop_h g sf ets sp bot draws h _ _ _ _ _ _ _) as [[h1 [st1 [[lo hi] aes]]]|],
    (stratum_loop_h g sf ets sp bot draws h' _ _ _ _ _ _ _) as [[h2 [st2 [[lo2 hi2] aes2]]]|]; cbn [bind]; cbn in Q; try contradiction; [|assumption].
  destruct Q as (E & H1 & H2). injection E as -> -> -> ->. cbn. auto.
Qed.

Lemma model_loop_agree g sf cs ets ps n : forall draws si h h' st top strata, same_heap h h' ->
  agree h (model_loop_h g sf cs ets ps n draws si h st top strata) (model_loop_h g sf cs ets ps n draws si h' st top strata).
Proof.
  induction draws as [|sd draws IH]; intros si h h' st top strata Hh; cbn [model_loop_h].
  - destruct (Nat.eqb si n); cbn; [split; [reflexivity|split; [apply same_refl|assumption]]|reflexivity].
  - destruct (if Nat.eqb (S si) n then _ else _) as [s|]; cbn [bind]; [|reflexivity].
    destruct (alloc st s) as [st0 b].
    destruct (use_lower st0 b top) as [st1|]; cbn [bind]; [|reflexivity].
    destruct (pyget ps _) as [sp|]; cbn [bind]; [|reflexivity].
    pose proof (new_stratum_agree g sf ets sp (sd_first sd) (sd_draws sd) h h' st1 b top Hh) as Q.
    destruct (new_stratum_h g sf ets sp _ _ h _ _ _) as [[h1 [st2 str]]|], (new_stratum_h g sf ets sp _ _ h' _ _ _) as [[h2 [st2' str']]|];
      cbn [bind]; cbn in Q; try contradiction; [|assumption].
    destruct Q as (E & H1 & H2). injection E as -> ->.
    eapply agree_weaken; [exact H1|]. apply IH. eapply same_trans; [apply same_sym; exact H1|exact H2].
Qed.

Lemma generate_agree g sf cs ets ps draws h h' : same_heap h h' ->
  agree h (generate_model_h g sf cs ets ps draws h) (generate_model_h g sf cs ets ps draws h').
Proof.
  intros Hh. unfold generate_model_h. destruct (new_surface _ _ _) as [s|]; cbn [bind]; [|reflexivity].
  destruct (alloc [] s) as [st top]. apply model_loop_agree. assumption.
Qed.

(** ** The strata of StrataModel are those of every realization *)

(** The element types of a stratum with the contact models of the heap. *)
Definition resolve (ets : list (element_type (T := T))) (h : heap (T := T)) (i : nat) : option (ae_type T) :=
  match nth_error ets i, nth_error h i with
  | Some et, Some cm => Some (mkType cm (et_geometry et) (et_bg et))
  | _, _ => None
  end.
Definition resolves ets h (sp : type_refs (T := T)) (sp' : stratum_params T) : Prop :=
  map (resolve ets h) (r_types sp) = map Some (sp_types sp') /\ sp_avul_prob sp' = r_avul_prob sp /\ sp_bg sp' = r_bg sp.

Lemma resolves_choose ets h sp sp' i : resolves ets h sp sp' ->
  (exists ty et cm, choose (r_types sp) i = Ok ty /\ nth_error ets ty = Some et /\ nth_error h ty = Some cm /\
     choose (sp_types sp') i = Ok (mkType cm (et_geometry et) (et_bg et))) \/
  (choose (r_types sp) i = Err ValueError /\ choose (sp_types sp') i = Err ValueError).
Proof.
  intros (E & _ & _). unfold choose. apply (f_equal (fun l => nth_error l i)) in E. rewrite !nth_error_map in E.
  destruct (nth_error (r_types sp) i) as [ty|], (nth_error (sp_types sp') i) as [t|]; cbn in E; try discriminate; [left|right; auto].
  injection E as E. unfold resolve in E. destruct (nth_error ets ty) as [et|] eqn:E1; [|discriminate]. destruct (nth_error h ty) as [cm|] eqn:E2; [|discriminate].
  injection E as <-. exists ty, et, cm. auto.
Qed.

Definition refines {A} (h : heap (T := T)) (x : res (heap (T := T) * A)) (y : res A) : Prop :=
  match x, y with
  | Ok (h', a), Ok b => a = b /\ same_heap h h'
  | Err e, Err e' => e = e'
  | _, _ => False
  end.
Lemma refines_weaken {A} h h' (x : res (heap (T := T) * A)) y : same_heap h h' -> refines h' x y -> refines h x y.
Proof.
  intros Hh. destruct x as [[h1 a]|], y as [b|]; cbn; trivial. intros [E Hs]. split; [assumption|]. eapply same_trans; eassumption.
Qed.

Lemma stratum_loop_refines g sf ets h0 sp sp' bot : resolves ets h0 sp sp' ->
  forall draws h st top curr znow lo hi aes, same_heap h0 h ->
  refines h (stratum_loop_h g sf ets sp bot draws h st top curr znow lo hi aes)
            (stratum_loop g sf sp' bot draws st top curr znow lo hi aes).
Proof.
  intros HR. induction draws as [|d draws IH]; intros h st top curr znow lo hi aes Hh; cbn [stratum_loop_h stratum_loop];
    destruct (getS st bot) as [sbot|]; cbn [bind]; [|reflexivity| |reflexivity];
    (destruct (znow <=? zmean sbot); [cbn; split; [reflexivity|apply same_refl]|]); [reflexivity|].
  destruct (resolves_choose ets h0 sp sp' curr HR) as [(ty & et & cm0 & E1 & E2 & E3 & E4)|[E1 E2]]; [|rewrite E1, E2; reflexivity].
  destruct (resolves_choose ets h0 sp sp' (d_next d) HR) as [(nt & net & nc0 & F1 & F2 & F3 & F4)|[F1 F2]].
  2:{ rewrite E1, E4. cbn [bind]. unfold choose at 1. rewrite E2. cbn [bind]. pose proof (same_nth h0 h ty Hh) as Q. rewrite E3 in Q.
      unfold choose at 1. destruct (nth_error h ty); [|contradiction]. cbn [bind]. rewrite F1, F2. reflexivity. }
  destruct HR as (_ & Ea & Eb). rewrite E1, E4, F1, F4, Ea, Eb. cbn [bind].
  unfold choose. rewrite E2, F2. cbn [bind].
  pose proof (same_nth h0 h ty Hh) as Q. rewrite E3 in Q. destruct (nth_error h ty) as [cm|] eqn:Ety; [|contradiction].
  pose proof (same_nth h0 h nt Hh) as Q'. rewrite F3 in Q'. destruct (nth_error h nt) as [nc|] eqn:Ent; [|contradiction]. cbn [bind].
  set (z1 := next_depth (r_avul_prob sp) znow d). cbn [t_contact].
  destruct (z1 <=? zmean sbot); cbn [bind].
  - destruct (use_lower st bot top) as [st1|]; cbn [bind]; [|reflexivity].
    destruct (use_higher st1 bot bot) as [st2|]; cbn [bind]; [|reflexivity].
    rewrite (new_ae_contact g sf st2 cm0 cm).
    destruct (new_ae g sf st2 _ _ _ _ _ _) as [[st3 e]|]; cbn [bind]; [|reflexivity]. apply IH. assumption.
  - rewrite (upd_nth h nt _ nc Ent). cbn [bind]. rewrite (set_z_same nc0 nc z1 Q').
    destruct (new_surface (columns g) (set_z nc z1) (d_field d)) as [s|]; cbn [bind]; [|reflexivity].
    destruct (alloc st s) as [st0 b]. cbn [bind].
    destruct (use_lower st0 b top) as [st1|]; cbn [bind]; [|reflexivity].
    destruct (use_higher st1 b bot) as [st2|]; cbn [bind]; [|reflexivity].
    rewrite (new_ae_contact g sf st2 cm0 cm).
    destruct (new_ae g sf st2 _ _ _ _ _ _) as [[st3 e]|]; cbn [bind]; [|reflexivity].
    eapply refines_weaken; [|apply IH; eapply same_trans; [exact Hh|eapply same_set; eassumption]]. eapply same_set. eassumption.
Qed.

Lemma pyget_Forall2 {A B} (P : A -> B -> Prop) l m i : Forall2 P l m ->
  (exists a b, pyget l i = Ok a /\ pyget m i = Ok b /\ P a b) \/ (exists e, pyget l i = Err e /\ pyget m i = Err e).
Proof.
  intros F. assert (L : List.length l = List.length m) by (induction F; cbn; congruence).
  unfold pyget. rewrite L. destruct (pyidx (List.length m) i) as [k|]; [|right; eexists; split; reflexivity].
  assert (Q : match nth_error l k, nth_error m k with Some a, Some b => P a b | None, None => True | _, _ => False end).
  { clear L. revert k. induction F as [|a b l m Hab F IH]; intros [|k]; cbn; trivial. apply IH. }
  destruct (nth_error l k) as [a|], (nth_error m k) as [b|]; try contradiction; [left; exists a, b; auto|right; eexists; split; reflexivity].
Qed.

Lemma new_stratum_refines g sf ets h0 sp sp' first draws h st bot top : resolves ets h0 sp sp' -> same_heap h0 h ->
  refines h (new_stratum_h g sf ets sp first draws h st bot top) (new_stratum g sf sp' first draws st bot top).
Proof.
  intros HR Hh. unfold new_stratum_h, new_stratum. destruct (getS st bot) as [sb|]; cbn [bind]; [|reflexivity].
  destruct (getS st top) as [stp|]; cbn [bind]; [|reflexivity].
  pose proof (stratum_loop_refines g sf ets h0 sp sp' bot HR draws h st top first (zmean stp) (zmin sb) (zmax stp) [] Hh) as Q.
  destruct (stratum_loop_h g sf ets sp bot draws h _ _ _ _ _ _ _) as [[h1 [st1 [[lo hi] aes]]]|],
    (stratum_loop g sf sp' bot draws _ _ _ _ _ _ _) as [[st2 [[lo2 hi2] aes2]]|]; cbn [bind]; cbn in Q; try contradiction; [|assumption].
  destruct Q as (E & H1). injection E as -> -> -> ->. cbn. auto.
Qed.
Lemma model_loop_refines g sf cs ets h0 ps ps' n : Forall2 (resolves ets h0) ps ps' ->
  forall draws si h st top strata, same_heap h0 h ->
  refines h (model_loop_h g sf cs ets ps n draws si h st top strata) (model_loop g sf cs ps' n draws si st top strata).
Proof.
  intros HP. induction draws as [|sd draws IH]; intros si h st top strata Hh; cbn [model_loop_h model_loop].
  - destruct (Nat.eqb si n); cbn; [split; [reflexivity|apply same_refl]|reflexivity].
  - destruct (if Nat.eqb (S si) n then _ else _) as [s|]; cbn [bind]; [|reflexivity].
    destruct (alloc st s) as [st0 b].
    destruct (use_lower st0 b top) as [st1|]; cbn [bind]; [|reflexivity].
    destruct (pyget_Forall2 _ ps ps' (-1 - Z.of_nat si) HP) as [(sp & sp' & E & E' & HR)|(e & E & E')]; rewrite E, E'; cbn [bind]; [|reflexivity].
    pose proof (new_stratum_refines g sf ets h0 sp sp' (sd_first sd) (sd_draws sd) h st1 b top HR Hh) as Q.
    destruct (new_stratum_h g sf ets sp _ _ h _ _ _) as [[h1 [st2 str]]|], (new_stratum g sf sp' _ _ _ _ _) as [[st2' str']|];
      cbn [bind]; cbn in Q; try contradiction; [|assumption].
    destruct Q as (E1 & H1). injection E1 as -> ->.
    eapply refines_weaken; [exact H1|]. apply IH. eapply same_trans; eassumption.
Qed.
Lemma generate_refines g sf cs ets h0 ps ps' draws h : Forall2 (resolves ets h0) ps ps' -> same_heap h0 h ->
  refines h (generate_model_h g sf cs ets ps draws h) (generate_model g sf cs ps' draws).
Proof.
  intros HP Hh. unfold generate_model_h, generate_model. destruct (new_surface _ _ _) as [s|]; cbn [bind]; [|reflexivity].
  destruct (alloc [] s) as [st top].
  assert (L : List.length ps = List.length ps') by (clear -HP; induction HP; cbn; congruence). rewrite L.
  eapply model_loop_refines; eassumption.
Qed.
End Generation.

(** ** The dictionary *)
Section Data.
Context {A : Type}.
Definition keys (d : data A) := map fst d.
Lemma put_key_fresh (d : data A) k v : ~ In k (keys d) -> put_key d k v = (d ++ [(k, v)])%list.
Proof.
  induction d as [|[k' v'] d IH]; cbn; [reflexivity|]. intros Hn. destruct (String.eqb_spec k k') as [->|Hk]; [exfalso; auto|]. f_equal. apply IH. auto.
Qed.
Lemma put_key_at (d1 d2 : data A) k w v : ~ In k (keys d1) -> put_key (d1 ++ (k, w) :: d2) k v = (d1 ++ (k, v) :: d2)%list.
Proof.
  induction d1 as [|[k' v'] d IH]; cbn; intros Hn; [rewrite String.eqb_refl; reflexivity|].
  destruct (String.eqb_spec k k') as [->|Hk]; [exfalso; auto|]. f_equal. apply IH. auto.
Qed.
(** Writing all keys of a dictionary replaces it, in the same order. *)
Lemma put_keys_replace (ks : list string) : forall (pre post : data A) (old new : list A),
  NoDup (keys pre ++ ks ++ keys post) -> List.length old = List.length ks -> List.length new = List.length ks ->
  put_keys (pre ++ combine ks old ++ post) (combine ks new) = (pre ++ combine ks new ++ post)%list.
Proof.
  induction ks as [|k ks IH]; intros pre post [|o old] [|v new] Hn Lo Ln; cbn in Lo, Ln; try discriminate; [reflexivity|].
  cbn [combine app]. unfold put_keys in *. cbn [fold_left fst snd].
  rewrite put_key_at.
  - replace (pre ++ (k, v) :: combine ks old ++ post)%list with ((pre ++ [(k, v)]) ++ combine ks old ++ post)%list by (rewrite <- app_assoc; reflexivity).
    rewrite IH; [rewrite <- app_assoc; reflexivity| |lia|lia].
    unfold keys. rewrite map_app. cbn. rewrite <- app_assoc. exact Hn.
  - apply NoDup_remove_2 in Hn. intros Q. apply Hn. apply in_or_app. now left.
Qed.
Lemma put_keys_new (ks : list string) : forall (pre : data A) (new : list A),
  NoDup (keys pre ++ ks) -> List.length new = List.length ks -> put_keys pre (combine ks new) = (pre ++ combine ks new)%list.
Proof.
  induction ks as [|k ks IH]; intros pre [|v new] Hn Ln; cbn in Ln; try discriminate; [cbn; now rewrite app_nil_r|].
  unfold put_keys in *. cbn [combine fold_left fst snd]. rewrite put_key_fresh.
  - rewrite IH; [rewrite <- app_assoc; reflexivity| |lia]. unfold keys. rewrite map_app, <- app_assoc. exact Hn.
  - apply NoDup_remove_2 in Hn. rewrite in_app_iff in Hn. tauto.
Qed.
End Data.
