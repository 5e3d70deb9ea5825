(** Vocabulary for "the elements of a stratum have the types, probabilities and
    thicknesses in the section strata". *)
From Coq Require Import List ZArith Bool Ascii String Reals.
From Verif Require Import Base ParseModel ConfigModel DeprecatedSpec LinkSpec SizeSpec SurfaceModel SurfaceSpec StrataModel FullModel ChoiceModel.
Import ListNotations.
Local Open Scope string_scope.
Local Open Scope R_scope.

(** Sum of the first [i] weights. *)
Definition sum_first (w : list R) (i : nat) : R := fold_right Rplus 0 (firstn i w).
(** A uniform number [u] falls into the share of weight number [i]. *)
Definition falls_into (w : list R) (u : R) (i : nat) : Prop :=
  (i < List.length w)%nat /\ sum_first w i / sum_first w (List.length w) <= u < sum_first w (S i) / sum_first w (List.length w).

Section Spec.
Context {F : Type} (fin : F -> option R).

(** [l] are the numbers in the entry of list [k] for stratum [si]. *)
Definition numbers_for (d : dict F) (k : string) (si : nat) (l : list R) : Prop :=
  exists v vs, entry d k si v /\ items v = Ok vs /\ Forall2 (fun w x => exists f, w = Leaf (AFlt f) /\ fin f = Some x) vs l.
Definition names_for (d : dict F) (k : string) (si : nat) (l : list pystr) : Prop :=
  exists v vs, entry d k si v /\ items v = Ok vs /\ Forall2 (fun w n => w = Leaf (AStr n)) vs l.

(** What the section strata says about stratum [si], counted from the top. *)
Record stratum_says (cf : config F) (si : nat) (names : list pystr) (probs means : list R) (pr a0 a1 : R) : Prop := {
  ss_names : names_for (cf_strata cf) "ae_in_strata" si names;
  ss_probs : numbers_for (cf_strata cf) "ae_prob" si probs;
  ss_means : numbers_for (cf_strata cf) "ae_z_mean" si means;
  ss_avul : numbers_for (cf_strata cf) "avul" si [a0; a1];
  ss_avul_prob : exists v f l, entry (cf_strata cf) "avul_prob" si v /\ items v = Ok (Leaf (AFlt f) :: l) /\ fin f = Some pr }.

(** Nominal thickness of an element whose type is number [i]: the mean of the
    type (the first one, if the type is listed again) with 10 % standard
    deviation, less the avulsion. *)
Definition thickness (names : list pystr) (means : list R) (pr a0 a1 : R) (i : nat) (r : raw_draw) (h : R) : Prop :=
  exists n j m, nth_error names i = Some n /\ nth_error names j = Some n /\ (forall k, (k < j)%nat -> nth_error names k <> Some n) /\
    nth_error means j = Some m /\ 0 <= m /\
    (rw_u r <= pr /\ h = m + m / 10 * rw_normal r - (a0 + (a1 - a0) * rw_avul r) \/ pr < rw_u r /\ h = m + m / 10 * rw_normal r).

(** Elevation in column [k] of a contact surface of a type whose contact model
    is [cm], put at [z]. *)
Definition surface_at (cm : contact F) (z : R) (field : list R) (k : nat) (u : R) : Prop :=
  cm_mode cm = S_ "flat" /\ u = z \/ cm_mode cm = S_ "random" /\ exists x, nth_error field k = Some x /\ u = z + x.

(** The elements [aes] of a stratum from the top: [u] is the random number for
    the type of the first one, [top] its upper surface at nominal elevation [z];
    [bot] is the bottom of the stratum with mean elevation [zb]. *)
Fixpoint stack (cf : config F) (names : list pystr) (probs means : list R) (pr a0 a1 : R) (st : store R) (bot : nat) (zb : R)
  (rounds : list raw_draw) (u : R) (top : nat) (z : R) (aes : list (ae R)) : Prop :=
  match aes with
  | [] => z <= zb
  | e :: rest =>
      zb < z /\ falls_into probs u (ae_kind e) /\ ae_top e = top /\
      exists r rs h, rounds = r :: rs /\ thickness names means pr a0 a1 (ae_kind e) r h /\
        ((z - h <= zb /\ ae_bottom e = bot) \/
         (zb < z - h /\ exists next n sec cm, falls_into probs (rw_next r) next /\ nth_error names next = Some n /\ In (n, (sec, cm)) (cf_elements cf) /\
            forall k v, col st (ae_bottom e) k = Some v -> exists x t b, surface_at cm (z - h) (rw_field r) k x /\
              col st top k = Some t /\ col st bot k = Some b /\ v = Rmax (Rmin x t) b)) /\
        stack cf names probs means pr a0 a1 st bot zb rs (rw_next r) (ae_bottom e) (Rmax (z - h) zb) rest
  end.
End Spec.

(** All random numbers of np.random.uniform and of the choices lie in [0, 1),
    the random fields have one value per column. *)
Definition raw_ok (n : nat) (r : raw_stratum) : Prop :=
  List.length (rs_field r) = n /\ 0 <= rs_first r < 1 /\
  Forall (fun d => List.length (rw_field d) = n /\ 0 <= rw_next d < 1) (rs_rounds r).
