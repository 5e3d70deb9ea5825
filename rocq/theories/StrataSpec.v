(** Vocabulary for statements about strata, elements and sheets. *)
From Coq Require Import List ZArith Reals.
From Verif Require Import Base Num SurfaceModel SurfaceSpec StrataModel.
Import ListNotations.
Local Open Scope R_scope.

(** Sheets following each other from the surface [top] down to [bottom]. *)
Fixpoint sheet_chain (top : nat) (l : list (object R)) (bottom : nat) : Prop :=
  match l with
  | [] => top = bottom
  | o :: r => exists b, ob_surfaces o = Some (b, top) /\ sheet_chain b r bottom
  end.

(** The surfaces of a sheet exist and its vertical bounds cover them. *)
Definition object_bounds (st : store R) (o : object R) : Prop :=
  match ob_surfaces o with
  | Some (b, t) => ((b < List.length st)%nat /\ (t < List.length st)%nat) /\
      (forall k v, col st b k = Some v -> ob_zmin o <= v) /\ (forall k v, col st t k = Some v -> v <= ob_zmax o)
  | None => True
  end.

(** An element whose bounds cover its surfaces and its objects, the sheets
    having copies of their surfaces. *)
Definition ae_ok (st : store R) (e : ae R) : Prop :=
  ((ae_bottom e < List.length st)%nat /\ (ae_top e < List.length st)%nat) /\
  (forall k v, col st (ae_bottom e) k = Some v -> ae_zmin e <= v) /\
  (forall k v, col st (ae_top e) k = Some v -> v <= ae_zmax e) /\
  Forall (object_bounds st) (ae_objects e) /\
  Forall (fun o => ae_zmin e <= ob_zmin o /\ ob_zmax o <= ae_zmax e) (ae_objects e) /\
  Forall2 (fun o c => match ob_surfaces o with
                      | Some (b, t) => (forall k, col st b k = nth_error (fst c) k) /\ (forall k, col st t k = nth_error (snd c) k)
                      | None => True
                      end) (ae_objects e) (ae_copies e).

(** Elements following each other from the surface [top] down to [bottom]. *)
Fixpoint ae_chain (top : nat) (l : list (ae R)) (bottom : nat) : Prop :=
  match l with
  | [] => top = bottom
  | e :: r => ae_top e = top /\ ae_chain (ae_bottom e) r bottom
  end.
Fixpoint stratum_chain (top : nat) (l : list (stratum R)) (bottom : nat) : Prop :=
  match l with
  | [] => top = bottom
  | s :: r => s_top s = top /\ stratum_chain (s_bottom s) r bottom
  end.

(** A stratum: its elements lie between its surfaces, do not overlap, and its
    bounds cover them. *)
Definition stratum_ok (st : store R) (s : stratum R) : Prop :=
  ((s_bottom s < List.length st)%nat /\ (s_top s < List.length st)%nat) /\
  below st (s_bottom s) (s_top s) /\
  (forall k v, col st (s_bottom s) k = Some v -> s_zmin s <= v) /\
  (forall k v, col st (s_top s) k = Some v -> v <= s_zmax s) /\
  Forall (fun e => ae_ok st e /\ below st (ae_bottom e) (ae_top e) /\
                   below st (s_bottom s) (ae_bottom e) /\ below st (ae_top e) (s_top s) /\
                   s_zmin s <= ae_zmin e /\ ae_zmax e <= s_zmax s) (s_aes s) /\
  (* either the elements lead from the top to the bottom, or the stratum has
     no positive mean thickness and no elements *)
  (forall sb stp, nth_error st (s_bottom s) = Some sb -> nth_error st (s_top s) = Some stp ->
     (zmean sb < zmean stp -> s_aes s <> [] /\ ae_chain (s_top s) (s_aes s) (s_bottom s)) /\
     (zmean stp <= zmean sb -> s_aes s = [])).
