(** What a user finds in the run directory, stated without the commands. *)
From Coq Require Import List ZArith Bool Ascii String.
From Verif Require Import Base DirsModel DirsSpec OutputModel SimModel.
Import ListNotations.
Local Open Scope string_scope.
Local Open Scope list_scope.

(** The directory of realization [s], relative to the run directory. *)
Definition real_of (numsim s : nat) : path :=
  if Nat.ltb 1 numsim then [S_ "real_" ++ format_03d s] else [].

(** The files of the format [f] for the data [d], relative to the realization
    directory, with their contents. *)
Inductive belongs {D} (w : writers D) (runname : pystr) (d : D) : pystr -> path -> pystr -> Prop :=
  | belongs_mat c : single w (S_ "mat") d = Ok c -> belongs w runname d (S_ "mat") [runname ++ S_ ".mat"] (List.concat c)
  | belongs_py c : single w (S_ "py") d = Ok c -> belongs w runname d (S_ "py") [runname ++ S_ ".pickle"] (List.concat c)
  | belongs_npz c : single w (S_ "npz") d = Ok c -> belongs w runname d (S_ "npz") [runname ++ S_ ".npz"] (List.concat c)
  | belongs_h5 c : single w (S_ "h5") d = Ok c -> belongs w runname d (S_ "h5") [runname ++ S_ ".h5"] (List.concat c)
  | belongs_vtr c : single w (S_ "vtr") d = Ok c -> belongs w runname d (S_ "vtr") [runname ++ S_ ".vtr"] (List.concat c)
  | belongs_mf l n c : folder w (S_ "mf") d = Ok l -> In (n, c) l -> belongs w runname d (S_ "mf") [S_ "MODFLOW"; n] (List.concat c)
  | belongs_mf6 l n c : folder w (S_ "mf6") d = Ok l -> In (n, c) l -> belongs w runname d (S_ "mf6") [S_ "mf6"; n] (List.concat c)
  | belongs_hgs l n c : folder w (S_ "hgs") d = Ok l -> In (n, c) l -> belongs w runname d (S_ "hgs") [S_ "HGS"; n] (List.concat c).

(** The library that the format [f] needs is there. *)
Definition usable (installed : pystr -> bool) (f : pystr) : Prop :=
  forall l, In (f, l) [(S_ "h5", S_ "h5py"); (S_ "vtr", S_ "pyevtk"); (S_ "mf", S_ "flopy"); (S_ "mf6", S_ "flopy")] -> installed l = true.

(** The writer of the format [f] does not fail, if it can be used. *)
Definition writes {D} (installed : pystr -> bool) (w : writers D) (d : D) (f : pystr) : Prop :=
  In f (map S_ ["mat"; "py"; "npz"; "h5"; "vtr"; "mf"; "mf6"; "hgs"]) /\
  (usable installed f ->
   if existsb (pystr_eqb f) (map S_ ["mf"; "mf6"; "hgs"]) then exists l, folder w f d = Ok l else exists c, single w f d = Ok c).

(** Realization [s] is generated and all its formats can be written. *)
Definition goes_well {D} (installed : pystr -> bool) (w : writers D) (j : job D) (s : nat) : Prop :=
  exists d, j_data j s = Ok d /\ Forall (writes installed w d) (j_formats j).

(** The names a folder format uses are ordinary and not used twice. *)
Definition sound_writers {D} (w : writers D) : Prop :=
  forall f d l, folder w f d = Ok l -> NoDup (map fst l) /\ Forall (fun e => plain_name (fst e)) l.
