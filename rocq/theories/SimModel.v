(** The whole run on disk: /repo/hyvr/sim.py l. 19-66, the files of
    /repo/hyvr/postprocess/output.py l. 35-78 and the exit status of
    /repo/hyvr/__main__.py l. 13-22. *)
From Coq Require Import List ZArith Bool Ascii String.
From Verif Require Import Base ParseModel ConfigModel DirsModel OutputModel.
Import ListNotations.
Local Open Scope string_scope.
Local Open Scope list_scope.

(** Where a format goes: one file [<runname><ext>] in the realization directory
    (output.py l. 92, 106, 120, 136, 161), or files in a folder of it
    (l. 182-185, 252-255, 428-431). *)
Inductive target := Single (ext : pystr) | Folder (dir : pystr).

(** output.py l. 57-66 together with the file names of the functions named there. *)
Definition target_of (f : pystr) : option target :=
  if pystr_eqb f (S_ "mat") then Some (Single (S_ ".mat"))
  else if pystr_eqb f (S_ "py") then Some (Single (S_ ".pickle"))
  else if pystr_eqb f (S_ "npz") then Some (Single (S_ ".npz"))
  else if pystr_eqb f (S_ "h5") then Some (Single (S_ ".h5"))
  else if pystr_eqb f (S_ "vtr") then Some (Single (S_ ".vtr"))
  else if pystr_eqb f (S_ "mf") then Some (Folder (S_ "MODFLOW"))
  else if pystr_eqb f (S_ "mf6") then Some (Folder (S_ "mf6"))
  else if pystr_eqb f (S_ "hgs") then Some (Folder (S_ "HGS"))
  else None.

(** Whether the library of a format can be imported. *)
Definition available (installed : pystr -> bool) (f : pystr) : bool :=
  match library f with Some l => installed l | None => true end.

(** The writers.  [single f d] is what the writer of a single-file format
    writes for the data [d], piece by piece; [folder f d] the files, with their
    names, that the writer of a folder format writes.  Both may fail.
    Simplified: a failing writer of a single-file format leaves no file, and
    the names of a folder format are given with the contents (the model does not
    look into flopy; for [hgs] the two names are those of output.py l. 434, 441, 448). *)
Record writers (D : Type) := mkWriters {
  single : pystr -> D -> res (list pystr);
  folder : pystr -> D -> res (list (pystr * list pystr))
}.
Arguments single {D}.
Arguments folder {D}.

(** One file after the other in the folder [p]. *)
Fixpoint write_files (p : path) (l : list (pystr * list pystr)) : cmd unit :=
  match l with
  | [] => ret tt
  | (n, chunks) :: r => do* _ := write_file (p ++ [n]) chunks in write_files p r
  end.

(** One turn of the loop of [create_outputs], output.py l. 68-78.  An
    ImportError only warns; it is raised before anything is written. *)
Definition output_cmd {D} (installed : pystr -> bool) (w : writers D) (rd : path) (runname : pystr) (d : D) (f : pystr) : cmd unit :=
  match target_of f with
  | None => raise ValueError
  | Some tg =>
      if available installed f then
        match tg with
        | Single ext => match single w f d with
                        | Err e => raise e
                        | Ok chunks => write_file (pjoin rd (runname ++ ext)) chunks
                        end
        | Folder dir =>
            let p := removelast (pjoin rd runname) ++ [dir] in
            do* _ := mkdirs p in
            match folder w f d with
            | Err e => raise e
            | Ok l => write_files p l
            end
        end
      else ret tt
  end.
Fixpoint outputs_cmd {D} (installed : pystr -> bool) (w : writers D) (rd : path) (runname : pystr) (d : D) (formats : list pystr) : cmd unit :=
  match formats with
  | [] => ret tt
  | f :: r => do* _ := output_cmd installed w rd runname d f in outputs_cmd installed w rd runname d r
  end.

(** What the loop of sim.py needs: the number of realizations, the formats, and
    the data of the [s]-th realization (l. 36-41), or the exception raised
    while it is generated. *)
Record job (D : Type) := mkJob { j_numsim : nat; j_formats : list pystr; j_data : nat -> res D }.
Arguments j_numsim {D}.
Arguments j_formats {D}.
Arguments j_data {D}.

(** The body of the loop, sim.py l. 34-58. *)
Definition realization {D} (installed : pystr -> bool) (w : writers D) (rp : run_paths) (j : job D) (s : nat) : cmd unit :=
  match j_data j s with
  | Err e => raise e
  | Ok d =>
      let rd := realdir (j_numsim j) (rp_rundir rp) s in
      do* _ := mkdirs rd in
      outputs_cmd installed w rd (rp_runname rp) d (j_formats j)
  end.
Fixpoint sim_loop {D} (installed : pystr -> bool) (w : writers D) (rp : run_paths) (j : job D) (sims : list nat) : cmd unit :=
  match sims with
  | [] => ret tt
  | s :: r => do* _ := realization installed w rp j s in sim_loop installed w rp j r
  end.

(** [run], sim.py l. 19-58, for a given ini-file. *)
Definition run_cmd {F D} (fo : fops F) (trunc : F -> res Z) (model_init : config F -> list (pystr * Z) -> res (job D))
  (installed : pystr -> bool) (w : writers D) (p : inifile) (ini_path : path) (ini_name : pystr) (selected : path)
  (flag_ow : option bool) (chunks : list pystr) : cmd unit :=
  do* (rp, j) := setup_from_inifile fo trunc model_init p ini_path ini_name selected flag_ow chunks in
  sim_loop installed w rp j (seq 1 (j_numsim j)).

(** __main__.py l. 15-22, for a given ini-file. *)
Definition exit_status (r : res unit) : nat := match r with Ok _ => 0 | Err _ => 1 end.
