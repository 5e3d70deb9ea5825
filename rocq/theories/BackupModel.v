(** Model of the backup of the ini-file (hyvr/input/parameters.py l. 485-490 and
    519-521): the file is read again and written with ConfigParser.write.  No
    proofs here.

    RawConfigParser.write and _write_section (configparser.py of CPython) with the
    default settings: delimiter " = ", BasicInterpolation.before_write returns the
    value as it is.  Simplified: the encoding of the written file is that of the
    read one; line ends are those of POSIX. *)
From Coq Require Import List ZArith Bool Ascii String.
From Verif Require Import Base ParseModel ConfigModel IniModel DirsModel.
Import ListNotations.
Local Open Scope list_scope.

(** str(value).replace('\n', '\n\t') *)
Definition retab (v : pystr) : pystr :=
  flat_map (fun c => if Ascii.eqb c nl then [nl; ascii_of_nat 9] else [c]) v.
(** "{}{}\n".format(key, " = " + value) *)
Definition write_option (kv : pystr * pystr) : pystr :=
  fst kv ++ S_ " = " ++ retab (snd kv) ++ [nl].
(** _write_section *)
Definition write_section (name : pystr) (opts : list (pystr * pystr)) : pystr :=
  S_ "[" ++ name ++ S_ "]" ++ [nl] ++ flat_map write_option opts ++ [nl].
(** write *)
Definition write_text (p : inifile * list (pystr * pystr)) : pystr :=
  (match snd p with [] => [] | defs => write_section default_name defs end) ++
  flat_map (fun ns => write_section (fst ns) (snd ns)) (fst p).

(** l. 485-490 and l. 519-521: the text of the backup file *)
Definition backup_text (bytes : pystr) : res pystr :=
  let* p := match read_text bytes with
            | Err MissingSectionHeaderError => read_text (drop_bom bytes)
            | r => r
            end in
  Ok (write_text p).
