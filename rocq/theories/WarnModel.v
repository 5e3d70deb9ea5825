(** Warnings about unknown options (hyvr/input/option_parsing.py, Section.parse
    l. 71-75).

    The warnings are printed while the sections are parsed; here they are listed
    per file, in the order of the sections in the file, as they are printed if
    the file is accepted. *)
From Coq Require Import List ZArith Bool Ascii String.
From Verif Require Import Base ParseModel ConfigModel DeprecatedModel.
Import ListNotations.
Local Open Scope string_scope.

(** l. 71-75: [if option not in self.optionnames] *)
Definition section_warnings {F} (os : list (option_ F)) (texts : list (pystr * pystr)) : list pystr :=
  filter (fun k => negb (mem k (map o_name os))) (map fst texts).

Section Warnings.
Context {F : Type} (fo : fops F).

(** The options with which parse_inifile (parameters.py l. 161-298) parses a
    section; none if the section is not parsed because it has no valid
    geometry. *)
Definition table_of (name : pystr) (texts : list (pystr * pystr)) : option (list (option_ F)) :=
  if pystr_eqb name (S_ "run") then Some run_options
  else if pystr_eqb name (S_ "model") then Some (model_options fo)
  else if pystr_eqb name (S_ "strata") then Some strata_options
  else if pystr_eqb name (S_ "hydraulics") then Some hydraulics_options
  else if pystr_eqb name (S_ "flowtrans") then Some flowtrans_options
  else match dget (raw_dict (F := F) texts) (S_ "geometry") with
       | Some (Leaf (AStr g)) =>
           if mem g (map S_ ["trough"; "channel"; "sheet"]) then Some (geometry_options fo g) else None
       | _ => None
       end.

(** The same for parse_deprecated_inifile (l. 412-464) *)
Definition old_table_of (name : pystr) (texts : list (pystr * pystr)) : option (list (option_ F)) :=
  if pystr_eqb name (S_ "run") then Some old_run_options
  else if pystr_eqb name (S_ "model") then Some (old_model_options fo)
  else if pystr_eqb name (S_ "strata") then Some old_strata_options
  else if pystr_eqb name (S_ "hydraulics") then Some old_hydraulics_options
  else if pystr_eqb name (S_ "flowtrans") then Some flowtrans_options
  else match dget (raw_dict (F := F) texts) (S_ "geometry") with
       | Some (Leaf (AStr g)) => match old_options fo g with Ok t => Some t | Err _ => None end
       | _ => None
       end.

Definition warnings_with (table : pystr -> list (pystr * pystr) -> option (list (option_ F))) (p : inifile)
  : list (pystr * pystr) :=
  flat_map (fun nt => match table (fst nt) (snd nt) with
                      | Some os => map (pair (fst nt)) (section_warnings os (snd nt))
                      | None => []
                      end) p.
Definition new_warnings := warnings_with table_of.
Definition old_warnings := warnings_with old_table_of.
End Warnings.
