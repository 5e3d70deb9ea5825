(** The text of the ini-file and the dictionaries made of it.

    setup_from_inifile (hyvr/input/parameters.py l. 97-104) reads the file with
    [configparser.ConfigParser()] and its default settings, a second time
    without a byte order mark if the first line is not in a section, and takes
    [dict(p[section])] of the sections.  The reader itself is in the standard
    library of Python (configparser.py of Python 3.11, [_read] l. 1012-1117);
    it is modelled here as far as the settings of HyVR use it: delimiters [=]
    and [:], full-line comments with [#] and [;], no inline comments, strict,
    empty lines belong to values, section DEFAULT, interpolation of [%].

    Simplifications: the file is a list of bytes; characters outside of ASCII
    are kept as their bytes (no decoding errors, no blanks and no capital
    letters outside of ASCII).  Interpolation happens for all sections when the
    file is read, in Python when a section is used. *)
From Coq Require Import List ZArith Bool Ascii String.
From Verif Require Import Base ParseModel ConfigModel DeprecatedModel.
Import ListNotations.
Local Open Scope nat_scope.

(** *** Characters and strings *)

(** [str.isspace], and [\s] of regular expressions *)
Definition is_space (c : ascii) : bool :=
  let n := nat_of_ascii c in
  ((9 <=? n) && (n <=? 13)) || ((28 <=? n) && (n <=? 32)).
Definition nl : ascii := ascii_of_nat 10.
Definition cr : ascii := ascii_of_nat 13.

Fixpoint lstrip_sp (s : pystr) : pystr :=
  match s with
  | [] => []
  | a :: r => if is_space a then lstrip_sp r else s
  end.
Definition rstrip_sp (s : pystr) : pystr := rev (lstrip_sp (rev s)).
Definition strip_sp (s : pystr) : pystr := rstrip_sp (lstrip_sp s).

(** Number of blanks at the beginning ([NONSPACECRE.search(line).start()],
    l. 1073-1074, of a line that is not blank) *)
Fixpoint leading (s : pystr) : nat :=
  match s with
  | [] => 0
  | a :: r => if is_space a then S (leading r) else 0
  end.

(** Reading a file as text turns all line ends into [\n]. *)
Fixpoint universal (s : pystr) : pystr :=
  match s with
  | [] => []
  | a :: r =>
      if Ascii.eqb a cr then
        match r with
        | b :: r' => if Ascii.eqb b nl then nl :: universal r' else nl :: universal r
        | [] => [nl]
        end
      else a :: universal r
  end.

(** Iteration over the lines of a file, without their line ends (the lines are
    only used stripped): no line after the last line end. *)
Fixpoint lines_of (s : pystr) : list pystr :=
  match s with
  | [] => []
  | a :: r =>
      if Ascii.eqb a nl then [] :: lines_of r
      else match lines_of r with
           | [] => [[a]]
           | l :: ls => (a :: l) :: ls
           end
  end.

(** *** The regular expressions *)

(** Text in front of the last [c], if there is one *)
Fixpoint before_last (c : ascii) (s : pystr) : option pystr :=
  match s with
  | [] => None
  | a :: r =>
      match before_last c r with
      | Some h => Some (a :: h)
      | None => if Ascii.eqb a c then Some [] else None
      end
  end.

(** SECTCRE (l. 574-578): [\[(?P<header>.+)\]], the longest match *)
Definition section_header (v : pystr) : option pystr :=
  match v with
  | a :: r =>
      if Ascii.eqb a "["%char then
        match before_last "]"%char r with
        | Some (b :: h) => Some (b :: h)
        | _ => None
        end
      else None
  | [] => None
  end.

(** OPTCRE (l. 579-586): the option ends at the first delimiter; the blanks
    around the delimiter belong neither to the option nor to the value *)
Fixpoint split_option (v : pystr) : option (pystr * pystr) :=
  match v with
  | [] => None
  | a :: r =>
      if Ascii.eqb a "="%char || Ascii.eqb a ":"%char then Some ([], r)
      else match split_option r with
           | Some (k, w) => Some (a :: k, w)
           | None => None
           end
  end.

(** *** Reading (l. 1012-1117) *)
Fixpoint aget {A} (l : list (pystr * A)) (k : pystr) : option A :=
  match l with
  | [] => None
  | (k', a) :: r => if pystr_eqb k k' then Some a else aget r k
  end.
Fixpoint aupd {A} (k : pystr) (f : A -> A) (l : list (pystr * A)) : list (pystr * A) :=
  match l with
  | [] => []
  | (k', a) :: r => if pystr_eqb k k' then (k', f a) :: r else (k', a) :: aupd k f r
  end.
Definition amem {A} (l : list (pystr * A)) (k : pystr) : bool :=
  match aget l k with Some _ => true | None => false end.

(** The lines of the values of the options of a section *)
Definition raw_section := list (pystr * list pystr).

(** [_sections], [_defaults], and the local variables of [_read]: [cursect]
    ([Some None] is the section DEFAULT), [optname], [indent_level] and whether
    a parsing error was stored.  [elements_added] contains what is in the
    dictionaries, as the parser is new. *)
Record istate := mkIstate {
  i_sections : list (pystr * raw_section);
  i_defaults : raw_section;
  i_cur : option (option pystr);
  i_opt : option pystr;
  i_indent : nat;
  i_error : bool }.

Definition istart : istate := mkIstate [] [] None None 0 false.

Definition default_name : pystr := S_ "DEFAULT".

(** [optname] is neither [None] nor empty. *)
Definition open_option (s : istate) : option pystr :=
  match i_cur s, i_opt s with
  | Some _, Some (a :: k) => Some (a :: k)
  | _, _ => None
  end.

(** [cursect] and changes of it *)
Definition cursect (s : istate) (c : option pystr) : raw_section :=
  match c with
  | None => i_defaults s
  | Some n => match aget (i_sections s) n with Some x => x | None => [] end
  end.
Definition change (s : istate) (f : raw_section -> raw_section) : istate :=
  match i_cur s with
  | None => s
  | Some None => mkIstate (i_sections s) (f (i_defaults s)) (i_cur s) (i_opt s) (i_indent s) (i_error s)
  | Some (Some n) => mkIstate (aupd n f (i_sections s)) (i_defaults s) (i_cur s) (i_opt s) (i_indent s) (i_error s)
  end.
Definition append_line (s : istate) (k v : pystr) : istate :=
  change s (aupd k (fun vs => vs ++ [v])).

Definition set_indent (s : istate) (n : nat) : istate :=
  mkIstate (i_sections s) (i_defaults s) (i_cur s) (i_opt s) n (i_error s).
Definition set_opt (s : istate) (o : option pystr) : istate :=
  mkIstate (i_sections s) (i_defaults s) (i_cur s) o (i_indent s) (i_error s).
Definition set_cur (s : istate) (c : option pystr) : istate :=
  mkIstate (i_sections s) (i_defaults s) (Some c) None (i_indent s) (i_error s).
Definition set_error (s : istate) : istate :=
  mkIstate (i_sections s) (i_defaults s) (i_cur s) (i_opt s) (i_indent s) true.
Definition new_section (s : istate) (n : pystr) : istate :=
  mkIstate (i_sections s ++ [(n, [])]) (i_defaults s) (i_cur s) (i_opt s) (i_indent s) (i_error s).

(** l. 1052-1054 *)
Definition is_comment (v : pystr) : bool :=
  match v with
  | a :: _ => Ascii.eqb a "#"%char || Ascii.eqb a ";"%char
  | [] => false
  end.

(** l. 1082-1099 *)
Definition header_line (s : istate) (n : pystr) : res istate :=
  if amem (i_sections s) n then Err DuplicateSectionError
  else if pystr_eqb n default_name then Ok (set_cur s None)
  else Ok (set_cur (new_section s n) (Some n)).

(** l. 1104-1126; [optionxform] is [str.lower] *)
Definition option_line (s : istate) (c : option pystr) (v : pystr) : res istate :=
  match split_option v with
  | Some (k, w) =>
      let s := match rstrip_sp k with [] => set_error s | _ => s end in
      let k := str_lower (rstrip_sp k) in
      if amem (cursect s c) k then Err DuplicateOptionError
      else Ok (change (set_opt s (Some k)) (fun opts => opts ++ [(k, [strip_sp w])]))
  | None => Ok (set_error s)
  end.

(** One line (l. 1038-1131) *)
Definition read_line (s : istate) (line : pystr) : res istate :=
  let v := strip_sp line in
  if is_comment v then Ok s
  else match v with
  | [] => Ok match open_option s with Some k => append_line s k [] | None => s end
  | _ =>
      match open_option s with
      | Some k =>
          if i_indent s <? leading line then Ok (append_line s k v)
          else
            let s := set_indent s (leading line) in
            match section_header v with
            | Some n => header_line s n
            | None => match i_cur s with
                      | None => Err MissingSectionHeaderError
                      | Some c => option_line s c v
                      end
            end
      | None =>
          let s := set_indent s (leading line) in
          match section_header v with
          | Some n => header_line s n
          | None => match i_cur s with
                    | None => Err MissingSectionHeaderError
                    | Some c => option_line s c v
                    end
          end
      end
  end.

(** ['\n'.join(val).rstrip()] (l. 1136-1146) *)
Fixpoint join_nl (l : list pystr) : pystr :=
  match l with
  | [] => []
  | [x] => x
  | x :: r => x ++ nl :: join_nl r
  end.
Definition join_value (vs : list pystr) : pystr := rstrip_sp (join_nl vs).
Definition join_section (sec : raw_section) : list (pystr * pystr) :=
  map (fun kv => (fst kv, join_value (snd kv))) sec.

(** Sections and defaults after [p.read(...)] *)
Definition read_text (text : pystr) : res (inifile * list (pystr * pystr)) :=
  let* s := foldM read_line istart (lines_of (universal text)) in
  if i_error s then Err ParsingError
  else Ok (map (fun ns => (fst ns, join_section (snd ns))) (i_sections s), join_section (i_defaults s)).

(** *** Access (BasicInterpolation, l. 368-440) *)

(** [_KEYCRE], [%\(([^)]+)\)s], without the first two characters *)
Fixpoint until_paren (s : pystr) : option (pystr * pystr) :=
  match s with
  | [] => None
  | a :: r =>
      if Ascii.eqb a ")"%char then
        match r with
        | b :: r' => if Ascii.eqb b "s"%char then Some ([], r') else None
        | [] => None
        end
      else match until_paren r with Some (n, t) => Some (a :: n, t) | None => None end
  end.

(** [_interpolate_some] (l. 400-440): at most ten levels *)
Fixpoint interpolate (depth : nat) (vals : list (pystr * pystr)) (s : pystr) : res pystr :=
  match depth with
  | O => Err InterpolationError
  | S depth =>
      (fix go (fuel : nat) (s : pystr) : res pystr :=
         match fuel, s with
         | _, [] => Ok []
         | O, _ => Err OutOfFuel
         | S fuel, a :: r =>
             if Ascii.eqb a "%"%char then
               match r with
               | b :: r' =>
                   if Ascii.eqb b "%"%char then let* t := go fuel r' in Ok ("%"%char :: t)
                   else if Ascii.eqb b "("%char then
                     match until_paren r' with
                     | Some (c :: n, rest) =>
                         match aget vals (str_lower (c :: n)) with
                         | None => Err InterpolationError
                         | Some v =>
                             let* v := (if existsb (Ascii.eqb "%"%char) v
                                        then interpolate depth vals v else Ok v) in
                             let* t := go fuel rest in Ok (v ++ t)
                         end
                     | _ => Err InterpolationError
                     end
                   else Err InterpolationError
               | [] => Err InterpolationError
               end
             else let* t := go fuel r in Ok (a :: t)
         end) (List.length s) s
  end.

(** [dict(p[section])]: the options of the section, then those of DEFAULT that
    it does not have *)
Definition with_defaults (defaults opts : list (pystr * pystr)) : list (pystr * pystr) :=
  opts ++ filter (fun kv => negb (amem opts (fst kv))) defaults.
Definition section_dict (defaults opts : list (pystr * pystr)) : res (list (pystr * pystr)) :=
  let vals := with_defaults defaults opts in
  mapM (fun kv => let* v := interpolate 10 vals (snd kv) in Ok (fst kv, v)) vals.

(** *** parameters.py l. 97-104 *)
Definition bom : pystr := [ascii_of_nat 239; ascii_of_nat 187; ascii_of_nat 191].
(** Decoding with ['utf-8-sig'] *)
Definition drop_bom (bytes : pystr) : pystr :=
  match bytes with
  | a :: b :: c :: r => if pystr_eqb [a; b; c] bom then r else bytes
  | _ => bytes
  end.

Definition read_ini (bytes : pystr) : res inifile :=
  let* p := match read_text bytes with
            | Err MissingSectionHeaderError => read_text (drop_bom bytes)
            | r => r
            end in
  match fst p with
  | [] => Err FileNotFoundError
  | secs => mapM (fun ns => let* t := section_dict (snd p) (snd ns) in Ok (fst ns, t)) secs
  end.

(** From the bytes of the file to the settings *)
Definition read_settings {F} (fo : fops F) (trunc : F -> res Z) (bytes : pystr) : res (config F) :=
  let* p := read_ini bytes in read_config fo trunc p.
