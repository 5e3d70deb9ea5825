(** The built-in test case and the command line: the parts of
    /repo/hyvr/sim.py l. 61-66 and /repo/hyvr/input/parameters.py l. 91-94 and
    480-483 for [inifile == 0], and /repo/hyvr/__main__.py.  No proofs here. *)
From Coq Require Import List ZArith Bool Ascii String.
From Verif Require Import Base ParseModel ConfigModel DirsModel OutputModel SimModel.
Import ListNotations.
Local Open Scope string_scope.
Local Open Scope list_scope.

(** ** The test case *)

(** [tempfile.mkdtemp()] (parameters.py l. 482) in the directory [tmp]: names
    drawn at random are tried until one is free; [names] are the names drawn (at
    most TMP_MAX of them).  Errors of [os.mkdir] other than a used name are not
    told apart from it. *)
Fixpoint mkdtemp (tmp : path) (names : list pystr) : cmd path := fun t =>
  match names with
  | [] => ([], Err FileExistsError)
  | n :: r =>
      match os_mkdir t (tmp ++ [n]) with
      | Made l => (l, Ok (tmp ++ [n]))
      | NoParent => ([], Err FileNotFoundError)
      | Refused => mkdtemp tmp r t
      end
  end.

(** [shutil.rmtree(p)] *)
Definition rmtree (p : path) : cmd unit := fun t =>
  match place t p with
  | None => ([], Err OSError)
  | Some e => match get t e with
              | Some (Dir es) => (rmtree_ops e (Dir es), Ok tt)
              | _ => ([], Err OSError)
              end
  end.

(** parameters.py l. 47-59 for the test case.  [p] is what configparser read
    from made.ini of the package directory [package] (nothing if the file is not
    there); the run directory is replaced by the temporary one (l. 480-483). *)
Definition setup_test {F D} (fo : fops F) (trunc : F -> res Z) (model_init : config F -> list (pystr * Z) -> res (job D))
  (p : inifile) (package selected tmp : path) (names : list pystr) : cmd (run_paths * job D) :=
  match parameters fo trunc p package (S_ "made.ini") selected with
  | Err e => raise e
  | Ok (cf, rp) =>
      match ae_ids cf with
      | Err e => raise e
      | Ok ids =>
          match model_init cf ids with
          | Err e => raise e
          | Ok j => do* d := mkdtemp tmp names in
                    ret (mkPaths (rp_runname rp) (rp_modeldir rp) d, j)
          end
      end
  end.

(** sim.py l. 32-66 for the test case. *)
Definition run_test {F D} (fo : fops F) (trunc : F -> res Z) (model_init : config F -> list (pystr * Z) -> res (job D))
  (installed : pystr -> bool) (w : writers D) (p : inifile) (package selected tmp : path) (names : list pystr) : cmd unit :=
  do* (rp, j) := setup_test fo trunc model_init p package selected tmp names in
  do* _ := sim_loop installed w rp j (seq 1 (j_numsim j)) in
  fun t => if exists_ t (rp_rundir rp) then rmtree (rp_rundir rp) t else ([], Ok tt).

(** ** The command line

    argparse (Python 3.11, [_parse_known_args], [_parse_optional],
    [_get_option_tuples]) with the two arguments of __main__.py l. 5-10.
    Simplified: digits are those of ASCII. *)
Inductive arg :=
  | AFlag              (* --overwrite or an abbreviation of it *)
  | AHelp              (* -h, --help or an abbreviation *)
  | AWord (s : pystr)  (* not an option *)
  | ASep               (* -- *)
  | AUnknown           (* an option there is none of: reported at the end *)
  | AValue             (* an option with a value: reported at once *)
  | AAmbiguous.        (* reported before any other argument is looked at *)

Definition is_prefix (s e : pystr) : bool := pystr_eqb s (firstn (List.length s) e).
(** [arg.partition('=')]: the part before, and whether there is a '='. *)
Fixpoint before_eq (s : pystr) : pystr * bool :=
  match s with
  | [] => ([], false)
  | c :: r => if Ascii.eqb c "="%char then ([], true)
              else let (a, b) := before_eq r in (c :: a, b)
  end.
(** What follows "-h" in the same argument. *)
Fixpoint after_h (s : pystr) : arg :=
  match s with
  | [] => AHelp
  | c :: r => if Ascii.eqb c "="%char || Ascii.eqb c "-"%char then AValue
              else if Ascii.eqb c "h"%char then after_h r else AHelp
  end.
Definition all_digits (s : pystr) : bool := forallb is_digit s.
(** ['^-\d+$|^-\d*\.\d+$'], without the dash. *)
Fixpoint fraction (s : pystr) : bool :=
  match s with
  | [] => false
  | c :: r => if Ascii.eqb c "."%char then negb (pystr_eqb r []) && all_digits r
              else is_digit c && fraction r
  end.
Definition negative (s : pystr) : bool := (negb (pystr_eqb s []) && all_digits s) || fraction s.
Definition unknown (s : pystr) : arg := if existsb (Ascii.eqb " "%char) s then AWord s else AUnknown.

Definition classify (s : pystr) : arg :=
  match s with
  | c :: r =>
      if Ascii.eqb c "-"%char then
        match r with
        | [] => AWord s
        | c2 :: r2 =>
            if Ascii.eqb c2 "-"%char then
              match r2 with
              | [] => ASep
              | _ :: _ =>
                  let (name, val) := before_eq r2 in
                  if pystr_eqb name [] then AAmbiguous
                  else if is_prefix name (S_ "overwrite") then (if val then AValue else AFlag)
                  else if is_prefix name (S_ "help") then (if val then AValue else AHelp)
                  else unknown s
              end
            else if Ascii.eqb c2 "h"%char then after_h r2
            else if negative r then AWord s else unknown s
        end
      else AWord s
  | [] => AWord s
  end.

(** What argparse makes of the arguments: run with a flag and a file name (or
    without, for the test case), print the help and leave with 0, or complain
    and leave with 2. *)
Inductive parsed := PRun (overwrite : bool) (file : option pystr) | PHelp | PUsage.

(** The first loop over the arguments classifies them; an ambiguous one is an
    error. *)
Fixpoint ambiguous (args : list pystr) : bool :=
  match args with
  | [] => false
  | s :: r => match classify s with ASep => false | AAmbiguous => true | _ => ambiguous r end
  end.
(** The second one works from left to right.  [ow], [file] are what was found
    so far, [extras] tells whether something is left over, which is reported at
    the end.  The positional argument takes one word, with a "--" before or
    after it; a "--" that is not next to it is left over. *)
Definition is_sep (l : list pystr) : bool :=
  match l with [s] => match classify s with ASep => true | _ => false end | _ => false end.
Fixpoint consume (ow : bool) (file : option pystr) (extras : bool) (args : list pystr) : parsed :=
  match args with
  | [] => if extras then PUsage else PRun ow file
  | s :: r =>
      match classify s with
      | AFlag => consume true file extras r
      | AHelp => PHelp
      | AWord x => match file with
                   | None => if is_sep r then (if extras then PUsage else PRun ow (Some x))
                             else consume ow (Some x) extras r
                   | Some _ => consume ow file true r
                   end
      | AUnknown => consume ow file true r
      | ASep => match file, r with
                | None, [] => if extras then PUsage else PRun ow None
                | None, [x] => if extras then PUsage else PRun ow (Some x)
                | _, _ => PUsage
                end
      | AValue | AAmbiguous => PUsage
      end
  end.
Definition parse_args (args : list pystr) : parsed := if ambiguous args then PUsage else consume false None false args.

(** __main__.py l. 13-22: what happens on disk, and the exit status.  [run_file]
    is [hyvr.run] for the file name and the flag, [run_none] for the test case,
    whose exception is not caught (l. 19-20) and so ends the interpreter with
    status 1. *)
Definition main (run_file : pystr -> option bool -> cmd unit) (run_none : option bool -> cmd unit) (args : list pystr) (t : tree)
  : list op * nat :=
  match parse_args args with
  | PHelp => ([], 0)
  | PUsage => ([], 2)
  | PRun ow file =>
      let flag := if ow then Some true else None in
      let (l, r) := match file with Some f => run_file f flag t | None => run_none flag t end in
      (l, exit_status r)
  end.
