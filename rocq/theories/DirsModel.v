(** Model of naming and creating the output directories:
    hyvr/input/parameters.py (parameters, l. 106-158, setup_from_inifile,
    l. 26-59, set_up_directories, l. 466-521) and the realization directories
    of hyvr/sim.py (l. 36-56).  No proofs here.

    The file system is a tree; symbolic links are followed as the operating
    system does.  A function that works on the disk yields the list of atomic
    changes it makes and its result, so that every prefix of the list is a
    point at which the execution may be interrupted (or at which an operation
    not modelled here, such as a permission error, raises).

    Not modelled here: the built-in test case ([inifile == 0], TestCaseModel), file kinds other
    than regular files, directories and links, permissions. *)
From Coq Require Import List ZArith Bool Ascii String.
From Verif Require DeprecatedModel.
From Verif Require Import Base ParseModel ConfigModel.
Import ListNotations.
Local Open Scope string_scope.
Local Open Scope list_scope.

(** ** File names *)

(** [s.endswith(e)] *)
Definition endswith (s e : pystr) : bool :=
  Nat.leb (List.length e) (List.length s) && pystr_eqb (skipn (List.length s - List.length e) s) e.
(** [sep.join(l)] for a separator of one character. *)
Fixpoint join_with (c : ascii) (l : list pystr) : pystr :=
  match l with
  | [] => []
  | [x] => x
  | x :: r => x ++ c :: join_with c r
  end.
(** [s[0:-k]] for k >= 1. *)
Definition drop_last (k : nat) (s : pystr) : pystr := firstn (List.length s - k) s.

(** Absolute paths as lists of components. *)
Definition path := list pystr.

(** [p / s] of pathlib: empty components and "." disappear, an absolute [s]
    replaces [p]. *)
Definition components (s : pystr) : path :=
  filter (fun c => negb (pystr_eqb c []) && negb (pystr_eqb c (S_ "."))) (split1 "/"%char s).
Definition pjoin (p : path) (s : pystr) : path :=
  match s with
  | c :: _ => if Ascii.eqb c "/"%char then components s else p ++ components s
  | [] => p
  end.

Definition backup_suffix : pystr := S_ "_autogenerated_backup.ini".

(** Values of run['runname'] and run['modeldir'] after parsing: absent or a
    string. *)
Record run_paths := mkPaths { rp_runname : pystr; rp_modeldir : path; rp_rundir : path }.

(** parameters(), l. 124-156, for an ini file [ini_name] in the (resolved)
    directory [ini_path].  [selected] is the directory typed in at the prompt,
    resolved.  In the 'select' branch the test l. 152 looks at run['modeldir'],
    which is the string 'select', so the answer is always used.
    [run['modeldir'] / run['runname']] with a string on the left raises
    TypeError. *)
Definition set_paths (runname modeldir : option pystr) (ini_path : path) (ini_name : pystr) (selected : path)
  : res run_paths :=
  let rn := match runname with
            | Some r => r
            | None => if endswith ini_name (S_ "autogenerated_backup.ini")
                      then drop_last 25 ini_name
                      else join_with "."%char (removelast (split1 "."%char ini_name))
            end in
  if endswith ini_name backup_suffix
  then Ok (mkPaths rn (removelast ini_path) ini_path)
  else match modeldir with
       | None => Ok (mkPaths rn ini_path (pjoin ini_path rn))
       | Some m => if pystr_eqb m (S_ "select")
                   then Ok (mkPaths rn selected (pjoin selected rn))
                   else Err TypeError
       end.

(** ** The file system *)
Inductive tree :=
  | File (content : pystr)
  | Link (target : path)
  | Dir (entries : list (pystr * tree)).

Fixpoint entry (es : list (pystr * tree)) (n : pystr) : option tree :=
  match es with
  | [] => None
  | (m, t) :: r => if pystr_eqb n m then Some t else entry r n
  end.

(** The object at a path that contains no links. *)
Fixpoint get (t : tree) (p : path) : option tree :=
  match p with
  | [] => Some t
  | n :: r => match t with
              | Dir es => match entry es n with Some t' => get t' r | None => None end
              | _ => None
              end
  end.

Fixpoint set_entry (es : list (pystr * tree)) (n : pystr) (t : tree) : list (pystr * tree) :=
  match es with
  | [] => [(n, t)]
  | (m, u) :: r => if pystr_eqb n m then (m, t) :: r else (m, u) :: set_entry r n t
  end.
Definition del_entry (es : list (pystr * tree)) (n : pystr) : list (pystr * tree) :=
  filter (fun e => negb (pystr_eqb n (fst e))) es.

(** Replace, add or remove (with [None]) the object at a path whose parent is
    a directory. *)
Fixpoint put (t : tree) (p : path) (v : option tree) : tree :=
  match p with
  | [] => t
  | n :: r =>
      match t with
      | Dir es =>
          match r with
          | [] => Dir (match v with Some u => set_entry es n u | None => del_entry es n end)
          | _ :: _ => match entry es n with
                      | Some t' => Dir (set_entry es n (put t' r v))
                      | None => t
                      end
          end
      | _ => t
      end
  end.

(** Looking a path up as the operating system does: links are followed (40 of
    them at most), ".." goes to the parent directory. *)
Fixpoint walk (links : nat) (t : tree) : path -> path -> option path :=
  fix walk_from (cur rest : path) {struct rest} : option path :=
    match rest with
    | [] => Some cur
    | n :: r =>
        if pystr_eqb n (S_ "..") then walk_from (removelast cur) r
        else match get t (cur ++ [n]) with
             | None => None
             | Some (Link q) => match links with O => None | S k => walk k t [] (q ++ r) end
             | Some _ => walk_from (cur ++ [n]) r
             end
    end.
Definition resolve (t : tree) (p : path) : option path := walk 40 t [] p.

(** [p.exists()], [p.is_file()], [p.is_dir()] *)
Definition exists_ (t : tree) (p : path) : bool :=
  match resolve t p with Some _ => true | None => false end.
Definition is_file (t : tree) (p : path) : bool :=
  match resolve t p with
  | Some q => match get t q with Some (File _) => true | _ => false end
  | None => false
  end.
Definition is_dir (t : tree) (p : path) : bool :=
  match resolve t p with
  | Some q => match get t q with Some (Dir _) => true | _ => false end
  | None => false
  end.

(** The place a path denotes: its parent resolved, with its last component. *)
Definition place (t : tree) (p : path) : option path :=
  match resolve t (removelast p) with
  | Some q => match get t q with
              | Some (Dir _) => Some (q ++ [last p []])
              | _ => None
              end
  | None => None
  end.

(** ** Atomic changes *)
Inductive op :=
  | Mkdir (p : path)
  | Unlink (p : path)
  | Rmdir (p : path)
  | Create (p : path)               (* create or truncate *)
  | Append (p : path) (c : pystr).

Definition do_op (t : tree) (o : op) : tree :=
  match o with
  | Mkdir p => put t p (Some (Dir []))
  | Unlink p | Rmdir p => put t p None
  | Create p => put t p (Some (File []))
  | Append p c => match get t p with Some (File d) => put t p (Some (File (d ++ c))) | _ => t end
  end.
Definition do_ops (t : tree) (l : list op) : tree := fold_left do_op l t.

(** Commands: from a file system to the changes made and the result. *)
Definition cmd (A : Type) := tree -> list op * res A.
Definition ret {A} (a : A) : cmd A := fun _ => ([], Ok a).
Definition raise {A} (e : exn) : cmd A := fun _ => ([], Err e).
Definition change (l : list op) : cmd unit := fun _ => (l, Ok tt).
Definition andthen {A B} (m : cmd A) (f : A -> cmd B) : cmd B := fun t =>
  let (l, r) := m t in
  match r with
  | Ok a => let (l', r') := f a (do_ops t l) in (l ++ l', r')
  | Err e => (l, Err e)
  end.
Notation "'do*' x := m 'in' k" := (andthen m (fun x => k))
  (at level 200, x pattern, m at level 100, k at level 200, right associativity).

(** [os.mkdir(p)]: the missing parent is told apart from other errors. *)
Inductive mkdir_result := Made (l : list op) | NoParent | Refused.
Definition os_mkdir (t : tree) (p : path) : mkdir_result :=
  match p with
  | [] => Refused
  | _ :: _ =>
      match resolve t (removelast p) with
      | None => NoParent
      | Some q => match get t q with
                  | Some (Dir es) =>
                      if pystr_eqb (last p []) (S_ "..") then Refused
                      else match entry es (last p []) with
                           | None => Made [Mkdir (q ++ [last p []])]
                           | Some _ => Refused
                           end
                  | _ => Refused
                  end
      end
  end.

(** [p.mkdir(parents=True, exist_ok=True)]; the recursion runs over the length
    of the path. *)
Fixpoint mkdirs_n (n : nat) (p : path) : cmd unit := fun t =>
  match os_mkdir t p with
  | Made l => (l, Ok tt)
  | Refused => if is_dir t p then ([], Ok tt) else ([], Err FileExistsError)
  | NoParent =>
      match n with
      | O => ([], Err FileNotFoundError)
      | S n => (do* _ := mkdirs_n n (removelast p) in
                fun t => match os_mkdir t p with
                         | Made l => (l, Ok tt)
                         | Refused => if is_dir t p then ([], Ok tt) else ([], Err FileExistsError)
                         | NoParent => ([], Err FileNotFoundError)
                         end) t
      end
  end.
Definition mkdirs (p : path) : cmd unit := mkdirs_n (List.length p) p.

(** [shutil.rmtree] of an object that is not a link: contents first. *)
Fixpoint rmtree_ops (p : path) (t : tree) : list op :=
  match t with
  | Dir es => (fix go (es : list (pystr * tree)) : list op :=
                 match es with
                 | [] => []
                 | (n, u) :: r => rmtree_ops (p ++ [n]) u ++ go r
                 end) es ++ [Rmdir p]
  | _ => [Unlink p]
  end.

(** One round of the loop l. 503-509: [d] is run['rundir'], [n] a name. *)
Definition delete_entry (d : path) (n : pystr) : cmd unit := fun t =>
  match place t (d ++ [n]) with
  | None => ([], Ok tt)
  | Some e =>
      if is_file t (d ++ [n]) then ([Unlink e], Ok tt)
      else if is_dir t (d ++ [n]) then
        match get t e with
        | Some (Link _) => ([], Err OSError)
        | Some u => (rmtree_ops e u, Ok tt)
        | None => ([], Err OSError)
        end
      else ([], Ok tt)
  end.
Fixpoint delete_entries (d : path) (l : list pystr) : cmd unit :=
  match l with
  | [] => ret tt
  | n :: r => do* _ := delete_entry d n in delete_entries d r
  end.
(** [os.listdir] *)
Definition listdir (d : path) : cmd (list pystr) := fun t =>
  match resolve t d with
  | Some q => match get t q with
              | Some (Dir es) => ([], Ok (map fst es))
              | _ => ([], Err OSError)
              end
  | None => ([], Err FileNotFoundError)
  end.

(** Where [open(p, 'w')] puts the file: links, also dangling ones, are
    followed. *)
Fixpoint locate (links : nat) (t : tree) (p : path) : res path :=
  match place t p with
  | None => Err FileNotFoundError
  | Some e => match get t e with
              | None | Some (File _) => Ok e
              | Some (Dir _) => Err OSError
              | Some (Link q) => match links with O => Err OSError | S k => locate k t q end
              end
  end.
(** [with open(p, 'w') as f: p.write(f)]; [chunks] are the pieces in which the
    text reaches the disk. *)
Definition write_file (p : path) (chunks : list pystr) : cmd unit := fun t =>
  match locate 40 t p with
  | Ok e => (Create e :: map (Append e) chunks, Ok tt)
  | Err e => ([], Err e)
  end.

(** set_up_directories, l. 466-521.  [configured] is
    run['overwrite_old_output'], [flag] the argument overwrite_old_output.
    The argument is combined with the option in l. 498-499, but the test l. 501
    looks at the option. *)
Definition set_up_directories (rp : run_paths) (configured : bool) (flag : option bool) (chunks : list pystr)
  : cmd unit :=
  do* _ := mkdirs (rp_modeldir rp) in
  let overwrite_old_output := match flag with Some b => b | None => configured end in
  do* _ := (fun t =>
    if exists_ t (rp_rundir rp) then
      (if configured then
         do* l := listdir (rp_rundir rp) in delete_entries (rp_rundir rp) l
       else raise FileExistsError) t
    else mkdirs (rp_rundir rp) t) in
  write_file (pjoin (rp_rundir rp) (rp_runname rp ++ backup_suffix)) chunks.

(** ** setup_from_inifile, l. 47-59

    [p] is what configparser read, [chunks] the text it writes back, [trunc] is
    int(x) of a float (only used for the old format); [model_init] stands for the
    constructor of Model, which does not touch the disk. *)
Definition opt_text {F} (v : val (atom F)) : option pystr :=
  match v with Leaf (AStr s) => Some s | _ => None end.
Definition as_bool {F} (v : val (atom F)) : bool :=
  match v with Leaf (ABool b) => b | _ => false end.

Definition parameters {F} (fo : fops F) (trunc : F -> res Z) (p : inifile) (ini_path : path) (ini_name : pystr) (selected : path)
  : res (config F * run_paths) :=
  match p with
  | [] => Err FileNotFoundError
  | _ :: _ =>
      let* cf := DeprecatedModel.read_config fo trunc p in
      let* rn := lookup (cf_run cf) "runname" in
      let* md := lookup (cf_run cf) "modeldir" in
      let* rp := set_paths (opt_text rn) (opt_text md) ini_path ini_name selected in
      Ok (cf, rp)
  end.

Definition setup_from_inifile {F M} (fo : fops F) (trunc : F -> res Z) (model_init : config F -> list (pystr * Z) -> res M)
  (p : inifile) (ini_path : path) (ini_name : pystr) (selected : path) (flag_ow : option bool) (chunks : list pystr)
  : cmd (run_paths * M) :=
  match parameters fo trunc p ini_path ini_name selected with
  | Err e => raise e
  | Ok (cf, rp) =>
      match ae_ids cf with
      | Err e => raise e
      | Ok ids =>
          match model_init cf ids with
          | Err e => raise e
          | Ok m =>
              match lookup (cf_run cf) "overwrite_old_output" with
              | Err e => raise e
              | Ok ow => do* _ := set_up_directories rp (as_bool ow) flag_ow chunks in ret (rp, m)
              end
          end
      end
  end.

(** ** Realization directories (sim.py l. 52-56) *)

(** Decimal digits, ['{:03d}'.format(n)] *)
Fixpoint digits (fuel n : nat) (acc : pystr) : pystr :=
  let acc := ascii_of_nat (48 + Nat.modulo n 10) :: acc in
  match fuel with
  | O => acc
  | S f => if Nat.ltb n 10 then acc else digits f (Nat.div n 10) acc
  end.
Definition decimal (n : nat) : pystr := digits n n [].
Definition format_03d (n : nat) : pystr :=
  let s := decimal n in repeat "0"%char (3 - List.length s) ++ s.
Definition realdir (numsim : nat) (rundir : path) (sim : nat) : path :=
  if Nat.ltb 1 numsim then pjoin rundir (S_ "real_" ++ format_03d sim) else rundir.
(** The directories of a run, in the order of the realizations. *)
Definition realdirs (numsim : nat) (rundir : path) : list path :=
  map (realdir numsim rundir) (seq 1 numsim).
