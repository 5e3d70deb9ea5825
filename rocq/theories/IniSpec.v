(** Specification: how the contents of an ini-file are written down (docs/inout.rst
    l. 11-20), independently of the reader.  [blank], [writes] etc. speak about
    lines of text only. *)
From Coq Require Import List Bool Ascii String Arith.
From Verif Require Import Base.
Import ListNotations.

Definition is_nl (c : ascii) : Prop := c = ascii_of_nat 10.
Definition is_cr (c : ascii) : Prop := c = ascii_of_nat 13.
(** blanks within a line: space, tab, vertical tab, form feed and the four
    separators *)
Definition blank (c : ascii) : Prop :=
  In (nat_of_ascii c) [9; 11; 12; 28; 29; 30; 31; 32].
Definition blanks (s : pystr) : Prop := Forall blank s.
(** Text within a line *)
Definition inline (s : pystr) : Prop := Forall (fun c => ~ is_nl c /\ ~ is_cr c) s.

(** No blanks at the ends *)
Definition trimmed (s : pystr) : Prop :=
  (forall c r, s = c :: r -> ~ blank c) /\ (forall c r, s = r ++ [c] -> ~ blank c).
Definition not_comment (s : pystr) : Prop :=
  forall c r, s = c :: r -> c <> "#"%char /\ c <> ";"%char.

(** Lines without meaning: blank lines, and comments *)
Inductive filler : pystr -> Prop :=
  | filler_blank s : blanks s -> filler s
  | filler_comment s c t : blanks s -> (c = "#"%char \/ c = ";"%char) -> inline t -> filler (s ++ c :: t).

(** Capital letters of option names do not matter. *)
Definition lower_char (c d : ascii) : Prop :=
  (65 <= nat_of_ascii c <= 90 /\ nat_of_ascii d = nat_of_ascii c + 32)
  \/ (~ 65 <= nat_of_ascii c <= 90 /\ d = c).
Definition lower_case (s t : pystr) : Prop := Forall2 lower_char s t.

(** A name that can stand in front of an equals sign *)
Definition option_name (s : pystr) : Prop :=
  s <> [] /\ trimmed s /\ inline s /\ not_comment s
  /\ Forall (fun c => c <> "="%char /\ c <> ":"%char) s
  /\ (forall c r, s = c :: r -> c <> "["%char).

(** [key = value], after [k] blanks *)
Inductive option_written (k : nat) (key v : pystr) : pystr -> Prop :=
  | option_is s name b1 d b2 b3 :
      blanks s -> List.length s = k -> option_name name -> lower_case name key ->
      blanks b1 -> (d = "="%char \/ d = ":"%char) -> blanks b2 -> blanks b3 ->
      trimmed v -> inline v ->
      option_written k key v (s ++ name ++ b1 ++ d :: b2 ++ v ++ b3).

(** Further lines of a value are indented deeper than the option; there may be
    blank lines and comments between them *)
Inductive more_lines (k : nat) : list pystr -> list pystr -> Prop :=
  | more_none : more_lines k [] []
  | more_comment s c t vs ls :
      blanks s -> (c = "#"%char \/ c = ";"%char) -> inline t ->
      more_lines k vs ls -> more_lines k vs ((s ++ c :: t) :: ls)
  | more_blank s v vs ls :
      blanks s -> more_lines k (v :: vs) ls -> more_lines k ([] :: v :: vs) (s :: ls)
  | more_line s v b vs ls :
      blanks s -> k < List.length s -> v <> [] -> trimmed v -> inline v -> not_comment v -> blanks b ->
      more_lines k vs ls -> more_lines k (v :: vs) ((s ++ v ++ b) :: ls).

(** Text of the value: its lines, separated by line ends *)
Fixpoint value_text (v : pystr) (vs : list pystr) : pystr :=
  match vs with
  | [] => v
  | w :: vs => v ++ [ascii_of_nat 10] ++ value_text w vs
  end.

(** A line is not part of the value above it if it is not indented deeper. *)
Definition fits (o : option nat) (k : nat) : Prop :=
  match o with Some j => k <= j | None => True end.

(** [[name]], after [k] blanks; what follows the bracket does not count *)
Inductive header_written (k : nat) (name : pystr) : pystr -> Prop :=
  | header_is s t :
      blanks s -> List.length s = k -> name <> [] -> inline name ->
      inline t -> ~ In "]"%char t ->
      header_written k name (s ++ "["%char :: name ++ "]"%char :: t).

(** [writes o opts secs ls]: the lines [ls] write the options [opts] of the
    current section and after that the sections [secs]; [o] is the indentation
    of the option above. *)
Inductive writes : option nat -> list (pystr * pystr) -> list (pystr * list (pystr * pystr)) ->
    list pystr -> Prop :=
  | writes_end o : writes o [] [] []
  | writes_filler o opts secs l ls :
      filler l -> writes o opts secs ls -> writes o opts secs (l :: ls)
  | writes_option o k key v vs l more opts secs ls :
      fits o k -> option_written k key v l -> more_lines k vs more ->
      writes (Some k) opts secs ls ->
      writes o ((key, value_text v vs) :: opts) secs (l :: more ++ ls)
  | writes_header o k name l opts secs ls :
      fits o k -> header_written k name l -> writes None opts secs ls ->
      writes o [] ((name, opts) :: secs) (l :: ls).

(** Lines in a file: each ends with [\n], [\r\n] or [\r]; the last one may end
    with the file if it is not empty. *)
Inductive file_of : list pystr -> pystr -> Prop :=
  | file_empty : file_of [] []
  | file_last l : l <> [] -> file_of [l] l
  | file_nl l ls t : file_of ls t -> file_of (l :: ls) (l ++ ascii_of_nat 10 :: t)
  | file_crnl l ls t : file_of ls t -> file_of (l :: ls) (l ++ ascii_of_nat 13 :: ascii_of_nat 10 :: t)
  | file_cr l ls t : (forall r, t <> ascii_of_nat 10 :: r) ->
      file_of ls t -> file_of (l :: ls) (l ++ ascii_of_nat 13 :: t).

(** Sections that can be written: all names differ, no section with the special
    name DEFAULT, no value with the sign that refers to other options *)
Definition document (secs : list (pystr * list (pystr * pystr))) : Prop :=
  secs <> [] /\ NoDup (map fst secs) /\ ~ In (S_ "DEFAULT") (map fst secs) /\
  Forall (fun sec => NoDup (map fst (snd sec)) /\
                     Forall (fun kv => ~ In "%"%char (snd kv)) (snd sec)) secs.

(** The byte order mark (EF BB BF) that some editors put in front of a file *)
Definition byte_order_mark : pystr := map ascii_of_nat [239; 187; 191].
