(** References between the options of a section of the ini-file: [%(name)s]
    stands for the value of the option [name], [%%] for a per cent sign. *)
From Coq Require Import List Bool Ascii String.
From Verif Require Import Base IniSpec.
Import ListNotations.

(** [expands opts d s t]: with references nested at most [d] deep, the text [s]
    stands for [t]. *)
Inductive expands (opts : list (pystr * pystr)) : nat -> pystr -> pystr -> Prop :=
  | expands_end d : expands opts d [] []
  | expands_char d c s t : c <> "%"%char -> expands opts d s t -> expands opts d (c :: s) (c :: t)
  | expands_percent d s t : expands opts (S d) s t -> expands opts (S d) ("%" :: "%" :: s)%char ("%"%char :: t)
  | expands_reference d name key v w s t :
      name <> [] -> ~ In ")"%char name -> lower_case name key -> In (key, v) opts ->
      expands opts d v w -> expands opts (S d) s t ->
      expands opts (S d) ("%" :: "(" :: name ++ ")" :: "s" :: s)%char (w ++ t).

(** Sections that can be written: as [document], with any values. *)
Definition sections_ok (secs : list (pystr * list (pystr * pystr))) : Prop :=
  secs <> [] /\ NoDup (map fst secs) /\ ~ In (S_ "DEFAULT") (map fst secs) /\
  Forall (fun sec => NoDup (map fst (snd sec))) secs.

(** The section with the values its options stand for. *)
Definition section_means (sec sec' : pystr * list (pystr * pystr)) : Prop :=
  fst sec' = fst sec /\
  Forall2 (fun kv kv' => fst kv' = fst kv /\ expands (snd sec) 10 (snd kv) (snd kv')) (snd sec) (snd sec').

(** The text [s] contains a reference to the option [key]. *)
Definition refers (s key : pystr) : Prop :=
  exists a name b, s = (a ++ "%" :: "(" :: name ++ ")" :: "s" :: b)%char /\ ~ In "%"%char a /\ name <> [] /\ ~ In ")"%char name /\ lower_case name key.
