(** Sections with a section DEFAULT: its options belong to every section that
    does not have an option of the same name. *)
From Coq Require Import List Bool Ascii String.
From Verif Require Import Base IniSpec ReferSpec.
Import ListNotations.

(** The options of a section, with those of DEFAULT that it does not have. *)
Inductive inherited (opts : list (pystr * pystr)) : list (pystr * pystr) -> list (pystr * pystr) -> Prop :=
  | inherited_none : inherited opts [] []
  | inherited_own key v d l : In key (map fst opts) -> inherited opts d l -> inherited opts ((key, v) :: d) l
  | inherited_new key v d l : ~ In key (map fst opts) -> inherited opts d l -> inherited opts ((key, v) :: d) ((key, v) :: l).
Definition complete (d opts all : list (pystr * pystr)) : Prop := exists l, inherited opts d l /\ all = opts ++ l.

(** The section with the values its options and those of DEFAULT stand for. *)
Definition section_means_with (d : list (pystr * pystr)) (sec sec' : pystr * list (pystr * pystr)) : Prop :=
  fst sec' = fst sec /\ exists all, complete d (snd sec) all /\
  Forall2 (fun kv kv' => fst kv' = fst kv /\ expands all 10 (snd kv) (snd kv')) all (snd sec').
