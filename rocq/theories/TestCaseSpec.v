(** Vocabulary for the test case and the command line. *)
From Coq Require Import List ZArith Bool Ascii String.
From Verif Require Import Base DirsModel DirsSpec.
Import ListNotations.
Local Open Scope string_scope.
Local Open Scope list_scope.

(** Nothing is changed on disk. *)
Definition same_disk (t t' : tree) : Prop := forall q, kind_at t' q = kind_at t q.

(** The option --overwrite, written out or abbreviated. *)
Definition overwrite_option (s : pystr) : Prop :=
  exists a b, a <> [] /\ a ++ b = S_ "overwrite" /\ s = S_ "--" ++ a.
(** Something that cannot be taken for an option. *)
Definition file_word (s : pystr) : Prop := match s with [] => True | c :: _ => c <> "-"%char end.

(** [hyvr [--overwrite] [filename]], in any order. *)
Inductive usage : list pystr -> bool -> option pystr -> Prop :=
  | usage_none : usage [] false None
  | usage_flag s args ow file : overwrite_option s -> usage args ow file -> usage (s :: args) true file
  | usage_file f args ow : file_word f -> usage args ow None -> usage (f :: args) ow (Some f).

(** Arguments that begin with a dash and are no options: a dash alone, a
    negative number, or a text with a blank that does not begin like an
    option. *)
Definition is_number (s : pystr) : Prop := Forall (fun c => In c (S_ "0123456789")) s.
Definition option_name (a : pystr) : Prop := exists b, a ++ b = S_ "overwrite" \/ a ++ b = S_ "help".
Definition dash_word (s : pystr) : Prop :=
  s = S_ "-" \/
  (exists a, a <> [] /\ is_number a /\ s = S_ "-" ++ a) \/
  (exists a b, is_number a /\ b <> [] /\ is_number b /\ s = S_ "-" ++ a ++ S_ "." ++ b) \/
  (In " "%char s /\ exists c r, c <> "-"%char /\ c <> "h"%char /\ s = S_ "-" ++ c :: r) \/
  (In " "%char s /\ exists a r, a <> [] /\ ~ In "="%char a /\ ~ option_name a /\
     (r = [] \/ exists r', r = "="%char :: r') /\ s = S_ "--" ++ a ++ r).
