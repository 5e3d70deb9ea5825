(** Vocabulary for the statements about files and directories. *)
From Coq Require Import List ZArith Bool Ascii String.
From Verif Require Import Base ParseModel ConfigModel DirsModel.
Import ListNotations.
Local Open Scope string_scope.
Local Open Scope list_scope.

(** What is found at a path, without the contents of a directory. *)
Inductive kind := KFile (content : pystr) | KLink (target : path) | KDir.
Definition kind_at (t : tree) (p : path) : option kind :=
  match get t p with
  | Some (File c) => Some (KFile c)
  | Some (Link q) => Some (KLink q)
  | Some (Dir _) => Some KDir
  | None => None
  end.

(** [q] is [p] or lies below it. *)
Definition under (p q : path) : Prop := exists r, q = p ++ r.

(** A directory given by a path without links and "..". *)
Definition real_dir (t : tree) (p : path) : Prop := kind_at t p = Some KDir /\ ~ In (S_ "..") p.

(** An ordinary file name. *)
Definition plain_name (n : pystr) : Prop :=
  n <> [] /\ n <> S_ "." /\ n <> S_ ".." /\ ~ In "/"%char n.

(** The states in which an execution may be interrupted. *)
Definition interrupted {A} (m : cmd A) (t t' : tree) : Prop :=
  exists k, t' = do_ops t (firstn k (fst (m t))).
(** The state in which it ends. *)
Definition final {A} (m : cmd A) (t : tree) : tree := do_ops t (fst (m t)).
Definition outcome {A} (m : cmd A) (t : tree) : res A := snd (m t).
