(** * Expansion of variables, candidates of programs, and folders, said without
    the functions of the model. *)
From Coq Require Import String.
From Verif Require Import PyBase.

(** Letters, digits and the underscore. *)
Definition word (c : pychar) : Prop :=
  (48 <= c <= 57)%N \/ (65 <= c <= 90)%N \/ (97 <= c <= 122)%N \/ c = 95%N.
Definition starts_word (s : pystr) : Prop := exists c r, s = c :: r /\ word c.

(** [$name] (as long as it goes) and [${name}] are replaced once by their
    values; those without value and other dollars stay. *)
Inductive expands (env : pystr -> option pystr) : pystr -> pystr -> Prop :=
| ex_nil : expands env [] []
| ex_char : forall c s t, c <> 36%N -> expands env s t -> expands env (c :: s) (c :: t)
| ex_name : forall name s v t, name <> [] -> Forall word name -> ~ starts_word s ->
    env name = Some v -> expands env s t -> expands env (36%N :: name ++ s) (v ++ t)
| ex_name_unset : forall name s t, name <> [] -> Forall word name -> ~ starts_word s ->
    env name = None -> expands env s t -> expands env (36%N :: name ++ s) (36%N :: name ++ t)
| ex_brace : forall name s v t, ~ In 125%N name ->
    env name = Some v -> expands env s t ->
    expands env (36%N :: 123%N :: name ++ 125%N :: s) (v ++ t)
| ex_brace_unset : forall name s t, ~ In 125%N name ->
    env name = None -> expands env s t ->
    expands env (36%N :: 123%N :: name ++ 125%N :: s) (36%N :: 123%N :: name ++ 125%N :: t)
| ex_dollar : forall s t, ~ starts_word s -> ~ (exists name r, s = 123%N :: name ++ 125%N :: r) ->
    expands env s t -> expands env (36%N :: s) (36%N :: t).

Definition occurs (a s : pystr) : Prop := exists l r, s = l ++ a ++ r.

(** A folder of a list of folders: between separators, without quotes around. *)
Definition unquoted (piece folder : pystr) : Prop :=
  exists a b, piece = repeat 34%N a ++ folder ++ repeat 34%N b /\
    (forall r, folder <> 34%N :: r) /\ (forall r, folder <> r ++ [34%N]).
Definition listed (sep : pychar) (path folder : pystr) : Prop :=
  folder <> [] /\ exists piece, In piece (split_on sep path) /\ unquoted piece folder.

(** The names tried for a program. *)
Definition tried_name (program name : pystr) : Prop :=
  exists e, In e [""; ".bat"; "com"; ".exe"]%string /\ name = program ++ lit e.

(** The folder [q] is above [p], or [p] itself. *)
Definition on_the_way (q p : list pystr) : Prop := exists below, p = below ++ q.
