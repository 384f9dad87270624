(** * Texts with replacements, declared versions, and plans of commands, said
    without the functions of the model. *)
From Coq Require Import String.
From Verif Require Import PyBase.

Definition occurs (a s : pystr) : Prop := exists l r, s = l ++ a ++ r.

(** [t] is [s] with its [n] occurrences of [old] replaced by [new]: taken from
    the left, not overlapping, and none is left. *)
Definition replaced (old new s t : pystr) (n : nat) : Prop :=
  exists init z,
    s = join old (init ++ [z]) /\ t = join new (init ++ [z]) /\ n = length init /\
    (forall p, In p init -> ~ occurs old (p ++ removelast old)) /\ ~ occurs old z.

(** The first place of [s] where [label] is followed by a text between double
    quotes, that is not empty: that text is [v]. *)
Definition quoted (label v : pystr) : pystr := label ++ lit """" ++ v ++ lit """".
Definition declares (label s v : pystr) : Prop :=
  exists l r,
    s = l ++ quoted label v ++ r /\ v <> [] /\ ~ In 34%N v /\
    forall l' v' r', s = l' ++ quoted label v' ++ r' -> v' <> [] -> ~ In 34%N v' ->
      length l <= length l'.

Definition vlabel : pystr := lit "__version__ = ".
Definition dlabel : pystr := lit "__updated__ = ".

(** A text that can stand between the quotes, whose last character is none of
    the labels' (a digit, say). *)
Definition fit (v : pystr) : Prop :=
  ~ In 34%N v /\
  exists u c, v = u ++ [c] /\ ~ In c vlabel /\ ~ In c dlabel.

Definition unix (s : pystr) : Prop := ~ In 13%N s.

(** [done] are the commands tried of a [plan]: up to the first that fails, or
    all; [ok] tells which. *)
Inductive tried (code : list pystr -> nat) : list (list pystr) -> list (list pystr) -> bool -> Prop :=
| tried_all : tried code [] [] true
| tried_fail : forall c plan, code c <> 0 -> tried code (c :: plan) [c] false
| tried_next : forall c plan don ok, code c = 0 -> tried code plan don ok ->
    tried code (c :: plan) (c :: don) ok.

(** What has to be run to commit [fs] with a message, and then to tag. *)
Definition git_add (fs : list pystr) : list pystr := lit "git" :: lit "add" :: fs.
Definition git_commit (msg : pystr) : list pystr := map lit ["git"; "commit"; "-m"]%string ++ [msg].
Definition git_tag (name msg : pystr) : list pystr :=
  [lit "git"; lit "tag"; name; lit "-s"; lit "-m"; msg].

(** Components of a version. *)
Definition component (c : pystr) : Prop := ~ In 46%N c.
Definition dotted (cs : list pystr) : pystr := join (lit ".") cs.
