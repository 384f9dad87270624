(** * Vocabulary for properties C47, C48, C53, C60-C63 *)
From Coq Require Import String.
From Verif Require Import PyBase.

(** ** File names *)

(** The last step of a path has some character that is not a dot. *)
Definition named_step (fname : pystr) : Prop :=
  exists d b x, fname = d ++ b /\ (d = [] \/ exists d', d = d' ++ lit "/") /\ ~ In (chr "/") b /\ In x b /\ x <> chr ".".
(** Extensions of one part, the dot being optional. *)
Definition one_part (ext : pystr) : Prop :=
  exists e, (ext = e \/ ext = lit "." ++ e) /\ ~ In (chr ".") e /\ ~ In (chr "/") e.
Definition same_nocase (a b : pystr) : Prop := lower a = lower b.
Definition ends_nocase (s e : pystr) : Prop := exists a b, s = a ++ b /\ same_nocase b e.
(** The name cut off its last dot, and extensions cut off their first. *)
Definition cut_dot (fname st : pystr) : Prop :=
  fname = st ++ lit "." \/ (fname = st /\ forall a, fname <> a ++ lit ".").
Definition undotted (ext e : pystr) : Prop :=
  ext = lit "." ++ e \/ (ext = e /\ forall a, ext <> lit "." ++ a).

(** A name and its extension: the last dot of the last step, if some of the
    characters before it is not a dot. *)
Inductive extension : pystr -> pystr -> pystr -> Prop :=
| Ex_some : forall st e, named_step st -> ~ In (chr ".") e -> ~ In (chr "/") e -> extension (st ++ lit "." ++ e) st (lit "." ++ e)
| Ex_none : forall fname, (forall st e, fname = st ++ lit "." ++ e -> ~ In (chr ".") e -> ~ In (chr "/") e -> ~ named_step st) ->
    extension fname fname [].

(** The names tried, in turn. *)
Inductive candidate (fname : pystr) : N -> pystr -> Prop :=
| Cd_itself : candidate fname 0 fname
| Cd_number : forall n st e, (0 < n)%N -> extension fname st e -> candidate fname n (st ++ str_of_N n ++ e).

(** ** Texts *)

Definition all_space (s : pystr) : Prop := forall c, In c s -> is_space c = true.
(** A text with space around it. *)
Definition padded (w s : pystr) : Prop := exists a b, s = a ++ w ++ b /\ all_space a /\ all_space b.
Definition trimmed (s : pystr) : Prop :=
  s = [] \/ ((exists c t, s = c :: t /\ is_space c = false) /\ (exists c t, s = t ++ [c] /\ is_space c = false)).

Definition false_word (w : pystr) : Prop :=
  In (lower w) [lit ""; lit "no"; lit "false"; lit "off"; lit "0"].

(** A word starts between these two characters. *)
Definition word_starts (a b : pychar) : Prop :=
  (is_lower a = true \/ is_digit a = true) /\ is_upper b = true.

(** Names and units. *)
Definition opening (c : pychar) : Prop := c = chr "[" \/ c = chr "<".
Inductive labelled : pystr -> pystr -> option pystr -> Prop :=
| Lb_name : forall n s, (forall c, In c n -> ~ opening c) -> trimmed n -> padded n s -> labelled s n None
| Lb_square : forall n s x sp, (forall c, In c n -> ~ opening c) -> trimmed n -> padded n s -> 
    ~ In (chr "]") x -> all_space sp -> labelled (s ++ lit "[" ++ x ++ lit "]" ++ sp) n (Some x)
| Lb_angle : forall n s x sp, (forall c, In c n -> ~ opening c) -> trimmed n -> padded n s ->
    ~ In (chr ")") x -> all_space sp -> labelled (s ++ lit "<" ++ x ++ lit ">" ++ sp) n (Some x).

(** Lines. *)
Definition line_ending (le : pystr) : Prop := le = [13%N; 10%N] \/ le = [10%N; 13%N] \/ le = [10%N].
Definition not_at_eol (s : pystr) : Prop := s <> [] /\ forall a c, s = a ++ [c] -> c <> 10%N /\ c <> 13%N.
