(** * Vocabulary for property C29 *)
From Coq Require Import String.
From Verif Require Import PyBase.

(** Direction letters, upper-case, and the characters of counters. *)
Definition dirletter (c : pychar) : Prop := In c (lit "LURD").
Definition countchar (c : pychar) : Prop := is_digit c = true \/ c = chr "?".

(** The number a counter stands for: a decimal, where a question-mark counts as a one. *)
Inductive counter : pystr -> Z -> Prop :=
| Co_one : forall c, countchar c -> counter [c] (if (c =? chr "?")%N then 1 else digit_val c)
| Co_more : forall t n c, counter t n -> countchar c ->
    counter (t ++ [c]) (10 * n + if (c =? chr "?")%N then 1 else digit_val c)%Z.

(** [spells s groups]: the text [s], of upper-case letters and counters, spells
    these groups: a letter with a counter stands alone; the other letters group
    together. *)
Inductive spells : pystr -> list (pystr * option Z) -> Prop :=
| Sp_end : spells [] []
| Sp_count : forall l t n s gs, dirletter l -> counter t n ->
    (forall c s', s = c :: s' -> ~ countchar c) -> spells s gs ->
    spells (l :: t ++ s) (([l], Some n) :: gs)
| Sp_group : forall ls s gs, ls <> [] -> (forall c, In c ls -> dirletter c) ->
    (s = [] \/ exists l c s', s = l :: c :: s' /\ dirletter l /\ countchar c) -> spells s gs ->
    spells (ls ++ s) ((ls, None) :: gs).

(** The alphabet, any case. *)
Definition over_moves (s : pystr) : Prop := forall c, In c s -> dirletter (up c) \/ countchar c.
