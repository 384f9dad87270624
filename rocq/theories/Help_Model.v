(** * The help of filters that fail

    [textwrap] is that of Python 3.11. *)
From Coq Require Import String.
From Verif Require Import PyBase.

(** Lines for [str.splitlines] end with more characters than those of regular expressions. *)
Definition is_break (c : pychar) : bool := existsb (N.eqb c) [10; 11; 12; 13; 28; 29; 30; 133; 8232; 8233]%N.
(** [s.splitlines(True)] *)
Fixpoint lines_keep (s : pystr) : list pystr :=
  match s with
  | [] => []
  | c :: s' =>
      let joined := match lines_keep s' with [] => [[c]] | l :: ls => (c :: l) :: ls end in
      if is_break c && negb ((c =? 13)%N && starts_with [10%N] s') then [c] :: lines_keep s' else joined
  end.

(** The regex class "[ \t]" *)
Definition is_blank (c : pychar) : bool := (c =? 32)%N || (c =? 9)%N.
Fixpoint leading (l : pystr) : pystr :=
  match l with c :: l' => if is_blank c then c :: leading l' else [] | [] => [] end.
(** textwrap.py:435 *)
Definition cleaned (l : pystr) : pystr := if forallb is_blank l then [] else l.
(** textwrap.py:453-457: [margin] is cut at the first difference. *)
Fixpoint cut (margin indent : pystr) : pystr :=
  match margin, indent with
  | x :: m, y :: i => if (x =? y)%N then x :: cut m i else []
  | _, _ => margin
  end.
(** textwrap.py:437-457 *)
Definition narrow (margin : option pystr) (indent : pystr) : option pystr :=
  match margin with
  | None => Some indent
  | Some m => Some (if starts_with m indent then m else if starts_with indent m then indent else cut m indent)
  end.
Definition margin_of (ls : list pystr) : option pystr :=
  fold_left narrow (map leading (filter (fun l => negb (str_eqb l [])) ls)) None.
(** textwrap.py:465-467 *)
Definition unmargined (m : option pystr) (l : pystr) : pystr :=
  match m with
  | Some m => if starts_with m l then skipn (length m) l else l
  | None => l
  end.
(** textwrap.py:419-468 [dedent], on the lines that its regular expressions see *)
Definition dedent (s : pystr) : pystr :=
  let ls := map cleaned (split_on 10%N s) in
  join [10%N] (map (unmargined (margin_of ls)) ls).
(** textwrap.py:471-490 [indent] *)
Definition indent (prefix s : pystr) : pystr :=
  concat (map (fun l => if str_eqb (strip l) [] then l else prefix ++ l) (lines_keep s)).

(** _lasso.py:33-36 [_build_call_help]; [sig] is the text of the arguments, made by [inspect], and empty if the filter is unknown. *)
Definition call_help (name sig desc : pystr) : pystr :=
  [10; 10]%N ++ lit "Filter: " ++ name ++ sig ++ lit ":" ++ [10%N] ++ indent (lit "    ") (dedent desc).
