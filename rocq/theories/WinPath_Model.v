(** * File paths: model of [normpath] of [/repo/pandalone/utils.py] (lines 133-142) on Windows *)
From Coq Require Import String.
From Verif Require Import PyBase OsPath_Model.

(** ** ntpath (Python 3.11's library).  [normpath] is the one written in Python, used up to 3.10 and
    where [nt._path_normpath] is missing. *)

(** [p.replace(altsep, sep)] *)
Definition to_backslash (p : pystr) : pystr := replace1 (chr "/") (lit "\") p.

(** [s.find(c, start)] *)
Fixpoint find (c : pychar) (s : pystr) : option nat :=
  match s with
  | [] => None
  | x :: s' => if (x =? c)%N then Some 0 else option_map S (find c s')
  end.
Definition find_from (c : pychar) (s : pystr) (start : nat) : option nat :=
  option_map (fun i => start + i) (find c (skipn start s)).

(** [splitdrive] *)
Definition splitdrive (p : pystr) : pystr * pystr :=
  if 2 <=? length p then
    let normp := to_backslash p in
    if str_eqb (firstn 2 normp) (lit "\\") then
      let start := if str_eqb (upper (firstn 8 normp)) (lit "\\?\UNC\") then 8 else 2 in
      match find_from (chr "\") normp start with
      | None => (p, [])
      | Some index =>
          match find_from (chr "\") normp (index + 1) with
          | None => (p, [])
          | Some index2 => (firstn index2 p, skipn index2 p)
          end
      end
    else if str_eqb (firstn 1 (skipn 1 normp)) (lit ":") then (firstn 2 p, skipn 2 p)
    else ([], p)
  else ([], p).

(** [normpath]: the loop; [acc] are the components before [i], the last one first. *)
Fixpoint nt_comps (slash : bool) (comps acc : list pystr) : list pystr :=
  match comps with
  | [] => rev acc
  | c :: rest =>
      if str_eqb c [] || str_eqb c (lit ".") then nt_comps slash rest acc
      else if str_eqb c (lit "..") then
        match acc with
        | l :: acc' => if negb (str_eqb l (lit "..")) then nt_comps slash rest acc' else nt_comps slash rest (c :: acc)
        | [] => if slash then nt_comps slash rest acc else nt_comps slash rest (c :: acc)
        end
      else nt_comps slash rest (c :: acc)
  end.

Definition nt_normpath (path : pystr) : pystr :=
  let '(prefix, path) := splitdrive (to_backslash path) in
  let '(prefix, path) :=
    if starts_with (lit "\") path then (prefix ++ lit "\", drop_while (fun c => (c =? chr "\")%N) path) else (prefix, path) in
  let comps := nt_comps (ends_with (lit "\") prefix) (split_on (chr "\") path) [] in
  let comps := match prefix, comps with [], [] => [lit "."] | _, _ => comps end in
  prefix ++ join (lit "\") comps.

(** ** utils.py:137-142, [os.sep] being a backslash *)
Definition win_normpath (path : pystr) : pystr :=
  let p := nt_normpath path in
  if is_dir path && negb (ends_with (lit "\") p) then p ++ lit "\" else p.
