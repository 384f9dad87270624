(** * File paths: model of [normpath] and [abspath] of utils.py, on POSIX *)
From Coq Require Import String.
From Verif Require Import PyBase.

(** "/" and "\" *)
Definition is_sep (c : pychar) : bool := (c =? chr "/")%N || (c =? chr "\")%N.

(** ** posixpath (Python's library) *)

(** [normpath]: how many slashes it keeps in front *)
Definition initial_slashes (p : pystr) : nat :=
  if starts_with (lit "/") p then
    if starts_with (lit "//") p && negb (starts_with (lit "///") p) then 2 else 1
  else 0.

(** [normpath]: the loop; [acc] is [new_comps], the last one first. *)
Fixpoint norm_comps (abs : bool) (comps acc : list pystr) : list pystr :=
  match comps with
  | [] => rev acc
  | c :: rest =>
      if str_eqb c [] || str_eqb c (lit ".") then norm_comps abs rest acc
      else if negb (str_eqb c (lit ".."))
              || (negb abs && match acc with [] => true | _ => false end)
              || match acc with l :: _ => str_eqb l (lit "..") | [] => false end
      then norm_comps abs rest (c :: acc)
      else norm_comps abs rest (tl acc)
  end.

(** [posixpath.normpath] *)
Definition osp_normpath (p : pystr) : pystr :=
  match p with
  | [] => lit "."
  | _ =>
      let n := initial_slashes p in
      let comps := norm_comps (match n with O => false | _ => true end) (split_on (chr "/") p) [] in
      match repeat (chr "/") n ++ join (lit "/") comps with
      | [] => lit "."
      | r => r
      end
  end.

(** [posixpath.join] of two *)
Definition osp_join (a b : pystr) : pystr :=
  if starts_with (lit "/") b then b
  else match a with
       | [] => b
       | _ => if ends_with (lit "/") a then a ++ b else a ++ lit "/" ++ b
       end.

(** [posixpath.abspath], [cwd] being what [os.getcwd()] gives *)
Definition osp_abspath (cwd p : pystr) : pystr :=
  osp_normpath (if starts_with (lit "/") p then p else osp_join cwd p).

(** ** utils.py *)

(** The last two characters are a separator after something else. *)
Definition sep_at_end (s : pystr) : bool :=
  match rev s with
  | y :: x :: _ => is_sep y && negb (is_sep x)
  | _ => false
  end.

(** utils.py:133 [_is_dir_regex.search(path)]; the dollar matches before a last newline, too. *)
Definition is_dir (s : pystr) : bool :=
  sep_at_end s || (ends_with [10%N] s && sep_at_end (removelast s)).

(** utils.py:140-141 and 148-149; what they get is never empty. *)
Definition keep_slash (path p : pystr) : pystr :=
  if is_dir path && negb (ends_with (lit "/") p) then p ++ lit "/" else p.

(** utils.py:137-142 *)
Definition normpath (path : pystr) : pystr := keep_slash path (osp_normpath path).

(** utils.py:145-150 *)
Definition abspath (cwd path : pystr) : pystr := keep_slash path (osp_abspath cwd path).
