(** * File paths as URL paths on Windows: model of [path2urlpath] and [urlpath2path],
      [/repo/pandalone/utils.py] lines 166-187, over [nturl2path] of Python 3.11 *)
From Coq Require Import String.
From Verif Require Import PyBase OsPath_Model Url_Model.

(** ** Python's library: nturl2path.py.  Drives are made upper-case on ASCII only; its [OSError] is
    [IOError] here. *)

(** The joint quoting of what follows a drive (nturl2path.py:70-74) *)
Fixpoint quote_parts (path : pystr) (parts : list pystr) : res pystr :=
  match parts with
  | [] => Ok path
  | c :: parts' =>
      match c with
      | [] => quote_parts path parts'
      | _ => do q <- quote c; quote_parts (path ++ lit "/" ++ q) parts'
      end
  end.

(** nturl2path.py:42-74 *)
Definition pathname2url (p0 : pystr) : res pystr :=
  do p <- (if starts_with (lit "\\?\") p0 then
             let p := skipn 4 p0 in
             if str_eqb (upper (firstn 4 p)) (lit "UNC\") then Ok (lit "\" ++ skipn 4 p)
             else if str_eqb (firstn 1 (skipn 1 p)) (lit ":") then Ok p
             else Raise IOError
           else Ok p0);
  if existsb (N.eqb (chr ":")) p then
    match split_on (chr ":") p with
    | [drive; rest] =>
        if (1 <? length drive)%nat then Raise IOError
        else
          do d <- quote (upper drive);
          quote_parts (lit "///" ++ d ++ lit ":") (split_on (chr "\") rest)
    | _ => Raise IOError
    end
  else
    let p := if starts_with (lit "\\") p then lit "\\" ++ p else p in
    quote (join (lit "/") (split_on (chr "\") p)).

Section Oracles.
  (** [bs.decode("utf-8", "replace")] where not decodable *)
  Variable lossy : list N -> pystr.

  (** nturl2path.py:33-36 *)
  Fixpoint unquote_parts (path : pystr) (parts : list pystr) : pystr :=
    match parts with
    | [] => path
    | c :: parts' =>
        match c with
        | [] => unquote_parts path parts'
        | _ => unquote_parts (path ++ lit "\" ++ unquote lossy c) parts'
        end
    end.

  (** nturl2path.py:8-40; [comp[0][-1]] fails with an IndexError when nothing is before the colon. *)
  Definition url2pathname (url0 : pystr) : res pystr :=
    let url := replace1 (chr ":") (lit "|") url0 in
    if existsb (N.eqb (chr "|")) url then
      match split_on (chr "|") url with
      | [before; rest] =>
          match rev before with
          | [] => Raise IndexError
          | c :: _ =>
              if is_alpha c then
                let path := unquote_parts ([up c] ++ lit ":") (split_on (chr "/") rest) in
                Ok (if ends_with (lit ":") path && ends_with (lit "/") url then path ++ lit "\" else path)
              else Raise IOError
          end
      | _ => Raise IOError
      end
    else
      let url := if starts_with (lit "////") url then skipn 2 url else url in
      Ok (unquote lossy (join (lit "\") (split_on (chr "/") url))).

  (** ** utils.py, with [os.sep] the backslash *)

  (** utils.py:166-175; [path[3:]] leaves the last backslash of the prefix. *)
  Definition path2urlpath (path0 : pystr) : res pystr :=
    let path := if starts_with unc_prefix path0 then skipn 3 path0 else path0 in
    do u <- pathname2url path;
    Ok (if is_dir path && negb (ends_with (lit "/") u) then u ++ lit "/" else u).

  (** utils.py:178-187 *)
  Definition urlpath2path (url : pystr) : res pystr :=
    do p <- url2pathname url;
    let p := if is_dir url && negb (ends_with (lit "\") p) then p ++ lit "\" else p in
    Ok (if (200 <? length p)%nat then p ++ unc_prefix else p).
End Oracles.
