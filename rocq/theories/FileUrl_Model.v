(** * Paths as URLs: model of [path2url] of utils.py and of the xlrd backend, on POSIX *)
From Coq Require Import String.
From Verif Require Import PyBase OsPath_Model Url_Model.

(** ** Python's library: urllib.parse of 3.11 *)

(** The scheme, netloc, path, query and fragment *)
Record split_result := { u_scheme : pystr; u_netloc : pystr; u_path : pystr;
                         u_query : pystr; u_fragment : pystr }.

Definition in_list (s : pystr) (l : list string) : bool := existsb (fun x => str_eqb s (lit x)) l.

Definition uses_relative : list string :=
  [""; "ftp"; "http"; "gopher"; "nntp"; "imap"; "wais"; "file"; "https"; "shttp"; "mms"; "prospero";
   "rtsp"; "rtsps"; "rtspu"; "sftp"; "svn"; "svn+ssh"; "ws"; "wss"]%string.

Definition uses_netloc : list string :=
  [""; "ftp"; "http"; "gopher"; "nntp"; "telnet"; "imap"; "wais"; "file"; "mms"; "https"; "shttp";
   "snews"; "prospero"; "rtsp"; "rtsps"; "rtspu"; "rsync"; "svn"; "svn+ssh"; "sftp"; "nfs"; "git";
   "git+ssh"; "ws"; "wss"]%string.

Definition uses_params : list string :=
  [""; "ftp"; "hdl"; "prospero"; "http"; "imap"; "https"; "shttp"; "rtsp"; "rtsps"; "rtspu"; "sip";
   "sips"; "mms"; "sftp"; "tel"]%string.

Definition scheme_char (c : pychar) : bool :=
  is_alpha c || is_digit c || existsb (N.eqb c) (lit "+-.").

(** What comes before and after the first [c] *)
Fixpoint partition1 (c : pychar) (s : pystr) : option (pystr * pystr) :=
  match s with
  | [] => None
  | x :: s' =>
      if (x =? c)%N then Some ([], s')
      else match partition1 c s' with Some (a, b) => Some (x :: a, b) | None => None end
  end.

(** [_splitnetloc], after the two slashes *)
Fixpoint splitnetloc (s : pystr) : pystr * pystr :=
  match s with
  | [] => ([], [])
  | x :: s' =>
      if existsb (N.eqb x) (lit "/?#") then ([], s)
      else let (a, b) := splitnetloc s' in (x :: a, b)
  end.

(** [s.split(c, 1)], the second part being empty if there is no [c] *)
Definition split1 (c : pychar) (s : pystr) : pystr * pystr :=
  match partition1 c s with Some (a, b) => (a, b) | None => (s, []) end.

Definition has_char (c : pychar) (s : pystr) : bool := existsb (N.eqb c) s.

(** Leading control characters and spaces are stripped, tabs and line-ends are removed. *)
Definition clean_url (url : pystr) : pystr :=
  filter (fun c => negb (existsb (N.eqb c) [9; 13; 10]%N)) (drop_while (fun c => (c <=? 32)%N) url).

(** The scheme of an URL, or else the default *)
Definition split_scheme (url scheme : pystr) : pystr * pystr :=
  match partition1 (chr ":") url with
  | Some (a, b) =>
      match a with
      | c :: _ => if is_alpha c && forallb scheme_char a then (lower a, b) else (scheme, url)
      | [] => (scheme, url)
      end
  | None => (scheme, url)
  end.

(** [urlunsplit] *)
Definition urlunsplit (r : split_result) : pystr :=
  let url := u_path r in
  let url :=
    if negb (str_eqb (u_netloc r) [])
       || (negb (str_eqb (u_scheme r) []) && in_list (u_scheme r) uses_netloc)
       || starts_with (lit "//") url
    then lit "//" ++ u_netloc r ++
         (if negb (str_eqb url []) && negb (starts_with (lit "/") url) then lit "/" ++ url else url)
    else url in
  let url := if str_eqb (u_scheme r) [] then url else u_scheme r ++ lit ":" ++ url in
  let url := if str_eqb (u_query r) [] then url else url ++ lit "?" ++ u_query r in
  if str_eqb (u_fragment r) [] then url else url ++ lit "#" ++ u_fragment r.

(** [_splitparams]: a semicolon after the last slash *)
Definition splitparams (url : pystr) : pystr * pystr :=
  let segs := split_on (chr "/") url in
  match partition1 (chr ";") (last segs []) with
  | Some (a, b) => (join (lit "/") (removelast segs ++ [a]), b)
  | None => (url, [])
  end.

(** [urljoin]: [segments[1:-1] = filter(None, segments[1:-1])] *)
Definition filter_inner (l : list pystr) : list pystr :=
  match l with
  | [] => []
  | a :: r =>
      match r with
      | [] => l
      | _ => a :: filter (fun s => negb (str_eqb s [])) (removelast r) ++ [last r []]
      end
  end.

(** [urljoin]: the loop; [acc] is [resolved_path], the last one first. *)
Fixpoint resolve (segments acc : list pystr) : list pystr :=
  match segments with
  | [] => acc
  | s :: rest =>
      if str_eqb s (lit "..") then resolve rest (tl acc)
      else if str_eqb s (lit ".") then resolve rest acc
      else resolve rest (s :: acc)
  end.

(** [urljoin]: the path *)
Definition join_paths (bpath path : pystr) : pystr :=
  let base_parts := split_on (chr "/") bpath in
  let base_parts := if str_eqb (last base_parts []) [] then base_parts else removelast base_parts in
  let segments :=
    if starts_with (lit "/") path then split_on (chr "/") path
    else filter_inner (base_parts ++ split_on (chr "/") path) in
  let l := last segments [] in
  let resolved := rev (resolve segments []) in
  let resolved := if str_eqb l (lit ".") || str_eqb l (lit "..") then resolved ++ [[]] else resolved in
  match join (lit "/") resolved with [] => lit "/" | p => p end.

(** utils.py:132 [_file_drive_regex.match(path)], of any case: the letter (four more characters fold to one),
    and what comes after the colon; the dot matches no newline, the dollar also before a last one. *)
Definition drive_letter (c : pychar) : bool :=
  is_alpha c || existsb (N.eqb c) [304; 305; 383; 8490]%N.

Definition match_drive (path : pystr) : option (pychar * pystr) :=
  match path with
  | d :: colon :: rest =>
      if drive_letter d && (colon =? chr ":")%N && negb (has_char 10%N (removelast rest))
      then Some (d, rest) else None
  | _ => None
  end.

Definition unbackslash (s : pystr) : pystr := map (fun c => if (c =? chr "\")%N then chr "/" else c) s.

Section Oracles.
  (** [bs.decode("utf-8", "replace")] where not decodable *)
  Variable lossy : list N -> pystr.
  (** Whether hosts in brackets or with other than ASCII characters are refused by [urlsplit] *)
  Variable bad_host : pystr -> bool.
  (** [osp.expandvars], and [osp.expanduser] of a text that starts with a tilde *)
  Variable expandvars : pystr -> pystr.
  Variable expanduser_tilde : pystr -> pystr.

  Definition ascii_text (s : pystr) : bool := forallb (fun c => c <? 128)%N s.

  Definition check_netloc (netloc : pystr) : bool :=
    Bool.eqb (has_char (chr "[") netloc) (has_char (chr "]") netloc)
    && ((negb (has_char (chr "[") netloc) && ascii_text netloc) || negb (bad_host netloc)).

  (** [urlsplit(url, scheme)], the scheme being clean already *)
  Definition urlsplit (url scheme : pystr) : res split_result :=
    let (scheme, url) := split_scheme (clean_url url) scheme in
    let (netloc, url) := if starts_with (lit "//") url then splitnetloc (skipn 2 url) else ([], url) in
    let (url, fragment) := split1 (chr "#") url in
    let (url, query) := split1 (chr "?") url in
    if check_netloc netloc
    then Ok {| u_scheme := scheme; u_netloc := netloc; u_path := url;
               u_query := query; u_fragment := fragment |}
    else Raise ValueError.

  (** [urlparse(url, scheme)] *)
  Definition urlparse (url scheme : pystr) : res (split_result * pystr) :=
    do r <- urlsplit url scheme;
    if in_list (u_scheme r) uses_params then
      let (p, params) := splitparams (u_path r) in
      Ok ({| u_scheme := u_scheme r; u_netloc := u_netloc r; u_path := p;
             u_query := u_query r; u_fragment := u_fragment r |}, params)
    else Ok (r, []).

  (** [urlunparse] *)
  Definition urlunparse (r : split_result) (params : pystr) : pystr :=
    urlunsplit {| u_scheme := u_scheme r; u_netloc := u_netloc r;
                  u_path := if str_eqb params [] then u_path r else u_path r ++ lit ";" ++ params;
                  u_query := u_query r; u_fragment := u_fragment r |}.

  (** [urljoin(base, url)] *)
  Definition urljoin (base url : pystr) : res pystr :=
    if str_eqb base [] then Ok url
    else if str_eqb url [] then Ok base
    else
      do (b, bparams) <- urlparse base [];
      do (r, params) <- urlparse url (u_scheme b);
      if negb (str_eqb (u_scheme r) (u_scheme b)) || negb (in_list (u_scheme r) uses_relative)
      then Ok url
      else if in_list (u_scheme r) uses_netloc && negb (str_eqb (u_netloc r) [])
      then Ok (urlunparse r params)
      else
        let netloc := if in_list (u_scheme r) uses_netloc then u_netloc b else u_netloc r in
        if str_eqb (u_path r) [] && str_eqb params [] then
          Ok (urlunparse {| u_scheme := u_scheme r; u_netloc := netloc; u_path := u_path b;
                            u_query := if str_eqb (u_query r) [] then u_query b else u_query r;
                            u_fragment := u_fragment r |} bparams)
        else
          Ok (urlunparse {| u_scheme := u_scheme r; u_netloc := netloc;
                            u_path := join_paths (u_path b) (u_path r);
                            u_query := u_query r; u_fragment := u_fragment r |} params).

  (** posixpath [expanduser] *)
  Definition expanduser (p : pystr) : pystr :=
    if starts_with (lit "~") p then expanduser_tilde p else p.

  (** utils.py:190-245; [cwd] is what [os.getcwd()] gives, [None] is not modelled. *)
  Definition path2url (cwd path : pystr) (expand_vars expand_user : bool) : res pystr :=
    if str_eqb path [] then Ok path
    else
      let path := if expand_vars then expandvars path else path in
      let path := if starts_with unc_prefix path then skipn 3 path else path in
      let path := unbackslash path in
      do path <-
        match match_drive path with
        | Some (d, rest) =>
            Ok (lit "file:///" ++
                (if starts_with (lit "/") rest then path
                 else [d] ++ lit ":/" ++
                      (if ends_with [10%N] rest then removelast rest else rest)))
        | None =>
            do q <- quote (cwd ++ lit "/");
            do baseurl <- urljoin (lit "file:") q;
            urljoin baseurl path
        end;
      do parts <- urlsplit path [];
      let p := u_path parts in
      let p := if str_eqb (u_scheme parts) (lit "file") && expand_user then expanduser p else p in
      let p := unbackslash (normpath p) in
      Ok (urlunsplit {| u_scheme := u_scheme parts; u_netloc := u_netloc parts; u_path := p;
                        u_query := u_query parts; u_fragment := u_fragment parts |}).

  (** ** The xlrd backend *)

  (** Word characters other than ASCII, for the word boundary of the pattern below *)
  Variable word_char : pychar -> bool.

  Definition is_word (c : pychar) : bool :=
    if (c <? 128)%N then is_alpha c || is_digit c || (c =? chr "_")%N else word_char c.

  (** In patterns without case "s" also matches the long s. *)
  Definition is_s (c : pychar) : bool := (low c =? chr "s")%N || (c =? 383)%N.

  (** xlsutils.py:24 [\.xl((s[xm]?|t[xm]?)|w|m)] at the front of a text, followed by a word
      boundary.  What comes first is a word character, so that the next one must not be one. *)
  Definition boundary (s : pystr) : bool :=
    match s with [] => true | c :: _ => negb (is_word c) end.

  Definition xl_ext_here (s : pystr) : bool :=
    match s with
    | dot :: x :: l :: k :: rest =>
        (dot =? chr ".")%N && (low x =? chr "x")%N && (low l =? chr "l")%N
        && (((is_s k || (low k =? chr "t")%N)
             && (boundary rest
                 || match rest with
                    | m :: rest' => ((low m =? chr "x")%N || (low m =? chr "m")%N) && boundary rest'
                    | [] => false
                    end))
            || (((low k =? chr "w")%N || (low k =? chr "m")%N) && boundary rest))
    | _ => false
    end.

  (** [_xl_extensions_anywhere.search] *)
  Fixpoint xl_ext_anywhere (s : pystr) : bool :=
    xl_ext_here s || match s with [] => false | _ :: s' => xl_ext_anywhere s' end.

  (** xleash/io/_xlrd.py:216-221 *)
  Definition bid (wb_url : pystr) : res (option nat) :=
    if str_eqb wb_url [] then Ok None
    else
      do (parts, _) <- urlparse wb_url [];
      if xl_ext_anywhere (urlpath2path lossy (u_path parts)) then Ok (Some 100) else Ok None.

  (** Where books are read from *)
  Inductive source := File (path : pystr) | Download (url : pystr).

  Fixpoint contains (x s : pystr) : bool :=
    starts_with x s || match s with [] => false | _ :: s' => contains x s' end.

  (** xleash/io/_xlrd.py:237-253, up to the reading: params are texts if there are any, so that
      they refuse to be set by key, and have no [pop]. *)
  Definition open_book (url : pystr) : res source :=
    do (parts, params) <- urlparse url [];
    if negb (str_eqb params []) && negb (contains (lit "logfile") params) then Raise TypeError
    else if str_eqb (u_scheme parts) (lit "file") then
      if str_eqb params [] then Ok (File (urlpath2path lossy (u_path parts))) else Raise TypeError
    else if str_eqb params [] then Ok (Download url) else Raise AttributeError.
End Oracles.
