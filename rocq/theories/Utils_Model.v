(** * Utilities: model of parts of [/repo/pandalone/utils.py], and of
      [/repo/pandalone/pandata.py] lines 37-100 *)
From Coq Require Import String.
From Verif Require Import PyBase Regex.

(** ** File names *)

(** The longest prefix of a kind, and the rest. *)
Fixpoint span (f : pychar -> bool) (s : pystr) : pystr * pystr :=
  match s with
  | [] => ([], [])
  | c :: s' => if f c then let (a, b) := span f s' in (c :: a, b) else ([], s)
  end.

(** [os.path.splitext] of posix (standard library, genericpath.py
    [_splitext]): the last dot of the last step, unless only dots precede it. *)
Definition splitext (p : pystr) : pystr * pystr :=
  let (ext, rest) := span (fun c => negb ((c =? chr ".") || (c =? chr "/")))%N (rev p) in
  match rest with
  | c :: stem =>
      if (c =? chr ".")%N
         && existsb (fun c => negb (c =? chr ".")%N) (fst (span (fun c => negb (c =? chr "/")%N) stem))
      then (rev stem, c :: rev ext) else (p, [])
  | [] => (p, [])
  end.

(** utils.py:316-331: what is done when no extension matched; [fname[-1]] and
    [ext[0]] of empty texts are IndexErrors. *)
Definition add_ext (fname ext : pystr) : res pystr :=
  match rev fname with
  | [] => Raise IndexError
  | c :: r =>
      let fname := if (c =? chr ".")%N then rev r else fname in
      match ext with
      | [] => Raise IndexError
      | c :: e => Ok (fname ++ lit "." ++ (if (c =? chr ".")%N then e else ext))
      end
  end.

(** utils.py:265-331 [ensure_file_ext], with [is_regex=False]. *)
Definition ensure_file_ext (fname ext : pystr) (exts : list pystr) : res pystr :=
  let file_ext := lower (snd (splitext fname)) in
  if existsb (fun e => ends_with (lower e) file_ext) (ext :: exts) then Ok fname
  else add_ext fname ext.

(** The same, with [is_regex=True]: every other extension is given as the
    function telling whether [re.match(e + "$", text, re.IGNORECASE)]; for the
    1st one it is an escaped text, and "$" also matches before a last newline. *)
Definition same_ext (ext file_ext : pystr) : bool :=
  str_eqb (lower file_ext) (lower ext) || str_eqb (lower file_ext) (lower ext ++ [10%N]).
Definition ensure_file_ext_regex (fname ext : pystr) (exts : list (pystr -> bool)) : res pystr :=
  let file_ext := snd (splitext fname) in
  if same_ext ext file_ext || existsb (fun e => e file_ext) exts then Ok fname
  else add_ext fname ext.

(** utils.py:248-254 [generate_filenames]: the [i]-th one. *)
Definition filename_at (filename : pystr) (i : N) : pystr :=
  if (i =? 0)%N then filename else let (f, e) := splitext filename in f ++ str_of_N i ++ e.

(** utils.py:257-262 [make_unique_filename]: [filegen] is ignored.  The loop runs
    on fuel. *)
Section Unique.
  Variable file_exists : pystr -> bool.
  Fixpoint unique_from (fuel : nat) (fname : pystr) (i : N) : res pystr :=
    match fuel with
    | O => Raise OutOfFuel
    | S f => if file_exists (filename_at fname i) then unique_from f fname (i + 1) else Ok (filename_at fname i)
    end.
  Definition make_unique_filename (fuel : nat) (fname : pystr) (filegen : pystr -> N -> pystr) : res pystr :=
    unique_from fuel fname 0.
End Unique.

(** ** Texts *)

(** utils.py:35-67 [str2bool] of a text *)
Definition str2bool (v : pystr) : bool :=
  let vv := lower (strip v) in
  if existsb (str_eqb vv) [lit "yes"; lit "true"; lit "on"] then true
  else if existsb (str_eqb vv) [lit "no"; lit "false"; lit "off"; lit "0"] then false
  else match vv with [] => false | _ => true end.

(** utils.py:99-104 [camel_to_snake_case]: "(?<=[a-z0-9])([A-Z]+)" replaced by
    "_\1", then lower-case.  [prev] tells whether the previous character allows
    a match; within a match the class of the previous one does not. *)
Fixpoint snake_sub (prev : bool) (s : pystr) : pystr :=
  match s with
  | [] => []
  | c :: s' =>
      let r := snake_sub (is_lower c || is_digit c) s' in
      if prev && is_upper c then 95%N :: c :: r else c :: r
  end.
Definition camel_to_snake_case (s : pystr) : pystr := lower (snake_sub false s).
(** utils.py:107-109 *)
Definition camel_to_cmd_name (s : pystr) : pystr := replace1 (chr "_") (lit "-") (camel_to_snake_case s).

(** utils.py:127-130 [first_line]; [None] is returned when there is none *)
Definition first_line (doc : pystr) : option pystr :=
  match filter (fun l => negb (str_eqb l [])) (map strip (split_on 10%N doc)) with
  | [] => None
  | l :: _ => Some l
  end.

(** utils.py:405-426 [LoggerWriter.write]: the logged message, if any *)
Definition drop_end (le msg : pystr) : pystr :=
  if ends_with le msg then firstn (length msg - length le) msg else msg.
Definition log_write (msg : pystr) : option pystr :=
  match msg with
  | [] => None
  | _ => match fold_left (fun m le => drop_end le m) [[13%N; 10%N]; [10%N; 13%N]; [10%N]] msg with
         | [] => None
         | m => Some m
         end
  end.

(** ** Names with units, pandata.py:37-100 *)

(** [f*?]: as few as possible. *)
Fixpoint lazy_star {X} (f : pychar -> bool) (k : pystr -> option X) (s : pystr) : option X :=
  match k s with
  | Some x => Some x
  | None => match s with
            | c :: s' => if f c then lazy_star f k s' else None
            | [] => None
            end
  end.

(** The pattern after the name, pandata.py:40-50 *)
Definition units_rest : re :=
  RSeqs [ RStar is_space;
          ROpt (RGrp "units"
            (RAlt (RSeqs [ RLit "["; RStar (fun c => negb (c =? chr "]")%N); RLit "]" ])
                  (RSeqs [ RLit "<"; RStar (fun c => negb (c =? chr ")")%N); RLit ">" ])));
          RStar is_space; REnd ].
(** pandata.py:37-53 [_value_with_units_regex] *)
Definition units_match (s : pystr) : option groups :=
  star is_space (fun s1 =>
    lazy_star (fun c => negb ((c =? chr "[") || (c =? chr "<"))%N) (fun s2 =>
      rmatch units_rest s2 [("name"%string, between s1 s2)] (fun _ g => Some g)) s1) s.

(** pandata.py:54 [_units_cleaner_regex], replaced by nothing: "^[<[]|[\]>]$" *)
Definition units_clean (u : pystr) : pystr :=
  let u := match u with c :: u' => if (c =? chr "<")%N || (c =? chr "[")%N then u' else u | [] => [] end in
  match rev u with c :: r => if (c =? chr "]")%N || (c =? chr ">")%N then rev r else u | [] => [] end.

(** pandata.py:61-100 [parse_value_with_units] *)
Definition parse_value_with_units (arg : pystr) : option (pystr * option pystr) :=
  match units_match arg with
  | None => None
  | Some g => Some (match group "name" g with Some n => n | None => [] end,
                    match group "units" g with Some ((_ :: _) as u) => Some (units_clean u) | x => x end)
  end.
