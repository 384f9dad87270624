(** * Model of the VBA modules of workbooks, [pandalone/xlsutils.py].

    Excel is an oracle: a workbook is the list of its components, named without
    regard to case; what an imported file declares comes from [load].  Paths are
    those of POSIX. *)
From Coq Require Import String.
From Verif Require Import PyBase OsPath_Model Utils_Model.

(** Components are modules (1), classes (2), forms (3), documents (100)... *)
Record comp := Comp { c_type : N; c_name : pystr; c_code : pystr }.
Definition named (n : pystr) (c : comp) : bool := str_eqb (lower (c_name c)) (lower n).

(** xlsutils.py:99-101; [os.path.basename] is what follows the last slash. *)
Definition basename (f : pystr) : pystr := fst (splitext (last (split_on (chr "/") f) [])).

(** xlsutils.py:93-103, of what [glob] gives *)
Definition gather_files (files : list pystr) : list (pystr * pystr) :=
  fold_left (fun d f => dset str_eqb (basename f) f d) files [].

(** ** xlsutils.py:114-132 [_remove_vba_modules] *)

(** [x in it] of an iterator, and what is left of it *)
Fixpoint in_iterator (x : pystr) (it : list pystr) : bool * list pystr :=
  match it with
  | [] => (false, [])
  | y :: it' => if str_eqb y x then (true, it') else in_iterator x it'
  end.

(** The loop, over all components; [names] is the iterator of [map], if any. *)
Fixpoint remove_loop (names : option (list pystr)) (comps : list comp) : list comp :=
  match comps with
  | [] => []
  | c :: comps' =>
      if (c_type c =? 1)%N then
        match names with
        | None => remove_loop None comps'
        | Some it =>
            let (found, it') := in_iterator (lower (c_name c)) it in
            if found then remove_loop (Some it') comps' else c :: remove_loop (Some it') comps'
        end
      else c :: remove_loop names comps'
  end.
Definition remove_vba_modules (comps : list comp) (names : list pystr) : list comp :=
  remove_loop (match names with [] => None | _ => Some (map lower names) end) comps.

(** ** xlsutils.py:135-164 [_import_vba_files] *)

Section Import.
  (** What a file holds, unless it cannot be imported; the name given to a new
      component while its own is taken. *)
  Variable load : pystr -> option comp.
  Variable free_name : list comp -> pystr -> pystr.
  Variable cwd : pystr.

  (** [Item] and [Remove]: missing ones and documents make a [com_error], that is
      skipped. *)
  Definition remove_named (n : pystr) (comps : list comp) : list comp :=
    match find (named n) comps with
    | Some c => if (c_type c =? 100)%N then comps else filter (fun c => negb (named n c)) comps
    | None => comps
    end.

  (** The components, and whether there was no [com_error]. *)
  Fixpoint import_vba_files (files : list (pystr * pystr)) (comps : list comp) : list comp * bool :=
    match files with
    | [] => (comps, true)
    | (n, f) :: files' =>
        let comps := remove_named n comps in
        match load (osp_join cwd f) with
        | None => (comps, false)
        | Some new =>
            if existsb (named n) comps then
              (comps ++ [Comp (c_type new) (free_name comps (c_name new)) (c_code new)], false)
            else import_vba_files files' (comps ++ [Comp (c_type new) n (c_code new)])
        end
    end.

  (** ** Saving *)

  (** Workbooks never saved have no path. *)
  Record book := Book { b_path : pystr; b_name : pystr; b_comps : list comp }.
  Definition full_name (b : book) : pystr :=
    match b_path b with [] => b_name b | p => p ++ lit "/" ++ b_name b end.

  (** How it is saved: in its own format, or with macros *)
  Inductive saving := Saved | SavedAs (path : pystr).

  (** xlsutils.py:167-188; an empty path is not [None] and saves nothing. *)
  Definition save_workbook (b : book) (path : option pystr) : list saving :=
    match path with
    | None => match b_path b with
              | [] => [SavedAs (osp_join cwd (b_name b))]
              | _ => [Saved]
              end
    | Some [] => []
    | Some p => [SavedAs p]
    end.

  (** xlsutils.py:191-205 *)
  Definition save_macro_enabled (b : book) (new_fname : option pystr) : list saving :=
    let new_fname :=
      match new_fname with
      | None | Some [] =>
          let e := lower (snd (splitext (full_name b))) in
          if str_eqb (skipn (length e - 1) e) (lit "m") then new_fname
          else Some (full_name b ++ lit ".xlsm")
      | _ => new_fname
      end in
    save_workbook b new_fname.

  (** ** xlsutils.py:208-239 [import_vba_into_excel_workbook] *)

  (** [glob]; the workbooks by name and the active one; whether access is denied *)
  Variable glob : pystr -> list pystr.
  Variable open_book : pystr -> option book.
  Variable active : option book.
  Variable denied : book -> bool.

  Definition import_vba (wildcard : pystr) (wrkb_fname new_fname : option pystr)
    : res (book * list saving) :=
    do b <- match wrkb_fname with
            | None | Some [] => match active with Some b => Ok b | None => Raise ValueError end
            | Some f => match open_book f with Some b => Ok b | None => Raise IOError end
            end;
    if denied b then Raise (OtherError 1)
    else
      match gather_files (glob wildcard) with
      | [] => Ok (b, [])
      | files =>
          let (comps, fine) := import_vba_files files (b_comps b) in
          let b' := Book (b_path b) (b_name b) comps in
          if fine then Ok (b', save_macro_enabled b' new_fname) else Raise (OtherError 2)
      end.

  (** xlsutils.py:249-277 [main]: exits as [OtherError] *)
  Variable mydir : pystr.
  Definition main (argv : list pystr) : res (book * list saving) :=
    match argv with
    | [] => Raise IndexError
    | [_] => Raise (OtherError 3)
    | _ :: w :: rest =>
        do w <- (if str_eqb w (lit "--pandalone") then Ok (osp_join mydir (lit "*.vba"))
                 else if starts_with (lit "--") w then Raise (OtherError 4) else Ok w);
        match rest with
        | [] => import_vba w None None
        | [a] => import_vba w (Some a) None
        | [a; b] => import_vba w (Some a) (Some b)
        | _ => Raise TypeError
        end
    end.
End Import.
