(** * Listing the sheets of files: model of [list_sheetnames] of [SimpleSheetsFactory] and [ABCSheet],
      [/repo/pandalone/xleash/io/backend.py] lines 105-108 and 353-354, [/repo/pandalone/xleash/io/_xlrd.py]
      lines 173-174 and 232-235

    On the files of [Whole_Model], with its simplifications. *)
From Coq Require Import String.
From Verif Require Import PyBase FileUrl_Model ReadRect_Model Sheets_Model Dates_Model Whole_Model.

Section Listed.
  Variable lossy : list N -> pystr.
  Variable bad_host : pystr -> bool.
  Variable expandvars : pystr -> pystr.
  Variable expanduser_tilde : pystr -> pystr.
  Variable word_char : pychar -> bool.
  Variable disk : source -> option xbook.
  Variable cwd : pystr.
  Notation to_url := (to_url bad_host expandvars expanduser_tilde cwd).

  (** backend.py:105-108: the backend is asked for with the URL, which is made one again (line 91);
      _xlrd.py:232-235: the book is opened *)
  Definition list_sheetnames (wb_id : pystr) : res (list pystr) :=
    do url <- to_url wb_id;
    do wb_url <- to_url url;
    do score <- bid lossy bad_host word_char wb_url;
    match score with
    | None => Raise ValueError
    | Some _ =>
        do src <- open_book lossy bad_host url;
        match disk src with
        | None => Raise IOError
        | Some b => Ok (xb_names b)
        end
    end.

  (** _xlrd.py:173-174, of a sheet that is open *)
  Definition sibling_names (o : xl) : list pystr := xb_names (o_book o).
End Listed.
