(** * Lassoing the cells of files that change

    [/repo/pandalone/xleash/_lasso.py] lines 316-392, called again and again with the same
    [SheetsFactory].  Files may change between the calls, not during them. *)
From Coq Require Import String.
From Verif Require Import PyBase Json Lasso_Model Sheets_Model FileUrl_Model ReadRect_Model Dates_Model Whole_Model.

Section Change.
  Variable lossy : list N -> pystr.
  Variable bad_host : pystr -> bool.
  Variable expandvars : pystr -> pystr.
  Variable expanduser_tilde : pystr -> pystr.
  Variable word_char : pychar -> bool.
  Variable set_list : list key -> list key.
  Variable to_json : xvalue -> json.
  Variable loads : pystr -> option json.
  Variable base_opts : dict.
  Variable filters : pystr -> option (Lasso_Model.filter xworld (nat * xl)).
  Variable cwd : pystr.

  (** What is found in files at some moment, and the xl-ref that is lassoed then *)
  Definition moment : Type := (source -> option xbook) * pystr.

  Definition lasso_at (disk : source -> option xbook) : bool -> pystr -> lasso (nat * xl) -> M xworld (nat * xl) json :=
    lasso_files lossy bad_host expandvars expanduser_tilde word_char set_list disk to_json loads base_opts filters cwd.

  (** With the same factory: what the lassos give *)
  Fixpoint history (h : list moment) (w : xworld) : list (res json) :=
    match h with
    | [] => []
    | (disk, x) :: rest => let (s, r) := lasso_at disk false x no_context (State w None) in r :: history rest (world s)
    end.

  (** Without one: it is made for the lasso, and closed. *)
  Definition now (disk : source -> option xbook) (x : pystr) : res json :=
    snd (lasso_at disk true x no_context (State new_world None)).
End Change.
