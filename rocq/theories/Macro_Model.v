(** * Python from Excel's cells: model of [/repo/pandalone/excel/pandalone.vba] *)
From Coq Require Import String.
From Verif Require Import PyBase.

(** [vbCr] *)
Definition CR : pychar := 13%N.

(** pandalone.vba:44-49: cells with a text each give a line.  Of cells, which may have numbers, only
    the text that VBA makes of them is modelled. *)
Fixpoint body (cells : list pystr) : pystr :=
  match cells with
  | [] => []
  | [] :: cells' => body cells'
  | c :: cells' => c ++ [CR] ++ body cells'
  end.

(** [FileSystemObject.GetBaseName]: what is before the last dot, all of it if there is none *)
Fixpoint before_dot (s : pystr) : option pystr :=
  match s with
  | [] => None
  | c :: s' =>
      match before_dot s' with
      | Some b => Some (c :: b)
      | None => if (c =? chr ".")%N then Some [] else None
      end
  end.
Definition base_name (s : pystr) : pystr := match before_dot s with Some b => b | None => s end.

(** pandalone.vba:17-25: what is put before; [full] is the path of the workbook, [name] its name. *)
Definition prefix (full name : pystr) (import_my_python : bool) : pystr :=
  lit "import os; from xlwings import Workbook, Range; " ++ [CR] ++ lit "wb = Workbook(r'" ++ full ++ lit "'); "
  ++ (if import_my_python then lit "import " ++ base_name name ++ lit " as mypy; " else []).

(** pandalone.vba:8-30 and 33-53: the Python code of the selected cells *)
Definition python_code (full name : pystr) (import_my_python : bool) (cells : list pystr) : pystr :=
  prefix full name import_my_python ++ [CR] ++ body cells.
