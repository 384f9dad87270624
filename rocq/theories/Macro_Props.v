(** * C125: Python from the cells of Excel *)
From Coq Require Import String.
From Verif Require Import PyBase Macro_Model Macro_Spec Macro_Proofs.

(** The lines of the Python code are two that prepare, and then the texts of the cells that are not
    empty, in order, as long as nothing has line ends in it. *)
Theorem C125_lines : forall full name mine cells, one_line full -> one_line name -> Forall one_line cells ->
  lines (python_code full name mine cells) =
    [lit "import os; from xlwings import Workbook, Range; ";
     lit "wb = Workbook(r'" ++ full ++ lit "'); " ++ (if mine then lit "import " ++ base_name name ++ lit " as mypy; " else [])]
    ++ filter (fun c => match c with [] => false | _ => true end) cells.
Proof. exact code_lines. Qed.
Print Assumptions C125_lines.
Example C125_lines_ex :
  lines (python_code (lit "C:\b.xlsm") (lit "b.xlsm") true [lit "if a:"; []; lit "    b = 1"])
  = [lit "import os; from xlwings import Workbook, Range; "; lit "wb = Workbook(r'C:\b.xlsm'); import b as mypy; "; lit "if a:"; lit "    b = 1"].
Proof. vm_compute. reflexivity. Qed.

(** Python reads the path of the workbook back if it has no quotes and does not end in a backslash; ... *)
Theorem C125_path : forall full rest, ~ In 39%N full -> one_line full -> (forall a, full <> a ++ [92%N]) ->
  raw_text (full ++ lit "'" ++ rest) = Some (full, rest).
Proof. exact raw_back. Qed.
Print Assumptions C125_path.
Example C125_path_ex : raw_text (lit "C:\new\b.xlsm'); ") = Some (lit "C:\new\b.xlsm", lit "); ").
Proof. vm_compute. reflexivity. Qed.
(** ... it may have quotes, though, which are legal in paths: then Python reads only what is before. *)
Theorem C125_quote_refuted : exists full v rest, raw_text (full ++ lit "'); ") = Some (v, rest) /\ v <> full.
Proof. exists (lit "C:\it's.xlsm"), (lit "C:\it"), (lit "s.xlsm'); "). split; [vm_compute; reflexivity|]. discriminate. Qed.
Print Assumptions C125_quote_refuted.

(** The module imported is the name of the workbook without its extension; ... *)
Theorem C125_module : forall b e, ~ In 46%N e -> base_name (b ++ lit "." ++ e) = b /\ base_name e = e.
Proof. intros b e N. split; [apply (base_dot _ b e); [reflexivity|exact N]|apply base_none; exact N]. Qed.
Print Assumptions C125_module.
Example C125_module_ex : base_name (lit "my.book.xlsm") = lit "my.book".
Proof. reflexivity. Qed.
(** ... it need not be a name of Python, so that the line is no Python. *)
Theorem C125_module_refuted : exists name, base_name name = lit "my book" /\ ~ identifier (base_name name).
Proof.
  exists (lit "my book.xlsm"). split; [reflexivity|]. intros (c & r & E & _ & F). change (base_name (lit "my book.xlsm")) with (lit "my book") in E. injection E as <- <-.
  inversion F as [|? ? _ F2]; subst. inversion F2 as [|? ? A _]; subst. unfold letter in A. destruct A as [[[A B]|[[A B]|A]]|[A B]]; try (apply A; reflexivity); try discriminate A.
Qed.
Print Assumptions C125_module_refuted.
(** Cells with several lines are run as several lines. *)
Theorem C125_cell_refuted : exists cells, length (lines (body cells)) > length cells.
Proof. exists [lit "a = 1" ++ [10%N] ++ lit "b = 2"]. vm_compute. auto. Qed.
Print Assumptions C125_cell_refuted.
