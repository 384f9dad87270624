(** * Model of the filters "pyeval" and "py" of [pandalone/xleash/_filter.py].

    The interpreter of expressions ([asteval]) is an oracle: given an expression
    and the variables [lasso] and [context] it may change the world. *)
From Coq Require Import String.
From Verif Require Import PyBase Json Parse_Model Lasso_Model.

Section Pyeval.
  Context {W SH : Type}.

  (** What comes out of an expression: errors, a lasso (with or without
      options), or any other value. *)
  Inductive outcome := Errors | ALasso (l : lasso SH) (has_opts : bool) | AValue (v : json).

  (** _filter.py:410-437, 502-537: [eval] on a new interpreter; "py" has no
      [context]. *)
  Variable eval : pystr -> lasso SH -> option (location SH) -> state W SH -> state W SH * outcome.

  (** _filter.py:429-432, 531-535 *)
  Definition result_lasso (l : lasso SH) (o : outcome) : option (lasso SH) :=
    match o with
    | Errors => None
    | ALasso l' has_opts => Some (if has_opts then l' else with_opts (l_opts l) l')
    | AValue v => Some (with_values v l)
    end.

  (** _filter.py:410-437 [_pyeval_element_func] *)
  Definition pyeval_element (eval_all : bool) (l : lasso SH) (x : location SH) (v : json)
    : M W SH (bool * fval SH) :=
    match v with
    | JStr t => fun s =>
        let (s, o) := eval t l (Some x) s in
        match result_lasso l o with
        | Some l' => (s, Ok (true, inl l'))
        | None => if eval_all then (s, Raise ValueError) else (s, Ok (false, inl l))
        end
    | _ => ret (false, inl l)
    end.

  (** _filter.py:440-499 [pyeval_filter] *)
  Definition pyeval_filter (filters : pystr -> option (filter W SH)) (has_pandas : bool) (l : lasso SH)
      (filts : list json) (eval_all : bool) (include exclude : option (list pystr)) (depth : option Z) :=
    run_filter_elementwise filters (pyeval_element eval_all) has_pandas l filts include exclude depth.

  (** _filter.py:502-537 [py_filter] *)
  Definition py_filter (l : lasso SH) (expr : pystr) : M W SH (fval SH) := fun s =>
    let (s, o) := eval expr l None s in
    match result_lasso l o with
    | Some l' => (s, Ok (inl l'))
    | None => (s, Raise ValueError)
    end.
End Pyeval.
Arguments outcome : clear implicits.
