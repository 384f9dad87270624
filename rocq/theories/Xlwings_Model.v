(** * Shapes like those of xlwings: model of [/repo/pandalone/xleash/_filter.py] lines 177-195

    The arguments of [redim] as a call-spec gives them.  Keywords are left out,
    as this call-spec has none. *)
From Coq Require Import String.
From Verif Require Import PyBase Json Parse_Model Redim_Model.

(** _filter.py:177-179 [xlwings_dims_call_spec], once [json.loads] has read it *)
Definition xlwings_dims_call_spec : json :=
  JList [JStr (lit "redim"); JList [JNum 0; JNum 1; JNum 1; JNum 1; JNum 2]].

(** One argument of [redim_filter]: null, a number, or a pair as unpacked in
    _filter.py:162-167; other values do not occur in the call-spec above and
    are refused here. *)
Definition dim_of (j : json) : res (option dimspec) :=
  match j with
  | JNull => Ok None
  | JNum n => Ok (Some (DInt n))
  | JList [JNum n; JBool t] => Ok (Some (DPair (Some n) t))
  | JList [JNull; JBool t] => Ok (Some (DPair None t))
  | _ => Raise TypeError
  end.
Fixpoint dims_of (l : list json) : res (list (option dimspec)) :=
  match l with
  | [] => Ok []
  | j :: l' => do d <- dim_of j; do ds <- dims_of l'; Ok (d :: ds)
  end.

(** _filter.py:182-195 with the arguments by position, the others being None *)
Definition redim_by_args (st : Z * Z) (nd : option (Z * Z)) (values : json) (args : list json) : res json :=
  do ds <- dims_of args;
  if (5 <? List.length ds)%nat then Raise TypeError
  else let d i := nth i ds None in redim_filter st nd values (d 0%nat) (d 1%nat) (d 2%nat) (d 3%nat) (d 4%nat).

(** What the call-spec does to values captured; filters other than [redim] are
    not looked at. *)
Definition apply_call_spec (spec : json) (st : Z * Z) (nd : option (Z * Z)) (values : json) : res json :=
  do c <- parse_call_spec spec;
  if str_eqb (cs_func c) (lit "redim") then redim_by_args st nd values (cs_args c) else Raise ValueError.
