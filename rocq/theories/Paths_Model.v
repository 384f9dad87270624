(** * Joining of path-steps: model of [/repo/pandalone/mappings.py] lines 687-868 *)
From Coq Require Import String.
From Verif Require Import PyBase.

Fixpoint steps_eqb (a b : list pystr) : bool :=
  match a, b with
  | [], [] => true
  | x :: a', y :: b' => str_eqb x y && steps_eqb a' b'
  | _, _ => false
  end.

(** mappings.py:763-772 [_last_pair_choices] *)
Definition last_pair_choices : list (list pystr * list pystr) :=
  [ ([lit "."], []);
    ([lit ".."], [lit ".."]);
    ([lit "."; lit "."], []);
    ([lit "."; lit ".."], [lit ".."]);
    ([lit ".."; lit "."], [lit ".."]);
    ([lit ".."; lit ".."], [lit ".."; lit ".."]);
    ([lit ""; lit "."], [lit ""]);
    ([lit ""; lit ".."], [lit ""]) ].

(** [steps[-1:]] *)
Definition last_slice {A} (l : list A) : list A :=
  match rev l with [] => [] | x :: _ => [x] end.

(** mappings.py:687-787 [_append_step]; [removelast] is [steps[:-1]]. *)
Definition append_step (steps : list pystr) (step : pystr) : list pystr :=
  if str_eqb step (lit "") then [lit ""]
  else
    match dget steps_eqb (last_slice steps ++ [step]) last_pair_choices with
    | Some choice => removelast steps ++ choice
    | None =>
        if str_eqb step (lit ".") then steps
        else if str_eqb step (lit "..") then removelast steps
        else steps ++ [step]
    end.

(** mappings.py:790-868 [_join_paths] *)
Definition join_paths (steps : list pystr) : pystr :=
  match fold_left append_step steps [] with
  | [] => lit "."
  | nsteps => join (lit "/") nsteps
  end.
