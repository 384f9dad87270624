(** * Expansion moves: model of [/repo/pandalone/xleash/_parse.py] lines 193-202 and 290-360 *)
From Coq Require Import String.
From Verif Require Import PyBase Regex.

Definition lurd : pychar -> bool := in_class_ci (lit "LURD").

(** _parse.py:193 [_re_exp_moves_splitter]: ([LURD]\d+) *)
Definition exp_moves_splitter : re := RSeq (RChr lurd) (RPlus is_digit).

(** _parse.py:196-202 [_re_exp_moves_parser] *)
Definition exp_moves_parser : re :=
  RSeqs [ RGrp "moves" (RPlus lurd);
          ROpt (RGrp "times" (RAlt (RLit "?") (RPlus is_digit)));
          REnd ].

(** _parse.py:290-313 [_repeat_moves]: the repeated text, and how many times
    ([None]: for ever). *)
Definition repeat_moves (moves : pystr) (times : option pystr) : res (pystr * option Z) :=
  match times with
  | None => Ok (moves, None)
  | Some t => match py_int t with
              | Some n => Ok (moves, Some n)
              | None => Raise ValueError
              end
  end.

(** _parse.py:350-354: one token of the split; without a match [groupdict] of
    [None] is an AttributeError. *)
Definition parse_token (v : pystr) : res (pystr * option Z) :=
  match re_match exp_moves_parser v with
  | None => Raise AttributeError
  | Some g => match group "moves" g with
              | Some moves => repeat_moves moves (group "times" g)
              | None => Raise AttributeError
              end
  end.

(** _parse.py:316-360 [parse_expansion_moves] *)
Definition parse_expansion_moves (exp_moves : pystr) : res (list (pystr * option Z)) :=
  let toks := re_split exp_moves_splitter (replace1 (chr "?") (lit "1") (upper exp_moves)) in
  match rmap parse_token (filter (fun v => negb (str_eqb v [])) toks) with
  | Ok l => Ok l
  | Raise _ => Raise ValueError
  end.
