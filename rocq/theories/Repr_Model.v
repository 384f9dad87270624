(** * The texts of mappings: model of [Pmod.__repr__], [/repo/pandalone/mappings.py] lines 571-577 *)
From Coq Require Import String.
From Verif Require Import PyBase Json Pmod_Model.

(** The last [k] digits in base 16, of [0-9a-f] *)
Definition low_digit (n : N) : pychar := if (n <? 10)%N then (48 + n)%N else (87 + n)%N.
Fixpoint digits16 (k : nat) (n : N) : pystr :=
  match k with O => [] | S k' => digits16 k' (n / 16)%N ++ [low_digit (n mod 16)%N] end.

Section Repr.
  (** [str.isprintable] of a character that is not ASCII *)
  Variable printable : pychar -> bool.
  (** What [repr] writes of the flags after a pattern compiled without any: nothing, or for
      instance [, re.IGNORECASE] if the pattern itself sets them. *)
  Variable flags : pystr -> pystr.

  (** [repr] of a Python string (CPython's [unicode_repr]) *)
  Definition escaped (quote c : pychar) : pystr :=
    if ((c =? quote) || (c =? chr "\"))%N%bool then [chr "\"; c]
    else if (c =? 9)%N then lit "\t"
    else if (c =? 10)%N then lit "\n"
    else if (c =? 13)%N then lit "\r"
    else if ((c <? 32) || (c =? 127))%N%bool then lit "\x" ++ digits16 2 c
    else if (c <? 127)%N then [c]
    else if printable c then [c]
    else if (c <=? 255)%N then lit "\x" ++ digits16 2 c
    else if (c <=? 65535)%N then lit "\u" ++ digits16 4 c
    else lit "\U" ++ digits16 8 c.
  Definition quote_of (s : pystr) : pychar :=
    if existsb (N.eqb (chr "'")) s && negb (existsb (N.eqb (chr """")) s) then chr """" else chr "'".
  Definition str_repr (s : pystr) : pystr :=
    let q := quote_of s in q :: concat (map (escaped q) s) ++ [q].

  (** [repr] of a compiled pattern (CPython's [pattern_repr]); the text of the pattern is cut. *)
  Definition regex_repr (r : pystr) : pystr :=
    lit "re.compile(" ++ firstn 200 (str_repr r) ++ flags r ++ lit ")".

  (** [repr] of a dictionary, of the texts of its keys and values *)
  Definition dict_repr (items : list (pystr * pystr)) : pystr :=
    lit "{" ++ join (lit ", ") (map (fun kv => fst kv ++ lit ": " ++ snd kv) items) ++ lit "}".

  (** mappings.py:571-577: what is [None] or empty is left out, the empty alias is not. *)
  Fixpoint pmod_repr (p : pmod) : pystr :=
    match p with
    | Pmod alias steps regxs =>
        lit "pmod(" ++ join (lit ", ")
          (match alias with Some a => [str_repr a] | None => [] end ++
           match steps with [] => [] | _ => [dict_repr (map (fun kc => (str_repr (fst kc), pmod_repr (snd kc))) steps)] end ++
           match regxs with [] => [] | _ => [dict_repr (map (fun kc => (regex_repr (fst kc), pmod_repr (snd kc))) regxs)] end)
        ++ lit ")"
    end.
End Repr.
