(** * A backtracking matcher for the regular expressions of the repository.

    Python's [re] tries alternatives from left to right and repetitions greedily;
    so does this matcher, in continuation-passing style.  Repetition is only
    needed on single characters. *)
From Coq Require Import String.
From Verif Require Import PyBase.

Inductive re :=
| RChr (f : pychar -> bool)          (* one character of a class *)
| REps
| RSeq (a b : re)
| RAlt (a b : re)
| RStar (f : pychar -> bool)         (* [[..]*], greedy *)
| RGrp (name : string) (a : re)      (* [(?P<name>..)] *)
| RRef (name : string)               (* [(?P=name)] *)
| REnd.                              (* [$] *)

Definition ROpt (a : re) : re := RAlt a REps.
Definition RPlus (f : pychar -> bool) : re := RSeq (RChr f) (RStar f).
Fixpoint RSeqs (l : list re) : re :=
  match l with [] => REps | [a] => a | a :: l' => RSeq a (RSeqs l') end.
Fixpoint RAlts (l : list re) : re :=
  match l with [] => RChr (fun _ => false) | [a] => a | a :: l' => RAlt a (RAlts l') end.

(** Character classes; [ci]: with [re.IGNORECASE]. *)
Definition in_class (cs : pystr) (c : pychar) : bool := existsb (N.eqb c) cs.
Definition in_class_ci (cs : pystr) (c : pychar) : bool := existsb (fun d => (up c =? up d)%N) cs.
Definition RLit (s : string) : re := RSeqs (map (fun d => RChr (fun c => (c =? d)%N)) (lit s)).
Definition RLit_ci (s : string) : re := RSeqs (map (fun d => RChr (fun c => (up c =? up d)%N)) (lit s)).

Definition groups := list (string * pystr).
Fixpoint group (name : string) (g : groups) : option pystr :=
  match g with
  | [] => None
  | (n, t) :: g' => if String.eqb n name then Some t else group name g'
  end.

(** The text between a position and a later one. *)
Definition between (s s' : pystr) : pystr := firstn (length s - length s') s.

(** [$] without [re.MULTILINE]: at the end, or before a newline at the end. *)
Definition at_end (s : pystr) : bool :=
  match s with [] => true | [c] => (c =? 10)%N | _ => false end.

Section Match.
  Context {X : Type}.
  Fixpoint star (f : pychar -> bool) (k : pystr -> option X) (s : pystr) : option X :=
    match s with
    | c :: s' =>
        if f c then match star f k s' with Some x => Some x | None => k s end else k s
    | [] => k s
    end.

  Fixpoint rmatch (r : re) (s : pystr) (g : groups) (k : pystr -> groups -> option X) : option X :=
    match r with
    | RChr f => match s with c :: s' => if f c then k s' g else None | [] => None end
    | REps => k s g
    | RSeq a b => rmatch a s g (fun s' g' => rmatch b s' g' k)
    | RAlt a b => match rmatch a s g k with Some x => Some x | None => rmatch b s g k end
    | RStar f => star f (fun s' => k s' g) s
    | RGrp name a => rmatch a s g (fun s' g' => k s' ((name, between s s') :: g'))
    | RRef name =>
        match group name g with
        | Some t => if starts_with t s then k (skipn (length t) s) g else None
        | None => None
        end
    | REnd => if at_end s then k s g else None
    end.
End Match.

(** [re.match]: the groups. *)
Definition re_match (r : re) (s : pystr) : option groups := rmatch r s [] (fun _ g => Some g).
(** The rest of the text after the match at the start of the text. *)
Definition re_rest (r : re) (s : pystr) : option pystr := rmatch r s [] (fun s' _ => Some s').

(** [re.split] of a pattern that is one capturing group and matches no empty text. *)
Fixpoint split_fuel (fuel : nat) (r : re) (cur s : pystr) : list pystr :=
  match fuel with
  | O => [rev cur]
  | S f =>
      match re_rest r s with
      | Some s' => rev cur :: between s s' :: split_fuel f r [] s'
      | None => match s with
                | [] => [rev cur]
                | c :: s' => split_fuel f r (c :: cur) s'
                end
      end
  end.
Definition re_split (r : re) (s : pystr) : list pystr := split_fuel (S (length s)) r [] s.
