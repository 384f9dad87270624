(** * The two models of the visitor: schemas and errors of the one in terms of the other *)
From Coq Require Import String.
From Verif Require Import PyBase Json Pandel_Model Visit_Model.

(** Schemas of [Pandel_Model] as schemas of [Visit_Model]; the keywords that only check have no
    counterpart (see [checkless]). *)
Fixpoint as_keyword (k : kw) : keyword :=
  match k with
  | KType ts => VType ts
  | KRequired ps => VRequired ps
  | KProps ps => VProps (map (fun ps => (fst ps, SObj (map as_keyword (snd ps)))) ps)
  | KDefault v => VDefault v
  | KAutoDefault v => VAutoDefault v
  | KAutoDefaultNull v => VAutoDefaultNull v
  | KAutoRemoveNull v => VAutoRemoveNull v
  | KOther _ => VUnknown (lit "other")
  end.
Definition as_schema (s : schema) : vschema := SObj (map as_keyword s).

(** Schemas of at most so many levels, without other keywords *)
Inductive checkless : nat -> schema -> Prop :=
| checkless_intro n s : (forall m, ~ In (KOther m) s) -> (forall ps p sub, In (KProps ps) s -> In (p, sub) ps -> exists m, n = S m /\ checkless m sub) -> checkless n s.

(** Errors of the same rule *)
Inductive same_error : verr -> verror -> Prop :=
| same_type p sp v : same_error WrongType (VErr p sp (Some (lit "type")) v [])
| same_missing q p sp d : sget q d = None -> same_error (Missing q) (VErr p sp (Some (lit "required")) (JDict d) []).
