(** * Equality of mappings: model of [Pmod.__eq__] *)
From Coq Require Import String.
From Verif Require Import PyBase Json JsonPointer_Model Paths_Model Pmod_Model.

Definition alias_eqb (a b : option pystr) : bool :=
  match a, b with
  | Some x, Some y => str_eqb x y
  | None, None => true
  | _, _ => false
  end.

(** mappings.py:579-587 [__eq__] of two pmods: tuples are compared item by item, dicts by
    their lengths and then key by key.  (With anything else it is false: line 586-587.) *)
Fixpoint pmod_eqb (self o : pmod) : bool :=
  match self, o with
  | Pmod alias steps regxs, Pmod oalias osteps oregxs =>
      alias_eqb alias oalias
      && ((length steps =? length osteps)%nat
          && forallb (fun kv => match dget str_eqb (fst kv) osteps with
                                | Some v => pmod_eqb (snd kv) v
                                | None => false
                                end) steps)
      && ((length regxs =? length oregxs)%nat
          && forallb (fun kv => match dget str_eqb (fst kv) oregxs with
                                | Some v => pmod_eqb (snd kv) v
                                | None => false
                                end) regxs)
  end.
