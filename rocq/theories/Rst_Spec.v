(** * The long description of the package: what is expected *)
From Coq Require Import String.
From Verif Require Import PyBase.

(** Characters of words: letters, digits and the underscore of ASCII, and some beyond it *)
Definition word_of (beyond : N -> bool) (c : N) : Prop :=
  (48 <= c <= 57 \/ 65 <= c <= 90 \/ c = 95 \/ 97 <= c <= 122 \/ (128 <= c /\ beyond c = true))%N.
(** The same letter, but for its case; the patterns are in lower case *)
Definition same_letter (p c : N) : Prop :=
  (c = p /\ ~ (65 <= c <= 90) \/ (97 <= p <= 122 /\ c = p - 32) \/ (p = 105 /\ (c = 304 \/ c = 305)) \/ (p = 115 /\ c = 383) \/ (p = 107 /\ c = 8490))%N.
Definition spelled (p s : list N) : Prop := Forall2 same_letter p s.
Definition contains (x s : list N) : Prop := exists a b, s = a ++ x ++ b.

(** *** Roles *)
Definition role_text (w t : list N) : list N := [58%N] ++ w ++ [58; 96]%N ++ t ++ [96%N].
Definition role_name (beyond : N -> bool) (w : list N) : Prop := w <> [] /\ Forall (word_of beyond) w.
Definition has_role (beyond : N -> bool) (s : list N) : Prop :=
  exists w t, role_name beyond w /\ ~ In 96%N t /\ contains (role_text w t) s.

(** What a role becomes *)
Definition special_roles : list (list N) := [lit "abbr"; lit "envvar"; lit "ref"; lit "term"; lit "dfn"].
Inductive becomes (w t : list N) : list N -> Prop :=
| becomes_abbr : spelled (lit "abbr") w -> becomes w t t
| becomes_env : spelled (lit "envvar") w -> becomes w t (lit "``env[$" ++ t ++ lit "]``")
| becomes_ref : spelled (lit "ref") w -> becomes w t (lit "ref: *" ++ t ++ lit "*")
| becomes_term : spelled (lit "term") w -> becomes w t (lit "**" ++ t ++ lit "**")
| becomes_dfn : spelled (lit "dfn") w -> becomes w t (lit "**" ++ t ++ lit "**")
| becomes_call : (forall n, In n special_roles -> ~ spelled n w) -> becomes w t (w ++ lit "(`" ++ t ++ lit "`)").

(** *** Lines, as texts and roles *)
Inductive piece := Text (t : list N) | Role (w t : list N).
Definition render (ps : list piece) : list N :=
  concat (map (fun p => match p with Text t => t | Role w t => role_text w t end) ps).
(** The texts of roles are not empty, and end in no colon *)
Definition piece_ok (beyond : N -> bool) (p : piece) : Prop :=
  match p with
  | Text _ => True
  | Role w t => role_name beyond w /\ t <> [] /\ ~ In 96%N t /\ ~ exists t', t = t' ++ [58%N]
  end.
(** Backticks follow colons in roles only, which themselves follow no colon *)
Definition outline (ps : list piece) : list N :=
  concat (map (fun p => match p with Text t => t | Role _ _ => [96%N] end) ps).
Definition line_ok (beyond : N -> bool) (ps : list piece) : Prop :=
  Forall (piece_ok beyond) ps /\ ~ contains [58; 96]%N (outline ps).
Definition piece_becomes (p : piece) (s : list N) : Prop :=
  match p with Text t => s = t | Role w t => becomes w t s end.
Definition line_becomes (ps : list piece) (s : list N) : Prop := exists ss, Forall2 piece_becomes ps ss /\ s = concat ss.

(** *** Directives and values *)
Definition listed : list (list N * list N) := [
  (lit ".. doctest", lit "code-block"); (lit ".. module", lit "code-block"); (lit ".. currentmodule::", lit "currentmodule:");
  (lit ".. plot::", lit ".. plot:"); (lit ".. seealso", lit "info"); (lit ".. glossary", lit "rubric");
  (lit ".. figure::", lit ".. "); (lit ".. image::", lit ".. "); (lit ".. dispatcher", lit "code-block");
  (lit "|version|", lit "x.x.x"); (lit "|today|", lit "x.x.x"); (lit ".. include:: authors", lit "see: AUTHORS")].
Definition has_listed (s : list N) : Prop := exists p new d, In (p, new) listed /\ spelled p d /\ contains d s.
(** Texts with no place for them *)
Definition quiet (s : list N) : Prop := ~ contains (lit ".. ") s /\ ~ In 124%N s.
(** What follows an image is not glued to it *)
Definition apart (s : list N) : Prop := s = [] \/ exists c s', s = c :: s' /\ (c = 32 \/ c = 10)%N.
(** The letters that patterns match beyond ASCII are characters of words *)
Definition knows_letters (beyond : N -> bool) : Prop := forall c, In c [304; 305; 383; 8490]%N -> beyond c = true.
