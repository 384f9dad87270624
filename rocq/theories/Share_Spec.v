(** * Vocabulary for properties C77, C103-C106: trees in memory *)
From Coq Require Import String.
From Verif Require Import PyBase Json Pandel_Model Share_Model.

(** [shows h v j fp]: the value [v] stands for the tree [j], and the objects met
    on the way are those at the addresses [fp]: one for each path to it. *)
Inductive shows (h : heap) : value -> json -> list nat -> Prop :=
| Sh_null : shows h VNull JNull []
| Sh_bool b : shows h (VBool b) (JBool b) []
| Sh_num z : shows h (VNum z) (JNum z) []
| Sh_str s : shows h (VStr s) (JStr s) []
| Sh_dict a d dj fp : nth_error h a = Some (ODict d) -> shows_dict h d dj fp -> shows h (VRef a) (JDict dj) (a :: fp)
| Sh_list a l lj fp : nth_error h a = Some (OList l) -> shows_list h l lj fp -> shows h (VRef a) (JList lj) (a :: fp)
with shows_dict (h : heap) : list (pystr * value) -> list (pystr * json) -> list nat -> Prop :=
| Sd_nil : shows_dict h [] [] []
| Sd_cons k v j fp d dj fp' : shows h v j fp -> shows_dict h d dj fp' -> shows_dict h ((k, v) :: d) ((k, j) :: dj) (fp ++ fp')
with shows_list (h : heap) : list value -> list json -> list nat -> Prop :=
| Sl_nil : shows_list h [] [] []
| Sl_cons v j fp l lj fp' : shows h v j fp -> shows_list h l lj fp' -> shows_list h (v :: l) (j :: lj) (fp ++ fp').

(** How many paths lead to the object at [x] *)
Definition paths (fp : list nat) (x : nat) : nat := count_occ Nat.eq_dec fp x.
(** No object is shared. *)
Definition unshared (fp : list nat) : Prop := forall x, (paths fp x <= 1)%nat.

(** A schema stands for another one whose defaults are trees.  The default of a
    property is assigned by the rule of the properties: [own] tells whether the
    schema's own one is looked at. *)
Inductive kw_shows (h : heap) : bool -> skw -> kw -> list nat -> Prop :=
| Ks_type own ts : kw_shows h own (SType ts) (KType ts) []
| Ks_required own ps : kw_shows h own (SRequired ps) (KRequired ps) []
| Ks_props own ps psj fp : props_show h ps psj fp -> kw_shows h own (SProps ps) (KProps psj) fp
| Ks_default v j fp : shows h v j fp -> kw_shows h true (SDefault v) (KDefault j) fp
| Ks_default_any v j : kw_shows h false (SDefault v) (KDefault j) []
| Ks_auto own v : kw_shows h own (SAutoDefault v) (KAutoDefault v) []
| Ks_auto_null own v : kw_shows h own (SAutoDefaultNull v) (KAutoDefaultNull v) []
| Ks_remove_null own v : kw_shows h own (SAutoRemoveNull v) (KAutoRemoveNull v) []
| Ks_other own n : kw_shows h own (SOther n) (KOther n) []
with schema_shows (h : heap) : bool -> sschema -> schema -> list nat -> Prop :=
| Ss_nil own : schema_shows h own [] [] []
| Ss_cons own k kj fp s sj fp' : kw_shows h own k kj fp -> schema_shows h own s sj fp' -> schema_shows h own (k :: s) (kj :: sj) (fp ++ fp')
with props_show (h : heap) : list (pystr * sschema) -> list (pystr * schema) -> list nat -> Prop :=
| Sp_nil : props_show h [] [] []
| Sp_cons p s sj fp ps psj fp' : schema_shows h true s sj fp -> props_show h ps psj fp' -> props_show h ((p, s) :: ps) ((p, sj) :: psj) (fp ++ fp').

(** The sub-models, each with the schema it is validated with *)
Inductive subs_show (h : heap) (pre : schema) : list (sschema * value) -> list json -> list nat -> Prop :=
| Su_nil : subs_show h pre [] [] []
| Su_cons s fs m j fp subs ms fp' : schema_shows h false s pre fs -> shows h m j fp -> subs_show h pre subs ms fp' ->
    subs_show h pre ((s, m) :: subs) (j :: ms) (fs ++ fp ++ fp').

(** No object of the one heap was changed in the other. *)
Definition kept (h h' : heap) : Prop := forall x o, nth_error h x = Some o -> nth_error h' x = Some o.
(** Nothing but nulls was removed from the dictionaries. *)
Inductive only_nulls : list (pystr * value) -> list (pystr * value) -> Prop :=
| On_nil : only_nulls [] []
| On_keep kv d d' : only_nulls d d' -> only_nulls (kv :: d) (kv :: d')
| On_null k d d' : only_nulls d d' -> only_nulls ((k, VNull) :: d) d'.
Inductive lost_nulls : object -> object -> Prop :=
| Ln_same o : lost_nulls o o
| Ln_dict d d' : only_nulls d d' -> lost_nulls (ODict d) (ODict d').
Definition lost_only_nulls (h h' : heap) : Prop := forall x o, nth_error h x = Some o -> exists o', nth_error h' x = Some o' /\ lost_nulls o o'.

(** The value under some keys *)
Fixpoint node (h : heap) (v : value) (p : list pystr) : option value :=
  match p with
  | [] => Some v
  | k :: p' => match as_dict h v with Some d => match sget k d with Some w => node h w p' | None => None end | None => None end
  end.

(** A set of objects that refer to objects in it only *)
Definition within (P : nat -> Prop) (v : value) : Prop := match v with VRef a => P a | _ => True end.
Definition closed (h : heap) (P : nat -> Prop) : Prop := forall a o, P a -> nth_error h a = Some o ->
  match o with ODict d => forall k v, In (k, v) d -> within P v | OList l => forall v, In v l -> within P v end.
(** The defaults of the properties of a schema *)
Inductive default_of : sschema -> value -> Prop :=
| Do_here s ps p sub v : In (SProps ps) s -> In (p, sub) ps -> In (SDefault v) sub -> default_of s v
| Do_below s ps p sub v : In (SProps ps) s -> In (p, sub) ps -> default_of sub v -> default_of s v.
Definition no_default (s : sschema) : Prop := forall v, ~ default_of s v.
(** Keys are unique. *)
Definition dicts_sound (h : heap) : Prop := forall a d, nth_error h a = Some (ODict d) -> NoDup (map fst d).
(** A function curating models in memory that does as one curating trees does *)
Definition curates (f_in : heap -> value -> heap * value * option exn) (f : json -> json * option exn) : Prop :=
  forall h v j fp, shows h v j fp -> unshared fp ->
    exists h' v' fp', f_in h v = (h', v', snd (f j)) /\ shows h' v' (fst (f j)) fp' /\ unshared fp'.
