(** * What evaluating the texts of nested values means. *)
From Verif Require Import PyBase Json Lasso_Model Pyeval_Model.

Section Evaluated.
  Context {W SH : Type}.
  Variable eval : pystr -> lasso SH -> option (location SH) -> state W SH -> state W SH * outcome SH.
  Variable l : lasso SH.
  Variable all : bool.
  (** Whether the item of a dict is taken *)
  Variable taken : pystr -> Prop.
  Variable depth : option Z.

  (** The value of an outcome *)
  Inductive gives : outcome SH -> json -> Prop :=
  | g_value : forall v, gives (AValue v) v
  | g_lasso : forall l' b, gives (ALasso l' b) (l_values l').

  (** The place told to the expression is on the sheet and the rectangle of the
      lasso. *)
  Definition in_lasso (x : location SH) : Prop :=
    x_sheet x = l_sheet l /\ x_st x = l_st l /\ x_nd x = l_nd l.

  (** One after the other, each text is replaced by the value of its expression,
      or kept (unless all must evaluate) if that has errors; what a text has
      become is not looked into; keys, other values and those too deep stay. *)
  Inductive evaluated : Z -> state W SH -> json -> state W SH -> json -> Prop :=
  | ev_deep : forall n s v, depth = Some n -> evaluated n s v s v
  | ev_text : forall n s t x s' o y, depth <> Some n -> in_lasso x ->
      eval t l (Some x) s = (s', o) -> gives o y -> evaluated n s (JStr t) s' y
  | ev_kept : forall n s t x s', depth <> Some n -> in_lasso x -> all = false ->
      eval t l (Some x) s = (s', Errors) -> evaluated n s (JStr t) s' (JStr t)
  | ev_cell : forall n s v, depth <> Some n ->
      match v with JNull | JBool _ | JNum _ => True | _ => False end -> evaluated n s v s v
  | ev_list : forall n s vs s' vs', depth <> Some n -> evaluated_list (n + 1) s vs s' vs' ->
      evaluated n s (JList vs) s' (JList vs')
  | ev_dict : forall n s d s' d', depth <> Some n -> evaluated_items (n + 1) s d s' d' ->
      evaluated n s (JDict d) s' (JDict d')
  with evaluated_list : Z -> state W SH -> list json -> state W SH -> list json -> Prop :=
  | evl_nil : forall n s, evaluated_list n s [] s []
  | evl_cons : forall n s v s1 v' vs s' vs', evaluated n s v s1 v' ->
      evaluated_list n s1 vs s' vs' -> evaluated_list n s (v :: vs) s' (v' :: vs')
  with evaluated_items : Z -> state W SH -> dict -> state W SH -> dict -> Prop :=
  | evd_nil : forall n s, evaluated_items n s [] s []
  | evd_taken : forall n s k v s1 v' d s' d', taken k -> evaluated n s v s1 v' ->
      evaluated_items n s1 d s' d' -> evaluated_items n s ((k, v) :: d) s' ((k, v') :: d')
  | evd_left : forall n s k v d s' d', ~ taken k ->
      evaluated_items n s d s' d' -> evaluated_items n s ((k, v) :: d) s' ((k, v) :: d').
End Evaluated.

(** Lists of keys: none, or the empty one, say nothing. *)
Definition taken_by (include exclude : option (list pystr)) (k : pystr) : Prop :=
  (include = None \/ include = Some [] \/ exists ks, include = Some ks /\ In k ks) /\
  ~ (exists ks, exclude = Some ks /\ In k ks).

(** [x] is somewhere within a value. *)
Inductive within : json -> json -> Prop :=
| w_here : forall v, within v v
| w_list : forall v vs x, In v vs -> within v x -> within (JList vs) x
| w_dict : forall k v d x, In (k, v) d -> within v x -> within (JDict d) x.
