(** * C121, C122: JSON types of pandas and numpy values, and defaults in tables *)
From Coq Require Import String.
From Verif Require Import PyBase Json Pandel_Model Kinds_Model Kinds_Spec Kinds_Proofs.

(** ** C121 *)

(** Plain values have the types they have in JSON. *)
Theorem C121_json : forall v t, is_type (of_json v) t = Pandel_Model.is_type v t.
Proof. exact json_types. Qed.
Print Assumptions C121_json.
Example C121_json_ex : is_type (of_json (JList [JNum 1; JNull])) TArray = true.
Proof. reflexivity. Qed.

(** Values have the types that the documentation lists for them. *)
Theorem C121_documented : forall v t, documented v t -> is_type v t = true.
Proof. exact documented_types. Qed.
Print Assumptions C121_documented.
Example C121_documented_ex : is_type (VSeries KInt [false; false]) TArray = true /\ is_type (VSeries KInt [false; false]) TObject = true.
Proof. split; apply C121_documented; constructor. Qed.

(** Only arrays of numpy are arrays in other cases than listed; ... *)
Theorem C121_only : forall v t, In t [TArray; TObject] -> is_type v t = true ->
  documented v t \/ exists k shape nans, v = VArray k shape nans /\ length shape <> 1 /\ t = TArray.
Proof. exact documented_only. Qed.
Print Assumptions C121_only.
Example C121_only_ex : is_type (VStr (lit "abc")) TArray = false /\ is_type (VFrame 3 []) TArray = false.
Proof. split; reflexivity. Qed.
(** ... but those are: the number of dimensions is not looked at, though it is documented to be one. *)
Theorem C121_ndim_refuted : exists v, sound v /\ ~ documented v TArray /\ is_type v TArray = true.
Proof. exists (VArray KFloat [2; 2] [false; false; false; false]). split; [reflexivity|]. split; [inversion 1|reflexivity]. Qed.
Print Assumptions C121_ndim_refuted.

(** What is null, exactly *)
Theorem C121_null : forall v, sound v -> (is_type v TNull = true <-> nothing v).
Proof. exact null_iff. Qed.
Print Assumptions C121_null.
Example C121_null_ex : is_type (VArray KFloat [1; 1] [true]) TNull = true /\ is_type (VArray KFloat [2] [true; true]) TNull = false /\ is_type (VSeries KObject [true]) TNull = false.
Proof. split; [|split]; reflexivity. Qed.
(** A not-a-number of Python that is another object than [np.nan] is not null, though numpy's scalars
    are: the comparison with a new object that was meant to find it never does. *)
Theorem C121_nan_refuted : exists v, v = VFloat true /\ is_type v TNull = false /\ is_type VNpNan TNull = true /\ is_type (VScalar KFloat true) TNull = true.
Proof. exists (VFloat true). split; [reflexivity|]. split; [reflexivity|split; reflexivity]. Qed.
Print Assumptions C121_nan_refuted.

(** The types of numpy's scalars *)
Theorem C121_scalars : forall k nan t, is_type (VScalar k nan) t = true <-> In t (scalar_types k) \/ (t = TNull /\ nan = true /\ has_nan k).
Proof. exact scalars. Qed.
Print Assumptions C121_scalars.
Example C121_scalars_ex : is_type (VScalar KBool false) TBoolean = true /\ is_type (VScalar KDatetime true) TNull = true /\ is_type (VScalar KDatetime true) TNumber = false.
Proof. split; [|split]; reflexivity. Qed.

(** Integers are numbers; booleans are neither; texts are nothing else. *)
Theorem C121_numbers : forall v,
  (is_type v TInteger = true -> is_type v TNumber = true)
  /\ (is_type v TBoolean = true -> is_type v TNumber = false /\ is_type v TInteger = false).
Proof. exact numbers. Qed.
Print Assumptions C121_numbers.
Example C121_numbers_ex : is_type (VScalar KInt false) TNumber = true /\ is_type (VScalar KBool false) TInteger = false.
Proof. split; [apply C121_numbers|]; reflexivity. Qed.
Theorem C121_texts : forall v t, is_type v TString = true -> is_type v t = true -> t = TString.
Proof. exact texts_only. Qed.
Print Assumptions C121_texts.
Example C121_texts_ex : is_type (VScalar KText false) TString = true /\ is_type (VScalar KText false) TArray = false.
Proof. split; reflexivity. Qed.
(** Types of JSON exclude each other but for integers and numbers; here they do not. *)
Theorem C121_apart_refuted : exists v, is_type v TNull = true /\ is_type v TArray = true /\ is_type v TObject = true.
Proof. exists (VSeries KFloat [true]). split; [reflexivity|split; reflexivity]. Qed.
Print Assumptions C121_apart_refuted.

(** ** C122 *)

(** Columns that are missing are filled in, in every row, if they have a default and that is asked for; ... *)
Theorem C122_filled : forall ad adn arn props t t' name p d,
  t_rows t <> 0 -> NoDup (map fst props) -> fill_cols ad adn arn props t = Ok t' ->
  sget name (t_cols t) = None -> In (name, p) props -> p_default p = Some d ->
  sget name (t_cols t') = if first_defined (p_auto p) ad then Some (new_col (t_rows t) d) else None.
Proof. exact cols_filled. Qed.
Print Assumptions C122_filled.
Theorem C122_missing : forall ad adn arn props t t' name,
  t_rows t <> 0 -> NoDup (map fst props) -> fill_cols ad adn arn props t = Ok t' ->
  sget name (t_cols t) = None -> (forall p, In (name, p) props -> p_default p = None) -> sget name (t_cols t') = None.
Proof. exact cols_missing. Qed.
Print Assumptions C122_missing.
Definition num (d : option dflt) : prop := mkProp d (Some [TNumber]) None None None.
Example C122_filled_ex :
  fill_cols true false false [(lit "a", num (Some (DNum 7))); (lit "b", num None); (lit "c", num (Some (DList [1; 2]%Z)))] (mkTable 2 [(lit "x", mkCol true [None; Some 1%Z])])
  = Ok (mkTable 2 [(lit "x", mkCol true [None; Some 1%Z]); (lit "a", mkCol false [Some 7%Z; Some 7%Z]); (lit "c", mkCol false [Some 1%Z; Some 2%Z])]).
Proof. reflexivity. Qed.
(** ... columns with anything in them, or with several rows, are kept; ... *)
Theorem C122_kept : forall ad adn arn props t t' name c,
  t_rows t <> 0 -> NoDup (map fst props) -> fill_cols ad adn arn props t = Ok t' ->
  sget name (t_cols t) = Some c -> ~ blank c -> sget name (t_cols t') = Some c.
Proof. exact cols_kept. Qed.
Print Assumptions C122_kept.
Theorem C122_others : forall ad adn arn props t t',
  t_rows t <> 0 -> fill_cols ad adn arn props t = Ok t' ->
  t_rows t' = t_rows t /\ forall n, ~ In n (map fst props) -> sget n (t_cols t') = sget n (t_cols t).
Proof. exact fill_cols_others. Qed.
Print Assumptions C122_others.
(** ... and tables of two rows and more get the new columns at the end and nothing else. *)
Theorem C122_many : forall ad adn arn props t t',
  2 <= t_rows t -> rectangular t -> NoDup (map fst props) -> fill_cols ad adn arn props t = Ok t' ->
  t' = mkTable (t_rows t) (t_cols t ++ additions ad (t_rows t) (t_cols t) props).
Proof. exact cols_many. Qed.
Print Assumptions C122_many.
Example C122_many_ex :
  fill_cols true true true [(lit "a", num (Some (DNum 7))); (lit "b", num None)] (mkTable 2 [(lit "a", mkCol false [None; None]); (lit "b", mkCol false [None; None])])
  = Ok (mkTable 2 [(lit "a", mkCol false [None; None]); (lit "b", mkCol false [None; None])]).
Proof. reflexivity. Qed.
(** A blank cell of a table of a single row is replaced by the default or removed, as for dictionaries. *)
Theorem C122_blank : forall ad adn arn props t t' name p c,
  t_rows t <> 0 -> NoDup (map fst props) -> fill_cols ad adn arn props t = Ok t' ->
  sget name (t_cols t) = Some c -> blank c -> In (name, p) props ->
  sget name (t_cols t') =
    if null_in_type (p_type p) then Some c
    else match p_default p, first_defined (p_auto_null p) adn, first_defined (p_remove_null p) arn with
         | Some d, true, _ => Some (new_col (t_rows t) d)
         | _, _, true => None
         | _, _, false => Some c
         end.
Proof. exact cols_blank. Qed.
Print Assumptions C122_blank.
Example C122_blank_ex :
  fill_cols true true true [(lit "a", num (Some (DNum 7))); (lit "b", num None)] (mkTable 1 [(lit "a", mkCol false [None]); (lit "b", mkCol false [None])])
  = Ok (mkTable 1 [(lit "a", mkCol false [Some 7%Z])]).
Proof. reflexivity. Qed.
(** So whether nulls are replaced depends on the number of rows. *)
Theorem C122_nulls_refuted : exists props name d t t',
  (exists p, In (name, p) props /\ p_default p = Some d) /\ (exists c, sget name (t_cols t) = Some c /\ Forall (fun x => x = None) (c_cells c))
  /\ fill_cols true true true props t = Ok t' /\ sget name (t_cols t') <> Some (new_col (t_rows t) d) /\ sget name (t_cols t') <> None.
Proof.
  exists [(lit "a", num (Some (DNum 7)))], (lit "a"), (DNum 7), (mkTable 2 [(lit "a", mkCol false [None; None])]), (mkTable 2 [(lit "a", mkCol false [None; None])]).
  split; [exists (num (Some (DNum 7))); split; [left|]; reflexivity|]. split; [exists (mkCol false [None; None]); split; [reflexivity|repeat constructor]|]. split; [reflexivity|]. split; discriminate.
Qed.
Print Assumptions C122_nulls_refuted.

(** In a table without rows, a list makes rows, in which columns filled in before stay blank. *)
Theorem C122_empty_refuted : exists props t t' name p z c,
  t_rows t = 0 /\ fill_cols true false false props t = Ok t' /\ In (name, p) props /\ p_default p = Some (DNum z)
  /\ sget name (t_cols t') = Some c /\ c_cells c = [None; None] /\ fill_cols true false false (rev props) t <> Ok t'.
Proof.
  exists [(lit "a", num (Some (DNum 7))); (lit "b", num (Some (DList [1; 2]%Z)))], (mkTable 0 []). eexists. exists (lit "a"), (num (Some (DNum 7))), 7%Z. eexists.
  split; [reflexivity|]. split; [reflexivity|]. split; [left; reflexivity|]. split; [reflexivity|]. split; [reflexivity|]. split; [reflexivity|discriminate].
Qed.
Print Assumptions C122_empty_refuted.

(** Filling in succeeds if lists of defaults have as many elements as there are rows, and fails only
    where they have not, ... *)
Theorem C122_succeeds : forall ad adn arn props t,
  t_rows t <> 0 -> (forall name p d, In (name, p) props -> p_default p = Some d -> fits (t_rows t) d) -> exists t', fill_cols ad adn arn props t = Ok t'.
Proof. exact cols_fail. Qed.
Print Assumptions C122_succeeds.
Theorem C122_fails : forall ad adn arn props t e,
  t_rows t <> 0 -> fill_cols ad adn arn props t = Raise e ->
  e = ValueError /\ exists name p l, In (name, p) props /\ p_default p = Some (DList l) /\ length l <> t_rows t.
Proof. exact cols_error. Qed.
Print Assumptions C122_fails.
(** ... where it is not a validation error but pandas' own. *)
Theorem C122_crash_refuted : exists props t, rectangular t /\ props_rule true false false props t = Raise ValueError.
Proof.
  exists [(lit "a", mkProp (Some (DList [1; 2]%Z)) (Some [TArray]) None None None)], (mkTable 3 [(lit "x", mkCol false [None; None; None])]).
  split; [intros n c [X|[]]; injection X as <- <-; reflexivity|reflexivity].
Qed.
Print Assumptions C122_crash_refuted.

(** Which properties of tables have the wrong type: those whose type is neither array nor object, nor
    null with a blank column; ... *)
Theorem C122_wrong : forall props t name p c ts,
  NoDup (map fst props) -> In (name, p) props -> sget name (t_cols t) = Some c -> p_type p = Some ts ->
  (In name (wrong_cols props t) <-> ~ In TArray ts /\ ~ In TObject ts /\ (In TNull ts -> ~ blank c)).
Proof. exact wrong_iff. Qed.
Print Assumptions C122_wrong.
Example C122_wrong_ex :
  wrong_cols [(lit "a", num None); (lit "b", mkProp None (Some [TArray]) None None None); (lit "c", mkProp None (Some [TNull; TString]) None None None)]
             (mkTable 1 [(lit "a", mkCol false [Some 1%Z]); (lit "b", mkCol false [Some 1%Z]); (lit "c", mkCol false [None])]) = [lit "a"].
Proof. reflexivity. Qed.
(** ... so a table is rejected for the default that was filled in, though the default is of the type
    that the schema wants. *)
Theorem C122_defaults_refuted : exists props name z t t',
  (exists p, In (name, p) props /\ p_default p = Some (DNum z) /\ p_type p = Some [TNumber]) /\ is_type (VInt z) TNumber = true
  /\ wrong_cols props t = [] /\ props_rule true false false props t = Ok (t', [name]).
Proof.
  exists [(lit "a", num (Some (DNum 7)))], (lit "a"), 7%Z, (mkTable 1 [(lit "x", mkCol false [Some 1%Z])]). eexists.
  split; [exists (num (Some (DNum 7))); split; [left; reflexivity|split; reflexivity]|]. split; [reflexivity|]. split; [reflexivity|reflexivity].
Qed.
Print Assumptions C122_defaults_refuted.
