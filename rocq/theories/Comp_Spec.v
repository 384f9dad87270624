(** * What components do, independently of the code *)
From Coq Require Import String.
From Verif Require Import PyBase Json JsonPointer_Model Paths_Model Pmod_Model Pmod_Spec Pstep_Model Pstep_Spec Comp_Model.

(** The mappings given are no step; mapping objects mean the same in both heaps. *)
Definition same_mappings (pm : maps) (h h' : heap) : Prop :=
  (forall i, pm <> MStep i)
  /\ forall p, pm = MPmod p -> allocated (h_cells h) p /\ allocated (h_cells h') p
       /\ erase (h_cells h) p = erase (h_cells h') p.

(** The program assigns no strings to attributes. *)
Inductive never_renames : cprog -> Prop :=
| Nr_end : forall r, never_renames (CEnd r)
| Nr_do : forall c k, (forall v a s, c <> CSet v a (CStr s)) -> (forall o, never_renames (k o)) ->
    never_renames (CDo c k).

(** The functions of a component. *)
Inductive part_of : component -> pystr -> cprog -> Prop :=
| Po_func : forall n f, part_of (Func n f) n f
| Po_assembly : forall cs c n f, In c cs -> part_of c n f -> part_of (Assembly cs) n f.

(** The paths below a step. *)
Inductive leaf_paths (h : heap) : option nat -> list pystr -> Prop :=
| Lp_none : leaf_paths h None []
| Lp_step : forall i l, text_of h i <> [] -> ascending l ->
    (forall x, In x l <-> exists q j, walk h i (q ++ [j]) /\ leaf_at h j
       /\ x = join_paths (map (text_of h) (q ++ [j]))) -> leaf_paths h (Some i) l.

(** Components built one after the other. *)
Inductive in_turn (bld : component -> heap -> heap * res (list pystr * list pystr))
  : heap -> list component -> heap -> list (list pystr * list pystr) -> Prop :=
| It_nil : forall h, in_turn bld h [] h []
| It_cons : forall h c h1 io cs h2 ios, bld c h = (h1, Ok io) -> in_turn bld h1 cs h2 ios ->
    in_turn bld h (c :: cs) h2 (io :: ios).

(** Programs without control of flow: the first failure ends them. *)
Fixpoint straight (cs : list cmd) : cprog :=
  match cs with
  | [] => CEnd (Ok tt)
  | c :: cs => CDo c (fun o => match o with Failed e => CEnd (Raise e) | _ => straight cs end)
  end.

(** References by plain names. *)
Inductive plain_ref (name : pystr) : cmd -> Prop :=
| Pr_pinp : plain_name name -> plain_ref name (CPinp None)
| Pr_pinp_path : forall p, plain_name p -> plain_ref name (CPinp (Some p))
| Pr_pout : plain_name name -> plain_ref name (CPout None)
| Pr_pout_path : forall p, plain_name p -> plain_ref name (CPout (Some p))
| Pr_get : forall v a, plain_name a -> plain_ref name (CGet v a).

(** Mappings to plain aliases; those of the roots may be absolute paths. *)
Section Plain.
  Variable M : Type.
  Variable fullmatch : pystr -> pystr -> option M.
  Variable expand : M -> pystr -> res pystr.

  Definition root_alias (x : pystr) : Prop :=
    plain_alias x \/ exists parts, parts <> [] /\ Forall plain_name parts /\ x = 47%N :: join [47%N] parts.

  Definition plain_mappings (pm : pmod) : Prop :=
    wf pm /\ p_alias pm = None
    /\ (forall n x, plain_name n -> aliased M fullmatch expand pm n (Ok (Some x)) -> root_alias x)
    /\ (forall n pm' names, plain_name n -> Forall plain_name names -> below M fullmatch pm n pm' ->
          plainly M fullmatch expand pm' names).
End Plain.

(** Programs that refer to steps and decide by what they see of them, but do not
    catch errors. *)
Inductive ref_cmd : cmd -> Prop :=
| Rc_pinp : forall path, ref_cmd (CPinp path)
| Rc_pout : forall path, ref_cmd (CPout path)
| Rc_get : forall v a, ref_cmd (CGet v a).
Inductive only_refers : cprog -> Prop :=
| Or_end : forall r, only_refers (CEnd r)
| Or_do : forall c k, ref_cmd c -> (forall e, k (Failed e) = CEnd (Raise e)) -> (forall o, only_refers (k o)) ->
    only_refers (CDo c k).
