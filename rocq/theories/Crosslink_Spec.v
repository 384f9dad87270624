(** * Mappings in memory: specification *)
From Verif Require Import PyBase Json Paths_Model Pmod_Model Crosslink_Model.

Section All.
  Variable S : pmod -> nat -> Prop.
  (** The same keys in the same order, with objects that stand for the children *)
  Fixpoint all2 (s : list (pystr * pmod)) (l : list (pystr * nat)) : Prop :=
    match s, l with
    | [], [] => True
    | (k, c) :: s', (k', i) :: l' => k = k' /\ S c i /\ all2 s' l'
    | _, _ => False
    end.
End All.

(** An object stands for mappings; objects and dictionaries may be shared in any way. *)
Fixpoint shows (h : mem) (p : pmod) (i : nat) : Prop :=
  match p with
  | Pmod a s r =>
      exists ds dr ls lr, nth_error (m_objs h) i = Some (mkObj a ds dr) /\
        nth_error (m_dicts h) ds = Some ls /\ nth_error (m_dicts h) dr = Some lr /\
        all2 (shows h) s ls /\ all2 (shows h) r lr
  end.

(** No object and no dictionary was changed. *)
Definition kept (h h' : mem) : Prop :=
  (forall i o, nth_error (m_objs h) i = Some o -> nth_error (m_objs h') i = Some o) /\
  (forall d l, nth_error (m_dicts h) d = Some l -> nth_error (m_dicts h') d = Some l).

(** The dictionaries that are the default arguments are there, and empty. *)
Definition defaults_empty (h : mem) : Prop :=
  nth_error (m_dicts h) no_steps = Some [] /\ nth_error (m_dicts h) no_regxs = Some [].

(** Programs that build mappings, merge some made before, and map paths with them; what is
    built and merged is numbered.  A use of a number not yet made prints nothing. *)
Inductive op :=
| Build (tuples : list (option pystr * option pystr))
| Merge (a b : nat)
| MapPath (a : nat) (path : pystr).

Section Programs.
  Variable M : Type.
  Variable fullmatch : pystr -> pystr -> option M.
  Variable expand : M -> pystr -> res pystr.
  Variable compiles : pystr -> bool.

  (** What is printed when mappings are values *)
  Fixpoint run_values (env : list pmod) (prog : list op) : list (res pystr) :=
    match prog with
    | [] => []
    | Build tuples :: prog' =>
        match pmods_from_tuples compiles tuples with
        | Ok p => run_values (env ++ [p]) prog'
        | Raise e => Raise e :: run_values env prog'
        end
    | Merge a b :: prog' =>
        match nth_error env a, nth_error env b with
        | Some p, Some q => run_values (env ++ [merge p q]) prog'
        | _, _ => run_values env prog'
        end
    | MapPath a path :: prog' =>
        match nth_error env a with
        | Some p => map_path M fullmatch expand p path :: run_values env prog'
        | None => run_values env prog'
        end
    end.

  (** What is printed when they are objects in one memory *)
  Fixpoint run_in (fuel : nat) (h : mem) (env : list nat) (prog : list op) : list (res pystr) :=
    match prog with
    | [] => []
    | Build tuples :: prog' =>
        match pmods_from_tuples_in compiles h tuples with
        | (h, Ok i) => run_in fuel h (env ++ [i]) prog'
        | (h, Raise e) => Raise e :: run_in fuel h env prog'
        end
    | Merge a b :: prog' =>
        match nth_error env a, nth_error env b with
        | Some i, Some j =>
            match merge_in fuel h i j with
            | (h, Ok k) => run_in fuel h (env ++ [k]) prog'
            | (h, Raise e) => Raise e :: run_in fuel h env prog'
            end
        | _, _ => run_in fuel h env prog'
        end
    | MapPath a path :: prog' =>
        match nth_error env a with
        | Some i => let '(h, r) := map_path_in M fullmatch expand fuel h i path in r :: run_in fuel h env prog'
        | None => run_in fuel h env prog'
        end
    end.
End Programs.
