(** * What a sheet remembers: what is to hold *)
From Verif Require Import PyBase Coords_Model Capture_Model Capture_Spec ReadRect_Model Cache_Model.
Open Scope Z_scope.

Section Spec.
  Context {V : Type}.

  (** [m] tells which cells of [a] are not empty. *)
  Definition marks (a : array V) (m : mat) : Prop :=
    rows m = a_rows a /\ cols m = a_cols a /\
    forall r c, (r < a_rows a)%nat -> (c < a_cols a)%nat -> (at_ m r c = true <-> exists v, a_at a r c = Some v).
  (** [b] is the smallest rectangle with all the full cells, or the first cell when there are none. *)
  Definition fits (m : mat) (b : coords * coords) : Prop :=
    (exists p, full m p) /\ bounding_box m (fst b) (snd b) \/ (forall p, ~ full m p) /\ b = ((0, 0), (0, 0)).
  Definition no_cells (a : array V) : Prop := a_rows a = O \/ a_cols a = O.

  (** An answer that tells of [a]; readings are not concerned. *)
  Definition tells (a : array V) (x : answer (reading V)) : Prop :=
    match x with
    | States (Ok m) => marks a m
    | Margins (Ok b) => exists m, marks a m /\ fits m b
    | States (Raise _) | Margins (Raise _) => False
    | Rect _ | Silence => True
    end.
  (** An answer that tells that there are no cells *)
  Definition refuses (x : answer (reading V)) : Prop :=
    match x with
    | States r => r = Raise EmptyCapture
    | Margins r => r = Raise EmptyCapture
    | Rect _ | Silence => True
    end.
End Spec.

Section Events.
  Context {K : Type}.
  Definition asks (e : event K) : Prop := e = AskStates \/ e = AskMargins.
  (** Nothing wrapped changes; nobody writes on the states given. *)
  Definition steady (l : list (event K)) : Prop := forall k, ~ In (Change k) l.
  Definition clean (l : list (event K)) : Prop := forall m, ~ In (Scribble m) l.
End Events.
