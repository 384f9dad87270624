(** * What mappings mean, independently of the code *)
From Coq Require Import String.
From Verif Require Import PyBase Json JsonPointer_Spec Paths_Spec Pmod_Model.

(** Dict keys are unique, everywhere in the tree. *)
Inductive wf : pmod -> Prop :=
| Wf : forall a s r,
    NoDup (map fst s) -> NoDup (map fst r) ->
    (forall k c, In (k, c) s -> wf c) -> (forall k c, In (k, c) r -> wf c) ->
    wf (Pmod a s r).

(** [c] is the child of [p] under the name [k]; under the regex [k]. *)
Definition child (p : pmod) (k : pystr) (c : pmod) : Prop := In (k, c) (p_steps p).
Definition rchild (p : pmod) (k : pystr) (c : pmod) : Prop := In (k, c) (p_regxs p).

(** Being [b] overriding [a], key by key and recursively. *)
Inductive overrides : pmod -> pmod -> pmod -> Prop :=
| Ov : forall a b m,
    (* alias *)
    (forall x, p_alias b = Some x -> p_alias m = Some x) ->
    (p_alias b = None -> p_alias m = p_alias a) ->
    (* children by name: of both, of one side only *)
    (forall k ca cb, child a k ca -> child b k cb -> exists cm, child m k cm /\ overrides ca cb cm) ->
    (forall k ca, child a k ca -> (forall cb, ~ child b k cb) -> child m k ca) ->
    (forall k cb, child b k cb -> (forall ca, ~ child a k ca) -> child m k cb) ->
    (forall k cm, child m k cm -> (exists ca, child a k ca) \/ (exists cb, child b k cb)) ->
    (* children by regex *)
    (forall k ca cb, rchild a k ca -> rchild b k cb -> exists cm, rchild m k cm /\ overrides ca cb cm) ->
    (forall k ca, rchild a k ca -> (forall cb, ~ rchild b k cb) -> rchild m k ca) ->
    (forall k cb, rchild b k cb -> (forall ca, ~ rchild a k ca) -> rchild m k cb) ->
    (* order of the regexes: first those only in [a], then those of [b] *)
    (exists only_a,
        map fst (p_regxs m) = only_a ++ map fst (p_regxs b)
        /\ (forall k, In k only_a <-> In k (map fst (p_regxs a)) /\ ~ In k (map fst (p_regxs b)))
        /\ (forall k1 k2, (exists x y z, only_a = x ++ k1 :: y ++ k2 :: z) ->
              exists x y z, map fst (p_regxs a) = x ++ k1 :: y ++ k2 :: z)) ->
    overrides a b m.

(** The steps written in a text: separated by slashes, each one unescaped. *)
Definition steps_of (s : pystr) (ss : list pystr) : Prop :=
  exists raws, raws <> [] /\ (forall r, In r raws -> ~ In 47%N r) /\ s = join [47%N] raws
    /\ Forall2 unescapes raws ss.

(** The same, the final slash of a text longer than one character being ignored. *)
Inductive written_steps : pystr -> list pystr -> Prop :=
| Ws_folder : forall s ss, s <> [] -> steps_of s ss -> written_steps (s ++ [47%N]) ss
| Ws_other : forall s ss, (forall x, x <> [] -> s <> x ++ [47%N]) -> steps_of s ss ->
    written_steps s ss.

Section Regex.
  Variable M : Type.
  Variable fullmatch : pystr -> pystr -> option M.
  Variable expand : M -> pystr -> res pystr.

  Definition matches (r step : pystr) : Prop := exists m, fullmatch r step = Some m.

  (** The alias of a step: the one of the child with this very name, else that
      of the last regex that matches and has one, else none. *)
  Inductive aliased (p : pmod) (step : pystr) : res (option pystr) -> Prop :=
  | A_child : forall c a, child p step c -> p_alias c = Some a -> aliased p step (Ok (Some a))
  | A_regex : forall l1 r rp l2 m t,
      (forall c, child p step c -> p_alias c = None) ->
      p_regxs p = l1 ++ (r, rp) :: l2 -> fullmatch r step = Some m -> p_alias rp = Some t ->
      (forall r' rp', In (r', rp') l2 -> matches r' step -> p_alias rp' = None) ->
      aliased p step (match expand m t with Ok x => Ok (Some x) | Raise e => Raise e end)
  | A_none :
      (forall c, child p step c -> p_alias c = None) ->
      (forall r rp, rchild p r rp -> matches r step -> p_alias rp = None) ->
      aliased p step (Ok None).

  (** Something in [p] matches the step. *)
  Definition hits (p : pmod) (step : pystr) : Prop :=
    (exists c, child p step c) \/ (exists r rp, rchild p r rp /\ matches r step).

  (** The mappings to use below a step: the matching regexes in order, and then
      the child, each overriding the previous ones. *)
  Inductive overridden : pmod -> list pmod -> pmod -> Prop :=
  | Od_nil : forall p, overridden p [] p
  | Od_cons : forall p q ps m m', overrides p q m -> overridden m ps m' ->
      overridden p (q :: ps) m'.

  Inductive matching (step : pystr) : list (pystr * pmod) -> list pmod -> Prop :=
  | Mt_nil : matching step [] []
  | Mt_yes : forall r rp l ps, matches r step -> matching step l ps ->
      matching step ((r, rp) :: l) (rp :: ps)
  | Mt_no : forall r rp l ps, ~ matches r step -> matching step l ps ->
      matching step ((r, rp) :: l) ps.

  Inductive below (p : pmod) (step : pystr) : option pmod -> Prop :=
  | Be_none : ~ hits p step -> below p step None
  | Be_some : forall ps cs q qs m,
      matching step (p_regxs p) ps ->
      ((exists c, child p step c /\ cs = [c]) \/ ((forall c, ~ child p step c) /\ cs = [])) ->
      ps ++ cs = q :: qs -> overridden q qs m -> below p step (Some m).

  (** What replaces one step. *)
  Inductive replaced : option pystr -> pystr -> list pystr -> Prop :=
  | Rp_kept : forall step ss, written_steps step ss -> replaced None step ss
  | Rp_alias : forall a step ss, (forall a', a <> 46%N :: a') -> written_steps a ss ->
      replaced (Some a) step ss
  | Rp_dotted : forall a a' step ss, a = 46%N :: a' -> written_steps a ss ->
      replaced (Some a) step (step :: ss).

  (** Mapping step by step, descending by the original steps. *)
  Inductive mapped : option pmod -> list pystr -> list pystr -> Prop :=
  | Ma_nil : forall pm, mapped pm [] []
  | Ma_none : forall step steps ss rest, replaced None step ss -> mapped None steps rest ->
      mapped None (step :: steps) (ss ++ rest)
  | Ma_some : forall p a pm' step steps ss rest, aliased p step (Ok a) -> below p step pm' ->
      replaced a step ss -> mapped pm' steps rest -> mapped (Some p) (step :: steps) (ss ++ rest).

  (** No alias applies along the path. *)
  Inductive unmapped : option pmod -> list pystr -> Prop :=
  | Um_nil : forall pm, unmapped pm []
  | Um_none : forall steps, unmapped None steps
  | Um_some : forall p step steps, aliased p step (Ok None) ->
      (forall pm', below p step pm' -> unmapped pm' steps) -> unmapped (Some p) (step :: steps).
End Regex.

(** ** Declared tuples *)

(** A declared step: a name, or a regex. *)
Inductive dstep := DName (n : pystr) | DRegex (r : pystr).

Inductive dstep_of : pystr -> dstep -> Prop :=
| D_regex : forall r, dstep_of (126%N :: r) (DRegex r)
| D_name : forall n, (forall r, n <> 126%N :: r) -> dstep_of n (DName n).

(** A "from" text declares a list of steps. *)
Definition declares (f : pystr) (ds : list dstep) : Prop :=
  exists ss, steps_of f ss /\ Forall2 dstep_of ss ds.

(** Walking exactly along declared steps. *)
Inductive node_at : pmod -> list dstep -> pmod -> Prop :=
| Na_here : forall p, node_at p [] p
| Na_name : forall p n c ds q, child p n c -> node_at c ds q -> node_at p (DName n :: ds) q
| Na_regex : forall p r c ds q, rchild p r c -> node_at c ds q -> node_at p (DRegex r :: ds) q.

(** The tuples that count, as declared steps and target. *)
Inductive counted : list (option pystr * option pystr) -> list (list dstep * pystr) -> Prop :=
| Ct_nil : counted [] []
| Ct_keep : forall f t ts ds l, ~ (f = [] /\ t = []) -> declares f ds -> counted ts l ->
    counted ((Some f, Some t) :: ts) ((ds, t) :: l)
| Ct_blank : forall ts l, counted ts l -> counted ((Some [], Some []) :: ts) l
| Ct_none_f : forall t ts l, counted ts l -> counted ((None, t) :: ts) l
| Ct_none_t : forall f ts l, counted ts l -> counted ((f, None) :: ts) l.

(** Order of last mention: [r] is mentioned by a tuple that goes through it
    right after [ds]. *)
Definition mentions (ds : list dstep) (r : pystr) (dt : list dstep * pystr) : Prop :=
  exists more, fst dt = ds ++ DRegex r :: more.
Definition later_mentioned (l : list (list dstep * pystr)) (ds : list dstep) (r1 r2 : pystr) : Prop :=
  exists l1 dt l2, l = l1 ++ dt :: l2 /\ mentions ds r2 dt
    /\ forall dt', In dt' l2 -> ~ mentions ds r1 dt'.

Definition before (l : list pystr) (r1 r2 : pystr) : Prop := exists x y z, l = x ++ r1 :: y ++ r2 :: z.
