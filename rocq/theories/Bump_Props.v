(** * C90: bumping the version. *)
From Coq Require Import String.
From Verif Require Import PyBase PyBase_Proofs OsPath_Model.
From Verif Require Import Bump_Model Bump_Spec Bump_Proofs.

Definition file (w : world) (f : pystr) : option pystr := dget str_eqb (osp_normpath f) (files w).

(** A new process, that reads the two files of the script. *)
Definition fresh (w : world) (vfile rfile T R : pystr) : Prop :=
  memo w = [] /\ file w vfile = Some T /\ file w rfile = Some R /\ unix T /\ unix R /\
  osp_normpath vfile <> osp_normpath rfile.

(** A run that does not pretend leaves a version-file that declares the new
    version and the date of the run, and two files that differ from the former
    by replacements only; no other file is touched.  That holds for runs whose
    tests or commands fail, too.  The versions and dates end in a character
    that the labels do not have, the old version is no part of the old date,
    nor the old date of the new version. *)
Theorem C90_bumped : forall vfile rfile now tests code w T R v d n force a es w' r,
  fresh w vfile rfile T R ->
  declares vlabel T v -> declares dlabel T d ->
  fit v -> fit d -> fit n -> fit now -> ~ occurs v d -> ~ occurs d n ->
  n <> v \/ force = true ->
  bumpver vfile rfile now tests code (Some n) false force a w = (es, w', r) ->
  (exists T' T1 k1 k2, file w' vfile = Some T' /\
     declares vlabel T' n /\ declares dlabel T' now /\
     replaced v n T T1 k1 /\ replaced d now T1 T' k2) /\
  (exists R' R1 k1 k2, file w' rfile = Some R' /\
     replaced v n R R1 k1 /\ replaced d now R1 R' k2) /\
  (forall f, osp_normpath f <> osp_normpath vfile -> osp_normpath f <> osp_normpath rfile ->
     file w' f = file w f).
Proof.
  intros vfile rfile now tests code w T R v d n force a es w' r (M & ET & ER & UT & UR & Hne)
    Dv Dd Fv Fd Fn Fm O1 O2 Hn E.
  pose proof (bumped vfile rfile now tests code w T R v d n false force a eq_refl
                M ET UT ER UR Hne Dv Dd Fv Fd Fn Hn) as B.
  rewrite E in B. cbn [st fst snd] in B.
  unfold file in *. rewrite B. clear B E.
  destruct (declared_after T v d n now Dv Dd Fv Fd Fn Fm O1 O2) as [A1 A2].
  split; [|split].
  - exists (replace d now (replace v n T)), (replace v n T), (count v T), (count d (replace v n T)).
    repeat split; auto.
    + rewrite dget_dset_neq; [|exact str_eqb_eq|congruence].
      apply dget_dset_eq. exact str_eqb_eq.
    + apply replace_spec, fit_ne. exact Fv.
    + apply replace_spec, fit_ne. exact Fd.
  - exists (replace d now (replace v n R)), (replace v n R), (count v R), (count d (replace v n R)).
    repeat split.
    + apply dget_dset_eq. exact str_eqb_eq.
    + apply replace_spec, fit_ne. exact Fv.
    + apply replace_spec, fit_ne. exact Fd.
  - intros f H1 H2. rewrite !dget_dset_neq; try exact str_eqb_eq; congruence.
Qed.

(** A pretended run writes and executes nothing, whatever the files are. *)
Theorem C90_dry : forall vfile rfile now tests code new force a w es w' r,
  bumpver vfile rfile now tests code new true force a w = (es, w', r) ->
  (forall f, file w' f = file w f) /\
  (forall f t, ~ In (Wrote f t) es) /\ (forall c, ~ In (Executed c) es).
Proof.
  intros vfile rfile now tests code new force a w es w' r E.
  pose proof (dry_run vfile rfile now tests code new force a w) as [H1 H2].
  rewrite E in H1, H2. cbn [st evs fst snd] in *. rewrite Forall_forall in H2.
  split; [|split].
  - intros f. unfold file. rewrite H1. reflexivity.
  - intros f t H. exact (H2 _ H).
  - intros c H. exact (H2 _ H).
Qed.

(** Without a new version the version and the date are printed. *)
Theorem C90_print : forall vfile rfile now tests code dry force a w T R v d new,
  fresh w vfile rfile T R -> declares vlabel T v -> declares dlabel T d ->
  new = None \/ new = Some [] ->
  exists w', bumpver vfile rfile now tests code new dry force a w = ([Line v; Line d], w', inl tt) /\
    (forall f, file w' f = file w f).
Proof.
  intros vfile rfile now tests code dry force a w T R v d new (M & ET & _ & UT & _) Dv Dd Hn.
  destruct (printed vfile rfile now tests code dry force a w T v d new M ET UT Dv Dd Hn) as (w' & E & F).
  exists w'. split; [exact E|]. intros f. unfold file. rewrite F. reflexivity.
Qed.

(** The same version is refused, before anything happens, unless forced. *)
Theorem C90_same : forall vfile rfile now tests code dry a w T R v d,
  fresh w vfile rfile T R -> declares vlabel T v -> declares dlabel T d ->
  exists w' why, bumpver vfile rfile now tests code (Some v) dry false a w = ([], w', inr (Failed why)) /\
    (forall f, file w' f = file w f).
Proof.
  intros vfile rfile now tests code dry a w T R v d (M & ET & _ & UT & _) Dv Dd.
  destruct (same_version vfile rfile now tests code dry a w T v d M ET UT Dv Dd) as (w' & E & F).
  exists w', 169. split; [exact E|]. intros f. unfold file. rewrite F. reflexivity.
Qed.

(** Commands are executed after the tests have passed only, each announced just
    before, in the order of the plan and up to the first failure; a run ends
    well when all of them do. *)
Theorem C90_commands : forall vfile rfile now tests code n force a w T R v es w' r,
  fresh w vfile rfile T R -> declares vlabel T v -> n <> [] ->
  bumpver vfile rfile now tests code (Some n) false force a w = (es, w', r) ->
  let msg := lit "chore(ver): bump " ++ v ++ lit "-->" ++ strip_ver2_commonprefix v n in
  let both := [git_add [osp_normpath vfile; osp_normpath rfile]; git_commit msg] in
  let plan := match a with
              | Nothing => []
              | Commit => both
              | Tag m => both ++ [git_tag (lit "v" ++ n) m]
              end in
  (~ In Tested es /\ (forall c, ~ In (Executed c) es) /\ exists e, r = inr e) \/
  (exists pre don ok,
     tried code plan don ok /\
     ~ In Tested pre /\ (forall c, ~ In (Executed c) pre) /\
     es = pre ++ Tested ::
       (if tests then flat_map (fun c => [Line (lit "EXEC: " ++ format_syscmd c); Executed c]) don else []) /\
     (r = inl tt <-> tests = true /\ ok = true)).
Proof.
  intros vfile rfile now tests code n force a w T R v es w' r (M & ET & _ & UT & _) Dv Hn E.
  cbv zeta.
  assert (Hearly : forall pre, Forall early pre -> ~ In Tested pre /\ forall c, ~ In (Executed c) pre).
  { intros pre H. rewrite Forall_forall in H. split; [|intros c]; intros I; exact (H _ I). }
  destruct (commands vfile rfile now tests code n force a w T v es w' r M ET UT Dv Hn E)
    as [[H1 H2]|(pre & don & ok & Ees & Hp & Ht & Er)].
  - left. destruct (Hearly es H1). auto.
  - right. exists pre, don, ok. destruct (Hearly pre Hp) as [P1 P2].
    split; [destruct a; exact Ht|]. repeat split; auto.
    + destruct tests; [reflexivity|subst r; discriminate].
    + destruct tests; [|subst r; discriminate]. destruct ok; [reflexivity|subst r; discriminate].
    + intros [-> ->]. exact Er.
Qed.

(** The message of the commit tells the new version by whole components, when
    the versions share some, or do not even share their first character. *)
Theorem C90_message : forall cs x xs y ys,
  Forall component (x :: xs) -> Forall component (y :: ys) -> dotted cs <> [] ->
  x <> y \/ xs = [] \/ ys = [] ->
  strip_ver2_commonprefix (dotted (cs ++ x :: xs)) (dotted (cs ++ y :: ys)) = dotted (y :: ys).
Proof. exact strip_components. Qed.

Theorem C90_message_whole : forall a b v n, a <> b ->
  strip_ver2_commonprefix (a :: v) (b :: n) = b :: n.
Proof. exact strip_none. Qed.

(** Versions that share a beginning with no dot, but maybe at its first place,
    lose it: the message may tell a version that does not exist. *)
Theorem C90_message_cut : forall c p x y r r', component p -> x <> y ->
  strip_ver2_commonprefix ((c :: p) ++ x :: r) ((c :: p) ++ y :: r') = y :: r'.
Proof. exact strip_first. Qed.

(** The lines that announce commands tell them apart, if no argument is empty
    or has a quote. *)
Theorem C90_shown : forall a b,
  (forall w, In w (a ++ b) -> w <> [] /\ ~ In 34%N w) ->
  format_syscmd a = format_syscmd b -> a = b.
Proof.
  intros a b H. apply format_inj; apply Forall_forall; intros w I; apply H; apply in_or_app; auto.
Qed.

(** The former texts of the reports are aligned at the right. *)
Theorem C90_aligned : forall s, exists k,
  pad24 s = repeat 32%N k ++ s /\ length (pad24 s) = Nat.max 24 (length s).
Proof. exact padded24. Qed.

(** What is read out of the file is the first declaration of it. *)
Theorem C90_search : forall label s v, search_quoted label s = Some v <-> declares label s v.
Proof. exact search_iff. Qed.

(** The replacements that are counted and made are those of the text. *)
Theorem C90_replace : forall old new s, old <> [] -> replaced old new s (replace old new s) (count old s).
Proof. exact replace_spec. Qed.

(** ** What does not hold *)

Definition vf : pystr := lit "bin/../pandalone/_version.py".
Definition rf : pystr := lit "bin/../README.rst".
Definition nl : pystr := [10%N].
Definition vtext (v d : string) : pystr :=
  lit "# Version" ++ nl ++ lit "__version__ = """ ++ lit v ++ lit """  # PEP 440" ++ nl
  ++ lit "__updated__ = """ ++ lit d ++ lit """" ++ nl.
Definition start (T R : pystr) : world :=
  {| files := [(lit "pandalone/_version.py", T); (lit "README.rst", R)]; memo := [] |}.
Definition today : pystr := lit "2021-06-07 08:09:10".
Definition zero (_ : list pystr) : nat := 0.

(** A version that ends like another one changes the other one. *)
Theorem C90_words_refuted : exists w T R n es w',
  fresh w vf rf T R /\ declares vlabel T (lit "0.5.0") /\
  R = lit "needs lib 10.5.0" /\
  bumpver vf rf today true zero (Some n) false false Nothing w = (es, w', inl tt) /\
  file w' rf = Some (lit "needs lib 10.6.0").
Proof.
  exists (start (vtext "0.5.0" "2020-05-14 23:59") (lit "needs lib 10.5.0")).
  do 2 eexists. exists (lit "0.6.0"). do 2 eexists. split; [|split; [|split; [|split]]].
  - unfold fresh. split; [reflexivity|]. split; [vm_compute; reflexivity|].
    split; [vm_compute; reflexivity|]. split; [vm_compute; intuition discriminate|].
    split; [vm_compute; intuition discriminate|]. vm_compute. discriminate.
  - apply search_iff. vm_compute. reflexivity.
  - vm_compute. reflexivity.
  - vm_compute. reflexivity.
  - vm_compute. reflexivity.
Qed.

(** A version that is a part of the date breaks the date. *)
Theorem C90_date_refuted : exists w T R n es w' T',
  fresh w vf rf T R /\ declares vlabel T (lit "5") /\ fit n /\
  bumpver vf rf today true zero (Some n) false false Nothing w = (es, w', inl tt) /\
  file w' vf = Some T' /\ declares dlabel T' (lit "2020-06-14 23:69") /\ ~ declares dlabel T' today.
Proof.
  exists (start (vtext "5" "2020-05-14 23:59") []).
  do 2 eexists. exists (lit "6"). do 3 eexists.
  assert (D : declares dlabel (vtext "6" "2020-06-14 23:69") (lit "2020-06-14 23:69"))
    by (apply search_iff; vm_compute; reflexivity).
  split; [|split; [|split; [|split; [|split; [|split]]]]].
  - unfold fresh. split; [reflexivity|]. split; [vm_compute; reflexivity|].
    split; [vm_compute; reflexivity|]. split; [vm_compute; intuition discriminate|].
    split; [vm_compute; intuition discriminate|]. vm_compute. discriminate.
  - apply search_iff. vm_compute. reflexivity.
  - split; [vm_compute; intuition discriminate|]. exists [], 54%N.
    split; [reflexivity|]. split; vm_compute; intuition discriminate.
  - vm_compute. reflexivity.
  - instantiate (1 := vtext "6" "2020-06-14 23:69"). vm_compute. reflexivity.
  - exact D.
  - intros D'. pose proof (declares_fun _ _ _ _ D D') as X. vm_compute in X. discriminate X.
Qed.

(** A second run of the same process still prints the former version. *)
Theorem C90_again_refuted : exists w T R n es1 w1 es2 w2 T1,
  fresh w vf rf T R /\
  bumpver vf rf today true zero (Some n) false false Nothing w = (es1, w1, inl tt) /\
  file w1 vf = Some T1 /\ declares vlabel T1 n /\
  bumpver vf rf today true zero None false false Nothing w1 = (es2, w2, inl tt) /\
  ~ In (Line n) es2.
Proof.
  exists (start (vtext "0.5.0" "2020-05-14 23:59") []).
  do 2 eexists. exists (lit "0.6.0"). do 5 eexists.
  split; [|split; [|split; [|split; [|split]]]].
  - unfold fresh. split; [reflexivity|]. split; [vm_compute; reflexivity|].
    split; [vm_compute; reflexivity|]. split; [vm_compute; intuition discriminate|].
    split; [vm_compute; intuition discriminate|]. vm_compute. discriminate.
  - vm_compute. reflexivity.
  - vm_compute. reflexivity.
  - apply search_iff. vm_compute. reflexivity.
  - vm_compute. reflexivity.
  - vm_compute. intuition discriminate.
Qed.

(** The message may tell a version that is none of the two. *)
Theorem C90_message_refuted : exists v n,
  Forall component [v; n] /\ v <> n /\
  exists short, short <> n /\ short <> v /\
    strip_ver2_commonprefix (v ++ lit ".0") (n ++ lit ".0") = short ++ lit ".0".
Proof.
  exists (lit "10"), (lit "11"). split; [|split].
  - repeat constructor; vm_compute; intuition discriminate.
  - discriminate.
  - exists (lit "1"). split; [discriminate|]. split; [discriminate|]. reflexivity.
Qed.

(** An empty message of a tag is no tag, and no commit. *)
Theorem C90_tag_refuted : exists w es w',
  main vf rf today true zero (Some (lit "0.6.0")) false false false (Some []) w = (es, w', Done) /\
  In Tested es /\ forall c, ~ In (Executed c) es.
Proof.
  exists (start (vtext "0.5.0" "2020-05-14 23:59") []).
  assert (H : exists es w', main vf rf today true zero (Some (lit "0.6.0")) false false false (Some [])
     (start (vtext "0.5.0" "2020-05-14 23:59") []) = (es, w', Done) /\
     existsb (fun e => match e with Tested => true | _ => false end) es = true /\
     existsb (fun e => match e with Executed _ => true | _ => false end) es = false).
  { do 2 eexists. split; [vm_compute; reflexivity|]. split; vm_compute; reflexivity. }
  destruct H as (es & w' & E & H1 & H2). exists es, w'. split; [exact E|]. split.
  - apply existsb_exists in H1. destruct H1 as ([] & I & X); try discriminate X. exact I.
  - intros c I. assert (X : existsb (fun e => match e with Executed _ => true | _ => false end) es = true).
    { apply existsb_exists. exists (Executed c). auto. }
    congruence.
Qed.

(** The ends of lines of a file written elsewhere are changed all over. *)
Theorem C90_newlines_refuted : exists w es w',
  file w rf = Some (lit "a" ++ [13; 10]%N ++ lit "b") /\
  bumpver vf rf today true zero (Some (lit "0.6.0")) false false Nothing w = (es, w', inl tt) /\
  file w' rf = Some (lit "a" ++ [10]%N ++ lit "b").
Proof.
  exists (start (vtext "0.5.0" "2020-05-14 23:59") (lit "a" ++ [13; 10]%N ++ lit "b")).
  do 2 eexists. split; [vm_compute; reflexivity|]. split; vm_compute; reflexivity.
Qed.

(** What [main] ends with: all that was run went well, or it does not end normally. *)
Section Fine.
  Variables (tests : bool) (code : list pystr -> nat).
  Definition fine (e : event) : Prop :=
    match e with Tested => tests = true | Executed c => code c = 0 | _ => True end.
  Definition fares {A} (m : run A) : Prop := forall w es w' a, m w = (es, w', inl a) -> Forall fine es.
  Lemma fares_bind : forall A B (m : run A) (f : A -> run B), fares m -> (forall a, fares (f a)) -> fares (bind m f).
  Proof.
    intros A B m f Hm Hf w es w' b E. unfold bind in E. destruct (m w) as [[es1 w1] [a|e]] eqn:Em; [|discriminate].
    destruct (f a w1) as [[es2 w2] r] eqn:Ef. injection E as <- <- ->. apply Forall_app. split; [exact (Hm _ _ _ _ Em)|exact (Hf _ _ _ _ _ Ef)].
  Qed.
  Lemma fares_ret : forall A (a : A), fares (ret a).
  Proof. intros A a w es w' b E. injection E as <- <- <-. constructor. Qed.
  Lemma fares_stop : forall A e, fares (@stop A e).
  Proof. intros A e w es w' b E. discriminate. Qed.
  Lemma fares_line : forall s, fares (emit (Line s)).
  Proof. intros s w es w' b E. injection E as <- <- <-. repeat constructor. Qed.
  Lemma fares_each : forall A (f : A -> run unit) l, (forall a, fares (f a)) -> fares (each f l).
  Proof. intros A f l H. induction l as [|a l IH]; [apply fares_ret|]. apply fares_bind; auto. Qed.
  Lemma fares_read : forall f, fares (read_txtfile f).
  Proof.
    intros f w es w' b E. unfold read_txtfile in E. destruct (dget _ _ _); [injection E as <- <- <-; constructor|].
    destruct (dget _ _ _); [injection E as <- <- <-; constructor|discriminate].
  Qed.
  Lemma fares_do : forall dry c, fares (do_cmd code dry c).
  Proof.
    intros [|] c; [apply fares_line|]. apply fares_bind; [apply fares_line|]. intros _ w es w' b E. unfold exec_cmd, bind, emit in E.
    destruct (code c =? 0)%nat eqn:Ec; [|discriminate]. injection E as <- <- <-. repeat constructor. now apply PeanoNat.Nat.eqb_eq.
  Qed.
  Lemma fares_bumpver : forall vfile rfile now new dry force a, fares (bumpver vfile rfile now tests code new dry force a).
  Proof.
    intros vfile rfile now new dry force a. unfold bumpver. apply fares_bind.
    { apply fares_bind; [apply fares_read|]. intros t. destruct (search_quoted version_label t), (search_quoted updated_label t); auto using fares_ret, fares_stop. }
    intros (v & d). destruct new as [[|c n]|]; [apply fares_bind; auto using fares_line| |apply fares_bind; auto using fares_line].
    apply fares_bind; [destruct (str_eqb _ _), force; auto using fares_line, fares_stop, fares_ret|]. intros _. cbv zeta.
    apply fares_bind.
    { apply fares_each. intros f. apply fares_bind; [apply fares_read|]. intros t. destruct (substitute [(v, c :: n); (d, now)] t) as (t' & reps).
      apply fares_bind; [destruct dry; [apply fares_ret|]; intros w es w' b E; injection E as <- <- <-; repeat constructor|]. intros _.
      apply fares_bind; [apply fares_line|]. intros _. apply fares_each. intros r. apply fares_line. }
    intros _. apply fares_bind; [apply fares_line|]. intros _. apply fares_bind.
    { intros w es w' b E. unfold run_testcases, bind, emit in E. destruct tests eqn:Et; [|discriminate]. injection E as <- <- <-. repeat constructor. exact Et. }
    intros _. destruct a as [| |m]; [apply fares_ret|apply fares_each; intros; apply fares_do|].
    apply fares_bind; [apply fares_each; intros; apply fares_do|]. intros _. apply fares_do.
  Qed.
End Fine.
Lemma never_done : forall vfile rfile now tests code new dry force a w es w',
  bumpver vfile rfile now tests code new dry force a w <> (es, w', inr Done).
Proof.
  assert (B : forall A B (m : run A) (f : A -> run B), (forall w es w', m w <> (es, w', inr Done)) -> (forall a w es w', f a w <> (es, w', inr Done)) ->
    forall w es w', bind m f w <> (es, w', inr Done)).
  { intros A B m f Hm Hf w es w' E. unfold bind in E. destruct (m w) as [[es1 w1] [a|e]] eqn:Em.
    - destruct (f a w1) as [[es2 w2] r] eqn:Ef. injection E as _ _ ->. exact (Hf _ _ _ _ Ef).
    - injection E as _ _ ->. exact (Hm _ _ _ Em). }
  assert (R : forall A (a : A) w es w', ret a w <> (es, w', inr Done)) by (intros; discriminate).
  assert (L : forall e w es w', emit e w <> (es, w', inr Done)) by (intros; discriminate).
  assert (V : forall f w es w', read_txtfile f w <> (es, w', inr Done)).
  { intros f w es w' E. unfold read_txtfile in E. destruct (dget _ _ _); [discriminate|]. destruct (dget _ _ _); discriminate. }
  assert (Ea : forall A (f : A -> run unit) l, (forall a w es w', f a w <> (es, w', inr Done)) -> forall w es w', each f l w <> (es, w', inr Done)).
  { intros A f l H. induction l as [|a l IH]; [apply R|]. apply B; auto. }
  assert (D : forall code dry c w es w', do_cmd code dry c w <> (es, w', inr Done)).
  { intros code [|] c; [apply L|]. apply B; [apply L|]. intros _. apply B; [apply L|]. intros _ w es w'. destruct (_ =? _)%nat; discriminate. }
  intros vfile rfile now tests code new dry force a. unfold bumpver. apply B.
  { apply B; [apply V|]. intros t w es w'. destruct (search_quoted version_label t), (search_quoted updated_label t); discriminate. }
  intros (v & d). destruct new as [[|c n]|]; [apply B; auto| |apply B; auto].
  apply B; [destruct (str_eqb _ _), force; auto; discriminate|]. intros _. cbv zeta. apply B.
  { apply Ea. intros f. apply B; [apply V|]. intros t. destruct (substitute [(v, c :: n); (d, now)] t) as (t' & reps).
    apply B; [destruct dry; [apply R|discriminate]|]. intros _. apply B; [apply L|]. intros _. apply Ea. intros r. apply L. }
  intros _. apply B; [apply L|]. intros _. apply B.
  { apply B; [apply L|]. intros _ w es w'. destruct tests; discriminate. }
  intros _. destruct a as [| |m]; [apply R|apply Ea; intros; apply D|].
  apply B; [apply Ea; intros; apply D|]. intros _. apply D.
Qed.
Theorem C90_well : forall vfile rfile now tests code new dry force commit tag w es w',
  main vfile rfile now tests code new dry force commit tag w = (es, w', Done) ->
  (In Tested es -> tests = true) /\ (forall c, In (Executed c) es -> code c = 0).
Proof.
  intros vfile rfile now tests code new dry force commit tag w es w' E. unfold main in E.
  destruct (bumpver vfile rfile now tests code new dry force (tag_option commit tag) w) as [[es1 w1] [u|e]] eqn:Eb.
  - injection E as <- <-. pose proof (fares_bumpver tests code vfile rfile now new dry force (tag_option commit tag) w es1 w1 u Eb) as F. rewrite Forall_forall in F.
    split; [intros I; exact (F _ I)|intros c I; exact (F _ I)].
  - injection E as <- <- ->. exfalso. revert Eb. apply never_done.
Qed.

(** Lines may end as on any system: they are read with newlines alone.  (A lone carriage return before
    an empty line that ends with a newline is the same text as both together.) *)
Definition eol (e : pystr) : Prop := e = [10%N] \/ e = [13%N] \/ e = [13%N; 10%N].
Definition unbroken (p : pystr) : Prop := ~ In 10%N p /\ ~ In 13%N p.
Theorem C90_lines : forall ls z, Forall (fun l => unbroken (fst l) /\ eol (snd l)) ls -> unbroken z ->
  (forall a p b, ls <> a ++ (p, [13%N]) :: ([], [10%N]) :: b) ->
  universal_newlines (concat (map (fun l => fst l ++ snd l) ls) ++ z) = concat (map (fun l => fst l ++ [10%N]) ls) ++ z.
Proof.
  assert (P : forall p t, ~ In 13%N p -> universal_newlines (p ++ t) = p ++ universal_newlines t).
  { induction p as [|c p IH]; intros t H; [reflexivity|]. cbn [app universal_newlines].
    destruct (N.eqb_spec c 13) as [->|_]; [destruct H; now left|]. f_equal. apply IH. intros I. apply H. now right. }
  assert (C : forall t, (forall t', t <> 10%N :: t') -> universal_newlines (13%N :: t) = 10%N :: universal_newlines t).
  { intros [|d t] H; [reflexivity|]. cbn [universal_newlines]. rewrite N.eqb_refl. destruct (N.eqb_spec d 10) as [->|_]; [destruct (H t eq_refl)|reflexivity]. }
  intros ls z. induction ls as [|(p & e) ls IH]; intros F Z N; cbn [map concat app fst snd].
  - rewrite <- (app_nil_r z) at 1. rewrite P by (now destruct Z). simpl. now rewrite app_nil_r.
  - inversion F as [|x l ((Np & Np') & He) F']; subst. cbn [fst snd] in *. rewrite <- !app_assoc, P by exact Np'. f_equal.
    assert (IH' := IH F' Z (fun a q b E => N ((p, e) :: a) q b (f_equal (cons (p, e)) E))). destruct He as [->|[->| ->]].
    + cbn [app universal_newlines N.eqb Pos.eqb]. now rewrite IH'.
    + cbn [app]. rewrite C; [now rewrite IH'|]. intros t' E. destruct ls as [|(q & e') ls]; simpl in E.
      * destruct Z as (Z & _). apply Z. rewrite E. now left.
      * inversion F' as [|x l ((Nq & _) & He') _]; subst. cbn [fst snd] in *. destruct q as [|c q]; simpl in E.
        -- destruct He' as [->|[->| ->]]; try discriminate E. exact (N [] p ls eq_refl).
        -- injection E as -> _. apply Nq. now left.
    + cbn [app universal_newlines N.eqb Pos.eqb]. now rewrite IH'.
Qed.
Example C90_lines_example : universal_newlines (lit "a" ++ [13; 10]%N ++ lit "b" ++ [13]%N ++ [13]%N ++ lit "c" ++ [10]%N) = lit "a" ++ [10]%N ++ lit "b" ++ [10; 10]%N ++ lit "c" ++ [10]%N.
Proof. reflexivity. Qed.

(** ** Cases *)

Example C90_example :
  exists es w',
  main vf rf today true zero (Some (lit "0.6.0")) false false false (Some (lit "out now"))
    (start (vtext "0.5.0" "2020-05-14 23:59") (lit ":Release: 0.5.0" ++ nl ++ lit ":Date: 2020-05-14 23:59"))
  = (es, w', Done) /\
  file w' vf = Some (vtext "0.6.0" "2021-06-07 08:09:10") /\
  file w' rf = Some (lit ":Release: 0.6.0" ++ nl ++ lit ":Date: 2021-06-07 08:09:10") /\
  filter (fun e => match e with Line _ => true | _ => false end) es = map (fun s => Line (lit s)) [
    "pandalone/_version.py: ";
    "  1 x (                   0.5.0 --> 0.6.0)";
    "  1 x (        2020-05-14 23:59 --> 2021-06-07 08:09:10)";
    "README.rst: ";
    "  1 x (                   0.5.0 --> 0.6.0)";
    "  1 x (        2020-05-14 23:59 --> 2021-06-07 08:09:10)";
    "...now launching DocTCs...";
    "EXEC: git add pandalone/_version.py README.rst";
    "EXEC: git commit -m ""chore(ver): bump 0.5.0-->6.0""";
    "EXEC: git tag v0.6.0 -s -m ""out now""" ]%string.
Proof. do 2 eexists. split; [vm_compute; reflexivity|]. repeat split; vm_compute; reflexivity. Qed.

Example C90_example_fails :
  snd (main vf rf today true (fun c => if str_eqb (nth 1 c []) (lit "commit") then 1 else 0)
    (Some (lit "0.6.0")) false false true (Some (lit "out now"))
    (start (vtext "0.5.0" "2020-05-14 23:59") [])) = Failed 119.
Proof. vm_compute. reflexivity. Qed.

Example C90_example_missing :
  snd (main vf rf today true zero None false false true None (start (lit "__version__ = """"") [])) = Failed 62 /\
  snd (main vf rf today true zero None false false true None {| files := []; memo := [] |}) = Crashed IOError.
Proof. split; vm_compute; reflexivity. Qed.

Print Assumptions C90_bumped.
Print Assumptions C90_well.
Print Assumptions C90_lines.
Print Assumptions C90_dry.
Print Assumptions C90_print.
Print Assumptions C90_same.
Print Assumptions C90_commands.
Print Assumptions C90_message.
Print Assumptions C90_message_whole.
Print Assumptions C90_message_cut.
Print Assumptions C90_shown.
Print Assumptions C90_aligned.
Print Assumptions C90_search.
Print Assumptions C90_replace.
Print Assumptions C90_words_refuted.
Print Assumptions C90_date_refuted.
Print Assumptions C90_again_refuted.
Print Assumptions C90_message_refuted.
Print Assumptions C90_tag_refuted.
Print Assumptions C90_newlines_refuted.
