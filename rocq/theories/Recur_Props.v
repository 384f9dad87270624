(** * Property C108: texts of cells that refer to cells *)
From Coq Require Import String QArith.
From Verif Require Import PyBase PyBase_Proofs Json Coords_Model Coords_Spec Coords_Proofs Capture_Model Capture_Spec Capture_Proofs Capture_Props.
From Verif Require Import Parse_Model Parse_Spec Xlref_Proofs Parse_Props Lasso_Model Lasso_Spec Lasso_Proofs Ranger_Props Sheets_Model Sheets_Spec Sheets_Props.
From Verif Require Import OsPath_Model OsPath_Spec Url_Spec FileUrl_Model FileUrl_Spec FileUrl_Proofs FileUrl_Props ReadRect_Model ReadRect_Spec ReadRect_Props.
From Verif Require Import Dates_Model Dates_Spec Whole_Model Whole_Spec Whole_Proofs Whole_Props Meaning_Spec Meaning_Proofs Meaning_Props.
From Verif Require Import Recur_Model Recur_Spec Recur_Proofs.
Open Scope Z_scope.

Section Recur.
  Variable lossy : list N -> pystr.
  Variable bad_host : pystr -> bool.
  Variable expandvars : pystr -> pystr.
  Variable expanduser_tilde : pystr -> pystr.
  Variable word_char : pychar -> bool.
  Variable set_list : list key -> list key.
  Variable disk : source -> option xbook.
  Variable to_json : xvalue -> json.
  Variable loads : pystr -> option json.
  Variable base_opts : dict.
  Variable folders : list pystr.
  Variable has_pandas : bool.
  Variable others : pystr -> option (Lasso_Model.filter xworld (nat * xl)).

  Hypothesis Hset : distinct_members set_list.
  (** Sheets of a book have different names. *)
  Hypothesis Hdisk : forall s b, disk s = Some b -> NoDup (xb_names b).
  Hypothesis Hcwd : Forall name folders.
  Hypothesis Hcwd' : Forall (Forall scalar) folders.
  (** The other filters have the effects told on values, and open no sheets. *)
  Variable effect : pystr -> list json -> list (pystr * json) -> json -> json -> Prop.
  Hypothesis Hothers : forall name args kwds v v', effect name args kwds v v' -> exists f, others name = Some f /\
    forall l s, l_values l = v -> exists i, f_run f l args kwds s = (State (world s) i, Ok (inl (with_values v' l))).

  Notation cwd := (folder_path folders).
  Notation lasso_deep := (lasso_deep lossy bad_host expandvars expanduser_tilde word_char set_list disk to_json loads base_opts cwd has_pandas others).
  Notation lassos_deep := (lassos_deep lossy bad_host expandvars expanduser_tilde word_char set_list disk to_json loads base_opts cwd has_pandas others).
  Notation stands := (stands (word word_char) cwd disk to_json loads (on (lit "no_empty") base_opts) (has_pandas = true) effect).
  Notation endless := (endless (word word_char) cwd disk loads).
  Notation coherent := (coherent lossy bad_host expandvars expanduser_tilde word_char disk folders).

  Lemma lasso_of : forall m t v w, (exists n, (n <= m)%nat /\ stands n None None t v) -> coherent w ->
    exists s', lasso_deep m false t no_context (State w None) = (s', Ok v) /\ coherent (world s').
  Proof.
    intros m t v w (n & L & H) C.
    destruct (deep lossy bad_host expandvars expanduser_tilde word_char set_list disk to_json loads base_opts folders has_pandas others Hset Hdisk Hcwd Hcwd' effect Hothers
      n m None None t v no_context (State w None) L H) as (s' & l & E & V & C' & _); try reflexivity; [discriminate|exact C|].
    exists s'. split; [|exact C']. unfold Recur_Model.lasso_deep, lasso_files, lasso_values. rewrite E, V. reflexivity.
  Qed.

  (** Texts that stand for values are lassoed, one after the other with the same factory, when
      calls may be nested as deep as texts refer to texts. *)
  Theorem C108_texts : forall n m xs vs, (n <= m)%nat -> Forall2 (stands n None None) xs vs -> lassos_deep m xs new_world = map Ok vs.
  Proof.
    intros n m xs vs L H. pose proof (coherent_new lossy bad_host expandvars expanduser_tilde word_char disk folders) as C. revert C.
    generalize new_world as w. induction H as [|x v xs vs X H IH]; intros w C; [reflexivity|]. cbn [Recur_Model.lassos_deep map].
    destruct (lasso_of m x v w) as (s' & E & C'); [exists n; auto|exact C|]. rewrite E, (IH _ C'). reflexivity.
  Qed.

  (** They stand for one value. *)
  Theorem C108_one_value : forall n m t v w, stands n None None t v -> stands m None None t w -> v = w.
  Proof.
    intros n m t v w V W. pose proof (coherent_new lossy bad_host expandvars expanduser_tilde word_char disk folders) as C.
    destruct (lasso_of (max n m) t v new_world) as (s & E & _); [exists n; split; [lia|exact V]|exact C|].
    destruct (lasso_of (max n m) t w new_world) as (s' & E' & _); [exists m; split; [lia|exact W]|exact C|]. congruence.
  Qed.

  Hypothesis Htext : forall t, to_json (VText t) = JStr t.

  (** Texts that refer to each other without an end are refused, however deep calls may be nested;
      unless filters are lax: then one of these texts is given. *)
  Theorem C108_endless : forall T t m, endless T -> T None None t ->
    exists s' out, lasso_deep m false t no_context (State new_world None) = (s', out) /\
      (~ on (lit "lax") base_opts -> out = Raise ValueError) /\
      (on (lit "lax") base_opts -> exists at_ base t', out = Ok (JStr t') /\ T at_ base t').
  Proof.
    intros T t m H HT. pose proof (coherent_new lossy bad_host expandvars expanduser_tilde word_char disk folders) as C.
    destruct (without_end lossy bad_host expandvars expanduser_tilde word_char set_list disk to_json loads base_opts folders has_pandas others Hset Hdisk Hcwd Hcwd'
      (fun _ _ _ _ _ => False) (fun _ _ _ _ _ X => match X with end) Htext
      T H m None None t no_context (State new_world None) HT) as (s' & out & E & O1 & O2); try reflexivity; [discriminate|exact C|].
    unfold Recur_Model.lasso_deep, lasso_files, lasso_values. rewrite E. destruct out as [[l|j]|e]; do 2 eexists; (split; [reflexivity|]); split; intros X.
    - discriminate (O1 X).
    - destruct (O2 X) as (l' & a & b & t' & L & V & T'). injection L as ->. exists a, b, t'. rewrite V. auto.
    - discriminate (O1 X).
    - destruct (O2 X) as (l' & a & b & t' & L & _). discriminate L.
    - pose proof (O1 X) as Y. injection Y as ->. reflexivity.
    - destruct (O2 X) as (l' & a & b & t' & L & _). discriminate L.
  Qed.
End Recur.
Print Assumptions C108_texts.
Print Assumptions C108_one_value.
Print Assumptions C108_endless.

(** ** Some books *)

Definition sample_loads (t : pystr) : option json :=
  let recurse := JStr (lit "recurse") in
  if str_eqb t (lit """recurse""") then Some recurse
  else if str_eqb t (lit "[""recurse"", [], {""depth"": 1}]") then Some (JList [recurse; JList []; JDict [(lit "depth", JNum 1)]])
  else if str_eqb t (lit "[""recurse"", [[], null, null, 2]]") then Some (JList [recurse; JList [JList []; JNull; JNull; JNum 2]])
  else if str_eqb t (lit "[""recurse"", [[""pair""]]]") then Some (JList [recurse; JList [JList [JStr (lit "pair")]]])
  else if str_eqb t (lit "[""pipe"", [""recurse"", ""recurse""]]") then Some (JList [JStr (lit "pipe"); JList [recurse; recurse]])
  else if str_eqb t (lit "[""pipe"", [""pair"", [""recurse"", [[], ""x""]]]]") then
    Some (JList [JStr (lit "pipe"); JList [JStr (lit "pair"); JList [recurse; JList [JList []; JStr (lit "x")]]]])
  else if str_eqb t (lit "[""pipe"", [""pair"", [""recurse"", {""exclude"": [""x""]}]]]") then
    Some (JList [JStr (lit "pipe"); JList [JStr (lit "pair"); JList [recurse; JDict [(lit "exclude", JList [JStr (lit "x")])]]]])
  else None.
(** A filter that gives names to the two columns of a row *)
Definition pair_up (v : json) : option json :=
  match v with JList [JList [x; y]] => Some (JDict [(lit "x", x); (lit "y", y)]) | _ => None end.
Definition sample_others (name : pystr) : option (Lasso_Model.filter xworld (nat * xl)) :=
  if str_eqb name (lit "pair") then
    Some (Filter (fun l _ _ s => match pair_up (l_values l) with Some v => (s, Ok (inl (with_values v l))) | None => (s, Raise ValueError) end) None)
  else None.
Definition sample_effect (name : pystr) (args : list json) (kwds : list (pystr * json)) (v v' : json) : Prop := name = lit "pair" /\ pair_up v = Some v'.
Definition ask (t : string) : pystr := lit t ++ lit ":""recurse""".
Definition text (t : pystr) : xcell := XCell XText 0 t.
Definition linked : xbook := book_of
  [(lit "In", [[text (ask "#B1"); txt "c.xls#A1"]; [txt "plain"; txt "#Out!:"]; [num 7; txt "#R.C1"]]); (lit "Out", [[num 1; num 2]])].
Definition loop : xbook := book_of [(lit "S", [[text (ask "#B1"); text (ask "#A1")]])].
Definition library : list (string * xbook) :=
  [("/a/b.xls", linked); ("/a/c.xls", book_of [(lit "S", [[num 5]])]); ("/a/sub/b.xls", linked); ("/a/sub/c.xls", book_of [(lit "S", [[num 6]])]); ("/a/loop.xls", loop)]%string.
Definition deep_lassos (has_pandas : bool) (opts : dict) (m : nat) (xs : list pystr) : list (res json) :=
  lassos_deep (fun _ => []) (fun _ => false) (fun p => p) (fun p => p) (fun _ => false) sample_set (sample_disk library) plain_json sample_loads opts (lit "/a") has_pandas
    sample_others m xs new_world.

Example C108_example :
  deep_lassos false [] 3 [lit "b.xls#A1"; ask "b.xls#A1"; ask "b.xls#A1:B2"; ask "b.xls#A3:B3"; lit "b.xls#A1:B2:[""recurse"", [], {""depth"": 1}]"; lit "b.xls#A1:[""pipe"", [""recurse"", ""recurse""]]";
    lit "b.xls#A1:B2:[""recurse"", [[], null, null, 2]]"; lit "b.xls#B2:[""recurse"", [[""pair""]]]"; lit "b.xls#A1:B1:[""pipe"", [""pair"", [""recurse"", [[], ""x""]]]]";
    lit "b.xls#A1:B1:[""pipe"", [""pair"", [""recurse"", {""exclude"": [""x""]}]]]"]
  = [Ok (JStr (ask "#B1")); Ok (JNum 5); Ok (rows_of [[JNum 5; JNum 5]; [JStr (lit "plain"); rows_of [[JNum 1; JNum 2]]]]); Ok (rows_of [[JNum 7; JNum 7]]);
     Ok (rows_of [[JStr (ask "#B1"); JStr (lit "c.xls#A1")]; [JStr (lit "plain"); JStr (lit "#Out!:")]]); Ok (JNum 5);
     Ok (rows_of [[JStr (ask "#B1"); JStr (lit "c.xls#A1")]; [JStr (lit "plain"); JStr (lit "#Out!:")]]); Ok (JDict [(lit "x", JNum 1); (lit "y", JNum 2)]);
     Ok (JDict [(lit "x", JNum 5); (lit "y", JStr (lit "c.xls#A1"))]); Ok (JDict [(lit "x", JStr (ask "#B1")); (lit "y", JNum 5)])] /\
  deep_lassos true [] 3 [ask "b.xls#A2:B3"] = [Ok (rows_of [[JStr (lit "plain"); rows_of [[JNum 1; JNum 2]]]; [JNum 7; JStr (lit "plain")]])] /\
  deep_lassos false [] 1 [ask "b.xls#A1"] = [Raise ValueError] /\
  deep_lassos false [] 9 [ask "loop.xls#A1"] = [Raise ValueError] /\
  deep_lassos false [(lit "lax", JBool true)] 8 [ask "loop.xls#A1"] = [Ok (JStr (ask "#B1"))].
Proof. vm_compute. repeat (split; [reflexivity|]). reflexivity. Qed.

(** Relative paths in cells count from the folder of the process, not from that of the workbook. *)
Example C108_folder : deep_lassos false [] 3 [ask "sub/b.xls#B1"; lit "sub/c.xls#A1"] = [Ok (JNum 5); Ok (JNum 6)].
Proof. vm_compute. reflexivity. Qed.

(** The hypotheses hold of a cell that refers to the next one, and of a cell that refers to itself. *)
Lemma captured : forall s t f base e1 r, sound_sheet s -> frag_text t f -> meant_st f = Some e1 -> meant_nd f = None -> within (last_of s) e1 ->
  (forall b, base = Some b -> 0 <= fst b /\ 0 <= snd b) ->
  resolve_capture_rect (xlrd_states s) (fst (margin_coords (xlrd_states s)), last_of s) e1 None (f_exp f) base = r -> captures s f base r.
Proof.
  intros s t f base e1 r (S1 & S2 & S3) F E1 E2 W NB R.
  pose proof (C67_xlrd s S1 S2) as MG. pose proof (C67_xlrd_is_margin s _ _ MG) as IM.
  assert (UP : first_of (xlrd_states s) (fst (margin_coords (xlrd_states s)))).
  { destruct (Target_Proofs.some_full_dec (xlrd_states s)) as [Y|Y].
    - left. destruct (C19_tight_box _ Y) as (A1 & A2 & A3 & _). split; [intros q Q; destruct (A1 q Q); lia|]. auto.
    - right. split; [exact Y|]. rewrite (C19_empty _ Y). reflexivity. }
  exists (xlrd_states s), (fst (margin_coords (xlrd_states s))), e1. split; [intros q; apply C67_xlrd_full|]. split; [exact UP|]. split; [exact E1|].
  split; [exact W|]. split; [intros e X; congruence|].
  apply (C102_capture t f _ _ _ base e1 F E1 IM); auto; try (intros e X; congruence); try (rewrite E2; exact R).
  - destruct UP as [(_ & (q & Q & <-) & _)|(_ & ->)]; [destruct (full_nonneg _ _ Q); auto|cbn; lia].
  - destruct UP as [(_ & _ & (q & Q & <-))|(_ & ->)]; [destruct (full_nonneg _ _ Q); auto|cbn; lia].
Qed.

Definition tiny : xbook := book_of [(lit "S", [[txt "#B1"; num 7]])].
Definition own : xbook := book_of [(lit "S", [[text (ask "#A1")]])].
Definition first_cell (col : string) : edge := Edge (Cell (CStr (lit "1")) (CStr (lit col))) None None.
Definition asking : frag := Frag None (Some (first_cell "A")) false None None (Some (lit """recurse""")).
Definition not_asking : frag := Frag None (Some (first_cell "B")) false None None None.
Lemma asking_text : frag_text (ask "A1") asking /\ readable (ask "A1") asking /\ url_text (ask "A1").
Proof.
  split; [|split].
  - apply (Ft_none [] (ask "A1")); [intros c []| |reflexivity]. change (ask "A1") with ((lit "A" ++ lit "1") ++ (lit ":" ++ [] ++ lit """recurse""")).
    apply Bt_one; [|apply (Tt_filters [] 34%N (lit "recurse""")); [intros c []|reflexivity]].
    apply Et_plain. apply (Ct_a1 false (lit "A") (lit "1")); left.
    + split; [discriminate|]. intros c I. vm_compute in I. destruct I as [<-|[]]. reflexivity.
    + exists 49%N, []. split; [reflexivity|]. split; [lia|]. intros c [].
  - intros a b E. exfalso. assert (I : In (chr "!") (ask "A1")) by (rewrite E; apply in_or_app; right; left; reflexivity). vm_compute in I. intuition discriminate.
  - split; [discriminate|]. split; [split; vm_compute; intuition discriminate|]. apply Forall_forall. intros c I. vm_compute in I. cbn [In]. intuition; subst c; discriminate.
Qed.
Lemma not_asking_text : frag_text (lit "B1") not_asking /\ readable (lit "B1") not_asking /\ url_text (lit "B1").
Proof.
  split; [|split].
  - apply (Ft_none [] (lit "B1")); [intros c []| |reflexivity]. change (lit "B1") with ((lit "B" ++ lit "1") ++ []).
    apply Bt_one; [|constructor]. apply Et_plain. apply (Ct_a1 false (lit "B") (lit "1")); left.
    + split; [discriminate|]. intros c I. vm_compute in I. destruct I as [<-|[]]. reflexivity.
    + exists 49%N, []. split; [reflexivity|]. split; [lia|]. intros c [].
  - intros a b E. exfalso. assert (I : In (chr "!") (lit "B1")) by (rewrite E; apply in_or_app; right; left; reflexivity). vm_compute in I. intuition discriminate.
  - split; [discriminate|]. split; [split; vm_compute; intuition discriminate|]. apply Forall_forall. intros c I. vm_compute in I. cbn [In]. intuition; subst c; discriminate.
Qed.
Definition recurse_call : call_spec := CallSpec (lit "recurse") [] [].
Lemma asks : filters_of (JStr (lit "recurse")) None (Some recurse_call).
Proof. apply Fo_other; [reflexivity|]. right. split; [intros [X|[X|[X|[X|[X|X]]]]]; discriminate X|]. exists recurse_call. split; [reflexivity|constructor]. Qed.
Lemma first_within : forall dn col, In col ["A"; "B"]%string -> 0 <= fst dn -> 0 <= snd dn -> within dn (first_cell col).
Proof.
  intros dn col I D1 D2. assert (P1 : py_int (lit "1") = Some 1) by reflexivity.
  split; intros z [Z|(t & Z & PI)]; try discriminate Z; injection Z as <-.
  - rewrite P1 in PI. assert (1 = - z) by congruence. lia.
  - destruct I as [<-|[<-|[]]]; vm_compute in PI; discriminate PI.
Qed.
Lemma sound_row : forall b n, (0 < n <= 2)%nat -> xs_rows (xb_sheet b 0) = 1%nat -> xs_cols (xb_sheet b 0) = n ->
  (forall c, 0 <= c < Z.of_nat n -> In (x_type (xcell_at (xb_sheet b 0) 0 c)) [XText; XNumber]) -> sound_sheet (xb_sheet b 0) /\ sharp_sheet (xb_sheet b 0).
Proof.
  intros b n N R C H. assert (X : forall r c, in_xsheet (xb_sheet b 0) r c -> In (x_type (xcell_at (xb_sheet b 0) r c)) [XText; XNumber]).
  { intros r c (I & J). rewrite R in I. rewrite C in J. assert (r = 0) as -> by lia. apply H. exact J. }
  split.
  - split; [lia|]. split; [lia|]. intros r c I. destruct (X r c I) as [Y|[Y|[]]]; split; try (rewrite <- Y; discriminate); intros Z; rewrite Z in Y; discriminate Y.
  - intros r c I D. destruct (X r c I) as [Y|[Y|[]]]; rewrite D in Y; discriminate Y.
Qed.
Lemma at_file : forall bk, refers (word (fun _ => false)) (lit "/a") (sample_disk [("/a/b.xls", bk)]%string) None (lit "b.xls") None bk 0 <-> xb_names bk <> [].
Proof.
  intros bk. destruct C99_hypotheses as (_ & _ & _ & _ & B & _). split.
  - intros [(_ & D & (_ & N))|(X & _)]; [exact N|discriminate X].
  - intros N. left. split; [exact B|]. split; [reflexivity|]. split; [reflexivity|exact N].
Qed.

Notation sample_stands bk := (stands (word (fun _ => false)) (lit "/a") (sample_disk [("/a/b.xls", bk)]%string) plain_json sample_loads False False sample_effect).
Example C108_hypotheses : sample_stands tiny 1 None None (ask "b.xls#A1") (JNum 7) /\
  (exists T, endless (word (fun _ => false)) (lit "/a") (sample_disk [("/a/b.xls", own)]%string) sample_loads T /\ T None None (ask "b.xls#A1")) /\
  (forall name args kwds v v', sample_effect name args kwds v v' -> exists f, sample_others name = Some f /\
    forall l s, l_values l = v -> exists i, f_run f l args kwds s = (State (world s) i, Ok (inl (with_values v' l)))).
Proof.
  destruct asking_text as (A1 & A2 & A3). destruct not_asking_text as (B1 & B2 & B3).
  assert (KN : known recurse_call) by (split; [cbn; lia|intros k v []]).
  assert (GV : forall i n, given recurse_call i n None) by (intros i n; split; [cbn; lia|reflexivity]).
  split; [|split].
  - assert (SS : sound_sheet (xb_sheet tiny 0) /\ sharp_sheet (xb_sheet tiny 0)).
    { apply (sound_row tiny 2); try reflexivity; [lia|]. intros c H. assert (c = 0 \/ c = 1) as [ -> | -> ] by lia; cbn; auto. }
    destruct SS as (S1 & S2).
    exists (tiny, 0%nat), (Some (0, 0)), (lit "b.xls"), (ask "A1"), asking, (Ok ((0, 0), None)), (JStr (lit "#B1")). split; [reflexivity|]. repeat (split; [assumption|]).
    split. { split; [apply at_file; discriminate|]. split; [reflexivity|]. repeat (split; [assumption|]).
      split. { apply (captured _ (ask "A1") asking None (first_cell "A")); try assumption; try reflexivity; [|discriminate]. apply first_within; cbn; auto; lia. }
      split; [unfold in_xsheet; cbn; lia|]. exists (VText (lit "#B1")). split; [reflexivity|]. left. split; [unfold in_xsheet; cbn; lia|]. split; [intros [X|X]; discriminate X|]. exact (Shows_text (txt "#B1") eq_refl). }
    split; [reflexivity|].
    right. exists (lit """recurse"""), (JStr (lit "recurse")), (Some recurse_call). split; [reflexivity|]. split; [reflexivity|]. split; [exact asks|].
    right. right. split; [reflexivity|]. split; [exact KN|]. exists None, None, None, None, [], [], []. split; [apply GV|]. split; [reflexivity|]. split; [apply GV|]. split; [reflexivity|].
    split; [apply GV|]. split; [reflexivity|]. split; [apply GV|]. apply Sp_text; [intros []|].
    exists (tiny, 0%nat), (Some (0, 1)), (JNum 7). split; [|constructor].
    exists [], (lit "B1"), not_asking, (Ok ((0, 1), None)), (JNum 7). split; [reflexivity|]. repeat (split; [assumption|]).
    split. { split. { right. split; [reflexivity|]. exists 0%nat. split; reflexivity. } split; [reflexivity|]. repeat (split; [assumption|]).
      split. { apply (captured _ (lit "B1") not_asking _ (first_cell "B")); try assumption; try reflexivity; [apply first_within; cbn; auto; lia|]. intros b X. injection X as <-. cbn. lia. }
      split; [unfold in_xsheet; cbn; lia|]. exists (VInt 7). split; [reflexivity|]. left. split; [unfold in_xsheet; cbn; lia|]. split; [intros [X|X]; discriminate X|]. exact (Shows_int (num 7) 7 eq_refl (Qeq_refl _)). }
    split; [reflexivity|]. left. split; reflexivity.
  - assert (SS : sound_sheet (xb_sheet own 0) /\ sharp_sheet (xb_sheet own 0)).
    { apply (sound_row own 1); try reflexivity; [lia|]. intros c H. assert (c = 0) as -> by lia; cbn; auto. }
    destruct SS as (S1 & S2).
    exists (fun at_ base t => (at_ = None /\ base = None /\ t = ask "b.xls#A1") \/ (at_ = Some (own, 0%nat) /\ base = Some (0, 0) /\ t = ask "#A1")).
    split; [|left; auto]. intros at_ base t H.
    exists (match at_ with None => lit "b.xls" | Some _ => [] end), (ask "A1"), asking, own, 0%nat, (0, 0), (ask "#A1"), (lit """recurse"""), (JStr (lit "recurse")), recurse_call.
    split; [destruct H as [( -> & _ & ->)|( -> & _ & ->)]; reflexivity|]. repeat (split; [assumption|]).
    split. { destruct H as [( -> & _)|( -> & _)]; [apply at_file; discriminate|]. right. split; [reflexivity|]. exists 0%nat. split; reflexivity. }
    split; [reflexivity|]. repeat (split; [assumption|]).
    split. { apply (captured _ (ask "A1") asking _ (first_cell "A")); try assumption; try reflexivity.
      - apply first_within; cbn; auto; lia.
      - intros b X. destruct H as [(_ & -> & _)|(_ & -> & _)]; [discriminate X|injection X as <-; cbn; lia]. }
    split; [unfold in_xsheet; cbn; lia|]. split. { left. split; [unfold in_xsheet; cbn; lia|]. split; [intros [X|X]; discriminate X|]. exact (Shows_text (text (ask "#A1")) eq_refl). }
    split; [reflexivity|]. split; [reflexivity|]. split; [exact asks|]. split; [|right; auto].
    split; [reflexivity|]. split; [exact KN|]. split; [intros (v & [])|]. exists None, None, None, None, [], []. split; [apply GV|]. split; [reflexivity|]. split; [apply GV|]. split; [reflexivity|].
    split; [apply GV|]. split; [reflexivity|]. split; [apply GV|intros []].
  - intros name args kwds v v' ( -> & E). eexists. split; [reflexivity|]. intros l s V. exists (inter s). cbn [f_run]. rewrite V, E. destruct s; reflexivity.
Qed.

(** Arguments by position, then by name *)
Example C108_arguments : let c := CallSpec (lit "recurse") [JList [JStr (lit "pair")]; JStr (lit "x")] [(lit "lax", JBool true); (lit "depth", JNum 2)] in
  known c /\ (exists j, given c 0 "filters" j /\ calls_told j [CallSpec (lit "pair") [] []]) /\ (exists j, given c 1 "include" j /\ keys_told j [lit "x"]) /\
  given c 2 "exclude" None /\ (exists j, given c 3 "depth" j /\ stops j 2 /\ ~ stops j 1) /\
  ~ known (CallSpec (lit "recurse") [JList []] [(lit "filters", JList [])]).
Proof.
  split. { split; [cbn; lia|]. intros k v [E|[E|[]]]; injection E as <- <-; [left; reflexivity|right]. exists 3%nat, "depth"%string. cbn. auto. }
  split. { exists (Some (JList [JStr (lit "pair")])). split; [left; reflexivity|]. repeat constructor. }
  split. { exists (Some (JStr (lit "x"))). split; [left; reflexivity|]. right. split; [discriminate|reflexivity]. }
  split. { split; [cbn; lia|reflexivity]. }
  split. { exists (Some (JNum 2)). split; [right; split; [cbn; lia|reflexivity]|]. split; [reflexivity|cbn; lia]. }
  intros KN. destruct KN as [_ K]. cbn [cs_kwds cs_args length] in K. destruct (K (lit "filters") (JList []) (or_introl eq_refl)) as [E|(i & n & L & E & X)]; [discriminate E|].
  destruct i as [|[|[|[|i]]]]; cbn in L, E; try lia; try (destruct i; discriminate E); injection E as <-; discriminate X.
Qed.
