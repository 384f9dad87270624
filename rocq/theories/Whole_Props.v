(** * Property C99: the cells of files that are lassoed *)
From Coq Require Import String QArith.
From Verif Require Import PyBase PyBase_Proofs Json Coords_Model Coords_Spec Coords_Proofs Capture_Model Parse_Model Parse_Spec Lasso_Model Sheets_Model Sheets_Spec Sheets_Props.
From Verif Require Import OsPath_Model OsPath_Spec Url_Spec FileUrl_Model FileUrl_Spec FileUrl_Proofs ReadRect_Model ReadRect_Spec.
From Verif Require Import Dates_Model Dates_Spec Whole_Model Whole_Spec Whole_Proofs.

Section Whole.
  Variable lossy : list N -> pystr.
  Variable bad_host : pystr -> bool.
  Variable expandvars : pystr -> pystr.
  Variable expanduser_tilde : pystr -> pystr.
  Variable word_char : pychar -> bool.
  Variable set_list : list key -> list key.
  Variable disk : source -> option xbook.
  Variable to_json : xvalue -> json.
  Variable loads : pystr -> option json.
  Variable base_opts : dict.
  Variable filters : pystr -> option (Lasso_Model.filter xworld (nat * xl)).
  Variable folders : list pystr.

  Hypothesis Hset : distinct_members set_list.
  (** Sheets of a book have different names. *)
  Hypothesis Hdisk : forall s b, disk s = Some b -> NoDup (xb_names b).
  Hypothesis Hcwd : Forall name folders.
  Hypothesis Hcwd' : Forall (Forall scalar) folders.
  (** Filters open no sheets. *)
  Hypothesis Hfilt : forall n f l args kwds s, filters n = Some f -> world (fst (f_run f l args kwds s)) = world s.

  Notation cwd := (folder_path folders).
  Notation throw := (do_lasso filters base_opts loads (urldefrag bad_host)
    (fetch lossy bad_host expandvars expanduser_tilde word_char set_list disk cwd) states_of margins_of (read_of to_json)).
  Notation lasso_files := (lasso_files lossy bad_host expandvars expanduser_tilde word_char set_list disk to_json loads base_opts filters cwd).
  Notation lassos := (lassos lossy bad_host expandvars expanduser_tilde word_char set_list disk to_json loads base_opts filters cwd).
  Notation table t := (JList (map (fun row => JList (map to_json row)) t)).

  Lemma lassos_ok : forall xs, Forall local_ref xs ->
    coherent lossy bad_host expandvars expanduser_tilde word_char disk folders (lassos xs new_world).
  Proof. intros xs H. apply lassos_coherent; auto. apply coherent_new. Qed.

  Lemma lasso_of_throw : forall mine x ctx s s' l, throw x ctx s = (s', Ok (inl l)) ->
    exists s2, lasso_files mine x ctx s = (s2, Ok (l_values l)).
  Proof.
    intros mine x ctx s s' l E. unfold Whole_Model.lasso_files, lasso_values. rewrite E.
    destruct mine; cbn [close_all]; eexists; reflexivity.
  Qed.

  (** Whatever was lassoed before with the same factory, the rectangle of any two corners of any
      sheet of any book is that of the book's file. *)
  Theorem C99_rectangle : forall xs p b n i t1 t2 a c mine, Forall local_ref xs ->
    book_path (word word_char) cwd p -> disk (File (abspath cwd p)) = Some b -> xb_1904 b = false ->
    nth_error (xb_names b) i = Some n -> nameable n -> sound_sheet (xb_sheet b i) -> corner t1 a -> corner t2 c ->
    exists s t, lasso_files mine (p ++ lit "#" ++ n ++ lit "!" ++ t1 ++ lit ":" ++ t2) no_context (State (lassos xs new_world) None) = (s, Ok (table t))
      /\ placed (xlrd_cell shows (xb_sheet b i)) (low a c) (high a c) t.
  Proof.
    intros xs p b n i t1 t2 a c mine H B D _ N NM S T1 T2.
    destruct (throw_file lossy bad_host expandvars expanduser_tilde word_char set_list disk to_json loads base_opts filters folders Hset Hdisk Hcwd Hcwd'
      p b n i (t1 ++ lit ":" ++ t2) a (Some c) no_context (State (lassos xs new_world) None) (lassos_ok xs H)) as (s' & l & k & o & E & _ & _ & _ & _ & _ & t & V & P);
      try assumption.
    - split; [reflexivity|split; reflexivity].
    - apply Corners_two; assumption.
    - discriminate.
    - destruct (lasso_of_throw mine _ _ _ _ _ E) as (s2 & L). exists s2, t. split; [|exact P]. rewrite L, V. reflexivity.
  Qed.

  (** Single cells *)
  Theorem C99_cell : forall xs p b n i t a mine, Forall local_ref xs ->
    book_path (word word_char) cwd p -> disk (File (abspath cwd p)) = Some b -> xb_1904 b = false ->
    nth_error (xb_names b) i = Some n -> nameable n -> sound_sheet (xb_sheet b i) -> corner t a -> in_xsheet (xb_sheet b i) (fst a) (snd a) ->
    exists s v, lasso_files mine (p ++ lit "#" ++ n ++ lit "!" ++ t) no_context (State (lassos xs new_world) None) = (s, Ok (to_json v))
      /\ xlrd_cell shows (xb_sheet b i) (fst a) (snd a) v.
  Proof.
    intros xs p b n i t a mine H B D _ N NM S T I.
    destruct (throw_file lossy bad_host expandvars expanduser_tilde word_char set_list disk to_json loads base_opts filters folders Hset Hdisk Hcwd Hcwd'
      p b n i t a None no_context (State (lassos xs new_world) None) (lassos_ok xs H)) as (s' & l & k & o & E & _ & _ & _ & _ & _ & _ & v & V & P);
      try assumption.
    - split; [reflexivity|split; reflexivity].
    - apply Corners_one; assumption.
    - intros _. exact I.
    - destruct (lasso_of_throw mine _ _ _ _ _ E) as (s2 & L). exists s2, v. split; [|exact P]. rewrite L, V. reflexivity.
  Qed.

  (** Xl-refs without a file, found in the cells of a sheet (see [recurse_element]), are of
      the same file. *)
  Theorem C99_sibling : forall xs p b n i t a m j t1 t2 c d st nd base, Forall local_ref xs ->
    book_path (word word_char) cwd p -> disk (File (abspath cwd p)) = Some b -> xb_1904 b = false ->
    nth_error (xb_names b) i = Some n -> nameable n -> sound_sheet (xb_sheet b i) -> corner t a -> in_xsheet (xb_sheet b i) (fst a) (snd a) ->
    nth_error (xb_names b) j = Some m -> nameable m -> sound_sheet (xb_sheet b j) -> corner t1 c -> corner t2 d ->
    exists s l s' l' v, throw (p ++ lit "#" ++ n ++ lit "!" ++ t) no_context (State (lassos xs new_world) None) = (s, Ok (inl l)) /\
      throw (lit "#" ++ m ++ lit "!" ++ t1 ++ lit ":" ++ t2) (context_of (Location (l_sheet l) st nd base)) s = (s', Ok (inl l')) /\
      l_values l' = table v /\ placed (xlrd_cell shows (xb_sheet b j)) (low c d) (high c d) v.
  Proof.
    intros xs p b n i t a m j t1 t2 c d st nd base H B D _ N NM S T I N' NM' S' T1 T2.
    destruct (throw_file lossy bad_host expandvars expanduser_tilde word_char set_list disk to_json loads base_opts filters folders Hset Hdisk Hcwd Hcwd'
      p b n i t a None no_context (State (lassos xs new_world) None) (lassos_ok xs H)) as (s & l & k & o & E & C & SH & G & ST & OB & _);
      try assumption.
    - split; [reflexivity|split; reflexivity].
    - apply Corners_one; assumption.
    - intros _. exact I.
    - rewrite <- OB in *.
      destruct (throw_sibling lossy bad_host expandvars expanduser_tilde word_char set_list disk to_json loads base_opts filters folders Hset Hdisk Hcwd Hcwd'
        k o m j (t1 ++ lit ":" ++ t2) c (Some d) (context_of (Location (l_sheet l) st nd base)) s C) as (s' & l' & E' & v & V & P); try assumption.
      + split; [reflexivity|split; reflexivity].
      + reflexivity.
      + apply Corners_two; assumption.
      + discriminate.
      + exists s, l, s', l', v. split; [exact E|]. split; [exact E'|]. split; [exact V|exact P].
  Qed.
End Whole.
Print Assumptions C99_rectangle.
Print Assumptions C99_cell.
Print Assumptions C99_sibling.

(** ** Some books *)

Definition num (z : Z) : xcell := XCell XNumber (inject_Z z) [].
Definition txt (s : string) : xcell := XCell XText 0 (lit s).
Definition none : xcell := XCell XEmpty 0 [].
Definition sheet_of (rows : list (list xcell)) : xsheet :=
  XSheet (length rows) (length (hd [] rows)) (fun r c => nth c (nth r rows []) none).
Definition book_of (sheets : list (pystr * list (list xcell))) : xbook :=
  XBook (map fst sheets) (fun i => sheet_of (snd (nth i sheets ([], [])))) false.
Definition plain_json (v : xvalue) : json :=
  match v with VInt z => JNum z | VText s => JStr s | VBool b => JBool b | _ => JNull end.

Section Sample.
  Variable files : list (string * xbook).
  Definition sample_disk (s : source) : option xbook :=
    match s with
    | File f => match find (fun x => str_eqb (lit (fst x)) f) files with Some x => Some (snd x) | None => None end
    | Download _ => None
    end.
  Definition lassoed (cwd : string) (w : xworld) (x : pystr) : xworld * res json :=
    let (s, r) := lasso_files (fun _ => []) (fun _ => false) (fun p => p) (fun p => p) (fun _ => false) sample_set sample_disk plain_json
      (fun _ => None) [] (fun _ => None) (lit cwd) false x no_context (State w None) in (world s, r).
  Definition alone (cwd : string) (x : pystr) : res json := snd (lassoed cwd new_world x).
End Sample.

Definition book1 : xbook := book_of [(lit "In", [[num 1; txt "#Out!A1"]; [none; num 4]]); (lit "Out", [[txt "x"]])].
Definition book2 : xbook := book_of [(lit "In", [[num 9]])].
Definition both : list (string * xbook) := [("/a/b.xls", book1); ("/c/b.xls", book2)]%string.

Example C99_example :
  alone both "/a" (lit "b.xls#In!A1:B2") = Ok (JList [JList [JNum 1; JStr (lit "#Out!A1")]; JList [JNull; JNum 4]]) /\
  alone both "/c" (lit "../a/b.xls#In!c2:R1c2") = Ok (JList [JList [JStr (lit "#Out!A1"); JNull]; JList [JNum 4; JNull]]) /\
  (let (w, r1) := lassoed both "/a" new_world (lit "b.xls#Out!A1") in
   let (w, r2) := lassoed both "/a" w (lit "/a/b.xls#In!A1") in
   let (w, r3) := lassoed both "/a" w (lit "../c/b.xls#In!A1") in
   let (w, r4) := lassoed both "/a" w (lit "b.xls#In!A1") in
   [r1; r2; r3; r4] = [Ok (JStr (lit "x")); Ok (JNum 1); Ok (JNum 9); Ok (JNum 1)]).
Proof. vm_compute. auto. Qed.

(** The hypotheses hold of these. *)
Example C99_hypotheses :
  distinct_members sample_set /\ (forall s b, sample_disk both s = Some b -> NoDup (xb_names b)) /\
  Forall name [lit "a"] /\ folder_path [lit "a"] = lit "/a" /\
  book_path (word (fun _ => false)) (lit "/a") (lit "b.xls") /\ nameable (lit "In") /\ sound_sheet (xb_sheet book1 0) /\
  corner (lit "B2") (1, 1)%Z /\ corner (lit "R1c2") (0, 1)%Z /\ local_ref (lit "b.xls#Out!A1") /\ local_ref (lit "no ref").
Proof.
  split; [exact sample_set_members|].
  split. { intros [f|f] b E; [|discriminate E]. unfold sample_disk, both in E. cbn [find fst] in E.
           destruct (str_eqb (lit "/a/b.xls") f); [|destruct (str_eqb (lit "/c/b.xls") f)]; try discriminate E; injection E as <-; vm_compute; repeat constructor; cbn [In]; intuition discriminate. }
  split. { repeat constructor; try discriminate. vm_compute. intuition discriminate. }
  split; [reflexivity|].
  assert (L : local_path (lit "b.xls")).
  { split; [|split; [|split]].
    - apply Forall_forall. intros c I. vm_compute in I. cbn [In]. repeat (destruct I as [<-|I]; [lia|]). destruct I.
    - exists 98%N, (lit ".xls"). split; [reflexivity|lia].
    - intros a b E. exfalso. assert (I : In 58%N (lit "b.xls")) by (rewrite E; apply in_or_app; right; left; reflexivity).
      vm_compute in I. intuition discriminate.
    - intros r a b E. discriminate E. }
  assert (S : no_semicolon_end (lit "b.xls")).
  { intros r E. apply (f_equal (fun x => last x 0%N)) in E. change (lit ";") with [59%N] in E. rewrite last_last in E. discriminate E. }
  split.
  { split; [exact L|]. split; [split; vm_compute; intuition discriminate|]. split; [exact S|].
    split; [unfold of_folder; vm_compute; intuition discriminate|]. split; [vm_compute; intuition discriminate|].
    split; [vm_compute; lia|]. exists (lit "/a/b"), (lit "xls"), (lit "xls"), []. split; [reflexivity|]. split; [left; reflexivity|].
    split; [repeat constructor|]. intros c b' E. discriminate E. }
  split.
  { split; [split; [discriminate|intros c I; vm_compute in I; intuition; subst c; reflexivity]|]. split; [split; vm_compute; intuition discriminate|].
    split; [apply Forall_forall; intros c I; vm_compute in I; cbn [In]; repeat (destruct I as [<-|I]; [lia|]); destruct I|].
    intros c r E. injection E as <- _. reflexivity. }
  split.
  { split; [cbn; lia|]. split; [cbn; lia|]. intros r c (R & C). cbn in R, C.
    assert (r = 0 \/ r = 1)%Z as [ -> | -> ] by lia; (assert (c = 0 \/ c = 1)%Z as [ -> | -> ] by lia); (split; [discriminate|intros E; discriminate E]). }
  split. { apply (Corner_a1 (lit "B") (lit "2") 1 1).
           - split; [discriminate|]. intros c I. vm_compute in I. destruct I as [<-|[]]. reflexivity.
           - apply Names_S with (lit "A"); [constructor|]. apply (Next_last [] 65). lia.
           - exists 50%N, []. split; [reflexivity|]. split; [lia|]. intros c [].
           - reflexivity.
           - lia. }
  split. { apply (Corner_rc (chr "R") (chr "c") (lit "1") (lit "2") 0 1); try reflexivity; try lia.
           - exists 49%N, []. split; [reflexivity|]. split; [lia|]. intros c [].
           - exists 50%N, []. split; [reflexivity|]. split; [lia|]. intros c []. }
  split. { right. exists (lit "b.xls"), (lit "Out!A1"). split; [|split; [exact L|exact S]]. vm_compute. repeat (apply Pq_same; [discriminate|discriminate|]). constructor. }
  left. vm_compute. intuition discriminate.
Qed.

(** ** Beyond *)

(** Relative paths are remembered as they are written: in another folder they are those of the
    previous one. *)
Theorem C99_folder_refuted : exists files x v v', alone files "/c" x = Ok v /\
  v' <> v /\ snd (lassoed files "/c" (fst (lassoed files "/a" new_world x)) x) = Ok v'.
Proof.
  exists both, (lit "b.xls#In!A1"), (JNum 9), (JNum 1). split; [vm_compute; reflexivity|]. split; [discriminate|]. vm_compute. reflexivity.
Qed.
(** A semicolon at the end of the path is lost. *)
Theorem C99_semicolon_refuted : exists files, sample_disk files (File (lit "/a/b.xls;")) = Some book2 /\
  alone files "/a" (lit "b.xls;#In!A1") = Ok (JNum 1).
Proof. exists [("/a/b.xls", book1); ("/a/b.xls;", book2)]%string. split; vm_compute; reflexivity. Qed.
(** Sheets with typographic double-quotes or tabs in their names are not found. *)
Theorem C99_names_refuted : exists n n', forall n0, In n0 [n; n'] -> exists b, xb_names b = [n0] /\ sound_sheet (xb_sheet b 0) /\
  alone [("/a/b.xls", b)%string] "/a" (lit "b.xls#" ++ n0 ++ lit "!A1") = Raise ValueError.
Proof.
  exists (8220%N :: lit "x" ++ [8221%N]), (lit "x" ++ [9%N] ++ lit "y"). intros n0 I. exists (book_of [(n0, [[num 1]])]).
  split; [reflexivity|]. split.
  - split; [cbn; lia|]. split; [cbn; lia|]. intros r c (R & C). cbn in R, C. assert (r = 0)%Z as -> by lia. assert (c = 0)%Z as -> by lia.
    split; [discriminate|intros E; discriminate E].
  - destruct I as [<-|[<-|[]]]; vm_compute; reflexivity.
Qed.
(** Rectangles of sheets without cells have no rows. *)
Theorem C99_empty_refuted : exists b, xb_names b = [lit "In"] /\ xs_rows (xb_sheet b 0) = 0%nat /\
  alone [("/a/b.xls", b)%string] "/a" (lit "b.xls#In!A1:B2") = Ok (JList []) /\ ~ placed (xlrd_cell shows (xb_sheet b 0)) (0, 0)%Z (1, 1)%Z [].
Proof.
  exists (book_of [(lit "In", [])]). split; [reflexivity|]. split; [reflexivity|]. split; [vm_compute; reflexivity|]. intros (H & _). discriminate H.
Qed.
(** Lone cells beyond the limits of sheets fail, unlike the rectangles of them. *)
Theorem C99_beyond_refuted : exists t, alone both "/a" (lit "b.xls#In!" ++ t) = Raise IndexError /\
  alone both "/a" (lit "b.xls#In!" ++ t ++ lit ":" ++ t) = Ok (JList [JList [JNull]]).
Proof. exists (lit "C9"). split; vm_compute; reflexivity. Qed.
Print Assumptions C99_folder_refuted.
Print Assumptions C99_semicolon_refuted.
Print Assumptions C99_names_refuted.
Print Assumptions C99_empty_refuted.
Print Assumptions C99_beyond_refuted.
