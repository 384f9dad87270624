(** * Property C133: the names of sheets that are listed *)
From Coq Require Import String Lia QArith.
From Verif Require Import PyBase PyBase_Proofs Json Coords_Model Coords_Spec Capture_Model Parse_Model Parse_Spec Lasso_Model Sheets_Model Sheets_Spec Sheets_Props.
From Verif Require Import OsPath_Model OsPath_Spec Url_Spec FileUrl_Model FileUrl_Spec FileUrl_Proofs FileUrl_Props ReadRect_Model ReadRect_Spec ReadRect_Props.
From Verif Require Import Dates_Model Dates_Spec Whole_Model Whole_Spec Whole_Proofs Whole_Props Listed_Model.

Section Listed.
  Variable lossy : list N -> pystr.
  Variable bad_host : pystr -> bool.
  Variable expandvars : pystr -> pystr.
  Variable expanduser_tilde : pystr -> pystr.
  Variable word_char : pychar -> bool.
  Variable set_list : list key -> list key.
  Variable disk : source -> option xbook.
  Variable to_json : xvalue -> json.
  Variable loads : pystr -> option json.
  Variable base_opts : dict.
  Variable filters : pystr -> option (Lasso_Model.filter xworld (nat * xl)).
  Variable folders : list pystr.

  Hypothesis Hset : distinct_members set_list.
  (** Sheets of a book have different names. *)
  Hypothesis Hdisk : forall s b, disk s = Some b -> NoDup (xb_names b).
  Hypothesis Hcwd : Forall name folders.
  Hypothesis Hcwd' : Forall (Forall scalar) folders.
  (** Filters open no sheets. *)
  Hypothesis Hfilt : forall n f l args kwds s, filters n = Some f -> world (fst (f_run f l args kwds s)) = world s.

  Notation cwd := (folder_path folders).
  Notation list_sheetnames := (list_sheetnames lossy bad_host expandvars expanduser_tilde word_char disk cwd).
  Notation opens_to := (opens_to lossy bad_host expandvars expanduser_tilde word_char disk cwd).
  Notation lasso_files := (lasso_files lossy bad_host expandvars expanduser_tilde word_char set_list disk to_json loads base_opts filters cwd).
  Notation lassos := (lassos lossy bad_host expandvars expanduser_tilde word_char set_list disk to_json loads base_opts filters cwd).
  Notation table t := (JList (map (fun row => JList (map to_json row)) t)).

  (** The names of workbooks that can be written in xl-refs are those of their files, in order. *)
  Theorem C133_file : forall p b, book_path (word word_char) cwd p -> disk (File (abspath cwd p)) = Some b ->
    list_sheetnames p = Ok (xb_names b).
  Proof.
    intros p b (L & _ & _ & O & H & LEN & X) D.
    destruct (C89_open lossy bad_host expandvars expanduser_tilde folders p false Hcwd Hcwd' L O H LEN) as (url & U & OB).
    pose proof (proj1 (C89_bid lossy bad_host expandvars expanduser_tilde word_char folders p false url Hcwd Hcwd' L O H LEN U) X) as BD.
    unfold Listed_Model.list_sheetnames. change (path2url bad_host expandvars expanduser_tilde cwd p false false) with (to_url bad_host expandvars expanduser_tilde cwd p) in U.
    rewrite U. cbn [rbind]. rewrite (url_stays bad_host expandvars expanduser_tilde folders Hcwd Hcwd' _ _ L U). cbn [rbind]. rewrite BD. cbn [rbind]. rewrite OB. cbn [rbind].
    now rewrite D.
  Qed.

  (** Whatever the path, each name listed opens the sheet in its place, *)
  Theorem C133_opens : forall p names base i n, list_sheetnames p = Ok names -> nth_error names i = Some n ->
    exists o, opens_to (Some p) (SStr n) base = Ok o /\ o_index o = i /\ sibling_names o = names.
  Proof.
    intros p names base i n H N. unfold Listed_Model.list_sheetnames in H. cbn [Whole_Model.opens_to]. unfold open_url.
    destruct (to_url _ _ _ _ p) as [url|e]; [|discriminate H]. cbn [rbind] in *. destruct (to_url _ _ _ _ url) as [u|e]; [|discriminate H]. cbn [rbind] in *.
    destruct (bid lossy bad_host word_char u) as [[k|]|e]; try discriminate H. cbn [rbind] in *.
    destruct (open_book lossy bad_host url) as [src|e]; [|discriminate H]. cbn [rbind] in *. destruct (disk src) as [b|] eqn:D; [|discriminate H].
    injection H as <-. unfold open_in_book. rewrite (open_named _ _ _ (Hdisk _ _ D) N). cbn [rbind]. eexists. split; [reflexivity|]. auto.
  Qed.
  (** what opens is among the listed ones, *)
  Theorem C133_opened : forall p sh base o, opens_to (Some p) sh base = Ok o ->
    list_sheetnames p = Ok (sibling_names o) /\ (o_index o < length (sibling_names o))%nat.
  Proof.
    intros p sh base o H. unfold Listed_Model.list_sheetnames, sibling_names. cbn [Whole_Model.opens_to] in H. unfold open_url in H.
    destruct (to_url _ _ _ _ p) as [url|e]; [|discriminate H]. cbn [rbind] in *. destruct (to_url _ _ _ _ url) as [u|e]; [|discriminate H]. cbn [rbind] in *.
    destruct (bid lossy bad_host word_char u) as [[k|]|e]; try discriminate H. cbn [rbind] in *.
    destruct (open_book lossy bad_host url) as [src|e]; [|discriminate H]. cbn [rbind] in *. destruct (disk src) as [b|] eqn:D; [|discriminate H].
    unfold open_in_book in H. destruct (open_by_name_or_index (xb_names b) sh) as [i|e] eqn:O; [|discriminate H]. cbn [rbind] in H. injection H as <-.
    cbn [o_book o_index]. split; [reflexivity|]. exact (open_bound _ _ _ O).
  Qed.
  (** and where listing fails, so does opening, in the same way. *)
  Theorem C133_fails : forall p e sh base, list_sheetnames p = Raise e -> opens_to (Some p) sh base = Raise e.
  Proof.
    intros p e sh base H. unfold Listed_Model.list_sheetnames in H. cbn [Whole_Model.opens_to]. unfold open_url.
    destruct (to_url _ _ _ _ p) as [url|x]; [|exact (f_equal _ (f_equal (fun r => match r with Raise y => y | _ => x end) H))]. cbn [rbind] in *.
    destruct (to_url _ _ _ _ url) as [u|x]; cbn [rbind] in *; [|injection H as ->; reflexivity].
    destruct (bid lossy bad_host word_char u) as [[k|]|x]; cbn [rbind] in *; try (injection H as ->; reflexivity).
    destruct (open_book lossy bad_host url) as [src|x]; cbn [rbind] in *; [|injection H as ->; reflexivity]. destruct (disk src) as [b|]; [discriminate H|injection H as ->; reflexivity].
  Qed.

  (** Rectangles of the sheets that are listed are theirs, if their names can be written in xl-refs. *)
  Theorem C133_rectangle : forall xs p names n i t1 t2 a c mine, Forall local_ref xs -> book_path (word word_char) cwd p ->
    list_sheetnames p = Ok names -> nth_error names i = Some n -> nameable n -> corner t1 a -> corner t2 c ->
    exists b, disk (File (abspath cwd p)) = Some b /\ xb_names b = names /\ (xb_1904 b = false -> sound_sheet (xb_sheet b i) ->
      exists s t, lasso_files mine (p ++ lit "#" ++ n ++ lit "!" ++ t1 ++ lit ":" ++ t2) no_context (State (lassos xs new_world) None) = (s, Ok (table t))
        /\ placed (xlrd_cell shows (xb_sheet b i)) (low a c) (high a c) t).
  Proof.
    intros xs p names n i t1 t2 a c mine F B H N NM T1 T2. destruct (disk (File (abspath cwd p))) as [b|] eqn:D.
    - rewrite (C133_file p b B D) in H. injection H as <-. exists b. split; [reflexivity|]. split; [reflexivity|]. intros E S.
      eapply C99_rectangle; eassumption.
    - exfalso. destruct B as (L & _ & _ & O & H' & LEN & X).
      destruct (C89_open lossy bad_host expandvars expanduser_tilde folders p false Hcwd Hcwd' L O H' LEN) as (url & U & OB).
      pose proof (proj1 (C89_bid lossy bad_host expandvars expanduser_tilde word_char folders p false url Hcwd Hcwd' L O H' LEN U) X) as BD.
      unfold Listed_Model.list_sheetnames in H. change (path2url bad_host expandvars expanduser_tilde cwd p false false) with (to_url bad_host expandvars expanduser_tilde cwd p) in U.
      rewrite U in H. cbn [rbind] in H. rewrite (url_stays bad_host expandvars expanduser_tilde folders Hcwd Hcwd' _ _ L U) in H. cbn [rbind] in H. rewrite BD in H. cbn [rbind] in H.
      rewrite OB in H. cbn [rbind] in H. rewrite D in H. discriminate.
  Qed.
End Listed.
Print Assumptions C133_file.
Print Assumptions C133_opens.
Print Assumptions C133_opened.
Print Assumptions C133_fails.
Print Assumptions C133_rectangle.

Definition listed (files : list (string * xbook)) (cwd : string) (p : pystr) : res (list pystr) :=
  list_sheetnames (fun _ => []) (fun _ => false) (fun p => p) (fun p => p) (fun _ => false) (sample_disk files) (lit cwd) p.
Example C133_example :
  listed both "/a" (lit "b.xls") = Ok [lit "In"; lit "Out"] /\ listed both "/a" (lit "../c/b.xls") = Ok [lit "In"] /\
  listed both "/a" (lit "x.xls") = Raise IOError /\ listed both "/a" (lit "b.txt") = Raise ValueError /\
  alone both "/a" (lit "b.xls#Out!A1") = Ok (JStr (lit "x")).
Proof. vm_compute. auto. Qed.

(** Of names that are listed, lassoing those with an exclamation mark fails, and those with a space before give
    another sheet. *)
Theorem C133_names_refuted : exists files n1 n2 n3, listed files "/a" (lit "b.xls") = Ok [n1; n2; n3] /\
  alone files "/a" (lit "b.xls#" ++ n1 ++ lit "!A1") = Raise SyntaxError /\
  alone files "/a" (lit "b.xls#" ++ n2 ++ lit "!A1") = alone files "/a" (lit "b.xls#" ++ n3 ++ lit "!A1") /\
  alone files "/a" (lit "b.xls#" ++ n3 ++ lit "!A1") = Ok (JNum 3) /\
  xs_at (xb_sheet (snd (hd ("/"%string, book1) files)) 1) 0 0 = num 2.
Proof.
  exists [("/a/b.xls", book_of [(lit "a!b", [[num 1]]); (lit " c", [[num 2]]); (lit "c", [[num 3]])])%string], (lit "a!b"), (lit " c"), (lit "c").
  vm_compute. auto.
Qed.
Print Assumptions C133_names_refuted.
