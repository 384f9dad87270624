(** * Property C109: lassoing files that change *)
From Coq Require Import String QArith.
From Verif Require Import PyBase PyBase_Proofs Json Coords_Model Capture_Model Parse_Model Parse_Spec Lasso_Model Sheets_Model Sheets_Spec Sheets_Props.
From Verif Require Import OsPath_Model OsPath_Spec Url_Spec FileUrl_Model FileUrl_Spec FileUrl_Proofs FileUrl_Props ReadRect_Model.
From Verif Require Import Dates_Model Whole_Model Whole_Spec Whole_Proofs Whole_Props Meaning_Spec Meaning_Props Change_Model Change_Spec Change_Proofs.

Section Change.
  Variable lossy : list N -> pystr.
  Variable bad_host : pystr -> bool.
  Variable expandvars : pystr -> pystr.
  Variable expanduser_tilde : pystr -> pystr.
  Variable word_char : pychar -> bool.
  Variable set_list : list key -> list key.
  Variable to_json : xvalue -> json.
  Variable loads : pystr -> option json.
  Variable base_opts : dict.
  Variable filters : pystr -> option (Lasso_Model.filter xworld (nat * xl)).
  Variable folders : list pystr.

  Hypothesis Hset : distinct_members set_list.
  Hypothesis Hcwd : Forall name folders.
  Hypothesis Hcwd' : Forall (Forall scalar) folders.
  (** Filters open no sheets. *)
  Hypothesis Hfilt : forall n f l args kwds s, filters n = Some f -> world (fst (f_run f l args kwds s)) = world s.

  Notation cwd := (folder_path folders).
  Notation history := (history lossy bad_host expandvars expanduser_tilde word_char set_list to_json loads base_opts filters cwd).
  Notation now := (now lossy bad_host expandvars expanduser_tilde word_char set_list to_json loads base_opts filters cwd).
  Notation book_path := (book_path (word word_char) cwd).

  (** Each lasso without filters gives what a new factory would have given at some moment up to then.
      For the same sheet of a file, by paths that lead the same way, these moments go forward. *)
  Theorem C109_forward : forall h, Forall (fun m : moment => unique_names (fst m) /\ local_ref (snd m)) h ->
    exists ms, seen_at now (fun x => exists p n, refers_to x p n) h (history h new_world) ms /\
      forward (fun x y => exists p q n, refers_to x p n /\ refers_to y q n /\ same_way p q) h (history h new_world) ms.
  Proof.
    intros h H.
    destruct (run lossy bad_host expandvars expanduser_tilde word_char set_list to_json loads base_opts filters folders Hset Hcwd Hcwd' Hfilt
      h [] [] new_world (dated_new _ _ _ _ _ _ []) ltac:(constructor) H) as (ms & M1 & M2 & M3 & M4 & _).
    exists ms. split.
    - split; [exact M2|]. split; [exact M1|]. intros i d x m E1 E2. destruct (M3 i d x m E1 E2) as (L & X). split; [exact L|].
      intros (p & n & R). destruct (X p n R) as (d' & X1 & X2). cbn [app] in X1.
      destruct (nth_error h m) as [[d2 y]|] eqn:Y; [|apply nth_error_None in Y; rewrite (proj2 (nth_error_None _ _)) in X1 by (rewrite map_length; exact Y); discriminate X1].
      rewrite (map_nth_error fst _ _ Y) in X1. injection X1 as <-. exists d2, y. auto.
    - intros i j di dj xi xj mi mj v L Q1 Q2 (p & q & n & R1 & R2 & W) Q3 Q4 Q5. refine (M4 i j di dj xi xj mi mj v L Q1 Q2 _ Q3 Q4 Q5).
      assert (L1 : local_path p) by (destruct R1 as (t & f & _ & L1 & _); exact L1).
      assert (L2 : local_path q) by (destruct R2 as (t & f & _ & L2 & _); exact L2).
      destruct (same_way_url bad_host expandvars expanduser_tilde folders Hcwd Hcwd' p q L1 L2 W) as (url & U1 & U2).
      exists p, q, n, url. auto.
  Qed.

  (** Other files: the xl-ref is of one, and sheets of its books have different names. *)
  Definition of_other (p : pystr) (m : moment) : Prop :=
    unique_names (fst m) /\ exists q n, refers_to (snd m) q n /\ book_path q /\ abspath cwd q <> abspath cwd p.

  (** Files not lassoed before are those of the present. *)
  Theorem C109_first : forall h d x p n, unique_names d -> refers_to x p n -> book_path p -> Forall (of_other p) h ->
    nth_error (history (h ++ [(d, x)]) new_world) (length h) = Some (now d x).
  Proof.
    intros h d x p n UD R B H. apply (first_time lossy bad_host expandvars expanduser_tilde word_char set_list to_json loads base_opts filters folders Hset Hcwd Hcwd' Hfilt h d x p n UD R).
    intros d' x' I. rewrite Forall_forall in H. destruct (H _ I) as (U & q & n' & R' & B' & N). split; [exact U|]. exists q, n'. split; [exact R'|].
    exact (url_apart lossy bad_host expandvars expanduser_tilde word_char folders Hcwd Hcwd' q p B' B N).
  Qed.

  (** Sheets lassoed again, by the same path and id, are those of the first time, when in between there are
      only lassos of it, and of other files. *)
  Theorem C109_again : forall h1 h2 d0 x0 d x p n v, unique_names d0 -> unique_names d -> refers_to x0 p n -> refers_to x p n -> book_path p ->
    Forall (of_other p) h1 -> Forall (fun m => of_other p m \/ unique_names (fst m) /\ refers_to (snd m) p n) h2 ->
    now d0 x0 = Ok v ->
    nth_error (history ((h1 ++ (d0, x0) :: h2) ++ [(d, x)]) new_world) (length (h1 ++ (d0, x0) :: h2)) = Some (now d0 x).
  Proof.
    intros h1 h2 d0 x0 d x p n v U0 U R0 R B H1 H2 V.
    apply (again lossy bad_host expandvars expanduser_tilde word_char set_list to_json loads base_opts filters folders Hset Hcwd Hcwd' Hfilt h1 h2 d0 x0 d x p n v); try assumption.
    - intros d' x' I. rewrite Forall_forall in H1. destruct (H1 _ I) as (U' & q & n' & R' & B' & N). split; [exact U'|]. exists q, n'. split; [exact R'|].
      exact (url_apart lossy bad_host expandvars expanduser_tilde word_char folders Hcwd Hcwd' q p B' B N).
    - intros d' x' I. rewrite Forall_forall in H2. destruct (H2 _ I) as [(U' & q & n' & R' & B' & N)|(U' & R')]; (split; [exact U'|]).
      + exists q, n'. split; [exact R'|]. left. exact (url_apart lossy bad_host expandvars expanduser_tilde word_char folders Hcwd Hcwd' q p B' B N).
      + exists p, n. split; [exact R'|]. auto.
  Qed.
End Change.
Print Assumptions C109_forward.
Print Assumptions C109_first.
Print Assumptions C109_again.

(** ** Some histories *)

Definition seen (cwd : string) (h : list (list (string * xbook) * string)) : list (res json) :=
  history (fun _ => []) (fun _ => false) (fun p => p) (fun p => p) (fun _ => false) sample_set plain_json (fun _ => None) [] (fun _ => None) (lit cwd)
    (map (fun fx => (sample_disk (fst fx), lit (snd fx))) h) new_world.
Definition version (z : Z) : xbook := book_of [(lit "In", [[num z]]); (lit "Out", [[num (z + 100)]])].
Definition files (z : Z) : list (string * xbook) := [("/a/b.xls", version z); ("/a/c.xls", version (- z)); ("/my dir/b.xls", version z)]%string.

Example C109_example : seen "/a" [(files 1, "b.xls#In!A1"); (files 2, "b.xls#In!A1"); (files 3, "c.xls#In!A1"); (files 4, "b.xls#Out!A1");
    (files 5, "./b.xls#In!A1:A1"); (files 6, "b.xls#In!A1"); (files 7, "./b.xls#In!A1"); (files 8, "x/../b.xls#0!A1"); ([], "b.xls#1!A1")]%string
  = [Ok (JNum 1); Ok (JNum 1); Ok (JNum (-3)); Ok (JNum 104); Ok (JList [JList [JNum 5]]); Ok (JNum 6); Ok (JNum 7); Ok (JNum 8); Raise ValueError].
Proof. vm_compute. reflexivity. Qed.

(** The hypotheses hold of these, and their paths lead the same way. *)
Lemma cell_ref : forall c n, In c (lit "bc") -> In n [lit "In"; lit "Out"] -> refers_to ((c :: lit ".xls") ++ lit "#" ++ n ++ lit "!A1") (c :: lit ".xls") (Some n).
Proof.
  intros c n I J. exists (n ++ lit "!A1"), (Frag (Some n) (Some (Edge (Cell (CStr (lit "1")) (CStr (lit "A"))) None None)) false None None None).
  assert (c = 98 \/ c = 99)%N as X by (destruct I as [<-|[<-|[]]]; [left|right]; reflexivity).
  assert (PC : Forall (fun k => In k (lit "bc.xls")) (c :: lit ".xls")).
  { destruct X as [ -> | -> ]; apply Forall_forall; intros k K; vm_compute in K |- *; intuition. }
  split; [reflexivity|]. split; [split; [|split; [|split]]|].
  - refine (Forall_impl _ _ PC). intros k K. vm_compute in K. cbn [In]. repeat (destruct K as [<-|K]; [lia|]). destruct K.
  - exists c, (lit ".xls"). split; [reflexivity|]. destruct X; lia.
  - intros a b E. exfalso. rewrite Forall_forall in PC. specialize (PC 58%N). rewrite E in PC. specialize (PC ltac:(apply in_or_app; right; left; reflexivity)).
    vm_compute in PC. intuition discriminate.
  - intros r a b E. injection E as E _. destruct X; congruence.
  - split. { rewrite Forall_forall in PC. split; intros Y; specialize (PC _ Y); vm_compute in PC; intuition discriminate. }
    split. { intros r E. rewrite Forall_forall in PC. specialize (PC 59%N). rewrite E in PC. specialize (PC ltac:(apply in_or_app; right; left; reflexivity)).
             vm_compute in PC. intuition discriminate. }
    split. { apply (Ft_sheet [] n (lit "A1")); [intros k []| | |reflexivity].
             - destruct J as [<-|[<-|[]]]; (split; [discriminate|intros k K; vm_compute in K; intuition; subst k; reflexivity]).
             - apply (Bt_one _ (lit "A1") _ [] None); [|constructor]. cbn [opt_text]. apply (Et_plain false (lit "A" ++ lit "1")). apply (Ct_a1 false (lit "A") (lit "1")); left.
               + split; [discriminate|]. intros k K. vm_compute in K. destruct K as [<-|[]]. reflexivity.
               + exists 49%N, []. split; [reflexivity|]. split; [lia|]. intros k []. }
    split. { destruct J as [<-|[<-|[]]]; [exists 73%N, (lit "n")|exists 79%N, (lit "ut")]; (split; reflexivity). }
    split; [reflexivity|]. split; [|reflexivity].
    destruct J as [<-|[<-|[]]]; (split; [discriminate|]; split; [split; vm_compute; intuition discriminate|]; apply Forall_forall; intros k K; vm_compute in K; cbn [In]; intuition; subst k; discriminate).
Qed.

Example C109_hypotheses : same_way (lit "b.xls") (lit "x/../b.xls") /\ same_way (lit "/a/b.xls") (lit "/a/./b.xls") /\
  unique_names (sample_disk (files 1)) /\ refers_to (lit "b.xls#Out!A1") (lit "b.xls") (Some (lit "Out")) /\ local_ref (lit "b.xls#Out!A1") /\
  book_path (word (fun _ => false)) (lit "/a") (lit "b.xls") /\
  of_other (fun _ => false) [lit "a"] (lit "b.xls") (sample_disk (files 1), lit "c.xls#In!A1").
Proof.
  assert (UN : unique_names (sample_disk (files 1))).
  { intros [f|f] b E; [|discriminate E]. unfold sample_disk, files in E. cbn [find fst] in E.
    destruct (str_eqb (lit "/a/b.xls") f); [|destruct (str_eqb (lit "/a/c.xls") f); [|destruct (str_eqb (lit "/my dir/b.xls") f)]]; try discriminate E;
      injection E as <-; vm_compute; repeat constructor; cbn [In]; intuition discriminate. }
  assert (BP : forall c, In c (lit "bc") -> book_path (word (fun _ => false)) (lit "/a") (c :: lit ".xls")).
  { intros c I. destruct (cell_ref c (lit "In") I ltac:(left; reflexivity)) as (t & f & _ & L & Q & S & _).
    split; [exact L|]. split; [exact Q|]. split; [exact S|].
    destruct I as [<-|[<-|[]]]; (split; [unfold of_folder; vm_compute; intuition discriminate|]; split; [vm_compute; intuition discriminate|]; split; [vm_compute; lia|]).
    - exists (lit "/a/b"), (lit "xls"), (lit "xls"), []. split; [reflexivity|]. split; [left; reflexivity|].
      split; [repeat constructor|]. intros c b' E. discriminate E.
    - exists (lit "/a/c"), (lit "xls"), (lit "xls"), []. split; [reflexivity|]. split; [left; reflexivity|].
      split; [repeat constructor|]. intros c b' E. discriminate E. }
  split. { split; [unfold of_folder; vm_compute; intuition discriminate|]. split; [unfold of_folder; vm_compute; intuition discriminate|]. reflexivity. }
  split. { split; [unfold of_folder; vm_compute; intuition discriminate|]. split; [unfold of_folder; vm_compute; intuition discriminate|]. reflexivity. }
  split; [exact UN|]. split; [apply (cell_ref 98%N (lit "Out")); [left; reflexivity|right; left; reflexivity]|].
  split. { destruct (BP 98%N ltac:(left; reflexivity)) as (L & _ & S & _).
           right. exists (lit "b.xls"), (lit "Out!A1"). split; [|split; [exact L|exact S]]. vm_compute. repeat (apply Pq_same; [discriminate|discriminate|]). constructor. }
  split; [apply (BP 98%N); left; reflexivity|]. split; [exact UN|]. exists (lit "c.xls"), (Some (lit "In")).
  split; [apply (cell_ref 99%N (lit "In")); [right; left; reflexivity|left; reflexivity]|].
  split; [apply (BP 99%N); right; left; reflexivity|vm_compute; discriminate].
Qed.

(** ** What does not hold *)

(** A file changed after it was lassoed is not seen, by the same xl-ref. *)
Theorem C109_current_refuted : exists d1 d2 x, seen "/a" [(d1, x); (d2, x)] = [Ok (JNum 1); Ok (JNum 1)] /\
  seen "/a" [(d2, x)] = [Ok (JNum 2)].
Proof. exists (files 1), (files 2), "b.xls#In!A1"%string. vm_compute. auto. Qed.
Print Assumptions C109_current_refuted.

(** Sheets of a file may be of different moments. *)
Theorem C109_torn_refuted : exists h, seen "/a" h = [Ok (JNum 1); Ok (JNum 102); Ok (JNum 1)] /\
  map snd h = ["b.xls#In!A1"; "b.xls#Out!A1"; "b.xls#In!A1"]%string /\
  Forall (fun m => ~ (seen "/a" [(fst m, "b.xls#In!A1")] = [Ok (JNum 1)] /\ seen "/a" [(fst m, "b.xls#Out!A1")] = [Ok (JNum 102)]))%string h.
Proof.
  exists [(files 1, "b.xls#In!A1"); (files 2, "b.xls#Out!A1"); (files 2, "b.xls#In!A1")]%string. split; [vm_compute; reflexivity|]. split; [reflexivity|].
  repeat constructor; intros (A & B); vm_compute in A, B; discriminate.
Qed.
Print Assumptions C109_torn_refuted.

(** Paths to the same file, one of them relative, may go back, when the folder has a character to quote. *)
Theorem C109_back_refuted : exists h, seen "/my dir" h = [Ok (JNum 1); Ok (JNum 2); Ok (JNum 1)] /\
  map snd h = ["b.xls#In!A1"; "/my dir/b.xls#In!A1"; "b.xls#In!A1"]%string /\
  abspath (lit "/my dir") (lit "b.xls") = abspath (lit "/my dir") (lit "/my dir/b.xls").
Proof.
  exists [(files 1, "b.xls#In!A1"); (files 2, "/my dir/b.xls#In!A1"); (files 2, "b.xls#In!A1")]%string. vm_compute. auto.
Qed.
Print Assumptions C109_back_refuted.

(** Failures are not remembered: a path may fail after the file was deleted, and another one to it still lead to the past. *)
Theorem C109_deleted_refuted : exists h, seen "/a" h = [Ok (JNum 1); Raise ValueError; Ok (JNum 1)] /\
  map snd h = ["b.xls#In!A1"; "./b.xls#In!A1"; "b.xls#In!A1"]%string /\ same_way (lit "b.xls") (lit "./b.xls").
Proof.
  exists [(files 1, "b.xls#In!A1"); ([], "./b.xls#In!A1"); ([], "b.xls#In!A1")]%string. split; [vm_compute; reflexivity|]. split; [reflexivity|].
  split; [unfold of_folder; vm_compute; intuition discriminate|]. split; [unfold of_folder; vm_compute; intuition discriminate|]. reflexivity.
Qed.
Print Assumptions C109_deleted_refuted.
