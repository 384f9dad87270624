From Coq Require Import String Lia.
From Verif Require Import PyBase PyBase_Proofs Utils_Model OsPath_Model OsPath_Spec OsPath_Proofs FileUrl_Model FileUrl_Spec FileUrl_Proofs Excel_Model Excel_Spec.

(** ** File names *)
Lemma letter_spec : forall c k, (97 <= k <= 122)%N -> k <> 115%N -> ((low c =? k)%N = true <-> same_letter k c).
Proof. exact (low_spec (fun _ => false)). Qed.
Lemma long_s_spec : forall c, is_s c = true <-> same_letter 115 c.
Proof. exact (is_s_spec (fun _ => false)). Qed.
Lemma at_end_spec : forall s, at_end s = true <-> (s = [] \/ s = [10%N]).
Proof. intros [|c [|d s]]; cbn. - tauto. - rewrite N.eqb_eq. split; [intros ->; auto|intros [X|X]; [discriminate|injection X as ->; reflexivity]]. - split; [discriminate|intros [X|X]; discriminate]. Qed.
Lemma end_here_spec : forall s, xl_end_here s = true <->
  exists e x b, s = 46%N :: x ++ b /\ In e extensions /\ Forall2 same_letter e x /\
  (b = [] \/ b = [10%N]).
Proof.
  intros s. split.
  - destruct s as [|dot [|x [|l [|k rest]]]]; try discriminate. cbn [xl_end_here].
    change (chr ".") with 46%N. change (chr "x") with 120%N. change (chr "l") with 108%N.
    change (chr "t") with 116%N. change (chr "w") with 119%N. change (chr "m") with 109%N.
    rewrite !andb_true_iff. intros (((D & X) & L) & K).
    apply N.eqb_eq in D. subst dot.
    apply letter_spec in X; [|lia|lia]. apply letter_spec in L; [|lia|lia].
    apply orb_true_iff in K. destruct K as [K|K]; apply andb_true_iff in K; destruct K as (K & B).
    + assert (exists kk, In kk [115; 116]%N /\ same_letter kk k) as (kk & KI & KS).
      { apply orb_true_iff in K. destruct K as [K|K].
        - exists 115%N. split; [left; reflexivity|]. apply long_s_spec. exact K.
        - exists 116%N. split; [right; left; reflexivity|]. apply letter_spec; [lia|lia|exact K]. }
      apply orb_true_iff in B. destruct B as [B|B].
      * exists [120; 108; kk]%N, [x; l; k], rest. split; [reflexivity|].
        split; [destruct KI as [<-|[<-|[]]]; cbn [In extensions]; tauto|].
        split; [repeat (apply Forall2_cons; [assumption|]); apply Forall2_nil|]. apply at_end_spec. exact B.
      * destruct rest as [|m rest]; [discriminate|]. apply andb_true_iff in B. destruct B as (M & B).
        assert (exists mm, In mm [120; 109]%N /\ same_letter mm m) as (mm & MI & MS).
        { apply orb_true_iff in M. destruct M as [M|M].
          - exists 120%N. split; [left; reflexivity|]. apply letter_spec; [lia|lia|exact M].
          - exists 109%N. split; [right; left; reflexivity|]. apply letter_spec; [lia|lia|exact M]. }
        exists [120; 108; kk; mm]%N, [x; l; k; m], rest. split; [reflexivity|].
        split; [destruct KI as [<-|[<-|[]]], MI as [<-|[<-|[]]]; cbn [In extensions]; tauto|].
        split; [repeat (apply Forall2_cons; [assumption|]); apply Forall2_nil|]. apply at_end_spec. exact B.
    + assert (exists kk, In kk [119; 109]%N /\ same_letter kk k) as (kk & KI & KS).
      { apply orb_true_iff in K. destruct K as [K|K].
        - exists 119%N. split; [left; reflexivity|]. apply letter_spec; [lia|lia|exact K].
        - exists 109%N. split; [right; left; reflexivity|]. apply letter_spec; [lia|lia|exact K]. }
      exists [120; 108; kk]%N, [x; l; k], rest. split; [reflexivity|].
      split; [destruct KI as [<-|[<-|[]]]; cbn [In extensions]; tauto|].
      split; [repeat (apply Forall2_cons; [assumption|]); apply Forall2_nil|]. apply at_end_spec. exact B.
  - intros (e & x & b & -> & I & F & B). apply at_end_spec in B.
    assert (LX : forall k c, (97 <= k <= 122)%N -> k <> 115%N -> same_letter k c -> (low c =? k)%N = true)
      by (intros k c H1 H2; apply letter_spec; assumption).
    cbn [In extensions] in I.
    repeat (destruct I as [<-|I];
      [repeat match goal with H : Forall2 _ (_ :: _) _ |- _ => inversion H; subst; clear H end;
       match goal with H : Forall2 _ [] _ |- _ => inversion H; subst; clear H end;
       cbn [app xl_end_here]; change (chr ".") with 46%N; change (chr "x") with 120%N;
       change (chr "l") with 108%N; change (chr "t") with 116%N; change (chr "w") with 119%N;
       change (chr "m") with 109%N;
       repeat match goal with
         | H : same_letter 115 ?c |- _ => apply long_s_spec in H; rewrite H
         | H : same_letter ?k ?c |- _ => apply (LX k c) in H; [|lia|discriminate]; rewrite H
         end;
       rewrite ?B, ?orb_true_r, ?andb_true_r; cbn [andb orb]; rewrite ?orb_true_r, ?andb_true_r; reflexivity|]).
    destruct I.
Qed.


Theorem excel_iff : forall s, is_excel_file s = true <-> ends_excel s \/ exists s', s = s' ++ [10%N] /\ ends_excel s'.
Proof.
  assert (G : forall s, is_excel_file s = true <-> exists a e x b, s = a ++ 46%N :: x ++ b /\ In e extensions /\ Forall2 same_letter e x /\ (b = [] \/ b = [10%N])).
  { intros s. split.
    - induction s as [|c s IH]; intros H; [discriminate|]. cbn [is_excel_file] in H. apply orb_true_iff in H. destruct H as [H|H].
      + apply end_here_spec in H. destruct H as (e & x & b & E & H). exists [], e, x, b. split; [exact E|exact H].
      + destruct (IH H) as (a & e & x & b & E & H'). exists (c :: a), e, x, b. split; [rewrite E; reflexivity|exact H'].
    - intros (a & e & x & b & -> & H). assert (X : xl_end_here (46%N :: x ++ b) = true) by (apply end_here_spec; exists e, x, b; split; [reflexivity|exact H]).
      induction a as [|c a IH]; cbn [app is_excel_file]; [rewrite X; reflexivity|]. rewrite IH. apply orb_true_r. }
  intros s. rewrite G. unfold ends_excel. split.
  - intros (a & e & x & b & -> & I & F & [-> | ->]).
    + left. exists a, e, x. rewrite app_nil_r. auto.
    + right. exists (a ++ 46%N :: x). split; [rewrite <- app_assoc; reflexivity|]. exists a, e, x. auto.
  - intros [(a & e & x & -> & I & F)|(s' & -> & a & e & x & -> & I & F)].
    + exists a, e, x, []. rewrite app_nil_r. auto.
    + exists a, e, x, [10%N]. rewrite <- app_assoc. cbn [app]. auto.
Qed.
(** The files that the backend bids for include them. *)
Theorem excel_bid : forall word_char s, is_excel_file s = true -> xl_ext_anywhere word_char s = true.
Proof.
  intros w s H. apply ext_anywhere_spec. apply excel_iff in H. destruct H as [(a & e & x & -> & I & F)|(s' & -> & a & e & x & -> & I & F)].
  - exists a, e, x, []. rewrite app_nil_r. split; [reflexivity|]. split; [exact I|]. split; [exact F|]. discriminate.
  - exists a, e, x, [10%N]. split; [rewrite <- app_assoc; reflexivity|]. split; [exact I|]. split; [exact F|]. intros c b E. injection E as <- <-. unfold word_with, letter. lia.
Qed.

(** ** Excel itself *)
Lemma checks_known : forall found n b k, checks found n (Some b, k) = (repeat b n, (Some b, k)).
Proof. induction n as [|n IH]; intros b k; [reflexivity|]. cbn [checks check_installed fst]. rewrite IH. reflexivity. Qed.
Theorem checks_once : forall found n k, checks found (S n) (None, k) = (repeat (found k) (S n), (Some (found k), S k)).
Proof. intros. cbn [checks check_installed fst snd]. rewrite checks_known. reflexivity. Qed.
Theorem project_iff : forall P (project : com P) protection p, get_vb_project project protection = Project p <-> project = Val p /\ exists z, protection p = Val z /\ z <> 1%Z.
Proof.
  intros P project protection p. unfold get_vb_project. split.
  - destruct project as [q|c|e]; [| |discriminate].
    + destruct (protection q) as [z|c|e] eqn:E; [| |discriminate].
      * destruct (Z.eqb_spec z 1); [discriminate|]. intros X. injection X as <-. split; [reflexivity|]. exists z. auto.
      * destruct (Z.eqb c _); discriminate.
    + destruct (Z.eqb c _); discriminate.
  - intros (-> & z & -> & N). apply Z.eqb_neq in N. rewrite N. reflexivity.
Qed.

(** ** Local URLs *)
Theorem url_file : forall cwd r, root_of cwd <> Relative -> u_scheme r = lit "file" ->
  root_of (u_path (normalize_parts cwd r)) <> Relative
  /\ (forall folder, leads_to folder (u_path (normalize_parts cwd r)) = leads_to (leads_to [] cwd) (u_path r))
  /\ (forall cwd', normalize_parts cwd' (normalize_parts cwd r) = normalize_parts cwd r).
Proof.
  intros cwd r R S. unfold normalize_parts at 1 2. rewrite S, str_eqb_refl. cbn [u_path].
  assert (A : forall st, leads_to st (osp_abspath cwd (u_path r)) = leads_to (leads_to [] cwd) (u_path r) /\ root_of (osp_abspath cwd (u_path r)) <> Relative).
  { intros st. destruct (abspath_leads cwd (u_path r) st R) as [A B]. unfold abspath in A, B. rewrite keep_leads in A by apply osp_not_nil. rewrite keep_root in B by apply osp_not_nil. auto. }
  split; [apply (A [])|]. split; [intros f; apply A|]. intros cwd'. unfold normalize_parts. rewrite S, str_eqb_refl. cbn [u_scheme u_path u_netloc u_query u_fragment]. rewrite str_eqb_refl. f_equal.
  assert (Sp : starts_with (lit "/") (osp_abspath cwd (u_path r)) = true).
  { destruct (A []) as [_ B]. destruct (osp_abspath cwd (u_path r)) as [|c p] eqn:E; [destruct B; reflexivity|]. rewrite starts1. destruct (N.eqb_spec c 47); [reflexivity|]. destruct B. apply root_neq. assumption. }
  assert (X : forall x, starts_with (lit "/") x = true -> osp_abspath cwd' x = osp_normpath x) by (intros x E; unfold osp_abspath; rewrite E; reflexivity).
  cbn [u_path]. rewrite (X _ Sp). unfold osp_abspath. apply osp_idem.
Qed.
Theorem url_other : forall cwd r, u_scheme r <> lit "file" -> normalize_parts cwd r = r.
Proof. intros cwd r N. unfold normalize_parts. apply str_eqb_neq in N. rewrite N. reflexivity. Qed.

(** ** Shortcuts *)
Section Shortcut.
  Variable fails : event -> option exn.
  Definition asked (av : attr * pystr) : event := Assign (fst av) (snd av).
  Lemma assign_prefix : forall l ev r, assign fails l = (ev, r) -> exists l1 l2, l = l1 ++ l2 /\ ev = map asked l1 /\ (r = None -> l2 = [] /\ forall av, In av l -> fails (asked av) = None) /\ (forall e, r = Some e -> exists l0 av, l1 = l0 ++ [av] /\ fails (asked av) = Some e /\ forall av', In av' l0 -> fails (asked av') = None).
  Proof.
    induction l as [|[a v] l IH]; intros ev r E; cbn [assign] in E.
    - injection E as <- <-. exists [], []. split; [reflexivity|]. split; [reflexivity|]. split; [intros _; split; [reflexivity|intros av []]|discriminate].
    - destruct (fails (Assign a v)) as [e|] eqn:F.
      + injection E as <- <-. exists [(a, v)], l. split; [reflexivity|]. split; [reflexivity|]. split; [discriminate|]. intros e' X. injection X as <-. exists [], (a, v). split; [reflexivity|]. split; [exact F|intros av []].
      + destruct (assign fails l) as [ev' r'] eqn:E'. injection E as <- <-. destruct (IH ev' r' eq_refl) as (l1 & l2 & -> & -> & H1 & H2). exists ((a, v) :: l1), l2. split; [reflexivity|]. split; [reflexivity|]. split.
        * intros N. destruct (H1 N) as [-> H]. split; [reflexivity|]. intros av [<-|I]; [exact F|exact (H av I)].
        * intros e' X. destruct (H2 e' X) as (l0 & av & -> & G & H). exists ((a, v) :: l0), av. split; [reflexivity|]. split; [exact G|]. intros av' [<-|I]; [exact F|exact (H av' I)].
  Qed.
  Definition wanted (target : pystr) (wdir args icon desc : option pystr) : list (attr * pystr) :=
    (Targetpath, target) :: given IconLocation icon ++ given Description desc ++ given Arguments args ++ given WorkingDirectory wdir.
  Lemma given_in : forall a v a' s, In (a', s) (given a v) <-> a' = a /\ v = Some s /\ s <> [].
  Proof. intros a [[|c s]|] a' s'; cbn; split; try tauto; try (intros (_ & X & Y); try discriminate; injection X as <-; congruence). - intros [X|[]]. injection X as <- <-. split; [reflexivity|]. split; [reflexivity|discriminate]. - intros (-> & X & _). injection X as <-. auto. Qed.
  Lemma wanted_in : forall target wdir args icon desc a s, In (a, s) (wanted target wdir args icon desc) <-> wants target wdir args icon desc a s.
  Proof.
    intros. unfold wanted. cbn [In]. rewrite !in_app_iff, !given_in. split.
    - intros [X|[(-> & X & Y)|[(-> & X & Y)|[(-> & X & Y)|(-> & X & Y)]]]]; [injection X as <- <-| | | |]; constructor; assumption.
    - intros [|s' X Y|s' X Y|s' X Y|s' X Y]; auto 10.
  Qed.
  Theorem shortcut_trace : forall path target wdir args icon desc ev r, create_shortcut fails path target wdir args icon desc = (ev, r) -> fails (Create path) = None ->
    exists l, ev = Create path :: map asked l ++ [Save] /\ (forall a s, In (a, s) l -> wants target wdir args icon desc a s)
      /\ (r = None -> fails Save = None /\ forall a s, wants target wdir args icon desc a s -> In (a, s) l /\ fails (Assign a s) = None).
  Proof.
    intros path target wdir args icon desc ev r E C. unfold create_shortcut in E. rewrite C in E. fold (wanted target wdir args icon desc) in E.
    destruct (assign fails (wanted target wdir args icon desc)) as [ev' r'] eqn:A. injection E as <- <-. destruct (assign_prefix _ _ _ A) as (l1 & l2 & W & -> & H1 & H2). exists l1. split; [reflexivity|]. split.
    - intros a s I. apply wanted_in. rewrite W. apply in_or_app. left. exact I.
    - destruct (fails Save) as [e|]; [discriminate|]. intros ->. split; [reflexivity|]. destruct (H1 eq_refl) as [-> H]. rewrite app_nil_r in W. intros a s I. apply wanted_in in I. split; [rewrite <- W; exact I|]. exact (H (a, s) I).
  Qed.
  Theorem shortcut_works : forall path target wdir args icon desc, fails (Create path) = None -> fails Save = None -> (forall a s, wants target wdir args icon desc a s -> fails (Assign a s) = None) ->
    snd (create_shortcut fails path target wdir args icon desc) = None.
  Proof.
    intros path target wdir args icon desc C S H. unfold create_shortcut. rewrite C. fold (wanted target wdir args icon desc).
    destruct (assign fails (wanted target wdir args icon desc)) as [ev' r'] eqn:A. cbn [snd]. rewrite S. destruct r' as [e|]; [|reflexivity]. exfalso. destruct (assign_prefix _ _ _ A) as (l1 & l2 & W & _ & _ & H2). destruct (H2 e eq_refl) as (l0 & [a s] & -> & F & _).
    unfold asked in F. cbn [fst snd] in F. rewrite H in F; [discriminate|]. apply wanted_in. rewrite W. apply in_or_app. left. apply in_or_app. right. left. reflexivity.
  Qed.
  Theorem shortcut_refused : forall path target wdir args icon desc e, fails (Create path) = Some e -> create_shortcut fails path target wdir args icon desc = ([Create path], Some e).
  Proof. intros path target wdir args icon desc e C. unfold create_shortcut. rewrite C. reflexivity. Qed.
End Shortcut.
