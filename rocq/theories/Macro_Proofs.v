From Coq Require Import String Lia.
From Verif Require Import PyBase PyBase_Proofs Macro_Model Macro_Spec.

Lemma lines_plain : forall c cur s, c <> 13%N -> c <> 10%N -> lines_from cur (c :: s) = lines_from (c :: cur) s.
Proof.
  intros c cur s A B. destruct c as [|p]; [reflexivity|].
  do 4 (destruct p as [p|p|]; try reflexivity); try (destruct A; reflexivity); try (destruct B; reflexivity).
Qed.
Lemma lines_cr : forall cur s, (forall r, s <> 10%N :: r) -> lines_from cur (13%N :: s) = rev cur :: lines_from [] s.
Proof. intros cur [|c s] H; [reflexivity|]. destruct c as [|p]; [reflexivity|]. do 4 (destruct p as [p|p|]; try reflexivity). destruct (H s eq_refl). Qed.
Lemma lines_one : forall c cur s, one_line c -> (forall r, s <> 10%N :: r) -> lines_from cur (c ++ 13%N :: s) = (rev cur ++ c) :: lines_from [] s.
Proof.
  induction c as [|x c IH]; intros cur s O H; cbn [app]; [rewrite app_nil_r; apply lines_cr; exact H|].
  destruct O as [O1 O2]. cbn in O1, O2. rewrite lines_plain by tauto. rewrite IH; [|split; tauto|exact H]. cbn [rev]. rewrite <- app_assoc. reflexivity.
Qed.
Definition texts (cells : list pystr) : list pystr := filter (fun c => match c with [] => false | _ => true end) cells.
Lemma body_lf : forall cells r, Forall one_line cells -> body cells <> 10%N :: r.
Proof. induction cells as [|[|x c] cells IH]; intros r F E; [discriminate|inversion F; subst; exact (IH r H2 E)|]. cbn in E. injection E as -> _. inversion F as [|? ? [_ B] _]; subst. apply B. left. reflexivity. Qed.
Theorem body_lines : forall cells, Forall one_line cells -> lines (body cells) = texts cells.
Proof.
  unfold lines. induction cells as [|c cells IH]; intros F; [reflexivity|]. inversion F as [|? ? O F']; subst. destruct c as [|x c]; [exact (IH F')|].
  cbn [body texts filter]. change ((x :: c) ++ [CR] ++ body cells) with ((x :: c) ++ 13%N :: body cells). rewrite (lines_one (x :: c) []); [|exact O|intros r; apply body_lf; exact F']. cbn [rev app]. f_equal. exact (IH F').
Qed.
Lemma one_app : forall a b, one_line a -> one_line b -> one_line (a ++ b).
Proof. intros a b [A1 A2] [B1 B2]. split; intros I; apply in_app_or in I; tauto. Qed.
Lemma before_in : forall s b c, before_dot s = Some b -> In c b -> In c s.
Proof. induction s as [|x s IH]; intros b c E I; [discriminate|]. cbn [before_dot] in E. destruct (before_dot s) as [b'|]; [injection E as <-; destruct I as [->|I]; [left; reflexivity|right; exact (IH b' c eq_refl I)]|]. destruct (x =? chr ".")%N; [injection E as <-; destruct I|discriminate]. Qed.
Lemma base_one : forall s, one_line s -> one_line (base_name s).
Proof. intros s [A B]. unfold base_name. destruct (before_dot s) as [b|] eqn:E; [|split; assumption]. split; intros I; [apply A|apply B]; exact (before_in s b _ E I). Qed.
Ltac plain_line := split; let H := fresh in intros H; vm_compute in H; repeat (destruct H as [H|H]; [discriminate H|]); exact H.
Theorem code_lines : forall full name mine cells, one_line full -> one_line name -> Forall one_line cells ->
  lines (python_code full name mine cells) =
    [lit "import os; from xlwings import Workbook, Range; ";
     lit "wb = Workbook(r'" ++ full ++ lit "'); " ++ (if mine then lit "import " ++ base_name name ++ lit " as mypy; " else [])] ++ texts cells.
Proof.
  intros full name mine cells F N C. unfold python_code, prefix, lines. rewrite <- !app_assoc.
  change ([CR] ++ lit "wb = Workbook(r'" ++ ?x) with (13%N :: lit "wb = Workbook(r'" ++ x).
  rewrite lines_one; [|plain_line|intros r E; discriminate E]. cbn [rev app]. f_equal.
  match goal with |- lines_from [] ?s = _ => replace s with ((lit "wb = Workbook(r'" ++ full ++ lit "'); " ++ (if mine then lit "import " ++ base_name name ++ lit " as mypy; " else [])) ++ 13%N :: body cells) by (rewrite <- ?app_assoc; reflexivity) end.
  rewrite lines_one; [cbn [rev app]; f_equal; apply body_lines; exact C| |intros r; apply body_lf; exact C].
  apply one_app; [plain_line|]. apply one_app; [exact F|]. apply one_app; [plain_line|]. destruct mine; [|split; intros []]. apply one_app; [plain_line|]. apply one_app; [apply base_one; exact N|plain_line].
Qed.

(** ** The path of the workbook *)
Theorem raw_back : forall s rest, ~ In 39%N s -> one_line s -> (forall a, s <> a ++ [92%N]) -> raw_text (s ++ 39%N :: rest) = Some (s, rest).
Proof.
  intros s. remember (length s) as n eqn:L. revert s L. induction n as [n IH] using lt_wf_ind. intros s L rest Q O B. destruct s as [|c s]; [reflexivity|].
  destruct O as [O1 O2]. cbn in Q, O1, O2. cbn [app raw_text].
  destruct (N.eqb_spec c 39); [tauto|]. destruct (N.eqb_spec c 10); [tauto|]. destruct (N.eqb_spec c 13); [tauto|]. cbn [orb]. destruct (N.eqb_spec c 92).
  - destruct s as [|d s]; [subst; destruct (B [] eq_refl)|]. cbn [app]. cbn in Q, O1, O2. rewrite (IH (length s)); [reflexivity|subst n; cbn; lia|reflexivity|tauto|split; tauto|]. intros a E. apply (B (c :: d :: a)). subst s. reflexivity.
  - rewrite (IH (length s)); [reflexivity|subst n; cbn; lia|reflexivity|tauto|split; tauto|]. intros a E. apply (B (c :: a)). subst s. reflexivity.
Qed.
(** Whatever is read is that much of the text, and is ended by a quote. *)
Theorem raw_front : forall s v rest, raw_text s = Some (v, rest) -> s = v ++ 39%N :: rest.
Proof.
  intros s. remember (length s) as n eqn:L. revert s L. induction n as [n IH] using lt_wf_ind. intros s L v rest E. destruct s as [|c s]; [discriminate|]. cbn [raw_text] in E.
  destruct (N.eqb_spec c 39); [injection E as <- <-; subst; reflexivity|]. destruct ((c =? 10)%N || (c =? 13)%N); [discriminate|]. destruct (c =? 92)%N.
  - destruct s as [|d s]; [discriminate|]. destruct (raw_text s) as [[v' r']|] eqn:R; [|discriminate]. injection E as <- <-. rewrite (IH (length s)) with (s := s) (v := v') (rest := r'); [reflexivity|subst n; cbn; lia|reflexivity|exact R].
  - destruct (raw_text s) as [[v' r']|] eqn:R; [|discriminate]. injection E as <- <-. rewrite (IH (length s)) with (s := s) (v := v') (rest := r'); [reflexivity|subst n; cbn; lia|reflexivity|exact R].
Qed.
(** The base name *)
Theorem base_dot : forall s b e, s = b ++ 46%N :: e -> ~ In 46%N e -> base_name s = b.
Proof.
  intros s b e -> N. unfold base_name. assert (Z : before_dot e = None). { induction e as [|c e IH]; [reflexivity|]. cbn [In] in N; cbn [before_dot]. rewrite IH by tauto. destruct (N.eqb_spec c (chr ".")) as [E|E]; [destruct N; left; exact E|reflexivity]. }
  assert (G : before_dot (b ++ 46%N :: e) = Some b); [|rewrite G; reflexivity]. induction b as [|c b IH]; cbn [app before_dot]; [rewrite Z; reflexivity|]. rewrite IH. reflexivity.
Qed.
Theorem base_none : forall s, ~ In 46%N s -> base_name s = s.
Proof. intros s N. unfold base_name. assert (Z : before_dot s = None). { induction s as [|c e IH]; [reflexivity|]. cbn [In] in N; cbn [before_dot]. rewrite IH by tauto. destruct (N.eqb_spec c (chr ".")) as [E|E]; [destruct N; left; exact E|reflexivity]. } rewrite Z. reflexivity. Qed.
