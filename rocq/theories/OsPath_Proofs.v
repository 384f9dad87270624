(** * File paths: proofs *)
From Coq Require Import String Lia.
From Verif Require Import PyBase PyBase_Proofs OsPath_Model OsPath_Spec.

Notation DD := ([46; 46]%N) (only parsing).

Definition no_slash (n : pystr) : Prop := ~ In 47%N n.
Definition real (n : pystr) : Prop := n <> [] /\ n <> [46%N] /\ n <> DD /\ no_slash n.

(** ** Roots *)

Ltac not_slash c H := destruct c as [|c]; [try reflexivity|];
  repeat (destruct c as [c|c|]; try reflexivity); exfalso; apply H; reflexivity.

Definition abs_of (p : pystr) : bool := match p with c :: _ => (c =? 47)%N | [] => false end.

Lemma root_neq : forall c p, c <> 47%N -> root_of (c :: p) = Relative.
Proof. intros c p H. unfold root_of. not_slash c H. Qed.

Lemma root_one : forall c p, c <> 47%N -> root_of (47%N :: c :: p) = Slash.
Proof. intros c p H. unfold root_of. not_slash c H. Qed.

Lemma root_two : forall c p, c <> 47%N -> root_of (47%N :: 47%N :: c :: p) = TwoSlashes.
Proof. intros c p H. unfold root_of. not_slash c H. Qed.

Lemma start_neq : forall (A : Type) c p (x y : A), c <> 47%N ->
  (match c :: p with 47%N :: _ => x | _ => y end) = y.
Proof. intros A c p x y H. not_slash c H. Qed.

Lemma leads_to_eq : forall st p,
  leads_to st p = walk (if abs_of p then [] else st) (split_on 47%N p).
Proof.
  intros st [|c p]; [reflexivity|]. unfold leads_to, abs_of.
  destruct (N.eqb_spec c 47) as [->|H]; [reflexivity|]. rewrite (start_neq _ c p _ _ H). reflexivity.
Qed.

Definition slashes (r : root) : nat := match r with Relative => 0 | Slash => 1 | TwoSlashes => 2 end.

Lemma starts1 : forall c p, starts_with (lit "/") (c :: p) = (c =? 47)%N.
Proof.
  intros. unfold starts_with. change (lit "/") with [47%N]. cbn [length firstn str_eqb].
  rewrite andb_true_r. apply N.eqb_sym.
Qed.

Lemma initial_root : forall p, initial_slashes p = slashes (root_of p).
Proof.
  intros [|a p]; [reflexivity|]. unfold initial_slashes. rewrite starts1.
  destruct (N.eqb_spec a 47) as [->|H]; [|rewrite root_neq by exact H; reflexivity].
  destruct p as [|b p]; [reflexivity|].
  destruct (N.eqb_spec b 47) as [->|H].
  - destruct p as [|c p]; [reflexivity|].
    destruct (N.eqb_spec c 47) as [->|H]; [reflexivity|]. rewrite root_two by exact H.
    unfold starts_with. change (lit "//") with [47;47]%N. change (lit "///") with [47;47;47]%N.
    cbn [length firstn str_eqb]. apply N.eqb_neq in H. rewrite (N.eqb_sym 47 c), H. reflexivity.
  - rewrite root_one by exact H.
    unfold starts_with. change (lit "//") with [47;47]%N. cbn [length firstn str_eqb].
    apply N.eqb_neq in H. rewrite (N.eqb_sym 47 b), H. reflexivity.
Qed.

Lemma abs_root : forall p, abs_of p = true <-> root_of p <> Relative.
Proof.
  intros [|a p]; simpl abs_of.
  - split; [discriminate|]. intro H. destruct (H eq_refl).
  - destruct (N.eqb_spec a 47) as [->|H].
    + split; [|reflexivity]. intros _. destruct p as [|b p]; [discriminate|].
      destruct (N.eqb_spec b 47) as [->|H]; [|rewrite root_one by exact H; discriminate].
      destruct p as [|c p]; [discriminate|].
      destruct (N.eqb_spec c 47) as [->|H]; [discriminate|rewrite root_two by exact H; discriminate].
    + rewrite root_neq by exact H. split; [discriminate|]. intro N. destruct (N eq_refl).
Qed.

(** ** Walking *)

Lemma walk_app : forall a b st, walk st (a ++ b) = walk (walk st a) b.
Proof.
  induction a as [|n a IH]; intros b st; [reflexivity|]. simpl.
  destruct (str_eqb n []); [apply IH|]. destruct (str_eqb n [46%N]); [apply IH|].
  destruct (str_eqb n DD); apply IH.
Qed.

Lemma walk_empty : forall st rest, walk st ([] :: rest) = walk st rest.
Proof. reflexivity. Qed.

Lemma walk_real : forall n st, real n -> walk st [n] = n :: st.
Proof.
  intros n st (A & B & C & _). simpl.
  destruct (str_eqb_spec n []); [contradiction|]. destruct (str_eqb_spec n [46%N]); [contradiction|].
  destruct (str_eqb_spec n DD); [contradiction|]. reflexivity.
Qed.

Lemma walk_reals : forall names st, Forall real names -> walk st names = rev names ++ st.
Proof.
  induction names as [|n names IH]; intros st H; [reflexivity|].
  inversion H; subst. change (n :: names) with ([n] ++ names). rewrite walk_app, walk_real by assumption.
  rewrite IH by assumption. simpl. rewrite <- app_assoc. reflexivity.
Qed.

Lemma walk_ups : forall u st, walk st (repeat DD u) = skipn u st.
Proof.
  induction u as [|u IH]; intro st; [reflexivity|]. simpl. rewrite IH.
  destruct st as [|x st]; [|reflexivity]. destruct u; reflexivity.
Qed.

(** ** The loop *)

Lemma repeat_snoc : forall A (x : A) n, repeat x n ++ [x] = x :: repeat x n.
Proof. induction n; simpl; [reflexivity|]. rewrite IHn. reflexivity. Qed.

Lemma rev_repeat : forall A (x : A) n, rev (repeat x n) = repeat x n.
Proof. induction n; simpl; [reflexivity|]. rewrite IHn. apply repeat_snoc. Qed.

Lemma norm_comps_form : forall abs comps names u,
  Forall no_slash comps -> Forall real names -> (abs = true -> u = 0) ->
  exists u' names', norm_comps abs comps (names ++ repeat DD u) = repeat DD u' ++ names' /\
    Forall real names' /\ (abs = true -> u' = 0) /\
    forall st, (abs = true -> st = []) ->
      walk st (repeat DD u' ++ names') = walk (walk st (repeat DD u ++ rev names)) comps.
Proof.
  intros abs comps. induction comps as [|c comps IH]; intros names u Hc Hn Hu.
  - exists u, (rev names). simpl. rewrite rev_app_distr, rev_repeat. repeat split; auto.
    apply Forall_rev. exact Hn.
  - inversion Hc as [|? ? Hc0 Hc']; subst. cbn [norm_comps].
    change (lit ".") with [46%N]. change (lit "..") with DD.
    destruct (str_eqb_spec c []) as [E|N1].
    { cbn [orb]. destruct (IH names u Hc' Hn Hu) as (u' & n' & A & B & C & D).
      exists u', n'. repeat split; auto. intros st Hs. rewrite (D st Hs), E. reflexivity. }
    destruct (str_eqb_spec c [46%N]) as [E|N2].
    { cbn [orb]. destruct (IH names u Hc' Hn Hu) as (u' & n' & A & B & C & D).
      exists u', n'. repeat split; auto. intros st Hs. rewrite (D st Hs), E. reflexivity. }
    cbn [orb]. destruct (str_eqb_spec c DD) as [E|N3]; cbn [negb orb].
    + subst c. destruct names as [|l names].
      * cbn [app].
        destruct u as [|u].
        -- cbn [repeat]. rewrite andb_true_r, orb_false_r.
           destruct abs; cbn [negb].
           ++ destruct (IH [] 0 Hc' Hn Hu) as (u' & n' & A & B & C & D).
              exists u', n'. repeat split; auto. intros st Hs. rewrite (D st Hs), (Hs eq_refl). reflexivity.
           ++ destruct (IH [] 1 Hc' Hn ltac:(discriminate)) as (u' & n' & A & B & C & D).
              exists u', n'. repeat split; auto.
        -- assert (abs = false) by (destruct abs; [specialize (Hu eq_refl); discriminate|reflexivity]).
           subst abs. cbn [repeat negb andb orb]. rewrite str_eqb_refl.
           destruct (IH [] (S (S u)) Hc' Hn ltac:(discriminate)) as (u' & n' & A & B & C & D).
           exists u', n'. repeat split; auto. intros st Hs. rewrite (D st Hs). cbn [rev].
           rewrite !app_nil_r. change (DD :: repeat DD u) with (repeat DD (S u)).
           replace (walk (walk st (repeat DD (S u))) (DD :: comps))
             with (walk (walk st (repeat DD (S u) ++ [DD])) comps) by (rewrite walk_app; reflexivity).
           rewrite repeat_snoc. reflexivity.
      * inversion Hn as [|? ? Hl Hn']; subst. cbn [app]. rewrite andb_false_r. cbn [orb].
        destruct (str_eqb_spec l DD) as [E|_]; [destruct Hl as (_ & _ & X & _); contradiction|].
        cbn [tl]. destruct (IH names u Hc' Hn' Hu) as (u' & n' & A & B & C & D).
        exists u', n'. repeat split; auto. intros st Hs. rewrite (D st Hs). cbn [rev].
        rewrite app_assoc, (walk_app (repeat DD u ++ rev names)), walk_real by exact Hl. reflexivity.
    + assert (Hr : real c) by (repeat split; assumption).
      destruct (IH (c :: names) u Hc' (Forall_cons _ Hr Hn) Hu) as (u' & n' & A & B & C & D).
      exists u', n'. repeat split; auto. intros st Hs. rewrite (D st Hs). cbn [rev].
      replace (walk (walk st (repeat DD u ++ rev names)) (c :: comps))
        with (walk (walk st ((repeat DD u ++ rev names) ++ [c])) comps).
      * rewrite app_assoc. reflexivity.
      * rewrite (walk_app _ [c]), <- walk_app. reflexivity.
Qed.

(** ** Normal forms *)

Definition render (n : nat) (comps : list pystr) : pystr :=
  match repeat 47%N n ++ join [47%N] comps with [] => [46%N] | r => r end.

Lemma osp_form : forall p, exists u names, Forall real names /\
  (root_of p <> Relative -> u = 0) /\
  osp_normpath p = render (slashes (root_of p)) (repeat DD u ++ names) /\
  forall st, (root_of p <> Relative -> st = []) ->
    walk st (repeat DD u ++ names) = walk st (split_on 47%N p).
Proof.
  intros [|a p].
  - exists 0, []. repeat split; auto.
  - set (q := a :: p).
    destruct (norm_comps_form (match initial_slashes q with O => false | _ => true end) (split_on 47%N q) [] 0)
      as (u & names & A & B & C & D); auto.
    { apply Forall_forall. intros x Hx. exact (split_on_no_sep _ _ _ Hx). }
    assert (R : (match initial_slashes q with O => false | _ => true end) = true <-> root_of q <> Relative).
    { rewrite initial_root. destruct (root_of q); simpl; split; congruence. }
    exists u, names. split; [exact B|]. split; [intro H; apply C, R, H|]. split.
    + unfold osp_normpath, q at 1. fold q. change (chr "/") with 47%N. change (lit "/") with [47%N].
      cbn [app repeat] in A. rewrite A, <- initial_root. reflexivity.
    + intros st Hs. apply (D st). intro H. apply Hs, R, H.
Qed.

Lemma real_first : forall n, real n -> exists c s, n = c :: s /\ c <> 47%N.
Proof.
  intros [|c s] (A & _ & _ & D); [congruence|]. exists c, s. split; [reflexivity|].
  intros ->. apply D. left. reflexivity.
Qed.

Definition part (n : pystr) : Prop := real n \/ n = DD.

Lemma part_first : forall n, part n -> exists c s, n = c :: s /\ c <> 47%N.
Proof. intros n [H| ->]; [exact (real_first n H)|]. exists 46%N, [46%N]. split; [reflexivity|discriminate]. Qed.

Lemma part_no_slash : forall n, part n -> no_slash n.
Proof. intros n [(_ & _ & _ & D)| ->]; [exact D|]. intros [E|[E|[]]]; discriminate. Qed.

Lemma parts_form : forall u names, Forall real names -> Forall part (repeat DD u ++ names).
Proof.
  intros u names H. apply Forall_app. split.
  - apply Forall_forall. intros x Hx. apply repeat_spec in Hx. right. exact Hx.
  - apply (Forall_impl _ (fun n Hn => or_introl Hn) H).
Qed.

Lemma join_first : forall comps, Forall part comps -> comps <> [] ->
  exists c s, join [47%N] comps = c :: s /\ c <> 47%N.
Proof.
  intros comps H N. destruct comps as [|n comps]; [congruence|]. inversion H; subst.
  destruct (part_first n) as (c & s & E & Hc); [assumption|]. subst n.
  destruct comps as [|m comps]; simpl; eexists; eexists; split; try reflexivity; exact Hc.
Qed.

Lemma render_root : forall r comps, Forall part comps -> root_of (render (slashes r) comps) = r.
Proof.
  intros r comps H. unfold render. destruct comps as [|n comps].
  - destruct r; reflexivity.
  - destruct (join_first (n :: comps) H ltac:(discriminate)) as (c & s & E & Hc). rewrite E.
    destruct r; cbn [slashes repeat app].
    + apply root_neq; exact Hc.
    + apply root_one; exact Hc.
    + apply root_two; exact Hc.
Qed.

Lemma split_slashes : forall n s st, walk st (split_on 47%N (repeat 47%N n ++ s)) = walk st (split_on 47%N s).
Proof. induction n as [|n IH]; intros s st; [reflexivity|]. simpl. apply IH. Qed.

Lemma split_parts : forall comps st, Forall part comps -> walk st (split_on 47%N (join [47%N] comps)) = walk st comps.
Proof.
  intros comps st H. destruct comps as [|n comps]; [reflexivity|].
  rewrite split_join; [reflexivity|discriminate|]. intros x Hx. rewrite Forall_forall in H.
  apply part_no_slash. auto.
Qed.

Lemma leads_render : forall r comps st, Forall part comps ->
  leads_to st (render (slashes r) comps) = walk (match r with Relative => st | _ => [] end) comps.
Proof.
  intros r comps st H. rewrite leads_to_eq.
  assert (A : abs_of (render (slashes r) comps) = match r with Relative => false | _ => true end).
  { assert (X := abs_root (render (slashes r) comps)). rewrite render_root in X by exact H.
    destruct r; destruct (abs_of _); try reflexivity; destruct X as [X1 X2].
    - destruct (X1 eq_refl eq_refl).
    - apply X2. discriminate.
    - apply X2. discriminate. }
  rewrite A. clear A.
  assert (W : forall st', walk st' (split_on 47%N (render (slashes r) comps)) = walk st' comps).
  { intro st'. unfold render.
    destruct (repeat 47%N (slashes r) ++ join [47%N] comps) as [|c s] eqn:E.
    - destruct comps as [|n comps]; [reflexivity|].
      destruct (join_first (n :: comps) H ltac:(discriminate)) as (c & s & E' & _).
      rewrite E' in E. destruct (repeat 47%N (slashes r)); discriminate.
    - rewrite <- E, split_slashes. apply split_parts. exact H. }
  rewrite W. destruct r; reflexivity.
Qed.

Lemma leads_start : forall p st, leads_to st p = walk (match root_of p with Relative => st | _ => [] end) (split_on 47%N p).
Proof.
  intros p st. rewrite leads_to_eq. assert (X := abs_root p).
  destruct (abs_of p), (root_of p); try reflexivity; destruct X as [X1 X2].
  - destruct (X1 eq_refl eq_refl).
  - assert (false = true) by (apply X2; discriminate). discriminate.
  - assert (false = true) by (apply X2; discriminate). discriminate.
Qed.

Lemma osp_root : forall p, root_of (osp_normpath p) = root_of p.
Proof.
  intro p. destruct (osp_form p) as (u & names & A & _ & E & _). rewrite E.
  apply render_root, parts_form, A.
Qed.

Lemma osp_leads : forall p st, leads_to st (osp_normpath p) = leads_to st p.
Proof.
  intros p st. destruct (osp_form p) as (u & names & A & _ & E & W). rewrite E.
  rewrite leads_render by (apply parts_form; exact A). rewrite leads_start. apply W.
  destruct (root_of p); [intro N; destruct (N eq_refl)|reflexivity|reflexivity].
Qed.

(** A name longer than all of some *)
Definition fresh (names : list pystr) : pystr := repeat 97%N (S (list_max (map (@length N) names))).

Lemma fresh_not_in : forall names, ~ In (fresh names) names.
Proof.
  intros names H.
  assert (L : length (fresh names) <= list_max (map (@length N) names)).
  { assert (F : Forall (fun k => k <= list_max (map (@length N) names)) (map (@length N) names))
      by (apply list_max_le; lia).
    rewrite Forall_forall in F. apply F. apply in_map. exact H. }
  unfold fresh in L. rewrite repeat_length in L. lia.
Qed.

Lemma skipn_repeat : forall A (x : A) n m, skipn n (repeat x m) = repeat x (m - n).
Proof. induction n as [|n IH]; intros [|m]; simpl; auto. Qed.

Lemma app_repeat_inj : forall A (x : A) a b n m, ~ In x a -> ~ In x b ->
  a ++ repeat x (S n) = b ++ repeat x (S m) -> a = b /\ n = m.
Proof.
  induction a as [|y a IH]; intros [|z b] n m Ha Hb E.
  - split; [reflexivity|]. apply (f_equal (@length A)) in E. simpl in E. rewrite !repeat_length in E. lia.
  - simpl in E. injection E as <- _. destruct Hb. left. reflexivity.
  - simpl in E. injection E as -> _. destruct Ha. left. reflexivity.
  - cbn [app] in E. injection E as -> E.
    destruct (IH b n m) as [-> ->]; auto.
    + intro H. apply Ha. right. exact H.
    + intro H. apply Hb. right. exact H.
Qed.

Lemma osp_canonical : forall p q, root_of p = root_of q ->
  (forall st, leads_to st p = leads_to st q) -> osp_normpath p = osp_normpath q.
Proof.
  intros p q R L.
  destruct (osp_form p) as (u & names & A & U & E & W).
  destruct (osp_form q) as (v & names' & A' & V & E' & W').
  rewrite E, E', R. f_equal.
  assert (X : forall st, (root_of p <> Relative -> st = []) ->
              walk st (repeat DD u ++ names) = walk st (repeat DD v ++ names')).
  { intros st Hs. rewrite (W st Hs), (W' st) by (rewrite <- R; exact Hs).
    specialize (L st). rewrite !leads_start, <- R in L.
    destruct (root_of p); [exact L| |]; rewrite Hs by discriminate; exact L. }
  destruct (root_of p) eqn:Er.
  - set (f := fresh (names ++ names')).
    assert (Nf : ~ In f (rev names) /\ ~ In f (rev names')).
    { assert (N := fresh_not_in (names ++ names')). fold f in N. rewrite in_app_iff in N.
      rewrite <- !in_rev. tauto. }
    specialize (X (repeat f (S (u + v))) ltac:(intro N; destruct (N eq_refl))).
    rewrite !walk_app, !walk_ups, !skipn_repeat in X.
    rewrite (walk_reals names), (walk_reals names') in X by assumption.
    replace (S (u + v) - u) with (S v) in X by lia. replace (S (u + v) - v) with (S u) in X by lia.
    destruct (app_repeat_inj _ _ _ _ _ _ (proj1 Nf) (proj2 Nf) X) as [X1 X2].
    subst v. apply (f_equal (@rev pystr)) in X1. rewrite !rev_involutive in X1. subst. reflexivity.
  - rewrite (U ltac:(discriminate)), (V ltac:(rewrite <- R; discriminate)) in *. simpl in *.
    specialize (X [] ltac:(reflexivity)). rewrite !walk_reals, !app_nil_r in X by assumption.
    apply (f_equal (@rev pystr)) in X. rewrite !rev_involutive in X. exact X.
  - rewrite (U ltac:(discriminate)), (V ltac:(rewrite <- R; discriminate)) in *. simpl in *.
    specialize (X [] ltac:(reflexivity)). rewrite !walk_reals, !app_nil_r in X by assumption.
    apply (f_equal (@rev pystr)) in X. rewrite !rev_involutive in X. exact X.
Qed.

(** ** The last slash *)

Lemma split_on_cat : forall sep a b, split_on sep (a ++ sep :: b) = split_on sep a ++ split_on sep b.
Proof.
  induction a as [|c a IH]; intro b; simpl; [rewrite N.eqb_refl; reflexivity|].
  destruct (N.eqb_spec c sep); [rewrite IH; reflexivity|]. rewrite IH.
  destruct (split_on sep a) as [|w ws] eqn:E; [destruct (split_on_not_nil _ _ E)|]. reflexivity.
Qed.

Lemma ends_with1 : forall n, ends_with (lit "/") n = true <-> ends_slash n.
Proof.
  intro n. unfold ends_with, ends_slash. change (lit "/") with [47%N]. cbn [length].
  destruct n as [|x n] using rev_ind; [simpl; split; [discriminate|intros [p E]; destruct p; discriminate]|].
  clear IHn. rewrite app_length. cbn [length].
  replace (length n + 1 - 1) with (length n) by lia. rewrite skipn_app, skipn_all, Nat.sub_diag.
  replace (1 <=? length n + 1) with true by (symmetry; apply Nat.leb_le; lia).
  cbn [app skipn andb str_eqb]. rewrite andb_true_r. split.
  - intro E. apply N.eqb_eq in E. subst x. exists n. reflexivity.
  - intros [p E]. apply app_inj_tail in E. destruct E as [_ ->]. reflexivity.
Qed.

Lemma ends_slash_dec : forall n, ends_slash n \/ ~ ends_slash n.
Proof.
  intro n. destruct (ends_with (lit "/") n) eqn:E.
  - left. apply ends_with1. exact E.
  - right. intro H. apply ends_with1 in H. congruence.
Qed.

Lemma last_char : forall n, ends_slash n \/ n = [] \/ exists q c, n = q ++ [c] /\ c <> 47%N.
Proof.
  intro n. destruct n as [|c q] using rev_ind; [auto|]. clear IHq.
  destruct (N.eqb_spec c 47) as [->|H]; [left; exists q; reflexivity|].
  right. right. exists q, c. auto.
Qed.

Lemma keep_slash_spec : forall p n, keep_slash p n = if is_dir p then
    (if ends_with (lit "/") n then n else n ++ [47%N]) else n.
Proof. intros. unfold keep_slash. destruct (is_dir p), (ends_with (lit "/") n); reflexivity. Qed.

Lemma abs_of_app : forall n s, n <> [] -> abs_of (n ++ s) = abs_of n.
Proof. intros [|c n] s H; [congruence|]. reflexivity. Qed.

Lemma leads_slash : forall st n, n <> [] -> leads_to st (n ++ [47%N]) = leads_to st n.
Proof.
  intros st n H. rewrite !leads_to_eq, abs_of_app by exact H.
  rewrite split_on_cat. simpl split_on. rewrite walk_app. reflexivity.
Qed.

Lemma root_slash : forall n, n <> [] -> ~ ends_slash n -> root_of (n ++ [47%N]) = root_of n.
Proof.
  intros [|a n] H Ne; [congruence|].
  destruct (N.eqb_spec a 47) as [->|Ha]; [|cbn [app]; rewrite !root_neq by exact Ha; reflexivity].
  destruct n as [|b n]; [destruct Ne; exists []; reflexivity|].
  destruct (N.eqb_spec b 47) as [->|Hb]; [|cbn [app]; rewrite !root_one by exact Hb; reflexivity].
  destruct n as [|c n]; [destruct Ne; exists [47%N]; reflexivity|].
  destruct (N.eqb_spec c 47) as [->|Hc]; [reflexivity|].
  cbn [app]. rewrite !root_two by exact Hc. reflexivity.
Qed.

Lemma osp_not_nil : forall p, osp_normpath p <> [].
Proof.
  intro p. destruct (osp_form p) as (u & names & _ & _ & -> & _). unfold render.
  destruct (repeat 47%N _ ++ _); discriminate.
Qed.

Lemma keep_leads : forall st p n, n <> [] -> leads_to st (keep_slash p n) = leads_to st n.
Proof.
  intros st p n H. rewrite keep_slash_spec. destruct (is_dir p); [|reflexivity].
  destruct (ends_with (lit "/") n); [reflexivity|]. apply leads_slash. exact H.
Qed.

Lemma keep_root : forall p n, n <> [] -> root_of (keep_slash p n) = root_of n.
Proof.
  intros p n H. rewrite keep_slash_spec. destruct (is_dir p); [|reflexivity].
  destruct (ends_with (lit "/") n) eqn:E; [reflexivity|]. apply root_slash; [exact H|].
  intro X. apply ends_with1 in X. congruence.
Qed.

Lemma keep_idem : forall p n, n <> [] -> osp_normpath (keep_slash p n) = osp_normpath n.
Proof.
  intros p n H. apply osp_canonical; [apply keep_root; exact H|]. intro st. apply keep_leads. exact H.
Qed.

Lemma osp_idem : forall p, osp_normpath (osp_normpath p) = osp_normpath p.
Proof. intro p. apply osp_canonical; [apply osp_root|]. intro st. apply osp_leads. Qed.

(** Characters *)

Lemma norm_comps_in : forall abs comps acc x, In x (norm_comps abs comps acc) -> In x comps \/ In x acc.
Proof.
  induction comps as [|c comps IH]; intros acc x H; simpl in H; [right; apply in_rev; exact H|].
  destruct (_ || _)%bool in H; [destruct (IH _ _ H); auto; left; right; assumption|].
  destruct (_ || _)%bool in H.
  - destruct (IH _ _ H) as [A|[->|A]]; [left; right; exact A|left; left; reflexivity|auto].
  - destruct (IH _ _ H) as [A|A]; [left; right; exact A|right].
    destruct acc; [destruct A|right; exact A].
Qed.

Lemma split_chars : forall sep s w c, In w (split_on sep s) -> In c w -> In c s.
Proof.
  intros sep s w c Hw Hc. rewrite <- (join_split sep s).
  induction (split_on sep s) as [|x ws IH]; [destruct Hw|].
  destruct ws as [|y ws].
  - destruct Hw as [->|[]]. exact Hc.
  - change (join [sep] (x :: y :: ws)) with (x ++ sep :: join [sep] (y :: ws)).
    apply in_app_iff. destruct Hw as [->|Hw]; [left; exact Hc|right; right; apply IH; exact Hw].
Qed.

Lemma join_chars : forall sep ws c, In c (join [sep] ws) -> c = sep \/ exists w, In w ws /\ In c w.
Proof.
  induction ws as [|x ws IH]; intros c H; [destruct H|]. destruct ws as [|y ws].
  - right. exists x. split; [left; reflexivity|exact H].
  - change (join [sep] (x :: y :: ws)) with (x ++ sep :: join [sep] (y :: ws)) in H.
    apply in_app_iff in H. destruct H as [H|[->|H]]; [right; exists x; split; [left; reflexivity|exact H]|auto|].
    destruct (IH c H) as [->|(w & Hw & Hc)]; [auto|]. right. exists w. split; [right; exact Hw|exact Hc].
Qed.

Lemma osp_chars : forall p c, In c (osp_normpath p) -> In c p \/ c = 46%N \/ c = 47%N.
Proof.
  intros [|a p] c H; [destruct H as [<-|[]]; auto|]. unfold osp_normpath in H.
  change (chr "/") with 47%N in H. change (lit "/") with [47%N] in H.
  destruct (repeat 47%N _ ++ _) eqn:E in H; [destruct H as [<-|[]]; auto|].
  rewrite <- E in H. clear E. apply in_app_iff in H. destruct H as [H|H]; [apply repeat_spec in H; auto|].
  apply join_chars in H. destruct H as [->|(w & Hw & Hc)]; [auto|].
  apply norm_comps_in in Hw. destruct Hw as [Hw|[]]. left. exact (split_chars _ _ _ _ Hw Hc).
Qed.

Lemma osp_plain : forall p, plain p -> plain (osp_normpath p).
Proof.
  intros p [A B]. split; intro H; apply osp_chars in H; destruct H as [H|[H|H]]; try discriminate; auto.
Qed.

Lemma is_dir_plain : forall p, plain p -> is_dir p = true <-> exists q c, p = q ++ [c; 47%N] /\ c <> 47%N.
Proof.
  intros p [A B]. unfold is_dir.
  assert (X : ends_with [10%N] p = false).
  { apply not_true_iff_false. unfold ends_with. rewrite andb_true_iff. intros [L E].
    apply str_eqb_eq in E. apply B. rewrite <- (firstn_skipn (length p - length [10%N]) p).
    apply in_app_iff. right. rewrite <- E. left. reflexivity. }
  rewrite X, orb_false_r. unfold sep_at_end. split.
  - destruct (rev p) as [|y [|x r]] eqn:E; try discriminate. intro H. apply andb_true_iff in H.
    destruct H as [H1 H2]. apply (f_equal (@rev N)) in E. rewrite rev_involutive in E. subst p.
    simpl in *. rewrite <- app_assoc in *. simpl in *. exists (rev r), x.
    unfold is_sep in H1, H2. change (chr "/") with 47%N in *. change (chr "\") with 92%N in *.
    assert (y = 47%N).
    { apply orb_true_iff in H1. destruct H1 as [H1|H1]; apply N.eqb_eq in H1; subst; [reflexivity|].
      destruct A. apply in_app_iff. right. right. left. reflexivity. }
    subst y. split; [reflexivity|]. intros ->. discriminate.
  - intros (q & c & -> & Hc). rewrite rev_app_distr. simpl. unfold is_sep.
    change (chr "/") with 47%N. change (chr "\") with 92%N. simpl.
    destruct (N.eqb_spec c 47); [contradiction|]. destruct (N.eqb_spec c 92) as [->|]; [|reflexivity].
    destruct A. apply in_app_iff. right. left. reflexivity.
Qed.

Lemma normpath_idem : forall p, plain p -> normpath (normpath p) = normpath p.
Proof.
  intros p H. unfold normpath at 1. unfold normpath at 2.
  rewrite keep_idem by apply osp_not_nil. rewrite osp_idem.
  set (n := osp_normpath p). assert (Nn := osp_not_nil p). fold n in Nn.
  assert (Pn := osp_plain p H). fold n in Pn. unfold normpath. fold n.
  rewrite (keep_slash_spec p). rewrite keep_slash_spec.
  destruct (ends_with (lit "/") n) eqn:E.
  - destruct (is_dir p); destruct (is_dir n); reflexivity.
  - assert (Ne : ~ ends_slash n) by (intro X; apply ends_with1 in X; congruence).
    destruct (last_char n) as [X|[X|(q & c & X & Hc)]]; [contradiction|contradiction|].
    destruct (is_dir p).
    + replace (is_dir (n ++ [47%N])) with true; [reflexivity|]. symmetry. apply is_dir_plain.
      * destruct Pn as [A B]. split; intro I; apply in_app_iff in I; destruct I as [I|[I|[]]]; auto; discriminate.
      * exists q, c. rewrite X, <- app_assoc. auto.
    + replace (is_dir n) with false; [reflexivity|]. symmetry. apply not_true_iff_false. intro D.
      apply is_dir_plain in D; [|exact Pn]. destruct D as (q' & c' & D & _). apply Ne.
      exists (q' ++ [c']). rewrite D, <- app_assoc. reflexivity.
Qed.

Lemma part_end : forall n, part n -> exists q c, n = q ++ [c] /\ c <> 47%N.
Proof.
  intros n H. assert (S := part_no_slash n H). destruct (part_first n H) as (c0 & s & E & _).
  destruct (last_char n) as [[q X]|[X|X]]; [|congruence|exact X].
  destruct S. rewrite X. apply in_app_iff. right. left. reflexivity.
Qed.

Lemma join_end : forall comps, Forall part comps -> comps <> [] ->
  exists q c, join [47%N] comps = q ++ [c] /\ c <> 47%N.
Proof.
  induction comps as [|x comps IH]; intros H N; [congruence|]. inversion H; subst.
  destruct comps as [|y comps]; [apply part_end; assumption|].
  destruct IH as (q & c & E & Hc); [assumption|discriminate|].
  change (join [47%N] (x :: y :: comps)) with (x ++ 47%N :: join [47%N] (y :: comps)).
  rewrite E. exists (x ++ 47%N :: q), c. split; [rewrite <- app_assoc; reflexivity|exact Hc].
Qed.

Lemma osp_ends : forall p, ends_slash (osp_normpath p) -> osp_normpath p = [47%N] \/ osp_normpath p = [47; 47]%N.
Proof.
  intros p H. destruct (osp_form p) as (u & names & A & _ & E & _). rewrite E in *. clear E.
  assert (P := parts_form u names A). destruct (repeat DD u ++ names) as [|x comps] eqn:Ec.
  - destruct (root_of p); simpl in *; [|auto|auto]. destruct H as [q E]. unfold render in E. simpl in E.
    change [46%N] with ([] ++ [46%N]) in E. apply app_inj_tail in E. destruct E; discriminate.
  - exfalso. destruct (join_end (x :: comps) P ltac:(discriminate)) as (q & c & E & Hc).
    unfold render in H. rewrite E in H. destruct H as [q' E'].
    destruct (repeat 47%N (slashes (root_of p)) ++ q ++ [c]) as [|y l] eqn:El.
    + apply app_eq_nil in El. destruct El as [_ El]. destruct q; discriminate.
    + rewrite <- El, app_assoc in E'. apply app_inj_tail in E'. destruct E'; contradiction.
Qed.

Lemma abspath_leads : forall cwd p st, root_of cwd <> Relative ->
  leads_to st (abspath cwd p) = leads_to (leads_to [] cwd) p /\ root_of (abspath cwd p) <> Relative.
Proof.
  intros cwd p st H. unfold abspath, osp_abspath.
  rewrite keep_leads, keep_root by apply osp_not_nil. rewrite osp_leads, osp_root.
  assert (A := proj2 (abs_root cwd) H).
  assert (Sp : starts_with (lit "/") p = abs_of p).
  { destruct p as [|c p]; [reflexivity|]. apply starts1. }
  rewrite Sp. destruct (abs_of p) eqn:E.
  - split; [|apply abs_root; exact E]. rewrite !leads_to_eq, E. reflexivity.
  - unfold osp_join. rewrite Sp. destruct cwd as [|a cwd]; [discriminate|].
    destruct (ends_with (lit "/") (a :: cwd)) eqn:Ee.
    + assert (A' : abs_of ((a :: cwd) ++ p) = true) by (rewrite abs_of_app; [exact A|discriminate]).
      split; [|apply abs_root; exact A'].
      rewrite (leads_to_eq _ p), E. rewrite !leads_to_eq, A', A.
      apply ends_with1 in Ee. destruct Ee as [q Eq]. rewrite Eq, <- app_assoc. cbn [app].
      rewrite !split_on_cat. simpl (split_on 47%N []). rewrite !walk_app. reflexivity.
    + assert (A' : abs_of ((a :: cwd) ++ lit "/" ++ p) = true) by (rewrite abs_of_app; [exact A|discriminate]).
      split; [|apply abs_root; exact A'].
      rewrite (leads_to_eq _ p), E. rewrite !leads_to_eq, A', A.
      change (lit "/" ++ p) with (47%N :: p). rewrite split_on_cat, walk_app. reflexivity.
Qed.
