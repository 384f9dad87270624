From Coq Require Import String.
From Verif Require Import PyBase PyBase_Proofs OsPath_Model OsPath_Spec OsPath_Proofs.
From Verif Require Import Bump_Model Bump_Spec.

(** ** Texts *)

Lemma starts_with_app : forall p s, starts_with p s = true <-> exists r, s = p ++ r.
Proof.
  intros p s. unfold starts_with. rewrite str_eqb_eq. split.
  - intros E. exists (skipn (length p) s). rewrite E at 1. symmetry. apply firstn_skipn.
  - intros [r ->]. rewrite firstn_app, firstn_all, Nat.sub_diag. simpl. rewrite app_nil_r. reflexivity.
Qed.

Fixpoint pieces_from (old : pystr) (s : pystr) (skip : nat) : list pystr :=
  match s with
  | [] => [[]]
  | c :: s' =>
      match skip with
      | S k => pieces_from old s' k
      | O => if starts_with old s then [] :: pieces_from old s' (length old - 1)
             else match pieces_from old s' 0 with
                  | w :: ws => (c :: w) :: ws
                  | [] => [[c]]
                  end
      end
  end.

Lemma pieces_ne : forall old s k, pieces_from old s k <> [].
Proof.
  intros old. induction s as [|c s IH]; intros k; [discriminate|].
  cbn [pieces_from]. destruct k; [|apply IH].
  destruct (starts_with old (c :: s)); [discriminate|].
  destruct (pieces_from old s 0); discriminate.
Qed.

Lemma join_cons_ne : forall sep p ps, ps <> [] -> join sep (p :: ps) = p ++ sep ++ join sep ps.
Proof. intros sep p [|q ps] H; [congruence|reflexivity]. Qed.

Lemma join_cons_char : forall sep c w ws, join sep ((c :: w) :: ws) = c :: join sep (w :: ws).
Proof. intros sep c w [|q ps]; reflexivity. Qed.

Lemma replace_pieces : forall old new s k, replace_from old new s k = join new (pieces_from old s k).
Proof.
  intros old new. induction s as [|c s IH]; intros k; [reflexivity|].
  cbn [replace_from pieces_from]. destruct k; [|apply IH].
  destruct (starts_with old (c :: s)).
  - rewrite join_cons_ne by apply pieces_ne. rewrite IH. reflexivity.
  - rewrite IH. pose proof (pieces_ne old s 0) as H.
    destruct (pieces_from old s 0) as [|w ws]; [congruence|].
    rewrite join_cons_char. reflexivity.
Qed.

Lemma count_pieces : forall old s k, S (count_from old s k) = length (pieces_from old s k).
Proof.
  intros old. induction s as [|c s IH]; intros k; [reflexivity|].
  cbn [count_from pieces_from]. destruct k; [|apply IH].
  destruct (starts_with old (c :: s)).
  - cbn [length]. rewrite <- IH. reflexivity.
  - rewrite IH. pose proof (pieces_ne old s 0) as H.
    destruct (pieces_from old s 0) as [|w ws]; [congruence|]. reflexivity.
Qed.

Lemma pieces_join : forall old, old <> [] -> forall s k,
  join old (pieces_from old s k) = skipn k s.
Proof.
  intros old Ho. induction s as [|c s IH]; intros k; [destruct k; reflexivity|].
  cbn [pieces_from]. destruct k; [|cbn [skipn]; apply IH].
  destruct (starts_with old (c :: s)) eqn:E.
  - rewrite join_cons_ne by apply pieces_ne. rewrite IH. cbn [skipn app].
    apply starts_with_app in E. destruct E as [r E].
    destruct old as [|o old]; [congruence|]. cbn [app] in E.
    injection E as -> ->. cbn [length]. rewrite Nat.sub_succ, Nat.sub_0_r.
    rewrite skipn_app, skipn_all, Nat.sub_diag. reflexivity.
  - pose proof (pieces_ne old s 0) as H. specialize (IH 0).
    destruct (pieces_from old s 0) as [|w ws]; [congruence|].
    rewrite join_cons_char, IH. reflexivity.
Qed.

Lemma removelast_app1 : forall (o : pystr), o <> [] -> exists c, o = removelast o ++ [c].
Proof. intros o H. exists (last o 0%N). apply app_removelast_last. exact H. Qed.

(** No piece reaches the next occurrence. *)
Lemma pieces_clean : forall old, old <> [] -> forall s k,
  (forall p a b q, pieces_from old s k = a ++ p :: q :: b -> ~ occurs old (p ++ removelast old)) /\
  (forall z a, pieces_from old s k = a ++ [z] -> ~ occurs old z).
Proof.
  intros old Ho. induction s as [|c s IH]; intros k.
  - cbn [pieces_from]. split.
    + intros p [|x a] b q E; [discriminate|]. destruct a; discriminate.
    + intros z [|x a] E; [|destruct a; discriminate].
      injection E as <-. intros (l & r & E). destruct old; [congruence|]. destruct l; discriminate.
  - cbn [pieces_from]. destruct k as [|k]; [|apply IH].
    destruct (starts_with old (c :: s)) eqn:E.
    + destruct (IH (length old - 1)) as [I1 I2]. split.
      * intros p [|x a] b q Ep.
        -- injection Ep as <- _. intros (l & r & El). cbn [app] in El.
           apply (f_equal (@length N)) in El. rewrite !app_length in El.
           destruct (removelast_app1 old Ho) as [y Hy].
           apply (f_equal (@length N)) in Hy. rewrite app_length in Hy. simpl in Hy. lia.
        -- injection Ep as <- Ep. exact (I1 _ _ _ _ Ep).
      * intros z [|x a] Ep.
        -- injection Ep as <- Ep. exfalso. exact (pieces_ne _ _ _ Ep).
        -- injection Ep as <- Ep. exact (I2 _ _ Ep).
    + destruct (IH 0) as [I1 I2].
      assert (J : join old (pieces_from old s 0) = s) by (rewrite pieces_join by exact Ho; reflexivity).
      pose proof (pieces_ne old s 0) as Hne.
      destruct (pieces_from old s 0) as [|w ws] eqn:Ew; [congruence|].
      assert (Hno : forall r, c :: s <> old ++ r).
      { intros r Er. assert (starts_with old (c :: s) = true) as T by (apply starts_with_app; exists r; exact Er).
        congruence. }
      split.
      * intros p [|x a] b q Ep.
        -- injection Ep as <- Ews. intros (l & r & El).
           destruct l as [|l0 l].
           ++ cbn [app] in El.
              destruct (removelast_app1 old Ho) as [y Hy].
              subst ws. rewrite join_cons_ne in J by discriminate.
              rewrite Hy in J at 1. rewrite <- app_assoc, app_assoc in J.
              apply (Hno (r ++ [y] ++ join old (q :: b))).
              rewrite <- J. rewrite (app_assoc old r). rewrite <- El. reflexivity.
           ++ cbn [app] in El. injection El as <- El.
              apply (I1 w [] b q); [rewrite Ews; reflexivity|]. exists l, r. exact El.
        -- injection Ep as <- Ep. apply (I1 p (w :: a) b q). rewrite Ep. reflexivity.
      * intros z [|x a] Ep.
        -- injection Ep as <- Ews. subst ws. cbn [join] in J. subst s.
           intros (l & r & El). destruct l as [|l0 l].
           ++ exact (Hno r El).
           ++ injection El as <- El. apply (I2 w []); [reflexivity|]. exists l, r. exact El.
        -- injection Ep as <- Ep. apply (I2 z (w :: a)). rewrite Ep. reflexivity.
Qed.

Lemma replace_spec : forall old new s, old <> [] ->
  replaced old new s (replace old new s) (count old s).
Proof.
  intros old new s Ho. unfold replaced, replace, count.
  pose proof (pieces_ne old s 0) as Hne.
  destruct (exists_last Hne) as (init & z & E).
  exists init, z. destruct (pieces_clean old Ho s 0) as [C1 C2].
  repeat split.
  - rewrite <- E, pieces_join by exact Ho. reflexivity.
  - rewrite replace_pieces, E. reflexivity.
  - pose proof (count_pieces old s 0) as Hc. rewrite E, app_length in Hc. simpl in Hc. lia.
  - intros p Hp. apply in_split in Hp. destruct Hp as (a & b & ->).
    rewrite <- app_assoc in E. cbn [app] in E. destruct b as [|b0 b].
    + exact (C1 p a [] z E).
    + exact (C1 p a _ b0 E).
  - exact (C2 _ _ E).
Qed.

(** The specification pins the text down. *)
Lemma join_app_last : forall sep init z, init <> [] ->
  join sep (init ++ [z]) = join sep init ++ sep ++ z.
Proof.
  intros sep. induction init as [|p init IH]; intros z H; [congruence|].
  destruct init as [|q init]; [reflexivity|].
  change ((p :: q :: init) ++ [z]) with (p :: (q :: init) ++ [z]).
  rewrite !join_cons_ne by (try discriminate; destruct init; discriminate).
  rewrite IH by discriminate. rewrite !app_assoc. reflexivity.
Qed.

Lemma replace_absent : forall old new s, old <> [] -> ~ occurs old s -> replace old new s = s.
Proof.
  intros old new s Ho Hn. destruct (replace_spec old new s Ho) as (init & z & E1 & E2 & _).
  destruct init as [|p init].
  - rewrite E2. rewrite E1. reflexivity.
  - exfalso. apply Hn. rewrite E1.
    cbn [app]. rewrite join_cons_ne by (destruct init; discriminate).
    exists p, (join old (init ++ [z])). reflexivity.
Qed.

Lemma replace_whole : forall old new, old <> [] -> replace old new old = new.
Proof.
  intros old new Ho. unfold replace. destruct old as [|c old]; [congruence|].
  cbn [replace_from].
  replace (starts_with (c :: old) (c :: old)) with true
    by (symmetry; apply starts_with_app; exists []; rewrite app_nil_r; reflexivity).
  cbn [length]. rewrite Nat.sub_succ, Nat.sub_0_r.
  assert (H : forall o s, replace_from o new s (length s) = []).
  { intros o. induction s as [|x s IH]; [reflexivity|]. cbn [replace_from length]. exact IH. }
  rewrite H, app_nil_r. reflexivity.
Qed.

(** Occurrences do not run over quotes. *)
Lemma prefix_before_quote : forall old r x b, ~ In 34%N old -> x ++ 34%N :: b = old ++ r ->
  exists r', x = old ++ r'.
Proof.
  induction old as [|o old IH]; intros r x b Hq E; [exists x; reflexivity|].
  destruct x as [|c x].
  - injection E as <- _. exfalso. apply Hq. left. reflexivity.
  - injection E as -> E. destruct (IH r x b (fun H => Hq (or_intror H)) E) as [r' ->].
    exists r'. reflexivity.
Qed.

Lemma replace_from_quote : forall old new, old <> [] -> ~ In 34%N old -> forall a b k,
  k <= length a ->
  replace_from old new (a ++ 34%N :: b) k = replace_from old new a k ++ 34%N :: replace_from old new b 0.
Proof.
  intros old new Ho Hq. induction a as [|c a IH]; intros b k Hk.
  - destruct k; [|simpl in Hk; lia]. cbn [app replace_from].
    destruct (starts_with old (34%N :: b)) eqn:E; [|reflexivity].
    exfalso. apply starts_with_app in E. destruct E as [r E]. destruct old as [|o old]; [congruence|].
    injection E as <- _. apply Hq. left. reflexivity.
  - cbn [app replace_from]. destruct k as [|k].
    + change (c :: a ++ 34%N :: b) with ((c :: a) ++ 34%N :: b).
      assert (Eq : starts_with old ((c :: a) ++ 34%N :: b) = starts_with old (c :: a)).
      { apply eq_true_iff_eq. rewrite !starts_with_app. split.
        - intros [r E]. exact (prefix_before_quote old r (c :: a) b Hq E).
        - intros [r E]. exists (r ++ 34%N :: b). rewrite E. rewrite <- app_assoc. reflexivity. }
      rewrite Eq. destruct (starts_with old (c :: a)) eqn:E.
      * rewrite IH; [rewrite app_assoc; reflexivity|].
        apply starts_with_app in E. destruct E as [r E]. apply (f_equal (@length N)) in E.
        rewrite app_length in E. simpl in E. lia.
      * rewrite IH by lia. reflexivity.
    + apply IH. simpl in Hk. lia.
Qed.

Lemma replace_quote : forall old new a b, old <> [] -> ~ In 34%N old ->
  replace old new (a ++ 34%N :: b) = replace old new a ++ 34%N :: replace old new b.
Proof. intros. apply replace_from_quote; auto; lia. Qed.

(** ** What is found between quotes *)

Fixpoint find_piece (label : pystr) (ps : list pystr) : option pystr :=
  match ps with
  | p :: rest =>
      match rest with
      | q :: _ :: _ => if ends_with label p && negb (str_eqb q []) then Some q
                       else find_piece label rest
      | _ => None
      end
  | [] => None
  end.

Lemma ends_with_app : forall p s, ends_with p s = true <-> exists l, s = l ++ p.
Proof.
  intros p s. unfold ends_with. rewrite andb_true_iff, Nat.leb_le, str_eqb_eq. split.
  - intros [L E]. exists (firstn (length s - length p) s).
    rewrite E at 2. symmetry. apply firstn_skipn.
  - intros [l ->]. rewrite app_length. split; [lia|].
    replace (length l + length p - length p) with (length l) by lia.
    rewrite skipn_app, skipn_all, Nat.sub_diag. reflexivity.
Qed.

Lemma span_unquoted_spec : forall s a b, span_unquoted s = (a, b) ->
  s = a ++ b /\ ~ In 34%N a /\ (b = [] \/ exists r, b = 34%N :: r).
Proof.
  induction s as [|c s IH]; intros a b E; cbn [span_unquoted] in E.
  - injection E as <- <-. repeat split; auto.
  - destruct (c =? 34)%N eqn:Ec.
    + injection E as <- <-. apply N.eqb_eq in Ec. subst c. repeat split; [intros []|].
      right. exists s. reflexivity.
    + destruct (span_unquoted s) as [a' b'] eqn:Es. injection E as <- <-.
      destruct (IH a' b' eq_refl) as (-> & H1 & H2). repeat split; [|exact H2].
      intros [->|H]; [discriminate|exact (H1 H)].
Qed.

Lemma quoted_here_spec : forall label s v, quoted_here label s = Some v <->
  v <> [] /\ ~ In 34%N v /\ exists r, s = quoted label v ++ r.
Proof.
  intros label s v. unfold quoted_here, quoted.
  destruct (starts_with (label ++ lit """") s) eqn:E.
  - apply starts_with_app in E. destruct E as [r ->].
    rewrite <- app_assoc. rewrite <- (app_length label (lit """")) at 1
      || (replace (length label + 1) with (length (label ++ lit """")) by (rewrite app_length; reflexivity)).
    replace (skipn (length (label ++ lit """")) (label ++ lit """" ++ r)) with r.
    2:{ rewrite app_assoc, skipn_app, skipn_all, Nat.sub_diag. reflexivity. }
    destruct (span_unquoted r) as [a b] eqn:Es.
    pose proof (span_unquoted_spec r a b Es) as (Er & Hq & Hb).
    split.
    + destruct a as [|c a]; [destruct b; discriminate|].
      destruct Hb as [->|[r' ->]]; [discriminate|]. intros H. injection H as <-.
      repeat split; [discriminate|exact Hq|]. exists r'. rewrite Er. rewrite <- !app_assoc. reflexivity.
    + intros (Hv & Hvq & r' & Er').
      rewrite <- !app_assoc in Er'. apply app_inv_head in Er'. apply app_inv_head in Er'.
      rewrite Er in Er'.
      assert (a = v /\ b = lit """" ++ r') as [-> ->].
      { clear - Er' Hq Hvq Hb. revert v Er' Hvq. induction a as [|c a IH]; intros v Er' Hvq.
        - destruct v as [|c v]; [auto|]. destruct Hb as [->|[x ->]]; [discriminate|].
          injection Er' as <- _. exfalso. apply Hvq. left. reflexivity.
        - destruct v as [|d v].
          + injection Er' as -> _. exfalso. apply Hq. left. reflexivity.
          + injection Er' as <- Er'. destruct (IH (fun H => Hq (or_intror H)) v Er' (fun H => Hvq (or_intror H))) as [-> ->].
            auto. }
      destruct v as [|c v]; [congruence|]. reflexivity.
  - split; [discriminate|]. intros (_ & _ & r & ->). exfalso.
    assert (starts_with (label ++ lit """") ((label ++ lit """" ++ v ++ lit """") ++ r) = true) as T.
    { apply starts_with_app. exists (v ++ lit """" ++ r). rewrite <- !app_assoc. reflexivity. }
    congruence.
Qed.

Lemma search_spec : forall label s v, search_quoted label s = Some v -> declares label s v.
Proof.
  intros label. induction s as [|c s IH]; intros v E; cbn [search_quoted] in E.
  - destruct (quoted_here label []) as [g|] eqn:Eh; [|discriminate]. injection E as <-.
    apply quoted_here_spec in Eh. destruct Eh as (H1 & H2 & r & Er).
    exists [], r. repeat split; auto. intros; simpl; lia.
  - destruct (quoted_here label (c :: s)) as [g|] eqn:Eh.
    + injection E as <-. apply quoted_here_spec in Eh. destruct Eh as (H1 & H2 & r & Er).
      exists [], r. repeat split; auto. intros; simpl; lia.
    + destruct (IH v E) as (l & r & Es & H1 & H2 & H3).
      exists (c :: l), r. repeat split; auto; [rewrite Es; reflexivity|].
      intros [|d l'] v' r' E' H4 H5.
      * assert (quoted_here label (c :: s) = Some v') as T
          by (apply quoted_here_spec; repeat split; auto; exists r'; exact E').
        congruence.
      * injection E' as <- E'. apply le_n_S. exact (H3 l' v' r' E' H4 H5).
Qed.

Lemma search_some : forall label s l v r, s = l ++ quoted label v ++ r -> v <> [] -> ~ In 34%N v ->
  exists v', search_quoted label s = Some v'.
Proof.
  intros label. induction s as [|c s IH]; intros l v r E H1 H2; cbn [search_quoted].
  - destruct l; [|discriminate]. assert (quoted_here label [] = Some v) as ->
      by (apply quoted_here_spec; repeat split; auto; exists r; exact E). eauto.
  - destruct (quoted_here label (c :: s)) as [g|] eqn:Eh; [eauto|].
    destruct l as [|d l].
    + assert (quoted_here label (c :: s) = Some v) as T
        by (apply quoted_here_spec; repeat split; auto; exists r; exact E). congruence.
    + injection E as <- E. exact (IH l v r E H1 H2).
Qed.

Lemma quoted_fun : forall label v v' r r', ~ In 34%N v -> ~ In 34%N v' ->
  quoted label v ++ r = quoted label v' ++ r' -> v = v'.
Proof.
  intros label v v' r r' H H' E. unfold quoted in E. rewrite <- !app_assoc in E.
  apply app_inv_head in E. apply app_inv_head in E.
  revert v' H' E. induction v as [|c v IH]; intros [|d v'] H' E; auto.
  - injection E as <- _. exfalso. apply H'. left. reflexivity.
  - injection E as -> _. exfalso. apply H. left. reflexivity.
  - injection E as <- E. f_equal. apply IH; auto.
    + intros I. apply H. right. exact I.
    + intros I. apply H'. right. exact I.
Qed.

Lemma declares_fun : forall label s v v', declares label s v -> declares label s v' -> v = v'.
Proof.
  intros label s v v' (l & r & E & H1 & H2 & H3) (l' & r' & E' & H1' & H2' & H3').
  assert (L : length l = length l') by (apply Nat.le_antisymm; eauto).
  rewrite E in E'. apply app_inj_len in E' || idtac.
  assert (l = l' /\ quoted label v ++ r = quoted label v' ++ r') as [-> Eq].
  { clear - L E'. revert l' L E'. induction l as [|c l IH]; intros [|d l'] L E'; try discriminate; auto.
    injection E' as <- E'. injection L as L. destruct (IH l' L E') as [-> ->]. auto. }
  exact (quoted_fun label v v' r r' H2 H2' Eq).
Qed.

Lemma search_iff : forall label s v, search_quoted label s = Some v <-> declares label s v.
Proof.
  intros label s v. split; [apply search_spec|].
  intros D. pose proof D as (l & r & E & H1 & H2 & _).
  destruct (search_some label s l v r E H1 H2) as [v' E'].
  rewrite E'. f_equal. exact (declares_fun label s v' v (search_spec _ _ _ E') D).
Qed.

Definition close (s : pystr) : option pystr :=
  match span_unquoted s with
  | (c :: a, _ :: _) => Some (c :: a)
  | _ => None
  end.

Lemma unquoted_split : forall s, ~ In 34%N s \/ exists p r, s = p ++ 34%N :: r /\ ~ In 34%N p.
Proof.
  induction s as [|c s IH]; [left; intros []|].
  destruct (N.eq_dec c 34) as [->|Hc].
  - right. exists [], s. split; [reflexivity|intros []].
  - destruct IH as [H|(p & r & -> & H)].
    + left. intros [E|E]; [congruence|exact (H E)].
    + right. exists (c :: p), r. split; [reflexivity|]. intros [E|E]; [congruence|exact (H E)].
Qed.

Lemma span_split : forall p r, ~ In 34%N p -> span_unquoted (p ++ 34%N :: r) = (p, 34%N :: r).
Proof.
  induction p as [|c p IH]; intros r H; [reflexivity|]. cbn [app span_unquoted].
  destruct (c =? 34)%N eqn:E; [apply N.eqb_eq in E; subst; exfalso; apply H; left; reflexivity|].
  rewrite IH; [reflexivity|]. intros I. apply H. right. exact I.
Qed.
Lemma span_all : forall p, ~ In 34%N p -> span_unquoted p = (p, []).
Proof.
  induction p as [|c p IH]; intros H; [reflexivity|]. cbn [span_unquoted].
  destruct (c =? 34)%N eqn:E; [apply N.eqb_eq in E; subst; exfalso; apply H; left; reflexivity|].
  rewrite IH; [reflexivity|]. intros I. apply H. right. exact I.
Qed.

Lemma search_none : forall label s, ~ In 34%N s -> search_quoted label s = None.
Proof.
  intros label s H. destruct (search_quoted label s) as [v|] eqn:E; [|reflexivity].
  apply search_iff in E. destruct E as (l & r & -> & _). exfalso. apply H.
  apply in_or_app. right. apply in_or_app. left. unfold quoted.
  apply in_or_app. right. left. reflexivity.
Qed.

Lemma label_here : forall label p s, ~ In 34%N label -> ~ In 34%N p ->
  quoted_here label (p ++ 34%N :: s) = if str_eqb label p then close s else None.
Proof.
  intros label p s Hl Hp. unfold quoted_here.
  destruct (str_eqb label p) eqn:E.
  - apply str_eqb_eq in E. subst p.
    replace (starts_with (label ++ lit """") (label ++ 34%N :: s)) with true
      by (symmetry; apply starts_with_app; exists s; rewrite <- app_assoc; reflexivity).
    replace (skipn (length label + 1) (label ++ 34%N :: s)) with s; [reflexivity|].
    rewrite skipn_app. rewrite skipn_all2 by lia.
    replace (length label + 1 - length label) with 1 by lia. reflexivity.
  - destruct (starts_with (label ++ lit """") (p ++ 34%N :: s)) eqn:T; [|reflexivity].
    exfalso. apply starts_with_app in T. destruct T as [r T].
    rewrite <- app_assoc in T. cbn in T.
    assert (p = label) as ->; [|rewrite str_eqb_refl in E; discriminate].
    clear E. revert p Hp T. induction label as [|c label IH]; intros p Hp T.
    + destruct p as [|d p]; [reflexivity|]. injection T as -> _. exfalso. apply Hp. left. reflexivity.
    + destruct p as [|d p].
      * injection T as <- _. exfalso. apply Hl. left. reflexivity.
      * injection T as -> T. f_equal. apply IH; auto.
        -- intros I. apply Hl. right. exact I.
        -- intros I. apply Hp. right. exact I.
Qed.

Lemma ends_with_cons : forall l c p, ends_with l (c :: p) = str_eqb l (c :: p) || ends_with l p.
Proof.
  intros l c p. apply eq_true_iff_eq. rewrite orb_true_iff, !ends_with_app, str_eqb_eq. split.
  - intros [[|d a] E]; [left; symmetry; exact E|]. injection E as <- ->. right. exists a. reflexivity.
  - intros [->|[a ->]]; [exists []; reflexivity|exists (c :: a); reflexivity].
Qed.

Lemma ends_with_nil : forall l, ends_with l [] = str_eqb l [].
Proof.
  intros l. apply eq_true_iff_eq. rewrite ends_with_app, str_eqb_eq. split.
  - intros [a E]. symmetry in E. apply app_eq_nil in E. apply E.
  - intros ->. exists []. reflexivity.
Qed.

Lemma search_step : forall label p s, ~ In 34%N label -> ~ In 34%N p ->
  search_quoted label (p ++ 34%N :: s) =
  match (if ends_with label p then close s else None) with
  | Some v => Some v
  | None => search_quoted label s
  end.
Proof.
  intros label p s Hl. induction p as [|c p IH]; intros Hp.
  - rewrite ends_with_nil. cbn [app search_quoted].
    pose proof (label_here label [] s Hl (fun H => H)) as H. cbn [app] in H. rewrite H. reflexivity.
  - cbn [app search_quoted].
    pose proof (label_here label (c :: p) s Hl Hp) as H. cbn [app] in H. rewrite H. clear H.
    rewrite IH by (intros I; apply Hp; right; exact I).
    rewrite ends_with_cons. destruct (str_eqb label (c :: p)); cbn [orb]; [|reflexivity].
    destruct (close s); [reflexivity|]. destruct (ends_with label p); reflexivity.
Qed.

(** ** Replacing keeps what is declared *)

Lemma ends_after : forall label u c z, ~ In c label ->
  ends_with label ((u ++ [c]) ++ z) = ends_with label z.
Proof.
  intros label u c z H. apply eq_true_iff_eq. rewrite !ends_with_app. split.
  - intros [l E].
    destruct (Nat.le_gt_cases (length label) (length z)) as [L|L].
    + exists (firstn (length z - length label) z).
      assert (E2 : skipn (length ((u ++ [c]) ++ z) - length label) ((u ++ [c]) ++ z) = label).
      { rewrite E. rewrite app_length.
        replace (length l + length label - length label) with (length l) by lia.
        rewrite skipn_app, skipn_all, Nat.sub_diag. reflexivity. }
      rewrite <- E2 at 2. rewrite skipn_app, (app_length (u ++ [c])).
      rewrite skipn_all2 by lia.
      replace (length (u ++ [c]) + length z - length label - length (u ++ [c]))
        with (length z - length label) by lia.
      symmetry. apply firstn_skipn.
    + exfalso. apply H.
      assert (El : exists k, label = k ++ c :: z).
      { exists (skipn (length l) u).
        apply (f_equal (skipn (length l))) in E.
        rewrite (skipn_app (length l) l), skipn_all, Nat.sub_diag in E. cbn [skipn app] in E.
        rewrite <- E. rewrite <- app_assoc. rewrite skipn_app.
        assert (Hl : length l <= length u).
        { apply (f_equal (@length N)) in E.
          rewrite skipn_length, !app_length in E. simpl in E. lia. }
        replace (length l - length u) with 0 by lia. reflexivity. }
      destruct El as [k ->]. apply in_or_app. right. left. reflexivity.
  - intros [l ->]. exists ((u ++ [c]) ++ l). rewrite app_assoc. reflexivity.
Qed.

Definition apart (label v : pystr) : Prop := exists u c, v = u ++ [c] /\ ~ In c label.

Lemma apart_ne : forall label v, apart label v -> v <> [].
Proof. intros label v (u & c & -> & _) E. apply app_eq_nil in E. destruct E; discriminate. Qed.

Lemma ends_replace : forall label old new p, apart label old -> apart label new ->
  ends_with label (replace old new p) = ends_with label p.
Proof.
  intros label old new p Ho Hn.
  destruct (replace_spec old new p (apart_ne _ _ Ho)) as (init & z & E1 & E2 & _).
  rewrite E2. rewrite E1 at 1.
  destruct init as [|i init]; [reflexivity|].
  rewrite !join_app_last by discriminate.
  destruct Ho as (uo & co & -> & Ho). destruct Hn as (un & cn & -> & Hn).
  rewrite (app_assoc _ (un ++ [cn]) z), (app_assoc _ (uo ++ [co]) z).
  rewrite (app_assoc _ un [cn]), (app_assoc _ uo [co]).
  rewrite !ends_after by assumption. reflexivity.
Qed.

Lemma join_in : forall sep ps c, In c (join sep ps) -> In c sep \/ exists p, In p ps /\ In c p.
Proof.
  intros sep. induction ps as [|p ps IH]; intros c H; [destruct H|].
  destruct ps as [|q ps].
  - right. exists p. split; [left; reflexivity|exact H].
  - rewrite join_cons_ne in H by discriminate.
    apply in_app_or in H. destruct H as [H|H]; [right; exists p; split; [left; reflexivity|exact H]|].
    apply in_app_or in H. destruct H as [H|H]; [left; exact H|].
    destruct (IH c H) as [H'|(x & H1 & H2)]; [left; exact H'|].
    right. exists x. split; [right; exact H1|exact H2].
Qed.
Lemma in_join : forall sep ps p c, In p ps -> In c p -> In c (join sep ps).
Proof.
  intros sep. induction ps as [|q ps IH]; intros p c H1 H2; [destruct H1|].
  destruct ps as [|q' ps].
  - destruct H1 as [->|[]]. exact H2.
  - rewrite join_cons_ne by discriminate. destruct H1 as [->|H1].
    + apply in_or_app. left. exact H2.
    + apply in_or_app. right. apply in_or_app. right. exact (IH p c H1 H2).
Qed.

Lemma replace_chars : forall old new s c, old <> [] -> In c (replace old new s) -> In c new \/ In c s.
Proof.
  intros old new s c Ho H. destruct (replace_spec old new s Ho) as (init & z & E1 & E2 & _).
  rewrite E2 in H. apply join_in in H. destruct H as [H|(p & H1 & H2)]; [left; exact H|].
  right. rewrite E1. exact (in_join _ _ _ _ H1 H2).
Qed.

Lemma replace_ne : forall old new s, old <> [] -> new <> [] -> s <> [] -> replace old new s <> [].
Proof.
  intros old new s Ho Hn Hs. unfold replace. destruct s as [|c s]; [congruence|]. cbn [replace_from].
  destruct (starts_with old (c :: s)); [|discriminate].
  intros E. apply app_eq_nil in E. destruct E. congruence.
Qed.

Lemma close_replace : forall old new s, old <> [] -> new <> [] -> ~ In 34%N old -> ~ In 34%N new ->
  close (replace old new s) = option_map (replace old new) (close s).
Proof.
  intros old new s Ho Hn Hoq Hnq. unfold close.
  assert (Hq : forall q, ~ In 34%N q -> ~ In 34%N (replace old new q)).
  { intros q H I. apply replace_chars in I; [|exact Ho]. destruct I; auto. }
  destruct (unquoted_split s) as [H|(p & r & -> & H)].
  - rewrite !span_all by auto. destruct s; destruct (replace old new _); reflexivity.
  - rewrite replace_quote by auto. rewrite !span_split by auto.
    destruct p as [|c p]; [reflexivity|].
    pose proof (replace_ne old new (c :: p) Ho Hn) as N1.
    destruct (replace old new (c :: p)) eqn:E; [exfalso; apply N1; [discriminate|reflexivity]|].
    cbn [option_map]. rewrite E. reflexivity.
Qed.

Lemma search_replace : forall label old new s, ~ In 34%N label ->
  apart label old -> apart label new -> ~ In 34%N old -> ~ In 34%N new ->
  search_quoted label (replace old new s) = option_map (replace old new) (search_quoted label s).
Proof.
  intros label old new s Hl Ho Hn Hoq Hnq.
  pose proof (apart_ne _ _ Ho) as Ho'. pose proof (apart_ne _ _ Hn) as Hn'.
  assert (Hq : forall q, ~ In 34%N q -> ~ In 34%N (replace old new q)).
  { intros q H I. apply replace_chars in I; [|exact Ho']. destruct I; auto. }
  remember (length s) as n eqn:En. assert (L : length s <= n) by lia. clear En. revert s L.
  induction n as [|n IH]; intros s L.
  - destruct s; [|simpl in L; lia]. rewrite !search_none; [reflexivity|intros []|apply Hq; intros []].
  - destruct (unquoted_split s) as [H|(p & r & -> & H)].
    + rewrite !search_none by auto. reflexivity.
    + rewrite replace_quote by auto. rewrite !search_step by auto.
      rewrite ends_replace by assumption. rewrite close_replace by auto.
      assert (IHr : search_quoted label (replace old new r) = option_map (replace old new) (search_quoted label r)).
      { apply IH. rewrite app_length in L. simpl in L. lia. }
      rewrite IHr. destruct (ends_with label p); [|reflexivity].
      destruct (close r); reflexivity.
Qed.

Lemma universal_unix : forall s, unix s -> universal_newlines s = s.
Proof.
  unfold unix. fix IH 1. intros [|c s] H; [reflexivity|]. cbn [universal_newlines].
  destruct (c =? 13)%N eqn:E.
  - apply N.eqb_eq in E. subst. exfalso. apply H. left. reflexivity.
  - f_equal. apply IH. intros I. apply H. right. exact I.
Qed.

(** ** Runs *)

Definition st {A} (x : list event * world * A) : world := snd (fst x).
Definition evs {A} (x : list event * world * A) : list event := fst (fst x).

Lemma bind_in : forall A B (m : run A) (f : A -> run B) w es w1 a,
  m w = (es, w1, inl a) ->
  bind m f w = (es ++ evs (f a w1), st (f a w1), snd (f a w1)).
Proof.
  intros A B m f w es w1 a E. unfold bind, evs, st. rewrite E.
  destruct (f a w1) as [[es' w2] r]. reflexivity.
Qed.

Definition keeps {A} (m : run A) : Prop := forall w, files (st (m w)) = files w.
Definition emits {A} (P : event -> Prop) (m : run A) : Prop := forall w, Forall P (evs (m w)).

Lemma keeps_bind : forall A B (m : run A) (f : A -> run B), keeps m -> (forall a, keeps (f a)) ->
  keeps (bind m f).
Proof.
  intros A B m f Hm Hf w. unfold bind, st in *. specialize (Hm w). unfold st in Hm.
  destruct (m w) as [[es w1] [a|e]]; cbn [fst snd] in *; [|exact Hm].
  specialize (Hf a w1). unfold st in Hf. destruct (f a w1) as [[es' w2] r]; cbn [fst snd] in *.
  congruence.
Qed.
Lemma keeps_ret : forall A (a : A), keeps (ret a). Proof. intros A a w. reflexivity. Qed.
Lemma keeps_stop : forall A e, keeps (@stop A e). Proof. intros A a w. reflexivity. Qed.
Lemma keeps_emit : forall e, keeps (emit e). Proof. intros e w. reflexivity. Qed.
Lemma keeps_each : forall A (f : A -> run unit) l, (forall a, keeps (f a)) -> keeps (each f l).
Proof.
  intros A f l H. induction l as [|a l IH]; [apply keeps_ret|].
  cbn [each]. apply keeps_bind; [apply H|intros _; exact IH].
Qed.
Lemma keeps_read : forall f, keeps (read_txtfile f).
Proof.
  intros f w. unfold read_txtfile, st. destruct (dget str_eqb f (memo w)); [reflexivity|].
  destruct (dget str_eqb (osp_normpath f) (files w)); reflexivity.
Qed.

Lemma emits_bind : forall A B P (m : run A) (f : A -> run B), emits P m -> (forall a, emits P (f a)) ->
  emits P (bind m f).
Proof.
  intros A B P m f Hm Hf w. unfold bind, evs in *. specialize (Hm w). unfold evs in Hm.
  destruct (m w) as [[es w1] [a|e]]; cbn [fst snd] in *; [|exact Hm].
  specialize (Hf a w1). unfold evs in Hf. destruct (f a w1) as [[es' w2] r]; cbn [fst snd] in *.
  apply Forall_app. auto.
Qed.
Lemma emits_ret : forall A P (a : A), emits P (ret a). Proof. intros A P a w. constructor. Qed.
Lemma emits_stop : forall A P e, emits P (@stop A e). Proof. intros A P a w. constructor. Qed.
Lemma emits_emit : forall (P : event -> Prop) e, P e -> emits P (emit e).
Proof. intros P e H w. repeat constructor; exact H. Qed.
Lemma emits_each : forall A P (f : A -> run unit) l, (forall a, emits P (f a)) -> emits P (each f l).
Proof.
  intros A P f l H. induction l as [|a l IH]; [apply emits_ret|].
  cbn [each]. apply emits_bind; [apply H|intros _; exact IH].
Qed.
Lemma emits_read : forall P f, emits P (read_txtfile f).
Proof.
  intros P f w. unfold read_txtfile, evs. destruct (dget str_eqb f (memo w)); [constructor|].
  destruct (dget str_eqb (osp_normpath f) (files w)); constructor.
Qed.

Lemma each_lines : forall A (g : A -> event) l w,
  each (fun a => emit (g a)) l w = (map g l, w, inl tt).
Proof.
  intros A g l w. induction l as [|a l IH]; [reflexivity|].
  cbn [each]. rewrite (bind_in _ _ _ _ w [g a] w tt eq_refl). rewrite IH. reflexivity.
Qed.

(** What a read of [f] sees. *)
Definition sees (w : world) (f t : pystr) : Prop :=
  match dget str_eqb f (memo w) with
  | Some x => x = t
  | None => dget str_eqb (osp_normpath f) (files w) = Some t /\ unix t
  end.

Lemma read_sees : forall w f t, sees w f t -> exists w',
  read_txtfile f w = ([], w', inl t) /\ files w' = files w /\
  dget str_eqb f (memo w') = Some t /\
  (forall g, g <> f -> dget str_eqb g (memo w') = dget str_eqb g (memo w)).
Proof.
  intros w f t H. unfold sees in H. unfold read_txtfile.
  destruct (dget str_eqb f (memo w)) as [x|] eqn:E.
  - subst x. exists w. repeat split; auto.
  - destruct H as [-> U]. rewrite (universal_unix t U).
    eexists. split; [reflexivity|]. cbn [files memo]. repeat split.
    + apply dget_dset_eq. exact str_eqb_eq.
    + intros g Hg. apply dget_dset_neq; [exact str_eqb_eq|congruence].
Qed.

Section Script.
  Variable vfile rfile now : pystr.
  Variable tests_pass : bool.
  Variable exit_code : list pystr -> nat.

  Lemma substitute_pair : forall v n d m t,
    substitute [(v, n); (d, m)] t =
    (replace d m (replace v n t), [(v, n, count v t); (d, m, count d (replace v n t))]).
  Proof. reflexivity. Qed.

  Lemma bump_written : forall w f t pairs, sees w f t -> exists es w',
    bump_file false pairs f w = (es, w', inl tt) /\
    files w' = dset str_eqb (osp_normpath f) (fst (substitute pairs t)) (files w) /\
    (forall g, g <> f -> dget str_eqb g (memo w') = dget str_eqb g (memo w)).
  Proof.
    intros w f t pairs H. destruct (read_sees w f t H) as (w1 & E & Ef & Em & Eo).
    unfold bump_file. rewrite (bind_in _ _ _ _ _ _ _ _ E).
    destruct (substitute pairs t) as [nt reps]. cbn [fst].
    rewrite (bind_in _ _ (write_txtfile f nt) _ w1 _ _ tt eq_refl).
    rewrite (bind_in _ _ (emit _) _ _ _ _ tt eq_refl). rewrite each_lines.
    eexists. eexists. split; [reflexivity|]. cbn [evs st fst snd files memo]. split.
    - rewrite Ef. reflexivity.
    - exact Eo.
  Qed.

  Lemma keeps_tests : keeps (run_testcases tests_pass).
  Proof.
    unfold run_testcases. apply keeps_bind; [apply keeps_emit|].
    intros _. destruct tests_pass; [apply keeps_ret|apply keeps_stop].
  Qed.
  Lemma keeps_cmd : forall dry c, keeps (do_cmd exit_code dry c).
  Proof.
    intros dry c. unfold do_cmd. destruct dry; [apply keeps_emit|].
    apply keeps_bind; [apply keeps_emit|]. intros _. unfold exec_cmd.
    apply keeps_bind; [apply keeps_emit|]. intros _.
    destruct (exit_code c =? 0); [apply keeps_ret|apply keeps_stop].
  Qed.
  Lemma keeps_commit : forall n v dry fs, keeps (do_commit exit_code n v dry fs).
  Proof. intros. unfold do_commit. apply keeps_each. intros c. apply keeps_cmd. Qed.

  (** What follows the files. *)
  Definition later (n v : pystr) (dry : bool) (fs : list pystr) (a : after) : run unit :=
    bind (emit (Line (lit "...now launching DocTCs..."))) (fun _ =>
    bind (run_testcases tests_pass) (fun _ =>
    match a with
    | Nothing => ret tt
    | Commit => do_commit exit_code n v dry fs
    | Tag msg =>
        bind (do_commit exit_code n v dry fs) (fun _ => do_tag exit_code (lit "v" ++ n) msg dry)
    end)).

  Lemma keeps_later : forall n v dry fs a, keeps (later n v dry fs a).
  Proof.
    intros. unfold later. apply keeps_bind; [apply keeps_emit|]. intros _.
    apply keeps_bind; [apply keeps_tests|]. intros _. destruct a.
    - apply keeps_ret.
    - apply keeps_commit.
    - apply keeps_bind; [apply keeps_commit|]. intros _. apply keeps_cmd.
  Qed.

  Definition already (n v : pystr) (force : bool) : run unit :=
    if str_eqb n v then
      if force then
        emit (Line (lit "Version '" ++ n ++ lit "'already bumped, but --force  effected."))
      else stop (Failed 169)
    else ret tt.

  Lemma bumpver_eq : forall c n dry force a w,
    bumpver vfile rfile now tests_pass exit_code (Some (c :: n)) dry force a w =
    bind (extract_versions vfile) (fun old : pystr * pystr =>
      let (v, d) := old in
      bind (already (c :: n) v force) (fun _ =>
      bind (each (bump_file dry [(v, c :: n); (d, now)]) (map osp_normpath [vfile; rfile])) (fun _ =>
      later (c :: n) v dry (map osp_normpath [vfile; rfile]) a))) w.
  Proof. reflexivity. Qed.

  Lemma extract_found : forall w t v d, sees w vfile t ->
    declares version_label t v -> declares updated_label t d ->
    exists w', extract_versions vfile w = ([], w', inl (v, d)) /\ files w' = files w /\
      dget str_eqb vfile (memo w') = Some t /\
      (forall g, g <> vfile -> dget str_eqb g (memo w') = dget str_eqb g (memo w)).
  Proof.
    intros w t v d H Dv Dd. destruct (read_sees w vfile t H) as (w1 & E & Ef & Em & Eo).
    exists w1. split; [|auto]. unfold extract_versions. rewrite (bind_in _ _ _ _ _ _ _ _ E).
    apply search_iff in Dv. apply search_iff in Dd. rewrite Dv, Dd. reflexivity.
  Qed.
End Script.

Lemma fit_v : forall v, fit v -> apart version_label v.
Proof. intros v (_ & u & c & -> & H & _). exists u, c. auto. Qed.
Lemma fit_d : forall v, fit v -> apart updated_label v.
Proof. intros v (_ & u & c & -> & _ & H). exists u, c. auto. Qed.
Lemma fit_ne : forall v, fit v -> v <> [].
Proof. intros v H. exact (apart_ne _ _ (fit_v v H)). Qed.

Lemma declared_after : forall t v d n m,
  declares version_label t v -> declares updated_label t d -> fit v -> fit d -> fit n -> fit m ->
  ~ occurs v d -> ~ occurs d n ->
  declares version_label (replace d m (replace v n t)) n /\
  declares updated_label (replace d m (replace v n t)) m.
Proof.
  intros t v d n m Dv Dd Fv Fd Fn Fm O1 O2.
  apply search_iff in Dv. apply search_iff in Dd.
  assert (Lv : ~ In 34%N version_label) by (vm_compute; intuition discriminate).
  assert (Ld : ~ In 34%N updated_label) by (vm_compute; intuition discriminate).
  split; apply search_iff.
  - rewrite search_replace; auto using fit_v; [|apply Fd|apply Fm].
    rewrite search_replace; auto using fit_v; [|apply Fv|apply Fn].
    rewrite Dv. cbn [option_map]. rewrite replace_whole by (apply fit_ne; exact Fv).
    rewrite replace_absent; [reflexivity|apply fit_ne; exact Fd|exact O2].
  - rewrite search_replace; auto using fit_d; [|apply Fd|apply Fm].
    rewrite search_replace; auto using fit_d; [|apply Fv|apply Fn].
    rewrite Dd. cbn [option_map]. rewrite (replace_absent v n d); [|apply fit_ne; exact Fv|exact O1].
    rewrite replace_whole by (apply fit_ne; exact Fd). reflexivity.
Qed.

Lemma already_on : forall n v force w, n <> v \/ force = true ->
  exists es, already n v force w = (es, w, inl tt).
Proof.
  intros n v force w H. unfold already. destruct (str_eqb n v) eqn:E.
  - destruct H as [H|H]; [apply str_eqb_eq in E; congruence|]. subst force. eexists. reflexivity.
  - eexists. reflexivity.
Qed.

Theorem bumped : forall vfile rfile now tests code w T R v d n dry force a,
  dry = false ->
  memo w = [] ->
  dget str_eqb (osp_normpath vfile) (files w) = Some T -> unix T ->
  dget str_eqb (osp_normpath rfile) (files w) = Some R -> unix R ->
  osp_normpath vfile <> osp_normpath rfile ->
  declares version_label T v -> declares updated_label T d ->
  fit v -> fit d -> fit n ->
  n <> v \/ force = true ->
  files (st (bumpver vfile rfile now tests code (Some n) dry force a w)) =
  dset str_eqb (osp_normpath rfile) (replace d now (replace v n R))
    (dset str_eqb (osp_normpath vfile) (replace d now (replace v n T)) (files w)).
Proof.
  intros vfile rfile now tests code w T R v d n dry force a -> M ET UT ER UR Hne Dv Dd Fv Fd Fn Hn.
  pose proof (fit_ne n Fn) as Nn. destruct n as [|c n]; [congruence|]. rewrite bumpver_eq.
  assert (S0 : sees w vfile T) by (unfold sees; rewrite M; cbn [dget]; auto).
  destruct (extract_found vfile w T v d S0 Dv Dd) as (w1 & E1 & F1 & M1 & O1).
  rewrite (bind_in _ _ _ _ _ _ _ _ E1). cbn [st fst snd].
  destruct (already_on (c :: n) v force w1 Hn) as (es2 & E2).
  rewrite (bind_in _ _ _ _ _ _ _ _ E2). cbn [fst snd].
  cbn [map each].
  assert (S1 : sees w1 (osp_normpath vfile) T).
  { unfold sees. destruct (list_eq_dec N.eq_dec (osp_normpath vfile) vfile) as [Ev|Ev].
    - rewrite Ev, M1. reflexivity.
    - rewrite O1 by exact Ev. rewrite M. cbn [dget]. rewrite osp_idem, F1. auto. }
  destruct (bump_written w1 (osp_normpath vfile) T [(v, c :: n); (d, now)] S1) as (es3 & w2 & E3 & F3 & M3).
  assert (S2 : sees w2 (osp_normpath rfile) R).
  { unfold sees. rewrite M3 by congruence.
    destruct (list_eq_dec N.eq_dec (osp_normpath rfile) vfile) as [Ev|Ev].
    - exfalso. apply Hne. rewrite <- Ev. apply osp_idem.
    - rewrite O1 by exact Ev. rewrite M. cbn [dget]. rewrite osp_idem, F3, osp_idem.
      rewrite dget_dset_neq; [rewrite F1; auto|exact str_eqb_eq|congruence]. }
  destruct (bump_written w2 (osp_normpath rfile) R [(v, c :: n); (d, now)] S2) as (es4 & w3 & E4 & F4 & M4).
  assert (E5 : exists es w', bind (bump_file false [(v, c :: n); (d, now)] (osp_normpath vfile))
    (fun _ => bind (bump_file false [(v, c :: n); (d, now)] (osp_normpath rfile)) (fun _ => ret tt)) w1
    = (es, w', inl tt) /\ files w' = files w3).
  { rewrite (bind_in _ _ _ _ _ _ _ _ E3). rewrite (bind_in _ _ _ _ _ _ _ _ E4).
    eexists. eexists. split; reflexivity. }
  destruct E5 as (es5 & w5 & E5 & F5).
  rewrite (bind_in _ _ _ _ _ _ _ _ E5). cbn [st fst snd].
  change (snd (fst ?x)) with (st x). rewrite keeps_later.
  rewrite F5, F4, F3, F1, !osp_idem, !substitute_pair. reflexivity.
Qed.

(** ** Events *)

Definition mild (e : event) : Prop := match e with Line _ | Tested => True | _ => False end.

Lemma already_mild : forall n v force, emits mild (already n v force).
Proof.
  intros. unfold already. destruct (str_eqb n v); [|apply emits_ret].
  destruct force; [apply emits_emit; exact I|apply emits_stop].
Qed.
Lemma already_keeps : forall n v force, keeps (already n v force).
Proof.
  intros. unfold already. destruct (str_eqb n v); [|apply keeps_ret].
  destruct force; [apply keeps_emit|apply keeps_stop].
Qed.

Lemma extract_emits : forall P vfile, emits P (extract_versions vfile).
Proof.
  intros P vfile. unfold extract_versions. apply emits_bind; [apply emits_read|]. intros t.
  destruct (search_quoted version_label t); [|apply emits_stop].
  destruct (search_quoted updated_label t); [apply emits_ret|apply emits_stop].
Qed.
Lemma extract_keeps : forall vfile, keeps (extract_versions vfile).
Proof.
  intros vfile. unfold extract_versions. apply keeps_bind; [apply keeps_read|]. intros t.
  destruct (search_quoted version_label t); [|apply keeps_stop].
  destruct (search_quoted updated_label t); [apply keeps_ret|apply keeps_stop].
Qed.

Lemma bump_dry_keeps : forall pairs f, keeps (bump_file true pairs f).
Proof.
  intros. unfold bump_file. apply keeps_bind; [apply keeps_read|]. intros t.
  destruct (substitute pairs t). apply keeps_bind; [apply keeps_ret|]. intros _.
  apply keeps_bind; [apply keeps_emit|]. intros _. apply keeps_each. intros. apply keeps_emit.
Qed.
Lemma bump_emits : forall (P : event -> Prop) dry pairs f,
  (forall s, P (Line s)) -> (dry = false -> forall p t, P (Wrote p t)) ->
  emits P (bump_file dry pairs f).
Proof.
  intros P dry pairs f H1 H2. unfold bump_file. apply emits_bind; [apply emits_read|]. intros t.
  destruct (substitute pairs t). apply emits_bind.
  - destruct dry; [apply emits_ret|]. intros w. repeat constructor. apply H2. reflexivity.
  - intros _. apply emits_bind; [apply emits_emit; apply H1|]. intros _.
    apply emits_each. intros. apply emits_emit. apply H1.
Qed.

Theorem dry_run : forall vfile rfile now tests code new force a w,
  files (st (bumpver vfile rfile now tests code new true force a w)) = files w /\
  Forall mild (evs (bumpver vfile rfile now tests code new true force a w)).
Proof.
  intros vfile rfile now tests code new force a.
  assert (Kc : forall c, emits mild (do_cmd code true c)).
  { intros c. apply emits_emit. exact I. }
  assert (Kp : forall v d, keeps (bind (emit (Line v)) (fun _ => emit (Line d)))).
  { intros. apply keeps_bind; [apply keeps_emit|intros _; apply keeps_emit]. }
  assert (Ep : forall v d, emits mild (bind (emit (Line v)) (fun _ => emit (Line d)))).
  { intros. apply emits_bind; [apply emits_emit; exact I|intros _; apply emits_emit; exact I]. }
  assert (B : keeps (bumpver vfile rfile now tests code new true force a) /\
              emits mild (bumpver vfile rfile now tests code new true force a)).
  { unfold bumpver. split.
    - apply keeps_bind; [apply extract_keeps|]. intros [v d].
      destruct new as [[|c n]|]; [apply Kp| |apply Kp].
      apply keeps_bind; [apply already_keeps|]. intros _.
      apply keeps_bind; [apply keeps_each; intros; apply bump_dry_keeps|]. intros _.
      apply (keeps_later tests code (c :: n) v true (map osp_normpath [vfile; rfile]) a).
    - apply emits_bind; [apply extract_emits|]. intros [v d].
      destruct new as [[|c n]|]; [apply Ep| |apply Ep].
      apply emits_bind; [apply already_mild|]. intros _.
      apply emits_bind.
      { apply emits_each. intros. apply bump_emits; [intros; exact I|discriminate]. }
      intros _. apply emits_bind; [apply emits_emit; exact I|]. intros _.
      apply emits_bind.
      { unfold run_testcases. apply emits_bind; [apply emits_emit; exact I|].
        intros _. destruct tests; [apply emits_ret|apply emits_stop]. }
      intros _. destruct a.
      + apply emits_ret.
      + apply emits_each. exact Kc.
      + apply emits_bind; [apply emits_each; exact Kc|]. intros _. apply Kc. }
  intros w. split; apply B.
Qed.

Theorem printed : forall vfile rfile now tests code dry force a w T v d new,
  memo w = [] -> dget str_eqb (osp_normpath vfile) (files w) = Some T -> unix T ->
  declares version_label T v -> declares updated_label T d -> new = None \/ new = Some [] ->
  exists w', bumpver vfile rfile now tests code new dry force a w = ([Line v; Line d], w', inl tt) /\
    files w' = files w.
Proof.
  intros vfile rfile now tests code dry force a w T v d new M ET UT Dv Dd Hn.
  assert (S0 : sees w vfile T) by (unfold sees; rewrite M; cbn [dget]; auto).
  destruct (extract_found vfile w T v d S0 Dv Dd) as (w1 & E1 & F1 & M1 & O1).
  exists w1. unfold bumpver. rewrite (bind_in _ _ _ _ _ _ _ _ E1).
  destruct Hn; subst new; auto.
Qed.

Theorem same_version : forall vfile rfile now tests code dry a w T v d,
  memo w = [] -> dget str_eqb (osp_normpath vfile) (files w) = Some T -> unix T ->
  declares version_label T v -> declares updated_label T d ->
  exists w', bumpver vfile rfile now tests code (Some v) dry false a w = ([], w', inr (Failed 169)) /\
    files w' = files w.
Proof.
  intros vfile rfile now tests code dry a w T v d M ET UT Dv Dd.
  assert (S0 : sees w vfile T) by (unfold sees; rewrite M; cbn [dget]; auto).
  destruct (extract_found vfile w T v d S0 Dv Dd) as (w1 & E1 & F1 & M1 & O1).
  exists w1. destruct v as [|c v]; [destruct Dv as (? & ? & _ & H & _); congruence|].
  rewrite bumpver_eq. rewrite (bind_in _ _ _ _ _ _ _ _ E1).
  unfold already. rewrite str_eqb_refl. auto.
Qed.

(** *** Commands *)

Definition announced (c : list pystr) : list event :=
  [Line (lit "EXEC: " ++ format_syscmd c); Executed c].

Lemma each_tried : forall code cs w, exists don ok, tried code cs don ok /\
  each (do_cmd code false) cs w =
  (flat_map announced don, w, if ok then inl tt else inr (Failed 119)).
Proof.
  intros code cs w. induction cs as [|c cs (don & ok & T & E)].
  - exists [], true. split; [constructor|reflexivity].
  - assert (Ec : do_cmd code false c w =
      (announced c, w, if code c =? 0 then inl tt else inr (Failed 119))).
    { unfold do_cmd, exec_cmd, bind, emit. destruct (code c =? 0); reflexivity. }
    destruct (code c =? 0) eqn:Z.
    + exists (c :: don), ok. split; [constructor; [apply Nat.eqb_eq; exact Z|exact T]|].
      cbn [each]. rewrite (bind_in _ _ _ _ _ _ _ _ Ec). rewrite E. reflexivity.
    + exists [c], false. split; [constructor; apply Nat.eqb_neq; exact Z|].
      cbn [each]. unfold bind. rewrite Ec. reflexivity.
Qed.

Lemma each_then : forall code cs c w,
  bind (each (do_cmd code false) cs) (fun _ => do_cmd code false c) w =
  each (do_cmd code false) (cs ++ [c]) w.
Proof.
  intros code cs c. induction cs as [|x cs IH]; intros w.
  - cbn [each app]. unfold bind, ret. destruct (do_cmd code false c w) as [[es w1] [[]|e]];
      [rewrite app_nil_r|]; reflexivity.
  - cbn [each app]. specialize IH. unfold bind in *.
    destruct (do_cmd code false x w) as [[es w1] [[]|e]]; [|reflexivity].
    specialize (IH w1). rewrite <- IH.
    destruct (each (do_cmd code false) cs w1) as [[es1 w2] [[]|e]]; [|reflexivity].
    destruct (do_cmd code false c w2) as [[es2 w3] r]. rewrite app_assoc. reflexivity.
Qed.

(** The commands of a run. *)
Definition plan (fs : list pystr) (v n : pystr) (a : after) : list (list pystr) :=
  let both := [ [lit "git"; lit "add"] ++ fs;
                [lit "git"; lit "commit"; lit "-m";
                 lit "chore(ver): bump " ++ v ++ lit "-->" ++ strip_ver2_commonprefix v n] ] in
  match a with
  | Nothing => []
  | Commit => both
  | Tag m => both ++ [[lit "git"; lit "tag"; lit "v" ++ n; lit "-s"; lit "-m"; m]]
  end.

Lemma later_run : forall tests code n v fs a w, exists don ok,
  tried code (plan fs v n a) don ok /\
  later tests code n v false fs a w =
  ([Line (lit "...now launching DocTCs..."); Tested] ++ (if tests then flat_map announced don else []),
   w,
   if tests then (if ok then inl tt else inr (Failed 119)) else inr (Failed 111)).
Proof.
  intros tests code n v fs a w.
  assert (H : exists don ok, tried code (plan fs v n a) don ok /\
    match a with
    | Nothing => ret tt
    | Commit => do_commit code n v false fs
    | Tag msg =>
        bind (do_commit code n v false fs) (fun _ => do_tag code (lit "v" ++ n) msg false)
    end w = (flat_map announced don, w, if ok then inl tt else inr (Failed 119))).
  { destruct a as [| |m].
    - exists [], true. split; [constructor|reflexivity].
    - apply each_tried.
    - unfold do_tag, do_commit. rewrite each_then. apply each_tried. }
  destruct H as (don & ok & T & E). exists don, ok. split; [exact T|].
  unfold later. rewrite (bind_in _ _ (emit _) _ w _ w tt eq_refl).
  unfold run_testcases. destruct tests.
  - assert (Et : bind (emit Tested) (fun _ : unit => ret tt) w = ([Tested], w, inl tt)) by reflexivity.
    rewrite (bind_in _ _ _ _ _ _ _ _ Et). rewrite E. reflexivity.
  - reflexivity.
Qed.

Definition early (e : event) : Prop := match e with Line _ | Wrote _ _ => True | _ => False end.

Lemma bind_cases : forall A B (m : run A) (f : A -> run B) w,
  (exists es w1 e, m w = (es, w1, inr e) /\ bind m f w = (es, w1, inr e)) \/
  (exists es w1 a, m w = (es, w1, inl a) /\
     bind m f w = (es ++ evs (f a w1), st (f a w1), snd (f a w1))).
Proof.
  intros A B m f w. destruct (m w) as [[es w1] [a|e]] eqn:E.
  - right. exists es, w1, a. split; [reflexivity|]. apply bind_in. exact E.
  - left. exists es, w1, e. unfold bind. rewrite E. auto.
Qed.

Lemma run_shape : forall vfile rfile now tests code n force a w, n <> [] ->
  let x := bumpver vfile rfile now tests code (Some n) false force a w in
  (Forall early (evs x) /\ exists e, snd x = inr e) \/
  (exists v d w0 pre w1,
     extract_versions vfile w = ([], w0, inl (v, d)) /\ Forall early pre /\
     x = (pre ++ evs (later tests code n v false (map osp_normpath [vfile; rfile]) a w1),
          st (later tests code n v false (map osp_normpath [vfile; rfile]) a w1),
          snd (later tests code n v false (map osp_normpath [vfile; rfile]) a w1))).
Proof.
  intros vfile rfile now tests code n force a w Hn. destruct n as [|c n]; [congruence|].
  cbv zeta. rewrite bumpver_eq.
  pose proof (extract_emits (fun _ => False) vfile w) as X0.
  destruct (bind_cases _ _ (extract_versions vfile) (fun old : pystr * pystr =>
      let (v, d) := old in
      bind (already (c :: n) v force) (fun _ =>
      bind (each (bump_file false [(v, c :: n); (d, now)]) (map osp_normpath [vfile; rfile])) (fun _ =>
      later tests code (c :: n) v false (map osp_normpath [vfile; rfile]) a))) w)
    as [(es & w1 & e & E & ->)|(es & w0 & [v d] & E & ->)];
  rewrite E in X0; cbn [evs fst] in X0; destruct es as [|x es]; try (inversion X0; contradiction).
  { left. split; [constructor|exists e; reflexivity]. }
  cbn [app].
  assert (A0 : emits early (already (c :: n) v force)).
  { unfold already. destruct (str_eqb (c :: n) v); [|apply emits_ret].
    destruct force; [apply emits_emit; exact I|apply emits_stop]. }
  specialize (A0 w0).
  match goal with |- context [evs (bind ?m ?f w0)] =>
    destruct (bind_cases _ _ m f w0) as [(es1 & w1 & e & E1 & ->)|(es1 & w1 & [] & E1 & ->)] end;
  rewrite E1 in A0; cbn [evs st fst snd] in *.
  { left. split; [exact A0|exists e; reflexivity]. }
  assert (B0 : emits early (each (bump_file false [(v, c :: n); (d, now)]) (map osp_normpath [vfile; rfile]))).
  { apply emits_each. intros f. apply bump_emits; intros; exact I. }
  specialize (B0 w1).
  match goal with |- context [(bind ?m ?f w1)] =>
    destruct (bind_cases _ _ m f w1) as [(es2 & w2 & e & E2 & ->)|(es2 & w2 & [] & E2 & ->)] end;
  rewrite E2 in B0; cbn [evs st fst snd] in *.
  { left. split; [apply Forall_app; auto|exists e; reflexivity]. }
  right. exists v, d, w0, (es1 ++ es2), w2. split; [exact E|]. split; [apply Forall_app; auto|].
  rewrite app_assoc. reflexivity.
Qed.

Lemma early_not_tested : forall pre, Forall early pre -> ~ In Tested pre.
Proof. intros pre H I. rewrite Forall_forall in H. exact (H _ I). Qed.

Theorem commands : forall vfile rfile now tests code n force a w T v es w' r,
  memo w = [] -> dget str_eqb (osp_normpath vfile) (files w) = Some T -> unix T ->
  declares version_label T v -> n <> [] ->
  bumpver vfile rfile now tests code (Some n) false force a w = (es, w', r) ->
  (Forall early es /\ exists e, r = inr e) \/
  (exists pre don ok,
     es = pre ++ Tested :: (if tests then flat_map announced don else []) /\ Forall early pre /\
     tried code (plan (map osp_normpath [vfile; rfile]) v n a) don ok /\
     r = if tests then (if ok then inl tt else inr (Failed 119)) else inr (Failed 111)).
Proof.
  intros vfile rfile now tests code n force a w T v es w' r M ET UT Dv Hn E.
  pose proof (run_shape vfile rfile now tests code n force a w Hn) as H. cbv zeta in H.
  destruct H as [[H1 [e H2]]|(v' & d & w0 & pre & w1 & E0 & Hp & Ex)].
  - rewrite E in H1, H2. left. split; [exact H1|]. exists e. exact H2.
  - right. assert (v' = v) as ->.
    { unfold extract_versions in E0.
      assert (S0 : sees w vfile T) by (unfold sees; rewrite M; cbn [dget]; auto).
      destruct (read_sees w vfile T S0) as (w2 & E2 & _).
      rewrite (bind_in _ _ _ _ _ _ _ _ E2) in E0.
      apply search_iff in Dv. rewrite Dv in E0.
      destruct (search_quoted updated_label T); [|discriminate].
      injection E0 as _ -> _. reflexivity. }
    destruct (later_run tests code n v (map osp_normpath [vfile; rfile]) a w1) as (don & ok & T1 & E1).
    rewrite E1 in Ex. rewrite E in Ex. cbn [evs st fst snd] in Ex.
    exists (pre ++ [Line (lit "...now launching DocTCs...")]), don, ok.
    injection Ex as Ees _ Er. subst es r. split; [|split; [|split; [exact T1|reflexivity]]].
    + rewrite <- app_assoc. reflexivity.
    + apply Forall_app. split; [exact Hp|]. repeat constructor.
Qed.

(** *** The message *)

Lemma common_prefix_app : forall p a b, common_prefix (p ++ a) (p ++ b) = p ++ common_prefix a b.
Proof.
  induction p as [|c p IH]; intros a b; [reflexivity|]. cbn [app common_prefix].
  rewrite N.eqb_refl, IH. reflexivity.
Qed.

Lemma rfind_none : forall q, ~ In 46%N q -> rfind_dot q = None.
Proof.
  induction q as [|c q IH]; intros H; [reflexivity|]. cbn [rfind_dot].
  rewrite IH by (intros I; apply H; right; exact I).
  destruct (c =? chr ".")%N eqn:E; [|reflexivity].
  apply N.eqb_eq in E. exfalso. apply H. left. exact E.
Qed.
Lemma rfind_last : forall p q, ~ In 46%N q -> rfind_dot (p ++ 46%N :: q) = Some (length p).
Proof.
  induction p as [|c p IH]; intros q H.
  - cbn [app rfind_dot]. rewrite rfind_none by exact H. reflexivity.
  - cbn [app rfind_dot length]. rewrite IH by exact H. reflexivity.
Qed.

Lemma common_prefix_left : forall a b c, In c (common_prefix a b) -> In c a.
Proof.
  induction a as [|x a IH]; intros [|y b] c H; try (destruct H; fail).
  cbn [common_prefix] in H. destruct (x =? y)%N; [|destruct H].
  destruct H as [->|H]; [left; reflexivity|right; exact (IH b c H)].
Qed.
Lemma common_prefix_right : forall a b c, In c (common_prefix a b) -> In c b.
Proof.
  induction a as [|x a IH]; intros [|y b] c H; try (destruct H; fail).
  cbn [common_prefix] in H. destruct (x =? y)%N eqn:E; [|destruct H].
  apply N.eqb_eq in E. subst y.
  destruct H as [->|H]; [left; reflexivity|right; exact (IH b c H)].
Qed.

Lemma common_prefix_differ : forall x y a b, ~ In 46%N x -> ~ In 46%N y -> x <> y ->
  ~ In 46%N (common_prefix (x ++ 46%N :: a) (y ++ 46%N :: b)).
Proof.
  induction x as [|c x IH]; intros [|d y] a b Hx Hy Hn; [congruence| | |]; cbn [app common_prefix].
  - destruct (46 =? d)%N eqn:E; [|intros []]. apply N.eqb_eq in E. subst. exfalso. apply Hy. left. reflexivity.
  - destruct (c =? 46)%N eqn:E; [|intros []]. apply N.eqb_eq in E. subst. exfalso. apply Hx. left. reflexivity.
  - destruct (c =? d)%N eqn:E; [|intros []]. apply N.eqb_eq in E. subst d.
    intros [H|H].
    + apply Hx. left. exact H.
    + apply (IH y a b) in H; auto.
      * intros I. apply Hx. right. exact I.
      * intros I. apply Hy. right. exact I.
      * congruence.
Qed.

Lemma dotted_cons : forall c x xs, dotted (c :: x :: xs) = c ++ 46%N :: dotted (x :: xs).
Proof. reflexivity. Qed.

Lemma dotted_app : forall cs x xs, cs <> [] -> dotted (cs ++ x :: xs) = dotted cs ++ 46%N :: dotted (x :: xs).
Proof.
  induction cs as [|c cs IH]; intros x xs H; [congruence|]. destruct cs as [|c' cs].
  - reflexivity.
  - cbn [app]. rewrite !dotted_cons. change (c' :: cs ++ x :: xs) with ((c' :: cs) ++ x :: xs).
    rewrite IH by discriminate. rewrite <- app_assoc. reflexivity.
Qed.

Theorem strip_components : forall cs x xs y ys,
  Forall component (x :: xs) -> Forall component (y :: ys) -> dotted cs <> [] ->
  x <> y \/ xs = [] \/ ys = [] ->
  strip_ver2_commonprefix (dotted (cs ++ x :: xs)) (dotted (cs ++ y :: ys)) = dotted (y :: ys).
Proof.
  intros cs x xs y ys Hx Hy Hc H.
  assert (Hcs : cs <> []) by (intros ->; apply Hc; reflexivity).
  rewrite !dotted_app by exact Hcs. unfold strip_ver2_commonprefix.
  rewrite common_prefix_app. cbn [common_prefix]. rewrite N.eqb_refl.
  set (q := common_prefix (dotted (x :: xs)) (dotted (y :: ys))).
  assert (Hq : ~ In 46%N q).
  { inversion Hx as [|? ? X1 X2]; subst. inversion Hy as [|? ? Y1 Y2]; subst.
    destruct xs as [|x' xs].
    - intros I. apply X1. exact (common_prefix_left _ _ _ I).
    - destruct ys as [|y' ys].
      + intros I. apply Y1. exact (common_prefix_right _ _ _ I).
      + destruct H as [H|[H|H]]; [|discriminate|discriminate].
        unfold q. rewrite !dotted_cons. apply common_prefix_differ; assumption. }
  destruct (dotted cs) as [|c p] eqn:Ep; [congruence|]. cbn [app].
  change (c :: p ++ 46%N :: q) with ((c :: p) ++ 46%N :: q). rewrite rfind_last by exact Hq.
  cbn [length skipn].
  assert (Hs : forall a b, skipn (S (length a)) (a ++ 46%N :: b) = b).
  { intros a b. induction a as [|z a IHa]; [reflexivity|exact IHa]. }
  exact (Hs p (dotted (y :: ys))).
Qed.

Theorem strip_none : forall a b v n, a <> b ->
  strip_ver2_commonprefix (a :: v) (b :: n) = b :: n.
Proof.
  intros a b v n H. unfold strip_ver2_commonprefix. cbn [common_prefix].
  destruct (a =? b)%N eqn:E; [apply N.eqb_eq in E; congruence|]. reflexivity.
Qed.

Theorem strip_first : forall c p x y r r', component p -> x <> y ->
  strip_ver2_commonprefix ((c :: p) ++ x :: r) ((c :: p) ++ y :: r') = y :: r'.
Proof.
  intros c p x y r r' Hp Hn. unfold strip_ver2_commonprefix.
  rewrite common_prefix_app. cbn [common_prefix].
  destruct (x =? y)%N eqn:E; [apply N.eqb_eq in E; congruence|]. rewrite app_nil_r.
  assert (R : match rfind_dot (c :: p) with Some (S i) => S (S i) | _ => length (c :: p) end = length (c :: p)).
  { cbn [rfind_dot]. rewrite rfind_none by exact Hp. destruct (c =? chr ".")%N; reflexivity. }
  rewrite R, skipn_app, skipn_all, Nat.sub_diag. reflexivity.
Qed.

(** *** Commands as shown *)

Definition shown (w : pystr) : pystr := if has_blank w then lit """" ++ w ++ lit """" else w.

Lemma has_blank_iff : forall w, has_blank w = true <-> In 32%N w.
Proof.
  intros w. unfold has_blank. rewrite existsb_exists. split.
  - intros (x & H & E). apply N.eqb_eq in E. subst. exact H.
  - intros H. exists 32%N. split; [exact H|reflexivity].
Qed.

Lemma cut_at : forall (c : pychar) a b s t, ~ In c a -> ~ In c b ->
  a ++ c :: s = b ++ c :: t -> a = b /\ s = t.
Proof.
  intros c. induction a as [|x a IH]; intros [|y b] s t Ha Hb E.
  - injection E as ->. auto.
  - injection E as <- _. exfalso. apply Hb. left. reflexivity.
  - injection E as -> _. exfalso. apply Ha. left. reflexivity.
  - injection E as <- E. destruct (IH b s t) as [-> ->]; auto.
    + intros I. apply Ha. right. exact I.
    + intros I. apply Hb. right. exact I.
Qed.

Lemma cut_end : forall (c : pychar) a b t, ~ In c a -> a = b ++ c :: t -> False.
Proof. intros c a b t H ->. apply H. apply in_or_app. right. left. reflexivity. Qed.

Definition speakable (w : pystr) : Prop := w <> [] /\ ~ In 34%N w.

Lemma shown_inj : forall w w' s s', speakable w -> speakable w' ->
  shown w ++ 32%N :: s = shown w' ++ 32%N :: s' -> w = w' /\ s = s'.
Proof.
  intros w w' s s' [Hw Qw] [Hw' Qw'] E. unfold shown in E.
  destruct (has_blank w) eqn:B; destruct (has_blank w') eqn:B'.
  - cbn [lit app] in E. change (lit """") with [34%N] in E. cbn [app] in E. injection E as E.
    rewrite <- !app_assoc in E. cbn [app] in E.
    apply cut_at in E; auto. destruct E as [-> E]. injection E as ->. auto.
  - exfalso. change (lit """") with [34%N] in E. destruct w' as [|c w']; [congruence|].
    cbn [app] in E. injection E as E0 _. apply Qw'. left. congruence.
  - exfalso. change (lit """") with [34%N] in E. destruct w as [|c w]; [congruence|].
    cbn [app] in E. injection E as E0 _. apply Qw. left. congruence.
  - apply cut_at in E; auto.
    + intros I. apply has_blank_iff in I. congruence.
    + intros I. apply has_blank_iff in I. congruence.
Qed.

Lemma format_end : forall cmd, cmd <> [] ->
  format_syscmd cmd ++ [32%N] = flat_map (fun w => shown w ++ [32%N]) cmd.
Proof.
  unfold format_syscmd. induction cmd as [|w cmd IH]; intros H; [congruence|].
  destruct cmd as [|w' cmd].
  - cbn. rewrite app_nil_r. reflexivity.
  - cbn [map flat_map]. rewrite join_cons_ne by discriminate.
    cbn [map flat_map] in IH. rewrite <- IH by discriminate.
    fold (shown w). rewrite <- !app_assoc. reflexivity.
Qed.

Theorem format_inj : forall a b, Forall speakable a -> Forall speakable b ->
  format_syscmd a = format_syscmd b -> a = b.
Proof.
  assert (F : forall a b, Forall speakable a -> Forall speakable b ->
    flat_map (fun w => shown w ++ [32%N]) a = flat_map (fun w => shown w ++ [32%N]) b -> a = b).
  { induction a as [|w a IH]; intros [|w' b] Ha Hb E; auto.
    - cbn [flat_map] in E. symmetry in E. apply app_eq_nil in E. destruct E as [E _].
      apply app_eq_nil in E. destruct E; discriminate.
    - cbn [flat_map] in E. apply app_eq_nil in E. destruct E as [E _].
      apply app_eq_nil in E. destruct E; discriminate.
    - inversion Ha; subst. inversion Hb; subst. cbn [flat_map] in E. rewrite <- !app_assoc in E.
      apply shown_inj in E; auto. destruct E as [-> E]. f_equal. apply IH; auto. }
  assert (N0 : forall w a, speakable w -> format_syscmd (w :: a) <> []).
  { intros w a [Hw _] E. apply (f_equal (fun x => x ++ [32%N])) in E. rewrite format_end in E by discriminate.
    cbn [flat_map] in E. unfold shown in E. destruct (has_blank w).
    - discriminate.
    - destruct w as [|c w]; [congruence|]. injection E as _ E.
      rewrite <- app_assoc in E. apply app_eq_nil in E. destruct E; discriminate. }
  intros a b Ha Hb E. apply F; auto.
  destruct a as [|w a]; destruct b as [|w' b]; auto.
  - exfalso. inversion Hb; subst. symmetry in E. exact (N0 _ _ H1 E).
  - exfalso. inversion Ha; subst. exact (N0 _ _ H1 E).
  - rewrite <- !format_end by discriminate. rewrite E. reflexivity.
Qed.

Theorem padded24 : forall s, exists k, pad24 s = repeat 32%N k ++ s /\ length (pad24 s) = Nat.max 24 (length s).
Proof.
  intros s. exists (24 - length s). split; [reflexivity|].
  unfold pad24. rewrite app_length, repeat_length. lia.
Qed.
