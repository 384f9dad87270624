(** Lemmas about JSON pointers. *)
From Verif Require Import PyBase PyBase_Proofs Json JsonPointer_Model JsonPointer_Spec.

(** ** Escaping *)

Lemma escape_charwise : forall s, escape_part s = flat_map esc_char s.
Proof.
  unfold escape_part, tilde, slash, esc_char.
  induction s as [|c s IH]; [reflexivity|]. cbn [replace1 flat_map].
  destruct (N.eqb_spec c 126) as [->|H1].
  - cbn [app replace1]. rewrite IH. reflexivity.
  - cbn [replace1]. destruct (N.eqb_spec c 47) as [->|H2].
    + rewrite IH. reflexivity.
    + rewrite IH. reflexivity.
Qed.

Lemma escape_no_slash : forall s, ~ In 47%N (escape_part s).
Proof.
  intro s. rewrite escape_charwise. induction s as [|c s IH]; simpl; [tauto|].
  rewrite in_app_iff. intros [H|H]; [|tauto]. unfold esc_char in H.
  destruct (N.eqb_spec c 126); [simpl in H; lia|].
  destruct (N.eqb_spec c 47); simpl in H; lia.
Qed.

(** Sequential replacement is simultaneous replacement. *)
Fixpoint unesc (s : pystr) : pystr :=
  match s with
  | [] => []
  | c :: s' =>
      match s' with
      | [] => [c]
      | d :: s'' =>
          if (c =? 126)%N && (d =? 48)%N then 126%N :: unesc s''
          else if (c =? 126)%N && (d =? 49)%N then 47%N :: unesc s''
          else c :: unesc s'
      end
  end.

Lemma r2_skip : forall o1 o2 new c s, c <> o1 ->
  replace2 o1 o2 new (c :: s) = c :: replace2 o1 o2 new s.
Proof.
  intros o1 o2 new c s H. apply N.eqb_neq in H. destruct s as [|d s]; [reflexivity|].
  change (replace2 o1 o2 new (c :: d :: s)) with
    (if (c =? o1)%N && (d =? o2)%N then new ++ replace2 o1 o2 new s
     else c :: replace2 o1 o2 new (d :: s)).
  rewrite H. reflexivity.
Qed.

Lemma r2_skip2 : forall o1 o2 new c d s, d <> o2 ->
  replace2 o1 o2 new (c :: d :: s) = c :: replace2 o1 o2 new (d :: s).
Proof.
  intros o1 o2 new c d s H. apply N.eqb_neq in H.
  change (replace2 o1 o2 new (c :: d :: s)) with
    (if (c =? o1)%N && (d =? o2)%N then new ++ replace2 o1 o2 new s
     else c :: replace2 o1 o2 new (d :: s)).
  rewrite H, andb_false_r. reflexivity.
Qed.

Lemma r2_hit : forall o1 o2 new s,
  replace2 o1 o2 new (o1 :: o2 :: s) = new ++ replace2 o1 o2 new s.
Proof. intros. cbn [replace2]. rewrite !N.eqb_refl. reflexivity. Qed.

Lemma r1_head : forall d s, d <> 48%N ->
  exists x xs, replace2 126%N 49%N [47%N] (d :: s) = x :: xs /\ x <> 48%N.
Proof.
  intros d s Hd. destruct s as [|e s]; [exists d, []; auto|]. cbn [replace2].
  destruct ((d =? 126)%N && (e =? 49)%N).
  - eexists _, _. split; [reflexivity|discriminate].
  - eexists _, _. split; [reflexivity|exact Hd].
Qed.

Lemma str_ind2 : forall (P : pystr -> Prop), P [] -> (forall c, P [c]) ->
  (forall c d s, P s -> P (d :: s) -> P (c :: d :: s)) -> forall s, P s.
Proof.
  intros P H0 H1 H2 s. enough (P s /\ forall c, P (c :: s)) by tauto.
  induction s as [|d s [IH1 IH2]]; [split; auto|]. split; auto.
Qed.

Lemma unescape_unesc : forall s, unescape_part s = unesc s.
Proof.
  unfold unescape_part. induction s as [|c|c d s IH1 IH2] using str_ind2; [reflexivity..|].
  change (unesc (c :: d :: s)) with
    (if (c =? 126)%N && (d =? 48)%N then 126%N :: unesc s
     else if (c =? 126)%N && (d =? 49)%N then 47%N :: unesc s
     else c :: unesc (d :: s)).
  rewrite <- IH1, <- IH2. clear IH1 IH2.
  destruct (N.eqb_spec c 126) as [->|Hc]; cbn [andb].
  - destruct (N.eqb_spec d 48) as [->|Hd0].
    + rewrite r2_skip2 by discriminate. rewrite (r2_skip _ _ _ 48%N) by discriminate.
      rewrite r2_hit. reflexivity.
    + destruct (N.eqb_spec d 49) as [->|Hd].
      * rewrite r2_hit. cbn [app]. rewrite r2_skip by discriminate. reflexivity.
      * rewrite r2_skip2 by exact Hd. destruct (r1_head d s Hd0) as [x [xs [E Hx]]].
        rewrite E. rewrite r2_skip2 by exact Hx. reflexivity.
  - rewrite r2_skip by exact Hc. rewrite r2_skip by exact Hc. reflexivity.
Qed.

Lemma unesc_unescapes : forall s, unescapes s (unesc s).
Proof.
  induction s as [|c|c d s IH1 IH2] using str_ind2.
  - constructor.
  - simpl. apply U_char; [constructor|]. intros _ d s' H; discriminate.
  - cbn [unesc]. destruct (N.eqb_spec c 126) as [->|Hc]; cbn [andb].
    + destruct (N.eqb_spec d 48) as [->|H0]; [constructor; exact IH1|].
      destruct (N.eqb_spec d 49) as [->|H1]; [constructor; exact IH1|].
      apply U_char; [exact IH2|]. intros _ d' s' H. inversion H; subst. auto.
    + apply U_char; [exact IH2|]. intros ->. congruence.
Qed.

Lemma unescapes_unesc : forall s t, unescapes s t -> unesc s = t.
Proof.
  intros s t H. induction H as [|s t H IH|s t H IH|c s t H IH Hc].
  - reflexivity.
  - simpl. rewrite IH. reflexivity.
  - simpl. rewrite IH. reflexivity.
  - destruct s as [|d s]; [simpl in IH; subst; reflexivity|].
    change (unesc (c :: d :: s)) with
      (if (c =? 126)%N && (d =? 48)%N then 126%N :: unesc s
       else if (c =? 126)%N && (d =? 49)%N then 47%N :: unesc s
       else c :: unesc (d :: s)).
    destruct (N.eqb_spec c 126) as [Hc2|Hc2]; cbn [andb]; [|rewrite IH; reflexivity].
    destruct (Hc Hc2 d s eq_refl) as [H0 H1].
    apply N.eqb_neq in H0. apply N.eqb_neq in H1. rewrite H0, H1, IH. reflexivity.
Qed.

Lemma unescape_spec : forall s t, unescape_part s = t <-> unescapes s t.
Proof.
  intros s t. rewrite unescape_unesc. split.
  - intros <-. apply unesc_unescapes.
  - apply unescapes_unesc.
Qed.

Lemma unesc_esc_app : forall s, unesc (flat_map esc_char s) = s.
Proof.
  induction s as [|c s IH]; [reflexivity|]. cbn [flat_map]. unfold esc_char at 1.
  destruct (N.eqb_spec c 126) as [->|H1]; [cbn [app unesc]; simpl; rewrite IH; reflexivity|].
  destruct (N.eqb_spec c 47) as [->|H2]; [cbn [app unesc]; simpl; rewrite IH; reflexivity|].
  cbn [app unesc].
  destruct (flat_map esc_char s) as [|d t] eqn:E.
  - simpl in IH. subst. reflexivity.
  - assert (Hf : (c =? 126)%N = false) by (apply N.eqb_neq; exact H1).
    rewrite Hf. cbn [andb]. rewrite IH. reflexivity.
Qed.

Lemma unescape_escape : forall s, unescape_part (escape_part s) = s.
Proof. intro s. rewrite unescape_unesc, escape_charwise. apply unesc_esc_app. Qed.

Lemma escape_injective : forall a b, escape_part a = escape_part b -> a = b.
Proof.
  intros a b H. rewrite <- (unescape_escape a), <- (unescape_escape b), H. reflexivity.
Qed.

(** ** Splitting pointers *)

Lemma pointer_of_escape : forall parts,
  pointer_of parts = flat_map (fun p => slash :: escape_part p) parts.
Proof.
  induction parts as [|p ps IH]; [reflexivity|]. unfold pointer_of in *. cbn [flat_map].
  rewrite IH, escape_charwise. reflexivity.
Qed.

Lemma pointer_of_join : forall parts, parts <> [] ->
  pointer_of parts = slash :: join [slash] (map escape_part parts).
Proof.
  induction parts as [|p ps IH]; intro H; [congruence|].
  rewrite pointer_of_escape in *. cbn [flat_map]. rewrite <- pointer_of_escape in *.
  cbn [app]. f_equal.
  destruct ps as [|q ps]; [simpl; apply app_nil_r|].
  rewrite IH by discriminate. reflexivity.
Qed.

Lemma map_unescape_escape : forall ps, map unescape_part (map escape_part ps) = ps.
Proof.
  intro ps. rewrite map_map. rewrite <- (map_id ps) at 2. apply map_ext. exact unescape_escape.
Qed.

Lemma escaped_no_slash : forall ps p, In p (map escape_part ps) -> ~ In slash p.
Proof.
  intros ps p H. apply in_map_iff in H. destruct H as [q [<- _]]. apply escape_no_slash.
Qed.

Lemma iter_parts_pointer_of : forall ps, iter_parts (pointer_of ps) = Ok ps.
Proof.
  intros ps. destruct ps as [|p ps]; [reflexivity|].
  rewrite pointer_of_join by discriminate. unfold iter_parts.
  set (l := join [slash] (map escape_part (p :: ps))).
  cbn [split_on]. rewrite N.eqb_refl. cbn [str_eqb]. unfold l.
  rewrite split_join; [|discriminate|apply escaped_no_slash].
  rewrite map_unescape_escape. reflexivity.
Qed.

Lemma iter_parts_relaxed_join : forall ps, ps <> [] ->
  iter_parts_relaxed (join [slash] (map escape_part ps)) = ps.
Proof.
  intros ps H. unfold iter_parts_relaxed. rewrite split_join.
  - apply map_unescape_escape.
  - destruct ps; [congruence|discriminate].
  - apply escaped_no_slash.
Qed.

Lemma iter_parts_raise : forall p e,
  iter_parts p = Raise e <-> (e = RefResolutionError /\ exists c p', p = c :: p' /\ c <> 47%N).
Proof.
  intros p e. unfold iter_parts. destruct p as [|c p].
  - simpl. split; [discriminate|]. intros [_ [c [p' [H _]]]]. discriminate.
  - cbn [split_on]. fold slash. destruct (N.eqb_spec c slash) as [->|Hc].
    + cbn [str_eqb]. split; [discriminate|].
      intros [_ [c [p' [H H2]]]]. inversion H; subst. unfold slash in H2. congruence.
    + destruct (split_on slash p) as [|w ws]; cbn [str_eqb];
        (split; [intro H; inversion H; subst; split; [reflexivity|];
                 exists c, p; split; [reflexivity|exact Hc]
                |intros [-> _]; reflexivity]).
Qed.

(** ** Resolving *)

Lemma item_at_getitem : forall A (l : list A) z v,
  item_at l z v <-> list_getitem l z = Some v.
Proof.
  intros A l z v. unfold item_at, list_getitem, list_index.
  destruct (Z.leb_spec 0 z) as [Hz|Hz].
  - destruct (Z.ltb_spec z (Z.of_nat (length l))) as [H|H].
    + split; [intros [[_ H']|[H' _]]; [exact H'|lia]|]. intro H'. left; auto.
    + split; [|discriminate]. intros [[_ H']|[H' _]]; [|lia].
      assert (Hn : nth_error l (Z.to_nat z) <> None) by congruence.
      apply nth_error_Some in Hn. lia.
  - destruct (Z.leb_spec (- Z.of_nat (length l)) z) as [H|H].
    + assert (E : nth_error (rev l) (Z.to_nat (- z - 1))
                  = nth_error l (Z.to_nat (Z.of_nat (length l) + z))).
      { assert (Hlen : (Z.to_nat (- z - 1) < length l)%nat) by lia.
        destruct l as [|a l0] eqn:El; [simpl in *; lia|]. rewrite <- El in *. clear El.
        rewrite (nth_error_nth' (rev l) a) by (rewrite rev_length; lia).
        rewrite (nth_error_nth' l a) by lia.
        rewrite rev_nth by lia. f_equal. f_equal. lia. }
      rewrite E. split; [intros [[H' _]|[_ H']]; [lia|exact H']|]. intro; right; split; [lia|assumption].
    + split; [|discriminate]. intros [[H' _]|[_ H']]; [lia|].
      assert (Hn : nth_error (rev l) (Z.to_nat (- z - 1)) <> None) by congruence.
      apply nth_error_Some in Hn. rewrite rev_length in Hn. lia.
Qed.

Lemma resolve_loop_reaches : forall parts doc v,
  resolve_loop doc parts None = Ok v <-> reaches doc parts v.
Proof.
  induction parts as [|p ps IH]; intros doc v.
  - simpl. split; [intro H; inversion H; constructor|intro H; inversion H; reflexivity].
  - cbn [resolve_loop]. split.
    + destruct doc as [|bb|nn|s|l|d]; cbn [is_sequence getitem is_type_or_lookup]; try discriminate.
      * destruct (py_int p) as [z|] eqn:Ep; cbn [getitem is_type_or_lookup]; [|discriminate].
        destruct (list_getitem s z) as [c|] eqn:E; cbn [is_type_or_lookup]; [|discriminate].
        intro H. apply IH in H. eapply R_char; [exact Ep|apply item_at_getitem; exact E|exact H].
      * destruct (py_int p) as [z|] eqn:Ep; cbn [getitem is_type_or_lookup]; [|discriminate].
        destruct (list_getitem l z) as [c|] eqn:E; cbn [is_type_or_lookup]; [|discriminate].
        intro H. apply IH in H. eapply R_index; [exact Ep|apply item_at_getitem; exact E|exact H].
      * destruct (sget p d) as [c|] eqn:E; cbn [is_type_or_lookup]; [|discriminate].
        intro H. apply IH in H. eapply R_key; eassumption.
    + intro H. inversion H; subst; cbn [is_sequence getitem].
      * match goal with H : sget _ _ = Some _ |- _ => rewrite H end. apply IH; assumption.
      * match goal with H : py_int _ = Some _ |- _ => rewrite H end. cbn [getitem].
        match goal with H : item_at _ _ _ |- _ => apply item_at_getitem in H; rewrite H end.
        apply IH; assumption.
      * match goal with H : py_int _ = Some _ |- _ => rewrite H end. cbn [getitem].
        match goal with H : item_at _ _ _ |- _ => apply item_at_getitem in H; rewrite H end.
        apply IH; assumption.
Qed.

Lemma getitem_raise : forall doc k e, getitem doc k = Raise e -> is_type_or_lookup e = true.
Proof.
  intros doc k e H. destruct doc as [|bb|nn|s|l|d], k as [x|z]; cbn in H; try (inversion H; reflexivity).
  - destruct (list_getitem s z); inversion H; reflexivity.
  - destruct (list_getitem l z); inversion H; reflexivity.
  - destruct (sget x d); inversion H; reflexivity.
Qed.

Lemma resolve_loop_default : forall parts doc dflt,
  resolve_loop doc parts dflt =
    match resolve_loop doc parts None with
    | Ok v => Ok v
    | Raise _ => match dflt with Some d => Ok d | None => Raise RefResolutionError end
    end.
Proof.
  induction parts as [|p ps IH]; intros doc dflt; [reflexivity|]. cbn [resolve_loop].
  destruct (getitem doc _) as [c|e] eqn:E; [apply IH|].
  rewrite (getitem_raise _ _ _ E). reflexivity.
Qed.

Lemma reaches_fun : forall doc ps v, reaches doc ps v -> forall w, reaches doc ps w -> v = w.
Proof.
  intros doc ps v H w Hw. apply resolve_loop_reaches in H. apply resolve_loop_reaches in Hw.
  congruence.
Qed.

(** The complete description of [resolve_jsonpointer]. *)
Lemma resolve_jsonpointer_spec : forall doc ptr parts dflt,
  iter_parts ptr = Ok parts ->
  (exists v, reaches doc parts v /\ resolve_jsonpointer doc ptr dflt = Ok v)
  \/ ((forall v, ~ reaches doc parts v) /\
      resolve_jsonpointer doc ptr dflt =
        match dflt with Some d => Ok d | None => Raise RefResolutionError end).
Proof.
  intros doc ptr parts dflt Hp. unfold resolve_jsonpointer. rewrite Hp. cbn [rbind].
  rewrite resolve_loop_default.
  destruct (resolve_loop doc parts None) as [v|e] eqn:E.
  - left. exists v. split; [apply resolve_loop_reaches; exact E|reflexivity].
  - right. split; [|reflexivity]. intros v Hv. apply resolve_loop_reaches in Hv. congruence.
Qed.

(** ** Setting: the loop over references is a recursion *)

Fixpoint set_rec (top : bool) (doc : json) (parts : list pystr) (value : json) : res json :=
  match parts with
  | [] => if top then Raise UnboundLocalError else Ok value
  | part :: rest =>
      match set_key doc part with
      | Raise e => Raise e
      | Ok k =>
          match getitem doc k with
          | Ok nd => do nd' <- set_rec false nd rest value; setitem doc k nd'
          | Raise TypeError =>
              if top then Raise TypeError else Ok (JDict [(part, build_branch rest value)])
          | Raise e =>
              if is_lookup e then setitem_or_append doc k (build_branch rest value) else Raise e
          end
      end
  end.

Fixpoint goodref (root : json) (r : ref) : Prop :=
  match r with
  | [] => True
  | k :: r' => container root = true /\ exists c, getitem root k = Ok c /\ goodref c r'
  end.

Lemma setitem_ok : forall root k c v, container root = true -> getitem root k = Ok c ->
  exists root', setitem root k v = Ok root' /\ container root' = true /\ getitem root' k = Ok v.
Proof.
  intros root k c v Hc Hg. destruct root as [|bb|nn|s|l|d]; try discriminate; destruct k as [x|z];
    cbn in Hg; try discriminate.
  - destruct (list_getitem l z) as [w|] eqn:E; [|discriminate]. inversion Hg; subst.
    unfold list_getitem in E. cbn [setitem]. unfold list_setitem.
    destruct (list_index l z) as [i|] eqn:Ei; [|discriminate].
    eexists; split; [reflexivity|]. split; [reflexivity|]. cbn [getitem].
    unfold list_getitem. rewrite (list_index_length _ _ (list_update l i v) l z)
      by apply list_update_length. rewrite Ei.
    rewrite nth_error_update_eq; [reflexivity|]. eapply list_index_bound; exact Ei.
  - destruct (sget x d) as [w|] eqn:E; [|discriminate]. inversion Hg; subst.
    cbn [setitem]. eexists; split; [reflexivity|]. split; [reflexivity|]. cbn [getitem].
    unfold sget, sset. rewrite dget_dset_eq by apply str_eqb_eq. reflexivity.
Qed.

Lemma setitem_or_append_ok : forall root k c v, container root = true -> getitem root k = Ok c ->
  setitem_or_append root k v = setitem root k v.
Proof.
  intros root k c v Hc Hg. destruct (setitem_ok root k c v Hc Hg) as [r' [H _]].
  unfold setitem_or_append. rewrite H. reflexivity.
Qed.

Lemma list_update_update : forall A (l : list A) i v w,
  list_update (list_update l i v) i w = list_update l i w.
Proof. induction l as [|x l IH]; destruct i; intros; simpl; [reflexivity..|]. f_equal. apply IH. Qed.

Lemma dset_dset : forall V k (v w : V) d, sset k w (sset k v d) = sset k w d.
Proof.
  intros V k v w d. unfold sset. induction d as [|[k' v'] d IH]; simpl.
  - rewrite str_eqb_refl. reflexivity.
  - destruct (str_eqb k k') eqn:E; simpl; rewrite E; [reflexivity|]. f_equal. exact IH.
Qed.

Lemma setitem_setitem : forall root k v w r1, setitem root k v = Ok r1 ->
  setitem r1 k w = setitem root k w.
Proof.
  intros root k v w r1 H. destruct root as [|bb|nn|s|l|d]; destruct k as [x|z]; cbn in H; try discriminate.
  - unfold list_setitem in H. destruct (list_index l z) as [i|] eqn:Ei; [|discriminate].
    inversion H; subst. cbn [setitem]. unfold list_setitem.
    rewrite (list_index_length _ _ (list_update l i v) l z) by apply list_update_length.
    rewrite Ei. rewrite list_update_update. reflexivity.
  - inversion H; subst. cbn [setitem]. rewrite dset_dset. reflexivity.
Qed.

Lemma put_ok : forall r root v, goodref root r ->
  exists root', put root r v = Ok root' /\ goodref root' r /\ deref root' r = Ok v
                /\ forall w, put root' r w = put root r w.
Proof.
  induction r as [|k r IH]; intros root v Hg.
  - exists v. simpl. repeat split; auto.
  - destruct Hg as [Hc [c [Hk Hg]]].
    destruct (IH c v Hg) as [c' [Hp [Hg' [Hd' Hw]]]].
    destruct (setitem_ok root k c c' Hc Hk) as [root' [Hs [Hc' Hk']]].
    exists root'. cbn [put goodref deref]. rewrite Hk, Hk'. cbn [rbind]. rewrite Hp. cbn [rbind].
    split; [exact Hs|]. split; [split; [exact Hc'|]; exists c'; auto|]. split; [exact Hd'|].
    intro w. rewrite Hw. destruct (put c r w) as [c''|e]; [|reflexivity]. cbn [rbind].
    eapply setitem_setitem; exact Hs.
Qed.

Lemma deref_app : forall a root k, deref root (a ++ [k]) = do d <- deref root a; getitem d k.
Proof.
  induction a as [|x a IH]; intros root k; cbn [app deref].
  - cbn [rbind]. destruct (getitem root k); reflexivity.
  - destruct (getitem root x); [|reflexivity]. cbn [rbind]. apply IH.
Qed.

Lemma goodref_deref : forall r root, goodref root r -> exists d, deref root r = Ok d.
Proof.
  induction r as [|k r IH]; intros root H; [exists root; reflexivity|].
  destruct H as [_ [c [Hk Hg]]]. cbn [deref]. rewrite Hk. cbn [rbind]. apply IH. exact Hg.
Qed.

Lemma goodref_app : forall a root k d c, goodref root a -> deref root a = Ok d ->
  container d = true -> getitem d k = Ok c -> goodref root (a ++ [k]).
Proof.
  induction a as [|x a IH]; intros root k d c Hg Hd Hc Hk; cbn [app goodref].
  - inversion Hd; subst. split; [exact Hc|]. exists c. split; [exact Hk|exact I].
  - destruct Hg as [Hcr [c0 [Hx Hg]]]. split; [exact Hcr|]. exists c0. split; [exact Hx|].
    cbn [deref] in Hd. rewrite Hx in Hd. cbn [rbind] in Hd. eapply IH; eassumption.
Qed.

Lemma put_app : forall a root k v d, goodref root a -> deref root a = Ok d ->
  forall c, container d = true -> getitem d k = Ok c ->
  put root (a ++ [k]) v = do d' <- setitem d k v; put root a d'.
Proof.
  induction a as [|x a IH]; intros root k v d Hg Hd c Hc Hk; cbn [app put].
  - inversion Hd; subst. rewrite Hk. cbn [rbind put]. destruct (setitem d k v); reflexivity.
  - destruct Hg as [Hcr [c0 [Hx Hg]]]. cbn [deref] in Hd. rewrite Hx in *. cbn [rbind] in *.
    erewrite IH by eassumption. destruct (setitem d k v); reflexivity.
Qed.

Lemma mutate_spec : forall root r f d, goodref root r -> deref root r = Ok d ->
  mutate root r f =
    match f d with
    | Ok d' => match put root r d' with Ok root' => (root', None) | Raise e => (root, Some e) end
    | Raise e => (root, Some e)
    end.
Proof.
  intros root r f d Hg Hd. unfold mutate. rewrite Hd. cbn [rbind].
  destruct (f d); reflexivity.
Qed.

Lemma set_key_nonlist : forall doc part k, set_key doc part = Ok k ->
  (forall l, doc <> JList l) -> k = KStr part.
Proof.
  intros doc part k H Hn. destruct doc as [|bb|nn|s|l|d]; cbn in H; try congruence.
  exfalso; apply (Hn l); reflexivity.
Qed.

Lemma set_key_list : forall l part k, set_key (JList l) part = Ok k -> exists z, k = KInt z.
Proof.
  intros l part k H. cbn in H. destruct (str_eqb part [45%N]); [inversion H; eexists; reflexivity|].
  destruct (py_int part) as [z|]; [|discriminate].
  destruct (Z.of_nat (length l) <? z)%Z; inversion H. eexists; reflexivity.
Qed.

(** After a successful [doc[part]] of the loop, [doc] is a dict or a list. *)
Lemma set_getitem_container : forall doc part k c, set_key doc part = Ok k ->
  getitem doc k = Ok c -> container doc = true.
Proof.
  intros doc part k c Hk Hg. destruct doc as [|bb|nn|s|l|d]; try reflexivity;
    apply set_key_nonlist in Hk; try (intros ? ?; discriminate); subst; discriminate.
Qed.

Lemma set_typeerror : forall doc part k, set_key doc part = Ok k ->
  getitem doc k = Raise TypeError -> container doc = false /\ k = KStr part.
Proof.
  intros doc part k Hk Hg. destruct doc as [|bb|nn|s|l|d];
    try (apply set_key_nonlist in Hk; [|intros ? ?; discriminate]; subst; split; [|reflexivity];
         cbn in *; try reflexivity).
  - exfalso. apply set_key_list in Hk. destruct Hk as [z ->]. cbn in Hg.
    destruct (list_getitem l z); discriminate.
  - exfalso. destruct (sget part d); discriminate.
Qed.

Lemma set_lookup : forall doc part k e, set_key doc part = Ok k ->
  getitem doc k = Raise e -> e <> TypeError -> container doc = true /\ is_lookup e = true.
Proof.
  intros doc part k e Hk Hg Hne. pose proof (getitem_raise _ _ _ Hg) as Ht.
  split.
  - destruct doc as [|bb|nn|s|l|d]; try reflexivity;
      (apply set_key_nonlist in Hk; [|intros ? ?; discriminate]; subst; cbn in Hg; congruence).
  - destruct e; try discriminate; try reflexivity. congruence.
Qed.

Lemma setitem_or_append_container : forall doc part k v, set_key doc part = Ok k ->
  container doc = true -> exists doc', setitem_or_append doc k v = Ok doc'.
Proof.
  intros doc part k v Hk Hc. destruct doc as [|bb|nn|s|l|d]; try discriminate.
  - apply set_key_list in Hk. destruct Hk as [z ->]. unfold setitem_or_append. cbn [setitem].
    destruct (list_setitem l z v); eexists; reflexivity.
  - apply set_key_nonlist in Hk; [|intros ? ?; discriminate]. subst. eexists; reflexivity.
Qed.

Lemma set_loop_rec : forall parts root pd pk pdoc d value,
  goodref root pd -> deref root pd = Ok pdoc -> container pdoc = true -> getitem pdoc pk = Ok d ->
  match set_rec false d parts value with
  | Ok d' => exists root', put root (pd ++ [pk]) d' = Ok root' /\
               set_loop root (pd ++ [pk]) (Some (pd, pk)) parts value = (root', None)
  | Raise e => set_loop root (pd ++ [pk]) (Some (pd, pk)) parts value = (root, Some e)
  end.
Proof.
  induction parts as [|part rest IH]; intros root pd pk pdoc d value Hg Hd Hc Hk.
  - cbn [set_rec set_loop]. rewrite (mutate_spec root pd _ pdoc Hg Hd).
    rewrite (setitem_or_append_ok pdoc pk d value Hc Hk).
    destruct (setitem_ok pdoc pk d value Hc Hk) as [p' [Hs _]]. rewrite Hs.
    rewrite (put_app pd root pk value pdoc Hg Hd d Hc Hk). rewrite Hs. cbn [rbind].
    destruct (put_ok pd root p' Hg) as [root' [Hp _]]. rewrite Hp. eauto.
  - assert (Hgd : goodref root (pd ++ [pk])) by (eapply goodref_app; eassumption).
    assert (Hdd : deref root (pd ++ [pk]) = Ok d).
    { rewrite deref_app, Hd. exact Hk. }
    cbn [set_rec set_loop]. rewrite Hdd.
    destruct (set_key d part) as [k|e] eqn:Ek; [|reflexivity].
    destruct (getitem d k) as [nd|e] eqn:Eg.
    + pose proof (set_getitem_container _ _ _ _ Ek Eg) as Hcd.
      specialize (IH root (pd ++ [pk]) k d nd value Hgd Hdd Hcd Eg).
      destruct (set_rec false nd rest value) as [nd'|e]; cbn [rbind]; [|exact IH].
      destruct IH as [root' [Hp Hl]].
      destruct (setitem_ok d k nd nd' Hcd Eg) as [d' [Hs _]]. rewrite Hs.
      exists root'. split; [|exact Hl].
      rewrite (put_app (pd ++ [pk]) root k nd' d Hgd Hdd nd Hcd Eg) in Hp.
      rewrite Hs in Hp. exact Hp.
    + destruct (match e with TypeError => true | _ => false end) eqn:Et.
      * assert (e = TypeError) by (destruct e; congruence). subst e. clear Et.
        destruct (set_typeerror _ _ _ Ek Eg) as [Hcd ->].
        rewrite (mutate_spec root pd _ pdoc Hg Hd).
        destruct (setitem_ok pdoc pk d (JDict []) Hc Hk) as [p' [Hs [Hc' Hk']]]. rewrite Hs.
        destruct (put_ok (pd ++ [pk]) root (JDict []) Hgd) as [root1 [Hp1 [Hg1 [Hd1 Hw1]]]].
        assert (Hp1' := Hp1).
        rewrite (put_app pd root pk _ pdoc Hg Hd d Hc Hk) in Hp1'. rewrite Hs in Hp1'.
        cbn [rbind] in Hp1'. rewrite Hp1'.
        rewrite (mutate_spec root1 (pd ++ [pk]) _ (JDict []) Hg1 Hd1).
        cbn [setitem_or_append setitem sset dset].
        rewrite Hw1.
        destruct (put_ok (pd ++ [pk]) root (JDict [(part, build_branch rest value)]) Hgd)
          as [root2 [Hp2 _]].
        unfold sset. cbn [dset]. rewrite Hp2. eauto.
      * assert (Hne : e <> TypeError) by (intros ->; discriminate).
        destruct (set_lookup _ _ _ _ Ek Eg Hne) as [Hcd Hl].
        destruct (setitem_or_append_container d part k (build_branch rest value) Ek Hcd) as [d' Hs].
        assert (Ht : forall A (a b : A), match e with TypeError => a | _ => b end = b).
        { intros. destruct e; try reflexivity. congruence. }
        rewrite !Ht. rewrite Hl, Hs.
        rewrite (mutate_spec root (pd ++ [pk]) _ d Hgd Hdd). rewrite Hs.
        destruct (put_ok (pd ++ [pk]) root d' Hgd) as [root2 [Hp2 _]]. rewrite Hp2. eauto.
Qed.

Lemma set_loop_top : forall parts root value,
  set_loop root [] None parts value =
    match set_rec true root parts value with
    | Ok root' => (root', None)
    | Raise e => (root, Some e)
    end.
Proof.
  intros [|part rest] root value; [reflexivity|]. cbn [set_loop set_rec deref].
  destruct (set_key root part) as [k|e] eqn:Ek; [|reflexivity].
  destruct (getitem root k) as [nd|e] eqn:Eg.
  - pose proof (set_getitem_container _ _ _ _ Ek Eg) as Hcd.
    pose proof (set_loop_rec rest root [] k root nd value I eq_refl Hcd Eg) as H.
    cbn [app] in *. destruct (set_rec false nd rest value) as [nd'|e]; cbn [rbind]; [|exact H].
    destruct H as [root' [Hp Hl]]. rewrite Hl. cbn [put rbind] in Hp. rewrite Eg in Hp.
    cbn [rbind] in Hp. rewrite Hp. reflexivity.
  - destruct (match e with TypeError => true | _ => false end) eqn:Et.
    + assert (e = TypeError) by (destruct e; congruence). subst e. reflexivity.
    + assert (Hne : e <> TypeError) by (intros ->; discriminate).
      destruct (set_lookup _ _ _ _ Ek Eg Hne) as [Hcd Hl].
      assert (Ht : forall A (a b : A), match e with TypeError => a | _ => b end = b).
      { intros. destruct e; try reflexivity. congruence. }
      rewrite !Ht. rewrite Hl. rewrite (mutate_spec root [] _ root I eq_refl).
      destruct (setitem_or_append root k (build_branch rest value)); reflexivity.
Qed.

(** ** What setting does, by the specification *)

Lemma py_int_dash : py_int [45%N] = None.
Proof. reflexivity. Qed.

Lemma write_slot_fun : forall n p i j, write_slot n p i -> write_slot n p j -> i = j.
Proof.
  intros n p i j H H'.
  destruct H as [|p z Hp Hz Hr|p z Hp Hz Hr|p z Hp Hz Hr];
    inversion H' as [|p' z' Hp' Hz' Hr'|p' z' Hp' Hz' Hr'|p' z' Hp' Hz' Hr']; subst;
    try congruence;
    rewrite Hz in Hz'; inversion Hz'; subst; try lia; reflexivity.
Qed.

Lemma write_slot_le : forall n p i, write_slot n p i -> (i <= n)%nat.
Proof. intros n p i H. destruct H; lia. Qed.

Lemma set_key_slot : forall l p k, set_key (JList l) p = Ok k ->
  exists z i, k = KInt z /\ write_slot (length l) p i /\
    ((list_index l z = Some i /\ (i < length l)%nat) \/ (list_index l z = None /\ i = length l)).
Proof.
  intros l p k H. cbn [set_key] in H. destruct (str_eqb_spec p [45%N]) as [->|Hp].
  - inversion H; subst. exists (Z.of_nat (length l)), (length l).
    split; [reflexivity|]. split; [constructor|]. right. split; [|reflexivity].
    unfold list_index. destruct (Z.leb_spec 0 (Z.of_nat (length l))); [|lia].
    destruct (Z.ltb_spec (Z.of_nat (length l)) (Z.of_nat (length l))); [lia|reflexivity].
  - destruct (py_int p) as [z|] eqn:Ez; [|discriminate].
    destruct (Z.ltb_spec (Z.of_nat (length l)) z) as [Hlt|Hge]; [discriminate|].
    inversion H; subst. unfold list_index. destruct (Z.leb_spec 0 z) as [H0|H0].
    + exists z, (Z.to_nat z). split; [reflexivity|]. split; [eapply W_front; eauto; lia|].
      destruct (Z.leb_spec 0 z); [|lia].
      destruct (Z.ltb_spec z (Z.of_nat (length l))); [left|right]; split; try reflexivity; lia.
    + destruct (Z.leb_spec (- Z.of_nat (length l)) z) as [H1|H1].
      * exists z, (Z.to_nat (Z.of_nat (length l) + z)). split; [reflexivity|].
        split; [eapply W_back; eauto; lia|]. left.
        destruct (Z.leb_spec 0 z); [lia|].
        destruct (Z.leb_spec (- Z.of_nat (length l)) z); [|lia]. split; [reflexivity|lia].
      * exists z, (length l). split; [reflexivity|]. split; [eapply W_beyond_back; eauto; lia|].
        right. destruct (Z.leb_spec 0 z); [lia|].
        destruct (Z.leb_spec (- Z.of_nat (length l)) z); [lia|]. split; reflexivity.
Qed.

Lemma set_key_raise : forall doc p e, set_key doc p = Raise e ->
  e = RefResolutionError /\ exists l, doc = JList l /\ forall i, ~ write_slot (length l) p i.
Proof.
  intros doc p e H. destruct doc as [|bb|nn|s|l|d]; try discriminate. cbn [set_key] in H.
  destruct (str_eqb_spec p [45%N]) as [->|Hp]; [discriminate|].
  destruct (py_int p) as [z|] eqn:Ez.
  - destruct (Z.ltb_spec (Z.of_nat (length l)) z) as [Hlt|Hge]; [|discriminate].
    inversion H. split; [reflexivity|]. exists l. split; [reflexivity|].
    intros i Hi. inversion Hi; subst; try congruence;
      match goal with Hq : py_int p = Some _ |- _ => rewrite Hq in Ez; inversion Ez; subst end; lia.
  - inversion H. split; [reflexivity|]. exists l. split; [reflexivity|].
    intros i Hi. inversion Hi; subst; congruence.
Qed.

Lemma build_branch_chain : forall ps v, build_branch ps v = chain ps v.
Proof. induction ps as [|p ps IH]; intro v; simpl; [reflexivity|]. rewrite <- IH. reflexivity. Qed.

Lemma list_update_split : forall A (l1 l2 : list A) c c',
  list_update (l1 ++ c :: l2) (length l1) c' = l1 ++ c' :: l2.
Proof. induction l1 as [|x l1 IH]; intros; simpl; [reflexivity|]. f_equal. apply IH. Qed.

Lemma sset_written : forall k c' d c, sget k d = Some c ->
  map fst (sset k c' d) = map fst d /\ sget k (sset k c' d) = Some (c' : json) /\
  (forall k', k' <> k -> sget k' (sset k c' d) = sget k' d).
Proof.
  intros k c' d c H. unfold sget, sset in *. split; [|split].
  - apply dkeys_dset_in; [apply str_eqb_eq|]. apply dget_Some_In in H; [|apply str_eqb_eq].
    apply (in_map fst) in H. exact H.
  - apply dget_dset_eq, str_eqb_eq.
  - intros k' Hk. apply dget_dset_neq; [apply str_eqb_eq|congruence].
Qed.

Lemma set_rec_written : forall parts top doc v doc',
  set_rec top doc parts v = Ok doc' -> written doc parts v doc'.
Proof.
  induction parts as [|p ps IH]; intros top doc v doc' H.
  - cbn [set_rec] in H. destruct top; [discriminate|]. inversion H; subst. constructor.
  - cbn [set_rec] in H. destruct (set_key doc p) as [k|e] eqn:Ek; [|discriminate].
    destruct (getitem doc k) as [nd|e] eqn:Eg.
    + destruct (set_rec false nd ps v) as [nd'|e] eqn:Er; [|discriminate]. cbn [rbind] in H.
      apply IH in Er. destruct doc as [|bb|nn|s|l|d];
        try (apply set_key_nonlist in Ek; [|intros ? ?; discriminate]; subst; discriminate).
      * destruct (set_key_slot _ _ _ Ek) as [z [i [-> [Hw Hi]]]]. cbn [getitem setitem] in *.
        unfold list_getitem, list_setitem in *.
        destruct Hi as [[Hi Hb]|[Hi _]]; rewrite Hi in *; [|discriminate].
        destruct (nth_error l i) as [c|] eqn:En; [|discriminate].
        inversion Eg; inversion H; subst.
        apply nth_error_split in En. destruct En as [l1 [l2 [-> Hl]]]. subst i.
        rewrite list_update_split. apply Wr_item; assumption.
      * apply set_key_nonlist in Ek; [|intros ? ?; discriminate]. subst. cbn [getitem setitem] in *.
        destruct (sget p d) as [c|] eqn:Es; [|discriminate]. inversion Eg; inversion H; subst.
        destruct (sset_written p nd' d nd Es) as [H1 [H2 H3]].
        eapply Wr_key; eassumption.
    + destruct (match e with TypeError => true | _ => false end) eqn:Et.
      * assert (e = TypeError) by (destruct e; congruence). subst e.
        destruct top; [discriminate|]. inversion H; subst.
        destruct (set_typeerror _ _ _ Ek Eg) as [Hc _].
        rewrite build_branch_chain. apply (Wr_scalar doc p ps v);
          intros x ->; discriminate.
      * assert (Hne : e <> TypeError) by (intros ->; discriminate).
        destruct (set_lookup _ _ _ _ Ek Eg Hne) as [Hcd Hl].
        assert (H' : setitem_or_append doc k (build_branch ps v) = Ok doc').
        { destruct e; try congruence; try (rewrite Hl in H; exact H); discriminate. }
        clear H. rewrite build_branch_chain in H'.
        destruct doc as [|bb|nn|s|l|d]; try discriminate.
        -- destruct (set_key_slot _ _ _ Ek) as [z [i [-> [Hw Hi]]]]. cbn [getitem] in Eg.
           unfold list_getitem in Eg. unfold setitem_or_append in H'. cbn [setitem] in H'.
           unfold list_setitem in H'.
           destruct Hi as [[Hi Hb]|[Hi Hb]]; rewrite Hi in *.
           ++ apply nth_error_Some in Hb. destruct (nth_error l i); [discriminate|congruence].
           ++ inversion H'; subst. apply Wr_append. exact Hw.
        -- apply set_key_nonlist in Ek; [|intros ? ?; discriminate]. subst. cbn [getitem] in Eg.
           cbn [setitem_or_append setitem] in H'.
           destruct (sget p d) as [c|] eqn:Es; [discriminate|].
           unfold setitem_or_append in H'. cbn [setitem] in H'. inversion H'; subst.
           unfold sget, sset in *. rewrite dkeys_dset_notin.
           ++ apply Wr_newkey. exact Es.
           ++ apply str_eqb_eq.
           ++ apply dget_None_notin in Es; [exact Es|apply str_eqb_eq].
Qed.

Lemma set_rec_raise : forall parts top doc v e, set_rec top doc parts v = Raise e ->
  (e = RefResolutionError /\ bad_index doc parts)
  \/ (top = true /\ parts = [] /\ e = UnboundLocalError)
  \/ (top = true /\ parts <> [] /\ container doc = false /\ e = TypeError).
Proof.
  induction parts as [|p ps IH]; intros top doc v e H.
  - cbn [set_rec] in H. destruct top; [|discriminate]. inversion H. right; left; auto.
  - cbn [set_rec] in H. destruct (set_key doc p) as [k|e'] eqn:Ek.
    + destruct (getitem doc k) as [nd|e'] eqn:Eg.
      * pose proof (set_getitem_container _ _ _ _ Ek Eg) as Hcd.
        destruct (set_rec false nd ps v) as [nd'|e'] eqn:Er; cbn [rbind] in H.
        -- destruct (setitem_ok doc k nd nd' Hcd Eg) as [d' [Hs _]]. congruence.
        -- inversion H; subst. apply IH in Er.
           destruct Er as [[-> Hb]|[[? _]|[? _]]]; try discriminate.
           left. split; [reflexivity|]. destruct doc as [|bb|nn|s|l|d]; try discriminate.
           ++ destruct (set_key_slot _ _ _ Ek) as [z [i [-> [Hw Hi]]]]. cbn [getitem] in Eg.
              unfold list_getitem in Eg.
              destruct Hi as [[Hi Hlt]|[Hi _]]; rewrite Hi in *; [|discriminate].
              destruct (nth_error l i) as [c|] eqn:En; inversion Eg; subst.
              eapply B_list; eassumption.
           ++ apply set_key_nonlist in Ek; [|intros ? ?; discriminate]. subst. cbn [getitem] in Eg.
              destruct (sget p d) as [c|] eqn:Es; inversion Eg; subst. eapply B_dict; eassumption.
      * destruct (match e' with TypeError => true | _ => false end) eqn:Et.
        -- assert (e' = TypeError) by (destruct e'; congruence). subst e'.
           destruct top; [|discriminate]. inversion H; subst.
           destruct (set_typeerror _ _ _ Ek Eg) as [Hc _].
           right; right. repeat split; auto. discriminate.
        -- assert (Hne : e' <> TypeError) by (intros ->; discriminate).
           destruct (set_lookup _ _ _ _ Ek Eg Hne) as [Hcd Hl].
           destruct (setitem_or_append_container doc p k (build_branch ps v) Ek Hcd) as [d' Hs].
           rewrite Hs in H. destruct e'; try congruence; try (rewrite Hl in H); discriminate.
    + inversion H; subst. destruct (set_key_raise _ _ _ Ek) as [-> [l [-> Hn]]].
      left. split; [reflexivity|]. apply B_here. exact Hn.
Qed.

Lemma bad_index_raise : forall parts top doc v, bad_index doc parts ->
  set_rec top doc parts v = Raise RefResolutionError.
Proof.
  intros parts top doc v H. revert top.
  induction H as [l p ps Hn|d k c ps Hs Hb IH|l p i c ps Hw En Hb IH]; intro top; cbn [set_rec].
  - destruct (set_key (JList l) p) as [k|e] eqn:Ek.
    + destruct (set_key_slot _ _ _ Ek) as [z [i [_ [Hw _]]]]. exfalso. apply (Hn i Hw).
    + apply set_key_raise in Ek. destruct Ek as [-> _]. reflexivity.
  - cbn [set_key getitem]. rewrite Hs. rewrite IH. reflexivity.
  - destruct (set_key (JList l) p) as [k|e] eqn:Ek.
    + destruct (set_key_slot _ _ _ Ek) as [z [j [-> [Hw' Hj]]]].
      pose proof (write_slot_fun _ _ _ _ Hw Hw') as ->. cbn [getitem]. unfold list_getitem.
      destruct Hj as [[Hj _]|[_ Hj]].
      * rewrite Hj, En. rewrite IH. reflexivity.
      * assert (Hne : nth_error l j <> None) by congruence. apply nth_error_Some in Hne. lia.
    + apply set_key_raise in Ek. destruct Ek as [_ [l' [El Hn]]]. inversion El; subst.
      exfalso. apply (Hn i Hw).
Qed.

Lemma chain_reaches : forall ps v, reaches (chain ps v) ps v.
Proof.
  induction ps as [|p ps IH]; intro v; simpl; [constructor|].
  eapply R_key; [|apply IH]. unfold sget. simpl. rewrite str_eqb_refl. reflexivity.
Qed.

Lemma written_reaches : forall doc ps v doc', written doc ps v doc' ->
  front_indexed doc ps -> reaches doc' ps v.
Proof.
  intros doc ps v doc' H.
  induction H as [j v|d k c ps v c' d' Hs Hw IH Hm Hk Ho|d k ps v Hs
                 |l1 c l2 p ps v c' Hslot Hw IH|l p ps v Hslot|j p ps v Hd Hl]; intro Hf.
  - constructor.
  - eapply R_key; [exact Hk|]. apply IH. inversion Hf; subst; auto. exfalso; congruence.
  - eapply R_key; [|apply chain_reaches]. unfold sget in *. rewrite dget_app, Hs. simpl.
    rewrite str_eqb_refl. reflexivity.
  - inversion Hf as [|? ? ? ?|l q z qs Hq Hz Hc|l q qs Hq1 Hq2|j qs Hx Hy]; subst.
    + assert (Hp : p <> [45%N]) by (intros ->; discriminate).
      assert (Ez : Z.to_nat z = length l1).
      { inversion Hslot; subst; try congruence;
          match goal with H : py_int p = Some _ |- _ => rewrite H in Hq; inversion Hq; subst end;
          try lia; auto. }
      eapply R_index; [exact Hq| |apply IH].
      * left. split; [exact Hz|]. rewrite Ez. rewrite nth_error_app2 by lia.
        rewrite Nat.sub_diag. reflexivity.
      * apply Hc. rewrite Ez. rewrite nth_error_app2 by lia. rewrite Nat.sub_diag. reflexivity.
    + inversion Hslot; subst; congruence.
    + exfalso. eapply Hy. reflexivity.
  - inversion Hf as [|? ? ? ?|l0 q z qs Hq Hz Hc|l0 q qs Hq1 Hq2|j qs Hx Hy]; subst.
    + assert (Hp : p <> [45%N]) by (intros ->; discriminate).
      assert (Ez : Z.to_nat z = length l).
      { inversion Hslot; subst; try congruence;
          match goal with H : py_int p = Some _ |- _ => rewrite H in Hq; inversion Hq; subst end;
          try lia; auto. }
      eapply R_index; [exact Hq| |apply chain_reaches].
      left. split; [exact Hz|]. rewrite Ez. rewrite nth_error_app2 by lia.
      rewrite Nat.sub_diag. reflexivity.
    + inversion Hslot; subst; congruence.
    + exfalso. eapply Hy. reflexivity.
  - apply chain_reaches.
Qed.

Lemma reaches_list : forall l q qs w, reaches (JList l) (q :: qs) w <->
  exists z c, py_int q = Some z /\ list_getitem l z = Some c /\ reaches c qs w.
Proof.
  intros l q qs w. split.
  - intro H. inversion H as [| |l0 q0 z c qs0 w0 Hq Hi Hr|]; subst. exists z, c.
    repeat split; auto. apply item_at_getitem; exact Hi.
  - intros [z [c [Hq [Hi Hr]]]]. eapply R_index; eauto. apply item_at_getitem; exact Hi.
Qed.

Lemma reaches_dict : forall d k qs w, reaches (JDict d) (k :: qs) w <->
  exists c, sget k d = Some c /\ reaches c qs w.
Proof.
  intros d k qs w. split.
  - intro H. inversion H; subst. eauto.
  - intros [c [Hs Hr]]. eapply R_key; eauto.
Qed.

Lemma nth_error_replaced : forall A (l1 l2 : list A) c c' j, j <> length l1 ->
  nth_error (l1 ++ c' :: l2) j = nth_error (l1 ++ c :: l2) j.
Proof.
  intros A l1 l2 c c' j H. destruct (Nat.lt_ge_cases j (length l1)).
  - rewrite !nth_error_app1 by lia. reflexivity.
  - rewrite !nth_error_app2 by lia. destruct (j - length l1)%nat eqn:E; [lia|]. reflexivity.
Qed.

Lemma written_frame : forall doc ps v doc', written doc ps v doc' ->
  forall qs, diverge doc ps qs -> forall w, reaches doc' qs w <-> reaches doc qs w.
Proof.
  intros doc ps v doc' H.
  induction H as [j v|d k c ps v c' d' Hs Hw IH Hm Hk Ho|d k ps v Hs
                 |l1 c l2 p ps v c' Hslot Hw IH|l p ps v Hslot|j p ps v Hd Hl];
    intros qs Hdv w.
  - inversion Hdv.
  - inversion Hdv as [d0 k1 k2 ps0 qs0 Hne|d0 k0 c0 ps0 qs0 Hs0 Hd0| | |]; subst.
    + rewrite !reaches_dict. rewrite Ho by congruence. reflexivity.
    + rewrite Hs in Hs0. inversion Hs0; subst. rewrite !reaches_dict.
      split; intros [x [Hx Hr]].
      * exists c0. split; [exact Hs|]. apply (IH _ Hd0). congruence.
      * exists c'. split; [exact Hk|]. apply (IH _ Hd0). congruence.
  - inversion Hdv as [d0 k1 k2 ps0 qs0 Hne|d0 k0 c0 ps0 qs0 Hs0 Hd0| | |]; subst; [|congruence].
    rewrite !reaches_dict. unfold sget. rewrite dget_app. simpl.
    assert (E : str_eqb k2 k = false) by (apply str_eqb_neq; congruence). rewrite E.
    destruct (dget str_eqb k2 d); reflexivity.
  - inversion Hdv as [| |l0 p0 q i z ps0 qs0 Hw0 Hq Hz Hne|l0 p0 q i z ps0 qs0 Hw0 Hi Hq Hz Hne
                     |l0 p0 q i z c0 ps0 qs0 Hw0 Hq Hit Hi Hn Hzi Hdc]; subst;
      pose proof (write_slot_fun _ _ _ _ Hw0 Hslot) as ->; rewrite !reaches_list.
    + assert (E : list_getitem (l1 ++ c' :: l2) z = list_getitem (l1 ++ c :: l2) z).
      { unfold list_getitem.
        rewrite (list_index_length _ _ (l1 ++ c' :: l2) (l1 ++ c :: l2)) by (rewrite !app_length; reflexivity).
        destruct (list_index (l1 ++ c :: l2) z) as [j|] eqn:Ej; [|reflexivity].
        apply nth_error_replaced. intros ->. unfold list_index in Ej.
        destruct (Z.leb_spec 0 z); [|lia]. destruct (_ <? _)%Z; inversion Ej. congruence. }
      split; intros [z' [x [Hz' [Hx Hr]]]]; exists z', x; rewrite Hq in Hz'; inversion Hz'; subst;
        (split; [exact Hq|split; [congruence|exact Hr]]).
    + assert (E : list_getitem (l1 ++ c' :: l2) z = list_getitem (l1 ++ c :: l2) z).
      { unfold list_getitem.
        rewrite (list_index_length _ _ (l1 ++ c' :: l2) (l1 ++ c :: l2)) by (rewrite !app_length; reflexivity).
        destruct (list_index (l1 ++ c :: l2) z) as [j|] eqn:Ej; [|reflexivity].
        apply nth_error_replaced. intros ->. unfold list_index in Ej.
        destruct (Z.leb_spec 0 z); [lia|]. destruct (_ <=? _)%Z; inversion Ej. congruence. }
      split; intros [z' [x [Hz' [Hx Hr]]]]; exists z', x; rewrite Hq in Hz'; inversion Hz'; subst;
        (split; [exact Hq|split; [congruence|exact Hr]]).
    + rewrite nth_error_app2, Nat.sub_diag in Hn by lia. simpl in Hn. inversion Hn; subst c0.
      assert (Hlen : length (l1 ++ c :: l2) = length (l1 ++ c' :: l2)) by (rewrite !app_length; reflexivity).
      assert (Eidx : list_index (l1 ++ c :: l2) z = Some (length l1)).
      { unfold list_index. rewrite app_length in *. cbn [length] in *.
        destruct (Z.leb_spec 0 z); destruct Hzi as [->| ->]; try lia.
        - destruct (Z.ltb_spec (Z.of_nat (length l1)) (Z.of_nat (length l1 + S (length l2)))); [|lia].
          f_equal. lia.
        - match goal with |- context [(?a <=? ?b)%Z] => destruct (Z.leb_spec a b) end; [|lia].
          f_equal. lia. }
      assert (E1 : list_getitem (l1 ++ c :: l2) z = Some c).
      { unfold list_getitem. rewrite Eidx. rewrite nth_error_app2, Nat.sub_diag by lia. reflexivity. }
      assert (E2 : list_getitem (l1 ++ c' :: l2) z = Some c').
      { unfold list_getitem. rewrite (list_index_length _ _ _ _ z (eq_sym Hlen)), Eidx.
        rewrite nth_error_app2, Nat.sub_diag by lia. reflexivity. }
      split; intros [z' [x [Hz' [Hx Hr]]]]; rewrite Hq in Hz'; inversion Hz'; subst z'.
      * exists z, c. split; [exact Hq|]. split; [exact E1|]. apply (IH _ Hdc). congruence.
      * exists z, c'. split; [exact Hq|]. split; [exact E2|]. apply (IH _ Hdc). congruence.
  - inversion Hdv as [| |l0 p0 q i z ps0 qs0 Hw0 Hq Hz Hne|l0 p0 q i z ps0 qs0 Hw0 Hi Hq Hz Hne
                     |l0 p0 q i z c0 ps0 qs0 Hw0 Hq Hit Hi Hn Hzi Hdc]; subst;
      pose proof (write_slot_fun _ _ _ _ Hw0 Hslot) as ->; try lia.
    rewrite !reaches_list.
    assert (E : list_getitem (l ++ [chain ps v]) z = list_getitem l z).
    { unfold list_getitem, list_index. rewrite app_length. cbn [length].
      destruct (Z.leb_spec 0 z); [|lia].
      destruct (Z.ltb_spec z (Z.of_nat (length l + 1))), (Z.ltb_spec z (Z.of_nat (length l)));
        try lia; [|reflexivity].
      rewrite nth_error_app1 by lia. reflexivity. }
    split; intros [z' [x [Hz' [Hx Hr]]]]; exists z', x; rewrite Hq in Hz'; inversion Hz'; subst;
      (split; [exact Hq|split; [congruence|exact Hr]]).
  - inversion Hdv; subst; exfalso; (eapply Hd; reflexivity) || (eapply Hl; reflexivity).
Qed.

(** ** The statements about [set_jsonpointer] *)

Lemma set_jsonpointer_rec : forall doc ptr parts v, iter_parts ptr = Ok parts ->
  set_jsonpointer doc ptr v =
    match set_rec true doc parts v with
    | Ok d => (d, None)
    | Raise e => (doc, Some e)
    end.
Proof. intros doc ptr parts v H. unfold set_jsonpointer. rewrite H. apply set_loop_top. Qed.

Lemma set_jsonpointer_written : forall doc ptr parts v doc',
  iter_parts ptr = Ok parts -> set_jsonpointer doc ptr v = (doc', None) ->
  parts <> [] /\ written doc parts v doc'.
Proof.
  intros doc ptr parts v doc' Hp H. rewrite (set_jsonpointer_rec _ _ _ _ Hp) in H.
  destruct (set_rec true doc parts v) as [d|e] eqn:E; inversion H; subst.
  split; [|eapply set_rec_written; exact E]. intros ->. discriminate.
Qed.

Lemma set_then_resolve : forall doc ptr parts v doc' dflt,
  iter_parts ptr = Ok parts -> front_indexed doc parts ->
  set_jsonpointer doc ptr v = (doc', None) ->
  resolve_jsonpointer doc' ptr dflt = Ok v.
Proof.
  intros doc ptr parts v doc' dflt Hp Hf H.
  destruct (set_jsonpointer_written _ _ _ _ _ Hp H) as [_ Hw].
  pose proof (written_reaches _ _ _ _ Hw Hf) as Hr.
  destruct (resolve_jsonpointer_spec doc' ptr parts dflt Hp) as [[w [Hw' Ho]]|[Hn _]].
  - rewrite Ho. f_equal. eapply reaches_fun; eassumption.
  - exfalso. eapply Hn; exact Hr.
Qed.

Lemma set_frame : forall doc ptr parts v doc' qtr qs dflt,
  iter_parts ptr = Ok parts -> iter_parts qtr = Ok qs -> diverge doc parts qs ->
  set_jsonpointer doc ptr v = (doc', None) ->
  resolve_jsonpointer doc' qtr dflt = resolve_jsonpointer doc qtr dflt.
Proof.
  intros doc ptr parts v doc' qtr qs dflt Hp Hq Hd H.
  destruct (set_jsonpointer_written _ _ _ _ _ Hp H) as [_ Hw].
  pose proof (written_frame _ _ _ _ Hw qs Hd) as Hr.
  destruct (resolve_jsonpointer_spec doc' qtr qs dflt Hq) as [[w [Hw' Ho]]|[Hn Ho]];
    destruct (resolve_jsonpointer_spec doc qtr qs dflt Hq) as [[w2 [Hw2 Ho2]]|[Hn2 Ho2]];
    rewrite Ho, Ho2.
  - f_equal. eapply reaches_fun; [|exact Hw2]. apply Hr. exact Hw'.
  - exfalso. eapply Hn2. apply Hr. exact Hw'.
  - exfalso. eapply Hn. apply Hr. exact Hw2.
  - reflexivity.
Qed.

Lemma set_error_unmodified : forall doc ptr v doc' e,
  set_jsonpointer doc ptr v = (doc', Some e) -> doc' = doc.
Proof.
  intros doc ptr v doc' e H. destruct (iter_parts ptr) as [parts|e'] eqn:Hp.
  - rewrite (set_jsonpointer_rec _ _ _ _ Hp) in H.
    destruct (set_rec true doc parts v); inversion H; reflexivity.
  - unfold set_jsonpointer in H. rewrite Hp in H. inversion H; reflexivity.
Qed.

Lemma set_errors : forall doc ptr v, container doc = true -> ptr <> [] ->
  (exists doc', set_jsonpointer doc ptr v = (doc', None) /\
     exists parts, iter_parts ptr = Ok parts /\ ~ bad_index doc parts)
  \/ (set_jsonpointer doc ptr v = (doc, Some RefResolutionError) /\
      (iter_parts ptr = Raise RefResolutionError \/
       exists parts, iter_parts ptr = Ok parts /\ bad_index doc parts)).
Proof.
  intros doc ptr v Hc Hne. destruct (iter_parts ptr) as [parts|e] eqn:Hp.
  - rewrite (set_jsonpointer_rec _ _ _ _ Hp).
    destruct (set_rec true doc parts v) as [d|e] eqn:E.
    + left. exists d. split; [reflexivity|]. exists parts. split; [reflexivity|].
      intro Hb. rewrite (bad_index_raise parts true doc v Hb) in E. discriminate.
    + right. apply set_rec_raise in E. destruct E as [[-> Hb]|[[_ [Hn _]]|[_ [_ [Hx _]]]]].
      * split; [reflexivity|]. right. exists parts. auto.
      * exfalso. subst parts. destruct ptr as [|c ptr]; [congruence|].
        unfold iter_parts in Hp. cbn [split_on] in Hp.
        destruct (c =? slash)%N.
        -- cbn [str_eqb] in Hp. inversion Hp as [Hm].
           destruct (split_on slash ptr) as [|w ws] eqn:Es; [|discriminate].
           eapply split_on_not_nil; exact Es.
        -- destruct (split_on slash ptr); discriminate.
      * congruence.
  - right. apply iter_parts_raise in Hp as Hp'. destruct Hp' as [-> _].
    unfold set_jsonpointer. rewrite Hp. auto.
Qed.

(** ** [resolve_path] *)

Lemma resolve_step_agrees : forall attr root doc p v,
  resolve_loop doc [p] None = Ok v -> resolve_step attr root doc p = Some v.
Proof.
  intros attr root doc p v H. cbn [resolve_loop] in H. unfold resolve_step.
  destruct (is_sequence doc) eqn:Es.
  - destruct (py_int p) as [z|].
    + destruct (getitem doc (KInt z)) as [c|e] eqn:E; cbn [opt_of_res first_some].
      * inversion H; reflexivity.
      * rewrite (getitem_raise _ _ _ E) in H. discriminate.
    + cbn [first_some]. destruct (getitem doc (KStr p)) as [c|e] eqn:E; cbn [opt_of_res first_some].
      * inversion H; reflexivity.
      * rewrite (getitem_raise _ _ _ E) in H. discriminate.
  - cbn [first_some]. destruct (getitem doc (KStr p)) as [c|e] eqn:E; cbn [opt_of_res first_some].
    + inversion H; reflexivity.
    + rewrite (getitem_raise _ _ _ E) in H. discriminate.
Qed.

Lemma resolve_path_loop_agrees : forall attr root parts doc v dflt,
  reaches doc parts v -> resolve_path_loop attr root doc parts dflt = Ok v.
Proof.
  induction parts as [|p ps IH]; intros doc v dflt H.
  - inversion H; reflexivity.
  - apply resolve_loop_reaches in H. cbn [resolve_loop] in H.
    destruct (getitem doc _) as [c|e] eqn:E.
    + cbn [resolve_path_loop]. rewrite (resolve_step_agrees attr root doc p c).
      * apply IH. apply resolve_loop_reaches. exact H.
      * cbn [resolve_loop]. rewrite E. reflexivity.
    + rewrite (getitem_raise _ _ _ E) in H. discriminate.
Qed.

Lemma iter_relaxed_of_abs : forall ptr parts, iter_parts ptr = Ok parts ->
  iter_parts_relaxed ptr = [] :: parts.
Proof.
  intros ptr parts H. unfold iter_parts, iter_parts_relaxed in *.
  destruct (split_on slash ptr) as [|f ps]; [discriminate|].
  destruct (str_eqb_spec f []) as [->|Hf]; [|discriminate]. inversion H. reflexivity.
Qed.

Lemma iter_relaxed_slash : forall path,
  iter_parts_relaxed (slash :: path) = [] :: iter_parts_relaxed path.
Proof. intro path. reflexivity. Qed.

Lemma resolve_step_root : forall attr root doc, no_empty_name attr doc ->
  resolve_step attr root doc [] = resolve_root root doc [].
Proof.
  intros attr root doc [Ha Hd]. unfold resolve_step.
  assert (E : (if is_sequence doc then match py_int [] with
       | Some z => opt_of_res (getitem doc (KInt z)) | None => None end else None) = None).
  { destruct (is_sequence doc); reflexivity. }
  rewrite E. cbn [first_some]. rewrite Ha.
  destruct doc as [|bb|nn|s|l|d]; cbn [getitem opt_of_res first_some]; try reflexivity.
  rewrite (Hd d eq_refl). reflexivity.
Qed.

Lemma resolve_path_absolute : forall attr doc root path dflt,
  no_empty_name attr doc -> truthy root = true ->
  resolve_path attr doc (slash :: path) dflt (Some root)
  = resolve_path attr root path dflt (Some root).
Proof.
  intros attr doc root path dflt Hn Ht. unfold resolve_path. rewrite iter_relaxed_slash.
  cbn [resolve_path_loop]. rewrite resolve_step_root by exact Hn. cbn [resolve_root].
  rewrite Ht. reflexivity.
Qed.

Lemma resolve_path_extends : forall attr doc ptr v dflt,
  no_empty_name attr doc -> resolve_jsonpointer doc ptr None = Ok v ->
  resolve_path attr doc ptr dflt None = Ok v.
Proof.
  intros attr doc ptr v dflt Hn H. unfold resolve_jsonpointer in H.
  destruct (iter_parts ptr) as [parts|e] eqn:Hp; [|discriminate]. cbn [rbind] in H.
  unfold resolve_path. rewrite (iter_relaxed_of_abs _ _ Hp). cbn [resolve_path_loop].
  rewrite resolve_step_root by exact Hn. cbn [resolve_root].
  apply resolve_path_loop_agrees. apply resolve_loop_reaches. exact H.
Qed.

Lemma resolve_path_outcomes : forall attr doc path dflt root,
  (exists v, resolve_path attr doc path None root = Ok v /\ resolve_path attr doc path dflt root = Ok v)
  \/ (resolve_path attr doc path None root = Raise RefResolutionError /\
      resolve_path attr doc path dflt root =
        match dflt with Some d => Ok d | None => Raise RefResolutionError end).
Proof.
  intros attr doc path dflt root. unfold resolve_path. revert doc.
  induction (iter_parts_relaxed path) as [|p ps IH]; intro doc; cbn [resolve_path_loop].
  - left. exists doc. auto.
  - destruct (resolve_step attr root doc p) as [c|]; [apply IH|]. right. auto.
Qed.

(** ** Schema paths *)

Definition forks_of (s : schema) := match s with Schema f _ => f end.
Definition props_of (s : schema) := match s with Schema _ p => p end.

Fixpoint schema_size (s : schema) : nat :=
  match s with
  | Schema forks props =>
      S (fold_right (fun f n => schema_size f + n) 0 forks
         + fold_right (fun kc n => schema_size (snd kc) + n) 0 props)
  end.

Lemma fold_size_in : forall A (g : A -> nat) l x, In x l ->
  (g x <= fold_right (fun a n => g a + n) 0 l)%nat.
Proof.
  induction l as [|y l IH]; intros x H; [destruct H|]. simpl. destruct H as [->|H]; [lia|].
  apply IH in H. lia.
Qed.

Lemma slashed_app : forall a b, slashed (a ++ b) = slashed a ++ slashed b.
Proof.
  induction a as [|x a IH]; intro b; simpl; [reflexivity|]. rewrite IH, <- app_assoc. reflexivity.
Qed.

Lemma visit_leaf : forall n s path p, (schema_size s <= n)%nat ->
  (In p (visit s path) <->
   exists ps, schema_leaf forks_of props_of s ps /\ p = path ++ slashed ps).
Proof.
  induction n as [|n IH]; intros [forks props] path p Hn; [simpl in Hn; lia|].
  cbn [visit]. rewrite in_app_iff, in_flat_map. cbn [schema_size] in Hn.
  assert (Hf : forall f, In f forks -> (schema_size f <= n)%nat).
  { intros f Hf. pose proof (fold_size_in _ schema_size _ _ Hf). lia. }
  assert (Hp : forall kc, In kc props -> (schema_size (snd kc) <= n)%nat).
  { intros kc Hk. pose proof (fold_size_in _ (fun kc : pystr * schema => schema_size (snd kc)) _ _ Hk).
    lia. }
  split.
  - intros [[f [Hin Hv]]|H].
    + apply IH in Hv; [|auto]. destruct Hv as [ps [Hl ->]]. exists ps. split; [|reflexivity].
      eapply Leaf_fork; eassumption.
    + destruct props as [|kc props2].
      * destruct H as [<-|[]]. exists []. split; [apply Leaf_here; reflexivity|].
        simpl. rewrite app_nil_r. reflexivity.
      * apply in_flat_map in H. destruct H as [[k c] [Hin Hv]]. apply IH in Hv; [|apply (Hp _ Hin)].
        destruct Hv as [ps [Hl ->]]. exists (k :: ps). split.
        -- eapply Leaf_prop; eassumption.
        -- cbn [fst slashed]. rewrite <- app_assoc. reflexivity.
  - intros [ps [Hl ->]]. inversion Hl as [s0 Hnil|s0 f ps0 Hin Hl0|s0 k c ps0 Hin Hl0]; subst.
    + right. cbn [props_of] in Hnil. subst. left. simpl. rewrite app_nil_r. reflexivity.
    + left. exists f. split; [exact Hin|]. apply IH; [auto|]. exists ps. auto.
    + right. cbn [props_of] in Hin. destruct props as [|kc props2]; [destruct Hin|].
      apply in_flat_map. exists (k, c). split; [exact Hin|]. apply IH; [apply (Hp _ Hin)|].
      exists ps0. split; [exact Hl0|]. cbn [fst slashed]. rewrite <- app_assoc. reflexivity.
Qed.

Lemma build_all_jsonpaths_spec : forall s p,
  In p (build_all_jsonpaths s) <->
  exists names, schema_leaf forks_of props_of s names /\ p = slashed names.
Proof. intros s p. apply (visit_leaf (schema_size s) s [] p). lia. Qed.
