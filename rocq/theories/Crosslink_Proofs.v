From Coq Require Import String.
From Verif Require Import PyBase PyBase_Proofs Json JsonPointer_Model Paths_Model Pmod_Model Pmod_Spec Pmod_Proofs Pandel_Proofs
  PmodTuples_Proofs Crosslink_Model Crosslink_Spec.

(** ** Nothing is changed *)
Lemma kept_refl : forall h, kept h h.
Proof. intros h. split; auto. Qed.
Lemma kept_trans : forall a b c, kept a b -> kept b c -> kept a c.
Proof. intros a b c [A1 A2] [B1 B2]. split; auto. Qed.
Lemma kept_objs_length : forall h h', kept h h' -> length (m_objs h) <= length (m_objs h').
Proof.
  intros h h' [K _]. destruct (Nat.le_gt_cases (length (m_objs h)) (length (m_objs h'))) as [L|L]; [exact L|].
  destruct (nth_error (m_objs h) (length (m_objs h'))) as [o|] eqn:E; [|apply nth_error_None in E; lia].
  apply K in E. assert (N : nth_error (m_objs h') (length (m_objs h')) <> None) by congruence. apply nth_error_Some in N. lia.
Qed.
Lemma kept_dicts_length : forall h h', kept h h' -> length (m_dicts h) <= length (m_dicts h').
Proof.
  intros h h' [_ K]. destruct (Nat.le_gt_cases (length (m_dicts h)) (length (m_dicts h'))) as [L|L]; [exact L|].
  destruct (nth_error (m_dicts h) (length (m_dicts h'))) as [o|] eqn:E; [|apply nth_error_None in E; lia].
  apply K in E. assert (N : nth_error (m_dicts h') (length (m_dicts h')) <> None) by congruence. apply nth_error_Some in N. lia.
Qed.
Lemma nth_error_lt : forall A (l : list A) i x, nth_error l i = Some x -> i < length l.
Proof. intros A l i x E. apply nth_error_Some. congruence. Qed.
Lemma update_other : forall A (l : list A) i j v x, nth_error l j = Some x -> j <> i -> nth_error (list_update l i v) j = Some x.
Proof.
  induction l as [|y l IH]; intros i j v x E N; [destruct j; discriminate E|]. destruct i as [|i], j as [|j]; cbn in *; try congruence. apply IH; [exact E|congruence].
Qed.
Lemma update_same : forall A (l : list A) i v, i < length l -> nth_error (list_update l i v) i = Some v.
Proof. induction l as [|y l IH]; intros i v L; cbn in L; [lia|]. destruct i as [|i]; cbn; [reflexivity|]. apply IH. lia. Qed.
Lemma kept_add_obj : forall h o, kept h (fst (add_obj h o)).
Proof. intros h o. split; cbn; [|auto]. intros i x E. rewrite nth_error_app1 by (apply nth_error_lt in E; exact E). exact E. Qed.
Lemma kept_add_dict : forall h l, kept h (fst (add_dict h l)).
Proof. intros h l. split; cbn; [auto|]. intros i x E. rewrite nth_error_app1 by (apply nth_error_lt in E; exact E). exact E. Qed.
Lemma kept_put_dict : forall h0 h d l, kept h0 h -> length (m_dicts h0) <= d -> kept h0 (put_dict h d l).
Proof. intros h0 h d l [K1 K2] L. split; cbn; [exact K1|]. intros i x E. apply update_other; [exact (K2 _ _ E)|]. apply nth_error_lt in E. lia. Qed.
Lemma kept_put_obj : forall h0 h i o ds, kept h0 h -> length (m_objs h0) <= i -> ds = m_dicts h -> kept h0 (mkMem (list_update (m_objs h) i o) ds).
Proof. intros h0 h d l ds [K1 K2] L ->. split; cbn; [|exact K2]. intros i x E. apply update_other; [exact (K1 _ _ E)|]. apply nth_error_lt in E. lia. Qed.

Section Kept.
  Variable mc : mem -> nat -> nat -> mem * res nat.
  Hypothesis MC : forall h i j h' r, mc h i j = (h', r) -> kept h h'.
  Lemma steps_loop_kept : forall items h0 h d h' r, kept h0 h -> length (m_dicts h0) <= d -> steps_loop mc h d items = (h', r) -> kept h0 h'.
  Proof.
    induction items as [|[n o] items IH]; intros h0 h d h' r K L E; cbn [steps_loop] in E. { injection E as <- _. exact K. }
    destruct (sget n (dict_at h d)) as [s|].
    - destruct (mc h s o) as [h1 [m|e]] eqn:M; apply MC in M.
      + apply (IH h0) in E; [exact E| |exact L]. apply kept_put_dict; [exact (kept_trans _ _ _ K M)|exact L].
      + injection E as <- _. exact (kept_trans _ _ _ K M).
    - apply (IH h0) in E; [exact E| |exact L]. apply kept_put_dict; assumption.
  Qed.
  Lemma override_steps_kept : forall h0 h i j h' r, kept h0 h -> length (m_objs h0) <= i -> override_steps mc h i j = (h', r) -> kept h0 h'.
  Proof.
    intros h0 h i j h' r K L E. unfold override_steps in E. destruct (dict_at h (o_steps (obj_at h j))) as [|x items]. { injection E as <- _. exact K. }
    destruct (dict_at h (o_steps (obj_at h i))) as [|y l]. { injection E as <- _. apply kept_put_obj; auto. }
    remember (add_dict h (y :: l)) as hd eqn:A. pose proof (kept_add_dict h (y :: l)) as KA. rewrite <- A in KA. destruct hd as [h1 d]. cbn [fst] in KA.
    assert (D : length (m_dicts h) <= d) by (unfold add_dict in A; injection A as _ ->; lia).
    destruct (steps_loop mc h1 d (x :: items)) as [h2 [[]|e]] eqn:S.
    - apply (steps_loop_kept _ h) in S; [|exact KA|exact D]. injection E as <- _. apply kept_put_obj; [exact (kept_trans _ _ _ K S)|exact L|reflexivity].
    - apply (steps_loop_kept _ h) in S; [|exact KA|exact D]. injection E as <- _. exact (kept_trans _ _ _ K S).
  Qed.
  Lemma regxs_loop_kept : forall items h l h' r, regxs_loop mc h l items = (h', r) -> kept h h'.
  Proof.
    induction items as [|[n o] items IH]; intros h l h' r E; cbn [regxs_loop] in E. { injection E as <- _. apply kept_refl. }
    destruct (sget n l) as [s|].
    - destruct (mc h s o) as [h1 [m|e]] eqn:M; apply MC in M; [|injection E as <- _; exact M].
      destruct (regxs_loop mc h1 l items) as [h2 [ps|e]] eqn:R; apply IH in R; injection E as <- _; exact (kept_trans _ _ _ M R).
    - destruct (regxs_loop mc h l items) as [h2 [ps|e]] eqn:R; apply IH in R; injection E as <- _; exact R.
  Qed.
  Lemma override_regxs_kept : forall h0 h i j h' r, kept h0 h -> length (m_objs h0) <= i -> override_regxs mc h i j = (h', r) -> kept h0 h'.
  Proof.
    intros h0 h i j h' r K L E. unfold override_regxs in E. destruct (dict_at h (o_regxs (obj_at h j))) as [|x items]. { injection E as <- _. exact K. }
    destruct (dict_at h (o_regxs (obj_at h i))) as [|y l]. { injection E as <- _. apply kept_put_obj; auto. }
    destruct (regxs_loop mc h (y :: l) (x :: items)) as [h2 [ps|e]] eqn:R; apply regxs_loop_kept in R; [|injection E as <- _; exact (kept_trans _ _ _ K R)].
    match type of E with (let '(_, _) := ?t in _) = _ => remember t as hd eqn:A end. destruct hd as [h3 d].
    assert (KA : kept h2 h3) by (pose proof (f_equal fst A) as A1; cbn [fst] in A1; rewrite A1; apply kept_add_dict).
    injection E as <- _. apply kept_put_obj; [exact (kept_trans _ _ _ K (kept_trans _ _ _ R KA))|exact L|reflexivity].
  Qed.
End Kept.
Theorem merge_in_kept : forall fuel h i j h' r, merge_in fuel h i j = (h', r) -> kept h h'.
Proof.
  induction fuel as [|fuel IH]; intros h i j h' r E; cbn [merge_in] in E. { injection E as <- _. apply kept_refl. }
  pose proof (kept_add_obj h (obj_at h i)) as KA. unfold add_obj in E. cbn [fst add_obj] in KA.
  set (h1 := mkMem (m_objs h ++ [obj_at h i]) (m_dicts h)) in *.
  set (h2 := match o_alias (obj_at h1 j) with Some a => put_alias h1 (length (m_objs h)) (Some a) | None => h1 end) in *.
  assert (K2 : kept h h2) by (unfold h2; destruct (o_alias (obj_at h1 j)); [apply kept_put_obj; [exact KA|lia|reflexivity]|exact KA]).
  destruct (override_steps (merge_in fuel) h2 (length (m_objs h)) j) as [h3 [[]|e]] eqn:S; apply (override_steps_kept _ IH h) in S; try exact K2; try lia; [|injection E as <- _; exact S].
  destruct (override_regxs (merge_in fuel) h3 (length (m_objs h)) j) as [h4 [[]|e]] eqn:R; apply (override_regxs_kept _ IH h) in R; try exact S; try lia; injection E as <- _; exact R.
Qed.

(** ** What objects stand for *)
Fixpoint showsP (P Q : nat -> Prop) (h : mem) (p : pmod) (i : nat) : Prop :=
  match p with
  | Pmod a s r =>
      exists ds dr ls lr, (P i /\ Q ds /\ Q dr) /\ nth_error (m_objs h) i = Some (mkObj a ds dr) /\
        nth_error (m_dicts h) ds = Some ls /\ nth_error (m_dicts h) dr = Some lr /\
        all2 (showsP P Q h) s ls /\ all2 (showsP P Q h) r lr
  end.
Lemma all2_impl : forall (S S' : pmod -> nat -> Prop) s l, (forall k c i, In (k, c) s -> S c i -> S' c i) -> all2 S s l -> all2 S' s l.
Proof.
  induction s as [|[k c] s IH]; intros [|[k' i] l] H A; cbn in *; try exact A. destruct A as (A1 & A2 & A3). split; [exact A1|]. split; [apply (H k); auto|]. apply IH; [|exact A3]. intros k0 c0 i0 I. apply (H k0). auto.
Qed.
Lemma showsP_mono : forall (P Q P' Q' : nat -> Prop) h p i, (forall x, P x -> P' x) -> (forall x, Q x -> Q' x) -> showsP P Q h p i -> showsP P' Q' h p i.
Proof.
  intros P Q P' Q' h p i HP HQ. revert i. induction p as [a s r IHs IHr] using pmod_ind'. intros i (ds & dr & ls & lr & (X1 & X2 & X3) & E1 & E2 & E3 & A1 & A2).
  exists ds, dr, ls, lr. repeat (split; [solve [auto]|]). split; [exact (all2_impl _ _ _ _ (fun k c j I => IHs k c I j) A1)|exact (all2_impl _ _ _ _ (fun k c j I => IHr k c I j) A2)].
Qed.
Lemma shows_all : forall h p i, shows h p i <-> showsP (fun _ => True) (fun _ => True) h p i.
Proof.
  intros h p. induction p as [a s r IHs IHr] using pmod_ind'. intros i. cbn [shows showsP].
  split; intros (ds & dr & ls & lr & X); exists ds, dr, ls, lr.
  - destruct X as (E1 & E2 & E3 & A1 & A2). repeat (split; [solve [auto]|]). split; [refine (all2_impl _ _ _ _ _ A1)|refine (all2_impl _ _ _ _ _ A2)]; intros k c j I; [apply (IHs k c I)|apply (IHr k c I)].
  - destruct X as (_ & E1 & E2 & E3 & A1 & A2). repeat (split; [solve [auto]|]). split; [refine (all2_impl _ _ _ _ _ A1)|refine (all2_impl _ _ _ _ _ A2)]; intros k c j I; [apply (IHs k c I)|apply (IHr k c I)].
Qed.
(** What is looked at is the same. *)
Definition agree (P Q : nat -> Prop) (h h' : mem) : Prop :=
  (forall i o, P i -> nth_error (m_objs h) i = Some o -> nth_error (m_objs h') i = Some o) /\
  (forall d l, Q d -> nth_error (m_dicts h) d = Some l -> nth_error (m_dicts h') d = Some l).
Lemma kept_agree : forall P Q h h', kept h h' -> agree P Q h h'.
Proof. intros P Q h h' [K1 K2]. split; auto. Qed.
Lemma agree_trans : forall P Q a b c, agree P Q a b -> agree P Q b c -> agree P Q a c.
Proof. intros P Q a b c [A1 A2] [B1 B2]. split; auto. Qed.
Lemma showsP_agree : forall P Q h h' p i, agree P Q h h' -> showsP P Q h p i -> showsP P Q h' p i.
Proof.
  intros P Q h h' p i [A1 A2]. revert i. induction p as [a s r IHs IHr] using pmod_ind'. intros i (ds & dr & ls & lr & (X1 & X2 & X3) & E1 & E2 & E3 & B1 & B2).
  exists ds, dr, ls, lr. repeat (split; [solve [auto]|]). split; [exact (all2_impl _ _ _ _ (fun k c j I => IHs k c I j) B1)|exact (all2_impl _ _ _ _ (fun k c j I => IHr k c I j) B2)].
Qed.
Lemma showsP_old : forall P Q h p i, showsP P Q h p i -> showsP (fun x => P x /\ x < length (m_objs h)) (fun x => Q x /\ x < length (m_dicts h)) h p i.
Proof.
  intros P Q h p. induction p as [a s r IHs IHr] using pmod_ind'. intros i (ds & dr & ls & lr & (X1 & X2 & X3) & E1 & E2 & E3 & B1 & B2).
  exists ds, dr, ls, lr. split; [repeat split; auto; eapply nth_error_lt; eassumption|]. repeat (split; [assumption|]). split; [exact (all2_impl _ _ _ _ (fun k c j I => IHs k c I j) B1)|exact (all2_impl _ _ _ _ (fun k c j I => IHr k c I j) B2)].
Qed.

Section All2.
  Variable S : pmod -> nat -> Prop.
  Lemma all2_get : forall s l k, all2 S s l -> match sget k s, sget k l with Some c, Some i => S c i | None, None => True | _, _ => False end.
  Proof.
    induction s as [|[k0 c] s IH]; intros [|[k' i] l] k A; cbn in A; try contradiction; [exact I|]. destruct A as (<- & A2 & A3). unfold sget. cbn. destruct (str_eqb k k0); [exact A2|]. exact (IH l k A3).
  Qed.
  Lemma all2_set : forall s l k c i, all2 S s l -> S c i -> all2 S (sset k c s) (sset k i l).
  Proof.
    unfold sset. induction s as [|[k0 c0] s IH]; intros [|[k' i0] l] k c i A X; cbn in A; try contradiction; [cbn; auto|]. destruct A as (<- & A2 & A3). cbn. destruct (str_eqb k k0); cbn; auto.
  Qed.
  Lemma all2_keys : forall s l, all2 S s l -> map fst s = map fst l.
  Proof. induction s as [|[k0 c0] s IH]; intros [|[k' i0] l] A; cbn in A; try contradiction; [reflexivity|]. destruct A as (<- & _ & A3). cbn. f_equal. exact (IH l A3). Qed.
  Lemma all2_app : forall s l s' l', all2 S s l -> all2 S s' l' -> all2 S (s ++ s') (l ++ l').
  Proof. induction s as [|[k0 c0] s IH]; intros [|[k' i0] l] s' l' A B; cbn in A; try contradiction; [exact B|]. destruct A as (<- & A2 & A3). cbn. auto. Qed.
  Lemma all2_filter : forall f s l, all2 S s l -> all2 S (filter (fun kv => f (fst kv)) s) (filter (fun kv => f (fst kv)) l).
  Proof. intros f. induction s as [|[k0 c0] s IH]; intros [|[k' i0] l] A; cbn in A; try contradiction; [exact I|]. destruct A as (<- & A2 & A3). cbn. destruct (f k0); cbn; auto. Qed.
  Lemma all2_nil : forall s, all2 S s [] -> s = [].
  Proof. intros [|[k c] s] A; [reflexivity|destruct A]. Qed.
End All2.

(** [dict(pairs)] of different keys *)
Lemma dict_of_pairs_id : forall ps d, NoDup (map fst (d ++ ps)) -> fold_left (fun d kv => sset (fst kv) (snd kv) d) ps d = d ++ ps :> list (pystr * nat).
Proof.
  induction ps as [|[k v] ps IH]; intros d N; cbn [fold_left]; [rewrite app_nil_r; reflexivity|]. cbn [fst snd].
  assert (E : sset k v d = d ++ [(k, v)]).
  { rewrite map_app in N. cbn in N. apply NoDup_remove_2 in N. assert (N' : ~ In k (map fst d)) by (intros X; apply N; apply in_or_app; auto). clear - N'.
    unfold sset. induction d as [|[k0 v0] d IH]; cbn; [reflexivity|]. destruct (str_eqb_spec k k0) as [->|X]; [destruct N'; left; reflexivity|]. f_equal. apply IH. intros I. apply N'. right. exact I. }
  rewrite E, IH; [rewrite <- app_assoc; reflexivity|]. rewrite <- app_assoc. exact N.
Qed.

(** ** Merging *)
Definition fresh (P Q : nat -> Prop) (h : mem) : Prop := (forall x, length (m_objs h) <= x -> P x) /\ (forall x, length (m_dicts h) <= x -> Q x).
Lemma fresh_kept : forall P Q h h', kept h h' -> fresh P Q h -> fresh P Q h'.
Proof. intros P Q h h' K [F1 F2]. pose proof (kept_objs_length _ _ K). pose proof (kept_dicts_length _ _ K). split; intros x L; [apply F1|apply F2]; lia. Qed.
Definition merges (mc : mem -> nat -> nat -> mem * res nat) (q : pmod) : Prop :=
  forall P Q h i j p, wf p -> fresh P Q h -> showsP P Q h p i -> showsP P Q h q j -> exists h' k, mc h i j = (h', Ok k) /\ showsP P Q h' (merge p q) k.
Definition dshows (P Q : nat -> Prop) (h : mem) (s : list (pystr * pmod)) (d : nat) : Prop :=
  Q d /\ exists l, nth_error (m_dicts h) d = Some l /\ all2 (showsP P Q h) s l.
Lemma dshows_agree : forall P Q h h' s d, agree P Q h h' -> dshows P Q h s d -> dshows P Q h' s d.
Proof.
  intros P Q h h' s d A (X & l & E & B). split; [exact X|]. exists l. split; [exact (proj2 A _ _ X E)|]. refine (all2_impl _ _ _ _ _ B). intros k c i _. exact (showsP_agree _ _ _ _ _ _ A).
Qed.
Lemma dict_at_error : forall h d l, nth_error (m_dicts h) d = Some l -> dict_at h d = l.
Proof. intros h d l E. unfold dict_at. exact (nth_error_nth _ _ _ E). Qed.
Lemma obj_at_error : forall h i o, nth_error (m_objs h) i = Some o -> obj_at h i = o.
Proof. intros h d l E. unfold obj_at. exact (nth_error_nth _ _ _ E). Qed.


Lemma agree_put_dict : forall (P Q : nat -> Prop) h d l, ~ Q d -> agree P Q h (put_dict h d l).
Proof. intros P Q h d l N. split; cbn; [auto|]. intros x y X E. apply update_other; [exact E|]. intros ->. exact (N X). Qed.
Lemma agree_put_obj : forall (P Q : nat -> Prop) h i o ds, ~ P i -> ds = m_dicts h -> agree P Q h (mkMem (list_update (m_objs h) i o) ds).
Proof. intros P Q h d l ds N ->. split; cbn; [|auto]. intros x y X E. apply update_other; [exact E|]. intros ->. exact (N X). Qed.

Section Good.
  Variable mc : mem -> nat -> nat -> mem * res nat.
  Hypothesis MC : forall h i j h' r, mc h i j = (h', r) -> kept h h'.
  Lemma all2_agree : forall (P Q : nat -> Prop) h h' s l, agree P Q h h' -> all2 (showsP P Q h) s l -> all2 (showsP P Q h') s l.
  Proof. intros P Q h h' s l A B. refine (all2_impl _ _ _ _ _ B). intros k c i _. exact (showsP_agree _ _ _ _ _ _ A). Qed.
  Lemma set_in : forall V k (v : V) d k' v', In (k', v') (sset k v d) -> v' = v \/ In (k', v') d.
  Proof.
    intros V k v d k' v'. unfold sset. induction d as [|[k0 v0] d IH]; cbn.
    - intros [X|[]]. injection X as _ <-. left. reflexivity.
    - destruct (str_eqb k k0); cbn; intros [X|I].
      + injection X as _ <-. left. reflexivity.
      + right. right. exact I.
      + right. left. exact X.
      + destruct (IH I) as [->|J]; [left; reflexivity|right; right; exact J].
  Qed.
  Lemma get_in : forall V k (d : list (pystr * V)) v, sget k d = Some v -> In (k, v) d.
  Proof. intros V k d v E. apply dget_Some_In in E; [exact E|exact str_eqb_eq]. Qed.
  Lemma steps_loop_good : forall os, (forall k c, In (k, c) os -> merges mc c) -> (forall k c, In (k, c) os -> wf c) -> forall P Q h nd s l items,
    (forall k c, In (k, c) s -> wf c) -> fresh P Q h -> ~ Q nd -> nth_error (m_dicts h) nd = Some l -> all2 (showsP P Q h) s l -> all2 (showsP P Q h) os items ->
    exists h' l', steps_loop mc h nd items = (h', Ok tt) /\ nth_error (m_dicts h') nd = Some l' /\ all2 (showsP P Q h') (fold_left step_fold os s) l'.
  Proof.
    induction os as [|[n o] os IH]; intros G WO P Q h nd s l items WS F N E A B.
    - destruct items as [|x items]; [|destruct B]. exists h, l. split; [reflexivity|]. split; [exact E|exact A].
    - destruct items as [|[n' oi] items]; [destruct B|]. destruct B as (<- & B1 & B2). cbn [steps_loop fold_left]. rewrite (dict_at_error _ _ _ E).
      pose proof (all2_get _ _ _ n A) as GN. assert (G' : forall k c, In (k, c) os -> merges mc c) by (intros k c I; apply (G k); right; exact I).
      assert (WO' : forall k c, In (k, c) os -> wf c) by (intros k c I; apply (WO k); right; exact I). pose proof (WO n o (or_introl eq_refl)) as Wo.
      unfold step_fold at 2. cbn [fst snd]. change (dget str_eqb n s) with (sget n s).
      destruct (sget n s) as [sp|] eqn:GS; destruct (sget n l) as [si|] eqn:GL; try contradiction.
      + destruct (G n o (or_introl eq_refl) P Q h si oi sp (WS _ _ (get_in _ _ _ _ GS)) F GN B1) as (h1 & m & M & SM). rewrite M. pose proof (MC _ _ _ _ _ M) as K.
        pose proof (proj2 K _ _ E) as E1. rewrite (dict_at_error _ _ _ E1).
        assert (AG : agree P Q h (put_dict h1 nd (sset n m l))) by exact (agree_trans _ _ _ _ _ (kept_agree _ _ _ _ K) (agree_put_dict _ _ _ _ _ N)).
        apply (IH G' WO' P Q (put_dict h1 nd (sset n m l)) nd _ (sset n m l) items).
        * intros k c I. destruct (set_in _ _ _ _ _ _ I) as [->|J]; [apply wf_merge; [exact (WS _ _ (get_in _ _ _ _ GS))|exact Wo]|exact (WS _ _ J)].
        * destruct (fresh_kept _ _ _ _ K F) as [F1 F2]. split; cbn; [exact F1|]. rewrite list_update_length. exact F2.
        * exact N.
        * cbn. apply update_same. exact (nth_error_lt _ _ _ _ E1).
        * apply all2_set; [exact (all2_agree _ _ _ _ _ _ AG A)|]. exact (showsP_agree _ _ _ _ _ _ (agree_put_dict _ _ _ _ _ N) SM).
        * exact (all2_agree _ _ _ _ _ _ AG B2).
      + assert (AG : agree P Q h (put_dict h nd (sset n oi l))) by exact (agree_put_dict _ _ _ _ _ N).
        apply (IH G' WO' P Q (put_dict h nd (sset n oi l)) nd _ (sset n oi l) items).
        * intros k c I. destruct (set_in _ _ _ _ _ _ I) as [->|J]; [exact Wo|exact (WS _ _ J)].
        * destruct F as [F1 F2]. split; cbn; [exact F1|]. rewrite list_update_length. exact F2.
        * exact N.
        * cbn. apply update_same. exact (nth_error_lt _ _ _ _ E).
        * apply all2_set; [exact (all2_agree _ _ _ _ _ _ AG A)|]. exact (showsP_agree _ _ _ _ _ _ AG B1).
        * exact (all2_agree _ _ _ _ _ _ AG B2).
  Qed.
  Definition merged_steps (os s : list (pystr * pmod)) : list (pystr * pmod) :=
    match os, s with [], s => s | os, [] => os | os, s => fold_left step_fold os s end.
  Definition merged_regxs (os s : list (pystr * pmod)) : list (pystr * pmod) :=
    match os, s with
    | [], s => s
    | os, [] => os
    | os, s => filter (fun ns => negb (dmem str_eqb (fst ns) os)) s
               ++ map (fun no => (fst no, match pget (fst no) s with Some spmod => merge spmod (snd no) | None => snd no end)) os
    end.
  Lemma all2_empty : forall (S : pmod -> nat -> Prop) s l, all2 S s l -> (s = [] /\ l = []) \/ (exists a b, s = a :: b) /\ (exists x y, l = x :: y).
  Proof. intros S [|a b] [|x y] A; [left; auto|destruct A|destruct a; destruct A|right; split; eauto]. Qed.
  (** The dictionary of an object that nothing refers to is overridden. *)
  Lemma override_steps_good : forall os, (forall k c, In (k, c) os -> merges mc c) -> (forall k c, In (k, c) os -> wf c) -> forall P Q h me j a ds dr oa ods odr s,
    (forall k c, In (k, c) s -> wf c) ->
    fresh P Q h -> ~ P me -> P j -> nth_error (m_objs h) me = Some (mkObj a ds dr) -> nth_error (m_objs h) j = Some (mkObj oa ods odr) ->
    dshows P Q h s ds -> dshows P Q h os ods ->
    exists h' ds', override_steps mc h me j = (h', Ok tt) /\ nth_error (m_objs h') me = Some (mkObj a ds' dr) /\ dshows P Q h' (merged_steps os s) ds' /\ agree P Q h h' /\ fresh P Q h'.
  Proof.
    intros os G WO P Q h me j a ds dr oa ods odr s WS F N PJ EM EJ (QS & ls & ES & AS) (QO & lo & EO & AO). unfold override_steps. rewrite (obj_at_error _ _ _ EJ). cbn [o_steps]. rewrite (dict_at_error _ _ _ EO).
    destruct (all2_empty _ _ _ AO) as [[-> ->]|[(oc & ot & XO) (yo & yt & YO)]].
    { exists h, ds. split; [reflexivity|]. split; [exact EM|]. split; [split; [exact QS|exists ls; split; assumption]|]. split; [split; auto|exact F]. }
    assert (U : forall d h2, kept h h2 \/ h2 = h -> agree P Q h2 (put_steps h2 me d) /\ nth_error (m_objs (put_steps h2 me d)) me = Some (mkObj a d dr)).
    { intros d h2 K. assert (E2 : nth_error (m_objs h2) me = Some (mkObj a ds dr)) by (destruct K as [K| ->]; [exact (proj1 K _ _ EM)|exact EM]).
      split; [apply agree_put_obj; [exact N|reflexivity]|]. unfold put_steps. rewrite (obj_at_error _ _ _ E2). cbn. apply update_same. exact (nth_error_lt _ _ _ _ E2). }
    rewrite (obj_at_error _ _ _ EM). cbn [o_steps]. rewrite (dict_at_error _ _ _ ES). rewrite YO. destruct (all2_empty _ _ _ AS) as [[-> ->]|[(sc & st & XS) (ys & yst & YS)]].
    { destruct (U ods h (or_intror eq_refl)) as (U1 & U2). exists (put_steps h me ods), ods. split; [reflexivity|]. split; [exact U2|]. split; [|split; [exact U1|]].
      - apply (dshows_agree _ _ _ _ _ _ U1). split; [exact QO|]. exists lo. split; [exact EO|]. rewrite XO in *. exact AO.
      - destruct F as [F1 F2]. split; cbn; [rewrite list_update_length; exact F1|exact F2]. }
    rewrite YS. rewrite <- YO, <- YS. pose proof (kept_add_dict h ls) as KA. unfold add_dict in *. cbn [fst] in KA. set (h1 := mkMem (m_objs h) (m_dicts h ++ [ls])) in *.
    set (nd := length (m_dicts h)). set (Q1 := fun x => Q x /\ x <> nd).
    assert (O : forall p i, showsP P Q h p i -> showsP P Q1 h1 p i).
    { intros p i X. apply (showsP_agree P Q1 h h1); [apply kept_agree; exact KA|]. apply showsP_old in X. refine (showsP_mono _ _ _ _ _ _ _ _ _ X); [intros x [Y _]; exact Y|]. intros x [Y L]. split; [exact Y|]. unfold nd. lia. }
    assert (Odict : nth_error (m_dicts h1) nd = Some ls) by (cbn; unfold nd; rewrite nth_error_app2, Nat.sub_diag by lia; reflexivity).
    assert (Fr : fresh P Q1 h1). { destruct F as [F1 F2]. split; cbn; [exact F1|]. intros x L. rewrite app_length in L. cbn in L. split; [apply F2; lia|unfold nd; lia]. }
    destruct (steps_loop_good os G WO P Q1 h1 nd s ls lo WS Fr) as (h2 & l' & SL & E' & A').
    { intros [_ X]. exact (X eq_refl). } { exact Odict. } { refine (all2_impl _ _ _ _ _ AS). intros k c i _. apply O. } { refine (all2_impl _ _ _ _ _ AO). intros k c i _. apply O. }
    rewrite SL. pose proof (steps_loop_kept mc MC lo h h1 nd h2 _ KA (le_n _) SL) as K2. destruct (U nd h2 (or_introl K2)) as (U1 & U2).
    exists (put_steps h2 me nd), nd. split; [reflexivity|]. split; [exact U2|]. split; [|split].
    - apply (dshows_agree _ _ _ _ _ _ U1). split; [apply (proj2 F); unfold nd; lia|]. exists l'. split; [exact E'|].
      assert (MS : merged_steps os s = fold_left step_fold os s) by (rewrite XO, XS; reflexivity). rewrite MS. refine (all2_impl _ _ _ _ _ A'). intros k c i _. apply showsP_mono; [auto|]. intros x [Y _]. exact Y.
    - exact (agree_trans _ _ _ _ _ (kept_agree _ _ _ _ K2) U1).
    - destruct (fresh_kept _ _ _ _ K2 F) as [F1 F2]. split; cbn; [rewrite list_update_length; exact F1|exact F2].
  Qed.
  Lemma regxs_loop_good : forall os, (forall k c, In (k, c) os -> merges mc c) -> forall P Q h s l items,
    (forall k c, In (k, c) s -> wf c) -> fresh P Q h -> all2 (showsP P Q h) s l -> all2 (showsP P Q h) os items ->
    exists h' l', regxs_loop mc h l items = (h', Ok l') /\ all2 (showsP P Q h') (map (fun no => (fst no, match pget (fst no) s with Some spmod => merge spmod (snd no) | None => snd no end)) os) l'.
  Proof.
    induction os as [|[n o] os IH]; intros G P Q h s l items WS F A B.
    - destruct items as [|x items]; [|destruct B]. exists h, []. split; [reflexivity|exact I].
    - destruct items as [|[n' oi] items]; [destruct B|]. destruct B as (<- & B1 & B2). cbn [regxs_loop map fst snd].
      pose proof (all2_get _ _ _ n A) as GN. assert (G' : forall k c, In (k, c) os -> merges mc c) by (intros k c I; apply (G k); right; exact I).
      change (dget str_eqb n s) with (sget n s). destruct (sget n s) as [sp|] eqn:GS; destruct (sget n l) as [si|] eqn:GL; try contradiction.
      + destruct (G n o (or_introl eq_refl) P Q h si oi sp (WS _ _ (get_in _ _ _ _ GS)) F GN B1) as (h1 & m & M & SM). rewrite M. pose proof (MC _ _ _ _ _ M) as K. pose proof (kept_agree P Q _ _ K) as AG.
        destruct (IH G' P Q h1 s l items WS (fresh_kept _ _ _ _ K F) (all2_agree _ _ _ _ _ _ AG A) (all2_agree _ _ _ _ _ _ AG B2)) as (h2 & l' & R & R2). rewrite R.
        exists h2, ((n, m) :: l'). split; [reflexivity|]. split; [reflexivity|]. split; [|exact R2]. apply regxs_loop_kept in R; [|exact MC]. exact (showsP_agree _ _ _ _ _ _ (kept_agree _ _ _ _ R) SM).
      + destruct (IH G' P Q h s l items WS F A B2) as (h2 & l' & R & R2). rewrite R.
        exists h2, ((n, oi) :: l'). split; [reflexivity|]. split; [reflexivity|]. split; [|exact R2]. apply regxs_loop_kept in R; [|exact MC]. exact (showsP_agree _ _ _ _ _ _ (kept_agree _ _ _ _ R) B1).
  Qed.
  Lemma smem_keys : forall V W (a : list (pystr * V)) (b : list (pystr * W)) k, map fst a = map fst b -> smem k a = smem k b.
  Proof.
    intros V W a b k E. unfold smem, dmem. revert b E. induction a as [|[k0 v] a IH]; intros [|[k1 w] b] E; cbn in E; try discriminate E; [reflexivity|]. injection E as -> E. cbn. destruct (str_eqb k k1); [reflexivity|]. exact (IH b E).
  Qed.
  Lemma override_regxs_good : forall os, (forall k c, In (k, c) os -> merges mc c) -> forall P Q h me j a ds dr oa ods odr s,
    (forall k c, In (k, c) s -> wf c) -> NoDup (map fst (merged_regxs os s)) ->
    fresh P Q h -> ~ P me -> P j -> nth_error (m_objs h) me = Some (mkObj a ds dr) -> nth_error (m_objs h) j = Some (mkObj oa ods odr) ->
    dshows P Q h s dr -> dshows P Q h os odr ->
    exists h' dr', override_regxs mc h me j = (h', Ok tt) /\ nth_error (m_objs h') me = Some (mkObj a ds dr') /\ dshows P Q h' (merged_regxs os s) dr' /\ agree P Q h h'.
  Proof.
    intros os G P Q h me j a ds dr oa ods odr s WS ND F N PJ EM EJ (QS & ls & ES & AS) (QO & lo & EO & AO). unfold override_regxs. rewrite (obj_at_error _ _ _ EJ). cbn [o_regxs]. rewrite (dict_at_error _ _ _ EO).
    destruct (all2_empty _ _ _ AO) as [[-> ->]|[(oc & ot & XO) (yo & yt & YO)]].
    { exists h, dr. split; [reflexivity|]. split; [exact EM|]. split; [split; [exact QS|exists ls; split; assumption]|split; auto]. }
    assert (U : forall d h2, kept h h2 \/ h2 = h -> agree P Q h2 (put_regxs h2 me d) /\ nth_error (m_objs (put_regxs h2 me d)) me = Some (mkObj a ds d)).
    { intros d h2 K. assert (E2 : nth_error (m_objs h2) me = Some (mkObj a ds dr)) by (destruct K as [K| ->]; [exact (proj1 K _ _ EM)|exact EM]).
      split; [apply agree_put_obj; [exact N|reflexivity]|]. unfold put_regxs. rewrite (obj_at_error _ _ _ E2). cbn. apply update_same. exact (nth_error_lt _ _ _ _ E2). }
    rewrite (obj_at_error _ _ _ EM). cbn [o_regxs]. rewrite (dict_at_error _ _ _ ES). rewrite YO. destruct (all2_empty _ _ _ AS) as [[-> ->]|[(sc & st & XS) (ys & yst & YS)]].
    { destruct (U odr h (or_intror eq_refl)) as (U1 & U2). exists (put_regxs h me odr), odr. split; [reflexivity|]. split; [exact U2|]. split; [|exact U1].
      apply (dshows_agree _ _ _ _ _ _ U1). split; [exact QO|]. exists lo. split; [exact EO|]. rewrite XO in *. exact AO. }
    rewrite YS. rewrite <- YO, <- YS. destruct (regxs_loop_good os G P Q h s ls lo WS F AS AO) as (h1 & l' & R & A'). rewrite R. pose proof (regxs_loop_kept mc MC _ _ _ _ _ R) as K1.
    set (pairs := filter (fun ns => negb (smem (fst ns) lo)) ls ++ l').
    assert (MR : merged_regxs os s = filter (fun ns => negb (dmem str_eqb (fst ns) os)) s ++ map (fun no => (fst no, match pget (fst no) s with Some spmod => merge spmod (snd no) | None => snd no end)) os) by (rewrite XO, XS; reflexivity).
    assert (AP : all2 (showsP P Q h1) (merged_regxs os s) pairs).
    { rewrite MR. apply all2_app; [|exact A']. apply (all2_agree P Q h h1); [apply kept_agree; exact K1|].
      assert (FE : filter (fun ns => negb (smem (fst ns) lo)) ls = filter (fun ns => negb (dmem str_eqb (fst ns) os)) ls).
      { apply filter_ext. intros [k v]. cbn [fst]. f_equal. symmetry. apply smem_keys. exact (all2_keys _ _ _ AO). }
      rewrite FE. exact (all2_filter _ (fun k => negb (dmem str_eqb k os)) _ _ AS). }
    assert (DP : dict_of_pairs pairs = pairs) by (unfold dict_of_pairs; rewrite dict_of_pairs_id; [reflexivity|cbn; rewrite <- (all2_keys _ _ _ AP); exact ND]).
    rewrite DP. pose proof (kept_add_dict h1 pairs) as KA. unfold add_dict in *. cbn [fst] in KA. set (h2 := mkMem (m_objs h1) (m_dicts h1 ++ [pairs])) in *.
    pose proof (kept_trans _ _ _ K1 KA) as K2. destruct (U (length (m_dicts h1)) h2 (or_introl K2)) as (U1 & U2).
    exists (put_regxs h2 me (length (m_dicts h1))), (length (m_dicts h1)). split; [reflexivity|]. split; [exact U2|]. split; [|exact (agree_trans _ _ _ _ _ (kept_agree _ _ _ _ K2) U1)].
    apply (dshows_agree _ _ _ _ _ _ U1). split; [apply (proj2 F); exact (kept_dicts_length _ _ K1)|]. exists pairs. split; [cbn; rewrite nth_error_app2, Nat.sub_diag by lia; reflexivity|].
    exact (all2_agree _ _ _ _ _ _ (kept_agree _ _ _ _ KA) AP).
  Qed.
End Good.

Lemma merge_unfold : forall p q, merge p q = Pmod (match p_alias q with Some a => Some a | None => p_alias p end) (merged_steps (p_steps q) (p_steps p)) (merged_regxs (p_regxs q) (p_regxs p)).
Proof.
  intros p q. destruct (merge p q) as [a s r] eqn:E. pose proof (merge_alias p q) as A. pose proof (merge_steps_eq p q) as S. pose proof (merge_regxs_eq p q) as R. rewrite E in A, S, R. cbn in A, S, R. subst.
  unfold merged_steps, merged_regxs. destruct (p_steps q), (p_steps p), (p_regxs q), (p_regxs p); reflexivity.
Qed.
(** How deep mappings are *)
Fixpoint deep (p : pmod) : nat :=
  match p with Pmod _ s r => S (list_max (map (fun kc => deep (snd kc)) s) + list_max (map (fun kc => deep (snd kc)) r)) end.
Lemma list_max_in : forall (f : pystr * pmod -> nat) s x, In x s -> f x <= list_max (map f s).
Proof. intros f s. unfold list_max. induction s as [|y s IH]; intros x []; cbn [map fold_right]. - subst. lia. - apply IH in H. lia. Qed.
Lemma merged_regxs_nodup : forall p q, wf p -> wf q -> NoDup (map fst (merged_regxs (p_regxs q) (p_regxs p))).
Proof. intros p q Wp Wq. pose proof (wf_merge q p Wp Wq) as W. rewrite merge_unfold in W. apply wf_inv in W. destruct W as (_ & W & _). exact W. Qed.

Theorem merge_in_good : forall q fuel, wf q -> deep q <= fuel -> merges (merge_in fuel) q.
Proof.
  induction q as [oa os or IHs IHr] using pmod_ind'. intros fuel Wq L P Q h i j p Wp F SP SQ. destruct fuel as [|fuel]; [cbn in L; lia|]. cbn [deep] in L.
  assert (GS : forall k c, In (k, c) os -> merges (merge_in fuel) c).
  { intros k c I. apply (IHs k c I); [|pose proof (list_max_in (fun kc => deep (snd kc)) os (k, c) I) as X; cbn [snd] in X; lia]. apply wf_inv in Wq. destruct Wq as (_ & _ & W & _). exact (W k c I). }
  assert (GR : forall k c, In (k, c) or -> merges (merge_in fuel) c).
  { intros k c I. apply (IHr k c I); [|pose proof (list_max_in (fun kc => deep (snd kc)) or (k, c) I) as X; cbn [snd] in X; lia]. apply wf_inv in Wq. destruct Wq as (_ & _ & _ & W). exact (W k c I). }
  clear IHs IHr. pose proof (merged_regxs_nodup p _ Wp Wq) as ND. rewrite merge_unfold. destruct p as [a s r]. cbn [p_alias p_steps p_regxs] in *.
  destruct (wf_inv _ Wp) as (_ & _ & WS & WR). destruct (wf_inv _ Wq) as (_ & _ & WO & _). cbn [p_steps p_regxs] in WS, WR, WO.
  cbn [merge_in]. pose proof (kept_add_obj h (obj_at h i)) as KA. unfold add_obj in *. cbn [fst] in KA. set (h1 := mkMem (m_objs h ++ [obj_at h i]) (m_dicts h)) in *. set (me := length (m_objs h)).
  set (P1 := fun x => P x /\ x <> me).
  assert (O : forall p i, showsP P Q h p i -> showsP P1 Q h1 p i).
  { intros p0 i0 X. apply (showsP_agree P1 Q h h1); [apply kept_agree; exact KA|]. apply showsP_old in X. refine (showsP_mono _ _ _ _ _ _ _ _ _ X); [|intros x [Y _]; exact Y]. intros x [Y M]. split; [exact Y|]. unfold me. lia. }
  pose proof (O _ _ SP) as SP1. pose proof (O _ _ SQ) as SQ1.
  assert (EI : nth_error (m_objs h1) me = Some (obj_at h i)) by (cbn; unfold me; rewrite nth_error_app2, Nat.sub_diag by lia; reflexivity).
  destruct SP as (ds & dr & ls & lr & _ & EI0 & _). rewrite (obj_at_error _ _ _ EI0) in EI.
  destruct SP1 as (ds' & dr' & ls' & lr' & (_ & QD & QR) & EI' & ED & ER & AD & AR).
  assert (Z : Some (mkObj a ds dr) = Some (mkObj a ds' dr')) by (rewrite <- EI'; symmetry; exact (proj1 KA _ _ EI0)). injection Z as <- <-.
  destruct SQ1 as (ods & odr & ols & olr & (PJ & QOD & QOR) & EJ & EOD & EOR & AOD & AOR).
  assert (F1 : fresh P1 Q h1). { destruct F as [F1 F2]. split; cbn; [|exact F2]. intros x M. rewrite app_length in M. cbn in M. split; [apply F1; lia|unfold me; lia]. }
  assert (NP : ~ P1 me) by (intros [_ X]; exact (X eq_refl)).
  set (h2 := match o_alias (obj_at h1 j) with Some b => put_alias h1 me (Some b) | None => h1 end).
  set (na := match oa with Some b => Some b | None => a end).
  assert (H2 : agree P1 Q h1 h2 /\ fresh P1 Q h2 /\ nth_error (m_objs h2) me = Some (mkObj na ds dr)).
  { unfold h2. rewrite (obj_at_error _ _ _ EJ). cbn [o_alias]. unfold na. destruct oa as [b|].
    - split; [apply agree_put_obj; [exact NP|reflexivity]|]. split; [destruct F1 as [F2 F3]; split; cbn; [rewrite list_update_length; exact F2|exact F3]|].
      unfold put_alias. rewrite (obj_at_error _ _ _ EI). cbn. apply update_same. exact (nth_error_lt _ _ _ _ EI).
    - split; [split; auto|]. split; [exact F1|exact EI]. }
  destruct H2 as (A2 & F2 & E2). clearbody h2.
  destruct (override_steps_good _ (merge_in_kept fuel) os GS WO P1 Q h2 me j na ds dr oa ods odr s WS F2 NP PJ E2 (proj1 A2 _ _ PJ EJ)) as (h3 & ds3 & R3 & E3 & S3 & A3 & F3).
  { apply (dshows_agree _ _ _ _ _ _ A2). split; [exact QD|exists ls'; split; assumption]. } { apply (dshows_agree _ _ _ _ _ _ A2). split; [exact QOD|exists ols; split; assumption]. }
  rewrite R3. pose proof (agree_trans _ _ _ _ _ A2 A3) as A23.
  destruct (override_regxs_good _ (merge_in_kept fuel) or GR P1 Q h3 me j na ds3 dr oa ods odr r WR ND F3 NP PJ E3 (proj1 A23 _ _ PJ EJ)) as (h4 & dr4 & R4 & E4 & S4 & A4).
  { apply (dshows_agree _ _ _ _ _ _ A23). split; [exact QR|exists lr'; split; assumption]. } { apply (dshows_agree _ _ _ _ _ _ A23). split; [exact QOR|exists olr; split; assumption]. }
  rewrite R4. exists h4, me. split; [reflexivity|]. apply (dshows_agree _ _ _ _ _ _ A4) in S3. destruct S3 as (Q3 & l3 & X3 & Y3). destruct S4 as (Q4 & l4 & X4 & Y4).
  assert (UP : forall c x, showsP P1 Q h4 c x -> showsP P Q h4 c x) by (intros c x; apply showsP_mono; [intros y [Y _]; exact Y|auto]).
  exists ds3, dr4, l3, l4. split; [split; [apply (proj1 F); unfold me; lia|split; assumption]|]. split; [exact E4|]. split; [exact X3|]. split; [exact X4|].
  split; [refine (all2_impl _ _ _ _ _ Y3)|refine (all2_impl _ _ _ _ _ Y4)]; intros k c x _; apply UP.
Qed.
Lemma merge_in_new : forall fuel h i j h' k, merge_in fuel h i j = (h', Ok k) -> k = length (m_objs h).
Proof.
  intros [|fuel] h i j h' k E; [discriminate E|]. cbn [merge_in] in E. unfold add_obj in E.
  match type of E with match ?t with _ => _ end = _ => destruct t as [h3 [[]|e]] end; [|discriminate E].
  match type of E with match ?t with _ => _ end = _ => destruct t as [h4 [[]|e]] end; [|discriminate E]. injection E as _ <-. reflexivity.
Qed.
Theorem merge_in_shows : forall p q h i j, wf p -> wf q -> shows h p i -> shows h q j ->
  exists N, forall fuel, N <= fuel -> exists h' k, merge_in fuel h i j = (h', Ok k) /\ shows h' (merge p q) k /\ kept h h' /\ length (m_objs h) <= k.
Proof.
  intros p q h i j Wp Wq SP SQ. exists (deep q). intros fuel L. apply shows_all in SP. apply shows_all in SQ.
  destruct (merge_in_good q fuel Wq L (fun _ => True) (fun _ => True) h i j p Wp) as (h' & k & E & S); try assumption. { split; auto. }
  exists h', k. split; [exact E|]. split; [apply shows_all; exact S|]. split; [exact (merge_in_kept _ _ _ _ _ _ E)|]. rewrite (merge_in_new _ _ _ _ _ _ E). lia.
Qed.

(** ** Looking up paths *)
Lemma merge_in_at : forall q fuel, wf q -> deep q <= fuel -> forall h i j p, wf p -> shows h p i -> shows h q j ->
  exists h' k, merge_in fuel h i j = (h', Ok k) /\ shows h' (merge p q) k /\ kept h h'.
Proof.
  intros q fuel Wq L h i j p Wp SP SQ. apply shows_all in SP. apply shows_all in SQ.
  destruct (merge_in_good q fuel Wq L (fun _ => True) (fun _ => True) h i j p Wp) as (h' & k & E & S); try assumption. { split; auto. }
  exists h', k. split; [exact E|]. split; [apply shows_all; exact S|]. exact (merge_in_kept _ _ _ _ _ _ E).
Qed.
Lemma shows_kept : forall h h' p i, kept h h' -> shows h p i -> shows h' p i.
Proof. intros h h' p i K S. apply shows_all. apply shows_all in S. exact (showsP_agree _ _ _ _ _ _ (kept_agree _ _ _ _ K) S). Qed.
Lemma shows_obj : forall h p i, shows h p i -> o_alias (obj_at h i) = p_alias p /\
  all2 (shows h) (p_steps p) (dict_at h (o_steps (obj_at h i))) /\ all2 (shows h) (p_regxs p) (dict_at h (o_regxs (obj_at h i))).
Proof.
  intros h [a s r] i (ds & dr & ls & lr & E & D1 & D2 & A1 & A2). rewrite (obj_at_error _ _ _ E). cbn [o_alias o_steps o_regxs p_alias p_steps p_regxs]. rewrite (dict_at_error _ _ _ D1), (dict_at_error _ _ _ D2). auto.
Qed.
Lemma reduce_in_shows : forall ps fuel, (forall q, In q ps -> wf q /\ deep q <= fuel) -> forall h i is p, wf p -> shows h p i -> Forall2 (shows h) ps is ->
  exists h' k, reduce_in fuel h i is = (h', Ok k) /\ shows h' (fold_left merge ps p) k /\ kept h h'.
Proof.
  induction ps as [|q ps IH]; intros fuel G h i is p Wp SP F; inversion F as [|x y l l' F1 F2]; subst; cbn [reduce_in fold_left].
  - exists h, i. split; [reflexivity|]. split; [exact SP|apply kept_refl].
  - destruct (G q (or_introl eq_refl)) as (Wq & Lq). destruct (merge_in_at q fuel Wq Lq h i y p Wp SP F1) as (h1 & k & E & S & K). rewrite E.
    destruct (IH fuel (fun q' I => G q' (or_intror I)) h1 k l' (merge p q)) as (h2 & k2 & E2 & S2 & K2).
    + apply wf_merge; assumption.
    + exact S.
    + clear - F2 K. induction F2 as [|a b la lb A B IHF]; constructor; [exact (shows_kept _ _ _ _ K A)|exact IHF].
    + exists h2, k2. split; [exact E2|]. split; [exact S2|exact (kept_trans _ _ _ K K2)].
Qed.
Lemma Forall2_rev' : forall A B (R : A -> B -> Prop) l m, Forall2 R l m -> Forall2 R (rev l) (rev m).
Proof. intros A B R l m F. induction F as [|a b l m X F IH]; cbn; [constructor|]. apply Forall2_app; [exact IH|]. constructor; [exact X|constructor]. Qed.
Lemma fold_merge_wf : forall ps p, wf p -> (forall q, In q ps -> wf q) -> wf (fold_left merge ps p).
Proof. induction ps as [|q ps IH]; intros p Wp G; cbn; [exact Wp|]. apply IH; [apply wf_merge; [exact Wp|apply G; left; reflexivity]|]. intros q' I. apply G. right. exact I. Qed.

Section Lookup.
  Variable M : Type.
  Variable fullmatch : pystr -> pystr -> option M.
  Variable expand : M -> pystr -> res pystr.
  Variable compiles : pystr -> bool.
  Notation shown h := (fun (x : pmod * M) (y : nat * M) => shows h (fst x) (fst y) /\ snd x = snd y).
  Lemma match_regxs_shows : forall h p i c, shows h p i -> Forall2 (shown h) (match_regxs M fullmatch p c) (match_regxs_in M fullmatch h i c).
  Proof.
    intros h p i c S. apply shows_obj in S. destruct S as (_ & _ & S). unfold match_regxs, match_regxs_in. revert S. generalize (dict_at h (o_regxs (obj_at h i))). induction (p_regxs p) as [|[k q] r IH]; intros [|[k' j] l] A; cbn in A; try contradiction; [constructor|].
    destruct A as (<- & A1 & A2). cbn [flat_map fst snd]. destruct (fullmatch k c) as [m|]; cbn [app]; [|exact (IH _ A2)]. constructor; [split; [exact A1|reflexivity]|exact (IH _ A2)].
  Qed.
  Lemma first_alias_shows : forall h l l', Forall2 (shown h) l l' -> first_alias_in M expand h l' = first_alias M expand l.
  Proof.
    intros h l l' F. induction F as [|[q m] [j m'] l l' [X1 X2] F IH]; [reflexivity|]. cbn [fst snd] in *. subst m'. cbn [first_alias_in first_alias]. apply shows_obj in X1. destruct X1 as (X1 & _). rewrite X1. destruct (p_alias q); [reflexivity|exact IH].
  Qed.
  Lemma alias_shows : forall h p i c, shows h p i -> alias_in M fullmatch expand h i c = alias_ M fullmatch expand p c.
  Proof.
    intros h p i c S. pose proof (first_alias_shows h _ _ (Forall2_rev' _ _ _ _ _ (match_regxs_shows h p i c S))) as FA. apply shows_obj in S. destruct S as (_ & S & _).
    unfold alias_in, alias_. pose proof (all2_get _ _ _ c S) as G. change (dget str_eqb c (p_steps p)) with (sget c (p_steps p)). rewrite FA.
    destruct (sget c (p_steps p)) as [q|], (sget c (dict_at h (o_steps (obj_at h i)))) as [j|]; try contradiction; [|reflexivity].
    apply shows_obj in G. destruct G as (G & _). rewrite G. destruct q as [[a|] s r]; reflexivity.
  Qed.
  (** What [descend] merges *)
  Lemma matched : forall p c q, wf p -> In q (map fst (match_regxs M fullmatch p c) ++ match sget c (p_steps p) with Some x => [x] | None => [] end) -> wf q /\ deep q <= deep p.
  Proof.
    intros p c q W I. assert (X : (exists k, In (k, q) (p_regxs p)) \/ exists k, In (k, q) (p_steps p)).
    { apply in_app_or in I. destruct I as [I|I].
      - left. apply in_map_iff in I. destruct I as ([q' m] & <- & I). unfold match_regxs in I. apply in_flat_map in I. destruct I as ([k q0] & I & J). cbn [fst snd] in J. destruct (fullmatch k c); [|destruct J]. destruct J as [J|[]]. injection J as <- _. exists k. exact I.
      - right. destruct (sget c (p_steps p)) as [x|] eqn:E; [|destruct I]. destruct I as [->|[]]. exists c. apply dget_Some_In in E; [exact E|exact str_eqb_eq]. }
    destruct (wf_inv _ W) as (_ & _ & W1 & W2). destruct p as [a s r]. cbn [p_steps p_regxs] in *. cbn [deep].
    destruct X as [(k & X)|(k & X)]; pose proof (list_max_in (fun kc => deep (snd kc)) _ _ X) as Y; cbn [snd] in Y; split; try lia; eauto.
  Qed.
  Lemma descend_shows : forall p c fuel, wf p -> deep p <= fuel -> forall h i, shows h p i -> exists h' r, descend_in M fullmatch expand fuel h i c = (h', r) /\ kept h h' /\
    match descend M fullmatch expand p c, r with
    | Ok (Some q, a), Ok (Some k, a') => shows h' q k /\ wf q /\ a = a'
    | Ok (None, a), Ok (None, a') => a = a'
    | Raise e, Raise e' => e = e'
    | _, _ => False
    end.
  Proof.
    intros p c fuel W L h i S. unfold descend_in, descend. rewrite (alias_shows h p i c S).
    assert (A : match dget str_eqb c (p_steps p) with Some (Pmod (Some a) _ _) => Ok (Some a) | _ => first_alias M expand (rev (match_regxs M fullmatch p c)) end = alias_ M fullmatch expand p c) by reflexivity.
    rewrite A. clear A. destruct (alias_ M fullmatch expand p c) as [a|e]; cbn [rbind]; [|exists h; eexists; split; [reflexivity|]; split; [apply kept_refl|reflexivity]].
    pose proof (matched p c) as MT. pose proof (match_regxs_shows h p i c S) as F. apply shows_obj in S. destruct S as (_ & S & _). pose proof (all2_get _ _ _ c S) as G. change (dget str_eqb c (p_steps p)) with (sget c (p_steps p)).
    assert (F2 : Forall2 (shows h) (map fst (match_regxs M fullmatch p c) ++ match sget c (p_steps p) with Some x => [x] | None => [] end)
      (map fst (match_regxs_in M fullmatch h i c) ++ match sget c (dict_at h (o_steps (obj_at h i))) with Some x => [x] | None => [] end)).
    { apply Forall2_app.
      - clear - F. induction F as [|x y l l' [X _] F IH]; cbn; constructor; assumption.
      - destruct (sget c (p_steps p)) as [q|], (sget c (dict_at h (o_steps (obj_at h i)))) as [j|]; try contradiction; repeat constructor. exact G. }
    clear G F. destruct F2 as [|q j qs js Q F2].
    - exists h. eexists. split; [reflexivity|]. split; [apply kept_refl|reflexivity].
    - destruct (MT q W (or_introl eq_refl)) as (Wq & _). destruct (reduce_in_shows qs fuel) with (h := h) (i := j) (is := js) (p := q) as (h' & k & E & S' & K); try assumption.
      { intros q' I. destruct (MT q' W (or_intror I)) as (X & Y). split; [exact X|lia]. }
      rewrite E. exists h'. eexists. split; [reflexivity|]. split; [exact K|]. split; [exact S'|]. split; [|reflexivity]. apply fold_merge_wf; [exact Wq|]. intros q' I. exact (proj1 (MT q' W (or_intror I))).
  Qed.
  Lemma map_steps_two : forall pm st st' steps, map_steps M fullmatch expand pm (st :: st' :: steps) =
    (do (pm', a) <- match pm with Some p => descend M fullmatch expand p st | None => Ok (None, None) end;
     do rest <- map_steps M fullmatch expand pm' (st' :: steps); Ok (new_steps a st ++ rest)).
  Proof. reflexivity. Qed.
  Lemma map_steps_in_two : forall fuel h pm st st' steps, map_steps_in M fullmatch expand fuel h pm (st :: st' :: steps) =
    match match pm with Some p => descend_in M fullmatch expand fuel h p st | None => (h, Ok (None, None)) end with
    | (h, Ok (pm', a)) =>
        match map_steps_in M fullmatch expand fuel h pm' (st' :: steps) with
        | (h, Ok rest) => (h, Ok (new_steps a st ++ rest))
        | (h, Raise e) => (h, Raise e)
        end
    | (h, Raise e) => (h, Raise e)
    end.
  Proof. reflexivity. Qed.
  Lemma map_steps_shows : forall steps pm, match pm with Some p => wf p | None => True end -> exists N, forall fuel, N <= fuel -> forall h i,
    match pm, i with Some p, Some i => shows h p i | None, None => True | _, _ => False end ->
    exists h', map_steps_in M fullmatch expand fuel h i steps = (h', map_steps M fullmatch expand pm steps) /\ kept h h'.
  Proof.
    induction steps as [|st steps IH]; intros pm W.
    - exists 0. intros fuel _ h i _. exists h. split; [reflexivity|apply kept_refl].
    - destruct steps as [|st' steps].
      + exists 0. intros fuel _ h i S. exists h. split; [|apply kept_refl]. cbn [map_steps_in map_steps]. destruct pm as [p|], i as [i|]; try contradiction; [rewrite (alias_shows h p i st S)|]; reflexivity.
      + destruct pm as [p|].
        * destruct (descend M fullmatch expand p st) as [[pm' a]|e] eqn:D.
          -- assert (W' : match pm' with Some p => wf p | None => True end).
             { destruct pm' as [q|]; [|exact I]. unfold descend in D. match type of D with rbind ?t _ = _ => destruct t as [a'|e] end; cbn [rbind] in D; [|discriminate D].
               pose proof (matched p st) as MT. unfold sget in MT. destruct (map fst (match_regxs M fullmatch p st) ++ _) as [|q0 qs] eqn:EL; [discriminate D|]. injection D as <- _.
               apply fold_merge_wf; [exact (proj1 (MT q0 W (or_introl eq_refl)))|]. intros q' I'. exact (proj1 (MT q' W (or_intror I'))). }
             destruct (IH pm' W') as (N & HN). exists (max N (deep p)). intros fuel L h i S. destruct i as [i|]; [|contradiction].
             destruct (descend_shows p st fuel W ltac:(lia) h i S) as (h1 & r & E & K & R). rewrite D in R. rewrite map_steps_in_two, map_steps_two, E, D. cbn [rbind].
             destruct r as [[i' a']|e']; [|destruct pm'; destruct R].
             destruct (HN fuel ltac:(lia) h1 i') as (h2 & E2 & K2). { destruct pm' as [q|], i' as [k|]; try contradiction; [exact (proj1 R)|exact I]. }
             assert (a = a') as <- by (destruct pm', i'; try contradiction; [exact (proj2 (proj2 R))|exact R]).
             rewrite E2. exists h2. split; [|exact (kept_trans _ _ _ K K2)].
             destruct (map_steps M fullmatch expand _ (st' :: steps)) as [rest|e]; reflexivity.
          -- exists (deep p). intros fuel L h i S. destruct i as [i|]; [|contradiction]. destruct (descend_shows p st fuel W L h i S) as (h1 & r & E & K & R). rewrite D in R.
             rewrite map_steps_in_two, map_steps_two, E, D. cbn [rbind]. destruct r as [[[k|] a']|e']; try contradiction. subst e'. exists h1. split; [reflexivity|exact K].
        * destruct (IH None I) as (N & HN). exists N. intros fuel L h i S. destruct i as [i|]; [contradiction|]. rewrite map_steps_in_two, map_steps_two. cbn [rbind]. destruct (HN fuel L h None I) as (h2 & E2 & K2).
          rewrite E2. exists h2. split; [|exact K2]. destruct (map_steps M fullmatch expand _ (st' :: steps)) as [rest|e]; reflexivity.
  Qed.
  Theorem map_path_shows : forall p path, wf p -> exists N, forall fuel, N <= fuel -> forall h i, shows h p i ->
    exists h', map_path_in M fullmatch expand fuel h i path = (h', map_path M fullmatch expand p path) /\ kept h h'.
  Proof.
    intros p path W. destruct (map_steps_shows (iter_parts_relaxed (chop path)) (Some p) W) as (N & HN). exists N. intros fuel L h i S.
    destruct (HN fuel L h (Some i) S) as (h' & E & K). exists h'. split; [|exact K]. unfold map_path_in, map_path. rewrite E. apply shows_obj in S. destruct S as (S & _). rewrite S.
    destruct (map_steps M fullmatch expand (Some p) (iter_parts_relaxed (chop path))) as [m|e]; reflexivity.
  Qed.
End Lookup.

(** ** Building: a tree of objects of its own *)
Notation times l x := (count_occ Nat.eq_dec l x).
Section Owned.
  Variable O : pmod -> nat -> list nat -> list nat -> Prop.
  Fixpoint items (s : list (pystr * pmod)) (l : list (pystr * nat)) (o f : list nat) : Prop :=
    match s, l with
    | [], [] => o = [] /\ f = []
    | (k, c) :: s', (k', i) :: l' => exists o1 f1 o2 f2, k = k' /\ O c i o1 f1 /\ items s' l' o2 f2 /\ o = o1 ++ o2 /\ f = f1 ++ f2
    | _, _ => False
    end.
End Owned.
(** The objects and the dictionaries that are not empty, as often as they are found *)
Fixpoint owns (h : mem) (p : pmod) (i : nat) (o f : list nat) : Prop :=
  match p with
  | Pmod a s r =>
      exists ds dr ls lr so sf ro rf, nth_error (m_objs h) i = Some (mkObj a ds dr) /\
        nth_error (m_dicts h) ds = Some ls /\ nth_error (m_dicts h) dr = Some lr /\
        items (owns h) s ls so sf /\ items (owns h) r lr ro rf /\
        o = i :: so ++ ro /\ f = (match s with [] => [] | _ => ds :: sf end) ++ (match r with [] => [] | _ => dr :: rf end)
  end.
Definition once (l : list nat) : Prop := forall x, times l x <= 1.

Lemma items_impl : forall (O O' : pmod -> nat -> list nat -> list nat -> Prop) s l o f,
  (forall k c i o1 f1, In (k, c) s -> O c i o1 f1 -> (forall x, In x o1 -> In x o) -> (forall x, In x f1 -> In x f) -> O' c i o1 f1) -> items O s l o f -> items O' s l o f.
Proof.
  intros O O'. induction s as [|[k c] s IH]; intros [|[k' i] l] o f H A; cbn in *; try exact A. destruct A as (o1 & f1 & o2 & f2 & <- & A1 & A2 & -> & ->).
  exists o1, f1, o2, f2. split; [reflexivity|]. split; [apply (H k); auto; intros x X; apply in_or_app; auto|]. split; [|auto]. apply IH; [|exact A2]. intros k0 c0 i0 o0 f0 I A X Y. apply (H k0); auto; intros x Z; apply in_or_app; auto.
Qed.
Lemma owns_shows : forall h p i o f, owns h p i o f -> shows h p i.
Proof.
  intros h p. induction p as [a s r IHs IHr] using pmod_ind'. intros i o f (ds & dr & ls & lr & so & sf & ro & rf & E1 & E2 & E3 & A1 & A2 & _). exists ds, dr, ls, lr. repeat (split; [assumption|]).
  assert (Z : forall s l o f, (forall k c, In (k, c) s -> forall i o f, owns h c i o f -> shows h c i) -> items (owns h) s l o f -> all2 (shows h) s l).
  { clear. induction s as [|[k c] s IH]; intros [|[k' i] l] o f H A; cbn in *; try exact A; [exact I|]. destruct A as (o1 & f1 & o2 & f2 & <- & A1 & A2 & _ & _). split; [reflexivity|]. split; [apply (H k c) in A1; auto|]. apply (IH _ o2 f2); [|exact A2]. intros k0 c0 X. apply (H k0). auto. }
  split; [exact (Z _ _ _ _ IHs A1)|exact (Z _ _ _ _ IHr A2)].
Qed.
(** What is owned exists. *)
Lemma owns_old : forall h p i o f, owns h p i o f -> (forall x, In x o -> x < length (m_objs h)) /\ (forall x, In x f -> exists y l, nth_error (m_dicts h) x = Some (y :: l)).
Proof.
  intros h p. induction p as [a s r IHs IHr] using pmod_ind'. intros i o f (ds & dr & ls & lr & so & sf & ro & rf & E1 & E2 & E3 & A1 & A2 & -> & ->).
  assert (Z : forall s l o f, (forall k c, In (k, c) s -> forall i o f, owns h c i o f -> (forall x, In x o -> x < length (m_objs h)) /\ (forall x, In x f -> exists y l, nth_error (m_dicts h) x = Some (y :: l))) -> items (owns h) s l o f ->
    (forall x, In x o -> x < length (m_objs h)) /\ (forall x, In x f -> exists y l, nth_error (m_dicts h) x = Some (y :: l)) /\ (s <> [] -> exists y t, l = y :: t)).
  { clear. induction s as [|[k c] s IH]; intros [|[k' i] l] o f H A; cbn in *; try contradiction.
    - destruct A as [-> ->]. split; [intros x []|]. split; [intros x []|]. congruence.
    - destruct A as (o1 & f1 & o2 & f2 & <- & A1 & A2 & -> & ->). destruct (H k c (or_introl eq_refl) _ _ _ A1) as (B1 & B2). destruct (IH l o2 f2 (fun k0 c0 X => H k0 c0 (or_intror X)) A2) as (C1 & C2 & _).
      split; [intros x X; apply in_app_or in X; destruct X; auto|]. split; [intros x X; apply in_app_or in X; destruct X; auto|]. eauto. }
  destruct (Z _ _ _ _ IHs A1) as (S1 & S2 & S3). destruct (Z _ _ _ _ IHr A2) as (R1 & R2 & R3). split.
  - intros x [<-|X]; [exact (nth_error_lt _ _ _ _ E1)|]. apply in_app_or in X. destruct X; auto.
  - intros x X. apply in_app_or in X. destruct X as [X|X].
    + destruct s as [|kc s]; [destruct X|]. destruct X as [<-|X]; [|exact (S2 x X)]. destruct (S3 ltac:(discriminate)) as (y & t & ->). eauto.
    + destruct r as [|kc r]; [destruct X|]. destruct X as [<-|X]; [|exact (R2 x X)]. destruct (R3 ltac:(discriminate)) as (y & t & ->). eauto.
Qed.
(** Everything is the same but these objects and these dictionaries; empty ones are, too. *)
Definition but (o f : list nat) (h h' : mem) : Prop :=
  (forall i x, ~ In i o -> nth_error (m_objs h) i = Some x -> nth_error (m_objs h') i = Some x) /\
  (forall d l, ~ In d f \/ l = [] -> nth_error (m_dicts h) d = Some l -> nth_error (m_dicts h') d = Some l).
Lemma owns_but : forall h h' co cf, but co cf h h' -> forall p i o f, owns h p i o f -> (forall x, In x o -> ~ In x co) -> (forall x, In x f -> ~ In x cf) -> owns h' p i o f.
Proof.
  intros h h' co cf [B1 B2] p. induction p as [a s r IHs IHr] using pmod_ind'. intros i o f (ds & dr & ls & lr & so & sf & ro & rf & E1 & E2 & E3 & A1 & A2 & -> & ->) X Y.
  exists ds, dr, ls, lr, so, sf, ro, rf. split; [apply B1; [apply X; left; reflexivity|exact E1]|].
  split; [apply B2; [|exact E2]; destruct s as [|kc s]; [right; destruct ls; [reflexivity|destruct A1]|left; apply Y; apply in_or_app; left; left; reflexivity]|].
  split; [apply B2; [|exact E3]; destruct r as [|kc r]; [right; destruct lr; [reflexivity|destruct A2]|left; apply Y; apply in_or_app; right; left; reflexivity]|].
  split; [|split; [|auto]].
  - refine (items_impl _ _ _ _ _ _ _ A1). intros k c j o1 f1 I A U V. apply (IHs k c I); [exact A| |].
    + intros x Z. apply X. right. apply in_or_app. left. exact (U x Z).
    + intros x Z. apply Y. apply in_or_app. left. destruct s; [destruct I|]. right. exact (V x Z).
  - refine (items_impl _ _ _ _ _ _ _ A2). intros k c j o1 f1 I A U V. apply (IHr k c I); [exact A| |].
    + intros x Z. apply X. right. apply in_or_app. right. exact (U x Z).
    + intros x Z. apply Y. apply in_or_app. right. destruct r; [destruct I|]. right. exact (V x Z).
Qed.
Lemma times_in : forall l x, In x l <-> times l x > 0.
Proof. intros l x. apply count_occ_In. Qed.
Lemma times_app : forall a b x, times (a ++ b) x = times a x + times b x.
Proof. intros. apply count_occ_app. Qed.
Lemma times_cons : forall a l x, times (a :: l) x = (if Nat.eq_dec a x then 1 else 0) + times l x.
Proof. intros a l x. cbn. destruct (Nat.eq_dec a x); reflexivity. Qed.
(** One child of the items, which may be replaced *)
Lemma items_focus : forall h s l o f k c, items (owns h) s l o f -> sget k s = Some c ->
  exists i co cf, sget k l = Some i /\ owns h c i co cf /\ (forall x, times co x <= times o x) /\ (forall x, times cf x <= times f x) /\
    forall h' c' co' cf', but co cf h h' -> once o -> once f -> owns h' c' i co' cf' ->
      exists o' f', items (owns h') (sset k c' s) l o' f' /\ (forall x, times o' x + times co x = times o x + times co' x) /\ (forall x, times f' x + times cf x = times f x + times cf' x).
Proof.
  intros h. induction s as [|[k0 c0] s IH]; intros [|[k' i] l] o f k c A E; cbn in A; try contradiction; [discriminate E|].
  destruct A as (o1 & f1 & o2 & f2 & <- & A1 & A2 & -> & ->). unfold sget, sset in *. cbn [dget dset] in *. destruct (str_eqb k k0) eqn:K.
  - injection E as ->. exists i, o1, f1. split; [reflexivity|]. split; [exact A1|]. split; [intros x; rewrite times_app; lia|]. split; [intros x; rewrite times_app; lia|].
    intros h' c' co' cf' B O1 O2 W. exists (co' ++ o2), (cf' ++ f2). split; [|split; intros x; rewrite !times_app; lia]. cbn. exists co', cf', o2, f2. split; [reflexivity|]. split; [exact W|]. split; [|auto].
    refine (items_impl _ _ _ _ _ _ _ A2). intros k1 c1 j o3 f3 _ X U V. apply (owns_but _ _ _ _ B _ _ _ _ X).
    + intros x Y Z. apply U in Y. apply times_in in Y. apply times_in in Z. specialize (O1 x). rewrite times_app in O1. lia.
    + intros x Y Z. apply V in Y. apply times_in in Y. apply times_in in Z. specialize (O2 x). rewrite times_app in O2. lia.
  - destruct (IH l o2 f2 k c A2 E) as (j & co & cf & G & W & L1 & L2 & R). exists j, co, cf. split; [exact G|]. split; [exact W|]. split; [intros x; rewrite times_app; specialize (L1 x); lia|]. split; [intros x; rewrite times_app; specialize (L2 x); lia|].
    intros h' c' co' cf' B O1 O2 W'. destruct (R h' c' co' cf' B) as (o' & f' & I' & T1 & T2).
    { intros x. specialize (O1 x). rewrite times_app in O1. lia. } { intros x. specialize (O2 x). rewrite times_app in O2. lia. } { exact W'. }
    exists (o1 ++ o'), (f1 ++ f'). split; [|split; intros x; rewrite !times_app; [specialize (T1 x)|specialize (T2 x)]; lia]. cbn. exists o1, f1, o', f'. split; [reflexivity|]. split; [|split; [exact I'|auto]].
    apply (owns_but _ _ _ _ B _ _ _ _ A1).
    + intros x Y Z. apply times_in in Y. apply times_in in Z. specialize (O1 x). rewrite times_app in O1. specialize (L1 x). lia.
    + intros x Y Z. apply times_in in Y. apply times_in in Z. specialize (O2 x). rewrite times_app in O2. specialize (L2 x). lia.
Qed.
Lemma items_get : forall O s l o f k, items O s l o f -> (sget k s = None <-> sget k l = None).
Proof.
  intros O. induction s as [|[k0 c0] s IH]; intros [|[k' i] l] o f k A; cbn in A; try contradiction; [split; reflexivity|]. destruct A as (o1 & f1 & o2 & f2 & <- & _ & A2 & _). unfold sget. cbn [dget]. destruct (str_eqb k k0); [split; discriminate|]. exact (IH _ _ _ _ A2).
Qed.
Lemma items_app : forall O s l o f s' l' o' f', items O s l o f -> items O s' l' o' f' -> items O (s ++ s') (l ++ l') (o ++ o') (f ++ f').
Proof.
  intros O. induction s as [|[k0 c0] s IH]; intros [|[k' i] l] o f s' l' o' f' A B; cbn in A; try contradiction; [destruct A as [-> ->]; exact B|]. destruct A as (o1 & f1 & o2 & f2 & <- & A1 & A2 & -> & ->).
  cbn. exists o1, f1, (o2 ++ o'), (f2 ++ f'). rewrite <- !app_assoc. split; [reflexivity|]. split; [exact A1|]. split; [exact (IH _ _ _ _ _ _ _ A2 B)|auto].
Qed.
(** Removing a child *)
Lemma items_del : forall O s l o f k, items O s l o f -> exists o' f', items O (sdel k s) (sdel k l) o' f' /\ (forall x, times o' x <= times o x) /\ (forall x, times f' x <= times f x) /\
  forall c, sget k s = Some c -> exists i co cf, sget k l = Some i /\ O c i co cf /\ (forall x, times o' x + times co x <= times o x) /\ (forall x, times f' x + times cf x <= times f x).
Proof.
  intros O. induction s as [|[k0 c0] s IH]; intros [|[k' i] l] o f k A; cbn in A; try contradiction.
  - destruct A as [-> ->]. exists [], []. split; [split; reflexivity|]. split; [auto|]. split; [auto|]. discriminate.
  - destruct A as (o1 & f1 & o2 & f2 & <- & A1 & A2 & -> & ->). destruct (IH l o2 f2 k A2) as (o' & f' & I' & L1 & L2 & R). unfold sdel, sget in *. cbn [ddel dget]. destruct (str_eqb k k0).
    + exists o', f'. split; [exact I'|]. split; [intros x; rewrite times_app; specialize (L1 x); lia|]. split; [intros x; rewrite times_app; specialize (L2 x); lia|].
      intros c E. injection E as <-. exists i, o1, f1. split; [reflexivity|]. split; [exact A1|]. split; intros x; rewrite times_app; [specialize (L1 x)|specialize (L2 x)]; lia.
    + exists (o1 ++ o'), (f1 ++ f'). split; [cbn; exists o1, f1, o', f'; auto|]. split; [intros x; rewrite !times_app; specialize (L1 x); lia|]. split; [intros x; rewrite !times_app; specialize (L2 x); lia|].
      intros c E. destruct (R c E) as (j & co & cf & G & X & T1 & T2). exists j, co, cf. split; [exact G|]. split; [exact X|]. split; intros x; rewrite !times_app; [specialize (T1 x)|specialize (T2 x)]; lia.
Qed.
Lemma sset_new : forall V k (v : V) d, sget k d = None -> sset k v d = d ++ [(k, v)].
Proof. intros V k v d. unfold sset, sget. induction d as [|[k0 v0] d IH]; cbn; [reflexivity|]. destruct (str_eqb k k0); [discriminate|]. intros E. f_equal. exact (IH E). Qed.
Lemma sdel_new : forall V k (d : list (pystr * V)), sget k d = None -> sdel k d = d.
Proof. intros V k d. unfold sdel, sget. induction d as [|[k0 v0] d IH]; cbn; [reflexivity|]. destruct (str_eqb k k0); [discriminate|]. intros E. f_equal. exact (IH E). Qed.
Lemma sget_sdel : forall V k (d : list (pystr * V)), sget k (sdel k d) = None.
Proof. intros V k d. unfold sdel, sget. induction d as [|[k0 v0] d IH]; cbn; [reflexivity|]. destruct (str_eqb k k0) eqn:E; [exact IH|]. cbn. rewrite E. exact IH. Qed.
Lemma sget_last : forall V k (v : V) d, sget k d = None -> sget k (d ++ [(k, v)]) = Some v.
Proof. intros V k v d. unfold sget. induction d as [|[k0 v0] d IH]; cbn; [rewrite str_eqb_refl; reflexivity|]. destruct (str_eqb k k0); [discriminate|exact IH]. Qed.
Lemma sset_last : forall V k (v w : V) d, sget k d = None -> sset k w (d ++ [(k, v)]) = d ++ [(k, w)].
Proof. intros V k v w d. unfold sget, sset. induction d as [|[k0 v0] d IH]; cbn; [rewrite str_eqb_refl; reflexivity|]. destruct (str_eqb k k0); [discriminate|]. intros E. f_equal. exact (IH E). Qed.
(** Footprints grow by new addresses only. *)
Definition grows (n : nat) (o o' : list nat) : Prop := forall x, In x o' -> In x o \/ n <= x.
Lemma but_kept_empty : forall o f h h', but o f h h' -> defaults_empty h -> defaults_empty h'.
Proof. intros o f h h' [_ B] [D1 D2]. split; apply B; auto. Qed.
Lemma but_trans : forall o f co cf h h1 h2, but o f h h1 -> but co cf h1 h2 -> grows (length (m_objs h)) o co -> grows (length (m_dicts h)) f cf -> but o f h h2.
Proof.
  intros o f co cf h h1 h2 [A1 A2] [B1 B2] G1 G2. split.
  - intros i x N E. apply B1; [|exact (A1 i x N E)]. intros I. destruct (G1 i I) as [X|X]; [exact (N X)|]. apply nth_error_lt in E. lia.
  - intros d l N E. apply B2; [|exact (A2 d l N E)]. destruct N as [N|N]; [|right; exact N]. left. intros I. destruct (G2 d I) as [X|X]; [exact (N X)|]. apply nth_error_lt in E. lia.
Qed.
Lemma but_length : forall o f h h', but o f h h' -> (forall x, In x o -> x < length (m_objs h')) -> (forall x, In x f -> x < length (m_dicts h')) -> length (m_objs h) <= length (m_objs h') /\ length (m_dicts h) <= length (m_dicts h').
Proof.
  intros o f h h' [A B] O F. split.
  - destruct (Nat.le_gt_cases (length (m_objs h)) (length (m_objs h'))) as [L|L]; [exact L|]. destruct (nth_error (m_objs h) (length (m_objs h'))) as [x|] eqn:E; [|apply nth_error_None in E; lia].
    apply A in E; [apply nth_error_lt in E; lia|]. intros I. apply O in I. lia.
  - destruct (Nat.le_gt_cases (length (m_dicts h)) (length (m_dicts h'))) as [L|L]; [exact L|]. destruct (nth_error (m_dicts h) (length (m_dicts h'))) as [x|] eqn:E; [|apply nth_error_None in E; lia].
    apply B in E; [apply nth_error_lt in E; lia|]. left. intros I. apply F in I. lia.
Qed.
Lemma update_beyond : forall A (l m : list A) i v j x, nth_error l j = Some x -> j <> i -> nth_error (list_update (l ++ m) i v) j = Some x.
Proof. intros A l m i v j x E N. apply update_other; [|exact N]. rewrite nth_error_app1; [exact E|exact (nth_error_lt _ _ _ _ E)]. Qed.
Lemma new_owns : forall h i, defaults_empty h -> nth_error (m_objs h) i = Some (mkObj None no_steps no_regxs) -> owns h empty_pmod i [i] [].
Proof. intros h i [D1 D2] E. exists no_steps, no_regxs, [], [], [], [], [], []. repeat (split; [first [assumption|split; reflexivity]|]). split; reflexivity. Qed.
(** What a step to a child that may be new gives *)
Definition steps_to (h : mem) (i : nat) (o f : list nat) (p1 : pmod) (h1 : mem) : Prop :=
  exists o1 f1, owns h1 p1 i o1 f1 /\ once o1 /\ once f1 /\ but o f h h1 /\ grows (length (m_objs h)) o o1 /\ grows (length (m_dicts h)) f f1.
Ltac intimes H := let x := fresh in intros x; specialize (H x); rewrite ?times_app, ?times_cons, ?times_app in *; cbn [count_occ] in *; repeat match goal with |- context [Nat.eq_dec ?a ?b] => destruct (Nat.eq_dec a b) end; try lia.

Lemma append_steps_owns : forall h a s r i o f key h1 c, defaults_empty h -> owns h (Pmod a s r) i o f -> once o -> once f -> append_into_steps h i key = (h1, c) ->
  steps_to h i o f (Pmod a (match sget key s with Some _ => s | None => sset key empty_pmod s end) r) h1 /\ sget key (dict_at h1 (o_steps (obj_at h1 i))) = Some c.
Proof.
  intros h a s r i o f key h1 c D W O1 O2 E. pose proof W as W0. pose proof (owns_old _ _ _ _ _ W) as (OL1 & OL2).
  destruct W as (ds & dr & ls & lr & so & sf & ro & rf & E1 & E2 & E3 & A1 & A2 & -> & ->). unfold append_into_steps in E. rewrite (obj_at_error _ _ _ E1) in E. cbn [o_steps] in E. rewrite (dict_at_error _ _ _ E2) in E.
  destruct ls as [|kv ls].
  - (* a dictionary of its own *)
    destruct s as [|kc s]; [|destruct kc; destruct A1]. destruct A1 as [-> ->]. cbn [app] in *. unfold sget at 1. cbn [dget]. unfold sset. cbn [dset].
    unfold add_dict, new_pmod, add_obj, put_steps in E. unfold obj_at in E. cbn [m_objs m_dicts] in E. rewrite (nth_error_nth _ _ _ E1) in E. cbn [o_alias o_regxs] in E.
    unfold dict_at in E. cbn [m_dicts m_objs] in E. rewrite app_nth2, Nat.sub_diag in E by lia. cbn [nth] in E. injection E as <- <-. rewrite list_update_length.
    set (nd := length (m_dicts h)) in *. set (c := length (m_objs h)) in *.
    set (h1 := put_dict _ nd _). assert (L1 : i < c) by exact (nth_error_lt _ _ _ _ E1).
    assert (X1 : nth_error (m_objs h1) i = Some (mkObj a nd dr)). { cbn. rewrite nth_error_app1 by (rewrite list_update_length; exact L1). apply update_same. exact L1. }
    assert (X2 : nth_error (m_dicts h1) nd = Some [(key, c)]). { cbn. rewrite update_same; [reflexivity|]. rewrite app_length. cbn. unfold nd. lia. }
    assert (X3 : nth_error (m_objs h1) c = Some (mkObj None no_steps no_regxs)). { cbn. rewrite nth_error_app2 by (rewrite list_update_length; unfold c; lia). rewrite list_update_length. unfold c. rewrite Nat.sub_diag. reflexivity. }
    assert (B : but [i] [] h h1).
    { split.
      - intros j x N Y. cbn. rewrite nth_error_app1 by (rewrite list_update_length; exact (nth_error_lt _ _ _ _ Y)). apply update_other; [exact Y|]. intros ->. apply N. left. reflexivity.
      - intros d l _ Y. cbn. apply update_beyond; [exact Y|]. apply nth_error_lt in Y. unfold nd. lia. }
    assert (D1 : defaults_empty h1) by exact (but_kept_empty _ _ _ _ B D).
    split; [|rewrite (obj_at_error _ _ _ X1); cbn [o_steps]; rewrite (dict_at_error _ _ _ X2); unfold sget; cbn; rewrite str_eqb_refl; reflexivity].
    exists (i :: [c] ++ ro), ((nd :: []) ++ match r with [] => [] | _ => dr :: rf end). split; [|split; [|split; [|split; [|split]]]].
    + exists nd, dr, [(key, c)], lr, [c], [], ro, rf. split; [exact X1|]. split; [exact X2|]. split; [apply (proj2 B); [left; intros []|exact E3]|].
      split; [cbn; exists [c], [], [], []; split; [reflexivity|]; split; [exact (new_owns _ _ D1 X3)|auto]|]. split; [|auto].
      refine (items_impl _ _ _ _ _ _ _ A2). intros k q j o1 f1 I Y U V. apply (owns_but _ _ _ _ B _ _ _ _ Y); [|intros x _ []]. intros x Z [<-|[]]. apply U in Z. apply times_in in Z. specialize (O1 i). rewrite times_cons in O1. destruct (Nat.eq_dec i i); [lia|congruence].
    + intros x. specialize (O1 x). rewrite !times_cons, times_app, times_cons in *. cbn [count_occ]. destruct (Nat.eq_dec c x) as [<-|N]; [|lia].
      assert (Z : times ro c = 0) by (apply count_occ_not_In; intros I; specialize (OL1 c (or_intror I)); unfold c in OL1; lia). destruct (Nat.eq_dec i c); [lia|]. rewrite Z. lia.
    + intros x. specialize (O2 x). rewrite times_app, times_cons. cbn [count_occ]. destruct (Nat.eq_dec nd x) as [<-|N]; [|lia].
      assert (Z : times (match r with [] => [] | _ => dr :: rf end) nd = 0) by (apply count_occ_not_In; intros I; destruct (OL2 nd I) as (y & l & Y); apply nth_error_lt in Y; unfold nd in Y; lia). lia.
    + split; [intros j x N Y; apply (proj1 B); [|exact Y]; intros [<-|[]]; apply N; left; reflexivity|]. intros d l N Y. apply (proj2 B); [left; intros []|exact Y].
    + intros x [<-|[<-|I]]; [left; left; reflexivity|right; unfold c; lia|left; right; exact I].
    + intros x [<-|I]; [right; unfold nd; lia|left; exact I].
  - rewrite <- (dict_at_error _ _ _ E2) in E at 1. pose proof (items_get _ _ _ _ _ key A1) as G. destruct s as [|kc s]; [destruct A1|]. remember (kc :: s) as s0 eqn:ES. remember (kv :: ls) as l0 eqn:EL.
    assert (EE : (match sget key l0 with Some c0 => (h, c0) | None => let '(h0, c0) := new_pmod h in (put_dict h0 ds (sset key c0 (dict_at h0 ds)), c0) end) = (h1, c)).
    { rewrite <- E. rewrite (dict_at_error _ _ _ E2). rewrite EL. reflexivity. }
    clear E. destruct (sget key l0) as [c0|] eqn:GL.
    + (* already there *)
      injection EE as <- <-. assert (GS : match sget key s0 with Some _ => s0 | None => sset key empty_pmod s0 end = s0) by (destruct (sget key s0); [reflexivity|]; destruct G as [G _]; specialize (G eq_refl); discriminate G).
      rewrite GS. split; [|rewrite (obj_at_error _ _ _ E1); cbn [o_steps]; rewrite (dict_at_error _ _ _ E2); exact GL].
      exists (i :: so ++ ro), ((ds :: sf) ++ match r with [] => [] | _ => dr :: rf end). split; [exact W0|]. split; [exact O1|]. split; [exact O2|]. split; [split; auto|]. split; intros x I; left; exact I.
    + (* a new one *)
      assert (GS : sget key s0 = None) by (apply G; reflexivity). rewrite GS. unfold new_pmod, add_obj in EE. unfold dict_at in EE. cbn [m_dicts m_objs] in EE. rewrite (nth_error_nth _ _ _ E2) in EE. injection EE as <- <-.
      set (c := length (m_objs h)) in *. set (h1 := put_dict _ ds _). rewrite !sset_new by assumption.
      assert (X1 : nth_error (m_objs h1) i = Some (mkObj a ds dr)) by (cbn; rewrite nth_error_app1 by exact (nth_error_lt _ _ _ _ E1); exact E1).
      assert (X2 : nth_error (m_dicts h1) ds = Some (l0 ++ [(key, c)])). { cbn. rewrite update_same by exact (nth_error_lt _ _ _ _ E2). rewrite sset_new by exact GL. reflexivity. }
      assert (X3 : nth_error (m_objs h1) c = Some (mkObj None no_steps no_regxs)) by (cbn; unfold c; rewrite nth_error_app2, Nat.sub_diag by lia; reflexivity).
      assert (B : but [] [ds] h h1).
      { split.
        - intros j x _ Y. cbn. rewrite nth_error_app1 by exact (nth_error_lt _ _ _ _ Y). exact Y.
        - intros d l N Y. cbn. apply update_other; [exact Y|]. intros ->. destruct N as [N| ->]; [apply N; left; reflexivity|]. rewrite E2 in Y. rewrite EL in Y. discriminate Y. }
      assert (D1 : defaults_empty h1) by exact (but_kept_empty _ _ _ _ B D).
      cbn [app] in *.
      assert (OT : forall q j o1 f1, owns h q j o1 f1 -> ~ In ds f1 -> owns h1 q j o1 f1) by (intros q j o1 f1 Y N; apply (owns_but _ _ _ _ B _ _ _ _ Y); [intros x _ []|intros x Z [<-|[]]; exact (N Z)]).
      split; [|rewrite (obj_at_error _ _ _ X1); cbn [o_steps]; rewrite (dict_at_error _ _ _ X2); apply sget_last; exact GL].
      exists (i :: (so ++ [c]) ++ ro), ((ds :: sf ++ []) ++ match r with [] => [] | _ => dr :: rf end).
      assert (NS : ~ In ds sf) by (intros I; apply times_in in I; specialize (O2 ds); rewrite times_cons, times_app in O2; destruct (Nat.eq_dec ds ds); [lia|congruence]).
      assert (NR : ~ In ds (match r with [] => [] | _ => dr :: rf end)) by (intros I; apply times_in in I; specialize (O2 ds); rewrite times_cons, times_app in O2; destruct (Nat.eq_dec ds ds); [lia|congruence]).
      split; [|split; [|split; [|split; [|split]]]].
      * exists ds, dr, (l0 ++ [(key, c)]), lr, (so ++ [c]), (sf ++ []), ro, rf. split; [exact X1|]. split; [exact X2|].
        split; [apply (proj2 B); [|exact E3]; destruct r as [|rc r]; [right; destruct lr; [reflexivity|destruct A2]|left; intros [<-|[]]; apply NR; left; reflexivity]|].
        split; [|split; [|split; [reflexivity|rewrite ES; reflexivity]]].
        -- apply items_app.
           ++ refine (items_impl _ _ _ _ _ _ _ A1). intros k q j o1 f1 I Y U V. apply OT; [exact Y|]. intros Z. exact (NS (V _ Z)).
           ++ cbn. exists [c], [], [], []. split; [reflexivity|]. split; [exact (new_owns _ _ D1 X3)|auto].
        -- destruct r as [|rc r]; [destruct lr; [exact A2|destruct A2]|]. refine (items_impl _ _ _ _ _ _ _ A2). intros k q j o1 f1 I Y U V. apply OT; [exact Y|]. intros Z. apply NR. right. exact (V _ Z).
      * intros x. specialize (O1 x). rewrite !times_cons, !times_app, times_cons in *. cbn [count_occ]. destruct (Nat.eq_dec c x) as [<-|N]; [|lia].
        assert (Z : times (i :: so ++ ro) c = 0) by (apply count_occ_not_In; intros I; specialize (OL1 c I); unfold c in OL1; lia). rewrite times_cons, times_app in Z. lia.
      * rewrite app_nil_r. exact O2.
      * split; [intros j x N Y; apply (proj1 B); [intros []|exact Y]|]. intros d l N Y. apply (proj2 B); [|exact Y]. destruct N as [N|N]; [left; intros [<-|[]]; apply N; left; reflexivity|right; exact N].
      * intros x [<-|I]; [left; left; reflexivity|]. rewrite <- app_assoc in I. apply in_app_or in I. destruct I as [I|[<-|I]]; [left; right; apply in_or_app; left; exact I|right; unfold c; lia|left; right; apply in_or_app; right; exact I].
      * rewrite app_nil_r. intros x I. left. exact I.
Qed.
Definition reg_child (key : pystr) (r : list (pystr * pmod)) : pmod := match sget key r with Some c => c | None => empty_pmod end.
Lemma append_regxs_owns : forall h a s r i o f key h1 c, defaults_empty h -> owns h (Pmod a s r) i o f -> once o -> once f -> append_into_regxs h i key = (h1, c) ->
  steps_to h i o f (Pmod a s (sdel key r ++ [(key, reg_child key r)])) h1 /\ sget key (dict_at h1 (o_regxs (obj_at h1 i))) = Some c.
Proof.
  intros h a s r i o f key h1 c D W O1 O2 E. pose proof W as W0. pose proof (owns_old _ _ _ _ _ W) as (OL1 & OL2).
  destruct W as (ds & dr & ls & lr & so & sf & ro & rf & E1 & E2 & E3 & A1 & A2 & -> & ->). unfold append_into_regxs in E. rewrite (obj_at_error _ _ _ E1) in E. cbn [o_regxs] in E. rewrite (dict_at_error _ _ _ E3) in E.
  set (sfoot := match s with [] => [] | _ => ds :: sf end) in *.
  destruct lr as [|kv lr].
  - (* a dictionary of its own *)
    destruct r as [|kc r]; [|destruct kc; destruct A2]. destruct A2 as [-> ->]. unfold reg_child, sget. cbn [dget sdel ddel app]. rewrite !app_nil_r in *.
    unfold add_dict, new_pmod, add_obj, put_regxs in E. unfold obj_at in E. cbn [m_objs m_dicts] in E. rewrite (nth_error_nth _ _ _ E1) in E. cbn [o_alias o_steps] in E.
    unfold dict_at in E. cbn [m_dicts m_objs] in E. rewrite app_nth2, Nat.sub_diag in E by lia. cbn [nth] in E. injection E as <- <-. rewrite list_update_length.
    set (nd := length (m_dicts h)) in *. set (c := length (m_objs h)) in *.
    set (h1 := put_dict _ nd _). assert (L1 : i < c) by exact (nth_error_lt _ _ _ _ E1).
    assert (X1 : nth_error (m_objs h1) i = Some (mkObj a ds nd)). { cbn. rewrite nth_error_app1 by (rewrite list_update_length; exact L1). apply update_same. exact L1. }
    assert (X2 : nth_error (m_dicts h1) nd = Some [(key, c)]). { cbn. rewrite update_same; [reflexivity|]. rewrite app_length. cbn. unfold nd. lia. }
    assert (X3 : nth_error (m_objs h1) c = Some (mkObj None no_steps no_regxs)). { cbn. rewrite nth_error_app2 by (rewrite list_update_length; unfold c; lia). rewrite list_update_length. unfold c. rewrite Nat.sub_diag. reflexivity. }
    assert (B : but [i] [] h h1).
    { split.
      - intros j x N Y. cbn. rewrite nth_error_app1 by (rewrite list_update_length; exact (nth_error_lt _ _ _ _ Y)). apply update_other; [exact Y|]. intros ->. apply N. left. reflexivity.
      - intros d l _ Y. cbn. apply update_beyond; [exact Y|]. apply nth_error_lt in Y. unfold nd. lia. }
    assert (D1 : defaults_empty h1) by exact (but_kept_empty _ _ _ _ B D).
    split; [|rewrite (obj_at_error _ _ _ X1); cbn [o_regxs]; rewrite (dict_at_error _ _ _ X2); cbn; rewrite str_eqb_refl; reflexivity].
    exists (i :: so ++ [c]), (sfoot ++ [nd]). split; [|split; [|split; [|split; [|split]]]].
    + exists ds, nd, ls, [(key, c)], so, sf, [c], []. split; [exact X1|]. split; [apply (proj2 B); [left; intros []|exact E2]|]. split; [exact X2|].
      split; [|split; [cbn; exists [c], [], [], []; split; [reflexivity|]; split; [exact (new_owns _ _ D1 X3)|auto]|auto]].
      refine (items_impl _ _ _ _ _ _ _ A1). intros k q j o1 f1 I Y U V. apply (owns_but _ _ _ _ B _ _ _ _ Y); [|intros x _ []]. intros x Z [<-|[]]. apply U in Z. apply times_in in Z. specialize (O1 i). rewrite times_cons in O1. destruct (Nat.eq_dec i i); [lia|congruence].
    + intros x. specialize (O1 x). rewrite !times_cons, times_app, times_cons in *. cbn [count_occ]. destruct (Nat.eq_dec c x) as [<-|N]; [|lia].
      assert (Z : times so c = 0) by (apply count_occ_not_In; intros I; specialize (OL1 c (or_intror I)); unfold c in OL1; lia). destruct (Nat.eq_dec i c); [lia|]. rewrite Z. lia.
    + intros x. specialize (O2 x). rewrite times_app, times_cons. cbn [count_occ]. destruct (Nat.eq_dec nd x) as [<-|N]; [|lia].
      assert (Z : times sfoot nd = 0) by (apply count_occ_not_In; intros I; destruct (OL2 nd I) as (y & l & Y); apply nth_error_lt in Y; unfold nd in Y; lia). lia.
    + split; [intros j x N Y; apply (proj1 B); [|exact Y]; intros [<-|[]]; apply N; left; reflexivity|]. intros d l N Y. apply (proj2 B); [left; intros []|exact Y].
    + intros x [<-|I]; [left; left; reflexivity|]. apply in_app_or in I. destruct I as [I|[<-|[]]]; [left; right; exact I|right; unfold c; lia].
    + intros x I. apply in_app_or in I. destruct I as [I|[<-|[]]]; [left; exact I|right; unfold nd; lia].
  - pose proof (items_get _ _ _ _ _ key A2) as G. destruct r as [|kc r]; [destruct A2|]. remember (kc :: r) as r0 eqn:ER. remember (kv :: lr) as l0 eqn:EL.
    assert (NL : l0 <> []) by (rewrite EL; discriminate).
    assert (NRR : ~ In dr rf) by (intros I; apply times_in in I; specialize (O2 dr); rewrite times_app, times_cons in O2; destruct (Nat.eq_dec dr dr); [lia|congruence]).
    assert (NS : ~ In dr sfoot) by (intros I; apply times_in in I; specialize (O2 dr); rewrite times_app, times_cons in O2; destruct (Nat.eq_dec dr dr); [lia|congruence]).
    destruct (items_del _ _ _ _ _ key A2) as (ro' & rf' & A3 & T1 & T2 & TC).
    (* the child, and what is changed *)
    assert (ST : nth_error (m_objs h1) i = Some (mkObj a ds dr) /\ nth_error (m_dicts h1) dr = Some (sdel key l0 ++ [(key, c)]) /\ but [] [dr] h h1 /\
      exists co cf, owns h1 (reg_child key r0) c co cf /\ (forall x, times ro' x + times co x <= times ro x \/ x = length (m_objs h) /\ times co x <= 1) /\ (forall x, times rf' x + times cf x <= times rf x) /\ grows (length (m_objs h)) ro co).
    { assert (BB : forall objs l, (forall j x, nth_error (m_objs h) j = Some x -> nth_error objs j = Some x) -> but [] [dr] h (mkMem objs (list_update (m_dicts h) dr l))).
      { intros objs l X. split; cbn; [intros j x _ Y; exact (X j x Y)|]. intros d l' N Y. apply update_other; [exact Y|]. intros ->. destruct N as [N| ->]; [apply N; left; reflexivity|]. rewrite E3 in Y. injection Y as Y. exact (NL Y). }
      assert (EE : match sget key l0 with
        | Some c0 => (put_dict (put_dict h dr (sdel key l0)) dr (sset key c0 (dict_at (put_dict h dr (sdel key l0)) dr)), c0)
        | None => let '(h, c) := new_pmod h in (put_dict h dr (sset key c (dict_at h dr)), c) end = (h1, c)).
      { rewrite <- E. rewrite EL. destruct (sget key (kv :: lr)); reflexivity. }
      clear E. unfold reg_child. destruct (sget key l0) as [c0|] eqn:GL.
      - destruct (sget key r0) as [q|] eqn:GR; [|destruct G as [G _]; specialize (G eq_refl); discriminate G].
        unfold put_dict in EE. cbn [m_objs m_dicts] in EE. unfold dict_at in EE. cbn [m_dicts] in EE. rewrite (nth_error_nth _ _ [] (update_same _ (m_dicts h) dr _ (nth_error_lt _ _ _ _ E3))) in EE.
        rewrite sset_new in EE by apply sget_sdel. injection EE as <- <-. rewrite JsonPointer_Proofs.list_update_update.
        assert (B := BB (m_objs h) (sdel key l0 ++ [(key, c0)]) (fun j x Y => Y)).
        split; [exact E1|]. split; [cbn; apply update_same; exact (nth_error_lt _ _ _ _ E3)|]. split; [exact B|].
        destruct (TC q eq_refl) as (j & co & cf & Gj & W & U1 & U2). injection Gj as <-. exists co, cf. split.
        + apply (owns_but _ _ _ _ B _ _ _ _ W); [intros x _ []|]. intros x Z [<-|[]]. apply NRR. apply times_in. apply times_in in Z. specialize (U2 dr). lia.
        + split; [intros x; left; apply U1|]. split; [exact U2|]. intros x I. left. apply times_in. apply times_in in I. specialize (U1 x). lia.
      - assert (GR : sget key r0 = None) by (apply G; reflexivity). rewrite GR.
        unfold new_pmod, add_obj, put_dict, dict_at in EE. cbn [m_dicts m_objs] in EE. rewrite (nth_error_nth _ _ _ E3), sset_new in EE by exact GL. injection EE as <- <-.
        rewrite (sdel_new _ _ _ GL). set (cc := length (m_objs h)) in *.
        assert (B := BB (m_objs h ++ [mkObj None no_steps no_regxs]) (l0 ++ [(key, cc)]) (fun j x Y => eq_trans (nth_error_app1 _ _ (nth_error_lt _ _ _ _ Y)) Y)).
        split; [cbn; rewrite nth_error_app1 by exact (nth_error_lt _ _ _ _ E1); exact E1|]. split; [cbn; apply update_same; exact (nth_error_lt _ _ _ _ E3)|]. split; [exact B|].
        exists [cc], []. split; [apply new_owns; [exact (but_kept_empty _ _ _ _ B D)|cbn; unfold cc; rewrite nth_error_app2, Nat.sub_diag by lia; reflexivity]|].
        split; [|split; [intros x; cbn [count_occ]; specialize (T2 x); lia|intros x [<-|[]]; right; unfold cc; lia]].
        intros x. rewrite times_cons. cbn [count_occ]. destruct (Nat.eq_dec cc x) as [<-|N]; [right; split; [reflexivity|lia]|left; specialize (T1 x); lia]. }
    destruct ST as (X1 & X2 & B & co & cf & WC & U1 & U2 & U3).
    assert (OT : forall q j o1 f1, owns h q j o1 f1 -> ~ In dr f1 -> owns h1 q j o1 f1) by (intros q j o1 f1 Y N; apply (owns_but _ _ _ _ B _ _ _ _ Y); [intros x _ []|intros x Z [<-|[]]; exact (N Z)]).
    split; [|rewrite (obj_at_error _ _ _ X1); cbn [o_regxs]; rewrite (dict_at_error _ _ _ X2); apply sget_last; apply sget_sdel].
    exists (i :: so ++ ro' ++ co), (sfoot ++ dr :: rf' ++ cf). split; [|split; [|split; [|split; [|split]]]].
    + exists ds, dr, ls, (sdel key l0 ++ [(key, c)]), so, sf, (ro' ++ co), (rf' ++ cf). split; [exact X1|].
      split; [apply (proj2 B); [|exact E2]; unfold sfoot in NS; destruct s as [|sc s]; [right; destruct ls; [reflexivity|destruct A1]|left; intros [<-|[]]; apply NS; left; reflexivity]|]. split; [exact X2|].
      split; [|split; [|split; [reflexivity|destruct (sdel key r0); reflexivity]]].
      * unfold sfoot in NS. destruct s as [|sc s]; [destruct ls; [exact A1|destruct A1]|]. refine (items_impl _ _ _ _ _ _ _ A1). intros k q j o1 f1 I Y U V. apply OT; [exact Y|]. intros Z. apply NS. right. exact (V _ Z).
      * apply items_app.
        -- refine (items_impl _ _ _ _ _ _ _ A3). intros k q j o1 f1 I Y U V. apply OT; [exact Y|]. intros Z. apply V in Z. apply times_in in Z. apply NRR. apply times_in. specialize (T2 dr). lia.
        -- cbn. exists co, cf, [], []. rewrite !app_nil_r. auto.
    + intros x. specialize (O1 x). specialize (T1 x). rewrite !times_cons, !times_app in *. destruct (U1 x) as [Y|[-> Y]]; [lia|].
      assert (Z : times (i :: so ++ ro) (length (m_objs h)) = 0) by (apply count_occ_not_In; intros I; specialize (OL1 _ I); lia). rewrite times_cons, times_app in Z. lia.
    + intros x. specialize (O2 x). specialize (U2 x). rewrite !times_app, !times_cons, ?times_app in *. lia.
    + split; [intros j x N Y; apply (proj1 B); [intros []|exact Y]|]. intros d l N Y. apply (proj2 B); [|exact Y]. destruct N as [N|N]; [left; intros [<-|[]]; apply N; apply in_or_app; right; left; reflexivity|right; exact N].
    + intros x [<-|I]; [left; left; reflexivity|]. apply in_app_or in I. destruct I as [I|I]; [left; right; apply in_or_app; left; exact I|]. apply in_app_or in I. destruct I as [I|I].
      * left. right. apply in_or_app. right. apply times_in. apply times_in in I. specialize (T1 x). lia.
      * destruct (U3 x I) as [J|J]; [left; right; apply in_or_app; right; exact J|right; exact J].
    + intros x I. left. apply in_app_or in I. apply in_or_app. destruct I as [I|[<-|I]]; [left; exact I|right; left; reflexivity|]. right. right. apply times_in. apply in_app_or in I. specialize (U2 x). destruct I as [I|I]; apply times_in in I; lia.
Qed.
Definition refocus (h : mem) (i c : nat) (o f : list nat) (q : pmod) (p' : pmod -> pmod) : Prop :=
  exists co cf, owns h q c co cf /\ once co /\ once cf /\ (forall x, In x co -> In x o) /\ (forall x, In x cf -> In x f) /\
    forall h' q' co' cf', but co cf h h' -> owns h' q' c co' cf' -> once co' -> once cf' -> grows (length (m_objs h)) co co' -> grows (length (m_dicts h)) cf cf' ->
      exists o' f', owns h' (p' q') i o' f' /\ once o' /\ once f' /\ grows (length (m_objs h)) o o' /\ grows (length (m_dicts h)) f f'.
Lemma once_moved : forall n o co o' co', once o -> once co' -> (forall x, In x o -> x < n) -> grows n co co' -> (forall x, times co x <= times o x) ->
  (forall x, times o' x + times co x = times o x + times co' x) -> once o' /\ grows n o o'.
Proof.
  intros n o co o' co' O1 O2 L G T1 T2. split.
  - intros x. specialize (O1 x). pose proof (O2 x) as O3. specialize (T1 x). specialize (T2 x). destruct (times co x) as [|m] eqn:E; [|lia].
    destruct (times co' x) as [|m'] eqn:E'; [lia|]. assert (I : In x co') by (apply times_in; lia). destruct (G x I) as [J|J]; [apply times_in in J; lia|].
    destruct (times o x) as [|m2] eqn:E2; [lia|]. assert (K : In x o) by (apply times_in; lia). apply L in K. lia.
  - intros x I. apply times_in in I. specialize (T1 x). specialize (T2 x). destruct (times o x) as [|m] eqn:E; [|left; apply times_in; lia].
    assert (J : In x co') by (apply times_in; lia). destruct (G x J) as [K|K]; [apply times_in in K; lia|right; exact K].
Qed.
Lemma sset_cons : forall V k (v : V) d, exists x y, sset k v d = x :: y.
Proof. intros V k v [|[k0 v0] d]; unfold sset; cbn; [eauto|]. destruct (str_eqb k k0); eauto. Qed.
Lemma focus_steps : forall h a s r i o f key q c, owns h (Pmod a s r) i o f -> once o -> once f -> sget key s = Some q -> sget key (dict_at h (o_steps (obj_at h i))) = Some c ->
  refocus h i c o f q (fun q' => Pmod a (sset key q' s) r).
Proof.
  intros h a s r i o f key q c W O1 O2 GS GL. pose proof (owns_old _ _ _ _ _ W) as (OL1 & OL2).
  destruct W as (ds & dr & ls & lr & so & sf & ro & rf & E1 & E2 & E3 & A1 & A2 & -> & ->). rewrite (obj_at_error _ _ _ E1) in GL. cbn [o_steps] in GL. rewrite (dict_at_error _ _ _ E2) in GL.
  destruct s as [|sc s]; [discriminate GS|]. remember (sc :: s) as s0 eqn:ES. set (rfoot := match r with [] => [] | _ => dr :: rf end) in *. cbn [app] in *.
  destruct (items_focus _ _ _ _ _ _ _ A1 GS) as (j & co & cf & G & W & L1 & L2 & R). rewrite GL in G. injection G as <-.
  assert (OS : once so) by (intros x; specialize (O1 x); rewrite times_cons, times_app in O1; lia).
  assert (FS : once sf) by (intros x; specialize (O2 x); rewrite times_cons, times_app in O2; lia).
  exists co, cf. split; [exact W|]. split; [intros x; specialize (OS x); specialize (L1 x); lia|]. split; [intros x; specialize (FS x); specialize (L2 x); lia|].
  split; [intros x I; right; apply in_or_app; left; apply times_in; apply times_in in I; specialize (L1 x); lia|].
  split; [intros x I; right; apply in_or_app; left; apply times_in; apply times_in in I; specialize (L2 x); lia|].
  intros h' q' co' cf' B W' C1 C2 G1 G2. destruct (R h' q' co' cf' B OS FS W') as (so' & sf' & I' & T1 & T2).
  assert (ND : forall x, In x cf -> x <> ds /\ ~ In x rfoot).
  { intros x I. apply times_in in I. specialize (L2 x). pose proof (O2 x) as Z. rewrite times_cons, times_app in Z. split; [intros ->; destruct (Nat.eq_dec ds ds); [lia|congruence]|]. intros J. apply times_in in J. lia. }
  assert (NO : forall x, In x co -> x <> i /\ ~ In x ro).
  { intros x I. apply times_in in I. specialize (L1 x). pose proof (O1 x) as Z. rewrite times_cons, times_app in Z. split; [intros ->; destruct (Nat.eq_dec i i); [lia|congruence]|]. intros J. apply times_in in J. lia. }
  exists (i :: so' ++ ro), (ds :: sf' ++ rfoot). split.
  - exists ds, dr, ls, lr, so', sf', ro, rf. split; [apply (proj1 B); [|exact E1]; intros X; apply NO in X; tauto|]. split; [apply (proj2 B); [|exact E2]; left; intros X; apply ND in X; tauto|].
    split; [apply (proj2 B); [|exact E3]; unfold rfoot in ND; destruct r as [|rc r]; [right; destruct lr; [reflexivity|destruct A2]|left; intros X; destruct (ND _ X) as (_ & Y); apply Y; left; reflexivity]|].
    split; [exact I'|]. split; [|split; [reflexivity|destruct (sset_cons _ key q' s0) as (x & y & ->); reflexivity]].
    refine (items_impl _ _ _ _ _ _ _ A2). intros k p j o1 f1 I Y U V. apply (owns_but _ _ _ _ B _ _ _ _ Y).
    + intros x Z X. destruct (NO x X) as (_ & Y'). exact (Y' (U x Z)).
    + intros x Z X. destruct (ND x X) as (_ & Y'). apply Y'. unfold rfoot. destruct r; [destruct I|]. right. exact (V x Z).
  - destruct (once_moved (length (m_objs h)) (i :: so ++ ro) co (i :: so' ++ ro) co' O1 C1 OL1 G1) as (M1 & M2).
    { intros x. rewrite times_cons, times_app. specialize (L1 x). lia. } { intros x. rewrite !times_cons, !times_app. specialize (T1 x). lia. }
    destruct (once_moved (length (m_dicts h)) (ds :: sf ++ rfoot) cf (ds :: sf' ++ rfoot) cf' O2 C2) as (M3 & M4).
    { intros x I. destruct (OL2 x I) as (y & l & Y). exact (nth_error_lt _ _ _ _ Y). } { exact G2. } { intros x. rewrite times_cons, times_app. specialize (L2 x). lia. } { intros x. rewrite !times_cons, !times_app. specialize (T2 x). lia. }
    auto.
Qed.
Lemma focus_regxs : forall h a s r i o f key q c, owns h (Pmod a s r) i o f -> once o -> once f -> sget key r = Some q -> sget key (dict_at h (o_regxs (obj_at h i))) = Some c ->
  refocus h i c o f q (fun q' => Pmod a s (sset key q' r)).
Proof.
  intros h a s r i o f key q c W O1 O2 GS GL. pose proof (owns_old _ _ _ _ _ W) as (OL1 & OL2).
  destruct W as (ds & dr & ls & lr & so & sf & ro & rf & E1 & E2 & E3 & A1 & A2 & -> & ->). rewrite (obj_at_error _ _ _ E1) in GL. cbn [o_regxs] in GL. rewrite (dict_at_error _ _ _ E3) in GL.
  destruct r as [|rc r]; [discriminate GS|]. remember (rc :: r) as r0 eqn:ES. set (sfoot := match s with [] => [] | _ => ds :: sf end) in *.
  destruct (items_focus _ _ _ _ _ _ _ A2 GS) as (j & co & cf & G & W & L1 & L2 & R). rewrite GL in G. injection G as <-.
  assert (OS : once ro) by (intros x; specialize (O1 x); rewrite times_cons, times_app in O1; lia).
  assert (FS : once rf) by (intros x; specialize (O2 x); rewrite times_app, times_cons in O2; lia).
  exists co, cf. split; [exact W|]. split; [intros x; specialize (OS x); specialize (L1 x); lia|]. split; [intros x; specialize (FS x); specialize (L2 x); lia|].
  split; [intros x I; right; apply in_or_app; right; apply times_in; apply times_in in I; specialize (L1 x); lia|].
  split; [intros x I; apply in_or_app; right; right; apply times_in; apply times_in in I; specialize (L2 x); lia|].
  intros h' q' co' cf' B W' C1 C2 G1 G2. destruct (R h' q' co' cf' B OS FS W') as (ro' & rf' & I' & T1 & T2).
  assert (ND : forall x, In x cf -> x <> dr /\ ~ In x sfoot).
  { intros x I. apply times_in in I. specialize (L2 x). pose proof (O2 x) as Z. rewrite times_app, times_cons in Z. split; [intros ->; destruct (Nat.eq_dec dr dr); [lia|congruence]|]. intros J. apply times_in in J. lia. }
  assert (NO : forall x, In x co -> x <> i /\ ~ In x so).
  { intros x I. apply times_in in I. specialize (L1 x). pose proof (O1 x) as Z. rewrite times_cons, times_app in Z. split; [intros ->; destruct (Nat.eq_dec i i); [lia|congruence]|]. intros J. apply times_in in J. lia. }
  exists (i :: so ++ ro'), (sfoot ++ dr :: rf'). split.
  - exists ds, dr, ls, lr, so, sf, ro', rf'. split; [apply (proj1 B); [|exact E1]; intros X; apply NO in X; tauto|].
    split; [apply (proj2 B); [|exact E2]; unfold sfoot in ND; destruct s as [|sc s]; [right; destruct ls; [reflexivity|destruct A1]|left; intros X; destruct (ND _ X) as (_ & Y); apply Y; left; reflexivity]|].
    split; [apply (proj2 B); [|exact E3]; left; intros X; apply ND in X; tauto|].
    split; [|split; [exact I'|split; [reflexivity|destruct (sset_cons _ key q' r0) as (x & y & ->); reflexivity]]].
    refine (items_impl _ _ _ _ _ _ _ A1). intros k p j o1 f1 I Y U V. apply (owns_but _ _ _ _ B _ _ _ _ Y).
    + intros x Z X. destruct (NO x X) as (_ & Y'). exact (Y' (U x Z)).
    + intros x Z X. destruct (ND x X) as (_ & Y'). apply Y'. unfold sfoot. destruct s; [destruct I|]. right. exact (V x Z).
  - destruct (once_moved (length (m_objs h)) (i :: so ++ ro) co (i :: so ++ ro') co' O1 C1 OL1 G1) as (M1 & M2).
    { intros x. rewrite times_cons, times_app. specialize (L1 x). lia. } { intros x. rewrite !times_cons, !times_app. specialize (T1 x). lia. }
    destruct (once_moved (length (m_dicts h)) (sfoot ++ dr :: rf) cf (sfoot ++ dr :: rf') cf' O2 C2) as (M3 & M4).
    { intros x I. destruct (OL2 x I) as (y & l & Y). exact (nth_error_lt _ _ _ _ Y). } { exact G2. } { intros x. rewrite times_app, times_cons. specialize (L2 x). lia. } { intros x. rewrite !times_app, !times_cons. specialize (T2 x). lia. }
    auto.
Qed.
Lemma grows_trans : forall n m o o1 o2, n <= m -> grows n o o1 -> grows m o1 o2 -> grows n o o2.
Proof. intros n m o o1 o2 L G1 G2 x I. destruct (G2 x I) as [J|J]; [exact (G1 x J)|right; lia]. Qed.
Lemma owned_dicts_lt : forall h p i o f, owns h p i o f -> forall x, In x f -> x < length (m_dicts h).
Proof. intros h p i o f W x I. destruct (owns_old _ _ _ _ _ W) as (_ & X). destruct (X x I) as (y & l & Y). exact (nth_error_lt _ _ _ _ Y). Qed.
Lemma put_alias_owns : forall h p i o f t, owns h p i o f -> once o -> owns (put_alias h i (Some t)) (Pmod (Some t) (p_steps p) (p_regxs p)) i o f /\ but o f h (put_alias h i (Some t)).
Proof.
  intros h [a s r] i o f t W O1. destruct W as (ds & dr & ls & lr & so & sf & ro & rf & E1 & E2 & E3 & A1 & A2 & -> & ->).
  assert (B : but [i] [] h (put_alias h i (Some t))).
  { split; cbn; [|auto]. intros j x N Y. apply update_other; [exact Y|]. intros ->. apply N. left. reflexivity. }
  split.
  - exists ds, dr, ls, lr, so, sf, ro, rf. split; [unfold put_alias; rewrite (obj_at_error _ _ _ E1); cbn; apply update_same; exact (nth_error_lt _ _ _ _ E1)|]. split; [exact E2|]. split; [exact E3|].
    assert (N : forall x, In x (so ++ ro) -> ~ In x [i]) by (intros x I [<-|[]]; apply times_in in I; specialize (O1 i); rewrite times_cons in O1; destruct (Nat.eq_dec i i); [lia|congruence]).
    split; [|split; [|auto]].
    + refine (items_impl _ _ _ _ _ _ _ A1). intros k q j o1 f1 I Y U V. apply (owns_but _ _ _ _ B _ _ _ _ Y); [|intros x _ []]. intros x Z. apply N. apply in_or_app. left. exact (U x Z).
    + refine (items_impl _ _ _ _ _ _ _ A2). intros k q j o1 f1 I Y U V. apply (owns_but _ _ _ _ B _ _ _ _ Y); [|intros x _ []]. intros x Z. apply N. apply in_or_app. right. exact (U x Z).
  - split; [intros j x N Y; apply (proj1 B); [|exact Y]; intros [<-|[]]; apply N; left; reflexivity|]. intros d l _ Y. exact Y.
Qed.

Definition more (h h' : mem) : Prop := length (m_objs h) <= length (m_objs h') /\ length (m_dicts h) <= length (m_dicts h').
Lemma more_refl : forall h, more h h. Proof. split; lia. Qed.
Lemma more_trans : forall a b c, more a b -> more b c -> more a c. Proof. unfold more. intros. lia. Qed.
Lemma put_dict_more : forall h d l, more h (put_dict h d l). Proof. intros. unfold more, put_dict. cbn. rewrite list_update_length. lia. Qed.
Lemma put_steps_more : forall h d l, more h (put_steps h d l). Proof. intros. unfold more, put_steps. cbn. rewrite list_update_length. lia. Qed.
Lemma put_regxs_more : forall h d l, more h (put_regxs h d l). Proof. intros. unfold more, put_regxs. cbn. rewrite list_update_length. lia. Qed.
Lemma add_dict_more : forall h l, more h (fst (add_dict h l)). Proof. intros. unfold more, add_dict. cbn. rewrite app_length. cbn. lia. Qed.
Lemma new_pmod_more : forall h, more h (fst (new_pmod h)). Proof. intros. unfold more, new_pmod. cbn. rewrite app_length. cbn. lia. Qed.
Lemma append_steps_more : forall h i key h1 c, append_into_steps h i key = (h1, c) -> more h h1.
Proof.
  intros h i key h1 c. unfold append_into_steps. destruct (dict_at h (o_steps (obj_at h i))) as [|x l].
  - pose proof (add_dict_more h []) as M1. destruct (add_dict h []) as [h2 d]. cbn [fst] in M1. pose proof (new_pmod_more (put_steps h2 i d)) as M2. destruct (new_pmod (put_steps h2 i d)) as [h3 c']. cbn [fst] in M2. intros E. injection E as <- _.
    exact (more_trans _ _ _ M1 (more_trans _ _ _ (put_steps_more _ _ _) (more_trans _ _ _ M2 (put_dict_more _ _ _)))).
  - destruct (sget key (x :: l)); [intros E; injection E as <- _; apply more_refl|]. pose proof (new_pmod_more h) as M2. destruct (new_pmod h) as [h3 c']. cbn [fst] in M2. intros E. injection E as <- _.
    exact (more_trans _ _ _ M2 (put_dict_more _ _ _)).
Qed.
Lemma append_regxs_more : forall h i key h1 c, append_into_regxs h i key = (h1, c) -> more h h1.
Proof.
  intros h i key h1 c. unfold append_into_regxs. destruct (dict_at h (o_regxs (obj_at h i))) as [|x l].
  - pose proof (add_dict_more h []) as M1. destruct (add_dict h []) as [h2 d]. cbn [fst] in M1. pose proof (new_pmod_more (put_regxs h2 i d)) as M2. destruct (new_pmod (put_regxs h2 i d)) as [h3 c']. cbn [fst] in M2. intros E. injection E as <- _.
    exact (more_trans _ _ _ M1 (more_trans _ _ _ (put_regxs_more _ _ _) (more_trans _ _ _ M2 (put_dict_more _ _ _)))).
  - destruct (sget key (x :: l)); [intros E; injection E as <- _; exact (more_trans _ _ _ (put_dict_more _ _ _) (put_dict_more _ _ _))|]. pose proof (new_pmod_more h) as M2. destruct (new_pmod h) as [h3 c']. cbn [fst] in M2. intros E. injection E as <- _.
    exact (more_trans _ _ _ M2 (put_dict_more _ _ _)).
Qed.

Section Build.
  Variable compiles : pystr -> bool.
  Definition built (h : mem) (i : nat) (o f : list nat) (h' : mem) (p' : pmod) : Prop :=
    exists o' f', owns h' p' i o' f' /\ once o' /\ once f' /\ grows (length (m_objs h)) o o' /\ grows (length (m_dicts h)) f f'.
  Lemma add_path_owns : forall steps t p h i o f, defaults_empty h -> owns h p i o f -> once o -> once f ->
    exists h', but o f h h' /\
      match add_path compiles p steps t with
      | Some p' => add_path_in compiles h i steps t = (h', Ok tt) /\ built h i o f h' p'
      | None => add_path_in compiles h i steps t = (h', Raise ReError)
      end.
  Proof.
    induction steps as [|st steps IH]; intros t p h i o f D W O1 O2; cbn [add_path add_path_in].
    - destruct (put_alias_owns h p i o f t W O1) as (X & B). exists (put_alias h i (Some t)). split; [exact B|]. split; [reflexivity|]. exists o, f. split; [exact X|]. split; [exact O1|]. split; [exact O2|]. split; intros x I; left; exact I.
    - destruct p as [a s r]. cbn [p_alias p_steps p_regxs]. destruct (starts_with (lit "~") st).
      + destruct (compiles (skipn 1 st)); [|exists h; split; [split; auto|reflexivity]]. set (key := skipn 1 st).
        destruct (append_into_regxs h i key) as [h1 c] eqn:E. destruct (append_regxs_owns _ _ _ _ _ _ _ _ _ _ D W O1 O2 E) as ((o1 & f1 & W1 & P1 & P2 & B1 & G1 & G2) & GL).
        destruct (focus_regxs _ _ _ _ _ _ _ key (reg_child key r) c W1 P1 P2) as (co & cf & WC & C1 & C2 & I1 & I2 & R). { apply sget_last. apply sget_sdel. } { exact GL. }
        destruct (IH t (reg_child key r) h1 c co cf (but_kept_empty _ _ _ _ B1 D) WC C1 C2) as (h2 & B2 & RES). exists h2.
        assert (L : length (m_objs h) <= length (m_objs h1) /\ length (m_dicts h) <= length (m_dicts h1)).
        { exact (append_regxs_more _ _ _ _ _ E). }
        assert (BT : but o f h h2). { apply (but_trans o f co cf h h1 h2 B1 B2); [intros x I; exact (G1 x (I1 x I))|intros x I; exact (G2 x (I2 x I))]. }
        split; [exact BT|]. unfold reg_child in RES at 1. change (dget str_eqb key r) with (sget key r). destruct (add_path compiles match sget key r with Some c0 => c0 | None => empty_pmod end steps t) as [q'|]; [|exact RES].
        destruct RES as (E2 & (co' & cf' & W2 & Q1 & Q2 & H1 & H2)). split; [exact E2|]. destruct (R h2 q' co' cf' B2 W2 Q1 Q2 H1 H2) as (o' & f' & W' & Z1 & Z2 & Z3 & Z4).
        rewrite sset_last in W' by apply sget_sdel. exists o', f'. split; [exact W'|]. split; [exact Z1|]. split; [exact Z2|]. split; [exact (grows_trans _ _ _ _ _ (proj1 L) G1 Z3)|exact (grows_trans _ _ _ _ _ (proj2 L) G2 Z4)].
      + destruct (append_into_steps h i st) as [h1 c] eqn:E. destruct (append_steps_owns _ _ _ _ _ _ _ _ _ _ D W O1 O2 E) as ((o1 & f1 & W1 & P1 & P2 & B1 & G1 & G2) & GL).
        set (q := reg_child st s). set (s1 := match sget st s with Some _ => s | None => sset st empty_pmod s end) in *.
        assert (GS : sget st s1 = Some q). { unfold s1, q, reg_child. destruct (sget st s) eqn:X; [exact X|]. apply sget_sset_eq. }
        assert (SS : forall q', sset st q' s1 = sset st q' s). { intros q'. unfold s1. destruct (sget st s) eqn:X; [reflexivity|]. rewrite !sset_new with (d := s) by exact X. apply sset_last. exact X. }
        destruct (focus_steps _ _ _ _ _ _ _ st q c W1 P1 P2 GS GL) as (co & cf & WC & C1 & C2 & I1 & I2 & R).
        destruct (IH t q h1 c co cf (but_kept_empty _ _ _ _ B1 D) WC C1 C2) as (h2 & B2 & RES). exists h2.
        assert (L : length (m_objs h) <= length (m_objs h1) /\ length (m_dicts h) <= length (m_dicts h1)).
        { exact (append_steps_more _ _ _ _ _ E). }
        assert (BT : but o f h h2). { apply (but_trans o f co cf h h1 h2 B1 B2); [intros x I; exact (G1 x (I1 x I))|intros x I; exact (G2 x (I2 x I))]. }
        split; [exact BT|]. change (add_path compiles q steps t) with (add_path compiles match sget st s with Some c0 => c0 | None => empty_pmod end steps t) in RES. change (dget str_eqb st s) with (sget st s). destruct (add_path compiles match sget st s with Some c0 => c0 | None => empty_pmod end steps t) as [q'|]; [|exact RES].
        destruct RES as (E2 & (co' & cf' & W2 & Q1 & Q2 & H1 & H2)). split; [exact E2|]. destruct (R h2 q' co' cf' B2 W2 Q1 Q2 H1 H2) as (o' & f' & W' & Z1 & Z2 & Z3 & Z4).
        rewrite SS in W'. exists o', f'. split; [exact W'|]. split; [exact Z1|]. split; [exact Z2|]. split; [exact (grows_trans _ _ _ _ _ (proj1 L) G1 Z3)|exact (grows_trans _ _ _ _ _ (proj2 L) G2 Z4)].
  Qed.
  Lemma built_trans : forall h i o f h1 o1 f1 h2 p2, more h h1 -> grows (length (m_objs h)) o o1 -> grows (length (m_dicts h)) f f1 -> built h1 i o1 f1 h2 p2 -> built h i o f h2 p2.
  Proof.
    intros h i o f h1 o1 f1 h2 p2 M G1 G2 (o' & f' & W & A & B & C & D). exists o', f'. split; [exact W|]. split; [exact A|]. split; [exact B|].
    split; [exact (grows_trans _ _ _ _ _ (proj1 M) G1 C)|exact (grows_trans _ _ _ _ _ (proj2 M) G2 D)].
  Qed.
  Lemma add_path_more : forall steps t h i, more h (fst (add_path_in compiles h i steps t)).
  Proof.
    induction steps as [|st steps IH]; intros t h i; cbn [add_path_in].
    - unfold more, put_alias. cbn. rewrite list_update_length. lia.
    - destruct (starts_with (lit "~") st).
      + destruct (compiles (skipn 1 st)); [|apply more_refl]. destruct (append_into_regxs h i (skipn 1 st)) as [h1 c] eqn:E. exact (more_trans _ _ _ (append_regxs_more _ _ _ _ _ E) (IH t h1 c)).
      + destruct (append_into_steps h i st) as [h1 c] eqn:E. exact (more_trans _ _ _ (append_steps_more _ _ _ _ _ E) (IH t h1 c)).
  Qed.
  Lemma add_tuples_owns : forall tuples p h i o f, defaults_empty h -> owns h p i o f -> once o -> once f ->
    exists h', but o f h h' /\
      match add_tuples compiles p tuples with
      | Ok p' => add_tuples_in compiles h i tuples = (h', Ok tt) /\ built h i o f h' p'
      | Raise e => add_tuples_in compiles h i tuples = (h', Raise e)
      end.
  Proof.
    induction tuples as [|[[a|] [b|]] tuples IH]; intros p h i o f D W O1 O2; cbn [add_tuples add_tuples_in]; try (exact (IH p h i o f D W O1 O2)).
    - exists h. split; [split; auto|]. split; [reflexivity|]. exists o, f. split; [exact W|]. split; [exact O1|]. split; [exact O2|]. split; intros x I; left; exact I.
    - destruct (str_eqb a [] && str_eqb b []); [exact (IH p h i o f D W O1 O2)|]. destruct (add_path_owns (iter_parts_relaxed a) b p h i o f D W O1 O2) as (h1 & B1 & RES).
      pose proof (add_path_more (iter_parts_relaxed a) b h i) as M. destruct (add_path compiles p (iter_parts_relaxed a) b) as [p1|].
      + destruct RES as (E & (o1 & f1 & W1 & P1 & P2 & G1 & G2)). rewrite E in *. cbn [fst] in M. destruct (IH p1 h1 i o1 f1 (but_kept_empty _ _ _ _ B1 D) W1 P1 P2) as (h2 & B2 & RES). exists h2.
        split; [exact (but_trans o f o1 f1 h h1 h2 B1 B2 G1 G2)|]. destruct (add_tuples compiles p1 tuples) as [p2|e]; [|exact RES]. destruct RES as (E2 & X). split; [exact E2|]. exact (built_trans _ _ _ _ _ _ _ _ _ M G1 G2 X).
      + rewrite RES. exists h1. split; [exact B1|reflexivity].
  Qed.
  Lemma pmods_from_tuples_shows : forall tuples h, defaults_empty h ->
    exists h', kept h h' /\
      match pmods_from_tuples compiles tuples with
      | Ok p => pmods_from_tuples_in compiles h tuples = (h', Ok (length (m_objs h))) /\ shows h' p (length (m_objs h))
      | Raise e => pmods_from_tuples_in compiles h tuples = (h', Raise e)
      end.
  Proof.
    intros tuples h D. unfold pmods_from_tuples, pmods_from_tuples_in. destruct (new_pmod h) as [h1 i] eqn:E.
    unfold new_pmod in E. injection E as EH EI. assert (K : kept h h1). { subst h1. split; cbn; [|auto]. intros j x Y. rewrite nth_error_app1; [exact Y|exact (nth_error_lt _ _ _ _ Y)]. }
    assert (D1 : defaults_empty h1) by (subst h1; exact D).
    assert (W : owns h1 empty_pmod i [i] []). { apply new_owns; [exact D1|]. subst h1 i. cbn. rewrite nth_error_app2, Nat.sub_diag by lia. reflexivity. }
    destruct (add_tuples_owns tuples empty_pmod h1 i [i] [] D1 W) as (h2 & B & RES). { intros x. cbn. destruct (Nat.eq_dec i x); lia. } { intros x. cbn. lia. }
    exists h2. split.
    - split; [intros j x Y; apply (proj1 B); [intros [<-|[]]; apply nth_error_lt in Y; lia|exact (proj1 K _ _ Y)]|intros d l Y; apply (proj2 B); [left; intros []|exact (proj2 K _ _ Y)]].
    - rewrite EI. destruct (add_tuples compiles empty_pmod tuples) as [p|e]; [|rewrite RES; reflexivity]. destruct RES as (E2 & (o' & f' & X & _)). rewrite E2. split; [reflexivity|]. exact (owns_shows _ _ _ _ _ X).
  Qed.
End Build.

Lemma kept_defaults : forall h h', kept h h' -> defaults_empty h -> defaults_empty h'.
Proof. intros h h' [_ K] [D1 D2]. split; apply K; assumption. Qed.
Section Programs.
  Variable M : Type.
  Variable fullmatch : pystr -> pystr -> option M.
  Variable expand : M -> pystr -> res pystr.
  Variable compiles : pystr -> bool.
  Lemma forall2_nth : forall A B (R : A -> B -> Prop) l l', Forall2 R l l' -> forall n, match nth_error l n, nth_error l' n with Some x, Some y => R x y | None, None => True | _, _ => False end.
  Proof. induction 1 as [|x y l l' X F IH]; intros [|n]; cbn; auto. apply IH. Qed.
  Lemma env_kept : forall h h' env ienv, kept h h' -> Forall2 (fun p i => wf p /\ shows h p i) env ienv -> Forall2 (fun p i => wf p /\ shows h' p i) env ienv.
  Proof. intros h h' env ienv K F. induction F as [|p i env ienv [W S] F IH]; constructor; [|exact IH]. split; [exact W|]. exact (shows_kept _ _ _ _ K S). Qed.
  Lemma runs_alike_at : forall prog env, Forall wf env -> exists N, forall fuel, N <= fuel -> forall h ienv, defaults_empty h -> Forall2 (fun p i => wf p /\ shows h p i) env ienv ->
    run_in M fullmatch expand compiles fuel h ienv prog = run_values M fullmatch expand compiles env prog.
  Proof.
    induction prog as [|[tuples|a b|a path] prog IH]; intros env WE.
    - exists 0. reflexivity.
    - destruct (pmods_from_tuples compiles tuples) as [p|e] eqn:E.
      + destruct (IH (env ++ [p])) as (N & H); [apply Forall_app; split; [exact WE|constructor; [exact (pft_wf compiles tuples p E)|constructor]]|]; clear IH; idtac. exists N. intros fuel L h ienv D F. cbn [run_in run_values]. destruct (pmods_from_tuples_shows compiles tuples h D) as (h' & K & R). rewrite E in *. destruct R as (-> & S).
        apply H; [exact L|exact (kept_defaults _ _ K D)|]. apply Forall2_app; [exact (env_kept _ _ _ _ K F)|]. constructor; [|constructor]. split; [exact (pft_wf compiles tuples p E)|exact S].
      + destruct (IH env WE) as (N & H). exists N. intros fuel L h ienv D F. cbn [run_in run_values]. destruct (pmods_from_tuples_shows compiles tuples h D) as (h' & K & R). rewrite E in *. rewrite R. f_equal.
        apply H; [exact L|exact (kept_defaults _ _ K D)|exact (env_kept _ _ _ _ K F)].
    - destruct (nth_error env a) as [p|] eqn:EA; [destruct (nth_error env b) as [q|] eqn:EB|].
      + assert (WP : wf p) by (rewrite Forall_forall in WE; apply WE; exact (nth_error_In _ _ EA)). assert (WQ : wf q) by (rewrite Forall_forall in WE; apply WE; exact (nth_error_In _ _ EB)). destruct (IH (env ++ [merge p q])) as (N & H); [apply Forall_app; split; [exact WE|constructor; [exact (wf_merge q p WP WQ)|constructor]]|]. exists (Nat.max N (deep q)). intros fuel L h ienv D F. cbn [run_in run_values]. rewrite EA, EB.
        pose proof (forall2_nth _ _ _ _ _ F a) as X. pose proof (forall2_nth _ _ _ _ _ F b) as Y. rewrite EA in X. rewrite EB in Y. destruct (nth_error ienv a) as [i|]; [|destruct X]. destruct (nth_error ienv b) as [j|]; [|destruct Y].
        destruct X as [W1 S1], Y as [W2 S2]. destruct (merge_in_at q fuel W2 ltac:(lia) h i j p W1 S1 S2) as (h' & k & -> & S & K).
        apply H; [lia|exact (kept_defaults _ _ K D)|]. apply Forall2_app; [exact (env_kept _ _ _ _ K F)|]. constructor; [|constructor]. split; [exact (wf_merge q p W1 W2)|exact S].
      + destruct (IH env WE) as (N & H). exists N. intros fuel L h ienv D F. cbn [run_in run_values]. rewrite EA, EB. pose proof (forall2_nth _ _ _ _ _ F b) as Y. rewrite EB in Y. destruct (nth_error ienv a); [destruct (nth_error ienv b); [destruct Y|]|]; apply H; assumption.
      + destruct (IH env WE) as (N & H). exists N. intros fuel L h ienv D F. cbn [run_in run_values]. rewrite EA. pose proof (forall2_nth _ _ _ _ _ F a) as Y. rewrite EA in Y. destruct (nth_error ienv a); [destruct Y|]. apply H; assumption.
    - destruct (nth_error env a) as [p|] eqn:EA.
      + destruct (IH env WE) as (N & H). assert (W : wf p) by (rewrite Forall_forall in WE; apply WE; exact (nth_error_In _ _ EA)).
        destruct (map_path_shows M fullmatch expand p path W) as (N2 & H2). exists (Nat.max N N2). intros fuel L h ienv D F. cbn [run_in run_values]. rewrite EA. pose proof (forall2_nth _ _ _ _ _ F a) as X. rewrite EA in X. destruct (nth_error ienv a) as [i|]; [|destruct X]. destruct X as [_ S].
          destruct (H2 fuel ltac:(lia) h i S) as (h' & -> & K). f_equal. apply H; [lia|exact (kept_defaults _ _ K D)|exact (env_kept _ _ _ _ K F)].
      + destruct (IH env WE) as (N & H). exists N. intros fuel L h ienv D F. cbn [run_in run_values]. rewrite EA. pose proof (forall2_nth _ _ _ _ _ F a) as Y. rewrite EA in Y. destruct (nth_error ienv a); [destruct Y|]. apply H; assumption.
  Qed.
  Theorem runs_alike : forall prog, exists N, forall fuel, N <= fuel -> run_in M fullmatch expand compiles fuel start [] prog = run_values M fullmatch expand compiles [] prog.
  Proof. intros prog. destruct (runs_alike_at prog [] (Forall_nil _)) as (N & H). exists N. intros fuel L. apply H; [exact L|split; reflexivity|constructor]. Qed.
End Programs.
