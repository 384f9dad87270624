From Coq Require Import String.
From Verif Require Import PyBase PyBase_Proofs Json JsonPointer_Model JsonPointer_Spec
  JsonPointer_Proofs Paths_Model Paths_Spec Paths_Proofs Pmod_Model Pmod_Spec Pmod_Proofs PmodMap_Proofs.

Definition dtag (s : pystr) : dstep :=
  if starts_with (lit "~") s then DRegex (skipn 1 s) else DName s.

Lemma starts_with_tilde : forall a, starts_with (lit "~") a = true <-> exists a', a = 126%N :: a'.
Proof.
  intros [|c a]; unfold starts_with; rewrite str_eqb_eq; cbn [lit length firstn].
  - split; [discriminate|]. intros (a' & E). discriminate.
  - change (map Ascii.N_of_ascii (list_ascii_of_string "~")) with [126%N]. split.
    + intro E. inversion E; subst. exists a. reflexivity.
    + intros (a' & E). inversion E; subst. reflexivity.
Qed.

Lemma dstep_of_dtag : forall s d, dstep_of s d <-> dtag s = d.
Proof.
  intros s d. unfold dtag. split.
  - intros [r|n H].
    + replace (starts_with (lit "~") (126%N :: r)) with true by (symmetry; apply starts_with_tilde; eauto).
      reflexivity.
    + destruct (starts_with (lit "~") n) eqn:E; [|reflexivity].
      apply starts_with_tilde in E. destruct E as (a & ->). destruct (H a). reflexivity.
  - intros <-. destruct (starts_with (lit "~") s) eqn:E.
    + apply starts_with_tilde in E. destruct E as (a & ->). constructor.
    + constructor. intros r ->.
      assert (F : starts_with (lit "~") (126%N :: r) = true) by (apply starts_with_tilde; eauto). congruence.
Qed.

Lemma Forall2_dtag : forall ss ds, Forall2 dstep_of ss ds <-> map dtag ss = ds.
Proof.
  induction ss as [|s ss IH]; intro ds; split; intro H.
  - inversion H; reflexivity.
  - subst; constructor.
  - inversion H as [|? d ? ds' H1 H2]; subst. apply dstep_of_dtag in H1. apply IH in H2. simpl. congruence.
  - simpl in H. subst. constructor; [apply dstep_of_dtag; reflexivity|]. apply IH. reflexivity.
Qed.

Lemma declares_iter : forall f ds, declares f ds <-> map dtag (iter_parts_relaxed f) = ds.
Proof.
  intros f ds. unfold declares. split.
  - intros (ss & Hs & Hd). apply steps_of_iter in Hs. apply Forall2_dtag in Hd. congruence.
  - intro H. exists (iter_parts_relaxed f). split; [apply steps_of_iter; reflexivity|].
    apply Forall2_dtag. exact H.
Qed.

Ltac wfget :=
  match goal with
  | H : wf ?p, E : pget ?k (p_steps ?p) = Some ?c |- wf ?c => exact (wf_get_steps p k c H E)
  | H : wf ?p, E : pget ?k (p_regxs ?p) = Some ?c |- wf ?c => exact (wf_get_regxs p k c H E)
  end.

(** ** Walking along declared steps *)

Definition tget (p : pmod) (d : dstep) : option pmod :=
  match d with DName n => pget n (p_steps p) | DRegex r => pget r (p_regxs p) end.
Fixpoint nget (p : pmod) (ds : list dstep) : option pmod :=
  match ds with
  | [] => Some p
  | d :: ds' => match tget p d with Some c => nget c ds' | None => None end
  end.

Lemma wf_tget : forall p d c, wf p -> tget p d = Some c -> wf c.
Proof.
  intros p [n|r] c Hw H; cbn in H; wfget.
Qed.

Lemma node_at_nget : forall ds p q, wf p -> (node_at p ds q <-> nget p ds = Some q).
Proof.
  induction ds as [|d ds IH]; intros p q Hw; cbn [nget].
  - split; [intro H; inversion H; reflexivity|intro H; inversion H; constructor].
  - split.
    + intro H. inversion H as [|? n c ? ? Hc Hn|? r c ? ? Hc Hn]; subst.
      * apply child_get in Hc; [|exact Hw]. cbn [tget]. rewrite Hc. apply IH; [|exact Hn].
        wfget.
      * apply rchild_get in Hc; [|exact Hw]. cbn [tget]. rewrite Hc. apply IH; [|exact Hn].
        wfget.
    + intro H. destruct (tget p d) as [c|] eqn:E; [|discriminate].
      apply IH in H; [|eapply wf_tget; eassumption].
      destruct d as [n|r]; cbn in E.
      * econstructor; [apply child_get; eassumption|exact H].
      * eapply Na_regex; [apply rchild_get; eassumption|exact H].
Qed.

Definition dstep_eq_dec : forall a b : dstep, {a = b} + {a <> b}.
Proof. repeat decide equality. Defined.
Definition dsteps_eq_dec : forall a b : list dstep, {a = b} + {a <> b} := list_eq_dec dstep_eq_dec.

Lemma ddel_absent : forall (k : pystr) (d : list (pystr * pmod)), ~ In k (map fst d) -> ddel str_eqb k d = d.
Proof.
  induction d as [|[k' v] d IH]; intro H; cbn; [reflexivity|].
  destruct (str_eqb_spec k k') as [->|Hn]; [exfalso; apply H; left; reflexivity|].
  f_equal. apply IH. intro; apply H; right; assumption.
Qed.

Lemma ddel_keys : forall (k : pystr) (d : list (pystr * pmod)),
  map fst (ddel str_eqb k d) = filter (fun x => negb (str_eqb k x)) (map fst d).
Proof.
  induction d as [|[k' v] d IH]; cbn; [reflexivity|].
  destruct (str_eqb k k'); cbn; rewrite IH; reflexivity.
Qed.

Lemma NoDup_snoc : forall (l : list pystr) x, NoDup l -> ~ In x l -> NoDup (l ++ [x]).
Proof.
  intros l x H Hn. apply NoDup_app'; [exact H|constructor; [intros []|constructor]|].
  intros y Hy [<-|[]]. contradiction.
Qed.

Section Compiles.
  Variable compiles : pystr -> bool.
  Notation add_path := (add_path compiles).

  (** One step of [add_path]. *)
  Lemma add_path_step : forall p s ss t p', add_path p (s :: ss) t = Some p' ->
    exists c', add_path (match tget p (dtag s) with Some c => c | None => empty_pmod end) ss t = Some c'
    /\ p_alias p' = p_alias p
    /\ match dtag s with
       | DName n => p_steps p' = pset n c' (p_steps p) /\ p_regxs p' = p_regxs p
       | DRegex r => compiles r = true /\ p_steps p' = p_steps p
                     /\ p_regxs p' = ddel str_eqb r (p_regxs p) ++ [(r, c')]
       end.
  Proof.
    intros p s ss t p' H. cbn [Pmod_Model.add_path] in H. unfold dtag.
    destruct (starts_with (lit "~") s); cbn [tget].
    - destruct (compiles (skipn 1 s)) eqn:Ec; [|discriminate].
      destruct (add_path (match pget (skipn 1 s) (p_regxs p) with Some c => c | None => empty_pmod end) ss t)
        as [c|] eqn:E; [|discriminate].
      inversion H; subst. exists c. cbn. auto.
    - destruct (add_path (match pget s (p_steps p) with Some c => c | None => empty_pmod end) ss t)
        as [c|] eqn:E; [|discriminate].
      inversion H; subst. exists c. cbn. auto.
  Qed.

  Lemma wf_empty : wf empty_pmod.
  Proof. constructor; try constructor; intros k c []. Qed.

  Lemma add_path_wf : forall ss p t p', wf p -> add_path p ss t = Some p' -> wf p'.
  Proof.
    induction ss as [|s ss IH]; intros p t p' Hw H.
    - cbn in H. inversion H; subst. apply wf_inv in Hw. destruct Hw as (A & B & C & D). constructor; assumption.
    - apply add_path_step in H. destruct H as (c' & Hc & Ha & H).
      assert (Hc' : wf c').
      { eapply IH; [|exact Hc]. destruct (tget p (dtag s)) as [c|] eqn:E; [exact (wf_tget _ _ _ Hw E)|apply wf_empty]. }
      pose proof (wf_inv _ Hw) as (A & B & C & D).
      destruct (dtag s) as [n|r].
      + destruct H as [E1 E2]. apply wf_intro; rewrite ?E1, ?E2.
        * apply NoDup_dset; [exact str_eqb_eq|exact A].
        * exact B.
        * intros k c E. destruct (str_eqb_spec k n) as [->|Hn].
          -- rewrite dget_dset_eq in E by exact str_eqb_eq. inversion E; subst. exact Hc'.
          -- rewrite dget_dset_neq in E by (exact str_eqb_eq || congruence). wfget.
        * intros k c E. wfget.
      + destruct H as (_ & E1 & E2). apply wf_intro; rewrite ?E1, ?E2.
        * exact A.
        * rewrite map_app, ddel_keys. cbn [map fst]. apply NoDup_snoc; [apply NoDup_filter; exact B|].
          intro Hin. apply filter_In in Hin. destruct Hin as [_ Hin]. rewrite str_eqb_refl in Hin. discriminate.
        * intros k c E. wfget.
        * intros k c E. rewrite dget_app in E. destruct (str_eqb_spec k r) as [->|Hn].
          -- rewrite dget_ddel_eq in E by exact str_eqb_eq. cbn in E. rewrite str_eqb_refl in E.
             inversion E; subst. exact Hc'.
          -- rewrite dget_ddel_neq in E by (exact str_eqb_eq || congruence). cbn in E.
             rewrite (proj2 (str_eqb_neq k r) Hn) in E.
             destruct (pget k (p_regxs p)) as [x|] eqn:Ex; inversion E; subst.
             wfget.
  Qed.

  (** Children after a step of [add_path]. *)
  Lemma add_path_tget : forall p s ss t p' e, add_path p (s :: ss) t = Some p' ->
    (e = dtag s /\ exists c', tget p' e = Some c'
       /\ add_path (match tget p e with Some c => c | None => empty_pmod end) ss t = Some c')
    \/ (e <> dtag s /\ tget p' e = tget p e).
  Proof.
    intros p s ss t p' e H. apply add_path_step in H. destruct H as (c' & Hc & Ha & H).
    destruct (dstep_eq_dec e (dtag s)) as [->|Hne].
    - left. split; [reflexivity|]. exists c'. split; [|exact Hc].
      destruct (dtag s) as [n|r]; cbn [tget].
      + destruct H as [-> _]. apply dget_dset_eq. exact str_eqb_eq.
      + destruct H as (_ & _ & ->). rewrite dget_app, dget_ddel_eq by exact str_eqb_eq. cbn.
        rewrite str_eqb_refl. reflexivity.
    - right. split; [exact Hne|].
      destruct (dtag s) as [n|r]; destruct e as [n'|r']; cbn [tget].
      + destruct H as [-> _]. apply dget_dset_neq; [exact str_eqb_eq|congruence].
      + destruct H as [_ ->]. reflexivity.
      + destruct H as (_ & -> & _). reflexivity.
      + destruct H as (_ & _ & ->). rewrite dget_app, dget_ddel_neq by (exact str_eqb_eq || congruence). cbn.
        rewrite (proj2 (str_eqb_neq r' r)) by congruence. destruct (pget r' (p_regxs p)); reflexivity.
  Qed.

  Definition prefix (a b : list dstep) : Prop := exists c, b = a ++ c.

  Lemma nget_empty : forall es, nget empty_pmod es = match es with [] => Some empty_pmod | _ => None end.
  Proof. intros [|[n|r] es]; reflexivity. Qed.

  Definition nalias (p : pmod) (es : list dstep) : option pystr :=
    match nget p es with Some q => p_alias q | None => None end.
  Definition rkeys (p : pmod) (es : list dstep) : list pystr :=
    match nget p es with Some q => map fst (p_regxs q) | None => [] end.

  Lemma child_or_empty : forall p e es, es <> [] ->
    nget (match tget p e with Some c => c | None => empty_pmod end) es = nget p (e :: es).
  Proof.
    intros p e es Hne. cbn [nget]. destruct (tget p e); [reflexivity|].
    rewrite nget_empty. destruct es; [congruence|reflexivity].
  Qed.
  Lemma child_or_empty_alias : forall p e es,
    nalias (match tget p e with Some c => c | None => empty_pmod end) es = nalias p (e :: es).
  Proof.
    intros p e es. unfold nalias. cbn [nget]. destruct (tget p e); [reflexivity|].
    rewrite nget_empty. destruct es; reflexivity.
  Qed.
  Lemma child_or_empty_rkeys : forall p e es,
    rkeys (match tget p e with Some c => c | None => empty_pmod end) es = rkeys p (e :: es).
  Proof.
    intros p e es. unfold rkeys. cbn [nget]. destruct (tget p e); [reflexivity|].
    rewrite nget_empty. destruct es; reflexivity.
  Qed.

  Lemma add_path_exists : forall ss p t p' es, add_path p ss t = Some p' ->
    (nget p' es <> None <-> nget p es <> None \/ prefix es (map dtag ss)).
  Proof.
    induction ss as [|s ss IH]; intros p t p' es H.
    - cbn in H. inversion H; subst. destruct es as [|e es]; cbn [nget].
      + split; [intros _; left; discriminate|discriminate].
      + assert (E : tget (Pmod (Some t) (p_steps p) (p_regxs p)) e = tget p e) by (destruct e; reflexivity).
        rewrite E. split; [auto|]. intros [H1|(c & H1)]; [exact H1|discriminate].
    - destruct es as [|e es]; cbn [nget map].
      { split; [intros _; left; discriminate|discriminate]. }
      destruct (add_path_tget _ _ _ _ _ e H) as [(-> & c' & Et & Hc)|(Hne & Et)].
      + rewrite Et. rewrite (IH _ _ _ es Hc).
        assert (Hp : prefix (dtag s :: es) (dtag s :: map dtag ss) <-> prefix es (map dtag ss)).
        { split; intros (c & E); exists c; [inversion E; reflexivity|cbn; congruence]. }
        rewrite Hp. destruct (tget p (dtag s)) as [c|]; [reflexivity|].
        rewrite nget_empty. destruct es as [|e es].
        * split; [intros _; right; exists (map dtag ss); reflexivity|intros _; left; discriminate].
        * reflexivity.
      + rewrite Et. split; [auto|]. intros [H1|(c & H1)]; [exact H1|]. inversion H1; subst. congruence.
  Qed.

  Lemma add_path_alias : forall ss p t p' es, add_path p ss t = Some p' ->
    nalias p' es = if dsteps_eq_dec es (map dtag ss) then Some t else nalias p es.
  Proof.
    induction ss as [|s ss IH]; intros p t p' es H.
    - cbn in H. inversion H; subst. destruct es as [|e es]; [reflexivity|].
      cbn [map]. destruct (dsteps_eq_dec (e :: es) []) as [E|_]; [discriminate|].
      unfold nalias. cbn [nget].
      assert (E : tget (Pmod (Some t) (p_steps p) (p_regxs p)) e = tget p e) by (destruct e; reflexivity).
      rewrite E. reflexivity.
    - destruct es as [|e es].
      + cbn [map]. destruct (dsteps_eq_dec [] (dtag s :: map dtag ss)) as [E|_]; [discriminate|].
        apply add_path_step in H. destruct H as (c' & _ & Ha & _). exact Ha.
      + destruct (add_path_tget _ _ _ _ _ e H) as [(-> & c' & Et & Hc)|(Hne & Et)].
        * rewrite <- child_or_empty_alias. rewrite Et. rewrite (IH _ _ _ es Hc).
          rewrite child_or_empty_alias. cbn [map].
          destruct (dsteps_eq_dec es (map dtag ss)) as [->|Hne];
            destruct (dsteps_eq_dec (dtag s :: _) (dtag s :: map dtag ss)) as [E|E];
            try congruence; reflexivity.
        * unfold nalias. cbn [nget map]. rewrite Et.
          destruct (dsteps_eq_dec (e :: es) (dtag s :: map dtag ss)) as [E|_]; [congruence|reflexivity].
  Qed.

  Definition move_last (r : pystr) (l : list pystr) : list pystr :=
    filter (fun x => negb (str_eqb r x)) l ++ [r].

  (** The regex of the step after [es], if [es] leads there. *)
  Fixpoint next_regex (es ds : list dstep) : option pystr :=
    match es, ds with
    | [], DRegex r :: _ => Some r
    | e :: es', d :: ds' => if dstep_eq_dec e d then next_regex es' ds' else None
    | _, _ => None
    end.

  Lemma next_regex_spec : forall es ds r, next_regex es ds = Some r <-> exists more, ds = es ++ DRegex r :: more.
  Proof.
    induction es as [|e es IH]; intros ds r.
    - destruct ds as [|[n|r'] ds]; cbn; split; try discriminate.
      + intros (m & E); discriminate.
      + intros (m & E); discriminate.
      + intro E; inversion E; subst. exists ds. reflexivity.
      + intros (m & E). inversion E; subst. reflexivity.
    - destruct ds as [|d ds]; cbn; [split; [discriminate|intros (m & E); discriminate]|].
      destruct (dstep_eq_dec e d) as [->|Hn].
      + rewrite IH. split; intros (m & E); exists m; [congruence|inversion E; reflexivity].
      + split; [discriminate|]. intros (m & E). inversion E. congruence.
  Qed.

  Lemma add_path_rkeys : forall ss p t p' es, add_path p ss t = Some p' ->
    rkeys p' es = match next_regex es (map dtag ss) with
                  | Some r => move_last r (rkeys p es)
                  | None => rkeys p es
                  end.
  Proof.
    induction ss as [|s ss IH]; intros p t p' es H.
    - cbn in H. inversion H; subst. destruct es as [|e es]; [reflexivity|].
      cbn [map next_regex]. unfold rkeys. cbn [nget].
      assert (E : tget (Pmod (Some t) (p_steps p) (p_regxs p)) e = tget p e) by (destruct e; reflexivity).
      rewrite E. reflexivity.
    - destruct es as [|e es].
      + apply add_path_step in H. destruct H as (c' & _ & _ & H). unfold rkeys. cbn [nget map next_regex].
        destruct (dtag s) as [n|r].
        * destruct H as [_ ->]. reflexivity.
        * destruct H as (_ & _ & ->). rewrite map_app, ddel_keys. reflexivity.
      + cbn [map next_regex].
        destruct (add_path_tget _ _ _ _ _ e H) as [(-> & c' & Et & Hc)|(Hne & Et)].
        * rewrite <- child_or_empty_rkeys. rewrite Et. rewrite (IH _ _ _ es Hc).
          rewrite child_or_empty_rkeys. destruct (dstep_eq_dec (dtag s) (dtag s)) as [_|E]; [reflexivity|congruence].
        * destruct (dstep_eq_dec e (dtag s)) as [E|_]; [congruence|]. unfold rkeys. cbn [nget]. rewrite Et.
          reflexivity.
  Qed.

  (** ** All the tuples *)

  Fixpoint add_all (p : pmod) (l : list (list pystr * pystr)) : option pmod :=
    match l with
    | [] => Some p
    | (ss, t) :: l' => match add_path p ss t with Some p' => add_all p' l' | None => None end
    end.

  Definition kept (ts : list (option pystr * option pystr)) : list (list pystr * pystr) :=
    flat_map (fun ft => match ft with
                        | (Some f, Some t) => if str_eqb f [] && str_eqb t [] then []
                                              else [(iter_parts_relaxed f, t)]
                        | _ => []
                        end) ts.

  Lemma add_tuples_all : forall ts p, add_tuples compiles p ts =
    match add_all p (kept ts) with Some q => Ok q | None => Raise ReError end.
  Proof.
    induction ts as [|[[f|] [t|]] ts IH]; intro p; cbn; [reflexivity| |apply IH|apply IH|apply IH].
    destruct (str_eqb f [] && str_eqb t []); [apply IH|]. cbn.
    destruct (add_path p (iter_parts_relaxed f) t); [apply IH|reflexivity].
  Qed.

  Definition dtagged (x : list pystr * pystr) : list dstep * pystr := (map dtag (fst x), snd x).

  Lemma counted_kept : forall ts l, counted ts l <-> map dtagged (kept ts) = l.
  Proof.
    induction ts as [|[[f|] [t|]] ts IH]; intro l.
    - split; [intro H; inversion H; reflexivity|intros <-; constructor].
    - cbn [kept flat_map]. split.
      + intro H. inversion H as [|? ? ? ds l' Hb Hd Hc| ? ? Hc| |]; subst.
        * destruct (str_eqb_spec f []) as [Ef|Ef]; destruct (str_eqb_spec t []) as [Et|Et]; cbn [andb app map];
            try (exfalso; apply Hb; auto; fail);
            apply IH in Hc; apply declares_iter in Hd; fold (kept ts); unfold dtagged at 1; cbn [fst snd]; congruence.
        * cbn [str_eqb andb app]. apply IH. exact Hc.
      + destruct (str_eqb_spec f []) as [Ef|Ef]; destruct (str_eqb_spec t []) as [Et|Et]; cbn [andb app map]; intros <-.
        * subst. apply Ct_blank. apply IH. reflexivity.
        * apply Ct_keep; [tauto|apply declares_iter; reflexivity|apply IH; reflexivity].
        * apply Ct_keep; [tauto|apply declares_iter; reflexivity|apply IH; reflexivity].
        * apply Ct_keep; [tauto|apply declares_iter; reflexivity|apply IH; reflexivity].
    - cbn [kept flat_map app]. fold (kept ts). split.
      + intro H. inversion H; subst; apply IH; assumption.
      + intro H. apply Ct_none_t. apply IH. exact H.
    - cbn [kept flat_map app]. fold (kept ts). split.
      + intro H. inversion H; subst; apply IH; assumption.
      + intro H. apply Ct_none_f. apply IH. exact H.
    - cbn [kept flat_map app]. fold (kept ts). split.
      + intro H. inversion H; subst; apply IH; assumption.
      + intro H. apply Ct_none_t. apply IH. exact H.
  Qed.

  Lemma add_all_wf : forall l p p', wf p -> add_all p l = Some p' -> wf p'.
  Proof.
    induction l as [|[ss t] l IH]; intros p p' Hw H; cbn in H; [inversion H; subst; exact Hw|].
    destruct (add_path p ss t) as [p1|] eqn:E; [|discriminate].
    eapply IH; [|exact H]. eapply add_path_wf; eassumption.
  Qed.

  Lemma add_all_exists : forall l p p' es, add_all p l = Some p' ->
    (nget p' es <> None <->
     nget p es <> None \/ exists dt, In dt (map dtagged l) /\ prefix es (fst dt)).
  Proof.
    induction l as [|[ss t] l IH]; intros p p' es H; cbn [add_all map] in *.
    - inversion H; subst. split; [auto|]. intros [H1|(dt & [] & _)]. exact H1.
    - destruct (add_path p ss t) as [p1|] eqn:E; [|discriminate].
      rewrite (IH _ _ es H). rewrite (add_path_exists _ _ _ _ es E). split.
      + intros [[H1|H1]|(dt & Hin & Hp)]; [auto| |].
        * right. exists (dtagged (ss, t)). split; [left; reflexivity|exact H1].
        * right. exists dt. split; [right; exact Hin|exact Hp].
      + intros [H1|(dt & [<-|Hin] & Hp)]; [auto|auto|]. right. exists dt. auto.
  Qed.

  Lemma add_all_alias : forall l p p' es, add_all p l = Some p' ->
    nalias p' es = fold_left (fun a dt => if dsteps_eq_dec es (fst dt) then Some (snd dt) else a)
                     (map dtagged l) (nalias p es).
  Proof.
    induction l as [|[ss t] l IH]; intros p p' es H; cbn [add_all map fold_left] in *.
    - inversion H; subst. reflexivity.
    - destruct (add_path p ss t) as [p1|] eqn:E; [|discriminate].
      rewrite (IH _ _ es H). rewrite (add_path_alias _ _ _ _ es E). reflexivity.
  Qed.

  Lemma add_all_rkeys : forall l p p' es, add_all p l = Some p' ->
    rkeys p' es = fold_left (fun ks dt => match next_regex es (fst dt) with
                                          | Some r => move_last r ks | None => ks end)
                    (map dtagged l) (rkeys p es).
  Proof.
    induction l as [|[ss t] l IH]; intros p p' es H; cbn [add_all map fold_left] in *.
    - inversion H; subst. reflexivity.
    - destruct (add_path p ss t) as [p1|] eqn:E; [|discriminate].
      rewrite (IH _ _ es H). rewrite (add_path_rkeys _ _ _ _ es E). reflexivity.
  Qed.

  Lemma fold_last_alias : forall es (l : list (list dstep * pystr)) t,
    fold_left (fun a dt => if dsteps_eq_dec es (fst dt) then Some (snd dt) else a) l None = Some t <->
    exists l1 l2, l = l1 ++ (es, t) :: l2 /\ forall dt, In dt l2 -> fst dt <> es.
  Proof.
    intros es l. induction l as [|[ds x] l IH] using rev_ind; intro t.
    - split; [discriminate|]. intros (l1 & l2 & E & _). destruct l1; discriminate.
    - rewrite fold_left_app. cbn [fold_left fst snd].
      destruct (dsteps_eq_dec es ds) as [->|Hn].
      + split.
        * intro E. inversion E; subst. exists l, []. split; [reflexivity|intros ? []].
        * intros (l1 & l2 & E & Hl). destruct l2 as [|y l2 _] using rev_ind.
          -- apply app_inj_tail in E. destruct E as [_ E]. inversion E; reflexivity.
          -- exfalso. rewrite app_comm_cons, app_assoc in E. apply app_inj_tail in E. destruct E as [_ <-].
             apply (Hl (ds, x)); [apply in_or_app; right; left; reflexivity|reflexivity].
      + rewrite IH. split.
        * intros (l1 & l2 & -> & Hl). exists l1, (l2 ++ [(ds, x)]).
          split; [rewrite <- app_assoc; reflexivity|].
          intros dt Hin. apply in_app_or in Hin. destruct Hin as [Hin|[<-|[]]]; [apply Hl; exact Hin|cbn; congruence].
        * intros (l1 & l2 & E & Hl). destruct l2 as [|y l2 _] using rev_ind.
          -- apply app_inj_tail in E. destruct E as [_ E]. inversion E; congruence.
          -- rewrite app_comm_cons, app_assoc in E. apply app_inj_tail in E. destruct E as [-> <-].
             exists l1, l2. split; [reflexivity|]. intros dt Hin. apply Hl. apply in_or_app. left; exact Hin.
  Qed.

  Lemma empty_rkeys : forall es, rkeys empty_pmod es = [].
  Proof. intro es. unfold rkeys. rewrite nget_empty. destruct es; reflexivity. Qed.
  Lemma empty_nalias : forall es, nalias empty_pmod es = None.
  Proof. intro es. unfold nalias. rewrite nget_empty. destruct es; reflexivity. Qed.

  (** The order of the regexes. *)

  Lemma before_snoc : forall l x r1 r2, before (l ++ [x]) r1 r2 <-> before l r1 r2 \/ (In r1 l /\ r2 = x).
  Proof.
    intros l x r1 r2. split.
    - intros (a & b & c & E). destruct c as [|d c _] using rev_ind.
      + right. rewrite app_comm_cons, app_assoc in E. apply app_inj_tail in E. destruct E as [-> ->].
        split; [apply in_or_app; right; left; reflexivity|reflexivity].
      + left. replace (a ++ r1 :: b ++ r2 :: c ++ [d]) with ((a ++ r1 :: b ++ r2 :: c) ++ [d]) in E
          by (rewrite <- app_assoc; cbn; rewrite <- app_assoc; reflexivity).
        apply app_inj_tail in E. destruct E as [-> _]. exists a, b, c. reflexivity.
    - intros [(a & b & c & ->)|[Hin ->]].
      + exists a, b, (c ++ [x]). rewrite <- app_assoc. cbn. rewrite <- app_assoc. reflexivity.
      + apply in_split in Hin. destruct Hin as (a & b & ->). exists a, b, []. rewrite <- app_assoc. reflexivity.
  Qed.

  Lemma move_last_In : forall r l x, In x (move_last r l) <-> In x l \/ x = r.
  Proof.
    intros r l x. unfold move_last. rewrite in_app_iff, filter_In. cbn.
    destruct (str_eqb_spec r x) as [<-|Hn]; cbn; [tauto|]. split; [tauto|].
    intros [H|H]; [auto|congruence].
  Qed.

  Lemma move_last_NoDup : forall r l, NoDup l -> NoDup (move_last r l).
  Proof.
    intros r l H. unfold move_last. apply NoDup_snoc; [apply NoDup_filter; exact H|].
    intro Hin. apply filter_In in Hin. destruct Hin as [_ Hin]. rewrite str_eqb_refl in Hin. discriminate.
  Qed.

  Lemma rkeys_fold_In : forall es (l : list (list dstep * pystr)) r,
    In r (fold_left (fun ks dt => match next_regex es (fst dt) with
                                  | Some r => move_last r ks | None => ks end) l []) <->
    exists dt, In dt l /\ mentions es r dt.
  Proof.
    intros es l r. induction l as [|dt l IH] using rev_ind.
    - split; [intros []|intros (dt & [] & _)].
    - rewrite fold_left_app. cbn [fold_left].
      destruct (next_regex es (fst dt)) as [r'|] eqn:E.
      + rewrite move_last_In, IH. apply next_regex_spec in E. split.
        * intros [(d & Hin & Hm)| ->].
          -- exists d. split; [apply in_or_app; left; exact Hin|exact Hm].
          -- exists dt. split; [apply in_or_app; right; left; reflexivity|exact E].
        * intros (d & Hin & Hm). apply in_app_or in Hin. destruct Hin as [Hin|[<-|[]]].
          -- left. exists d. auto.
          -- right. destruct Hm as (m & Hm). destruct E as (m' & E). rewrite E in Hm.
             apply app_inv_head in Hm. inversion Hm. reflexivity.
      + rewrite IH. split.
        * intros (d & Hin & Hm). exists d. split; [apply in_or_app; left; exact Hin|exact Hm].
        * intros (d & Hin & Hm). apply in_app_or in Hin. destruct Hin as [Hin|[<-|[]]]; [exists d; auto|].
          exfalso. apply next_regex_spec in Hm. congruence.
  Qed.

  Lemma rkeys_fold_order : forall es (l : list (list dstep * pystr)),
    let ks := fold_left (fun ks dt => match next_regex es (fst dt) with
                                      | Some r => move_last r ks | None => ks end) l [] in
    NoDup ks /\ forall r1 r2, before ks r1 r2 -> later_mentioned l es r1 r2.
  Proof.
    intros es l. induction l as [|dt l IH] using rev_ind.
    - cbn. split; [constructor|]. intros r1 r2 (x & y & z & E). destruct x; discriminate.
    - cbn zeta in *. rewrite fold_left_app. cbn [fold_left].
      set (ks := fold_left _ l []) in *. destruct IH as [Hnd IH].
      destruct (next_regex es (fst dt)) as [r|] eqn:E.
      + split; [apply move_last_NoDup; exact Hnd|]. intros r1 r2 H. unfold move_last in H.
        apply before_snoc in H. destruct H as [H|[H1 ->]].
        * destruct H as (x & y & z & Eq).
          assert (H1 : In r1 (filter (fun x => negb (str_eqb r x)) ks)).
          { rewrite Eq. apply in_or_app. right; left; reflexivity. }
          apply filter_order in Eq. apply IH in Eq.
          destruct Eq as (l1 & d & l2 & -> & Hm & Hl). exists l1, d, (l2 ++ [dt]).
          split; [rewrite <- app_assoc; reflexivity|]. split; [exact Hm|].
          intros d' Hin. apply in_app_or in Hin. destruct Hin as [Hin|[<-|[]]]; [apply Hl; exact Hin|].
          intro Hm'. apply next_regex_spec in Hm'. assert (r1 = r) by congruence. subst.
          apply filter_In in H1. destruct H1 as [_ H1]. rewrite str_eqb_refl in H1. discriminate.
        * exists l, dt, []. split; [reflexivity|]. split; [apply next_regex_spec in E; exact E|intros ? []].
      + split; [exact Hnd|]. intros r1 r2 H. apply IH in H. destruct H as (l1 & d & l2 & -> & Hm & Hl).
        exists l1, d, (l2 ++ [dt]). split; [rewrite <- app_assoc; reflexivity|]. split; [exact Hm|].
        intros d' Hin. apply in_app_or in Hin. destruct Hin as [Hin|[<-|[]]]; [apply Hl; exact Hin|].
        intro Hm'. apply next_regex_spec in Hm'. congruence.
  Qed.

  (** ** The properties *)

  Notation pmods_from_tuples := (pmods_from_tuples compiles).

  Lemma pft_inv : forall ts p, pmods_from_tuples ts = Ok p -> add_all empty_pmod (kept ts) = Some p.
  Proof.
    intros ts p H. unfold Pmod_Model.pmods_from_tuples in H. rewrite add_tuples_all in H.
    destruct (add_all empty_pmod (kept ts)); inversion H; reflexivity.
  Qed.

  Lemma pft_wf : forall ts p, pmods_from_tuples ts = Ok p -> wf p.
  Proof. intros ts p H. apply pft_inv in H. eapply add_all_wf; [apply wf_empty|exact H]. Qed.

  Lemma pft_exists : forall ts l p ds, counted ts l -> pmods_from_tuples ts = Ok p ->
    ((exists q, node_at p ds q) <-> ds = [] \/ exists more t, In (ds ++ more, t) l).
  Proof.
    intros ts l p ds Hc H. pose proof (pft_wf _ _ H) as Hw. apply pft_inv in H.
    apply counted_kept in Hc. pose proof (add_all_exists _ _ _ ds H) as He. rewrite Hc in He.
    assert (E1 : (exists q, node_at p ds q) <-> nget p ds <> None).
    { split.
      - intros (q & Hq). apply node_at_nget in Hq; [congruence|exact Hw].
      - destruct (nget p ds) as [q|] eqn:E; [|congruence]. intros _. exists q.
        apply node_at_nget; assumption. }
    rewrite E1, He. split.
    - intros [H1|([d t] & Hin & (m & Em))].
      + left. rewrite nget_empty in H1. destruct ds; [reflexivity|congruence].
      + right. exists m, t. cbn in Em. rewrite <- Em. exact Hin.
    - intros [->|(m & t & Hin)]; [left; discriminate|]. right. exists (ds ++ m, t). split; [exact Hin|].
      exists m. reflexivity.
  Qed.

  Lemma pft_alias : forall ts l p ds q t, counted ts l -> pmods_from_tuples ts = Ok p ->
    node_at p ds q ->
    (p_alias q = Some t <->
     exists l1 l2, l = l1 ++ (ds, t) :: l2 /\ forall dt, In dt l2 -> fst dt <> ds).
  Proof.
    intros ts l p ds q t Hc H Hn. pose proof (pft_wf _ _ H) as Hw. apply pft_inv in H.
    apply counted_kept in Hc. pose proof (add_all_alias _ _ _ ds H) as He. rewrite Hc, empty_nalias in He.
    apply node_at_nget in Hn; [|exact Hw]. unfold nalias in He. rewrite Hn in He. rewrite He.
    apply fold_last_alias.
  Qed.

  Lemma pft_regxs : forall ts l p ds q, counted ts l -> pmods_from_tuples ts = Ok p ->
    node_at p ds q ->
    NoDup (map fst (p_regxs q))
    /\ (forall r, In r (map fst (p_regxs q)) <-> exists dt, In dt l /\ mentions ds r dt)
    /\ (forall r1 r2, before (map fst (p_regxs q)) r1 r2 -> later_mentioned l ds r1 r2).
  Proof.
    intros ts l p ds q Hc H Hn. pose proof (pft_wf _ _ H) as Hw. apply pft_inv in H.
    apply counted_kept in Hc. pose proof (add_all_rkeys _ _ _ ds H) as He. rewrite Hc, empty_rkeys in He.
    apply node_at_nget in Hn; [|exact Hw]. unfold rkeys in He. rewrite Hn in He. rewrite He.
    destruct (rkeys_fold_order ds l) as [H1 H2].
    split; [exact H1|]. split; [intro r; apply rkeys_fold_In|exact H2].
  Qed.

  Lemma add_path_none : forall ss p t, add_path p ss t = None <->
    exists r, In (DRegex r) (map dtag ss) /\ compiles r = false.
  Proof.
    induction ss as [|s ss IH]; intros p t; cbn [Pmod_Model.add_path map].
    - split; [discriminate|]. intros (r & [] & _).
    - unfold dtag at 1. destruct (starts_with (lit "~") s).
      + destruct (compiles (skipn 1 s)) eqn:Ec.
        * destruct (add_path _ ss t) as [c|] eqn:E.
          -- split; [discriminate|]. intros (r & [Hr|Hr] & Hf); [inversion Hr; subst; congruence|].
             exfalso. assert (X : add_path (match pget (skipn 1 s) (p_regxs p) with Some c => c | None => empty_pmod end) ss t = None)
               by (apply IH; exists r; auto). congruence.
          -- split; [intros _|reflexivity]. apply IH in E. destruct E as (r & Hr & Hf). exists r. split; [right; exact Hr|exact Hf].
        * split; [intros _|reflexivity]. exists (skipn 1 s). split; [left; reflexivity|exact Ec].
      + destruct (add_path _ ss t) as [c|] eqn:E.
        * split; [discriminate|]. intros (r & [Hr|Hr] & Hf); [discriminate|].
          exfalso. assert (X : add_path (match pget s (p_steps p) with Some c => c | None => empty_pmod end) ss t = None)
            by (apply IH; exists r; auto). congruence.
        * split; [intros _|reflexivity]. apply IH in E. destruct E as (r & Hr & Hf). exists r. split; [right; exact Hr|exact Hf].
  Qed.

  Lemma pft_raise : forall ts l, counted ts l ->
    ((exists e, pmods_from_tuples ts = Raise e) <->
     exists ds t r, In (ds, t) l /\ In (DRegex r) ds /\ compiles r = false).
  Proof.
    intros ts l Hc. unfold Pmod_Model.pmods_from_tuples. rewrite add_tuples_all.
    apply counted_kept in Hc. subst l. generalize (kept ts) empty_pmod. clear ts.
    induction l as [|[ss t] l IH]; intro p; cbn [add_all map].
    - split; [intros (e & H); discriminate|]. intros (ds & t & r & [] & _).
    - destruct (add_path p ss t) as [p'|] eqn:E.
      + rewrite IH. split.
        * intros (ds & t' & r & Hin & Hr & Hf). exists ds, t', r. split; [right; exact Hin|auto].
        * intros (ds & t' & r & [Hin|Hin] & Hr & Hf); [|exists ds, t', r; auto].
          exfalso. unfold dtagged in Hin. cbn in Hin. inversion Hin; subst.
          assert (X : add_path p ss t' = None) by (apply add_path_none; exists r; auto). congruence.
      + split; [intros _|intros _; exists ReError; reflexivity].
        apply add_path_none in E. destruct E as (r & Hr & Hf). exists (map dtag ss), t, r.
        split; [left; reflexivity|auto].
  Qed.
End Compiles.

(** With the tuples of one level, the alias of a step matched by regexes. *)
Section Precedence.
  Variable M : Type.
  Variable fullmatch : pystr -> pystr -> option M.
  Variable expand : M -> pystr -> res pystr.
  Variable compiles : pystr -> bool.

  Lemma later_wins : forall ts l p ds q step r m t rp,
    counted ts l -> pmods_from_tuples compiles ts = Ok p -> node_at p ds q ->
    (forall c, child q step c -> p_alias c = None) ->
    rchild q r rp -> p_alias rp = Some t -> fullmatch r step = Some m ->
    (forall r' rp', rchild q r' rp' -> r' <> r -> matches M fullmatch r' step -> p_alias rp' <> None ->
       ~ later_mentioned l ds r r') ->
    aliased M fullmatch expand q step (match expand m t with Ok x => Ok (Some x) | Raise e => Raise e end).
  Proof.
    intros ts l p ds q step r m t rp Hc Hp Hn Hch Hr Ha Hm Hlast.
    destruct (pft_regxs compiles ts l p ds q Hc Hp Hn) as (Hnd & _ & Hord).
    apply in_split in Hr. destruct Hr as (l1 & l2 & E).
    eapply A_regex; try eassumption.
    intros r' rp' Hin Hm'.
    destruct (p_alias rp') as [t'|] eqn:Et; [|reflexivity]. exfalso.
    assert (Hne : r' <> r).
    { intros ->. rewrite E, map_app in Hnd. apply NoDup_remove_2 in Hnd. apply Hnd.
      apply in_or_app. right. apply (in_map fst) in Hin. exact Hin. }
    apply (Hlast r' rp'); [unfold rchild; rewrite E; apply in_or_app; right; right; exact Hin|exact Hne|exact Hm'|congruence|].
    apply Hord. rewrite E, map_app. cbn. apply in_split in Hin. destruct Hin as (a & b & ->).
    exists (map fst l1), (map fst a), (map fst b). rewrite map_app. reflexivity.
  Qed.
End Precedence.
