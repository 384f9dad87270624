From Coq Require Import String.
From Verif Require Import PyBase PyBase_Proofs Json Pmod_Model Pmod_Proofs Repr_Model Repr_Spec.

(** Texts that tell what they are of, whatever follows them *)
Definition tells {A} (f : A -> pystr) (a : A) (b : A) : Prop := forall x y, f a ++ x = f b ++ y -> a = b /\ x = y.

Lemma low_digit_inj : forall a b, (a < 16 -> b < 16 -> low_digit a = low_digit b -> a = b)%N.
Proof. intros a b A B. unfold low_digit. destruct (N.ltb_spec a 10), (N.ltb_spec b 10); lia. Qed.
Lemma app_tail : forall A (a b x y : list A), length a = length b -> a ++ x = b ++ y -> a = b /\ x = y.
Proof. intros A. induction a as [|c a IH]; intros [|d b] x y L E; try discriminate L; [auto|]. injection E as -> E. injection L as L. destruct (IH _ _ _ L E) as [-> ->]. auto. Qed.
Lemma digits16_length : forall k n, length (digits16 k n) = k.
Proof. induction k as [|k IH]; intros n; cbn [digits16]; [reflexivity|]. rewrite app_length, IH. cbn. lia. Qed.
Lemma digits16_inj : forall k a b, (a < 16 ^ N.of_nat k -> b < 16 ^ N.of_nat k -> digits16 k a = digits16 k b -> a = b)%N.
Proof.
  induction k as [|k IH]; intros a b A B E.
  - change (16 ^ N.of_nat 0)%N with 1%N in *. lia.
  - rewrite Nat2N.inj_succ, N.pow_succ_r' in A, B. cbn [digits16] in E. apply app_tail in E; [|rewrite !digits16_length; reflexivity]. destruct E as [E1 E2].
    apply IH in E1; [|apply N.div_lt_upper_bound; lia..]. injection E2 as E2. apply low_digit_inj in E2; [|apply N.mod_lt; lia..].
    rewrite (N.div_mod a 16), (N.div_mod b 16) by lia. rewrite E1, E2. reflexivity.
Qed.

Section Repr.
  Variable printable : pychar -> bool.
  Variable flags : pystr -> pystr.
  Notation escaped := (escaped printable). Notation str_repr := (str_repr printable).

  Lemma digits_tell : forall k c d x y, (c < 16 ^ N.of_nat k -> d < 16 ^ N.of_nat k -> digits16 k c ++ x = digits16 k d ++ y -> c = d /\ x = y)%N.
  Proof. intros k c d x y A B E. apply app_tail in E; [|rewrite !digits16_length; reflexivity]. destruct E as [E ->]. split; [|reflexivity]. exact (digits16_inj k c d A B E). Qed.
  Definition meant (e : N) : N := if (e =? 116)%N then 9%N else if (e =? 110)%N then 10%N else if (e =? 114)%N then 13%N else e.
  Inductive form (q c : N) : pystr -> Prop :=
  | f_plain : c <> 92%N -> c <> q -> form q c [c]
  | f_letter : forall e, c = meant e -> e <> 120%N -> e <> 117%N -> e <> 85%N -> form q c [92%N; e]
  | f_two : (c < 256)%N -> form q c (92%N :: 120%N :: digits16 2 c)
  | f_four : (c < 65536)%N -> form q c (92%N :: 117%N :: digits16 4 c)
  | f_eight : (c < 4294967296)%N -> form q c (92%N :: 85%N :: digits16 8 c).
  Lemma escaped_form : forall q c, (q = chr "'" \/ q = chr """") -> (c < 1114112)%N -> form q c (escaped q c).
  Proof.
    intros q c Q C. unfold Repr_Model.escaped. change (chr "\") with 92%N in *. change (chr "'") with 39%N in Q. change (chr """") with 34%N in Q.
    destruct (N.eqb_spec c q) as [E|E1]. { cbn [orb]. subst q. apply f_letter; [unfold meant; destruct Q as [-> | ->]; reflexivity|lia..]. }
    destruct (N.eqb_spec c 92) as [->|E2]. { cbn [orb]. apply f_letter; [reflexivity|vm_compute; discriminate..]. } cbn [orb].
    destruct (N.eqb_spec c 9) as [->|]. { apply f_letter; [reflexivity|vm_compute; discriminate..]. } destruct (N.eqb_spec c 10) as [->|]. { apply f_letter; [reflexivity|vm_compute; discriminate..]. } destruct (N.eqb_spec c 13) as [->|]. { apply f_letter; [reflexivity|vm_compute; discriminate..]. }
    destruct (N.ltb_spec c 32). { apply f_two. lia. } destruct (N.eqb_spec c 127). { apply f_two. lia. } cbn [orb]. destruct (N.ltb_spec c 127). { apply f_plain; assumption. } destruct (printable c). { apply f_plain; assumption. }
    destruct (N.leb_spec c 255). { apply f_two. lia. } destruct (N.leb_spec c 65535). { apply f_four. lia. } apply f_eight. lia.
  Qed.
  Lemma escaped_tells : forall q c d, (q = chr "'" \/ q = chr """") -> (c < 1114112)%N -> (d < 1114112)%N -> tells (escaped q) c d.
  Proof.
    intros q c d Q C D x y E. pose proof (escaped_form q c Q C) as F. pose proof (escaped_form q d Q D) as G.
    assert (P2 : (16 ^ N.of_nat 2 = 256)%N) by reflexivity. assert (P4 : (16 ^ N.of_nat 4 = 65536)%N) by reflexivity. assert (P8 : (16 ^ N.of_nat 8 = 4294967296)%N) by reflexivity.
    remember (escaped q c) as u. remember (escaped q d) as v. clear Hequ Heqv.
    destruct F as [F1 F2|e F1 F2 F3 F4|F|F|F]; destruct G as [G1 G2|e' G1 G2 G3 G4|G|G|G]; cbn [app] in E.
    all: first [discriminate E
      | injection E; clear E; intros; subst; solve [auto | lia | congruence]
      | apply (f_equal (skipn 2)) in E; cbn [skipn] in E; apply digits_tell in E; [exact E|rewrite ?P2, ?P4, ?P8; assumption..]].
  Qed.
  (** The escapes do not begin with the quote. *)
  Lemma escaped_not_quote : forall q c, (q = chr "'" \/ q = chr """") -> (c < 1114112)%N -> exists h t, escaped q c = h :: t /\ h <> q.
  Proof.
    intros q c Q C. assert (N : 92%N <> q) by (intros <-; destruct Q; discriminate). pose proof (escaped_form q c Q C) as F. destruct F; do 2 eexists; (split; [reflexivity|assumption]).
  Qed.
  Lemma body_tells : forall q s s' x y, (q = chr "'" \/ q = chr """") -> is_text s -> is_text s' -> concat (map (escaped q) s) ++ q :: x = concat (map (escaped q) s') ++ q :: y -> s = s' /\ x = y.
  Proof.
    intros q. induction s as [|c s IH]; intros [|d s'] x y Q T T' E; cbn [map concat app] in E.
    - injection E as ->. auto.
    - exfalso. apply Forall_inv in T'. destruct (escaped_not_quote q d Q T') as (h & t & X & N). rewrite X in E. cbn [app] in E. injection E as E _. congruence.
    - exfalso. apply Forall_inv in T. destruct (escaped_not_quote q c Q T) as (h & t & X & N). rewrite X in E. cbn [app] in E. injection E as E _. congruence.
    - rewrite <- !app_assoc in E. destruct (escaped_tells q c d Q (Forall_inv T) (Forall_inv T') _ _ E) as [-> E']. destruct (IH s' x y Q (Forall_inv_tail T) (Forall_inv_tail T') E') as [-> ->]. auto.
  Qed.
  Lemma quote_is : forall s, quote_of s = chr "'" \/ quote_of s = chr """".
  Proof. intros s. unfold quote_of. destruct (_ && _); auto. Qed.
  Theorem str_tells : forall s s', is_text s -> is_text s' -> tells str_repr s s'.
  Proof.
    intros s s' T T' x y E. unfold Repr_Model.str_repr in E. cbn [app] in E. injection E as Q E. rewrite Q in E. rewrite <- !app_assoc in E. cbn [app] in E. exact (body_tells _ _ _ _ _ (quote_is s') T T' E).
  Qed.
  Theorem regex_tells : forall s s', is_text s -> is_text s' -> length (str_repr s) <= 200 -> length (str_repr s') <= 200 -> tells (regex_repr printable flags) s s'.
  Proof.
    intros s s' T T' L L' x y E. unfold regex_repr in E. rewrite !firstn_all2 in E by assumption. rewrite <- !app_assoc in E. apply app_inv_head in E. destruct (str_tells s s' T T' _ _ E) as [-> E']. apply app_inv_head in E'. injection E' as ->. auto.
  Qed.

  Section Items.
    Variable key : pystr -> pystr.
    Variable K : pystr -> Prop.
    Variable key_tells : forall k k', K k -> K k' -> tells key k k'.
    Let item (kc : pystr * pmod) := key (fst kc) ++ lit ": " ++ pmod_repr printable flags (snd kc).
    Lemma items_tell : forall s, (forall k c, In (k, c) s -> K k /\ forall d, in_full printable d -> tells (pmod_repr printable flags) c d) ->
      forall s' x y, s <> [] -> s' <> [] -> (forall k c, In (k, c) s' -> K k /\ in_full printable c) ->
      join (lit ", ") (map item s) ++ lit "}" ++ x = join (lit ", ") (map item s') ++ lit "}" ++ y -> s = s' /\ x = y.
    Proof.
      induction s as [|[k c] s IH]; intros H [|[k' c'] s'] x y N N' H' E; try congruence.
      assert (EE : forall kc l z, join (lit ", ") (map item (kc :: l)) ++ z = item kc ++ match l with [] => z | _ => lit ", " ++ join (lit ", ") (map item l) ++ z end).
      { intros kc l z. destruct l; cbn [map join]; [reflexivity|]. rewrite <- !app_assoc. reflexivity. }
      rewrite !EE in E. clear EE. assert (I1 : forall k c, item (k, c) = key k ++ lit ": " ++ pmod_repr printable flags c) by reflexivity. rewrite !I1, <- !app_assoc in E. clear I1.
      destruct (H k c (or_introl eq_refl)) as [KK T]. destruct (H' k' c' (or_introl eq_refl)) as [KK' F]. destruct (key_tells k k' KK KK' _ _ E) as [-> E1]. apply app_inv_head in E1. destruct (T c' F _ _ E1) as [-> E2].
      destruct s as [|a s], s' as [|a' s']; [injection E2 as ->; auto|discriminate E2|discriminate E2|]. apply app_inv_head in E2.
      destruct (IH (fun k c I => H k c (or_intror I)) (a' :: s') x y) as [-> ->]; try discriminate; [exact (fun k c I => H' k c (or_intror I))|exact E2|auto].
    Qed.
  End Items.

  Definition steps_text (s : list (pystr * pmod)) : pystr := dict_repr (map (fun kc => (str_repr (fst kc), pmod_repr printable flags (snd kc))) s).
  Definition regxs_text (s : list (pystr * pmod)) : pystr := dict_repr (map (fun kc => (regex_repr printable flags (fst kc), pmod_repr printable flags (snd kc))) s).
  Lemma dict_text : forall (key : pystr -> pystr) (s : list (pystr * pmod)), dict_repr (map (fun kc => (key (fst kc), pmod_repr printable flags (snd kc))) s) =
    lit "{" ++ join (lit ", ") (map (fun kc => key (fst kc) ++ lit ": " ++ pmod_repr printable flags (snd kc)) s) ++ lit "}".
  Proof. intros key s. unfold dict_repr. rewrite map_map. reflexivity. Qed.
  Lemma dict_starts : forall (key : pystr -> pystr) (s : list (pystr * pmod)) a l z, s = a :: l -> exists t, dict_repr (map (fun kc => (key (fst kc), pmod_repr printable flags (snd kc))) s) ++ z = lit "{" ++ key (fst a) ++ t.
  Proof. intros key s a l z ->. rewrite dict_text. destruct l; cbn [map join]; rewrite <- !app_assoc; eauto. Qed.
  Lemma str_starts : forall s z, exists h t, str_repr s ++ z = h :: t /\ (h = chr "'" \/ h = chr """").
  Proof. intros s z. unfold Repr_Model.str_repr. cbn [app]. do 2 eexists. split; [reflexivity|apply quote_is]. Qed.
  Lemma str_not_dict : forall t (key : pystr -> pystr) (a : pystr * pmod) l x y, str_repr t ++ x = dict_repr (map (fun kc => (key (fst kc), pmod_repr printable flags (snd kc))) (a :: l)) ++ y -> False.
  Proof. intros t key a l x y E. destruct (str_starts t x) as (h & u & X & Q). destruct (dict_starts key (a :: l) a l y eq_refl) as (v & Y). rewrite X, Y in E. injection E as -> _. destruct Q; discriminate. Qed.
  Lemma steps_not_regxs : forall a l b m x y, steps_text (a :: l) ++ x = regxs_text (b :: m) ++ y -> False.
  Proof.
    intros a l b m x y E. destruct (dict_starts str_repr (a :: l) a l x eq_refl) as (v & X). destruct (dict_starts (regex_repr printable flags) (b :: m) b m y eq_refl) as (w & Y). unfold steps_text, regxs_text in E. rewrite X, Y in E. apply app_inv_head in E.
    destruct (str_starts (fst a) v) as (h & u & Z & Q). rewrite Z in E. unfold regex_repr in E. rewrite <- !app_assoc in E. injection E as -> _. destruct Q; discriminate.
  Qed.
  Lemma args_text : forall a s r x, pmod_repr printable flags (Pmod a s r) ++ x = lit "pmod(" ++
    join (lit ", ") (match a with Some a => [str_repr a] | None => [] end ++ match s with [] => [] | _ => [steps_text s] end ++ match r with [] => [] | _ => [regxs_text r] end) ++ lit ")" ++ x.
  Proof. intros a s r x. cbn [pmod_repr]. rewrite <- !app_assoc. reflexivity. Qed.

  Theorem pmod_tells : forall p q, in_full printable p -> in_full printable q -> tells (pmod_repr printable flags) p q.
  Proof.
    induction p as [a s r IHs IHr] using pmod_ind'. intros [a' s' r'] F G x y E. inversion F as [a0 s0 r0 FA FS FR]; subst. inversion G as [a0 s0 r0 GA GS GR]; subst. rewrite !args_text in E. apply app_inv_head in E.
    assert (ST : forall x y, s <> [] -> s' <> [] -> steps_text s ++ x = steps_text s' ++ y -> s = s' /\ x = y).
    { intros u v N N' X. unfold steps_text in X. rewrite !dict_text, <- !app_assoc in X. apply app_inv_head in X. revert X. apply items_tell with (K := is_text); try assumption; [exact str_tells|]. intros k c I. destruct (FS k c I) as [T W]. split; [exact T|]. intros d. exact (IHs k c I d W). }
    assert (RT : forall x y, r <> [] -> r' <> [] -> regxs_text r ++ x = regxs_text r' ++ y -> r = r' /\ x = y).
    { intros u v N N' X. unfold regxs_text in X. rewrite !dict_text, <- !app_assoc in X. apply app_inv_head in X. revert X. apply items_tell with (K := fun k => is_text k /\ length (str_repr k) <= 200); try assumption.
      - intros k k' [T L] [T' L']. exact (regex_tells k k' T T' L L').
      - intros k c I. destruct (FR k c I) as (T & L & W). split; [auto|]. intros d. exact (IHr k c I d W).
      - intros k c I. destruct (GR k c I) as (T & L & W). auto. }
    assert (AT : forall t t' u v, a = Some t -> a' = Some t' -> str_repr t ++ u = str_repr t' ++ v -> t = t' /\ u = v).
    { intros t t' u v A A' X. exact (str_tells t t' (FA t A) (GA t' A') u v X). }
    clear IHs IHr F G FA FS FR GA GS GR.
    destruct a as [t|], a' as [t'|], s as [|sa s], s' as [|sa' s'], r as [|ra r], r' as [|ra' r']; cbn [app join] in E; rewrite <- ?app_assoc in E.
    all: repeat match goal with
    | H : str_repr ?u ++ _ = str_repr ?v ++ _ |- _ => destruct (AT u v _ _ eq_refl eq_refl H) as [? H']; clear H; rename H' into H
    | H : steps_text ?u ++ _ = steps_text ?v ++ _ |- _ => apply ST in H; [|discriminate..]; destruct H as [? H]
    | H : regxs_text ?u ++ _ = regxs_text ?v ++ _ |- _ => apply RT in H; [|discriminate..]; destruct H as [? H]
    | H : lit ", " ++ _ = lit ", " ++ _ |- _ => apply app_inv_head in H
    | H : lit ")" ++ _ = lit ")" ++ _ |- _ => apply app_inv_head in H
    | H : lit ", " ++ _ = lit ")" ++ _ |- _ => discriminate H
    | H : lit ")" ++ _ = lit ", " ++ _ |- _ => discriminate H
    | H : str_repr _ ++ _ = steps_text _ ++ _ |- _ => exfalso; exact (str_not_dict _ _ _ _ _ _ H)
    | H : str_repr _ ++ _ = regxs_text _ ++ _ |- _ => exfalso; exact (str_not_dict _ _ _ _ _ _ H)
    | H : steps_text _ ++ _ = str_repr _ ++ _ |- _ => exfalso; exact (str_not_dict _ _ _ _ _ _ (eq_sym H))
    | H : regxs_text _ ++ _ = str_repr _ ++ _ |- _ => exfalso; exact (str_not_dict _ _ _ _ _ _ (eq_sym H))
    | H : steps_text _ ++ _ = regxs_text _ ++ _ |- _ => exfalso; exact (steps_not_regxs _ _ _ _ _ _ H)
    | H : regxs_text _ ++ _ = steps_text _ ++ _ |- _ => exfalso; exact (steps_not_regxs _ _ _ _ _ _ (eq_sym H))
    | H : lit ")" ++ _ = str_repr ?t ++ ?z |- _ => exfalso; destruct (str_starts t z) as (h & u & X & Q); rewrite X in H; injection H as <- _; destruct Q; discriminate
    | H : str_repr ?t ++ ?z = lit ")" ++ _ |- _ => exfalso; destruct (str_starts t z) as (h & u & X & Q); rewrite X in H; injection H as -> _; destruct Q; discriminate
    | H : lit ")" ++ _ = _ |- _ => discriminate H
    | H : _ = lit ")" ++ _ |- _ => discriminate H
    end.
    all: subst; split; congruence.
  Qed.
  Theorem pmod_repr_inj : forall p q, in_full printable p -> in_full printable q -> pmod_repr printable flags p = pmod_repr printable flags q -> p = q.
  Proof. intros p q F G E. apply (pmod_tells p q F G [] []). rewrite !app_nil_r. exact E. Qed.
End Repr.
