(** * Proofs about JSONCodec *)
From Coq Require Import String.
From Verif Require Import PyBase PyBase_Proofs Json Url_Model Url_Proofs Codec_Model Codec_Spec.

Definition bytes (s : list N) : Prop := Forall (fun c => (c < 256)%N) s.

(** ** The text, written from left to right *)

Definition at_eol (s : list N) : bool :=
  (match s with
   | c :: s' => (c =? LF) || ((c =? CR) && match s' with n :: _ => n =? LF | [] => false end)
   | [] => false
   end)%N.

Definition shown (c : N) (rest : list N) : list N :=
  if blank c && at_eol rest then hexed c else [c].

Fixpoint enc (crlf : bool) (s : list N) (ll : N) : list N :=
  match s with
  | [] => []
  | c :: s' =>
      if must_quote c s' ll then
        if (76 <=? ll + 3)%N then soft crlf ++ hexed c ++ enc crlf s' 3
        else hexed c ++ enc crlf s' (ll + 3)
      else if (c =? LF)%N then eol crlf ++ enc crlf s' 0
      else
        match s' with
        | [] => shown c s' ++ enc crlf s' (ll + 1)
        | n :: s'' =>
            if ((c =? CR) && (n =? LF))%N then eol crlf ++ enc crlf s'' 0
            else if (negb (n =? LF) && (76 <=? ll + 1))%N
                 then soft crlf ++ shown c s' ++ enc crlf s' 1
                 else shown c s' ++ enc crlf s' (ll + 1)
        end
  end.

Definition fix_last (s out : list N) : list N := if at_eol s then protect out else out.

Lemma digit_not_blank : forall c, (c < 16)%N -> blank (hex_digit c) = false.
Proof.
  intros c H. unfold blank, hex_digit. destruct (N.ltb_spec c 10).
  - destruct (N.eqb_spec (48 + c) 32); [lia|]. destruct (N.eqb_spec (48 + c) 9); [lia|reflexivity].
  - destruct (N.eqb_spec (55 + c) 32); [lia|]. destruct (N.eqb_spec (55 + c) 9); [lia|reflexivity].
Qed.

Lemma must_quote_LF : forall s ll, must_quote LF s ll = false.
Proof. intros. reflexivity. Qed.
Lemma must_quote_CR : forall s ll, must_quote CR s ll = false.
Proof. intros. reflexivity. Qed.

Lemma fix_last_hex : forall s c out, fix_last s (rev (hexed c) ++ out) = rev (hexed c) ++ out.
Proof.
  intros s c out. unfold fix_last. destruct (at_eol s); [|reflexivity].
  cbn [hexed rev app protect]. rewrite digit_not_blank; [reflexivity|apply N.mod_lt; lia].
Qed.
Lemma fix_last_eol : forall s b out, fix_last s (rev (eol b) ++ out) = rev (eol b) ++ out.
Proof. intros s b out. unfold fix_last. destruct (at_eol s); [|reflexivity]. destruct b; reflexivity. Qed.

Lemma fix_last_shown : forall s c out, rev (fix_last s (c :: out)) = rev out ++ shown c s.
Proof.
  intros s c out. unfold fix_last, shown. destruct (at_eol s).
  - cbn [protect]. destruct (blank c); cbn [andb].
    + rewrite rev_app_distr, rev_involutive. reflexivity.
    + reflexivity.
  - rewrite Bool.andb_false_r. reflexivity.
Qed.

Lemma fix_last_other : forall s out, at_eol s = false -> fix_last s out = out.
Proof. intros s out H. unfold fix_last. rewrite H. reflexivity. Qed.

Lemma quoted_not_eol : forall c s ll, must_quote c s ll = true -> at_eol (c :: s) = false.
Proof.
  intros c s ll H. unfold at_eol. destruct (N.eqb_spec c LF) as [->|N1]; [rewrite must_quote_LF in H; discriminate|].
  destruct (N.eqb_spec c CR) as [->|N2]; [rewrite must_quote_CR in H; discriminate|]. reflexivity.
Qed.

Lemma qp_enc_len : forall crlf k s, List.length s <= k -> forall ll out,
  qp crlf s ll out = rev (fix_last s out) ++ enc crlf s ll.
Proof.
  intros crlf. induction k as [|k IH]; intros s L ll out.
  { destruct s; [|cbn in L; lia]. cbn. rewrite app_nil_r. reflexivity. }
  destruct s as [|c s']; [cbn; rewrite app_nil_r; reflexivity|].
  cbn [List.length] in L. cbn [qp enc].
  destruct (must_quote c s' ll) eqn:Q.
  { rewrite (fix_last_other (c :: s')) by (eapply quoted_not_eol; exact Q).
    destruct (76 <=? ll + 3)%N.
    - rewrite IH by lia. rewrite fix_last_hex. rewrite !rev_app_distr, !rev_involutive, <- !app_assoc. reflexivity.
    - rewrite IH by lia. rewrite fix_last_hex. rewrite !rev_app_distr, !rev_involutive, <- !app_assoc. reflexivity. }
  destruct (N.eqb_spec c LF) as [->|N1].
  { rewrite IH by lia. rewrite fix_last_eol, rev_app_distr, rev_involutive, <- app_assoc.
    unfold fix_last. reflexivity. }
  assert (NE : match s' with n :: _ => ((c =? CR) && (n =? LF))%N = false | [] => True end -> at_eol (c :: s') = false).
  { intros H. unfold at_eol. destruct (N.eqb_spec c LF); [contradiction|]. cbn [orb].
    destruct s'; [apply Bool.andb_false_r|exact H]. }
  destruct s' as [|n s''].
  { rewrite (fix_last_other [c]) by (apply NE; exact I). cbn [qp enc]. unfold shown. cbn [at_eol].
    rewrite Bool.andb_false_r, app_nil_r. reflexivity. }
  destruct ((c =? CR) && (n =? LF))%N eqn:E.
  { apply andb_true_iff in E as [E1 E2]. apply N.eqb_eq in E1 as ->. apply N.eqb_eq in E2 as ->.
    cbn [List.length] in L. rewrite IH by lia. rewrite fix_last_eol, rev_app_distr, rev_involutive, <- app_assoc.
    unfold fix_last. reflexivity. }
  rewrite (fix_last_other (c :: n :: s'')) by (apply NE; reflexivity).
  destruct (negb (n =? LF) && (76 <=? ll + 1))%N.
  - rewrite IH by lia. rewrite fix_last_shown, rev_app_distr, rev_involutive, <- !app_assoc. reflexivity.
  - rewrite IH by lia. rewrite fix_last_shown, <- !app_assoc. reflexivity.
Qed.

Lemma b2a_enc : forall s, b2a_qp s = enc (first_crlf 0 s) s 0.
Proof.
  intros s. unfold b2a_qp. rewrite (qp_enc_len _ _ s (le_n _)). unfold fix_last.
  destruct (at_eol s); reflexivity.
Qed.

(** ** Reading it back *)

Lemma digit_plain : forall c, (c < 16)%N ->
  (hex_digit c =? LF)%N = false /\ (hex_digit c =? CR)%N = false /\ (hex_digit c =? chr "=")%N = false.
Proof.
  intros c H. rewrite <- (N2Nat.id c) in *. set (m := N.to_nat c) in *.
  do 16 (destruct m as [|m]; [repeat split; reflexivity|]). exfalso. lia.
Qed.

Lemma unqp_hexed : forall c r, (c < 256)%N -> unqp false (hexed c ++ r) = c :: unqp false r.
Proof.
  intros c r H. unfold hexed. cbn [app unqp].
  assert (A : (c / 16 < 16)%N) by (apply N.div_lt_upper_bound; lia).
  assert (B : (c mod 16 < 16)%N) by (apply N.mod_lt; lia).
  destruct (digit_plain _ A) as (D1 & D2 & D3). change (chr "=" =? chr "=")%N with true. cbn iota.
  rewrite D1, D2, D3, !hex_val_digit by assumption. f_equal. rewrite (N.div_mod c 16) at 3 by lia. lia.
Qed.

Lemma unqp_soft : forall b r, unqp false (soft b ++ r) = unqp false r.
Proof. intros [|] r; reflexivity. Qed.
Lemma unqp_eol : forall b r, unqp false (eol b ++ r) = eol b ++ unqp false r.
Proof. intros [|] r; reflexivity. Qed.

Lemma unqp_plain : forall c r, c <> chr "=" -> unqp false (c :: r) = c :: unqp false r.
Proof. intros c r H. cbn [unqp]. destruct (N.eqb_spec c (chr "=")); [contradiction|reflexivity]. Qed.

Lemma unqp_shown : forall c s r, (c < 256)%N -> c <> chr "=" -> unqp false (shown c s ++ r) = c :: unqp false r.
Proof.
  intros c s r H N. unfold shown. destruct (blank c && at_eol s); [apply unqp_hexed; exact H|].
  apply unqp_plain. exact N.
Qed.

Lemma unquoted_eq : forall c s ll, must_quote c s ll = false -> c <> chr "=" /\ (c <= 126)%N.
Proof.
  intros c s ll H. unfold must_quote in H. rewrite !Bool.orb_false_iff in H.
  destruct H as ((((A & B) & _) & _) & _). apply N.eqb_neq in B. apply N.ltb_ge in A. split; assumption.
Qed.

Lemma quoted_other : forall c s ll, must_quote c s ll = true -> c <> LF /\ c <> CR.
Proof. intros c s ll H. split; intros ->; [rewrite must_quote_LF in H|rewrite must_quote_CR in H]; discriminate. Qed.

Lemma unqp_enc_len : forall crlf k s, List.length s <= k -> bytes s -> forall ll,
  retold (eol crlf) s (unqp false (enc crlf s ll)).
Proof.
  intros crlf. induction k as [|k IH]; intros s L B ll.
  { destruct s; [|cbn in L; lia]. apply R_end. }
  destruct s as [|c s']; [apply R_end|]. cbn [List.length] in L. inversion B as [|? ? Bc Bs]; subst.
  cbn [enc]. destruct (must_quote c s' ll) eqn:Q.
  { destruct (quoted_other _ _ _ Q) as (N1 & N2).
    destruct (76 <=? ll + 3)%N; [rewrite unqp_soft|]; rewrite unqp_hexed by exact Bc;
      (apply R_other; [exact N1|intros E; contradiction|apply IH; [lia|exact Bs]]). }
  destruct (N.eqb_spec c LF) as [->|N1].
  { rewrite unqp_eol. apply R_bare. apply IH; [lia|exact Bs]. }
  destruct (unquoted_eq _ _ _ Q) as (NE & _).
  destruct s' as [|n s''].
  { rewrite unqp_shown by assumption. apply R_other; [exact N1|discriminate|]. apply R_end. }
  destruct ((c =? CR) && (n =? LF))%N eqn:E.
  { apply andb_true_iff in E as [E1 E2]. apply N.eqb_eq in E1 as ->. apply N.eqb_eq in E2 as ->.
    rewrite unqp_eol. apply R_pair. cbn [List.length] in L. apply IH; [lia|]. inversion Bs; assumption. }
  assert (R : forall l, retold (eol crlf) (c :: n :: s'') (c :: unqp false (enc crlf (n :: s'') l))).
  { intros l. apply R_other; [exact N1| |apply IH; [cbn in *; lia|exact Bs]].
    intros -> s3 X. injection X as -> ->. discriminate E. }
  destruct (negb (n =? LF) && (76 <=? ll + 1))%N; [rewrite unqp_soft|]; rewrite unqp_shown by assumption; apply R.
Qed.

Lemma qp_retold : forall s, bytes s -> retold (eol (first_crlf 0 s)) s (a2b_qp (b2a_qp s)).
Proof. intros s B. unfold a2b_qp. rewrite b2a_enc. apply (unqp_enc_len _ _ s (le_n _) B). Qed.

(** ** The text is ASCII *)

Definition ascii (s : list N) : Prop := Forall (fun c => (c < 128)%N) s.

Lemma ascii_decode : forall s, ascii s -> utf8_decode s = Some s.
Proof.
  intros s A. induction A as [|c s H A IH]; [reflexivity|]. rewrite decode1 by exact H. unfold more. rewrite IH. reflexivity.
Qed.
Lemma ascii_encode : forall s, ascii s -> utf8_encode s = Ok s.
Proof.
  intros s A. induction A as [|c s H A IH]; [reflexivity|]. cbn [utf8_encode]. unfold utf8_char.
  destruct (N.ltb_spec c 128); [|lia]. rewrite IH. reflexivity.
Qed.

Lemma digit_ascii : forall c, (c < 16)%N -> (hex_digit c < 128)%N.
Proof. intros c H. unfold hex_digit. destruct (N.ltb_spec c 10); lia. Qed.
Lemma hexed_ascii : forall c, (c < 256)%N -> ascii (hexed c).
Proof.
  intros c H. unfold hexed. repeat constructor; try apply digit_ascii.
  - apply N.div_lt_upper_bound; lia.
  - apply N.mod_lt; lia.
Qed.
Lemma soft_ascii : forall b, ascii (soft b).
Proof. intros [|]; repeat constructor. Qed.
Lemma eol_ascii : forall b, ascii (eol b).
Proof. intros [|]; repeat constructor. Qed.

Lemma enc_ascii_len : forall crlf k s, List.length s <= k -> bytes s -> forall ll, ascii (enc crlf s ll).
Proof.
  intros crlf. induction k as [|k IH]; intros s L B ll.
  { destruct s; [|cbn in L; lia]. constructor. }
  destruct s as [|c s']; [constructor|]. cbn [List.length] in L. inversion B as [|? ? Bc Bs]; subst.
  cbn [enc]. unfold ascii. destruct (must_quote c s' ll) eqn:Q.
  { destruct (76 <=? ll + 3)%N; rewrite ?Forall_app;
      repeat split; try apply soft_ascii; try (apply hexed_ascii; exact Bc); apply IH; try lia; exact Bs. }
  destruct (N.eqb_spec c LF) as [->|N1].
  { rewrite Forall_app. split; [apply eol_ascii|apply IH; [lia|exact Bs]]. }
  destruct (unquoted_eq _ _ _ Q) as (NE & LE).
  assert (SH : forall s, Forall (fun c => (c < 128)%N) (shown c s)).
  { intros s. unfold shown. destruct (blank c && at_eol s); [apply hexed_ascii; exact Bc|]. constructor; [lia|constructor]. }
  destruct s' as [|n s''].
  { rewrite Forall_app. split; [apply SH|constructor]. }
  destruct ((c =? CR) && (n =? LF))%N.
  { rewrite Forall_app. split; [apply eol_ascii|]. cbn [List.length] in L. apply IH; [lia|]. inversion Bs; assumption. }
  destruct (negb (n =? LF) && (76 <=? ll + 1))%N; rewrite ?Forall_app;
    repeat split; try apply soft_ascii; try apply SH; apply IH; try (cbn in *; lia); exact Bs.
Qed.

Lemma b2a_ascii : forall s, bytes s -> ascii (b2a_qp s).
Proof. intros s B. rewrite b2a_enc. apply (enc_ascii_len _ _ s (le_n _) B). Qed.

(** ** Line ends *)

Lemma retold_fun : forall nl s t, retold nl s t -> forall t', retold nl s t' -> t' = t.
Proof.
  intros nl s t R. induction R as [|s t R IH|s t R IH|c s t N1 N2 R IH]; intros t' R'.
  - inversion R'. reflexivity.
  - inversion R'; subst; [f_equal; apply IH; assumption|contradiction].
  - inversion R' as [| |? ? R''|? ? ? M1 M2 R'']; subst; [f_equal; apply IH; assumption|].
    exfalso. exact (M2 eq_refl _ eq_refl).
  - inversion R'; subst.
    + contradiction.
    + exfalso. exact (N2 eq_refl _ eq_refl).
    + f_equal. apply IH. assumption.
Qed.

Lemma first_crlf_spec : forall s p, (p <> CR) -> first_end s (eol (first_crlf p s)).
Proof.
  assert (G : forall s a p, ~ In LF a -> (last (0%N :: a) 0%N = p) ->
              first_end (a ++ s) (eol (first_crlf p s))).
  { induction s as [|c s IH]; intros a p NI LA.
    - cbn. rewrite app_nil_r. apply F_none. exact NI.
    - cbn [first_crlf]. destruct (N.eqb_spec c LF) as [->|N].
      + destruct (N.eqb_spec p CR) as [E|E].
        * destruct a as [|x a'] using rev_ind; [cbn in LA; subst; discriminate|]. clear IHa'.
          change (0%N :: a' ++ [x]) with ((0%N :: a') ++ [x]) in LA. rewrite last_last in LA. subst x p.
          rewrite <- app_assoc. apply (F_pair a' s). intros I. apply NI. apply in_or_app. left. exact I.
        * apply (F_bare a s); [exact NI|]. intros a' ->. change (0%N :: a' ++ [13%N]) with ((0%N :: a') ++ [13%N]) in LA.
          rewrite last_last in LA. subst p. apply E. reflexivity.
      + replace (a ++ c :: s) with ((a ++ [c]) ++ s) by (rewrite <- app_assoc; reflexivity).
        apply IH.
        * intros I. apply in_app_or in I as [I|I]; [exact (NI I)|]. destruct I as [->|[]]. apply N. reflexivity.
        * change (0%N :: a ++ [c]) with ((0%N :: a) ++ [c]). apply last_last. }
  intros s p NP. specialize (G s [] 0%N). cbn in G.
  assert (E : forall s, first_crlf p s = first_crlf 0 s).
  { intros s'. destruct s' as [|c s']; [reflexivity|]. cbn [first_crlf]. destruct (c =? LF)%N; [|reflexivity].
    destruct (N.eqb_spec p CR); [contradiction|reflexivity]. }
  rewrite E. apply G; [tauto|reflexivity].
Qed.

Lemma retold_id_pair : forall s, retold [13%N; 10%N] s s -> forall p, p <> 13%N ->
  ~ (exists a b, s = a ++ 10%N :: b /\ forall a', p :: a <> a' ++ [13%N]).
Proof.
  intros s R. remember s as t eqn:E in R at 2. induction R as [|s t R IH|s t R IH|c s t N1 N2 R IH]; intros p NP (a & b & X & Y).
  - destruct a; discriminate.
  - discriminate E.
  - injection E as E. destruct a as [|x a]; [discriminate|]. injection X as <- X.
    destruct a as [|y a].
    + exact (Y [p] eq_refl).
    + injection X as <- X. apply (IH E 10%N); [discriminate|]. exists a, b. split; [exact X|]. intros a' H.
      apply (Y (p :: 13%N :: a')). rewrite H. reflexivity.
  - injection E as E. destruct a as [|x a]; [injection X as -> _; apply N1; reflexivity|]. injection X as <- X.
    destruct (N.eq_dec c 13) as [->|NC].
    + destruct a as [|y a].
      * exfalso. exact (N2 eq_refl _ X).
      * destruct s as [|y' s]; [discriminate|]. injection X as -> X.
        destruct (N.eq_dec y 13) as [->|NY].
        -- apply (IH E 0%N); [discriminate|]. exists (13%N :: a), b. split; [rewrite X; reflexivity|].
           intros a' H. destruct a' as [|z a']; [discriminate|]. injection H as <- H.
           apply (Y (p :: 13%N :: a')). cbn. rewrite H. reflexivity.
        -- apply (IH E 0%N); [discriminate|]. exists (y :: a), b. split; [rewrite X; reflexivity|].
           intros a' H. destruct a' as [|z a']; [discriminate|]. injection H as <- H.
           apply (Y (p :: 13%N :: a')). cbn. rewrite H. reflexivity.
    + apply (IH E c NC). exists a, b. split; [exact X|]. intros a' H. apply (Y (p :: a')). rewrite H. reflexivity.
Qed.

Lemma retold_len : forall s t, retold [10%N] s t -> List.length t <= List.length s.
Proof. intros s t R. induction R; cbn in *; lia. Qed.

Lemma retold_id_bare : forall s, retold [10%N] s s -> ~ has_pair s.
Proof.
  intros s R. remember s as t eqn:E in R at 2. induction R as [|s t R IH|s t R IH|c s t N1 N2 R IH]; intros (a & b & X).
  - destruct a; discriminate.
  - injection E as E. destruct a as [|x a]; [discriminate|]. injection X as <- X. apply (IH E). exists a, b. exact X.
  - discriminate E.
  - injection E as E. destruct a as [|x a].
    + injection X as -> ->. exact (N2 eq_refl _ eq_refl).
    + injection X as <- X. apply (IH E). exists a, b. exact X.
Qed.

Lemma id_pair : forall s, ~ has_bare s -> retold [13%N; 10%N] s s.
Proof.
  assert (G : forall k s, List.length s <= k -> forall p, p <> 13%N ->
    ~ (exists a b, s = a ++ 10%N :: b /\ forall a', p :: a <> a' ++ [13%N]) -> retold [13%N; 10%N] s s).
  { induction k as [|k IH]; intros s L p NP H.
    { destruct s; [constructor|cbn in L; lia]. }
    destruct s as [|c s]; [constructor|]. cbn [List.length] in L.
    destruct (N.eq_dec c 10) as [->|N1].
    { exfalso. apply H. exists [], s. split; [reflexivity|]. intros a' E.
      destruct a' as [|x a']; [injection E as ->; contradiction|]. destruct a'; discriminate. }
    destruct (N.eq_dec c 13) as [->|N2].
    - destruct s as [|n s].
      + apply R_other; [discriminate|discriminate|constructor].
      + destruct (N.eq_dec n 10) as [->|N3].
        * apply (R_pair [13%N; 10%N] s s). apply (IH s) with (p := 10%N); [cbn in L; lia|discriminate|].
          intros (a & b & X & Y). apply H. exists (13%N :: 10%N :: a), b. split; [rewrite X; reflexivity|].
          intros a' E. destruct a' as [|x a']; [discriminate|]. injection E as _ E.
          destruct a' as [|x' a']; [discriminate|]. injection E as _ E. exact (Y _ E).
        * apply R_other; [discriminate| |].
          -- intros _ s' E. injection E as E _. contradiction.
          -- apply (IH (n :: s)) with (p := 0%N); [cbn in *; lia|discriminate|].
             intros (a & b & X & Y). apply H. exists (13%N :: a), b. split; [rewrite X; reflexivity|].
             intros a' E. destruct a as [|x a]; [injection X as -> _; contradiction|].
             destruct a' as [|x1 a']; [discriminate|]. injection E as _ E.
             destruct a' as [|x2 a']; [discriminate|]. injection E as _ E. apply (Y (0%N :: a')). rewrite E. reflexivity.
    - apply R_other; [exact N1|intros E; contradiction|].
      apply (IH s) with (p := c); [lia|exact N2|]. intros (a & b & X & Y). apply H. exists (c :: a), b.
      split; [rewrite X; reflexivity|]. intros a' E. destruct a' as [|x' a']; [discriminate|]. injection E as _ E. exact (Y _ E). }
  intros s H. apply (G _ s (le_n _) 0%N); [discriminate|]. intros (a & b & X & Y). apply H. exists a, b. split; [exact X|].
  intros a' E. apply (Y (0%N :: a')). rewrite E. reflexivity.
Qed.

Lemma id_bare : forall s, ~ has_pair s -> retold [10%N] s s.
Proof.
  induction s as [|c s IH]; intros H; [constructor|].
  assert (R : retold [10%N] s s) by (apply IH; intros (a & b & ->); apply H; exists (c :: a), b; reflexivity).
  destruct (N.eq_dec c 10) as [->|N1]; [apply (R_bare [10%N] s s); exact R|].
  apply R_other; [exact N1| |exact R]. intros -> s' ->. apply H. exists [], s'. reflexivity.
Qed.

Lemma first_kind : forall s nl, first_end s nl ->
  (nl = [13%N; 10%N] /\ has_pair s) \/ (nl = [10%N] /\ has_bare s) \/ (nl = [10%N] /\ ~ In 10%N s).
Proof.
  intros s nl F. destruct F as [a b N|a b N M|s N].
  - left. split; [reflexivity|]. exists a, b. reflexivity.
  - right. left. split; [reflexivity|]. exists a, b. split; [reflexivity|exact M].
  - right. right. split; [reflexivity|exact N].
Qed.

Lemma qp_iff : forall s, bytes s -> (a2b_qp (b2a_qp s) = s <-> one_kind s).
Proof.
  intros s B. pose proof (qp_retold s B) as R. pose proof (first_crlf_spec s 0%N ltac:(discriminate)) as F.
  destruct (first_kind _ _ F) as [(E & P)|[(E & P)|(E & P)]]; rewrite E in R; split.
  - intros X. rewrite X in R. intros (Hb & _). apply (retold_id_pair s R 0%N); [discriminate|].
    destruct Hb as (a & b & X1 & X2). exists a, b. split; [exact X1|]. intros a' H.
    destruct a' as [|x a']; [discriminate|]. injection H as _ H. exact (X2 _ H).
  - intros K. apply (retold_fun _ _ _ (id_pair s (fun Hb => K (conj Hb P))) _ R).
  - intros X. rewrite X in R. intros (_ & Hp). exact (retold_id_bare s R Hp).
  - intros K. apply (retold_fun _ _ _ (id_bare s (fun Hp => K (conj P Hp))) _ R).
  - intros _ (_ & (a & b & ->)). apply P. apply in_or_app. right. right. left. reflexivity.
  - intros K. apply (retold_fun _ _ _ (id_bare s ltac:(intros (a & b & ->); apply P; apply in_or_app; right; right; left; reflexivity)) _ R).
Qed.
