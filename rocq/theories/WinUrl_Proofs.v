(** * File paths as URL paths on Windows: proofs *)
From Coq Require Import String Lia ZifyN.
From Verif Require Import PyBase PyBase_Proofs OsPath_Model Url_Model Url_Spec Url_Proofs WinUrl_Model WinUrl_Spec.

Definition quoted (n u : list N) : Prop := exists bs, utf8_encode n = Ok bs /\ u = flat_map quote_byte bs.

Lemma quoted_quote : forall n u, quoted n u <-> quote n = Ok u.
Proof.
  intros n u. unfold quote, quoted. split.
  - intros (bs & -> & ->). reflexivity.
  - destruct (utf8_encode n) as [bs|e]; cbn [rbind]; [|discriminate]. intros H. injection H as <-. eauto.
Qed.

Lemma name_quoted : forall n, name n -> exists u, quoted n u.
Proof.
  intros n (_ & H). destruct (proj2 (encode_scalar n)) as (bs & E).
  - eapply Forall_impl; [|exact H]. intros c X. apply X.
  - exists (flat_map quote_byte bs), bs. auto.
Qed.

Lemma names_quoted : forall names, Forall name names -> exists us, Forall2 quoted names us.
Proof.
  induction names as [|n names IH]; intros H; [exists []; constructor|]. inversion H; subst.
  destruct IH as (us & X); [assumption|]. destruct (name_quoted n) as (u & Y); [assumption|]. exists (u :: us). now constructor.
Qed.

Lemma quote_byte_chars : forall b c, (b < 256)%N -> In c (quote_byte b) -> c = b \/ c = 37%N \/ hex_upper c.
Proof.
  intros b c B H. unfold quote_byte in H. destruct (safe b).
  - destruct H as [<-|[]]. auto.
  - destruct H as [<-|[<-|[<-|[]]]]; [auto| |]; right; right; apply hex_upper_digit; lia.
Qed.

Lemma char_byte : forall c b x, utf8_char c = Some b -> In x b -> (x < 128)%N -> x = c.
Proof.
  intros c b x. unfold utf8_char. ncase; cbn [andb]; intros E; try discriminate E; apply some_inj in E; subst b; cbn [In]; intros I L;
    repeat (destruct I as [I|I]; [lia|]); destruct I.
Qed.

Lemma encode_byte : forall s bs x, utf8_encode s = Ok bs -> In x bs -> (x < 128)%N -> In x s.
Proof.
  induction s as [|c s IH]; intros bs x E H L; cbn in E; [injection E as <-; destruct H|].
  destruct (utf8_char c) as [b|] eqn:Ec; [|discriminate]. destruct (utf8_encode s) as [bs'|]; [|discriminate].
  cbn [rbind] in E. injection E as <-. apply in_app_or in H. destruct H as [H|H].
  - left. symmetry. exact (char_byte _ _ _ Ec H L).
  - right. exact (IH bs' x eq_refl H L).
Qed.

(** Quoted names have no special characters. *)
Lemma quoted_chars : forall n u c, name n -> quoted n u -> In c u -> unreserved c \/ c = 37%N.
Proof.
  intros n u c (_ & H) (bs & E & ->) I. apply in_flat_map in I. destruct I as (b & Hb & I).
  pose proof (encode_bytes _ _ E) as B. rewrite Forall_forall in B. specialize (B b Hb).
  unfold quote_byte in I. destruct (safe b) eqn:S.
  - destruct I as [<-|[]]. apply safe_spec in S. destruct S as [S|S]; [now left|]. subst.
    assert (X : In 47%N n) by (apply (encode_byte _ _ _ E Hb); lia).
    rewrite Forall_forall in H. destruct (H _ X) as (_ & Y). destruct Y. now left.
  - destruct I as [<-|[<-|[<-|[]]]]; [now right| |]; left; (assert (X : hex_upper (hex_digit (b / 16)%N)) by (apply hex_upper_digit; lia));
      (assert (Y : hex_upper (hex_digit (b mod 16)%N)) by (apply hex_upper_digit; lia)); unfold unreserved, hex_upper in *; lia.
Qed.

Lemma quoted_not : forall n u c, name n -> quoted n u -> In c [47; 92; 58; 124; 10]%N -> ~ In c u.
Proof.
  intros n u c Hn Q I H. destruct (quoted_chars n u c Hn Q H) as [X|X]; cbn in I; unfold unreserved in X; lia.
Qed.

Lemma name_not : forall n c, name n -> In c [47; 92; 58; 10]%N -> ~ In c n.
Proof. intros n c (_ & H) I X. rewrite Forall_forall in H. exact (proj2 (H c X) I). Qed.

Lemma quoted_nil : forall n u, name n -> quoted n u -> u <> [].
Proof.
  intros n u (H & _) (bs & E & ->) X. destruct n as [|c n]; [now destruct H|]. cbn in E.
  destruct (utf8_char c) as [b|] eqn:Ec; [|discriminate]. destruct (utf8_encode n); [|discriminate]. injection E as <-.
  rewrite flat_map_app in X. apply app_eq_nil in X. destruct X as (X & _). destruct b as [|y b].
  - unfold utf8_char in Ec. revert Ec. ncase; cbn; discriminate.
  - cbn in X. unfold quote_byte in X. destruct (safe y); discriminate.
Qed.

Lemma spells_quoted : forall bs rest bs', Forall (fun x => x < 256)%N bs -> spells rest bs' -> spells (flat_map quote_byte bs ++ rest) (bs ++ bs').
Proof.
  induction bs as [|b bs IH]; intros rest bs' B H; [exact H|]. inversion B; subst. cbn [flat_map app]. rewrite <- app_assoc.
  unfold quote_byte. destruct (safe b) eqn:S.
  - apply safe_spec in S. cbn [app]. apply SChar; [unfold unreserved in S; lia|unfold unreserved in S; lia|]. now apply IH.
  - cbn [app]. change (chr "%") with 37%N. replace b with (16 * (b / 16) + b mod 16)%N at 3 by lia.
    apply SByte; [apply hex_val_spec, hex_val_digit; lia|apply hex_val_spec, hex_val_digit; lia|]. now apply IH.
Qed.

Lemma quoted_reads : forall n u, quoted n u -> reads u n /\ url_path u.
Proof.
  intros n u (bs & E & ->). pose proof (encode_bytes _ _ E) as B. split; [|now apply quoted_path].
  apply RRun with bs; [|apply text_decode, decode_encode, E].
  pose proof (spells_quoted bs [] [] B SNil) as X. now rewrite !app_nil_r in X.
Qed.

Lemma quoted_url_names : forall w us, Forall name (w_names w) -> Forall2 quoted (w_names w) us -> url_names w us.
Proof.
  intros w us Hn H. unfold url_names. induction H as [|n u names us Q H IH]; [constructor|]. inversion Hn; subst.
  constructor; [|now apply IH]. destruct (quoted_reads _ _ Q) as (A & B). refine (conj A (conj B _)).
  apply (quoted_not n u); auto. now left.
Qed.

(** ** Texts *)
Lemma quote_app : forall a b u v, quote a = Ok u -> quote b = Ok v -> quote (a ++ b) = Ok (u ++ v).
Proof.
  intros a b u v A B. apply quoted_quote in A, B. destruct A as (x & A & ->), B as (y & B & ->). unfold quote.
  rewrite encode_app, A. cbn [rbind]. rewrite B. cbn [rbind]. now rewrite flat_map_app.
Qed.

Lemma quote_chained : forall names us b, Forall2 quoted names us ->
  quote (chained 47 names ++ last_sep 47 b) = Ok (chained 47 us ++ last_sep 47 b).
Proof.
  intros names us b H. induction H as [|n u names us Q H IH]; [destruct b; reflexivity|]. cbn [chained app].
  apply (quote_app [47%N] _ [47%N] _ eq_refl). rewrite <- !app_assoc. apply quote_app; [now apply quoted_quote|exact IH].
Qed.

Lemma quote_tl : forall names us b, names <> [] -> Forall2 quoted names us ->
  quote (tl (chained 47 names ++ last_sep 47 b)) = Ok (tl (chained 47 us ++ last_sep 47 b)).
Proof.
  intros names us b N H. destruct H as [|n u names us Q H]; [now destruct N|]. cbn [chained app tl].
  rewrite <- !app_assoc. apply quote_app; [now apply quoted_quote|now apply quote_chained].
Qed.

Definition swap (x y : N) (s : list N) : list N := map (fun c => if (c =? x)%N then y else c) s.

Lemma join_split_swap : forall x y s, join [y] (split_on x s) = swap x y s.
Proof.
  intros x y. induction s as [|c s IH]; [reflexivity|]. cbn [split_on swap map]. fold (swap x y s). destruct (N.eqb_spec c x).
  - pose proof (split_on_not_nil x s). destruct (split_on x s) as [|w ws]; [congruence|]. cbn [join app] in *. now rewrite IH.
  - pose proof (split_on_not_nil x s). destruct (split_on x s) as [|w ws]; [congruence|]. destruct ws; cbn [join app] in *; now rewrite <- IH.
Qed.

Lemma swap_none : forall x y s, ~ In x s -> swap x y s = s.
Proof.
  intros x y. induction s as [|c s IH]; intros H; [reflexivity|]. cbn. destruct (N.eqb_spec c x) as [->|]; [destruct H; now left|].
  f_equal. apply IH. intros X. apply H. now right.
Qed.

Lemma swap_app : forall x y a b, swap x y (a ++ b) = swap x y a ++ swap x y b.
Proof. intros. apply map_app. Qed.

Lemma swap_chained : forall x y names b, Forall (fun n => ~ In x n) names ->
  swap x y (chained x names ++ last_sep x b) = chained y names ++ last_sep y b.
Proof.
  intros x y names b H. induction H as [|n names Hn H IH].
  - destruct b; cbn; rewrite ?N.eqb_refl; reflexivity.
  - cbn [chained app]. cbn [swap map]. rewrite N.eqb_refl. f_equal. fold (swap x y ((n ++ chained x names) ++ last_sep x b)).
    rewrite <- !app_assoc, swap_app, IH, (swap_none x y n) by exact Hn. reflexivity.
Qed.

Lemma split_chained : forall x names (b : bool), Forall (fun n => ~ In x n) names ->
  split_on x (chained x names ++ last_sep x b) = [] :: names ++ (if b then [[]] else []).
Proof.
  intros x names b H. induction H as [|n names Hn H IH].
  - destruct b; cbn; rewrite ?N.eqb_refl; reflexivity.
  - cbn [chained app split_on]. rewrite N.eqb_refl. f_equal. rewrite <- app_assoc.
    destruct names as [|m names]; [destruct b|].
    + cbn. rewrite split_on_app by exact Hn. reflexivity.
    + cbn. rewrite app_nil_r. now apply split_on_none.
    + cbn [chained app] in *. rewrite split_on_app by exact Hn. f_equal.
      cbn [split_on] in IH. rewrite N.eqb_refl in IH. now injection IH.
Qed.

Lemma quote_parts_names : forall names us (b : bool), Forall name names -> Forall2 quoted names us -> forall path,
  quote_parts path (names ++ (if b then [[]] else [])) = Ok (path ++ chained 47 us).
Proof.
  intros names us b Hn H. induction H as [|n u names us Q H IH]; intros path.
  - destruct b; cbn; now rewrite app_nil_r.
  - inversion Hn as [|? ? N1 N2]; subst. cbn [app quote_parts]. destruct n as [|c n]; [exfalso; apply (proj1 N1); reflexivity|].
    apply quoted_quote in Q. rewrite Q. cbn [rbind]. rewrite IH by exact N2. cbn [chained]. now rewrite <- app_assoc.
Qed.

Lemma names_no : forall names c, Forall name names -> In c [47; 92; 58; 10]%N -> Forall (fun n => ~ In c n) names.
Proof. intros names c H I. eapply Forall_impl; [|exact H]. intros n Hn. now apply name_not. Qed.

Lemma urls_no : forall names us c, Forall name names -> Forall2 quoted names us -> In c [47; 92; 58; 124; 10]%N -> Forall (fun u => ~ In c u) us.
Proof.
  intros names us c H Q I. induction Q as [|n u names us X Q IH]; [constructor|]. inversion H; subst.
  constructor; [exact (quoted_not n u c H2 X I)|auto].
Qed.

Lemma chained_no : forall x names b c, c <> x -> Forall (fun n => ~ In c n) names -> ~ In c (chained x names ++ last_sep x b).
Proof.
  intros x names b c N H. induction H as [|n names Hn H IH].
  - destruct b; cbn; intuition.
  - cbn [chained app]. rewrite <- app_assoc. intros [X|X]; [congruence|]. apply in_app_or in X. destruct X; auto.
Qed.

Lemma existsb_in : forall c s, existsb (N.eqb c) s = true <-> In c s.
Proof.
  intros c s. split.
  - intros H. apply existsb_exists in H. destruct H as (x & A & B). apply N.eqb_eq in B. now subst.
  - intros H. apply existsb_exists. exists c. split; [exact H|apply N.eqb_refl].
Qed.
Lemma existsb_out : forall c s, ~ In c s -> existsb (N.eqb c) s = false.
Proof. intros c s H. destruct (existsb (N.eqb c) s) eqn:E; [|reflexivity]. apply existsb_in in E. contradiction. Qed.

(** ** Ends *)
Lemma rev_inj_last : forall A (l q : list A) x, l = q ++ [x] -> rev l = x :: rev q.
Proof. intros. subst. now rewrite rev_app_distr. Qed.

Lemma skipn_len : forall A (q r : list A), skipn (length q) (q ++ r) = r.
Proof. intros A q r. induction q; auto. Qed.

Lemma ends1 : forall q c x, ends_with [x] (q ++ [c]) = N.eqb x c.
Proof.
  intros q c x. unfold ends_with. rewrite app_length. cbn [length].
  replace (length q + 1 - 1) with (length q) by lia. rewrite skipn_len. replace (1 <=? length q + 1) with true by (symmetry; apply Nat.leb_le; lia).
  cbn. destruct (x =? c)%N; reflexivity.
Qed.

Lemma is_dir_sep : forall q c s, is_sep c = false -> is_sep s = true -> is_dir (q ++ [c; s]) = true.
Proof.
  intros q c s Hc Hs. unfold is_dir, sep_at_end. replace (q ++ [c; s]) with ((q ++ [c]) ++ [s]) by (rewrite <- app_assoc; reflexivity).
  rewrite !rev_app_distr. cbn. now rewrite Hs, Hc.
Qed.

Lemma is_dir_not : forall q c, is_sep c = false -> c <> 10%N -> is_dir (q ++ [c]) = false.
Proof.
  intros q c Hc N. unfold is_dir. rewrite ends1. destruct (N.eqb_spec 10 c); [congruence|]. rewrite Bool.orb_false_r.
  unfold sep_at_end. rewrite rev_app_distr. cbn. destruct (rev q); [reflexivity|]. now rewrite Hc.
Qed.

Lemma not_sep : forall c, c <> 47%N -> c <> 92%N -> is_sep c = false.
Proof. intros c A B. unfold is_sep. change (chr "/") with 47%N. change (chr "\") with 92%N. apply N.eqb_neq in A, B. now rewrite A, B. Qed.

(** The last character of what comes before the last separator *)
Lemma chained_end : forall x names, names <> [] -> Forall (fun n => n <> []) names ->
  exists q c n, chained x names = q ++ [c] /\ In n names /\ In c n.
Proof.
  intros x names H F. induction F as [|n names Hn F IH]; [now destruct H|]. destruct names as [|m names].
  - cbn [chained]. rewrite app_nil_r. destruct (exists_last Hn) as (q & c & ->). exists (x :: q), c, (q ++ [c]).
    repeat split; [now left|]. apply in_or_app. right. now left.
  - destruct IH as (q & c & k & A & B & C); [discriminate|]. exists (x :: n ++ q), c, k. split; [|split; [now right|exact C]].
    cbn [chained] in *. rewrite A. cbn. now rewrite <- app_assoc.
Qed.

Lemma is_dir_last : forall q c s b, is_sep c = false -> c <> 10%N -> is_sep s = true -> is_dir ((q ++ [c]) ++ last_sep s b) = b.
Proof.
  intros q c s b Hc N Hs. destruct b; cbn [last_sep].
  - rewrite <- app_assoc. now apply is_dir_sep.
  - rewrite app_nil_r. now apply is_dir_not.
Qed.

(** Whether a separator is added at the end *)
Lemma add_last : forall q c x b, c <> x ->
  (if b && negb (ends_with [x] (q ++ [c])) then (q ++ [c]) ++ [x] else q ++ [c]) = (q ++ [c]) ++ last_sep x b.
Proof.
  intros q c x b N. rewrite ends1. destruct (N.eqb_spec x c); [congruence|]. destruct b; cbn; now rewrite ?app_nil_r.
Qed.
Lemma keep_last : forall q c x b, c <> x ->
  (if b && negb (ends_with [x] ((q ++ [c]) ++ last_sep x b)) then ((q ++ [c]) ++ last_sep x b) ++ [x] else (q ++ [c]) ++ last_sep x b)
  = (q ++ [c]) ++ last_sep x b.
Proof.
  intros q c x b N. destruct b; [|reflexivity]. cbn [last_sep andb]. rewrite ends1, N.eqb_refl. reflexivity.
Qed.

Lemma name_nil : forall n, name n -> n <> [].
Proof. intros n H. apply H. Qed.

Lemma names_end : forall x names, names <> [] -> Forall name names ->
  exists q c, chained x names = q ++ [c] /\ ~ In c [47; 92; 58; 10]%N.
Proof.
  intros x names H F. destruct (chained_end x names H) as (q & c & n & A & B & C).
  - eapply Forall_impl; [|exact F]. exact name_nil.
  - exists q, c. split; [exact A|]. intros X. rewrite Forall_forall in F. exact (name_not n c (F n B) X C).
Qed.

Lemma starts_hd : forall x p c s, c <> x -> starts_with (x :: p) (c :: s) = false.
Proof. intros x p c s H. unfold starts_with. cbn. destruct (N.eqb_spec x c); [congruence|reflexivity]. Qed.
Lemma starts_tl : forall x p s, starts_with (x :: p) (x :: s) = starts_with p s.
Proof. intros x p s. unfold starts_with. cbn. now rewrite N.eqb_refl. Qed.

Lemma letter_up : forall c, letter c -> up c = capital c.
Proof. intros c H. unfold up, capital, is_lower, letter in *. change (chr "a") with 97%N. change (chr "z") with 122%N. ncase; reflexivity. Qed.
Lemma letter_capital : forall c, letter c -> (65 <= capital c <= 90)%N.
Proof. intros c H. unfold capital, letter in *. ncase. Qed.

Lemma quote_letter : forall c, letter c -> quote (upper [c]) = Ok [capital c].
Proof.
  intros c H. cbn [upper map]. rewrite letter_up by exact H. apply quote_safe. constructor; [|constructor].
  left. pose proof (letter_capital c H). unfold unreserved. lia.
Qed.

Lemma quote_slashes : forall s u, quote s = Ok u -> quote ([47; 47; 47]%N ++ s) = Ok ([47; 47; 47]%N ++ u).
Proof. intros s u H. apply quote_app; [reflexivity|exact H]. Qed.

(** *** From paths to URLs *)
Lemma to_url_plain : forall p, ~ In 58%N p -> starts_with unc_prefix p = false ->
  pathname2url p = quote (swap 92 47 (if starts_with [92; 92]%N p then 92%N :: 92%N :: p else p)).
Proof.
  intros p H P. unfold pathname2url. change (lit "\\?\") with unc_prefix. rewrite P. cbn [rbind].
  change (chr ":") with 58%N. rewrite existsb_out by exact H. change (lit "/") with [47%N]. change (chr "\") with 92%N. cbv zeta.
  rewrite join_split_swap. change (lit "\\") with [92; 92]%N. cbn [app]. reflexivity.
Qed.

Lemma tl_app : forall (a b : list N), a <> [] -> tl (a ++ b) = tl a ++ b.
Proof. intros a b H. destruct a; [congruence|reflexivity]. Qed.

Lemma here_end : forall x names, names <> [] -> Forall (fun n => n <> []) names ->
  exists q c n, tl (chained x names) = q ++ [c] /\ In n names /\ In c n.
Proof.
  intros x names H F. destruct names as [|m names]; [congruence|]. cbn [chained tl]. inversion F; subst. destruct names as [|k names].
  - cbn. rewrite app_nil_r. destruct (exists_last H2) as (q & c & ->). exists q, c, (q ++ [c]). repeat split; [now left|]. apply in_or_app. right. now left.
  - destruct (chained_end x (k :: names)) as (q & c & n & A & B & C); [discriminate|assumption|]. rewrite A. exists (m ++ q), c, n.
    rewrite <- app_assoc. split; [reflexivity|]. split; [now right|exact C].
Qed.

Lemma urls_nil : forall names us, Forall name names -> Forall2 quoted names us -> Forall (fun u => u <> []) us.
Proof.
  intros names us H Q. induction Q as [|n u names us X Q IH]; [constructor|]. inversion H; subst. constructor; [exact (quoted_nil n u H2 X)|auto].
Qed.

Lemma forward : forall w us, proper w -> Forall2 quoted (w_names w) us -> path2urlpath (text w) = Ok (url_text w us).
Proof.
  intros [s names b] us (Hn & Hs) Q. cbn [w_names w_start w_last text url_text] in *.
  pose proof (names_no names 58%N Hn ltac:(cbn; tauto)) as No58. pose proof (names_no names 92%N Hn ltac:(cbn; tauto)) as No92.
  pose proof (urls_nil _ _ Hn Q) as Un. pose proof (urls_no _ _ 47%N Hn Q ltac:(cbn; tauto)) as U47.
  assert (Nn : Forall (fun n => n <> []) names) by (eapply Forall_impl; [|exact Hn]; exact name_nil).
  assert (Len : names = [] <-> us = []) by (inversion Q; subst; split; congruence).
  unfold path2urlpath, text, url_text. cbn [w_names w_start w_last]. destruct s as [c| | |].
  - (* a drive *)
    destruct Hs as (L & Hb). assert (Sx : is_sep 58 = false) by reflexivity.
    assert (starts_with unc_prefix (c :: 58%N :: chained 92 names ++ last_sep 92 b) = false) as P.
    { change unc_prefix with [92; 92; 63; 92]%N. apply starts_hd. unfold letter in L. lia. }
    rewrite P. cbv zeta. unfold pathname2url at 1. change (lit "\\?\") with unc_prefix. rewrite P. cbn [rbind].
    change (chr ":") with 58%N. rewrite (proj2 (existsb_in 58 _)) by (right; now left).
    assert (split_on 58 (c :: 58%N :: chained 92 names ++ last_sep 92 b) = [[c]; chained 92 names ++ last_sep 92 b]) as E.
    { change (c :: 58%N :: chained 92 names ++ last_sep 92 b) with ([c] ++ 58%N :: (chained 92 names ++ last_sep 92 b)).
      rewrite split_on_app by (intros [X|[]]; unfold letter in L; lia). now rewrite split_on_none by (now apply chained_no). }
    rewrite E. cbn [length Nat.ltb Nat.leb]. rewrite quote_letter by exact L. cbn [rbind]. change (chr "\") with 92%N.
    rewrite split_chained by exact No92. cbn [quote_parts]. rewrite quote_parts_names with (us := us) by assumption. cbn [rbind]. f_equal.
    change (lit "/") with [47%N]. change (lit "///" ++ [capital c] ++ lit ":") with ([47; 47; 47; capital c]%N ++ [58%N]).
    destruct names as [|n0 names0].
    + specialize (Hb eq_refl). subst b. inversion Q; subst. cbn [chained app last_sep].
      change (c :: 58%N :: [92%N]) with ([c] ++ [58; 92]%N). rewrite is_dir_sep by reflexivity. cbn [andb].
      change [47; 47; 47; capital c; 58]%N with ([47; 47; 47; capital c]%N ++ [58%N]). rewrite ends1. reflexivity.
    + destruct (names_end 92 (n0 :: names0)) as (q & d & A & B); [discriminate|exact Hn|]. rewrite A.
      change (c :: 58%N :: (q ++ [d]) ++ last_sep 92 b) with (([c; 58%N] ++ (q ++ [d])) ++ last_sep 92 b). rewrite app_assoc.
      rewrite is_dir_last; [|apply not_sep; intros ->; apply B; cbn; tauto|intros ->; apply B; cbn; tauto|reflexivity].
      destruct (chained_end 47 us) as (r & e & v & A' & B' & C'); [intros X; apply Len in X; discriminate|exact Un|]. rewrite A'.
      rewrite app_assoc. rewrite add_last.
      * now rewrite <- !app_assoc.
      * intros ->. rewrite Forall_forall in U47. exact (U47 v B' C').
  - (* a share *)
    destruct Hs as (host & more & -> & NotQ).
    assert (No : ~ In 58%N (chained 92 (host :: more) ++ last_sep 92 b)) by (now apply chained_no).
    assert (starts_with unc_prefix (92%N :: chained 92 (host :: more) ++ last_sep 92 b) = false) as P.
    { cbn [chained app]. change unc_prefix with [92; 92; 63; 92]%N. rewrite !starts_tl. inversion Hn as [|? ? N1 N2]; subst.
      destruct host as [|h0 host]; [now destruct (name_nil _ N1)|]. cbn [app]. destruct (N.eq_dec h0 63) as [->|]; [|now apply starts_hd].
      rewrite starts_tl. destruct host as [|h1 host]; [now destruct NotQ|]. cbn [app]. apply starts_hd. intros ->.
      apply (name_not _ 92%N N1); cbn; tauto. }
    rewrite P. cbv zeta. rewrite to_url_plain; [|intros [X|X]; [discriminate|exact (No X)]|exact P].
    assert (starts_with [92; 92]%N (92%N :: chained 92 (host :: more) ++ last_sep 92 b) = true) as ->.
    { cbn [chained app]. rewrite !starts_tl. reflexivity. }
    change (92%N :: 92%N :: 92%N :: chained 92 (host :: more) ++ last_sep 92 b) with ([92; 92; 92]%N ++ (chained 92 (host :: more) ++ last_sep 92 b)).
    rewrite swap_app. rewrite swap_chained by exact No92. change (swap 92 47 [92; 92; 92]%N) with [47; 47; 47]%N.
    rewrite (quote_slashes _ _ (quote_chained _ _ b Q)). cbn [rbind]. f_equal.
    destruct (names_end 92 (host :: more)) as (q & d & A & B); [discriminate|exact Hn|]. rewrite A.
    change (92%N :: (q ++ [d]) ++ last_sep 92 b) with (([92%N] ++ (q ++ [d])) ++ last_sep 92 b). rewrite app_assoc.
    rewrite is_dir_last; [|apply not_sep; intros ->; apply B; cbn; tauto|intros ->; apply B; cbn; tauto|reflexivity].
    destruct (chained_end 47 us) as (r & e & v & A' & B' & C'); [intros X; apply Len in X; discriminate|exact Un|]. rewrite A'.
    change (lit "/") with [47%N]. rewrite !app_assoc. apply keep_last. intros ->. rewrite Forall_forall in U47. exact (U47 v B' C').
  - (* the root *)
    destruct names as [|n0 names0].
    + inversion Q; subst. reflexivity.
    + destruct us as [|u0 us0]; [now inversion Q|].
      assert (No : ~ In 58%N (chained 92 (n0 :: names0) ++ last_sep 92 b)) by (now apply chained_no).
      inversion Hn as [|? ? N1 N2]; subst. pose proof (name_nil _ N1) as Hnil. assert (H92 : ~ In 92%N n0) by (apply name_not; [exact N1|cbn; tauto]).
      assert (Pre : forall p, starts_with (92%N :: 92%N :: p) (chained 92 (n0 :: names0) ++ last_sep 92 b) = false).
      { intros p. cbn [chained app]. rewrite starts_tl. destruct n0 as [|h n0]; [congruence|]. cbn [app]. apply starts_hd. intros ->. apply H92. now left. }
      assert (P : starts_with unc_prefix (chained 92 (n0 :: names0) ++ last_sep 92 b) = false) by apply Pre. rewrite P.
      cbv zeta. rewrite to_url_plain; [|exact No|exact P]. rewrite Pre.
      rewrite swap_chained by exact No92. rewrite (quote_chained _ _ b Q). cbn [rbind]. f_equal.
      destruct (names_end 92 (n0 :: names0)) as (q & d & A & B); [discriminate|exact Hn|]. rewrite A.
      rewrite is_dir_last; [|apply not_sep; intros ->; apply B; cbn; tauto|intros ->; apply B; cbn; tauto|reflexivity].
      destruct (chained_end 47 (u0 :: us0)) as (r & e & v & A' & B' & C'); [discriminate|exact Un|]. rewrite A'.
      change (lit "/") with [47%N]. apply keep_last. intros ->. rewrite Forall_forall in U47. exact (U47 v B' C').
  - (* the current folder *)
    destruct names as [|n0 names0]; [congruence|]. destruct us as [|u0 us0]; [now inversion Q|].
    assert (No : ~ In 58%N (tl (chained 92 (n0 :: names0) ++ last_sep 92 b))).
    { intros X. apply (chained_no 92 (n0 :: names0) b 58%N); [discriminate|exact No58|]. cbn [chained app tl] in *. now right. }
    inversion Hn as [|? ? N1 N2]; subst. pose proof (name_nil _ N1) as Hnil. assert (H92 : ~ In 92%N n0) by (apply name_not; [exact N1|cbn; tauto]).
    assert (Pre : forall p, starts_with (92%N :: p) (tl (chained 92 (n0 :: names0) ++ last_sep 92 b)) = false).
    { intros p. cbn [chained app tl]. destruct n0 as [|h n0]; [congruence|]. cbn [app]. apply starts_hd. intros ->. apply H92. now left. }
    assert (P : starts_with unc_prefix (tl (chained 92 (n0 :: names0) ++ last_sep 92 b)) = false) by apply Pre. rewrite P.
    cbv zeta. rewrite to_url_plain; [|exact No|exact P]. rewrite Pre.
    assert (swap 92 47 (tl (chained 92 (n0 :: names0) ++ last_sep 92 b)) = tl (chained 47 (n0 :: names0) ++ last_sep 47 b)) as ->.
    { pose proof (swap_chained 92 47 (n0 :: names0) b No92) as X. cbn [chained app tl] in *. cbn [swap map] in X. now injection X. }
    rewrite (quote_tl (n0 :: names0) (u0 :: us0) b ltac:(discriminate) Q). cbn [rbind]. f_equal.
    rewrite (tl_app (chained 92 (n0 :: names0))) by discriminate. rewrite (tl_app (chained 47 (u0 :: us0))) by discriminate.
    destruct (here_end 92 (n0 :: names0)) as (q & d & k & A & B & C); [discriminate|exact Nn|]. rewrite A.
    assert (D : ~ In d [47; 92; 58; 10]%N) by (intros X; rewrite Forall_forall in Hn; exact (name_not k d (Hn k B) X C)).
    rewrite is_dir_last; [|apply not_sep; intros ->; apply D; cbn; tauto|intros ->; apply D; cbn; tauto|reflexivity].
    destruct (here_end 47 (u0 :: us0)) as (r & e & v & A' & B' & C'); [discriminate|exact Un|]. rewrite A'.
    change (lit "/") with [47%N]. apply keep_last. intros ->. rewrite Forall_forall in U47. exact (U47 v B' C').
Qed.

(** *** From URLs to paths *)
Lemma hex_upper_hex : forall h, hex_upper h -> exists x, hex h x.
Proof.
  intros h H. unfold hex_upper in H. assert (exists x, hex_val h = Some x) as (x & X).
  { unfold hex_val, is_digit. ncase; cbn; eexists; reflexivity. }
  exists x. now apply hex_val_spec.
Qed.

Lemma path_spells : forall u, url_path u -> exists bs, forall v bs', spells v bs' -> spells (u ++ v) (bs ++ bs').
Proof.
  intros u H. induction H as [|c u X H (bs & IH)|h l u A B H (bs & IH)].
  - exists []. auto.
  - exists (c :: bs). intros v bs' S. cbn. apply SChar; [unfold unreserved in X; lia|unfold unreserved in X; lia|auto].
  - destruct (hex_upper_hex _ A) as (x & A'), (hex_upper_hex _ B) as (y & B'). exists ((16 * x + y)%N :: bs).
    intros v bs' S. cbn. apply SByte; auto.
Qed.

Lemma text_app : forall s bs s' bs', utf8_text s bs -> utf8_text s' bs' -> utf8_text (s ++ s') (bs ++ bs').
Proof. intros s bs s' bs' H K. induction H; [exact K|]. cbn. rewrite <- app_assoc. now constructor. Qed.

(** What is read of a proper URL path, before whatever else *)
Definition part (n u : list N) : Prop :=
  exists bs, utf8_text n bs /\ forall v bs', spells v bs' -> spells (u ++ v) (bs ++ bs').

Lemma reads_part : forall n u, reads u n -> url_path u -> part n u.
Proof.
  intros n u R P. destruct (path_spells u P) as (bs & H). exists bs. split; [|exact H]. pose proof (url_path_ascii u P) as A.
  inversion R as [u' bs0 s' S T|u1 bs1 s1 c u2 s2 S T L R2]; subst.
  - specialize (H [] [] SNil). rewrite !app_nil_r in H. apply spells_unquote in H, S. now rewrite <- H, S.
  - exfalso. apply Forall_app in A. destruct A as (_ & A). inversion A; subst. lia.
Qed.

Lemma parts_read : forall x names us b, (x < 128)%N -> x <> 37%N -> Forall2 part names us ->
  exists bs, utf8_text (chained x names ++ last_sep x b) bs /\ spells (chained x us ++ last_sep x b) bs.
Proof.
  intros x names us b L N H. induction H as [|n u names us (bs & T & S) H (bs' & T' & S')].
  - destruct b; cbn; [exists [x]|exists []]; split; try constructor; auto; try constructor.
    change [x] with ([x] ++ []) at 2. repeat constructor. exact L.
  - exists ([x] ++ bs ++ bs'). cbn [chained app]. rewrite <- !app_assoc. split.
    + apply (TCons x [x]); [now constructor|]. now apply text_app.
    + constructor; auto.
Qed.

Section Back.
  Variable lossy : list N -> list N.

  Definition good (n u : list N) : Prop := name n /\ reads u n /\ url_path u /\ ~ In 47%N u.

  Lemma path_chars : forall u c, url_path u -> In c u -> unreserved c \/ c = 47%N \/ c = 37%N.
  Proof.
    intros u c H. induction H as [|d u X H IH|h l u A B H IH]; intros I; [destruct I| |].
    - destruct I as [<-|I]; [tauto|auto].
    - destruct I as [<-|[<-|[<-|I]]]; auto; left; unfold hex_upper, unreserved in *; lia.
  Qed.

  Lemma good_not : forall n u c, good n u -> In c [47; 92; 58; 124; 10]%N -> ~ In c u.
  Proof.
    intros n u c (_ & _ & P & S) I H. destruct (path_chars u c P H) as [X|[->|X]]; [|contradiction|]; cbn in I; unfold unreserved in *; lia.
  Qed.

  Lemma good_nil : forall n u, good n u -> u <> [].
  Proof.
    intros n u (N & R & _) ->. apply (reads_unquote lossy) in R. cbn in R. subst. apply (name_nil _ N). reflexivity.
  Qed.

  Lemma goods_no : forall names us c, Forall2 good names us -> In c [47; 92; 58; 124; 10]%N -> Forall (fun u => ~ In c u) us.
  Proof. intros names us c H I. induction H; constructor; [eapply good_not; eassumption|assumption]. Qed.
  Lemma goods_nil : forall names us, Forall2 good names us -> Forall (fun u => u <> []) us.
  Proof. intros names us H. induction H; constructor; [eapply good_nil; eassumption|assumption]. Qed.
  Lemma goods_part : forall names us, Forall2 good names us -> Forall2 part names us.
  Proof. intros names us H. induction H as [|n u names us (_ & R & P & _) H IH]; constructor; [now apply reads_part|assumption]. Qed.
  Lemma goods : forall w us, proper w -> url_names w us -> Forall2 good (w_names w) us.
  Proof.
    intros w us (H & _) U. unfold url_names in U. induction U as [|n u names us X U IH]; [constructor|]. inversion H; subst.
    constructor; [split; assumption|auto].
  Qed.

  Lemma unquote_parts_names : forall names us (b : bool), Forall2 good names us -> forall path,
    unquote_parts lossy path (us ++ (if b then [[]] else [])) = path ++ chained 92 names.
  Proof.
    intros names us b H. induction H as [|n u names us G H IH]; intros path.
    - destruct b; cbn; now rewrite app_nil_r.
    - cbn [app unquote_parts]. pose proof (good_nil _ _ G) as Nil. destruct u as [|c u]; [congruence|]. rewrite IH.
      destruct G as (_ & R & _). apply (reads_unquote lossy) in R. rewrite R. cbn [chained]. now rewrite <- app_assoc.
  Qed.

  Lemma replace_none : forall x y s, ~ In x s -> replace1 x y s = s.
  Proof.
    intros x y. induction s as [|c s IH]; intros H; [reflexivity|]. cbn. destruct (N.eqb_spec c x) as [->|]; [destruct H; now left|].
    f_equal. apply IH. intros X. apply H. now right.
  Qed.
  Lemma replace_app : forall x y a b, replace1 x y (a ++ b) = replace1 x y a ++ replace1 x y b.
  Proof. intros x y a b. induction a as [|c a IH]; [reflexivity|]. cbn. destruct (c =? x)%N; rewrite IH; [now rewrite app_assoc|reflexivity]. Qed.

  Lemma reads_chain : forall names us b, Forall2 good names us ->
    unquote lossy (chained 92 us ++ last_sep 92 b) = chained 92 names ++ last_sep 92 b.
  Proof.
    intros names us b G. destruct (parts_read 92 names us b) as (bs & T & S); [reflexivity|discriminate|now apply goods_part|].
    apply reads_unquote. now apply RRun with bs.
  Qed.
  Lemma reads_more : forall pre n u names us b, Forall (fun c => c < 128 /\ c <> 37)%N pre -> good n u -> Forall2 good names us ->
    unquote lossy (pre ++ u ++ chained 92 us ++ last_sep 92 b) = pre ++ n ++ chained 92 names ++ last_sep 92 b.
  Proof.
    intros pre n u names us b F (_ & R & P & _) G. destruct (parts_read 92 names us b) as (bs & T & S); [reflexivity|discriminate|now apply goods_part|].
    destruct (reads_part n u R P) as (bu & Tu & Su). apply reads_unquote.
    assert (X : forall v s bv, spells v bv -> utf8_text s bv -> exists bw, spells (pre ++ v) bw /\ utf8_text (pre ++ s) bw).
    { intros v s bv A B. clear - F A B. induction F as [|c pre (L & N) F (bw & C & D)]; [exists bv; auto|]. exists ([c] ++ bw).
      split; [now constructor|]. apply (TCons c [c]); [now constructor|exact D]. }
    destruct (X (u ++ chained 92 us ++ last_sep 92 b) (n ++ chained 92 names ++ last_sep 92 b) (bu ++ bs)) as (bw & C & D);
      [now apply Su|now apply text_app|]. now apply RRun with bw.
  Qed.

  Definition short (p : list N) : list N := if (200 <? length p)%nat then p ++ unc_prefix else p.

  Lemma back_drive : forall pre c names us b, ~ In 58%N pre -> ~ In 124%N pre -> letter c -> Forall2 good names us ->
    (names = [] -> b = true) ->
    urlpath2path lossy (pre ++ c :: 58%N :: chained 47 us ++ last_sep 47 b)
    = Ok (short (capital c :: 58%N :: chained 92 names ++ last_sep 92 b)).
  Proof.
    intros pre c names us b P1 P2 L G Hb. unfold urlpath2path, url2pathname.
    pose proof (goods_no _ _ 58%N G ltac:(cbn; tauto)) as U58. pose proof (goods_no _ _ 124%N G ltac:(cbn; tauto)) as U124.
    pose proof (goods_no _ _ 47%N G ltac:(cbn; tauto)) as U47. pose proof (goods_nil _ _ G) as Un.
    assert (Len : names = [] <-> us = []) by (inversion G; subst; split; congruence).
    assert (Nn : Forall name names) by (clear - G; induction G; constructor; [apply H|assumption]).
    assert (Hc : c <> 58%N /\ c <> 124%N) by (unfold letter in L; lia).
    change (chr ":") with 58%N. change (lit "|") with [124%N]. change (chr "|") with 124%N.
    assert (R : replace1 58 [124%N] (pre ++ c :: 58%N :: chained 47 us ++ last_sep 47 b) = (pre ++ [c]) ++ 124%N :: (chained 47 us ++ last_sep 47 b)).
    { rewrite replace_app, (replace_none 58 _ pre) by exact P1. cbn [replace1]. destruct (N.eqb_spec c 58) as [->|]; [tauto|].
      rewrite N.eqb_refl, replace_none by (now apply chained_no). rewrite <- app_assoc. reflexivity. }
    rewrite R. cbv zeta. rewrite (proj2 (existsb_in 124 _)) by (apply in_or_app; right; now left).
    rewrite split_on_app; [|intros X; apply in_app_or in X; destruct X as [X|[X|[]]]; [exact (P2 X)|tauto]].
    rewrite split_on_none by (now apply chained_no). rewrite rev_app_distr. cbn [rev app].
    assert (is_alpha c = true) as ->.
    { unfold is_alpha, is_upper, is_lower. unfold letter in L. change (chr "A") with 65%N. change (chr "Z") with 90%N. change (chr "a") with 97%N. change (chr "z") with 122%N.
      clear - L. ncase; reflexivity. }
    rewrite letter_up by exact L. change (chr "/") with 47%N. rewrite split_chained by exact U47. cbn [unquote_parts].
    rewrite unquote_parts_names with (names := names) by exact G. change (lit ":") with [58%N]. change (lit "/") with [47%N]. change (lit "\") with [92%N].
    cbn [rbind]. destruct names as [|n0 names0].
    - specialize (Hb eq_refl). subst b. inversion G; subst. cbn [chained app last_sep].
      assert (ends_with [47%N] ((pre ++ [c]) ++ [124; 47]%N) = true) as ->.
      { replace ((pre ++ [c]) ++ [124; 47]%N) with ((pre ++ [c; 124%N]) ++ [47%N]) by (rewrite <- !app_assoc; reflexivity). now rewrite ends1. }
      assert (ends_with [58%N] [capital c; 58%N] = true) as -> by (exact (ends1 [capital c] 58%N 58%N)). cbn [andb app].
      assert (ends_with [92%N] [capital c; 58%N; 92%N] = true) as -> by (exact (ends1 [capital c; 58%N] 92%N 92%N)).
      cbn [negb]. rewrite Bool.andb_false_r. reflexivity.
    - destruct (names_end 92 (n0 :: names0)) as (q & d & A & B); [discriminate|exact Nn|]. rewrite A. rewrite !app_assoc.
      rewrite ends1. destruct (N.eqb_spec 58 d) as [<-|]; [destruct B; cbn; tauto|]. cbn [andb].
      destruct (chained_end 47 us) as (r & e & v & A' & B' & C'); [intros X; apply Len in X; discriminate|exact Un|]. rewrite A'.
      assert (is_dir (pre ++ c :: 58%N :: (r ++ [e]) ++ last_sep 47 b) = b) as ->.
      { replace (pre ++ c :: 58%N :: (r ++ [e]) ++ last_sep 47 b) with (((pre ++ [c; 58%N] ++ r) ++ [e]) ++ last_sep 47 b).
        - apply is_dir_last; [|intros ->|reflexivity].
          + apply not_sep; intros ->; [rewrite Forall_forall in U47; exact (U47 v B' C')|].
            pose proof (goods_no _ _ 92%N G ltac:(cbn; tauto)) as U. rewrite Forall_forall in U. exact (U v B' C').
          + pose proof (goods_no _ _ 10%N G ltac:(cbn; tauto)) as U. rewrite Forall_forall in U. exact (U v B' C').
        - rewrite <- !app_assoc. reflexivity. }
      rewrite add_last by (intros ->; apply B; cbn; tauto). unfold short. cbn [app]. now rewrite <- !app_assoc.
  Qed.

  Lemma from_url_plain : forall u, ~ In 58%N u -> ~ In 124%N u ->
    url2pathname lossy u = Ok (unquote lossy (swap 47 92 (if starts_with [47; 47; 47; 47]%N u then skipn 2 u else u))).
  Proof.
    intros u A B. unfold url2pathname. change (chr ":") with 58%N. change (chr "|") with 124%N. rewrite replace_none by exact A.
    rewrite existsb_out by exact B. cbv zeta. change (lit "////") with [47; 47; 47; 47]%N. change (lit "\") with [92%N]. change (chr "/") with 47%N.
    now rewrite join_split_swap.
  Qed.

  Lemma back : forall w us, proper w -> url_names w us -> urlpath2path lossy (url_text w us) = Ok (short (text (capitalised w))).
  Proof.
    intros w us Pw U. pose proof (goods w us Pw U) as G. destruct w as [s names b]. destruct Pw as (Nn & Hs). cbn [w_names w_start w_last] in *.
    pose proof (goods_no _ _ 58%N G ltac:(cbn; tauto)) as U58. pose proof (goods_no _ _ 124%N G ltac:(cbn; tauto)) as U124.
    pose proof (goods_no _ _ 47%N G ltac:(cbn; tauto)) as U47. pose proof (goods_no _ _ 92%N G ltac:(cbn; tauto)) as U92.
    pose proof (goods_no _ _ 10%N G ltac:(cbn; tauto)) as U10. pose proof (goods_nil _ _ G) as Un.
    assert (Ce : forall q n e, In n us -> In e n -> is_dir ((q ++ [e]) ++ last_sep 47 b) = b).
    { intros q n e B C. rewrite Forall_forall in U47, U92, U10. apply is_dir_last; [apply not_sep| |reflexivity]; intros ->;
        [exact (U47 n B C)|exact (U92 n B C)|exact (U10 n B C)]. }
    unfold capitalised, text, url_text. cbn [w_names w_start w_last]. destruct s as [c| | |].
    - destruct Hs as (L & Hb).
      assert (C2 : capital (capital c) = capital c) by (pose proof (letter_capital c L); unfold capital at 1; ncase).
      pose proof (back_drive [47; 47; 47]%N (capital c) names us b) as X. rewrite C2 in X. apply X; [| | |exact G|exact Hb].
      + cbn. intuition discriminate.
      + cbn. intuition discriminate.
      + pose proof (letter_capital c L). unfold letter. lia.
    - destruct Hs as (host & more & -> & _). unfold urlpath2path.
      rewrite from_url_plain; [|intros X; apply in_app_or in X; destruct X as [X|X]; [cbn in X; intuition discriminate|revert X; now apply chained_no] ..].
      inversion G as [|? u0 ? us0 G0 Gs]; subst. cbn [chained app]. rewrite !starts_tl. cbn [starts_with str_eqb length firstn skipn].
      change (47%N :: 47%N :: (u0 ++ chained 47 us0) ++ last_sep 47 b) with ([47%N] ++ (chained 47 (u0 :: us0) ++ last_sep 47 b)).
      rewrite swap_app, swap_chained by exact U47. change (swap 47 92 [47%N]) with [92%N]. cbn [chained app].
      change (92%N :: 92%N :: (u0 ++ chained 92 us0) ++ last_sep 92 b) with ([92; 92]%N ++ ((u0 ++ chained 92 us0) ++ last_sep 92 b)).
      rewrite <- app_assoc. rewrite (reads_more [92; 92]%N host u0 more us0 b); [|repeat constructor; discriminate|exact G0|exact Gs].
      cbn [rbind]. destruct (chained_end 47 (u0 :: us0)) as (r & e & v & A' & B' & C'); [discriminate|exact Un|].
      assert (is_dir (47%N :: 47%N :: 47%N :: 47%N :: (u0 ++ chained 47 us0) ++ last_sep 47 b) = b) as ->.
      { change (is_dir ([47; 47; 47]%N ++ (chained 47 (u0 :: us0) ++ last_sep 47 b)) = b). rewrite A', !app_assoc. eapply Ce; eassumption. }
      destruct (names_end 92 (host :: more)) as (q & d & A & B); [discriminate|exact Nn|].
      assert (E : [92; 92]%N ++ host ++ chained 92 more ++ last_sep 92 b = ((92%N :: q) ++ [d]) ++ last_sep 92 b).
      { assert (E2 : [92; 92]%N ++ host ++ chained 92 more ++ last_sep 92 b = 92%N :: chained 92 (host :: more) ++ last_sep 92 b)
          by (cbn [chained app]; now rewrite <- app_assoc).
        rewrite E2, A. reflexivity. }
      rewrite E. change (lit "\") with [92%N]. rewrite keep_last by (intros ->; apply B; cbn; tauto). rewrite <- E. unfold short. cbn [app]. now rewrite <- !app_assoc.
    - unfold urlpath2path. destruct names as [|n0 names0].
      + inversion G; subst. rewrite from_url_plain by (cbn; intuition discriminate). reflexivity.
      + destruct us as [|u0 us0]; [now inversion G|].
        rewrite from_url_plain by (now apply chained_no).
        assert (starts_with [47; 47; 47; 47]%N (chained 47 (u0 :: us0) ++ last_sep 47 b) = false) as ->.
        { cbn [chained app]. rewrite starts_tl. inversion Un; subst. inversion U47; subst. destruct u0 as [|h u0]; [congruence|]. cbn [app]. apply starts_hd.
          intros ->. apply H3. now left. }
        rewrite swap_chained by exact U47. rewrite (reads_chain _ _ b G). cbn [rbind].
        destruct (chained_end 47 (u0 :: us0)) as (r & e & v & A' & B' & C'); [discriminate|exact Un|]. rewrite A'. rewrite (Ce r v e B' C').
        destruct (names_end 92 (n0 :: names0)) as (q & d & A & B); [discriminate|exact Nn|]. rewrite A.
        change (lit "\") with [92%N]. rewrite keep_last by (intros ->; apply B; cbn; tauto). reflexivity.
    - destruct names as [|n0 names0]; [congruence|]. destruct us as [|u0 us0]; [now inversion G|]. unfold urlpath2path.
      assert (T : forall c, c <> 47%N -> Forall (fun u => ~ In c u) (u0 :: us0) -> ~ In c (tl (chained 47 (u0 :: us0) ++ last_sep 47 b))).
      { intros c N F X. apply (chained_no 47 (u0 :: us0) b c N F). cbn [chained app tl] in *. now right. }
      rewrite from_url_plain by (apply T; [discriminate|assumption]).
      assert (starts_with [47; 47; 47; 47]%N (tl (chained 47 (u0 :: us0) ++ last_sep 47 b)) = false) as ->.
      { cbn [chained app tl]. inversion Un; subst. inversion U47; subst. destruct u0 as [|h u0]; [congruence|]. cbn [app]. apply starts_hd. intros ->. apply H3. now left. }
      assert (swap 47 92 (tl (chained 47 (u0 :: us0) ++ last_sep 47 b)) = [] ++ u0 ++ chained 92 us0 ++ last_sep 92 b) as ->.
      { pose proof (swap_chained 47 92 (u0 :: us0) b U47) as X. cbn [chained app tl] in *. cbn [swap map] in X. injection X as X.
        unfold swap. rewrite X. now rewrite <- app_assoc. }
      inversion G as [|? ? ? ? G0 Gs]; subst. rewrite (reads_more [] n0 u0 names0 us0 b (Forall_nil _) G0 Gs). cbn [rbind app].
      assert (Nn' : Forall (fun n => n <> []) (n0 :: names0)) by (eapply Forall_impl; [|exact Nn]; exact name_nil).
      rewrite (tl_app (chained 47 (u0 :: us0))) by discriminate. rewrite (tl_app (chained 92 (n0 :: names0))) by discriminate.
      destruct (here_end 47 (u0 :: us0)) as (r & e & v & A' & B' & C'); [discriminate|exact Un|]. rewrite A'. rewrite (Ce r v e B' C').
      destruct (here_end 92 (n0 :: names0)) as (q & d & k & A & B & C); [discriminate|exact Nn'|].
      assert (D : ~ In d [47; 92; 58; 10]%N) by (intros X; rewrite Forall_forall in Nn; exact (name_not k d (Nn k B) X C)).
      rewrite app_assoc. change (n0 ++ chained 92 names0) with (tl (chained 92 (n0 :: names0))). rewrite A.
      change (lit "\") with [92%N]. rewrite keep_last by (intros ->; apply D; cbn; tauto). reflexivity.
  Qed.
End Back.
