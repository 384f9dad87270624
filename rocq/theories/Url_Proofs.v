(** * URL paths: proofs *)
From Coq Require Import String Lia ZifyN.
From Verif Require Import PyBase PyBase_Proofs OsPath_Model OsPath_Spec OsPath_Proofs Url_Model Url_Spec.

Ltac Zify.zify_post_hook ::= Z.to_euclidean_division_equations.

Ltac ncase := repeat match goal with
  | |- context [(?a <? ?b)%N] => destruct (N.ltb_spec a b); try lia
  | |- context [(?a <=? ?b)%N] => destruct (N.leb_spec a b); try lia
  | |- context [(?a =? ?b)%N] => destruct (N.eqb_spec a b); try lia
  end.

Lemma some_inj : forall A (x y : A), Some x = Some y -> x = y.
Proof. congruence. Qed.

Lemma cont_low : forall x, cont (128 + x mod 64)%N = true.
Proof. intro x. unfold cont. ncase; reflexivity. Qed.

Definition more (c : N) (r : list N) : option (list N) :=
  match utf8_decode r with Some s => Some (c :: s) | None => None end.

Lemma decode1 : forall b r, (b < 128)%N -> utf8_decode (b :: r) = more b r.
Proof. intros b r H. cbn [utf8_decode]. destruct (N.ltb_spec b 128); [reflexivity|lia]. Qed.

Lemma decode2 : forall b b1 r, (194 <= b <= 223)%N -> cont b1 = true ->
  utf8_decode (b :: b1 :: r) = more ((b - 192) * 64 + (b1 - 128))%N r.
Proof.
  intros b b1 r H C. cbn [utf8_decode]. rewrite C.
  destruct (N.ltb_spec b 128); [lia|]. destruct (N.leb_spec 194 b); [|lia].
  destruct (N.leb_spec b 223); [|lia]. reflexivity.
Qed.

Lemma decode3 : forall b b1 b2 r, (224 <= b <= 239)%N -> cont b1 = true -> cont b2 = true ->
  (b = 224 -> 160 <= b1)%N -> (b = 237 -> b1 < 160)%N ->
  utf8_decode (b :: b1 :: b2 :: r) = more ((b - 224) * 4096 + (b1 - 128) * 64 + (b2 - 128))%N r.
Proof.
  intros b b1 b2 r H C1 C2 H1 H2. cbn [utf8_decode]. rewrite C1, C2.
  destruct (N.ltb_spec b 128); [lia|]. destruct (N.leb_spec 194 b); [|lia].
  destruct (N.leb_spec b 223); [lia|]. destruct (N.leb_spec 224 b); [|lia].
  destruct (N.leb_spec b 239); [|lia]. cbn [andb].
  destruct (N.eqb_spec b 224), (N.eqb_spec b 237), (N.leb_spec 160 b1), (N.ltb_spec b1 160);
    cbn [implb andb]; try lia; reflexivity.
Qed.

Lemma decode4 : forall b b1 b2 b3 r, (240 <= b <= 244)%N -> cont b1 = true -> cont b2 = true -> cont b3 = true ->
  (b = 240 -> 144 <= b1)%N -> (b = 244 -> b1 < 144)%N ->
  utf8_decode (b :: b1 :: b2 :: b3 :: r)
  = more ((b - 240) * 262144 + (b1 - 128) * 4096 + (b2 - 128) * 64 + (b3 - 128))%N r.
Proof.
  intros b b1 b2 b3 r H C1 C2 C3 H1 H2. cbn [utf8_decode]. rewrite C1, C2, C3.
  destruct (N.ltb_spec b 128); [lia|]. destruct (N.leb_spec 194 b); [|lia].
  destruct (N.leb_spec b 223); [lia|]. destruct (N.leb_spec 224 b); [|lia].
  destruct (N.leb_spec b 239); [lia|]. destruct (N.leb_spec 240 b); [|lia].
  destruct (N.leb_spec b 244); [|lia]. cbn [andb].
  destruct (N.eqb_spec b 240), (N.eqb_spec b 244), (N.leb_spec 144 b1), (N.ltb_spec b1 144);
    cbn [implb andb]; try lia; reflexivity.
Qed.

Lemma decode_char : forall c b r, utf8_char c = Some b -> utf8_decode (b ++ r) = more c r.
Proof.
  intros c b r E. unfold utf8_char in E.
  destruct (N.ltb_spec c 128) as [H|H]; [apply some_inj in E; subst b; apply decode1; exact H|].
  destruct (N.ltb_spec c 2048) as [H2|H2].
  { apply some_inj in E; subst b. cbn [app]. rewrite decode2; [|lia|apply cont_low]. f_equal. lia. }
  destruct (N.ltb_spec c 65536) as [H3|H3].
  { destruct ((55296 <=? c) && (c <=? 57343))%N eqn:Su; [discriminate|].
    assert (Hs : (c < 55296 \/ 57343 < c)%N).
    { destruct (N.leb_spec 55296 c), (N.leb_spec c 57343); try discriminate; lia. }
    apply some_inj in E; subst b. cbn [app]. rewrite decode3; [f_equal; lia|lia|apply cont_low|apply cont_low|lia|lia]. }
  destruct (N.ltb_spec c 1114112) as [H4|H4]; [|discriminate].
  apply some_inj in E; subst b. cbn [app].
  rewrite decode4; [f_equal; lia|lia|apply cont_low|apply cont_low|apply cont_low|lia|lia].
Qed.

Lemma decode_encode : forall s bs, utf8_encode s = Ok bs -> utf8_decode bs = Some s.
Proof.
  induction s as [|c s IH]; intros bs E; simpl in E; [injection E as <-; reflexivity|].
  destruct (utf8_char c) as [b|] eqn:Ec; [|discriminate].
  destruct (utf8_encode s) as [bs'|]; [|discriminate]. cbn [rbind] in E. injection E as <-.
  rewrite (decode_char _ _ _ Ec). unfold more. rewrite (IH _ eq_refl). reflexivity.
Qed.

Lemma char_bytes : forall c b, utf8_char c = Some b -> Forall (fun x => x < 256)%N b.
Proof.
  intros c b E. unfold utf8_char in E.
  destruct (N.ltb_spec c 128) as [H|H]; [apply some_inj in E; subst b; repeat constructor; lia|].
  destruct (N.ltb_spec c 2048) as [H2|H2]; [apply some_inj in E; subst b; repeat constructor; lia|].
  destruct (N.ltb_spec c 65536) as [H3|H3].
  { destruct ((55296 <=? c) && (c <=? 57343))%N; [discriminate|]. apply some_inj in E; subst b. repeat constructor; lia. }
  destruct (N.ltb_spec c 1114112); [|discriminate]. apply some_inj in E; subst b. repeat constructor; lia.
Qed.

Lemma encode_bytes : forall s bs, utf8_encode s = Ok bs -> Forall (fun x => x < 256)%N bs.
Proof.
  induction s as [|c s IH]; intros bs E; simpl in E; [injection E as <-; constructor|].
  destruct (utf8_char c) as [b|] eqn:Ec; [|discriminate].
  destruct (utf8_encode s) as [bs'|]; [|discriminate]. cbn [rbind] in E. injection E as <-.
  apply Forall_app. split; [exact (char_bytes _ _ Ec)|auto].
Qed.

Lemma char_scalar : forall c, (exists b, utf8_char c = Some b) <-> scalar c.
Proof.
  intro c. unfold utf8_char, scalar. split.
  - intros [b E]. revert E. ncase; simpl; try discriminate; intros _; lia.
  - intro H. ncase; simpl; eexists; reflexivity.
Qed.

Lemma encode_scalar : forall s, (exists bs, utf8_encode s = Ok bs) <-> Forall scalar s.
Proof.
  induction s as [|c s IH]; simpl.
  - split; [constructor|]. intros _. eexists. reflexivity.
  - split.
    + intros [bs E]. destruct (utf8_char c) as [b|] eqn:Ec; [|discriminate].
      destruct (utf8_encode s) as [bs'|]; [|discriminate].
      constructor; [apply char_scalar; eexists; exact Ec|apply IH; eexists; reflexivity].
    + intro H. inversion H as [|? ? H1 H2]; subst. apply char_scalar in H1. destruct H1 as [b ->].
      apply IH in H2. destruct H2 as [bs ->]. eexists. reflexivity.
Qed.

(** ** Quoting *)

Lemma safe_spec : forall b, safe b = true <-> unreserved b \/ b = 47%N.
Proof.
  intro b. unfold safe, unreserved, is_alpha, is_upper, is_lower, is_digit.
  change (lit "_.-~/") with [95; 46; 45; 126; 47]%N. cbn [existsb].
  rewrite !orb_true_iff, !andb_true_iff, !N.leb_le, !N.eqb_eq. split; [|lia].
  intro H. decompose [or and] H; try lia; discriminate.
Qed.

Lemma hex_val_digit : forall n, (n < 16)%N -> hex_val (hex_digit n) = Some n.
Proof.
  intros n H. unfold hex_digit, hex_val, is_digit.
  destruct (N.ltb_spec n 10).
  - destruct (N.leb_spec 48 (48 + n)); [|lia]. destruct (N.leb_spec (48 + n) 57); [|lia]. cbn [andb]. f_equal. lia.
  - destruct (N.leb_spec (55 + n) 57); [lia|]. rewrite andb_false_r.
    destruct (N.leb_spec 65 (55 + n)); [|lia]. destruct (N.leb_spec (55 + n) 70); [|lia]. cbn [andb]. f_equal. lia.
Qed.

Lemma hex_upper_digit : forall n, (n < 16)%N -> hex_upper (hex_digit n).
Proof. intros n H. unfold hex_digit, hex_upper. destruct (N.ltb_spec n 10); lia. Qed.

Lemma unquote_quote_byte : forall b r, (b < 256)%N ->
  unquote_to_bytes (quote_byte b ++ r) = b :: unquote_to_bytes r.
Proof.
  intros b r H. unfold quote_byte. destruct (safe b) eqn:S.
  - cbn [app unquote_to_bytes]. change (chr "%") with 37%N. destruct (N.eqb_spec b 37) as [->|_]; [discriminate|reflexivity].
  - cbn [app]. change (chr "%") with 37%N.
    change (unquote_to_bytes (37%N :: hex_digit (b / 16) :: hex_digit (b mod 16) :: r))
      with (match hex_val (hex_digit (b / 16)%N), hex_val (hex_digit (b mod 16)%N) with
            | Some x, Some y => (x * 16 + y)%N :: unquote_to_bytes r
            | _, _ => 37%N :: unquote_to_bytes (hex_digit (b / 16) :: hex_digit (b mod 16) :: r)%N
            end).
    rewrite !hex_val_digit by lia. f_equal. lia.
Qed.

Lemma unquote_quote_bytes : forall bs, Forall (fun x => x < 256)%N bs ->
  unquote_to_bytes (flat_map quote_byte bs) = bs.
Proof.
  induction bs as [|b bs IH]; intro H; [reflexivity|]. inversion H; subst. simpl.
  rewrite unquote_quote_byte by assumption. f_equal. auto.
Qed.

Lemma quoted_path : forall bs, Forall (fun x => x < 256)%N bs -> url_path (flat_map quote_byte bs).
Proof.
  induction bs as [|b bs IH]; intro H; [constructor|]. inversion H; subst. simpl.
  unfold quote_byte. destruct (safe b) eqn:S.
  - apply UChar; [apply safe_spec; exact S|auto].
  - apply UByte; [apply hex_upper_digit; lia|apply hex_upper_digit; lia|auto].
Qed.

Lemma url_path_ascii : forall u, url_path u -> Forall (fun c => c < 128)%N u.
Proof.
  induction 1 as [|c u H _ IH|h l u H1 H2 _ IH]; [constructor| |].
  - constructor; [unfold unreserved in H; lia|exact IH].
  - repeat (constructor; [unfold hex_upper in *; lia|]). exact IH.
Qed.

Lemma url_path_app : forall u v, url_path u -> url_path v -> url_path (u ++ v).
Proof. induction 1; intro Hv; simpl; [exact Hv|apply UChar; auto|apply UByte; auto]. Qed.

Section Oracles.
  Variable lossy : list N -> list N.

  Lemma runs_ascii : forall u run, Forall (fun c => c < 128)%N u ->
    unquote_runs lossy u run = decode_replace lossy (unquote_to_bytes (rev run ++ u)).
  Proof.
    induction u as [|c u IH]; intros run H; simpl; [rewrite app_nil_r; reflexivity|].
    inversion H; subst. destruct (N.ltb_spec c 128); [|lia].
    rewrite IH by assumption. simpl. rewrite <- app_assoc. reflexivity.
  Qed.

  Lemma unquote_quote : forall s u, quote s = Ok u -> unquote lossy u = s /\ url_path u.
  Proof.
    intros s u E. unfold quote in E. destruct (utf8_encode s) as [bs|] eqn:Eb; [|discriminate].
    cbn [rbind] in E. injection E as <-. assert (B := encode_bytes _ _ Eb).
    assert (P := quoted_path _ B). split; [|exact P]. unfold unquote.
    rewrite runs_ascii by (apply url_path_ascii; exact P). cbn [rev app].
    rewrite unquote_quote_bytes by exact B. unfold decode_replace.
    rewrite (decode_encode _ _ Eb). reflexivity.
  Qed.

  Lemma encode_app : forall a b, utf8_encode (a ++ b)
    = (do x <- utf8_encode a; do y <- utf8_encode b; Ok (x ++ y)).
  Proof.
    induction a as [|c a IH]; intro b; simpl.
    - destruct (utf8_encode b); reflexivity.
    - destruct (utf8_char c); [|reflexivity]. rewrite IH.
      destruct (utf8_encode a); [|reflexivity]. cbn [rbind].
      destruct (utf8_encode b); [|reflexivity]. cbn [rbind]. rewrite app_assoc. reflexivity.
  Qed.

  Lemma quote_slash_end : forall p u, quote (p ++ [47%N]) = Ok u -> ends_slash u.
  Proof.
    intros p u E. unfold quote in E. rewrite encode_app in E.
    destruct (utf8_encode p) as [bs|]; [|discriminate]. cbn [rbind] in E. simpl in E. injection E as <-.
    exists (flat_map quote_byte bs). rewrite flat_map_app. reflexivity.
  Qed.
End Oracles.

Lemma quote_safe : forall p, Forall (fun c => unreserved c \/ c = 47%N) p -> quote p = Ok p.
Proof.
  intros p H. unfold quote.
  assert (E : utf8_encode p = Ok p).
  { induction H as [|c p Hc _ IH]; [reflexivity|]. simpl.
    replace (utf8_char c) with (Some [c]).
    - rewrite IH. reflexivity.
    - unfold utf8_char. destruct (N.ltb_spec c 128); [reflexivity|]. unfold unreserved in Hc. lia. }
  rewrite E. cbn [rbind]. f_equal. induction H as [|c p Hc _ IH]; [reflexivity|].
  simpl in E. simpl. unfold quote_byte at 1. replace (safe c) with true by (symmetry; apply safe_spec; exact Hc).
  simpl. f_equal. apply IH.
  destruct (utf8_char c) as [b|] eqn:Ec; [|discriminate].
  destruct (utf8_encode p) as [bs|]; [|discriminate]. cbn [rbind] in E. injection E as E.
  unfold utf8_char in Ec. destruct (N.ltb_spec c 128); [|unfold unreserved in Hc; lia].
  injection Ec as <-. simpl in E. injection E as ->. reflexivity.
Qed.
(** Paths whose separator at the end is a slash *)
Lemma is_dir_ends : forall p, ~ In 92%N p -> (forall q, p <> q ++ [10%N]) -> is_dir p = true -> ends_slash p.
Proof.
  intros p A B D. unfold is_dir in D.
  assert (X : ends_with [10%N] p = false).
  { apply not_true_iff_false. unfold ends_with. rewrite andb_true_iff. intros [L E].
    apply str_eqb_eq in E. apply (B (firstn (length p - length [10%N]) p)).
    transitivity (firstn (length p - length [10%N]) p ++ skipn (length p - length [10%N]) p);
      [symmetry; apply firstn_skipn|]. f_equal. symmetry. exact E. }
  rewrite X, orb_false_r in D. unfold sep_at_end in D.
  destruct (rev p) as [|y [|x r]] eqn:E; try discriminate. apply andb_true_iff in D. destruct D as [D _].
  apply (f_equal (@rev N)) in E. rewrite rev_involutive in E. subst p. simpl in *.
  exists (rev r ++ [x]). f_equal. unfold is_sep in D.
  change (chr "/") with 47%N in D. change (chr "\") with 92%N in D.
  apply orb_true_iff in D. destruct D as [D|D]; apply N.eqb_eq in D; subst; [reflexivity|].
  destruct A. apply in_app_iff. right. left. reflexivity.
Qed.

Lemma prefix_backslash : forall p, starts_with unc_prefix p = true -> In 92%N p.
Proof.
  intros p H. unfold starts_with in H. apply str_eqb_eq in H.
  destruct p as [|c p]; [discriminate|]. simpl in H. injection H as H _. left. symmetry. exact H.
Qed.

Lemma path2urlpath_quote : forall p u, ~ In 92%N p -> (forall q, p <> q ++ [10%N]) ->
  path2urlpath p = Ok u -> quote p = Ok u.
Proof.
  intros p u A B E. unfold path2urlpath in E.
  destruct (starts_with unc_prefix p) eqn:Pr; [destruct (A (prefix_backslash _ Pr))|].
  destruct (quote p) as [v|] eqn:Q; [|discriminate]. cbn [rbind] in E. rewrite keep_slash_spec in E.
  destruct (is_dir p) eqn:D; [|exact E]. destruct (ends_with (lit "/") v) eqn:Ev; [exact E|].
  exfalso. destruct (is_dir_ends p A B D) as [q ->]. apply quote_slash_end in Q.
  apply ends_with1 in Q. congruence.
Qed.

Lemma path2urlpath_ok : forall p, ~ In 92%N p -> Forall scalar p -> exists u, path2urlpath p = Ok u.
Proof.
  intros p A S. unfold path2urlpath.
  destruct (starts_with unc_prefix p) eqn:Pr; [destruct (A (prefix_backslash _ Pr))|].
  unfold quote. apply encode_scalar in S. destruct S as [bs ->]. cbn [rbind]. eexists. reflexivity.
Qed.

Lemma url_no_backslash : forall u, url_path u -> ~ In 92%N u /\ (forall q, u <> q ++ [10%N]).
Proof.
  intros u H.
  assert (F : ~ In 92%N u /\ ~ In 10%N u).
  { induction H as [|c u H _ [I1 I2]|h l u H1 H2 _ [I1 I2]].
    - split; intros [].
    - unfold unreserved in H. split; intros [E|E]; auto; lia.
    - unfold hex_upper in *. split; intros [E|[E|[E|E]]]; auto; try lia. }
  split; [tauto|]. intros q ->. apply (proj2 F). apply in_app_iff. right. left. reflexivity.
Qed.

Lemma unquote_slash_end : forall p u, quote p = Ok u -> ends_slash u -> ends_slash p.
Proof.
  intros p u Q H. destruct (last_char p) as [E|[E|(q & c & E & Hc)]]; [exact E| |].
  - subst p. simpl in Q. injection Q as <-. destruct H as [q E]. destruct q; discriminate.
  - exfalso. subst p. unfold quote in Q. rewrite encode_app in Q.
    destruct (utf8_encode q) as [bs|]; [|discriminate]. cbn [rbind utf8_encode] in Q.
    destruct (utf8_char c) as [b|] eqn:Ec; [|discriminate]. cbn [rbind] in Q. rewrite app_nil_r in Q. injection Q as <-.
    assert (Hb : exists b' x, b = b' ++ [x] /\ x <> 47%N).
    { unfold utf8_char in Ec. destruct (N.ltb_spec c 128) as [L|L]; [apply some_inj in Ec; subst b; exists [], c; auto|].
      destruct (N.ltb_spec c 2048); [apply some_inj in Ec; subst b; eexists [_], _; split; [reflexivity|lia]|].
      destruct (N.ltb_spec c 65536).
      { destruct ((55296 <=? c) && (c <=? 57343))%N; [discriminate|].
        apply some_inj in Ec; subst b; eexists [_; _], _; split; [reflexivity|lia]. }
      destruct (N.ltb_spec c 1114112); [|discriminate].
      apply some_inj in Ec; subst b; eexists [_; _; _], _; split; [reflexivity|lia]. }
    destruct Hb as (b' & x & -> & Hx). rewrite app_assoc, flat_map_app in H. simpl in H. rewrite app_nil_r in H.
    destruct H as [v E]. unfold quote_byte in E. destruct (safe x).
    + apply app_inj_tail in E. destruct E as [_ E]. contradiction.
    + change [chr "%"; hex_digit (x / 16); hex_digit (x mod 16)]%N
        with ([chr "%"; hex_digit (x / 16)] ++ [hex_digit (x mod 16)])%N in E.
      rewrite app_assoc in E. apply app_inj_tail in E. destruct E as [_ E].
      unfold hex_digit in E. destruct (N.ltb_spec (x mod 16) 10); lia.
Qed.

Lemma round_trip : forall lossy p u, ~ In 92%N p -> (forall q, p <> q ++ [10%N]) -> length p <= 200 ->
  path2urlpath p = Ok u -> urlpath2path lossy u = p.
Proof.
  intros lossy p u A B L E. assert (Q := path2urlpath_quote p u A B E).
  destruct (unquote_quote lossy p u Q) as [U P]. unfold urlpath2path. rewrite U.
  assert (K : keep_slash u p = p).
  { rewrite keep_slash_spec. destruct (is_dir u) eqn:D; [|reflexivity].
    destruct (url_no_backslash u P) as [N1 N2].
    assert (X := unquote_slash_end p u Q (is_dir_ends u N1 N2 D)).
    apply ends_with1 in X. rewrite X. reflexivity. }
  rewrite K. destruct (Nat.ltb_spec 200 (length p)); [lia|reflexivity].
Qed.

(** ** Reading *)

Lemma decode_utf8 : forall c b r, utf8 c b -> utf8_decode (b ++ r) = more c r.
Proof.
  intros c b r H. apply decode_char. unfold utf8_char, scalar in *.
  destruct H as [c H|x y H1 H2|x y z c H1 H2 H3 -> H4 H5|w x y z c H0 H1 H2 H3 -> H4 H5].
  - destruct (N.ltb_spec c 128); [reflexivity|lia].
  - destruct (N.ltb_spec (x * 64 + y) 128); [lia|]. destruct (N.ltb_spec (x * 64 + y) 2048); [|lia].
    repeat f_equal; lia.
  - unfold scalar in H5. set (c := ((x * 64 + y) * 64 + z)%N) in *.
    destruct (N.ltb_spec c 128); [lia|]. destruct (N.ltb_spec c 2048); [lia|].
    destruct (N.ltb_spec c 65536); [|lia].
    destruct (N.leb_spec 55296 c), (N.leb_spec c 57343); cbn [andb]; try lia; repeat f_equal; lia.
  - unfold scalar in H5. set (c := (((w * 64 + x) * 64 + y) * 64 + z)%N) in *.
    destruct (N.ltb_spec c 128); [lia|]. destruct (N.ltb_spec c 2048); [lia|].
    destruct (N.ltb_spec c 65536); [lia|]. destruct (N.ltb_spec c 1114112); [|lia].
    repeat f_equal; lia.
Qed.

Lemma decode_text : forall s bs, utf8_text s bs -> utf8_decode bs = Some s.
Proof.
  induction 1 as [|c b s bs H _ IH]; [reflexivity|]. rewrite (decode_utf8 c b bs H).
  unfold more. rewrite IH. reflexivity.
Qed.

Lemma cont_spec : forall b, cont b = true -> (128 <= b <= 191)%N.
Proof. intros b H. unfold cont in H. apply andb_true_iff in H. rewrite !N.leb_le in H. exact H. Qed.

Lemma more_text : forall n c b r s,
  (forall r s, length r < n -> utf8_decode r = Some s -> utf8_text s r) ->
  length r < n -> utf8 c b -> more c r = Some s -> utf8_text s (b ++ r).
Proof.
  intros n c b r s IH L U E. unfold more in E.
  destruct (utf8_decode r) as [t|] eqn:D; [|discriminate]. injection E as <-.
  apply TCons; [exact U|]. exact (IH r t L D).
Qed.

Lemma text_decode_n : forall n bs s, length bs < n -> utf8_decode bs = Some s -> utf8_text s bs.
Proof.
  induction n as [|n IH]; intros bs s L E; [lia|].
  destruct bs as [|b r]; [simpl in E; injection E as <-; constructor|].
  simpl in L.
  destruct (N.ltb_spec b 128) as [H1|H1].
  { rewrite decode1 in E by exact H1.
    exact (more_text n b [b] r s IH ltac:(lia) (U1 b H1) E). }
  destruct (N.leb_spec 194 b) as [H2|H2].
  2:{ exfalso. cbn [utf8_decode] in E. destruct (N.ltb_spec b 128); [lia|].
      destruct (N.leb_spec 194 b); [lia|]. destruct (N.leb_spec 224 b); [lia|].
      destruct (N.leb_spec 240 b); [lia|]. discriminate. }
  destruct (N.leb_spec b 223) as [H3|H3].
  { destruct r as [|b1 r]; [exfalso; cbn [utf8_decode] in E; revert E; ncase; simpl; discriminate|].
    destruct (cont b1) eqn:C1.
    - rewrite decode2 in E by (auto; lia). apply cont_spec in C1.
      refine (more_text n _ [b; b1] r s IH ltac:(simpl in L; lia) _ E).
      replace b with (192 + (b - 192))%N at 2 by lia. replace b1 with (128 + (b1 - 128))%N at 2 by lia.
      apply U2; lia.
    - exfalso. cbn [utf8_decode] in E. rewrite C1 in E. revert E. ncase; simpl; discriminate. }
  destruct (N.leb_spec b 239) as [H4|H4].
  { destruct r as [|b1 [|b2 r]]; [exfalso; cbn [utf8_decode] in E; revert E; ncase; simpl; discriminate|exfalso; cbn [utf8_decode] in E; revert E; ncase; simpl; discriminate|].
    assert (E' := E). cbn [utf8_decode] in E'.
    destruct (N.ltb_spec b 128); [lia|]. destruct (N.leb_spec 194 b); [|lia]. destruct (N.leb_spec b 223); [lia|].
    destruct (N.leb_spec 224 b); [|lia]. destruct (N.leb_spec b 239); [|lia]. cbn [andb] in E'.
    destruct (cont b1) eqn:C1; [|discriminate]. destruct (cont b2) eqn:C2; [|discriminate]. cbn [andb] in E'.
    assert (X : (b = 224 -> 160 <= b1)%N /\ (b = 237 -> b1 < 160)%N).
    { destruct (N.eqb_spec b 224), (N.eqb_spec b 237), (N.leb_spec 160 b1), (N.ltb_spec b1 160);
        cbn [implb andb] in E'; try discriminate; split; lia. }
    clear E'. destruct X as [X1 X2]. rewrite decode3 in E by (auto; lia).
    apply cont_spec in C1. apply cont_spec in C2.
    refine (more_text n _ [b; b1; b2] r s IH ltac:(simpl in L; lia) _ E).
    replace [b; b1; b2] with [224 + (b - 224); 128 + (b1 - 128); 128 + (b2 - 128)]%N by (repeat f_equal; lia).
    apply U3; unfold scalar; lia. }
  destruct (N.leb_spec b 244) as [H5|H5].
  2:{ exfalso. cbn [utf8_decode] in E. destruct (N.ltb_spec b 128); [lia|].
      destruct (N.leb_spec 194 b); [|lia]. destruct (N.leb_spec b 223); [lia|].
      destruct (N.leb_spec 224 b); [|lia]. destruct (N.leb_spec b 239); [lia|].
      destruct (N.leb_spec 240 b); [|lia]. destruct (N.leb_spec b 244); [lia|]. discriminate. }
  assert (E' := E). cbn [utf8_decode] in E'.
  destruct (N.ltb_spec b 128); [lia|]. destruct (N.leb_spec 194 b); [|lia]. destruct (N.leb_spec b 223); [lia|].
  destruct (N.leb_spec 224 b); [|lia]. destruct (N.leb_spec b 239); [lia|].
  destruct (N.leb_spec 240 b); [|lia]. destruct (N.leb_spec b 244); [|lia]. cbn [andb] in E'.
  destruct r as [|b1 [|b2 [|b3 r]]]; try discriminate.
  destruct (cont b1) eqn:C1; [|discriminate]. destruct (cont b2) eqn:C2; [|discriminate].
  destruct (cont b3) eqn:C3; [|discriminate]. cbn [andb] in E'.
  assert (X : (b = 240 -> 144 <= b1)%N /\ (b = 244 -> b1 < 144)%N).
  { destruct (N.eqb_spec b 240), (N.eqb_spec b 244), (N.leb_spec 144 b1), (N.ltb_spec b1 144);
      cbn [implb andb] in E'; try discriminate; split; lia. }
  clear E'. destruct X as [X1 X2]. rewrite decode4 in E by (auto; lia).
  apply cont_spec in C1. apply cont_spec in C2. apply cont_spec in C3.
  refine (more_text n _ [b; b1; b2; b3] r s IH ltac:(simpl in L; lia) _ E).
  replace [b; b1; b2; b3] with [240 + (b - 240); 128 + (b1 - 128); 128 + (b2 - 128); 128 + (b3 - 128)]%N
    by (repeat f_equal; lia).
  apply U4; unfold scalar; lia.
Qed.

Lemma text_decode : forall bs s, utf8_decode bs = Some s -> utf8_text s bs.
Proof. intros bs s. apply (text_decode_n (S (length bs))). lia. Qed.

Lemma hex_val_spec : forall c x, hex_val c = Some x <-> hex c x.
Proof.
  intros c x. unfold hex_val, is_digit. split.
  - destruct (N.leb_spec 48 c), (N.leb_spec c 57); cbn [andb]; intro E;
      try (apply some_inj in E; subst x; replace c with (48 + (c - 48))%N at 1 by lia; apply HDigit; lia);
      destruct (N.leb_spec 65 c), (N.leb_spec c 70); cbn [andb] in E;
      try (apply some_inj in E; subst x; replace c with (65 + (c - 55 - 10))%N at 1 by lia; apply HUpper; lia);
      destruct (N.leb_spec 97 c), (N.leb_spec c 102); cbn [andb] in E; try discriminate;
      try (apply some_inj in E; subst x; replace c with (97 + (c - 87 - 10))%N at 1 by lia; apply HLower; lia); lia.
  - intros [n H|n H|n H].
    + destruct (N.leb_spec 48 (48 + n)), (N.leb_spec (48 + n) 57); cbn [andb]; try lia; f_equal; lia.
    + set (c' := (65 + (n - 10))%N). destruct (N.leb_spec 48 c'), (N.leb_spec c' 57); cbn [andb]; try lia.
      destruct (N.leb_spec 65 c'), (N.leb_spec c' 70); cbn [andb]; try lia; f_equal; lia.
    + set (c' := (97 + (n - 10))%N). destruct (N.leb_spec 48 c'), (N.leb_spec c' 57); cbn [andb]; try lia.
      destruct (N.leb_spec 65 c'), (N.leb_spec c' 70); cbn [andb]; try lia.
      destruct (N.leb_spec 97 c'), (N.leb_spec c' 102); cbn [andb]; try lia; f_equal; lia.
Qed.

Lemma spells_unquote : forall u bs, spells u bs -> unquote_to_bytes u = bs.
Proof.
  induction 1 as [|h l x y u bs Hh Hl _ IH|c u bs Hc Nc _ IH|u bs N _ IH]; [reflexivity| | |].
  - apply hex_val_spec in Hh. apply hex_val_spec in Hl.
    change (unquote_to_bytes (37%N :: h :: l :: u))
      with (match hex_val h, hex_val l with
            | Some x, Some y => (x * 16 + y)%N :: unquote_to_bytes u
            | _, _ => 37%N :: unquote_to_bytes (h :: l :: u)
            end).
    rewrite Hh, Hl, IH. f_equal. lia.
  - cbn [unquote_to_bytes]. change (chr "%") with 37%N. destruct (N.eqb_spec c 37); [contradiction|]. rewrite IH. reflexivity.
  - assert (X : unquote_to_bytes (37%N :: u) = 37%N :: unquote_to_bytes u).
    { destruct u as [|h [|l u]]; [reflexivity|reflexivity|].
      change (unquote_to_bytes (37%N :: h :: l :: u))
        with (match hex_val h, hex_val l with
              | Some x, Some y => (x * 16 + y)%N :: unquote_to_bytes u
              | _, _ => 37%N :: unquote_to_bytes (h :: l :: u)
              end).
      destruct (hex_val h) as [x|] eqn:Eh; [|reflexivity]. destruct (hex_val l) as [y|] eqn:El; [|reflexivity].
      destruct N. split; [exists x|exists y]; apply hex_val_spec; assumption. }
    rewrite X, IH. reflexivity.
Qed.

Lemma spells_ascii : forall u bs, spells u bs -> Forall (fun c => c < 128)%N u.
Proof.
  induction 1 as [|h l x y u bs Hh Hl _ IH|c u bs Hc Nc _ IH|u bs N _ IH]; [constructor| | |].
  - constructor; [lia|]. constructor; [destruct Hh; lia|]. constructor; [destruct Hl; lia|exact IH].
  - constructor; assumption.
  - constructor; [lia|exact IH].
Qed.

Lemma runs_split : forall lossy u c u' run, Forall (fun c => c < 128)%N u -> (128 <= c)%N ->
  unquote_runs lossy (u ++ c :: u') run
  = decode_replace lossy (unquote_to_bytes (rev run ++ u)) ++ c :: unquote_runs lossy u' [].
Proof.
  induction u as [|d u IH]; intros c u' run H Hc; simpl.
  - destruct (N.ltb_spec c 128); [lia|]. rewrite app_nil_r. reflexivity.
  - inversion H; subst. destruct (N.ltb_spec d 128); [|lia]. rewrite IH by assumption. simpl.
    rewrite <- app_assoc. reflexivity.
Qed.

Lemma reads_unquote : forall lossy u s, reads u s -> unquote lossy u = s.
Proof.
  unfold unquote. induction 1 as [u bs s H T|u bs s c u' s' H T Hc _ IH].
  - rewrite runs_ascii by exact (spells_ascii _ _ H). cbn [rev app]. rewrite (spells_unquote _ _ H).
    unfold decode_replace. rewrite (decode_text _ _ T). reflexivity.
  - rewrite runs_split; [|exact (spells_ascii _ _ H)|exact Hc]. cbn [rev app].
    rewrite (spells_unquote _ _ H), IH. unfold decode_replace. rewrite (decode_text _ _ T). reflexivity.
Qed.

(** The last slash *)

Lemma utf8_slash : forall c b, utf8 c b -> (exists b', b = b' ++ [47%N]) -> c = 47%N.
Proof.
  intros c b H [b' E].
  destruct H as [c H|x y H1 H2|x y z c H1 H2 H3 Ec H4 H5|w x y z c H0 H1 H2 H3 Ec H4 H5].
  - destruct b'; [injection E as ->; reflexivity|]. destruct b'; discriminate.
  - change [192 + x; 128 + y]%N with ([192 + x] ++ [128 + y])%N in E.
    apply app_inj_tail in E. destruct E as [_ E]. lia.
  - change [224 + x; 128 + y; 128 + z]%N with ([224 + x; 128 + y] ++ [128 + z])%N in E.
    apply app_inj_tail in E. destruct E as [_ E]. lia.
  - change [240 + w; 128 + x; 128 + y; 128 + z]%N with ([240 + w; 128 + x; 128 + y] ++ [128 + z])%N in E.
    apply app_inj_tail in E. destruct E as [_ E]. lia.
Qed.

Lemma utf8_not_nil : forall c b, utf8 c b -> b <> [].
Proof. intros c b H. destruct H; discriminate. Qed.

Lemma text_slash : forall s bs, utf8_text s bs -> ends_slash bs -> ends_slash s.
Proof.
  induction 1 as [|c b s bs H T IH]; intros [q E]; [destruct q; discriminate|].
  destruct T as [|c' b' s bs H' T].
  - rewrite app_nil_r in E. exists []. simpl. f_equal. exact (utf8_slash c b H (ex_intro _ q E)).
  - destruct IH as [t Et].
    + destruct (last_char (b' ++ bs)) as [X|[X|(q' & x & X & Hx)]]; [exact X| |].
      * apply app_eq_nil in X. destruct X as [X _]. destruct (utf8_not_nil _ _ H' X).
      * exfalso. rewrite X, app_assoc in E. apply app_inj_tail in E. destruct E; contradiction.
    + exists (c :: t). rewrite Et. reflexivity.
Qed.

Lemma spells_slash : forall u bs, spells u bs -> ends_slash u -> ends_slash bs.
Proof.
  induction 1 as [|h l x y u bs Hh Hl S IH|c u bs Hc Nc S IH|u bs N S IH]; intros [q E].
  - destruct q; discriminate.
  - destruct u as [|c u].
    + exfalso. change [37%N; h; l] with ([37%N; h] ++ [l]) in E. apply app_inj_tail in E.
      destruct E as [_ E]. destruct Hl; lia.
    + destruct q as [|q0 [|q1 [|q2 q]]]; try discriminate.
      injection E as _ _ _ E. destruct IH as [t ->]; [exists q; exact E|].
      exists ((16 * x + y)%N :: t). reflexivity.
  - destruct q as [|q0 q].
    + injection E as -> ->. inversion S; subst. exists []. reflexivity.
    + injection E as -> E. destruct IH as [t ->]; [exists q; exact E|]. exists (q0 :: t). reflexivity.
  - destruct q as [|q0 q]; [discriminate|]. injection E as <- E.
    destruct IH as [t ->]; [exists q; exact E|]. exists (37%N :: t). reflexivity.
Qed.

Lemma reads_slash : forall u s, reads u s -> ends_slash u -> ends_slash s.
Proof.
  induction 1 as [u bs s H T|u bs s c u' s' H T Hc R IH]; intro E.
  - exact (text_slash _ _ T (spells_slash _ _ H E)).
  - destruct E as [q E]. destruct (last_char u') as [X|[X|(q' & x & X & Hx)]].
    + destruct (IH X) as [t ->]. exists (s ++ c :: t). rewrite <- app_assoc. reflexivity.
    + subst u'. apply app_inj_tail in E. destruct E as [_ E]. lia.
    + exfalso. rewrite X in E. change (c :: q' ++ [x]) with ((c :: q') ++ [x]) in E.
      rewrite app_assoc in E. apply app_inj_tail in E. destruct E; contradiction.
Qed.

Lemma urlpath_reads : forall lossy u s, ~ In 92%N u -> (forall q, u <> q ++ [10%N]) ->
  reads u s -> length s <= 200 -> urlpath2path lossy u = s.
Proof.
  intros lossy u s A B R L. unfold urlpath2path. rewrite (reads_unquote lossy u s R).
  assert (K : keep_slash u s = s).
  { rewrite keep_slash_spec. destruct (is_dir u) eqn:D; [|reflexivity].
    assert (X := reads_slash u s R (is_dir_ends u A B D)). apply ends_with1 in X. rewrite X. reflexivity. }
  rewrite K. destruct (Nat.ltb_spec 200 (length s)); [lia|reflexivity].
Qed.
