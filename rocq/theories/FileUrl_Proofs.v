(** * Paths as URLs: proofs *)
From Coq Require Import String Lia.
From Verif Require Import PyBase PyBase_Proofs OsPath_Model OsPath_Spec OsPath_Proofs
  Url_Model Url_Spec Url_Proofs FileUrl_Model FileUrl_Spec.

Lemma name_real : forall n, name n <-> real n.
Proof. intros n. unfold name, real, no_slash. tauto. Qed.

Lemma names_real : forall l, Forall name l -> Forall real l.
Proof. intros l H. eapply Forall_impl; [|exact H]. intros a. apply name_real. Qed.

(** ** Absolute paths of names *)

Definition slashed (names : list pystr) : pystr := flat_map (fun n => 47%N :: n) names.

Lemma slashed_join : forall names, names <> [] -> slashed names = 47%N :: join [47%N] names.
Proof.
  induction names as [|a names IH]; intros H; [contradiction|].
  destruct names as [|b names].
  - unfold slashed. cbn [flat_map join]. rewrite app_nil_r. reflexivity.
  - change (slashed (a :: b :: names)) with ((47%N :: a) ++ slashed (b :: names)).
    rewrite IH by discriminate. reflexivity.
Qed.

Lemma folder_slashed : forall names, folder_path names = match names with [] => [47%N] | _ => slashed names end.
Proof. reflexivity. Qed.

Lemma folder_join : forall names, folder_path names = 47%N :: join [47%N] names.
Proof. intros [|a names]; [reflexivity|]. apply (slashed_join (a :: names)). discriminate. Qed.

Lemma folder_not_nil : forall names, folder_path names <> [].
Proof. intros. rewrite folder_join. discriminate. Qed.

Lemma join_snoc_empty : forall names, names <> [] -> join [47%N] (names ++ [[]]) = join [47%N] names ++ [47%N].
Proof.
  induction names as [|a names IH]; intros H; [contradiction|].
  destruct names as [|b names]; [reflexivity|].
  change (join [47%N] ((a :: b :: names) ++ [[]])) with (a ++ [47%N] ++ join [47%N] ((b :: names) ++ [[]])).
  rewrite IH by discriminate. cbn [join]. rewrite <- !app_assoc. reflexivity.
Qed.

(** The names, and a slash at the end of folders *)
Definition tail_slash (d : bool) (names : list pystr) : pystr :=
  match names with [] => [] | _ => if d then [47%N] else [] end.

Definition target (d : bool) (names : list pystr) : pystr := folder_path names ++ tail_slash d names.

Lemma target_join : forall d names, target d names
  = 47%N :: join [47%N] (names ++ match names with [] => [] | _ => if d then [[]] else [] end).
Proof.
  intros d names. unfold target, tail_slash. rewrite folder_join.
  destruct names as [|a names]; [reflexivity|].
  destruct d.
  - rewrite join_snoc_empty by discriminate. reflexivity.
  - rewrite !app_nil_r. reflexivity.
Qed.

Definition dots (l : pystr) : bool := str_eqb l (lit ".") || str_eqb l (lit "..").
Definition dirlike (l : pystr) : bool := str_eqb l [] || dots l.

Lemma split_names : forall names, Forall real names -> names <> [] ->
  split_on 47%N (join [47%N] names) = names.
Proof.
  intros names H N. apply split_join; [exact N|]. intros p Hp. rewrite Forall_forall in H.
  exact (proj2 (proj2 (proj2 (H p Hp)))).
Qed.

Lemma split_target : forall d names, Forall real names ->
  split_on 47%N (target d names)
  = [] :: names ++ match names with [] => [[]] | _ => if d then [[]] else [] end.
Proof.
  intros d names H. rewrite target_join. cbn [split_on]. rewrite N.eqb_refl. f_equal.
  destruct names as [|a names]; [reflexivity|].
  apply split_join.
  - destruct (a :: names) eqn:E; discriminate.
  - intros p Hp. apply in_app_or in Hp. destruct Hp as [Hp|Hp].
    + rewrite Forall_forall in H. exact (proj2 (proj2 (proj2 (H p Hp)))).
    + destruct d; [destruct Hp as [<-|[]]; intros []|destruct Hp].
Qed.

(** ** The loop of [urljoin] *)

Lemma walk_mid : forall mid names z,
  Forall (fun s => s <> []) mid -> (z = [] \/ z = [[]]) ->
  exists z', (z' = [] \/ z' = [[]]) /\ resolve mid (names ++ z) = walk names mid ++ z'.
Proof.
  induction mid as [|s mid IH]; intros names z F Z.
  - exists z. split; [exact Z|reflexivity].
  - inversion F as [|? ? Hs Fm]; subst. cbn [resolve walk].
    change (lit "..") with [46; 46]%N. change (lit ".") with [46%N].
    destruct (str_eqb_spec s []) as [E|_]; [contradiction|].
    destruct (str_eqb_spec s [46%N]) as [->|N1].
    + change (str_eqb [46%N] [46; 46]%N) with false. cbv iota. apply IH; assumption.
    + destruct (str_eqb_spec s [46; 46]%N) as [->|N2].
      * destruct names as [|n names].
        -- cbn [tl app]. assert (tl z = []) as -> by (destruct Z as [->| ->]; reflexivity).
           apply (IH [] []); [exact Fm|left; reflexivity].
        -- cbn [tl app]. apply IH; assumption.
      * apply (IH (s :: names) z); assumption.
Qed.

Lemma resolve_app : forall a b acc, resolve (a ++ b) acc = resolve b (resolve a acc).
Proof.
  induction a as [|s a IH]; intros b acc; [reflexivity|]. cbn [app resolve].
  destruct (str_eqb s (lit "..")); [apply IH|]. destruct (str_eqb s (lit ".")); apply IH.
Qed.

Lemma walk_keeps : forall (P : pystr -> Prop) names st, Forall P st -> Forall P names -> Forall P (walk st names).
Proof.
  induction names as [|n names IH]; intros st F G; [exact F|]. inversion G as [|? ? Hn Gn]; subst. cbn [walk].
  destruct (str_eqb n []); [apply IH; assumption|].
  destruct (str_eqb n [46%N]); [apply IH; assumption|].
  destruct (str_eqb n [46; 46]%N).
  - apply IH; [|exact Gn]. destruct st; [constructor|]. inversion F; assumption.
  - apply IH; [|exact Gn]. constructor; assumption.
Qed.

Lemma walk_names : forall names st, Forall real st -> Forall no_slash names -> Forall real (walk st names).
Proof.
  induction names as [|n names IH]; intros st F G; [exact F|]. inversion G as [|? ? Hn Gn]; subst. cbn [walk].
  destruct (str_eqb_spec n []) as [->|N0]; [apply IH; assumption|].
  destruct (str_eqb_spec n [46%N]) as [->|N1]; [apply IH; assumption|].
  destruct (str_eqb_spec n [46; 46]%N) as [->|N2].
  - apply IH; [|exact Gn]. destruct st; [constructor|]. inversion F; assumption.
  - apply IH; [|exact Gn]. constructor; [|exact F]. repeat split; assumption.
Qed.

(** What [urlunsplit] makes of a path *)
Definition add_slash (url : pystr) : pystr :=
  if negb (str_eqb url []) && negb (starts_with (lit "/") url) then lit "/" ++ url else url.

Definition or_slash (p : pystr) : pystr := match p with [] => lit "/" | c :: r => c :: r end.

Lemma add_slash_slash : forall p, add_slash (47%N :: p) = 47%N :: p.
Proof. intros. unfold add_slash. rewrite starts1. rewrite N.eqb_refl. rewrite andb_false_r. reflexivity. Qed.

Lemma add_slash_other : forall c p, c <> 47%N -> add_slash (c :: p) = 47%N :: c :: p.
Proof.
  intros c p H. unfold add_slash. rewrite starts1. apply N.eqb_neq in H. rewrite H. reflexivity.
Qed.

Lemma resolved_text : forall z d names, (z = [] \/ z = [[]]) -> Forall real names ->
  (names = [] -> d = true) ->
  add_slash (or_slash (join [47%N] (z ++ names ++ (if d : bool then [[]] else [])))) = target d names.
Proof.
  intros z d names Z F D. rewrite target_join.
  destruct names as [|a names].
  - rewrite (D eq_refl). destruct Z as [->| ->]; reflexivity.
  - set (l := (a :: names) ++ (if d : bool then [[]] else [])).
    fold l. assert (L : l <> []) by discriminate.
    assert (exists c s, join [47%N] l = c :: s /\ c <> 47%N) as (c & s & J & Hc).
    { inversion F as [|? ? Ha Fn]; subst. destruct (real_first a Ha) as (c & s & -> & Hc).
      unfold l. cbn [app join]. destruct (names ++ (if d : bool then [[]] else [])) as [|x l'].
      - exists c, s. split; [reflexivity|exact Hc].
      - exists c, (s ++ [47%N] ++ join [47%N] (x :: l')). split; [reflexivity|exact Hc]. }
    destruct Z as [->| ->].
    + cbn [app]. rewrite J. cbn [or_slash]. rewrite add_slash_other by exact Hc. reflexivity.
    + change ([[]] ++ l) with ([] :: l). destruct l as [|x l']; [contradiction|].
      change (join [47%N] ([] :: x :: l')) with (47%N :: join [47%N] (x :: l')).
      cbn [or_slash]. apply add_slash_slash.
Qed.

Lemma last_snoc : forall A (l : list A) x d, last (l ++ [x]) d = x.
Proof.
  induction l as [|a l IH]; intros; [reflexivity|]. cbn [app].
  destruct (l ++ [x]) eqn:E; [destruct l; discriminate|]. rewrite <- E. cbn [last].
  rewrite E. rewrite <- E. apply IH.
Qed.

Lemma segments_text : forall mid l, Forall (fun s => s <> []) mid -> Forall no_slash mid -> no_slash l ->
  add_slash (or_slash (join [47%N] (rev (resolve ([] :: mid ++ [l]) []) ++ (if dots l then [[]] else []))))
  = target (dirlike l) (rev (walk [] (mid ++ [l]))).
Proof.
  intros mid l F G Hl. cbn [resolve]. change (str_eqb [] (lit "..")) with false.
  change (str_eqb [] (lit ".")) with false. cbv iota. rewrite resolve_app.
  destruct (walk_mid mid [] [[]] F (or_intror eq_refl)) as (z & Z & RM).
  cbn [app] in RM. rewrite RM. rewrite walk_app. set (names := walk [] mid).
  assert (R : Forall real names) by (apply walk_names; [constructor|exact G]).
  assert (RZ : rev z = [] \/ rev z = [[]]) by (destruct Z as [->| ->]; [left|right]; reflexivity).
  unfold dirlike, dots. cbn [resolve walk].
  change (lit "..") with [46; 46]%N. change (lit ".") with [46%N].
  destruct (str_eqb_spec l []) as [->|N0].
  - change (str_eqb [] [46; 46]%N) with false. change (str_eqb [] [46%N]) with false. cbv iota. cbn [orb].
    cbn [rev]. rewrite rev_app_distr, app_nil_r, <- app_assoc. apply (resolved_text (rev z) true).
    + exact RZ.
    + apply Forall_rev. exact R.
    + reflexivity.
  - destruct (str_eqb_spec l [46%N]) as [->|N1].
    + change (str_eqb [46%N] [46; 46]%N) with false. cbv iota. cbn [orb].
      rewrite rev_app_distr, <- app_assoc. apply (resolved_text (rev z) true).
      * exact RZ.
      * apply Forall_rev. exact R.
      * reflexivity.
    + destruct (str_eqb_spec l [46; 46]%N) as [->|N2].
      * cbn [orb]. destruct names as [|n names].
        -- cbn [tl app]. apply (resolved_text (rev (tl z)) true []); [|constructor|reflexivity].
           left. destruct Z as [->| ->]; reflexivity.
        -- cbn [tl app]. rewrite rev_app_distr, <- app_assoc. apply (resolved_text (rev z) true).
           ++ exact RZ.
           ++ apply Forall_rev. inversion R; assumption.
           ++ reflexivity.
      * cbn [orb]. change (l :: names ++ z) with ((l :: names) ++ z).
        rewrite rev_app_distr, <- app_assoc. apply (resolved_text (rev z) false).
        -- exact RZ.
        -- apply Forall_rev. constructor; [repeat split; assumption|exact R].
        -- intros E. apply (f_equal (@length _)) in E. rewrite rev_length in E. discriminate.
Qed.

(** ** Quoting names *)

Lemma quote_app : forall a b x y, quote a = Ok x -> quote b = Ok y -> quote (a ++ b) = Ok (x ++ y).
Proof.
  intros a b x y A B. unfold quote in *. rewrite encode_app.
  destruct (utf8_encode a) as [ba|]; [|discriminate]. destruct (utf8_encode b) as [bb|]; [|discriminate].
  cbn [rbind] in *. injection A as <-. injection B as <-. rewrite flat_map_app. reflexivity.
Qed.

Lemma quote_slash : quote [47%N] = Ok [47%N].
Proof. reflexivity. Qed.

Lemma quote_ok : forall n, Forall scalar n -> exists u, quote n = Ok u.
Proof.
  intros n H. apply encode_scalar in H. destruct H as (bs & H). unfold quote. rewrite H.
  eexists. reflexivity.
Qed.

Lemma quote_slashed : forall names, Forall (Forall scalar) names ->
  exists q, Forall2 (fun u n => quote n = Ok u) q names /\ quote (slashed names) = Ok (slashed q).
Proof.
  induction names as [|n names IH]; intros H.
  - exists []. split; [constructor|reflexivity].
  - inversion H as [|? ? Hn Hns]; subst. destruct (IH Hns) as (q & F & Q). destruct (quote_ok n Hn) as (u & U).
    exists (u :: q). split; [constructor; assumption|].
    change (slashed (n :: names)) with (([47%N] ++ n) ++ slashed names).
    change (slashed (u :: q)) with (([47%N] ++ u) ++ slashed q).
    apply quote_app; [|exact Q]. apply quote_app; [reflexivity|exact U].
Qed.

Lemma quote_byte_spells : forall b u bs, (b < 256)%N -> spells u bs -> spells (quote_byte b ++ u) (b :: bs).
Proof.
  intros b u bs B S. unfold quote_byte. destruct (safe b) eqn:E.
  - apply safe_spec in E. cbn [app]. apply SChar; [|destruct E as [E| ->]; [unfold unreserved in E; lia|discriminate]|exact S].
    destruct E as [E| ->]; [unfold unreserved in E; lia|reflexivity].
  - cbn [app]. change (chr "%") with 37%N.
    replace b with (16 * (b / 16) + b mod 16)%N at 3 by (symmetry; apply N.div_mod; discriminate).
    apply SByte; [| |exact S]; apply hex_val_spec; apply hex_val_digit.
    + apply N.div_lt_upper_bound; [discriminate|lia].
    + apply N.mod_lt. discriminate.
Qed.

Lemma quoted_reads : forall n u, quote n = Ok u -> url_path u /\ reads u n.
Proof.
  intros n u Q. split; [exact (proj2 (unquote_quote (fun _ => []) n u Q))|].
  unfold quote in Q. destruct (utf8_encode n) as [bs|] eqn:E; [|discriminate]. cbn [rbind] in Q. injection Q as <-.
  apply RRun with bs; [|apply text_decode; apply decode_encode; exact E].
  pose proof (encode_bytes _ _ E) as B. clear E. induction bs as [|b bs IH]; [constructor|].
  inversion B; subst. cbn [flat_map]. apply quote_byte_spells; auto.
Qed.

Lemma quote_byte_slash : forall b, In 47%N (quote_byte b) -> (b < 256)%N -> b = 47%N.
Proof.
  intros b H B. unfold quote_byte in H. destruct (safe b).
  - destruct H as [H|[]]. exact H.
  - exfalso. change (chr "%") with 37%N in H.
    pose proof (hex_upper_digit (b / 16)%N ltac:(apply N.div_lt_upper_bound; [discriminate|lia])) as H1.
    pose proof (hex_upper_digit (b mod 16)%N ltac:(apply N.mod_lt; discriminate)) as H2.
    unfold hex_upper in H1, H2. destruct H as [H|[H|[H|[]]]]; [discriminate| |]; lia.
Qed.

Lemma utf8_low : forall c b x, utf8 c b -> In x b -> (x < 128)%N -> c = x.
Proof.
  intros c b x U I L. inversion U; subst; cbn [In] in I;
    repeat (destruct I as [I|I]; [first [exact I | exfalso; lia]|]); destruct I.
Qed.

Lemma text_low : forall s bs x, utf8_text s bs -> In x bs -> (x < 128)%N -> In x s.
Proof.
  intros s bs x T I L. induction T as [|c b s bs U T IH]; [destruct I|].
  apply in_app_or in I. destruct I as [I|I]; [left; eapply utf8_low; eassumption|right; exact (IH I)].
Qed.

Lemma quoted_name : forall n u, quote n = Ok u -> name n -> real u.
Proof.
  intros n u Q (N0 & N1 & N2 & N3). pose proof (unquote_quote (fun _ => []) n u Q) as (UQ & _).
  split; [|split; [|split]].
  - intros ->. apply N0. rewrite <- UQ. reflexivity.
  - intros ->. apply N1. rewrite <- UQ. reflexivity.
  - intros ->. apply N2. rewrite <- UQ. reflexivity.
  - intros I. apply N3. unfold quote in Q. destruct (utf8_encode n) as [bs|] eqn:E; [|discriminate].
    cbn [rbind] in Q. injection Q as <-. apply in_flat_map in I. destruct I as (b & Ib & I).
    pose proof (encode_bytes _ _ E) as B. rewrite Forall_forall in B.
    apply quote_byte_slash in I; [|apply B; exact Ib]. subst b.
    apply (text_low n bs); [apply text_decode; apply decode_encode; exact E|exact Ib|reflexivity].
Qed.

Lemma url_path_plain : forall u, url_path u -> plain_chars u.
Proof.
  intros u H. unfold plain_chars. induction H as [|c u H U IH|h l u H1 H2 U IH]; [constructor| |].
  - constructor; [|exact IH]. unfold unreserved in H. cbn [In]. lia.
  - unfold hex_upper in *. repeat (constructor; [cbn [In]; lia|]). exact IH.
Qed.

(** ** Splitting URLs *)

Lemma plain_app : forall a b, plain_chars a -> plain_chars b -> plain_chars (a ++ b).
Proof. intros. apply Forall_app. split; assumption. Qed.

Lemma plain_not : forall p c, plain_chars p -> In c [92; 35; 63; 9; 10; 13]%N -> ~ In c p.
Proof. intros p c H I J. unfold plain_chars in H. rewrite Forall_forall in H. exact (H c J I). Qed.

Lemma partition1_none : forall c s, ~ In c s -> partition1 c s = None.
Proof.
  induction s as [|x s IH]; intros H; [reflexivity|]. cbn [partition1].
  destruct (N.eqb_spec x c) as [->|N]; [exfalso; apply H; left; reflexivity|].
  rewrite IH; [reflexivity|]. intros I. apply H. right. exact I.
Qed.

Lemma partition1_app : forall c a b, ~ In c a -> partition1 c (a ++ c :: b) = Some (a, b).
Proof.
  induction a as [|x a IH]; intros b H; cbn [app partition1].
  - rewrite N.eqb_refl. reflexivity.
  - destruct (N.eqb_spec x c) as [->|N]; [exfalso; apply H; left; reflexivity|].
    rewrite IH; [reflexivity|]. intros I. apply H. right. exact I.
Qed.

Lemma partition1_some : forall c s a b, partition1 c s = Some (a, b) -> s = a ++ c :: b /\ ~ In c a.
Proof.
  induction s as [|x s IH]; intros a b H; [discriminate|]. cbn [partition1] in H.
  destruct (N.eqb_spec x c) as [->|N].
  - injection H as <- <-. split; [reflexivity|intros []].
  - destruct (partition1 c s) as [[a' b']|]; [|discriminate]. injection H as <- <-.
    destruct (IH a' b' eq_refl) as (-> & I). split; [reflexivity|]. intros [J|J]; [exact (N J)|exact (I J)].
Qed.

Lemma split1_none : forall c s, ~ In c s -> split1 c s = (s, []).
Proof. intros c s H. unfold split1. rewrite partition1_none by exact H. reflexivity. Qed.

Lemma clean_same : forall p, plain_chars p -> (forall c r, p = c :: r -> (32 < c)%N) -> clean_url p = p.
Proof.
  intros p H F. unfold clean_url. destruct p as [|c r]; [reflexivity|].
  pose proof (F c r eq_refl) as L. cbn [drop_while]. rewrite (proj2 (N.leb_gt c 32) L).
  clear F L. induction H as [|x l Hx Hl IH]; [reflexivity|]. cbn [filter].
  assert (existsb (N.eqb x) [9; 13; 10]%N = false) as ->.
  { apply Bool.not_true_iff_false. intros E. apply existsb_exists in E. destruct E as (y & I & E).
    apply N.eqb_eq in E. subst y. apply Hx. cbn [In] in *. tauto. }
  cbn [negb]. rewrite IH. reflexivity.
Qed.

Lemma is_alpha_spec : forall c, is_alpha c = true <-> letter c.
Proof.
  intros c. unfold is_alpha, is_upper, is_lower, letter.
  rewrite orb_true_iff, !andb_true_iff, !N.leb_le. reflexivity.
Qed.

Lemma scheme_char_spec : forall c, scheme_char c = true <->
  (letter c \/ 48 <= c <= 57 \/ c = 43 \/ c = 45 \/ c = 46)%N.
Proof.
  intros c. unfold scheme_char. rewrite !orb_true_iff, is_alpha_spec. unfold is_digit.
  rewrite andb_true_iff, !N.leb_le. change (lit "+-.") with [43; 45; 46]%N. cbn [existsb].
  rewrite !orb_true_iff, !N.eqb_eq. intuition discriminate.
Qed.

Lemma no_scheme : forall p s, (forall a b, p = a ++ 58%N :: b -> ~ scheme a) -> split_scheme p s = (s, p).
Proof.
  intros p s H. unfold split_scheme. change (chr ":") with 58%N.
  destruct (partition1 58%N p) as [[a b]|] eqn:E; [|reflexivity].
  apply partition1_some in E. destruct E as (E & _). destruct a as [|c a]; [reflexivity|].
  destruct (is_alpha c && forallb scheme_char (c :: a)) eqn:B; [|reflexivity]. exfalso.
  apply (H _ _ E). apply andb_true_iff in B. destruct B as (B1 & B2).
  exists c, a. split; [reflexivity|]. split; [apply is_alpha_spec; exact B1|].
  rewrite forallb_forall in B2. apply Forall_forall. intros x I. apply scheme_char_spec. apply B2. exact I.
Qed.

Lemma starts2 : forall p, starts_with (lit "//") p = match p with 47%N :: 47%N :: _ => true | _ => false end.
Proof.
  intros [|a [|b p]]; [reflexivity| |]; unfold starts_with; change (lit "//") with [47; 47]%N;
    cbn [length firstn str_eqb]; rewrite (N.eqb_sym 47 a).
  - rewrite andb_false_r. destruct (N.eqb_spec a 47) as [->|N]; [reflexivity|]. not_slash a N.
  - rewrite andb_true_r, (N.eqb_sym 47 b). destruct (N.eqb_spec a 47) as [->|N].
    + destruct (N.eqb_spec b 47) as [->|N2]; [reflexivity|]. not_slash b N2.
    + not_slash a N.
Qed.

Definition local_parts (p : pystr) : split_result :=
  {| u_scheme := lit "file"; u_netloc := []; u_path := p; u_query := []; u_fragment := [] |}.

Lemma sum_target_plain : forall d names, Forall plain_chars names -> plain_chars (target d names).
Proof.
  intros d names H. unfold target. apply plain_app.
  - assert (S : plain_chars (slashed names)).
    { unfold slashed. induction H as [|n l Hn Hl IH]; [constructor|]. cbn [flat_map].
      apply (plain_app (47%N :: n)); [|exact IH]. constructor; [|exact Hn]. cbn [In]. lia. }
    rewrite folder_slashed. destruct names; [|exact S].
    constructor; [cbn [In]; lia|constructor].
  - unfold tail_slash. destruct names; [constructor|]. destruct d; [|constructor].
    constructor; [cbn [In]; lia|constructor].
Qed.

(** ** Normalized paths stay *)

Lemma plain_plain : forall p, plain_chars p -> plain p.
Proof. intros p H. split; (apply plain_not; [exact H|cbn [In]; tauto]). Qed.

Lemma target_root : forall d names, Forall real names -> root_of (target d names) = Slash.
Proof.
  intros d names H. rewrite target_join. destruct names as [|a names]; [reflexivity|].
  inversion H as [|? ? Ha _]; subst. destruct (real_first a Ha) as (c & s & -> & Hc). cbn [app join].
  destruct (names ++ (if d then [[]] else [])); apply root_one; exact Hc.
Qed.

Lemma norm_reals : forall names acc rest, Forall real names ->
  norm_comps true (names ++ rest) acc = norm_comps true rest (rev names ++ acc).
Proof.
  induction names as [|n names IH]; intros acc rest H; [reflexivity|].
  inversion H as [|? ? (N0 & N1 & N2 & N3) Hn]; subst. cbn [app norm_comps].
  destruct (str_eqb_spec n []) as [E|_]; [contradiction|].
  change (lit ".") with [46%N]. change (lit "..") with [46; 46]%N.
  destruct (str_eqb_spec n [46%N]) as [E|_]; [contradiction|].
  destruct (str_eqb_spec n [46; 46]%N) as [E|_]; [contradiction|]. cbn [orb negb].
  rewrite IH by exact Hn. cbn [rev]. rewrite <- app_assoc. reflexivity.
Qed.

Lemma osp_target : forall d names, Forall real names -> osp_normpath (target d names) = folder_path names.
Proof.
  intros d names H. assert (E : target d names <> []) by (rewrite target_join; discriminate).
  unfold osp_normpath. destruct (target d names) as [|c0 t0] eqn:T; [contradiction|]. rewrite <- T.
  rewrite initial_root, target_root by exact H. cbn [slashes]. change (chr "/") with 47%N.
  rewrite split_target by exact H.
  change (norm_comps true ([] :: names ++ match names with [] => [[]] | _ :: _ => if d then [[]] else [] end) [])
    with (norm_comps true (names ++ match names with [] => [[]] | _ :: _ => if d then [[]] else [] end) []).
  rewrite norm_reals by exact H. rewrite app_nil_r.
  assert (norm_comps true match names with [] => [[]] | _ :: _ => if d then [[]] else [] end (rev names) = names) as ->.
  { transitivity (rev (rev names)); [|apply rev_involutive]. destruct names; [reflexivity|]. destruct d; reflexivity. }
  rewrite folder_join. reflexivity.
Qed.

Lemma slashed_end : forall names, Forall real names -> names <> [] ->
  exists q c, folder_path names = q ++ [c] /\ c <> 47%N.
Proof.
  intros names H N. rewrite folder_join.
  destruct (join_end names) as (q & c & E & C).
  - eapply Forall_impl; [|exact H]. intros a Ha. left. exact Ha.
  - exact N.
  - exists (47%N :: q), c. split; [rewrite E; reflexivity|exact C].
Qed.

Lemma last_inj : forall (a b : pystr) x y, a ++ [x] = b ++ [y] -> a = b /\ x = y.
Proof. intros. apply app_inj_tail. assumption. Qed.

Lemma normpath_target : forall d names, Forall real names -> Forall plain_chars names ->
  normpath (target d names) = target d names.
Proof.
  intros d names H P. unfold normpath. rewrite osp_target by exact H. rewrite keep_slash_spec.
  pose proof (is_dir_plain _ (plain_plain _ (sum_target_plain d names P))) as D.
  destruct names as [|a names].
  - cbn. destruct (is_dir (target d [])); reflexivity.
  - destruct (slashed_end (a :: names) H ltac:(discriminate)) as (q & c & E & C).
    unfold target, tail_slash in *. destruct d.
    + assert (is_dir (folder_path (a :: names) ++ [47%N]) = true) as ->.
      { apply D. exists q, c. rewrite E. rewrite <- app_assoc. split; [reflexivity|exact C]. }
      destruct (ends_with (lit "/") (folder_path (a :: names))) eqn:W; [|reflexivity].
      apply ends_with1 in W. destruct W as (w & W). rewrite E in W. apply last_inj in W. destruct W. contradiction.
    + rewrite app_nil_r in *. destruct (is_dir (folder_path (a :: names))) eqn:I; [|reflexivity].
      exfalso. destruct (proj1 D eq_refl) as (q' & c' & E' & _). rewrite E in E'.
      change [c'; 47%N] with ([c'] ++ [47%N]) in E'. rewrite app_assoc in E'. apply last_inj in E'.
      destruct E' as (_ & ->). contradiction.
Qed.

Lemma unbackslash_same : forall p, ~ In 92%N p -> unbackslash p = p.
Proof.
  induction p as [|c p IH]; intros H; [reflexivity|]. unfold unbackslash in *. cbn [map].
  change (chr "\") with 92%N. destruct (N.eqb_spec c 92) as [->|N]; [exfalso; apply H; left; reflexivity|].
  f_equal. apply IH. intros I. apply H. right. exact I.
Qed.

Lemma walk_filter : forall l st, walk st (filter (fun s => negb (str_eqb s [])) l) = walk st l.
Proof.
  induction l as [|n l IH]; intros st; [reflexivity|]. cbn [filter]. destruct (str_eqb n []) eqn:E; cbn [negb walk].
  - rewrite E. apply IH.
  - rewrite E. destruct (str_eqb n [46%N]); [apply IH|]. destruct (str_eqb n [46; 46]%N); apply IH.
Qed.

Lemma split_last : forall p, split_on 47%N p = removelast (split_on 47%N p) ++ [last (split_on 47%N p) []].
Proof. intros p. apply app_removelast_last. apply split_on_not_nil. Qed.

Lemma split_no_slash : forall p, Forall no_slash (split_on 47%N p).
Proof. intros p. apply Forall_forall. intros w I. apply split_on_no_sep with p. exact I. Qed.

Lemma split_plain : forall p, plain_chars p -> Forall plain_chars (split_on 47%N p).
Proof.
  intros p H. unfold plain_chars in *. apply Forall_forall. intros w I. apply Forall_forall. intros c J.
  rewrite Forall_forall in H. apply H. eapply split_chars; eassumption.
Qed.

Lemma doubled : forall r, In [] (removelast (split_on 47%N r)) ->
  (exists b, r = 47%N :: b) \/ exists a b, r = a ++ 47%N :: 47%N :: b.
Proof.
  intros r I.
  assert (exists l1 l2, removelast (split_on 47%N r) = l1 ++ [] :: l2) as (l1 & l2 & E) by (apply in_split; exact I).
  pose proof (split_last r) as S. rewrite E in S. remember (last (split_on 47%N r) []) as l eqn:L in S. clear L.
  pose proof (join_split 47%N r) as J. rewrite S in J. rewrite <- app_assoc in J. cbn [app] in J.
  destruct l1 as [|x l1].
  - left. exists (join [47%N] (l2 ++ [l])). rewrite <- J. cbn [app].
    destruct (l2 ++ [l]) eqn:Z; [destruct l2; discriminate|reflexivity].
  - right. clear E S I. revert r J. generalize x. clear x. induction l1 as [|y l1 IH]; intros x r J.
    + exists x, (join [47%N] (l2 ++ [l])). rewrite <- J. cbn [app].
      destruct (l2 ++ [l]) eqn:Z; [destruct l2; discriminate|reflexivity].
    + destruct (IH y _ eq_refl) as (a & b & E).
      exists (x ++ 47%N :: a), b. rewrite <- J. rewrite <- app_assoc. cbn [app].
      change (join [47%N] (x :: y :: l1 ++ [] :: l2 ++ [l])) with (x ++ [47%N] ++ join [47%N] ((y :: l1) ++ [] :: l2 ++ [l])).
      rewrite E. reflexivity.
Qed.

(** ** [urljoin] and [path2url] *)

Lemma unsplit_local : forall p, urlunsplit (local_parts p) = lit "file://" ++ add_slash p.
Proof. intros p. reflexivity. Qed.

Lemma unparse_local : forall p, urlunparse (local_parts p) [] = lit "file://" ++ add_slash p.
Proof. intros p. reflexivity. Qed.

Definition rooted (p : pystr) : Prop := p = [] \/ exists r, p = 47%N :: r.

Lemma file_plain : plain_chars (lit "file://").
Proof. repeat (constructor; [cbv [In]; intuition discriminate|]). constructor. Qed.

Section Url.
  Variable bad_host : pystr -> bool.
  Notation urlsplit := (urlsplit bad_host).
  Notation urlparse := (urlparse bad_host).
  Notation urljoin := (urljoin bad_host).

  Lemma urlsplit_file : forall T s, plain_chars T -> rooted T ->
    urlsplit (lit "file://" ++ T) s = Ok (local_parts T).
  Proof.
    intros T s P R. unfold FileUrl_Model.urlsplit.
    rewrite clean_same; [|apply plain_app; [exact file_plain|exact P]|].
    2:{ intros c r E. injection E as <- _. reflexivity. }
    unfold split_scheme. change (lit "file://" ++ T) with (lit "file" ++ 58%N :: (47%N :: 47%N :: T)).
    rewrite (partition1_app 58%N).
    2:{ change (lit "file") with [102; 105; 108; 101]%N. cbn [In]. lia. }
    change (lit "file" ++ 58%N :: 47%N :: 47%N :: T) with (102%N :: [105; 108; 101]%N ++ 58%N :: 47%N :: 47%N :: T).
    cbv iota. change (match lit "file" with [] => (s, 102%N :: [105; 108; 101]%N ++ 58%N :: 47%N :: 47%N :: T)
      | c :: _ => if is_alpha c && forallb scheme_char (lit "file") then (lower (lit "file"), 47%N :: 47%N :: T)
                  else (s, 102%N :: [105; 108; 101]%N ++ 58%N :: 47%N :: 47%N :: T) end)
      with (lit "file", 47%N :: 47%N :: T).
    cbv iota. rewrite starts2. change (skipn 2 (47%N :: 47%N :: T)) with T.
    assert (splitnetloc T = ([], T)) as -> by (destruct R as [->|(r & ->)]; reflexivity).
    rewrite split1_none by (apply plain_not; [exact P|cbn [In]; tauto]).
    rewrite split1_none by (apply plain_not; [exact P|cbn [In]; tauto]). reflexivity.
  Qed.

  Lemma urlparse_file : forall T s, plain_chars T -> rooted T ->
    urlparse (lit "file://" ++ T) s = Ok (local_parts T, []).
  Proof. intros T s P R. unfold FileUrl_Model.urlparse. rewrite urlsplit_file by assumption. reflexivity. Qed.

  (** Texts that are taken for paths *)
  Definition path_text (p : pystr) : Prop :=
    plain_chars p /\ (exists c r, p = c :: r /\ 32 < c)%N /\ (forall a b, p = a ++ 58%N :: b -> ~ scheme a) /\
    (forall b, p <> 47%N :: 47%N :: b).

  Lemma urlsplit_path : forall p, path_text p -> urlsplit p (lit "file") = Ok (local_parts p).
  Proof.
    intros p (P & (c & r & E & L) & S & D). unfold FileUrl_Model.urlsplit.
    rewrite clean_same; [|exact P|]. 2:{ intros c' r' E'. rewrite E in E'. injection E' as <- _. exact L. }
    rewrite no_scheme by exact S. rewrite starts2.
    assert (match p with 47%N :: 47%N :: _ => true | _ => false end = false) as ->.
    { rewrite <- starts2. destruct (starts_with (lit "//") p) eqn:W; [|reflexivity]. exfalso.
      unfold starts_with in W. apply str_eqb_eq in W. change (lit "//") with [47; 47]%N in W. cbn [length] in W.
      destruct p as [|x [|y p]]; try discriminate. cbn [firstn] in W. injection W as <- <-. exact (D p eq_refl). }
    rewrite split1_none by (apply plain_not; [exact P|cbn [In]; tauto]).
    rewrite split1_none by (apply plain_not; [exact P|cbn [In]; tauto]). reflexivity.
  Qed.

  Lemma urljoin_path : forall B p, plain_chars B -> rooted B -> path_text p ->
    urljoin (lit "file://" ++ B) p = Ok (lit "file://" ++ add_slash (join_paths B p)).
  Proof.
    intros B p PB RB P. unfold FileUrl_Model.urljoin.
    change (str_eqb (lit "file://" ++ B) []) with false. cbv iota.
    destruct P as (P1 & (c & r & E & L) & P2). destruct (str_eqb_spec p []) as [Z|NE]; [subst; discriminate|].
    rewrite urlparse_file by assumption. cbn [rbind]. change (u_scheme (local_parts B)) with (lit "file").
    unfold FileUrl_Model.urlparse. rewrite urlsplit_path by (split; [exact P1|split; [exists c, r; split; [exact E|exact L]|exact P2]]).
    cbn [rbind]. change (in_list (u_scheme (local_parts p)) uses_params) with false. cbv iota. cbn [rbind].
    change (negb (str_eqb (u_scheme (local_parts p)) (lit "file")) || negb (in_list (u_scheme (local_parts p)) uses_relative)) with false.
    cbv iota. change (in_list (u_scheme (local_parts p)) uses_netloc) with true.
    change (negb (str_eqb (u_netloc (local_parts p)) [])) with false. cbn [andb]. cbv iota.
    change (u_path (local_parts p)) with p. destruct (str_eqb_spec p []) as [Z|_]; [contradiction|]. cbn [andb].
    reflexivity.
  Qed.

  (** *** The base *)

  Definition base_path (q : list pystr) : pystr := match q with [] => [] | _ => slashed q ++ [47%N] end.

  Lemma base_rooted : forall q, rooted (base_path q).
  Proof. intros [|a q]; [left; reflexivity|]. right. eexists. reflexivity. Qed.

  Lemma base_target : forall q, base_path q = match q with [] => [] | _ => target true q end.
  Proof. intros [|a q]; reflexivity. Qed.

  Lemma slash_scheme : forall r a b, 47%N :: r = a ++ 58%N :: b -> ~ scheme a.
  Proof.
    intros r a b E (c & a' & -> & L & _). injection E as <- _. unfold letter in L. lia.
  Qed.

  Lemma reals_nonempty : forall q, Forall real q -> Forall (fun s => s <> []) q.
  Proof. intros q H. eapply Forall_impl; [|exact H]. intros a Ha. exact (proj1 Ha). Qed.

  Lemma reals_no_slash : forall q, Forall real q -> Forall no_slash q.
  Proof. intros q H. eapply Forall_impl; [|exact H]. intros a Ha. apply Ha. Qed.

  Lemma join_paths_abs : forall B r, Forall (fun s => s <> []) (removelast (split_on 47%N r)) ->
    add_slash (join_paths B (47%N :: r))
    = target (dirlike (last (split_on 47%N r) [])) (rev (walk [] (split_on 47%N r))).
  Proof.
    intros B r F. unfold join_paths. rewrite starts1. change (47 =? 47)%N with true. cbv iota.
    change (chr "/") with 47%N. change (split_on 47%N (47%N :: r)) with ([] :: split_on 47%N r).
    assert (last ([] :: split_on 47%N r) [] = last (split_on 47%N r) []) as ->
      by (pose proof (split_on_not_nil 47%N r); destruct (split_on 47%N r); [contradiction|reflexivity]).
    pose proof (split_last r) as S. set (m := removelast (split_on 47%N r)) in *.
    set (l := last (split_on 47%N r) []) in *. rewrite S. rewrite <- segments_text.
    - unfold or_slash, dots. destruct (str_eqb l (lit ".") || str_eqb l (lit "..")); [reflexivity|].
      rewrite app_nil_r. reflexivity.
    - exact F.
    - pose proof (split_no_slash r) as A. rewrite S in A. apply Forall_app in A. apply A.
    - pose proof (split_no_slash r) as A. rewrite S in A. apply Forall_app in A. destruct A as (_ & A).
      inversion A; assumption.
  Qed.

  Lemma join_paths_rel : forall q p, Forall real q -> abs_of p = false ->
    add_slash (join_paths (base_path q) p)
    = target (dirlike (last (split_on 47%N p) [])) (rev (walk (rev q) (split_on 47%N p))).
  Proof.
    intros q p R A. unfold join_paths. change (chr "/") with 47%N.
    assert (starts_with (lit "/") p = false) as ->
      by (destruct p as [|c p]; [reflexivity|rewrite starts1; exact A]).
    assert (SB : split_on 47%N (base_path q) = [] :: match q with [] => [] | _ => q ++ [[]] end).
    { rewrite base_target. destruct q as [|a q]; [reflexivity|]. rewrite split_target by exact R. reflexivity. }
    rewrite SB.
    assert (last ([] :: match q with [] => [] | _ => q ++ [[]] end) [] = ([] : pystr)) as ->.
    { destruct q as [|a q]; [reflexivity|].
      change ([] :: (a :: q) ++ [[]]) with (([] :: a :: q) ++ [([] : pystr)]). apply last_snoc. }
    change (str_eqb [] []) with true. cbv iota.
    pose proof (split_last p) as S. set (m := removelast (split_on 47%N p)) in *.
    set (l := last (split_on 47%N p) []) in *. rewrite S.
    set (ne := fun s : list N => negb (str_eqb s [])).
    assert (filter_inner (([] :: match q with [] => [] | _ => q ++ [[]] end) ++ m ++ [l])
            = [] :: (q ++ filter ne m) ++ [l]) as ->.
    { cbn [app]. set (t := match q with [] => [] | _ => q ++ [[]] end ++ m).
      rewrite app_assoc. fold t. unfold filter_inner.
      destruct (t ++ [l]) eqn:Z; [destruct t; discriminate|]. rewrite <- Z. clear Z.
      rewrite removelast_last, last_snoc. f_equal. f_equal. fold ne. unfold t.
      rewrite filter_app. f_equal. destruct q as [|a q]; [reflexivity|].
      rewrite filter_app. change (filter ne [[]]) with (@nil pystr). rewrite app_nil_r.
      clear - R. induction R as [|x xs Hx Hxs IH]; [reflexivity|]. cbn [filter]. unfold ne at 1.
      destruct (str_eqb_spec x []) as [E|_]; [destruct Hx; contradiction|]. cbn [negb]. rewrite IH. reflexivity. }
    change ([] :: (q ++ filter ne m) ++ [l]) with (([] :: q ++ filter ne m) ++ [l]). rewrite last_snoc.
    assert (NS : Forall no_slash m /\ no_slash l).
    { pose proof (split_no_slash p) as Q. rewrite S in Q. apply Forall_app in Q. destruct Q as (Q1 & Q2).
      split; [exact Q1|]. inversion Q2; assumption. }
    assert (E : walk (rev q) (m ++ [l]) = walk [] ((q ++ filter ne m) ++ [l])).
    { rewrite !walk_app. unfold ne. rewrite walk_filter. rewrite (walk_reals q [] R). rewrite app_nil_r. reflexivity. }
    rewrite E. cbn [app]. rewrite <- segments_text.
    - unfold or_slash, dots. destruct (str_eqb l (lit ".") || str_eqb l (lit "..")); [reflexivity|].
      rewrite app_nil_r. reflexivity.
    - apply Forall_app. split; [apply reals_nonempty; exact R|].
      apply Forall_forall. intros x I. apply filter_In in I. destruct I as (_ & I). unfold ne in I.
      intros ->. discriminate.
    - apply Forall_app. split; [apply reals_no_slash; exact R|].
      apply Forall_forall. intros x I. apply filter_In in I. destruct NS as (NS & _).
      rewrite Forall_forall in NS. apply NS. apply I.
    - apply NS.
  Qed.

  Lemma base_url : forall q, Forall real q -> Forall plain_chars q ->
    urljoin (lit "file:") (match q with [] => [47; 47]%N | _ => slashed q ++ [47%N] end)
    = Ok (lit "file://" ++ base_path q).
  Proof.
    intros [|a q] R P; [reflexivity|]. cbn [base_path].
    change (slashed (a :: q) ++ [47%N]) with (target true (a :: q)).
    unfold FileUrl_Model.urljoin. change (str_eqb (lit "file:") []) with false. cbv iota.
    assert (NE : str_eqb (target true (a :: q)) [] = false) by (rewrite target_join; reflexivity). rewrite NE.
    change (urlparse (lit "file:") []) with (Ok (local_parts [], ([] : pystr))). cbn [rbind].
    change (u_scheme (local_parts [])) with (lit "file").
    assert (PT : path_text (target true (a :: q))).
    { split; [apply sum_target_plain; exact P|]. rewrite target_join. split; [eexists; eexists; split; reflexivity|].
      split; [apply slash_scheme|]. intros b E. pose proof (target_root true (a :: q) R) as TR.
      rewrite target_join in TR. inversion R as [|? ? Ha _]; subst. destruct (real_first a Ha) as (c & s & -> & Hc).
      injection E as E. cbn [app join] in E. destruct (q ++ [[]]); injection E as -> _; contradiction. }
    unfold FileUrl_Model.urlparse. rewrite urlsplit_path by exact PT. cbn [rbind].
    change (in_list (u_scheme (local_parts (target true (a :: q)))) uses_params) with false. cbv iota. cbn [rbind].
    change (negb (str_eqb (u_scheme (local_parts (target true (a :: q)))) (lit "file"))
            || negb (in_list (u_scheme (local_parts (target true (a :: q)))) uses_relative)) with false.
    cbv iota. change (in_list (u_scheme (local_parts (target true (a :: q)))) uses_netloc) with true.
    change (negb (str_eqb (u_netloc (local_parts (target true (a :: q)))) [])) with false. cbn [andb]. cbv iota.
    change (u_path (local_parts (target true (a :: q)))) with (target true (a :: q)). rewrite NE. cbn [andb].
    change (Ok (lit "file://" ++ add_slash (join_paths [] (target true (a :: q)))) = Ok (lit "file://" ++ target true (a :: q))).
    f_equal. f_equal.
    assert (T : target true (a :: q) = 47%N :: join [47%N] ((a :: q) ++ [[]])) by apply target_join.
    pose proof (split_target true (a :: q) R) as SP. rewrite T in SP |- *.
    change (split_on 47%N (47%N :: join [47%N] ((a :: q) ++ [[]])))
      with ([] :: split_on 47%N (join [47%N] ((a :: q) ++ [[]]))) in SP.
    apply (f_equal (@tl pystr)) in SP. cbn [tl] in SP.
    rewrite join_paths_abs; rewrite SP.
    - rewrite last_snoc.
      rewrite walk_app, (walk_reals (a :: q) [] R). rewrite app_nil_r. cbn [walk]. change (str_eqb [] []) with true. cbv iota. rewrite rev_involutive.
      change (dirlike []) with true. rewrite <- T. reflexivity.
    - rewrite removelast_last. apply reals_nonempty. exact R.
  Qed.

  Lemma match_drive_none : forall p, (forall a b, p = a ++ 58%N :: b -> length a <> 1) -> match_drive p = None.
  Proof.
    intros [|d [|c r]] H; try reflexivity. unfold match_drive. change (chr ":") with 58%N.
    destruct (N.eqb_spec c 58) as [->|N]; [|rewrite andb_false_r; reflexivity].
    exfalso. apply (H [d] r); reflexivity.
  Qed.

  Lemma no_unc : forall p, ~ In 92%N p -> starts_with unc_prefix p = false.
  Proof.
    intros p H. destruct (starts_with unc_prefix p) eqn:E; [|reflexivity]. exfalso. apply H.
    apply prefix_backslash. exact E.
  Qed.

  Lemma quote_cwd : forall cwd, Forall name cwd -> Forall (Forall scalar) cwd ->
    exists q, Forall2 (fun u n => quote n = Ok u) q cwd /\ Forall real q /\ Forall plain_chars q /\
    quote (folder_path cwd ++ [47%N]) = Ok (match q with [] => [47; 47]%N | _ => slashed q ++ [47%N] end).
  Proof.
    intros cwd N S. destruct (quote_slashed cwd S) as (q & F & Q). exists q. split; [exact F|].
    assert (RP : Forall (fun u => real u /\ plain_chars u) q).
    { clear Q S. induction F as [|u n q cwd U F IH]; [constructor|]. inversion N; subst.
      constructor; [|apply IH; assumption]. split; [eapply quoted_name; eassumption|].
      apply url_path_plain. apply (quoted_reads n u U). }
    split; [eapply Forall_impl; [|exact RP]; intros u H; apply H|].
    split; [eapply Forall_impl; [|exact RP]; intros u H; apply H|].
    rewrite folder_slashed. destruct F as [|u n q cwd U F]; [reflexivity|].
    apply quote_app; [exact Q|reflexivity].
  Qed.

  Variables expandvars expanduser_tilde : pystr -> pystr.
  Notation path2url := (path2url bad_host expandvars expanduser_tilde).

  Lemma finish_target : forall T d names eu, Forall real names -> Forall plain_chars names -> T = target d names ->
    (do parts <- urlsplit (lit "file://" ++ T) [];
     let p := u_path parts in
     let p := if str_eqb (u_scheme parts) (lit "file") && eu then expanduser expanduser_tilde p else p in
     let p := unbackslash (normpath p) in
     Ok (urlunsplit {| u_scheme := u_scheme parts; u_netloc := u_netloc parts; u_path := p;
                       u_query := u_query parts; u_fragment := u_fragment parts |}))
    = Ok (lit "file://" ++ target d names).
  Proof.
    intros T d names eu R P ->.
    assert (PT : plain_chars (target d names)) by (apply sum_target_plain; exact P).
    assert (TJ : exists r, target d names = 47%N :: r) by (rewrite target_join; eexists; reflexivity).
    rewrite urlsplit_file; [|exact PT|right; exact TJ]. cbn [rbind].
    change (u_path (local_parts (target d names))) with (target d names).
    assert ((if str_eqb (u_scheme (local_parts (target d names))) (lit "file") && eu
             then expanduser expanduser_tilde (target d names) else target d names) = target d names) as ->.
    { destruct TJ as (r & ->). destruct eu; reflexivity. }
    cbv zeta. rewrite normpath_target by assumption.
    rewrite unbackslash_same by (apply plain_not; [exact PT|cbn [In]; tauto]).
    change (Ok (urlunsplit (local_parts (target d names))) = Ok (lit "file://" ++ target d names)).
    rewrite unsplit_local. destruct TJ as (r & ->). rewrite add_slash_slash. reflexivity.
  Qed.

  Lemma local_result : forall cwd p eu, Forall name cwd -> Forall (Forall scalar) cwd -> local_path p ->
    exists q, Forall2 (fun u n => quote n = Ok u) q cwd /\ Forall real q /\ Forall plain_chars q /\
    path2url (folder_path cwd) p false eu
    = Ok (lit "file://" ++ target (dirlike (last (split_on 47%N p) [])) (rev (leads_to (rev q) p))).
  Proof.
    intros cwd p eu N S (P & (c & r & E & L) & SC & AB).
    destruct (quote_cwd cwd N S) as (q & F & R & PQ & Q). exists q. repeat (split; [assumption|]).
    unfold FileUrl_Model.path2url.
    destruct (str_eqb_spec p []) as [Z|_]; [subst; discriminate|].
    cbv zeta. rewrite no_unc by (apply plain_not; [exact P|cbn [In]; tauto]).
    rewrite unbackslash_same by (apply plain_not; [exact P|cbn [In]; tauto]).
    rewrite match_drive_none by (intros a b X; apply (SC a b X)).
    change (lit "/") with [47%N]. rewrite Q. cbn [rbind]. rewrite base_url by assumption. cbn [rbind].
    assert (PB : plain_chars (base_path q)).
    { rewrite base_target. destruct q; [constructor|]. apply sum_target_plain. exact PQ. }
    rewrite urljoin_path; [|exact PB|apply base_rooted|].
    2:{ split; [exact P|]. split; [exists c, r; split; assumption|]. split; [intros a b X; apply (SC a b X)|].
        intros b X. apply (AB (47%N :: b) [] b X). exact X. }
    cbn [rbind]. apply finish_target.
    - apply Forall_rev. rewrite leads_to_eq. apply walk_names; [|apply split_no_slash].
      destruct (abs_of p); [constructor|]. apply Forall_rev. exact R.
    - apply Forall_rev. rewrite leads_to_eq. apply walk_keeps; [|apply split_plain; exact P].
      destruct (abs_of p); [constructor|]. apply Forall_rev. exact PQ.
    - rewrite leads_to_eq. destruct (abs_of p) eqn:A.
      + subst p. unfold abs_of in A. apply N.eqb_eq in A. subst c.
        rewrite join_paths_abs.
        * change (split_on 47%N (47%N :: r)) with ([] :: split_on 47%N r). rewrite walk_empty. f_equal. f_equal.
          pose proof (split_on_not_nil 47%N r). destruct (split_on 47%N r); [contradiction|reflexivity].
        * apply Forall_forall. intros x I ->. destruct (doubled r I) as [(b & ->)|(a & b & ->)].
          -- apply (AB _ [] b eq_refl). reflexivity.
          -- apply (AB _ (47%N :: a) b eq_refl). reflexivity.
      + apply join_paths_rel; assumption.
  Qed.
End Url.

(** ** What the results are *)

Lemma dirlike_spec : forall p, dirlike (last (split_on 47%N p) []) = true <-> of_folder p.
Proof.
  intros p. unfold of_folder, dirlike, dots. rewrite !orb_true_iff, !str_eqb_eq.
  change (lit ".") with [46%N]. change (lit "..") with [46; 46]%N. cbn [In].
  split; intros H; [destruct H as [H|[H|H]]|destruct H as [H|[H|[H|[]]]]]; auto.
Qed.

Lemma target_file_path : forall d (P : Prop) names, (d = true <-> P) -> file_path P names (target d names).
Proof.
  intros d P names E. unfold file_path, target, tail_slash. destruct names as [|a names].
  - right. rewrite app_nil_r. split; [right; reflexivity|reflexivity].
  - destruct d.
    + left. split; [apply E; reflexivity|]. split; [discriminate|reflexivity].
    + right. rewrite app_nil_r. split; [left; intros H; apply E in H; discriminate|reflexivity].
Qed.

Lemma file_path_target : forall P names path, file_path P names path -> exists d, path = target d names.
Proof.
  intros P names path [(_ & N & ->)|(_ & ->)].
  - exists true. unfold target, tail_slash. destruct names; [contradiction|reflexivity].
  - exists false. unfold target, tail_slash. destruct names; rewrite app_nil_r; reflexivity.
Qed.

Lemma target_leads : forall d names st, Forall real names -> leads_to st (target d names) = rev names.
Proof.
  intros d names st H. rewrite leads_to_eq.
  assert (abs_of (target d names) = true) as -> by (rewrite target_join; reflexivity).
  rewrite split_target by exact H. rewrite walk_empty, walk_app, (walk_reals names [] H). rewrite app_nil_r.
  destruct names; [reflexivity|]. destruct d; reflexivity.
Qed.

Lemma join_target : forall B d names, Forall real names ->
  add_slash (join_paths B (target d names)) = target d names.
Proof.
  intros B d names R. pose proof (split_target d names R) as S.
  assert (T : exists r, target d names = 47%N :: r) by (rewrite target_join; eexists; reflexivity).
  destruct T as (r & T). rewrite T in S.
  change (split_on 47%N (47%N :: r)) with ([] :: split_on 47%N r) in S.
  apply (f_equal (@tl pystr)) in S. cbn [tl] in S.
  rewrite T at 1. rewrite join_paths_abs; rewrite S; destruct names as [|a names].
  - destruct d; reflexivity.
  - destruct d.
    + rewrite last_snoc, walk_app, (walk_reals (a :: names) [] R), app_nil_r. cbn [walk].
      change (str_eqb [] []) with true. cbv iota. rewrite rev_involutive. reflexivity.
    + rewrite app_nil_r, (walk_reals (a :: names) [] R), app_nil_r, rev_involutive.
      assert (dirlike (last (a :: names) []) = false) as ->; [|reflexivity].
      assert (L : real (last (a :: names) [])).
      { rewrite Forall_forall in R. apply R. clear. rewrite (@app_removelast_last _ (a :: names) []) at 2 by discriminate.
        apply in_or_app. right. left. reflexivity. }
      destruct L as (L0 & L1 & L2 & _). unfold dirlike, dots.
      destruct (str_eqb_spec (last (a :: names) []) []) as [E|_]; [contradiction|].
      change (lit ".") with [46%N]. change (lit "..") with [46; 46]%N.
      destruct (str_eqb_spec (last (a :: names) []) [46%N]) as [E|_]; [contradiction|].
      destruct (str_eqb_spec (last (a :: names) []) [46; 46]%N) as [E|_]; [contradiction|]. reflexivity.
  - constructor.
  - destruct d.
    + rewrite removelast_last. apply reals_nonempty. exact R.
    + rewrite app_nil_r. apply Forall_forall. intros x I. apply reals_nonempty in R. rewrite Forall_forall in R.
      apply R. rewrite (@app_removelast_last _ (a :: names) []) by discriminate. apply in_or_app. left. exact I.
Qed.

Lemma target_plain_inv : forall d names, plain_chars (target d names) -> Forall plain_chars names.
Proof.
  intros d names H. unfold target in H. apply Forall_app in H. destruct H as (H & _).
  destruct names as [|a names]; [constructor|]. rewrite folder_slashed in H.
  unfold slashed in H. revert H. generalize (a :: names). intros l.
  induction l as [|x l IH]; intros H; [constructor|]. cbn [flat_map] in H.
  apply (proj1 (Forall_app _ (47%N :: x) _)) in H. destruct H as (H & H2). inversion H; subst.
  constructor; [assumption|]. apply IH. exact H2.
Qed.

Section Stable.
  Variable bad_host : pystr -> bool.
  Variables expandvars expanduser_tilde : pystr -> pystr.
  Notation path2url := (path2url bad_host expandvars expanduser_tilde).

  Lemma stable : forall cwd d names eu, Forall name cwd -> Forall (Forall scalar) cwd ->
    Forall real names -> Forall plain_chars names ->
    path2url (folder_path cwd) (lit "file://" ++ target d names) false eu = Ok (lit "file://" ++ target d names).
  Proof.
    intros cwd d names eu N S R P. destruct (quote_cwd cwd N S) as (q & F & RQ & PQ & Q).
    assert (PT : plain_chars (target d names)) by (apply sum_target_plain; exact P).
    assert (PU : plain_chars (lit "file://" ++ target d names)) by (apply plain_app; [exact file_plain|exact PT]).
    assert (TJ : exists r, target d names = 47%N :: r) by (rewrite target_join; eexists; reflexivity).
    unfold FileUrl_Model.path2url. change (str_eqb (lit "file://" ++ target d names) []) with false. cbv zeta iota.
    rewrite no_unc by (apply plain_not; [exact PU|cbn [In]; tauto]).
    rewrite unbackslash_same by (apply plain_not; [exact PU|cbn [In]; tauto]).
    change (match_drive (lit "file://" ++ target d names)) with (@None (pychar * pystr)). cbv iota.
    change (lit "/") with [47%N]. rewrite Q. cbn [rbind]. rewrite base_url by assumption. cbn [rbind].
    assert (PB : plain_chars (base_path q)).
    { rewrite base_target. destruct q; [constructor|]. apply sum_target_plain. exact PQ. }
    assert (urljoin bad_host (lit "file://" ++ base_path q) (lit "file://" ++ target d names)
            = Ok (lit "file://" ++ target d names)) as ->.
    { unfold FileUrl_Model.urljoin. change (str_eqb (lit "file://" ++ base_path q) []) with false.
      change (str_eqb (lit "file://" ++ target d names) []) with false. cbv iota.
      rewrite urlparse_file; [|exact PB|apply base_rooted]. cbn [rbind].
      rewrite urlparse_file; [|exact PT|right; exact TJ]. cbn [rbind].
      change (negb (str_eqb (u_scheme (local_parts (target d names))) (u_scheme (local_parts (base_path q))))
        || negb (in_list (u_scheme (local_parts (target d names))) uses_relative)) with false.
      cbv iota. change (in_list (u_scheme (local_parts (target d names))) uses_netloc) with true.
      change (negb (str_eqb (u_netloc (local_parts (target d names))) [])) with false. cbn [andb]. cbv iota.
      change (u_path (local_parts (target d names))) with (target d names).
      assert (str_eqb (target d names) [] = false) as -> by (destruct TJ as (r & ->); reflexivity). cbn [andb].
      change (Ok (lit "file://" ++ add_slash (join_paths (base_path q) (target d names))) = Ok (lit "file://" ++ target d names)).
      rewrite join_target by exact R. reflexivity. }
    cbn [rbind]. apply finish_target; [exact R|exact P|reflexivity].
  Qed.
End Stable.

(** ** Reading the results *)

Lemma spells_cat : forall u bs v cs, spells u bs -> spells v cs -> spells (u ++ 47%N :: v) (bs ++ 47%N :: cs).
Proof.
  intros u bs v cs S T. induction S as [|h l x y u bs H L S IH|c u bs C N S IH|u bs H S IH]; cbn [app].
  - apply SChar; [reflexivity|discriminate|exact T].
  - apply SByte; assumption.
  - apply SChar; assumption.
  - apply SPercent; [|exact IH]. intros W. apply H. destruct u as [|h [|l u]].
    + exfalso. cbn [app] in W. destruct v as [|w v]; [exact W|]. destruct W as ((x & X) & _).
      apply hex_val_spec in X. discriminate X.
    + exfalso. cbn [app] in W. destruct W as (_ & (x & X)). apply hex_val_spec in X. discriminate X.
    + exact W.
Qed.

Lemma text_cat : forall s bs t cs, utf8_text s bs -> utf8_text t cs -> utf8_text (s ++ t) (bs ++ cs).
Proof.
  intros s bs t cs S T. induction S as [|c b s bs U S IH]; [exact T|].
  cbn [app]. rewrite <- app_assoc. constructor; assumption.
Qed.

Lemma text_slash_cat : forall s bs t cs, utf8_text s bs -> utf8_text t cs ->
  utf8_text (s ++ 47%N :: t) (bs ++ 47%N :: cs).
Proof.
  intros s bs t cs S T. apply text_cat; [exact S|].
  apply (TCons 47%N [47%N]); [apply U1; reflexivity|exact T].
Qed.

Lemma reads_cat : forall u s v t, reads u s -> reads v t -> reads (u ++ 47%N :: v) (s ++ 47%N :: t).
Proof.
  intros u s v t R Q. induction R as [u bs s S T|u bs s c u' s' S T C R IH].
  - destruct Q as [v cs t S' T'|v cs t c v' t' S' T' C Q].
    + apply RRun with (bs ++ 47%N :: cs); [apply spells_cat; assumption|apply text_slash_cat; assumption].
    + change (47%N :: v ++ c :: v') with ((47%N :: v) ++ c :: v').
      change (47%N :: t ++ c :: t') with ((47%N :: t) ++ c :: t'). rewrite !app_assoc.
      apply ROther with (bs ++ 47%N :: cs); [apply spells_cat; assumption|apply text_slash_cat; assumption|exact C|exact Q].
  - rewrite <- !app_assoc. cbn [app]. apply ROther with bs; assumption.
Qed.

Lemma reads_nil : reads [] [].
Proof. apply RRun with []; constructor. Qed.

Lemma reads_cons : forall c w s, reads w s -> (c < 128)%N -> c <> 37%N -> reads (c :: w) (c :: s).
Proof.
  intros c w s R L N. destruct R as [u bs s S T|u bs s x u' s' S T C R].
  - apply RRun with (c :: bs); [apply SChar; assumption|]. apply (TCons c [c]); [apply U1; exact L|exact T].
  - change (reads ((c :: u) ++ x :: u') ((c :: s) ++ x :: s')).
    apply ROther with (c :: bs); [apply SChar; assumption| |exact C|exact R].
    apply (TCons c [c]); [apply U1; exact L|exact T].
Qed.

Lemma reads_self : forall w, ~ In 37%N w -> reads w w.
Proof.
  induction w as [|c w IH]; intros H; [exact reads_nil|].
  assert (R : reads w w) by (apply IH; intros I; apply H; right; exact I).
  destruct (N.lt_ge_cases c 128) as [L|L].
  - apply reads_cons; [exact R|exact L|]. intros ->. apply H. left. reflexivity.
  - apply (ROther [] [] [] c w w); [constructor|constructor|exact L|exact R].
Qed.

Lemma reads_join : forall us ns, Forall2 reads us ns -> reads (join [47%N] us) (join [47%N] ns).
Proof.
  intros us ns F. induction F as [|u n us ns R F IH]; [exact reads_nil|].
  destruct F as [|u' n' us ns R' F]; [exact R|].
  change (reads (u ++ 47%N :: join [47%N] (u' :: us)) (n ++ 47%N :: join [47%N] (n' :: ns))).
  apply reads_cat; [exact R|exact IH].
Qed.

Lemma reads_target : forall d us ns, Forall2 reads us ns -> reads (target d us) (target d ns).
Proof.
  intros d us ns F. rewrite !target_join. apply (reads_cat [] [] _ _ reads_nil). apply reads_join.
  destruct F as [|u n us ns R F]; [constructor|]. apply Forall2_app; [constructor; assumption|].
  destruct d; [constructor; [exact reads_nil|constructor]|constructor].
Qed.

(** Names that read as others, the special ones as themselves *)
Definition name_reads (u n : pystr) : Prop :=
  reads u n /\ (u = [] <-> n = []) /\ (u = [46%N] <-> n = [46%N]) /\ (u = [46; 46]%N <-> n = [46; 46]%N).

Lemma walk_reads : forall us ns su sn, Forall2 name_reads us ns -> Forall2 name_reads su sn ->
  Forall2 name_reads (walk su us) (walk sn ns).
Proof.
  intros us ns su sn F. revert su sn. induction F as [|u n us ns R F IH]; intros su sn S; [exact S|].
  cbn [walk]. pose proof R as (_ & E0 & E1 & E2).
  destruct (str_eqb_spec u []) as [A|A], (str_eqb_spec n []) as [B|B]; try tauto; [apply IH; exact S|].
  destruct (str_eqb_spec u [46%N]) as [A1|A1], (str_eqb_spec n [46%N]) as [B1|B1]; try tauto; [apply IH; exact S|].
  destruct (str_eqb_spec u [46; 46]%N) as [A2|A2], (str_eqb_spec n [46; 46]%N) as [B2|B2]; try tauto.
  - apply IH. destruct S; [constructor|assumption].
  - apply IH. constructor; assumption.
Qed.

Lemma Forall2_rev : forall A B (R : A -> B -> Prop) l m, Forall2 R l m -> Forall2 R (rev l) (rev m).
Proof.
  intros A B R l m F. induction F; [constructor|]. cbn [rev]. apply Forall2_app; [assumption|].
  constructor; [assumption|constructor].
Qed.

Lemma leads_reads : forall q cwd p, Forall2 (fun u n => quote n = Ok u) q cwd -> Forall name cwd ->
  ~ In 37%N p -> Forall2 name_reads (leads_to (rev q) p) (leads_to (rev cwd) p).
Proof.
  intros q cwd p F N H. rewrite !leads_to_eq. apply walk_reads.
  - assert (A : Forall (fun w => ~ In 37%N w) (split_on 47%N p)).
    { apply Forall_forall. intros w I J. apply H. eapply split_chars; eassumption. }
    clear - A. induction A as [|w l Hw Hl IH]; [constructor|]. constructor; [|exact IH].
    split; [apply reads_self; exact Hw|]. repeat split; auto.
  - destruct (abs_of p); [constructor|]. apply Forall2_rev.
    induction F as [|u n q cwd U F IH]; [constructor|]. inversion N as [|? ? Hn Ns]; subst.
    constructor; [|apply IH; exact Ns]. split; [apply (quoted_reads n u U)|].
    pose proof (quoted_name n u U Hn) as (R0 & R1 & R2 & _). destruct Hn as (N0 & N1 & N2 & _). tauto.
Qed.

(** ** Absolute paths *)

Lemma folder_target : forall names, folder_path names = target false names.
Proof. intros [|a names]; unfold target, tail_slash; rewrite app_nil_r; reflexivity. Qed.

Lemma ends_split : forall p, ends_slash p -> last (split_on 47%N p) [] = [].
Proof.
  intros p (q & ->). change [47%N] with (47%N :: []). rewrite split_on_cat.
  change (split_on 47%N []) with [([] : pystr)]. apply last_snoc.
Qed.

Lemma abspath_target : forall cwd p, Forall real cwd -> local_path p -> ~ of_folder p ->
  abspath (folder_path cwd) p = target false (rev (leads_to (rev cwd) p)).
Proof.
  intros cwd p R (P & (c & r & E & L) & _ & AB) O.
  assert (NE : ~ ends_slash p).
  { intros W. apply O. unfold of_folder. rewrite (ends_split p W). left. reflexivity. }
  assert (K : forall n, keep_slash p n = n).
  { intros n. rewrite keep_slash_spec. destruct (is_dir p) eqn:D; [|reflexivity]. exfalso.
    apply is_dir_plain in D; [|apply plain_plain; exact P]. destruct D as (q & x & W & _).
    apply NE. exists (q ++ [x]). rewrite <- app_assoc. exact W. }
  unfold abspath. rewrite K. unfold osp_abspath.
  set (names := rev (leads_to (rev cwd) p)).
  assert (RN : Forall real names).
  { unfold names. apply Forall_rev. rewrite leads_to_eq. apply walk_names; [|apply split_no_slash].
    destruct (abs_of p); [constructor|apply Forall_rev; exact R]. }
  rewrite <- folder_target, <- (osp_target false names RN). apply osp_canonical.
  - rewrite target_root by exact RN. subst p. rewrite starts1. destruct (N.eqb_spec c 47) as [->|C].
    + destruct r as [|x r]; [reflexivity|]. apply root_one. intros ->. apply (AB (47%N :: r) [] r eq_refl). reflexivity.
    + unfold osp_join. rewrite starts1. rewrite (proj2 (N.eqb_neq c 47) C).
      destruct cwd as [|a cwd].
      * change (folder_path []) with [47%N]. change (ends_with (lit "/") [47%N]) with true. cbv iota.
        apply root_one. exact C.
      * inversion R as [|? ? Ha _]; subst. destruct (real_first a Ha) as (y & s & -> & Y).
        change (folder_path ((y :: s) :: cwd)) with (47%N :: y :: (s ++ slashed cwd)). cbv iota.
        destruct (ends_with (lit "/") (47%N :: y :: s ++ slashed cwd)); apply root_one; exact Y.
  - intros st. rewrite target_leads by exact RN. unfold names. rewrite rev_involutive.
    pose proof (abspath_leads (folder_path cwd) p st) as A.
    assert (RC : root_of (folder_path cwd) <> Relative) by (rewrite folder_target, target_root by exact R; discriminate).
    destruct (A RC) as (A1 & _). unfold abspath in A1. rewrite K in A1. unfold osp_abspath in A1.
    rewrite osp_leads in A1. rewrite A1. rewrite folder_target, target_leads by exact R. reflexivity.
Qed.

(** ** Excel files *)

Notation word := word_with (only parsing).
Section Excel.
  Variable word_char : pychar -> bool.
  Notation word := (word_with word_char).
  Lemma is_word_spec : forall c, is_word word_char c = true <-> word c.
  Proof.
    intros c. unfold is_word, word_with. destruct (N.ltb_spec c 128) as [L|L].
    - rewrite !orb_true_iff, is_alpha_spec. unfold is_digit. rewrite andb_true_iff, !N.leb_le, N.eqb_eq. change (chr "_") with 95%N.
      split; [intros H; left; tauto|intros [(_ & H)|(H & _)]; [tauto|lia]].
    - split; [intros H; right; auto|intros [(H & _)|(_ & H)]; [lia|exact H]].
  Qed.

  Lemma low_spec : forall c k, (97 <= k <= 122)%N -> k <> 115%N -> ((low c =? k)%N = true <-> same_letter k c).
  Proof.
    intros c k K S. unfold same_letter, low, is_upper. rewrite N.eqb_eq.
    destruct ((65 <=? c) && (c <=? 90))%N eqn:E.
    - apply andb_true_iff in E. destruct E as (E1 & E2). apply N.leb_le in E1, E2. lia.
    - apply andb_false_iff in E. rewrite !N.leb_gt in E. lia.
  Qed.

  Lemma is_s_spec : forall c, is_s c = true <-> same_letter 115 c.
  Proof.
    intros c. unfold is_s, same_letter, low, is_upper. rewrite orb_true_iff, !N.eqb_eq.
    change (chr "s") with 115%N. destruct ((65 <=? c) && (c <=? 90))%N eqn:E.
    - apply andb_true_iff in E. destruct E as (E1 & E2). apply N.leb_le in E1, E2. lia.
    - apply andb_false_iff in E. rewrite !N.leb_gt in E. lia.
  Qed.

  Lemma boundary_spec : forall s, boundary word_char s = true <-> forall c b, s = c :: b -> ~ word c.
  Proof.
    intros [|c s]; unfold boundary.
    - split; [intros _ c b H; discriminate|reflexivity].
    - rewrite negb_true_iff. split.
      + intros H c' b E. injection E as <- <-. rewrite <- is_word_spec, H. discriminate.
      + intros H. destruct (is_word word_char c) eqn:E; [|reflexivity]. exfalso. exact (H c s eq_refl (proj1 (is_word_spec c) E)).
  Qed.

  Lemma ext_here_spec : forall s, xl_ext_here word_char s = true <->
    exists e x b, s = 46%N :: x ++ b /\ In e extensions /\ Forall2 same_letter e x /\
    forall c b', b = c :: b' -> ~ word c.
  Proof.
    intros s. split.
    - destruct s as [|dot [|x [|l [|k rest]]]]; try discriminate. cbn [xl_ext_here].
      change (chr ".") with 46%N. change (chr "x") with 120%N. change (chr "l") with 108%N.
      change (chr "t") with 116%N. change (chr "w") with 119%N. change (chr "m") with 109%N.
      rewrite !andb_true_iff. intros (((D & X) & L) & K).
      apply N.eqb_eq in D. subst dot.
      apply low_spec in X; [|lia|lia]. apply low_spec in L; [|lia|lia].
      apply orb_true_iff in K. destruct K as [K|K]; apply andb_true_iff in K; destruct K as (K & B).
      + assert (exists kk, In kk [115; 116]%N /\ same_letter kk k) as (kk & KI & KS).
        { apply orb_true_iff in K. destruct K as [K|K].
          - exists 115%N. split; [left; reflexivity|]. apply is_s_spec. exact K.
          - exists 116%N. split; [right; left; reflexivity|]. apply low_spec; [lia|lia|exact K]. }
        apply orb_true_iff in B. destruct B as [B|B].
        * exists [120; 108; kk]%N, [x; l; k], rest. split; [reflexivity|].
          split; [destruct KI as [<-|[<-|[]]]; cbn [In extensions]; tauto|].
          split; [repeat (apply Forall2_cons; [assumption|]); apply Forall2_nil|]. apply boundary_spec. exact B.
        * destruct rest as [|m rest]; [discriminate|]. apply andb_true_iff in B. destruct B as (M & B).
          assert (exists mm, In mm [120; 109]%N /\ same_letter mm m) as (mm & MI & MS).
          { apply orb_true_iff in M. destruct M as [M|M].
            - exists 120%N. split; [left; reflexivity|]. apply low_spec; [lia|lia|exact M].
            - exists 109%N. split; [right; left; reflexivity|]. apply low_spec; [lia|lia|exact M]. }
          exists [120; 108; kk; mm]%N, [x; l; k; m], rest. split; [reflexivity|].
          split; [destruct KI as [<-|[<-|[]]], MI as [<-|[<-|[]]]; cbn [In extensions]; tauto|].
          split; [repeat (apply Forall2_cons; [assumption|]); apply Forall2_nil|]. apply boundary_spec. exact B.
      + assert (exists kk, In kk [119; 109]%N /\ same_letter kk k) as (kk & KI & KS).
        { apply orb_true_iff in K. destruct K as [K|K].
          - exists 119%N. split; [left; reflexivity|]. apply low_spec; [lia|lia|exact K].
          - exists 109%N. split; [right; left; reflexivity|]. apply low_spec; [lia|lia|exact K]. }
        exists [120; 108; kk]%N, [x; l; k], rest. split; [reflexivity|].
        split; [destruct KI as [<-|[<-|[]]]; cbn [In extensions]; tauto|].
        split; [repeat (apply Forall2_cons; [assumption|]); apply Forall2_nil|]. apply boundary_spec. exact B.
    - intros (e & x & b & -> & I & F & B). apply boundary_spec in B.
      assert (LX : forall k c, (97 <= k <= 122)%N -> k <> 115%N -> same_letter k c -> (low c =? k)%N = true)
        by (intros k c H1 H2; apply low_spec; assumption).
      cbn [In extensions] in I.
      repeat (destruct I as [<-|I];
        [repeat match goal with H : Forall2 _ (_ :: _) _ |- _ => inversion H; subst; clear H end;
         match goal with H : Forall2 _ [] _ |- _ => inversion H; subst; clear H end;
         cbn [app xl_ext_here]; change (chr ".") with 46%N; change (chr "x") with 120%N;
         change (chr "l") with 108%N; change (chr "t") with 116%N; change (chr "w") with 119%N;
         change (chr "m") with 109%N;
         repeat match goal with
           | H : same_letter 115 ?c |- _ => apply is_s_spec in H; rewrite H
           | H : same_letter ?k ?c |- _ => apply (LX k c) in H; [|lia|discriminate]; rewrite H
           end;
         rewrite ?B, ?orb_true_r, ?andb_true_r; cbn [andb orb]; rewrite ?orb_true_r, ?andb_true_r; reflexivity|]).
      destruct I.
  Qed.

  Lemma ext_anywhere_spec : forall s, xl_ext_anywhere word_char s = true <-> excel_name word s.
  Proof.
    intros s. unfold excel_name. split.
    - induction s as [|c s IH]; intros H; [discriminate|]. cbn [xl_ext_anywhere] in H.
      apply orb_true_iff in H. destruct H as [H|H].
      + apply ext_here_spec in H. destruct H as (e & x & b & E & H). exists [], e, x, b. split; [exact E|exact H].
      + destruct (IH H) as (a & e & x & b & E & H'). exists (c :: a), e, x, b. split; [rewrite E; reflexivity|exact H'].
    - intros (a & e & x & b & -> & H).
      assert (X : xl_ext_here word_char (46%N :: x ++ b) = true)
        by (apply ext_here_spec; exists e, x, b; split; [reflexivity|exact H]).
      induction a as [|c a IH].
      + cbn [app]. cbn [xl_ext_anywhere]. rewrite X. reflexivity.
      + cbn [app xl_ext_anywhere]. rewrite IH. apply orb_true_r.
  Qed.
End Excel.

(** ** Users' folders are never expanded *)

Lemma clean_file : forall y, exists z, clean_url (lit "file://" ++ y) = lit "file://" ++ z.
Proof. intros y. eexists. reflexivity. Qed.

Lemma splitnetloc_rest : forall s a b, splitnetloc s = (a, b) -> b = [] \/ exists c r, b = c :: r /\ In c [47; 63; 35]%N.
Proof.
  induction s as [|x s IH]; intros a b H; cbn [splitnetloc] in H.
  - injection H as <- <-. left. reflexivity.
  - destruct (existsb (N.eqb x) (lit "/?#")) eqn:E.
    + injection H as <- <-. right. exists x, s. split; [reflexivity|].
      apply existsb_exists in E. destruct E as (y & I & E). apply N.eqb_eq in E. subst y. exact I.
    + destruct (splitnetloc s) as [a' b'] eqn:Z. injection H as <- <-. eapply IH. reflexivity.
Qed.

Lemma split1_head : forall c s, fst (split1 c s) = [] \/ exists x r r', s = x :: r /\ fst (split1 c s) = x :: r' /\ x <> c.
Proof.
  intros c [|x s]; unfold split1; cbn [partition1].
  - left. reflexivity.
  - destruct (N.eqb_spec x c) as [->|N]; [left; reflexivity|].
    right. destruct (partition1 c s) as [[a b]|]; cbn [fst]; eexists; eexists; eexists; (split; [reflexivity|split; [reflexivity|exact N]]).
Qed.

Section Users.
  Variable bad_host : pystr -> bool.
  Notation urlsplit := (urlsplit bad_host).

  Lemma urlsplit_rooted : forall y s r, urlsplit (lit "file://" ++ y) s = Ok r -> rooted (u_path r).
  Proof.
    intros y s r H. unfold FileUrl_Model.urlsplit in H. destruct (clean_file y) as (z & Z). rewrite Z in H.
    unfold split_scheme in H. change (lit "file://" ++ z) with (lit "file" ++ 58%N :: (47%N :: 47%N :: z)) in H.
    rewrite (partition1_app 58%N) in H by (change (lit "file") with [102; 105; 108; 101]%N; cbn [In]; lia).
    cbv iota in H.
    change (match lit "file" with [] => (s, lit "file" ++ 58%N :: 47%N :: 47%N :: z)
      | c :: _ => if is_alpha c && forallb scheme_char (lit "file") then (lower (lit "file"), 47%N :: 47%N :: z)
                  else (s, lit "file" ++ 58%N :: 47%N :: 47%N :: z) end)
      with (lit "file", 47%N :: 47%N :: z) in H. cbv iota in H.
    rewrite starts2 in H. change (skipn 2 (47%N :: 47%N :: z)) with z in H.
    destruct (splitnetloc z) as [n b] eqn:S. apply splitnetloc_rest in S.
    destruct (split1 (chr "#") b) as [b1 f] eqn:S1. destruct (split1 (chr "?") b1) as [b2 q] eqn:S2.
    destruct (check_netloc bad_host n); [|discriminate]. injection H as <-. cbn [u_path].
    pose proof (split1_head (chr "#") b) as H1. rewrite S1 in H1. cbn [fst] in H1.
    pose proof (split1_head (chr "?") b1) as H2. rewrite S2 in H2. cbn [fst] in H2.
    destruct H2 as [->|(x & r & r' & -> & -> & X)]; [left; reflexivity|].
    destruct H1 as [H1|(x' & r1 & r1' & -> & E & X')]; [discriminate|]. injection E as <- _.
    destruct S as [S|(c & r2 & E & I)]; [discriminate|]. injection E as <- _.
    right. destruct I as [<-|[<-|[<-|[]]]]; [eexists; reflexivity|exfalso; apply X; reflexivity|exfalso; apply X'; reflexivity].
  Qed.

  Lemma urlsplit_scheme : forall u s, match urlsplit u s with Ok r => u_scheme r = fst (split_scheme (clean_url u) s) | Raise _ => True end.
  Proof.
    intros u s. unfold FileUrl_Model.urlsplit. destruct (split_scheme (clean_url u) s) as [sc rest].
    destruct (if starts_with (lit "//") rest then splitnetloc (skipn 2 rest) else ([], rest)) as [n b].
    destruct (split1 (chr "#") b) as [b1 f]. destruct (split1 (chr "?") b1) as [b2 q].
    destruct (check_netloc bad_host n); [reflexivity|exact I].
  Qed.

  Lemma scheme_default : forall u s s', fst (split_scheme u s) = s \/ fst (split_scheme u s) = fst (split_scheme u s').
  Proof.
    intros u s s'. unfold split_scheme. destruct (partition1 (chr ":") u) as [[a b]|]; [|left; reflexivity].
    destruct a as [|c a]; [left; reflexivity|].
    destruct (is_alpha c && forallb scheme_char (c :: a)); [right; reflexivity|left; reflexivity].
  Qed.

  Lemma urlparse_scheme : forall u s r p, urlparse bad_host u s = Ok (r, p) -> u_scheme r = fst (split_scheme (clean_url u) s).
  Proof.
    intros u s r p H. unfold urlparse in H. pose proof (urlsplit_scheme u s) as S.
    destruct (urlsplit u s) as [r0|]; [|discriminate]. cbn [rbind] in H.
    destruct (in_list (u_scheme r0) uses_params).
    - destruct (splitparams (u_path r0)). injection H as <- _. exact S.
    - injection H as <- _. exact S.
  Qed.

  Lemma unparse_file : forall r p, u_scheme r = lit "file" -> exists y, urlunparse r p = lit "file://" ++ y.
  Proof.
    intros r p E. unfold urlunparse, urlunsplit. cbn [u_scheme u_netloc u_path u_query u_fragment]. rewrite E.
    change (negb (str_eqb (lit "file") []) && in_list (lit "file") uses_netloc) with true. rewrite orb_true_r.
    cbn [orb]. change (str_eqb (lit "file") []) with false. cbv iota.
    set (x := u_netloc r ++ _).
    assert (Z : lit "file" ++ lit ":" ++ lit "//" ++ x = lit "file://" ++ x) by reflexivity. rewrite Z.
    destruct (str_eqb (u_query r) []), (str_eqb (u_fragment r) []); rewrite <- ?app_assoc; eexists; reflexivity.
  Qed.

  (** What joins give to a base of files: such a URL, or the other one of another scheme *)
  Lemma join_file : forall b u x, fst (split_scheme (clean_url b) []) = lit "file" -> b <> [] -> u <> [] ->
    urljoin bad_host b u = Ok x ->
    (exists y, x = lit "file://" ++ y) \/ (x = u /\ fst (split_scheme (clean_url u) (lit "file")) <> lit "file").
  Proof.
    intros b u x B NB NU H. unfold urljoin in H.
    destruct (str_eqb_spec b []) as [E|_]; [contradiction|]. destruct (str_eqb_spec u []) as [E|_]; [contradiction|].
    destruct (urlparse bad_host b []) as [[rb pb]|] eqn:PB; [|discriminate]. cbn [rbind] in H.
    pose proof (urlparse_scheme _ _ _ _ PB) as SB. rewrite B in SB. rewrite SB in H.
    destruct (urlparse bad_host u (lit "file")) as [[ru pu]|] eqn:PU; [|discriminate]. cbn [rbind] in H.
    pose proof (urlparse_scheme _ _ _ _ PU) as SU.
    destruct (str_eqb_spec (u_scheme ru) (lit "file")) as [F|F].
    - left. rewrite F in H. cbn [negb orb] in H. change (in_list (lit "file") uses_relative) with true in H.
      change (in_list (lit "file") uses_netloc) with true in H. cbn [negb orb andb] in H.
      destruct (negb (str_eqb (u_netloc ru) [])).
      + injection H as <-. apply unparse_file. exact F.
      + destruct (str_eqb (u_path ru) [] && str_eqb pu []); injection H as <-; apply unparse_file; reflexivity.
    - right. cbn [negb orb] in H. injection H as <-. split; [reflexivity|]. rewrite <- SU. exact F.
  Qed.

  Lemma file_scheme : forall y, fst (split_scheme (clean_url (lit "file://" ++ y)) []) = lit "file".
  Proof.
    intros y. destruct (clean_file y) as (z & ->). unfold split_scheme.
    change (lit "file://" ++ z) with (lit "file" ++ 58%N :: (47%N :: 47%N :: z)).
    rewrite (partition1_app 58%N) by (change (lit "file") with [102; 105; 108; 101]%N; cbn [In]; lia). reflexivity.
  Qed.

  Lemma filter_in : forall u c, In c (clean_url u) -> In c u.
  Proof.
    intros u c H. unfold clean_url in H. apply filter_In in H. destruct H as (H & _).
    induction u as [|x u IH]; [destruct H|]. cbn [drop_while] in H.
    destruct (x <=? 32)%N; [right; apply IH; exact H|exact H].
  Qed.

  Lemma quoted_no_colon : forall p u, quote p = Ok u -> ~ In 58%N u.
  Proof.
    intros p u Q I. pose proof (proj2 (unquote_quote (fun _ => []) p u Q)) as U.
    clear Q. induction U as [|c u H U IH|h l u H1 H2 U IH].
    - destruct I.
    - destruct I as [->|I]; [|exact (IH I)]. unfold unreserved in H. lia.
    - unfold hex_upper in *. destruct I as [I|[I|[I|I]]]; [discriminate|lia|lia|exact (IH I)].
  Qed.

  Lemma base_join : forall cwd q x, quote (cwd ++ lit "/") = Ok q -> urljoin bad_host (lit "file:") q = Ok x ->
    exists y, x = lit "file://" ++ y.
  Proof.
    intros cwd q x Q H.
    assert (NQ : q <> []).
    { intros ->. pose proof (proj1 (unquote_quote (fun _ => []) _ _ Q)) as U. cbn in U. destruct cwd; discriminate. }
    destruct (join_file (lit "file:") q x eq_refl ltac:(discriminate) NQ H) as [Y|(_ & F)]; [exact Y|].
    exfalso. apply F. unfold split_scheme. change (chr ":") with 58%N. rewrite partition1_none; [reflexivity|].
    intros I. apply filter_in in I. exact (quoted_no_colon _ _ Q I).
  Qed.

  Variables expandvars expanduser_tilde : pystr -> pystr.

  Lemma no_users : forall cwd p ev,
    path2url bad_host expandvars expanduser_tilde cwd p ev true
    = path2url bad_host expandvars expanduser_tilde cwd p ev false.
  Proof.
    intros cwd p ev. unfold path2url. destruct (str_eqb p []); [reflexivity|]. cbv zeta.
    set (p1 := unbackslash _).
    assert (K : forall x, (exists y, x = lit "file://" ++ y) \/
                fst (split_scheme (clean_url x) (lit "file")) <> lit "file" -> forall g : split_result -> pystr -> pystr,
      (do parts <- urlsplit x []; Ok (g parts (if str_eqb (u_scheme parts) (lit "file") && true then expanduser expanduser_tilde (u_path parts) else u_path parts)))
      = (do parts <- urlsplit x []; Ok (g parts (if str_eqb (u_scheme parts) (lit "file") && false then expanduser expanduser_tilde (u_path parts) else u_path parts)))).
    { intros x X g. destruct (urlsplit x []) as [r|] eqn:U; [|reflexivity]. cbn [rbind]. f_equal. f_equal.
      rewrite andb_false_r, andb_true_r. destruct X as [(y & ->)|X].
      - apply urlsplit_rooted in U. destruct (str_eqb (u_scheme r) (lit "file")); [|reflexivity].
        destruct U as [->|(t & ->)]; reflexivity.
      - pose proof (urlsplit_scheme x []) as S. rewrite U in S.
        destruct (str_eqb_spec (u_scheme r) (lit "file")) as [E|_]; [|reflexivity]. exfalso. apply X.
        destruct (scheme_default (clean_url x) (lit "file") []) as [D|D]; [contradiction|]. rewrite D, <- S. exact E. }
    destruct (match_drive p1) as [[d rest]|].
    - cbn [rbind]. apply (K (lit "file:///" ++ _)
        ltac:(left; eexists (47%N :: _); reflexivity)
        (fun parts p => urlunsplit {| u_scheme := u_scheme parts; u_netloc := u_netloc parts;
          u_path := unbackslash (normpath p); u_query := u_query parts; u_fragment := u_fragment parts |})).
    - destruct (quote (cwd ++ lit "/")) as [q|] eqn:Q; [|reflexivity]. cbn [rbind].
      destruct (urljoin bad_host (lit "file:") q) as [b|] eqn:B; [|reflexivity]. cbn [rbind].
      destruct (base_join _ _ _ Q B) as (y & ->).
      destruct (urljoin bad_host (lit "file://" ++ y) p1) as [x|] eqn:X; [|reflexivity]. cbn [rbind].
      apply (K x) with (g := fun parts p => urlunsplit {| u_scheme := u_scheme parts; u_netloc := u_netloc parts;
          u_path := unbackslash (normpath p); u_query := u_query parts; u_fragment := u_fragment parts |}).
      destruct (list_eq_dec N.eq_dec p1 []) as [Z|Z].
      + rewrite Z in X. change (Ok (lit "file://" ++ y) = Ok x) in X. injection X as <-. left. exists y. reflexivity.
      + apply join_file in X; [|apply file_scheme|discriminate|exact Z].
        destruct X as [X|(-> & X)]; [left; exact X|right; exact X].
  Qed.

  (** ** Drives *)

  Lemma keep_chars : forall p n c, In c (keep_slash p n) -> In c n \/ c = 47%N.
  Proof.
    intros p n c H. rewrite keep_slash_spec in H. destruct (is_dir p); [|left; exact H].
    destruct (ends_with (lit "/") n); [left; exact H|]. apply in_app_or in H.
    destruct H as [H|[H|[]]]; [left; exact H|right; symmetry; exact H].
  Qed.

  Lemma rooted_slash : forall p, root_of p = Slash -> exists r, p = 47%N :: r.
  Proof.
    intros [|c p] H; [discriminate|]. destruct (N.eqb_spec c 47) as [->|N]; [eexists; reflexivity|].
    rewrite root_neq in H by exact N. discriminate.
  Qed.

  Lemma drive_result : forall cwd d rest eu, letter d -> plain_chars rest ->
    exists q, path2url bad_host expandvars expanduser_tilde cwd (d :: 58%N :: rest) false eu = Ok (lit "file://" ++ q) /\
    root_of q = Slash /\ leads_to [] q = walk [[d; 58%N]] (split_on 47%N rest).
  Proof.
    intros cwd d rest eu D P.
    assert (PD : plain_chars (d :: 58%N :: rest)).
    { constructor; [unfold letter in D; cbn [In]; lia|]. constructor; [cbn [In]; lia|exact P]. }
    set (X := if starts_with (lit "/") rest then d :: 58%N :: rest else d :: 58%N :: 47%N :: rest).
    assert (PX : plain_chars (47%N :: X)).
    { constructor; [cbn [In]; lia|]. unfold X. destruct (starts_with (lit "/") rest); [exact PD|].
      constructor; [unfold letter in D; cbn [In]; lia|]. constructor; [cbn [In]; lia|].
      constructor; [cbn [In]; lia|exact P]. }
    assert (RX : root_of (47%N :: X) = Slash).
    { unfold X. destruct (starts_with (lit "/") rest); apply root_one; unfold letter in D; lia. }
    exists (normpath (47%N :: X)).
    assert (RN : root_of (normpath (47%N :: X)) = Slash).
    { unfold normpath. rewrite keep_root by apply osp_not_nil. rewrite osp_root. exact RX. }
    split; [|split; [exact RN|]].
    - unfold path2url. change (str_eqb (d :: 58%N :: rest) []) with false. cbv zeta iota.
      rewrite no_unc by (apply plain_not; [exact PD|cbn [In]; tauto]).
      rewrite unbackslash_same by (apply plain_not; [exact PD|cbn [In]; tauto]).
      assert (match_drive (d :: 58%N :: rest) = Some (d, rest)) as ->.
      { unfold match_drive, drive_letter. rewrite (proj2 (is_alpha_spec d) D). change (58 =? chr ":")%N with true.
        assert (has_char 10%N (removelast rest) = false) as ->; [|reflexivity].
        unfold has_char. apply Bool.not_true_iff_false. intros E. apply existsb_exists in E.
        destruct E as (y & I & E). apply N.eqb_eq in E. subst y.
        assert (In 10%N rest).
        { destruct rest as [|z rest0]; [destruct I|].
          rewrite (@app_removelast_last _ (z :: rest0) 0%N) by discriminate. apply in_or_app. left. exact I. }
        revert H. apply plain_not; [exact P|cbn [In]; tauto]. }
      cbn [rbind].
      assert (ends_with [10%N] rest = false) as ->.
      { destruct (ends_with [10%N] rest) eqn:E; [|reflexivity]. exfalso. unfold ends_with in E.
        apply andb_true_iff in E. destruct E as (_ & E). apply str_eqb_eq in E.
        assert (In 10%N rest) as J.
        { rewrite <- (firstn_skipn (length rest - 1) rest). apply in_or_app. right.
          change (length [10%N]) with 1 in E. rewrite <- E. left. reflexivity. }
        revert J. apply plain_not; [exact P|cbn [In]; tauto]. }
      assert (lit "file:///" ++ (if starts_with (lit "/") rest then d :: 58%N :: rest else [d] ++ lit ":/" ++ rest)
              = lit "file://" ++ 47%N :: X) as ->.
      { unfold X. destruct (starts_with (lit "/") rest); reflexivity. }
      rewrite urlsplit_file; [|exact PX|right; eexists; reflexivity]. cbn [rbind].
      change (u_path (local_parts (47%N :: X))) with (47%N :: X).
      assert ((if str_eqb (u_scheme (local_parts (47%N :: X))) (lit "file") && eu
               then expanduser expanduser_tilde (47%N :: X) else 47%N :: X) = 47%N :: X) as -> by (destruct eu; reflexivity).
      rewrite unbackslash_same.
      2:{ intros I. unfold normpath in I. apply keep_chars in I. destruct I as [I|I]; [|discriminate].
          apply osp_chars in I. destruct I as [I|[I|I]]; [|discriminate|discriminate]. revert I.
          apply plain_not; [exact PX|cbn [In]; tauto]. }
      change (Ok (urlunsplit (local_parts (normpath (47%N :: X)))) = Ok (lit "file://" ++ normpath (47%N :: X))).
      rewrite unsplit_local. destruct (rooted_slash _ RN) as (r & ->). rewrite add_slash_slash. reflexivity.
    - unfold normpath. rewrite keep_leads by apply osp_not_nil. rewrite osp_leads.
      rewrite leads_to_eq. change (abs_of (47%N :: X)) with true. cbv iota.
      change (split_on 47%N (47%N :: X)) with ([] :: split_on 47%N X). rewrite walk_empty.
      assert (DR : real [d; 58%N]).
      { unfold letter in D. split; [discriminate|]. split; [discriminate|]. split.
        - intros E. injection E as ->. lia.
        - intros [E|[E|[]]]; [lia|discriminate]. }
      assert (NS : ~ In 47%N [d; 58%N]) by apply DR.
      unfold X. destruct rest as [|c rest].
      + change (starts_with (lit "/") []) with false. cbv iota.
        change [d; 58%N; 47%N] with ([d; 58%N] ++ 47%N :: []). rewrite split_on_app by exact NS.
        change ([d; 58%N] :: split_on 47%N []) with ([[d; 58%N]] ++ split_on 47%N []).
        rewrite walk_app, (walk_real _ _ DR). reflexivity.
      + rewrite starts1. destruct (N.eqb_spec c 47) as [->|C].
        * change (d :: 58%N :: 47%N :: rest) with ([d; 58%N] ++ 47%N :: rest). rewrite split_on_app by exact NS.
          change (split_on 47%N (47%N :: rest)) with ([] :: split_on 47%N rest). rewrite walk_empty.
          change ([d; 58%N] :: split_on 47%N rest) with ([[d; 58%N]] ++ split_on 47%N rest).
          rewrite walk_app, (walk_real _ _ DR). reflexivity.
        * change (d :: 58%N :: 47%N :: c :: rest) with ([d; 58%N] ++ 47%N :: c :: rest). rewrite split_on_app by exact NS.
          change ([d; 58%N] :: split_on 47%N (c :: rest)) with ([[d; 58%N]] ++ split_on 47%N (c :: rest)).
          rewrite walk_app, (walk_real _ _ DR). reflexivity.
  Qed.

  (** ** Remote URLs *)

  Lemma splitnetloc_host : forall host rest, Forall (fun c => (c < 128)%N /\ ~ In c [47; 63; 35; 91; 93]%N) host ->
    splitnetloc (host ++ 47%N :: rest) = (host, 47%N :: rest).
  Proof.
    intros host rest H. induction H as [|c host (_ & C) H IH]; [reflexivity|]. cbn [app splitnetloc].
    assert (existsb (N.eqb c) (lit "/?#") = false) as ->.
    { apply Bool.not_true_iff_false. intros E. apply existsb_exists in E. destruct E as (y & I & E).
      apply N.eqb_eq in E. subst y. apply C. change (lit "/?#") with [47; 63; 35]%N in I. cbn [In] in *. tauto. }
    rewrite IH. reflexivity.
  Qed.

  Lemma host_ok : forall host, Forall (fun c => (c < 128)%N /\ ~ In c [47; 63; 35; 91; 93]%N) host ->
    check_netloc bad_host host = true.
  Proof.
    intros host H. unfold check_netloc.
    assert (A : forall k, In k [91; 93]%N -> has_char k host = false).
    { intros k K. apply Bool.not_true_iff_false. intros E. apply existsb_exists in E. destruct E as (y & I & E).
      apply N.eqb_eq in E. subst y. rewrite Forall_forall in H. apply (H k I). cbn [In] in *. tauto. }
    change (chr "[") with 91%N. change (chr "]") with 93%N. rewrite !A by (cbn [In]; tauto).
    assert (ascii_text host = true) as ->; [|reflexivity].
    unfold ascii_text. apply forallb_forall. intros c I. rewrite Forall_forall in H. apply N.ltb_lt. apply (H c I).
  Qed.

  Lemma split1_optional : forall c a s, ~ In c a -> split1 c (a ++ optional c s) = (a, s).
  Proof.
    intros c a [|x s] H; unfold optional.
    - rewrite app_nil_r. apply split1_none. exact H.
    - unfold split1. rewrite partition1_app by exact H. reflexivity.
  Qed.

  Lemma lower_same : forall s, (forall c, In c s -> ~ (65 <= c <= 90)%N) -> lower s = s.
  Proof.
    induction s as [|c s IH]; intros H; [reflexivity|]. unfold lower in *. cbn [map]. f_equal.
    - unfold low, is_upper. destruct ((65 <=? c) && (c <=? 90))%N eqn:E; [|reflexivity]. exfalso.
      apply andb_true_iff in E. rewrite !N.leb_le in E. apply (H c); [left; reflexivity|lia].
    - apply IH. intros x I. apply H. right. exact I.
  Qed.

  Lemma remote_split : forall sc host path query fragment s,
    scheme sc -> (forall c, In c sc -> ~ (65 <= c <= 90)%N) ->
    Forall (fun c => (c < 128)%N /\ ~ In c [47; 63; 35; 91; 93]%N) host ->
    (exists r, path = 47%N :: r) -> ~ In 63%N path -> ~ In 35%N path -> ~ In 35%N query ->
    Forall (fun c => ~ In c [92; 9; 10; 13]%N)
      (sc ++ [58; 47; 47]%N ++ host ++ path ++ optional 63 query ++ optional 35 fragment) ->
    urlsplit (sc ++ [58; 47; 47]%N ++ host ++ path ++ optional 63 query ++ optional 35 fragment) s
    = Ok {| u_scheme := sc; u_netloc := host; u_path := path; u_query := query; u_fragment := fragment |}.
  Proof.
    intros sc host path query fragment s SC LO H (r & PR) P1 P2 Q C. unfold FileUrl_Model.urlsplit.
    set (u := sc ++ _) in *.
    assert (CL : clean_url u = u).
    { unfold clean_url. destruct SC as (c & sc' & E & L & _).
      assert (U : exists t, u = c :: t) by (unfold u; rewrite E; eexists; reflexivity). destruct U as (t & U).
      rewrite U. cbn [drop_while]. rewrite (proj2 (N.leb_gt c 32)) by (unfold letter in L; lia). rewrite <- U.
      clear - C. induction C as [|x l Hx Hl IH]; [reflexivity|]. cbn [filter].
      assert (existsb (N.eqb x) [9; 13; 10]%N = false) as ->.
      { apply Bool.not_true_iff_false. intros E. apply existsb_exists in E. destruct E as (y & I & E).
        apply N.eqb_eq in E. subst y. apply Hx. cbn [In] in *. tauto. }
      cbn [negb]. rewrite IH. reflexivity. }
    rewrite CL. unfold split_scheme.
    change u with (sc ++ 58%N :: (47%N :: 47%N :: host ++ path ++ optional 63 query ++ optional 35 fragment)).
    assert (NC : ~ In 58%N sc).
    { intros I. destruct SC as (c & sc' & _ & _ & F). rewrite Forall_forall in F. specialize (F _ I).
      unfold letter in F. lia. }
    change (chr ":") with 58%N. rewrite partition1_app by exact NC.
    destruct SC as (c & sc' & E & L & F).
    assert (A : is_alpha c && forallb scheme_char sc = true).
    { rewrite (proj2 (is_alpha_spec c) L). cbn [andb]. apply forallb_forall. intros x I. apply scheme_char_spec.
      rewrite Forall_forall in F. apply F. exact I. }
    rewrite E in A |- *. rewrite A. rewrite <- E. rewrite lower_same by exact LO.
    rewrite starts2. change (skipn 2 (47%N :: 47%N :: host ++ path ++ optional 63 query ++ optional 35 fragment))
      with (host ++ path ++ optional 63 query ++ optional 35 fragment).
    assert (splitnetloc (host ++ path ++ optional 63 query ++ optional 35 fragment)
            = (host, path ++ optional 63 query ++ optional 35 fragment)) as ->.
    { rewrite PR. cbn [app]. apply splitnetloc_host. exact H. }
    change (chr "#") with 35%N. change (chr "?") with 63%N. rewrite app_assoc. rewrite split1_optional.
    - rewrite split1_optional by exact P1. rewrite host_ok by exact H. reflexivity.
    - intros I. apply in_app_or in I. destruct I as [I|I]; [exact (P2 I)|].
      destruct query as [|x query]; [destruct I|]. destruct I as [I|I]; [discriminate|exact (Q I)].
  Qed.

  Lemma scheme_no_drive : forall sc rest, scheme sc -> 2 <= length sc -> match_drive (sc ++ rest) = None.
  Proof.
    intros sc rest (c & sc' & -> & _ & F) L. destruct sc' as [|y sc']; [cbn [length] in L; lia|].
    cbn [app match_drive]. assert ((y =? chr ":")%N = false) as ->; [|rewrite andb_false_r; reflexivity].
    apply N.eqb_neq. inversion F as [|? ? _ F']; subst. inversion F' as [|? ? Y _]; subst.
    change (chr ":") with 58%N. unfold letter in Y. lia.
  Qed.

  Lemma normpath_target' : forall d names, Forall real names -> ~ In 92%N (target d names) -> ~ In 10%N (target d names) ->
    normpath (target d names) = target d names.
  Proof.
    intros d names H B1 B2. unfold normpath. rewrite osp_target by exact H. rewrite keep_slash_spec.
    pose proof (is_dir_plain _ (conj B1 B2)) as D.
    destruct names as [|a names].
    - cbn. destruct (is_dir (target d [])); reflexivity.
    - destruct (slashed_end (a :: names) H ltac:(discriminate)) as (q & c & E & C).
      unfold target, tail_slash in *. destruct d.
      + assert (is_dir (folder_path (a :: names) ++ [47%N]) = true) as ->.
        { apply D. exists q, c. rewrite E. rewrite <- app_assoc. split; [reflexivity|exact C]. }
        destruct (ends_with (lit "/") (folder_path (a :: names))) eqn:W; [|reflexivity].
        apply ends_with1 in W. destruct W as (w & W). rewrite E in W. apply last_inj in W. destruct W. contradiction.
      + rewrite app_nil_r in *. destruct (is_dir (folder_path (a :: names))) eqn:I; [|reflexivity].
        exfalso. destruct (proj1 D eq_refl) as (q' & c' & E' & _). rewrite E in E'.
        change [c'; 47%N] with ([c'] ++ [47%N]) in E'. rewrite app_assoc in E'. apply last_inj in E'.
        destruct E' as (_ & ->). contradiction.
  Qed.

  Lemma remote_same : forall cwd u eu, Forall name cwd -> Forall (Forall scalar) cwd -> remote_url u ->
    path2url bad_host expandvars expanduser_tilde (folder_path cwd) u false eu = Ok u.
  Proof.
    intros cwd u eu NC SC (sc & host & folder & names & path & query & fragment & E & S & LO & L2 & NF & HN & H & NN & FP & P1 & P2 & Q & C).
    destruct (file_path_target _ _ _ FP) as (d & PT).
    assert (PR : exists r, path = 47%N :: r) by (rewrite PT, target_join; eexists; reflexivity).
    destruct (quote_cwd cwd NC SC) as (q & F & RQ & PQ & QC).
    assert (NB : ~ In 92%N u).
    { intros I. rewrite Forall_forall in C. apply (C _ I). cbn [In]. tauto. }
    assert (NE : str_eqb u [] = false).
    { rewrite E. destruct S as (c & sc' & -> & _). reflexivity. }
    unfold path2url. rewrite NE. cbv zeta iota. rewrite no_unc by exact NB. rewrite unbackslash_same by exact NB.
    assert (match_drive u = None) as -> by (rewrite E; apply scheme_no_drive; assumption).
    change (lit "/") with [47%N]. rewrite QC. cbn [rbind]. rewrite base_url by assumption. cbn [rbind].
    assert (PB : plain_chars (base_path q)).
    { rewrite base_target. destruct q; [constructor|]. apply sum_target_plain. exact PQ. }
    assert (US : forall s, urlsplit u s = Ok {| u_scheme := sc; u_netloc := host; u_path := path; u_query := query; u_fragment := fragment |}).
    { intros s. rewrite E in C |- *. apply remote_split; assumption. }
    assert (urljoin bad_host (lit "file://" ++ base_path q) u = Ok u) as ->.
    { unfold urljoin. change (str_eqb (lit "file://" ++ base_path q) []) with false. rewrite NE. cbv iota.
      rewrite urlparse_file; [|exact PB|apply base_rooted]. cbn [rbind].
      unfold urlparse. rewrite US. cbn [rbind u_scheme u_path].
      assert (NQ : str_eqb sc (lit "file") = false) by (apply str_eqb_neq; exact NF).
      destruct (in_list sc uses_params); [destruct (splitparams path)|]; cbn [rbind u_scheme];
        change (u_scheme (local_parts (base_path q))) with (lit "file"); rewrite NQ; reflexivity. }
    cbn [rbind]. rewrite US. cbn [rbind u_scheme u_path u_netloc u_query u_fragment].
    assert (str_eqb sc (lit "file") = false) as -> by (apply str_eqb_neq; exact NF). cbn [andb].
    assert (IU : forall c, In c path -> In c u).
    { intros c I. rewrite E, !in_app_iff. tauto. }
    assert (NP : normpath path = path).
    { rewrite PT. apply normpath_target'.
      - apply names_real. exact NN.
      - rewrite <- PT. intros I. exact (NB (IU _ I)).
      - rewrite <- PT. intros I. rewrite Forall_forall in C. apply (C _ (IU _ I)). cbn [In]. tauto. }
    rewrite NP. rewrite unbackslash_same by (intros I; exact (NB (IU _ I))).
    f_equal. rewrite E. unfold urlunsplit. cbn [u_scheme u_path u_netloc u_query u_fragment].
    assert (str_eqb host [] = false) as -> by (apply str_eqb_neq; exact HN). cbn [negb orb].
    destruct PR as (r & ->). rewrite starts1. change (47 =? 47)%N with true. rewrite andb_false_r.
    assert (str_eqb sc [] = false) as -> by (destruct S as (c & sc' & -> & _); reflexivity).
    change (lit "//") with [47; 47]%N. change (lit ":") with [58%N]. change (lit "?") with [63%N]. change (lit "#") with [35%N].
    destruct query as [|x query], fragment as [|y fragment];
      repeat match goal with |- context [str_eqb ?a []] => change (str_eqb a []) with (match a with [] => true | _ => false end) end;
      cbv iota; unfold optional; rewrite ?app_nil_r; rewrite <- ?app_assoc; cbn [app]; rewrite <- ?app_assoc; reflexivity.
  Qed.
End Users.

Lemma Forall2_impl : forall A B (R S : A -> B -> Prop) l m, (forall a b, R a b -> S a b) -> Forall2 R l m -> Forall2 S l m.
Proof. intros A B R S l m H F. induction F; constructor; auto. Qed.
