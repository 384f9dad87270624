(** * File paths on Windows: lemmas *)
From Coq Require Import String Lia.
From Verif Require Import PyBase PyBase_Proofs OsPath_Model OsPath_Spec OsPath_Proofs WinPath_Model WinPath_Spec.

(** ** Backslashes *)
Lemma to_bs : forall p, to_backslash p = backslashed p.
Proof.
  induction p as [|c p IH]; [reflexivity|]. unfold to_backslash in *. cbn [replace1 backslashed map]. rewrite IH. change (chr "/") with 47%N.
  destruct (c =? 47)%N; reflexivity.
Qed.
Lemma bs_no_slash : forall p, ~ In 47%N (backslashed p).
Proof. intros p H. apply in_map_iff in H. destruct H as (c & E & _). destruct (N.eqb_spec c 47); [discriminate|congruence]. Qed.
Lemma bs_id : forall p, ~ In 47%N p -> backslashed p = p.
Proof.
  intros p H. unfold backslashed. rewrite <- (map_id p) at 2. apply map_ext_in. intros c I. destruct (N.eqb_spec c 47) as [->|]; [contradiction|reflexivity].
Qed.
Lemma bs_bs : forall p, backslashed (backslashed p) = backslashed p.
Proof. intros p. apply bs_id, bs_no_slash. Qed.
Lemma bs_app : forall p q, backslashed (p ++ q) = backslashed p ++ backslashed q.
Proof. intros. apply map_app. Qed.
Lemma read_bs : forall p, read (backslashed p) = read p.
Proof. intros p. unfold read, fields. rewrite bs_bs. reflexivity. Qed.

(** ** Finding *)
Lemma find_none : forall c s, find c s = None -> ~ In c s.
Proof.
  induction s as [|x s IH]; cbn [find]; [auto|]. destruct (N.eqb_spec x c); [discriminate|]. destruct (find c s); [discriminate|]. intros _ [E|I]; [congruence|].
  now apply IH.
Qed.
Lemma find_some : forall c s i, find c s = Some i -> exists a b, s = a ++ c :: b /\ ~ In c a /\ length a = i.
Proof.
  induction s as [|x s IH]; cbn [find]; intros i H; [discriminate|]. destruct (N.eqb_spec x c) as [->|N].
  - injection H as <-. exists [], s. auto.
  - destruct (find c s) as [j|]; [|discriminate]. injection H as <-. destruct (IH j eq_refl) as (a & b & -> & A & <-). exists (x :: a), b.
    split; [reflexivity|]. split; [|reflexivity]. intros [E|I]; [congruence|contradiction].
Qed.

Lemma skipn_cat : forall A (a b : list A) n, n = length a -> skipn n (a ++ b) = b.
Proof. intros A a b n ->. rewrite skipn_app, skipn_all, Nat.sub_diag. reflexivity. Qed.
Lemma firstn_cat : forall A (a b : list A) n, n = length a -> firstn n (a ++ b) = a.
Proof. intros A a b n ->. rewrite firstn_app, firstn_all, Nat.sub_diag. cbn. apply app_nil_r. Qed.

(** Two fields of [m], and the rest *)
Definition two (pre n : pystr) : pystr * pystr :=
  match find_from 92%N n (length pre) with
  | None => (n, [])
  | Some i => match find_from 92%N n (i + 1) with None => (n, []) | Some j => (firstn j n, skipn j n) end
  end.

Lemma two_finds : forall pre m,
  (length (split_on 92%N m) <= 2 /\ two pre (pre ++ m) = (pre ++ m, [])) \/
  exists a b r, m = a ++ 92%N :: b ++ 92%N :: r /\ ~ In 92%N a /\ ~ In 92%N b /\ two pre (pre ++ m) = (pre ++ a ++ 92%N :: b, 92%N :: r).
Proof.
  intros pre m. assert (S1 : find_from 92%N (pre ++ m) (length pre) = option_map (fun i => length pre + i) (find 92%N m)) by (unfold find_from; rewrite skipn_cat by reflexivity; reflexivity).
  unfold two. rewrite S1. destruct (find 92%N m) as [i|] eqn:F; cbn [option_map].
  - apply find_some in F. destruct F as (a & m' & -> & A & <-).
    assert (E : pre ++ a ++ 92%N :: m' = (pre ++ a ++ [92%N]) ++ m') by (rewrite <- !app_assoc; reflexivity).
    assert (S2 : find_from 92%N (pre ++ a ++ 92%N :: m') (length pre + length a + 1) = option_map (fun i => length pre + length a + 1 + i) (find 92%N m')).
    { unfold find_from. rewrite E, skipn_cat; [reflexivity|]. rewrite !app_length; cbn; lia. }
    rewrite S2. destruct (find 92%N m') as [j|] eqn:F; cbn [option_map].
    + right. apply find_some in F. destruct F as (b & r & -> & B & <-). exists a, b, r. split; [reflexivity|]. split; [exact A|]. split; [exact B|].
      assert (E' : pre ++ a ++ 92%N :: b ++ 92%N :: r = (pre ++ a ++ 92%N :: b) ++ 92%N :: r) by (rewrite <- !app_assoc; reflexivity).
      rewrite E'. assert (L : length pre + length a + 1 + length b = length (pre ++ a ++ 92%N :: b)) by (rewrite !app_length; cbn; lia).
      rewrite firstn_cat, skipn_cat by exact L. reflexivity.
    + left. apply find_none in F. split; [|reflexivity]. rewrite split_on_app by exact A. rewrite split_on_none by exact F. cbn. lia.
  - left. apply find_none in F. split; [|reflexivity]. rewrite split_on_none by exact F. cbn. lia.
Qed.

(** ** What is read is what is split *)
Lemma up_is : forall c d, up c = d -> (d < 65 \/ 90 < d)%N -> c = d.
Proof. intros c d. unfold up, is_lower. destruct ((97 <=? c)%N && (c <=? 122)%N)%bool eqn:E; [|auto]. apply andb_true_iff in E. destruct E as (A & B). apply N.leb_le in A, B. lia. Qed.
Lemma up_two : forall c d, (65 <= d <= 90)%N -> (up c =? d)%N = existsb (N.eqb c) [d; (d + 32)%N].
Proof.
  intros c d H. cbn [existsb]. rewrite orb_false_r. unfold up, is_lower.
  destruct (N.leb_spec 97 c), (N.leb_spec c 122); cbn [andb]; destruct (N.eqb_spec c d), (N.eqb_spec c (d + 32)), (N.eqb_spec (c - 32) d); cbn [orb]; try reflexivity; try lia;
   destruct (N.eqb_spec c d); try reflexivity; try lia.
Qed.

Lemma prefix8 : forall n, str_eqb (upper (firstn 8 n)) (lit "\\?\UNC\") = true <->
  exists u m, n = [92; 92; 63; 92]%N ++ u ++ 92%N :: m /\ unc u = true.
Proof.
  intros n. change (lit "\\?\UNC\") with [92; 92; 63; 92; 85; 78; 67; 92]%N. split.
  - intros H. apply str_eqb_eq in H. do 8 (destruct n as [|? n]; [discriminate H|]). cbn [firstn upper map] in H. injection H as A B C D E F G I.
    apply up_is in A; [|lia]. apply up_is in B; [|lia]. apply up_is in C; [|lia]. apply up_is in D; [|lia]. apply up_is in I; [|lia]. subst.
    exists [n4; n5; n6], n. split; [reflexivity|]. cbn [unc]. apply N.eqb_eq in E, F, G. rewrite up_two in E, F, G by lia.
    change [85; 117]%N with [85; 85 + 32]%N. change [78; 110]%N with [78; 78 + 32]%N. change [67; 99]%N with [67; 67 + 32]%N. rewrite E, F, G. reflexivity.
  - intros (u & m & -> & U). destruct u as [|a [|b [|c [|? ?]]]]; try discriminate U. cbn [unc] in U. apply andb_true_iff in U. destruct U as (U & G). apply andb_true_iff in U. destruct U as (E & F).
    change [85; 117]%N with [85; 85 + 32]%N in E. change [78; 110]%N with [78; 78 + 32]%N in F. change [67; 99]%N with [67; 67 + 32]%N in G.
    rewrite <- up_two in E, F, G by lia. cbn [app firstn upper map str_eqb]. rewrite E, F, G. reflexivity.
Qed.

Lemma unc_no_sep : forall u, unc u = true -> ~ In 92%N u.
Proof.
  intros u U I. destruct u as [|a [|b [|c [|? ?]]]]; try discriminate U. cbn [unc] in U. apply andb_true_iff in U. destruct U as (U & G). apply andb_true_iff in U. destruct U as (E & F).
  destruct I as [->|[->|[->|[]]]]; discriminate.
Qed.

Lemma nc_eq : forall b cs acc, nt_comps b cs acc = norm_comps b cs acc.
Proof.
  induction cs as [|c cs IH]; intros acc; [reflexivity|]. cbn [nt_comps norm_comps]. destruct (str_eqb c [] || str_eqb c (lit "."))%bool; [apply IH|].
  destruct (str_eqb c (lit "..")); cbn [negb orb]; [|apply IH]. destruct acc as [|l acc].
  - destruct b; cbn [negb andb orb tl]; apply IH.
  - rewrite andb_false_r. cbn [orb tl]. destruct (str_eqb l (lit "..")); cbn [negb]; apply IH.
Qed.

Lemma norm_empty : forall b cs acc, norm_comps b ([] :: cs) acc = norm_comps b cs acc.
Proof. reflexivity. Qed.

Lemma norm_strip : forall b s acc, norm_comps b (split_on 92%N (drop_while (fun c => (c =? 92)%N) s)) acc = norm_comps b (split_on 92%N s) acc.
Proof.
  induction s as [|c s IH]; intros acc; [reflexivity|]. cbn [drop_while split_on]. destruct (c =? 92)%N eqn:E; [rewrite norm_empty; apply IH|].
  cbn [split_on]. rewrite E. reflexivity.
Qed.

Inductive kind : reading -> Prop :=
| kind_none r ns : kind (Reading [] r ns)
| kind_letter c r ns : c <> 92%N -> kind (Reading [c; 58%N] r ns)
| kind_bare d : kind (Reading d false [])
| kind_share d fs ns : d = join [92%N] fs -> fs <> [] -> ns <> [] ->
    (forall ns', ns' <> [] -> Forall (fun n => ~ In 92%N n) ns' -> share_fields (nth 2 fs []) (skipn 3 (fs ++ ns')) = length fs) ->
    2 < length fs -> nth 0 fs [] = [] -> nth 1 fs [] = [] -> Forall (fun n => ~ In 92%N n) fs ->
    kind (Reading d true ns).

Definition split_ok (n : pystr) (R : reading) : Prop :=
  exists rest, splitdrive n = (r_drive R, rest) /\ r_drive R ++ rest = n /\ starts_with (lit "\") rest = r_root R /\
    (forall b acc, norm_comps b (split_on 92%N rest) acc = norm_comps b (r_names R) acc) /\ kind R /\
    Forall (fun x => ~ In 92%N x) (r_names R) /\ (r_root R = false -> ends_with (lit "\") (r_drive R) = true -> r_names R = []) /\
    (r_names R = [] -> rest = [] /\ r_root R = false).

Lemma splitdrive_two : forall n, ~ In 47%N n -> 2 <= length n -> str_eqb (firstn 2 n) (lit "\\") = true ->
  splitdrive n = two (if str_eqb (upper (firstn 8 n)) (lit "\\?\UNC\") then firstn 8 n else [92; 92]%N) n.
Proof.
  intros n S L E. unfold splitdrive. rewrite to_bs, (bs_id n S), E. replace (2 <=? length n) with true by (symmetry; apply Nat.leb_le; exact L).
  change (chr "\") with 92%N. unfold two. destruct (str_eqb (upper (firstn 8 n)) (lit "\\?\UNC\")) eqn:P; [|reflexivity].
  assert (length (firstn 8 n) = 8) as -> by (apply str_eqb_eq in P; apply (f_equal (@length N)) in P; unfold upper in P; rewrite map_length in P; exact P).
  reflexivity.
Qed.

Lemma starts_bs : forall s, starts_with (lit "\") s = match s with c :: _ => (c =? 92)%N | [] => false end.
Proof. intros [|c s]; [reflexivity|]. unfold starts_with. change (lit "\") with [92%N]. cbn [length firstn str_eqb]. rewrite andb_true_r. apply N.eqb_sym. Qed.

Lemma rooted_split : forall s, rooted (split_on 92%N s) = match s with c :: _ => (c =? 92)%N | [] => false end.
Proof.
  intros [|c s]; [reflexivity|]. cbn [split_on]. destruct (c =? 92)%N.
  - destruct (split_on 92%N s) eqn:E; [destruct (split_on_not_nil _ _ E)|reflexivity].
  - destruct (split_on 92%N s) eqn:E; [destruct (split_on_not_nil _ _ E)|reflexivity].
Qed.

Lemma split_seps : forall s, Forall (fun x => ~ In 92%N x) (split_on 92%N s).
Proof. intros s. apply Forall_forall. intros x I. exact (split_on_no_sep _ _ _ I). Qed.

(** Shares *)
Lemma share_reads : forall n, ~ In 47%N n -> 2 <= length n -> str_eqb (firstn 2 n) (lit "\\") = true -> split_ok n (read n).
Proof.
  intros n S L E. assert (ES := splitdrive_two n S L E). unfold split_ok, read, fields. rewrite (bs_id n S).
  destruct n as [|x [|y m]]; cbn in L; try lia. clear L.
  assert (x = 92%N /\ y = 92%N) as (-> & ->).
  { cbn [firstn] in E. apply str_eqb_eq in E. change (lit "\\") with [92; 92]%N in E. injection E as -> ->. auto. }
  assert (EF : split_on 92%N (92 :: 92 :: m)%N = [] :: [] :: split_on 92%N m) by reflexivity. rewrite EF.
  destruct (str_eqb (upper (firstn 8 (92 :: 92 :: m)%N)) (lit "\\?\UNC\")) eqn:P.
  - apply prefix8 in P. destruct P as (u & m' & En & U). cbn [app] in En. injection En as ->.
    assert (NU := unc_no_sep u U).
    assert (Lu : length u = 3) by (destruct u as [|a [|b [|c [|? ?]]]]; try discriminate U; reflexivity).
    assert (EM : split_on 92%N (63 :: 92 :: u ++ 92 :: m')%N = [63%N] :: u :: split_on 92%N m').
    { change (63 :: 92 :: u ++ 92 :: m')%N with ([63%N] ++ 92%N :: u ++ 92%N :: m'). rewrite !split_on_app; [reflexivity|exact NU|]. intros [X|[]]; discriminate. }
    rewrite EM. destruct (split_on 92%N m') as [|h more] eqn:EM'; [destruct (split_on_not_nil _ _ EM')|]. rewrite <- EM'.
    assert (K : share_fields [63%N] (u :: split_on 92%N m') = 6) by (rewrite EM'; cbn [share_fields]; rewrite U; reflexivity). rewrite K.
    set (pre := [92; 92; 63; 92]%N ++ u ++ [92%N]) in *.
    assert (EN : (92 :: 92 :: 63 :: 92 :: u ++ 92 :: m')%N = pre ++ m') by (unfold pre; cbn [app]; rewrite <- app_assoc; reflexivity).
    assert (Fp : firstn 8 (pre ++ m') = pre) by (apply firstn_cat; unfold pre; rewrite !app_length, Lu; reflexivity).
    assert (Hp : forall w, pre ++ w = join [92%N] ([] :: [] :: [63%N] :: u :: [w])) by (intros w; unfold pre; cbn [join app]; rewrite <- app_assoc; reflexivity).
    rewrite EN in ES |- *. rewrite Fp in ES.
    destruct (two_finds pre m') as [(T & F)|(a & b & r & -> & A & B & F)]; rewrite F in ES.
    + exists []. rewrite firstn_all2 by (cbn [length]; lia). rewrite skipn_all2 by (cbn [length]; lia).
      replace (6 <? length _) with false by (symmetry; apply Nat.ltb_ge; cbn [length]; lia). cbn [r_drive r_root r_names].
      assert (J : join [92%N] ([] :: [] :: [63%N] :: u :: split_on 92%N m') = pre ++ m').
      { rewrite EM', <- EM, <- EF, join_split. exact EN. }
      rewrite J. split; [exact ES|]. split; [apply app_nil_r|]. split; [reflexivity|]. split; [reflexivity|]. split; [constructor|]. split; [constructor|]. split; [auto|]. auto.
    + exists (92%N :: r). assert (SP : split_on 92%N (a ++ 92%N :: b ++ 92%N :: r) = a :: b :: split_on 92%N r) by (rewrite !split_on_app; auto).
      rewrite SP. cbn [firstn skipn length Nat.ltb Nat.leb r_drive r_root r_names].
      assert (J : join [92%N] [[]; []; [63%N]; u; a; b] = pre ++ a ++ 92%N :: b) by (rewrite Hp; reflexivity).
      destruct (split_on 92%N r) as [|r1 rs] eqn:Er; [destruct (split_on_not_nil _ _ Er)|]. cbn [length Nat.ltb Nat.leb]. rewrite <- Er. rewrite J.
      split; [exact ES|]. split; [rewrite <- !app_assoc; reflexivity|]. split; [reflexivity|]. split; [reflexivity|]. split; [|split; [apply split_seps|split; [discriminate|intros X; destruct (split_on_not_nil _ _ X)]]].
      apply (kind_share _ [[]; []; [63%N]; u; a; b]); [symmetry; exact J|discriminate|rewrite Er; discriminate| |cbn; lia|reflexivity|reflexivity|].
      * intros ns' _ _. cbn [nth skipn app length share_fields]. rewrite U. reflexivity.
      * repeat constructor; auto; intros [X|[]]; discriminate.
  - destruct (split_on 92%N m) as [|h more] eqn:EM; [destruct (split_on_not_nil _ _ EM)|].
    assert (J : join [92%N] ([] :: [] :: h :: more) = (92 :: 92 :: m)%N) by (rewrite <- EF, join_split; reflexivity).
    destruct (two_finds [92; 92]%N m) as [(T & F)|(a & b & r & Em & A & B & F)]; cbn [app] in F; rewrite F in ES.
    + rewrite EM in T. cbn [length] in T. assert (K : share_fields h more = 4) by (destruct more as [|? [|? ?]]; try reflexivity; cbn in T; lia). rewrite K.
      exists []. rewrite firstn_all2 by (cbn [length]; lia). rewrite skipn_all2 by (cbn [length]; lia).
      replace (4 <? length _) with false by (symmetry; apply Nat.ltb_ge; cbn [length]; lia). cbn [r_drive r_root r_names]. rewrite J.
      split; [exact ES|]. split; [apply app_nil_r|]. split; [reflexivity|]. split; [reflexivity|]. split; [constructor|]. split; [constructor|]. split; [auto|]. auto.
    + subst m. assert (SP : split_on 92%N (a ++ 92%N :: b ++ 92%N :: r) = a :: b :: split_on 92%N r) by (rewrite !split_on_app; auto).
      rewrite SP in EM. injection EM as <- <-. destruct (split_on 92%N r) as [|r1 rs] eqn:Er; [destruct (split_on_not_nil _ _ Er)|]. rewrite <- Er.
      assert (NP : (str_eqb a [63%N] && unc b)%bool = false).
      { apply not_true_iff_false. intros X. apply andb_true_iff in X. destruct X as (X & U). apply str_eqb_eq in X. subst a.
        assert (Y : str_eqb (upper (firstn 8 (92 :: 92 :: [63] ++ 92 :: b ++ 92 :: r)%N)) (lit "\\?\UNC\") = true) by (apply prefix8; exists b, r; auto). congruence. }
      assert (K : share_fields a (b :: split_on 92%N r) = 4) by (rewrite Er; cbn [share_fields]; rewrite NP; reflexivity). rewrite K.
      cbn [firstn skipn length]. rewrite Er. cbn [length Nat.ltb Nat.leb r_drive r_root r_names]. rewrite <- Er.
      exists (92%N :: r). change (join [92%N] [[]; []; a; b]) with (92 :: 92 :: a ++ 92 :: b)%N.
      split; [exact ES|]. split; [cbn [app]; rewrite <- !app_assoc; reflexivity|]. split; [reflexivity|]. split; [reflexivity|]. split; [|split; [apply split_seps|split; [discriminate|intros X; destruct (split_on_not_nil _ _ X)]]].
      apply (kind_share _ [[]; []; a; b]); [reflexivity|discriminate|rewrite Er; discriminate| |cbn; lia|reflexivity|reflexivity|].
      * intros ns' N _. cbn [nth skipn app length]. destruct ns' as [|? ?]; [congruence|]. cbn [share_fields]. rewrite NP. reflexivity.
      * repeat constructor; auto.
Qed.

(** Others *)
Ltac not_colon d H := destruct d as [|d]; [reflexivity|]; repeat (destruct d as [d|d|]; try reflexivity); exfalso; apply H; reflexivity.

Lemma split_cons : forall c n, c <> 92%N -> exists g gs, split_on 92%N n = g :: gs /\ split_on 92%N (c :: n) = (c :: g) :: gs.
Proof.
  intros c n H. cbn [split_on]. destruct (N.eqb_spec c 92); [contradiction|]. destruct (split_on 92%N n) as [|g gs] eqn:E; [destruct (split_on_not_nil _ _ E)|]. eauto.
Qed.

Lemma read_letter : forall c m, c <> 47%N -> ~ In 47%N m -> c <> 92%N -> read (c :: 58%N :: m) = Reading [c; 58%N] (rooted (split_on 92%N m)) (split_on 92%N m).
Proof.
  intros c m C M N. unfold read, fields. rewrite bs_id by (intros [E|[E|I]]; [congruence|discriminate|contradiction]).
  destruct (split_cons 58%N m ltac:(discriminate)) as (g & gs & E & E1). destruct (split_cons c (58%N :: m) N) as (h & hs & F & F1).
  rewrite E1 in F. injection F as <- <-. rewrite F1, E. reflexivity.
Qed.

Lemma read_other : forall n, ~ In 47%N n -> str_eqb (firstn 2 n) (lit "\\") = false -> (forall c m, n = c :: 58%N :: m -> c = 92%N) ->
  read n = Reading [] (rooted (split_on 92%N n)) (split_on 92%N n).
Proof.
  intros n S E C. unfold read, fields. rewrite (bs_id n S). destruct n as [|c n]; [reflexivity|]. destruct (N.eqb_spec c 92) as [->|Nc].
  - cbn [split_on]. change (92 =? 92)%N with true. cbn iota. destruct n as [|d n]; [reflexivity|]. destruct (N.eqb_spec d 92) as [->|Nd].
    + discriminate E.
    + destruct (split_cons d n Nd) as (g & gs & F & F1). rewrite F1. reflexivity.
  - destruct (split_cons c n Nc) as (g & gs & F & F1). rewrite F1. destruct g as [|d g]; [reflexivity|].
    assert (H : d <> 58%N).
    { intros ->. destruct n as [|d n]; [discriminate F|]. destruct (N.eqb_spec d 92) as [->|Nd]; [cbn in F; discriminate|]. destruct (split_cons d n Nd) as (g' & gs' & X & X1).
      rewrite X1 in F. injection F as -> _ _. exact (Nc (C c n eq_refl)). }
    not_colon d H.
Qed.

Lemma split_end : forall s, ends_with (lit "\") s = true <-> ends_backslash s.
Proof.
  intros n. unfold ends_with, ends_backslash. change (lit "\") with [92%N]. cbn [length].
  destruct n as [|x n] using rev_ind; [simpl; split; [discriminate|intros [p E]; destruct p; discriminate]|].
  clear IHn. rewrite app_length. cbn [length].
  replace (length n + 1 - 1) with (length n) by lia. rewrite skipn_app, skipn_all, Nat.sub_diag.
  replace (1 <=? length n + 1) with true by (symmetry; apply Nat.leb_le; lia).
  cbn [app skipn andb str_eqb]. rewrite andb_true_r. split.
  - intro E. apply N.eqb_eq in E. subst x. exists n. reflexivity.
  - intros [p E]. apply app_inj_tail in E. destruct E as [_ ->]. reflexivity.
Qed.

Lemma splitdrive_none : forall n, ~ In 47%N n -> str_eqb (firstn 2 n) (lit "\\") = false -> (forall c m, n <> c :: 58%N :: m) -> splitdrive n = ([], n).
Proof.
  intros n S E C. unfold splitdrive. destruct (2 <=? length n) eqn:L; [|reflexivity]. rewrite to_bs, (bs_id n S), E. destruct n as [|c [|d m]]; try discriminate L.
  cbn [skipn firstn]. change (lit ":") with [58%N]. cbn [str_eqb]. destruct (N.eqb_spec d 58) as [->|]; [destruct (C c m eq_refl)|reflexivity].
Qed.

Lemma other_reads : forall n, ~ In 47%N n -> str_eqb (firstn 2 n) (lit "\\") = false -> legal n -> split_ok n (read n).
Proof.
  intros n S E Lg. destruct n as [|c [|d m]].
  - exists []. cbn [r_drive r_root r_names read]. do 4 (split; [reflexivity|]). split; [constructor|]. split; [repeat constructor; intros []|]. split; discriminate.
  - assert (R := read_other [c] S E ltac:(discriminate)). assert (T := splitdrive_none [c] S E ltac:(discriminate)). rewrite R. exists [c]. cbn [r_drive r_root r_names].
    rewrite starts_bs, rooted_split. do 3 (split; [reflexivity|]). split; [reflexivity|]. split; [constructor|]. split; [apply split_seps|]. split; [discriminate|intros X; destruct (split_on_not_nil _ _ X)].
  - destruct (N.eqb_spec d 58) as [->|Nd].
    + assert (Nc : c <> 92%N).
      { intros ->. assert (R := read_other (92%N :: 58%N :: m) S E ltac:(intros c' m' X; injection X as <- <-; reflexivity)). unfold legal in Lg. rewrite R in Lg.
        cbn [r_drive r_names] in Lg. specialize (Lg eq_refl). cbn [split_on] in Lg. change (92 =? 92)%N with true in Lg. cbn iota in Lg. inversion Lg as [|? ? _ H]; subst.
        change (58 =? 92)%N with false in H. cbn iota in H. destruct (split_on 92%N m) as [|g gs]; inversion H as [|? ? X _]; subst; apply X; [exists []|exists g]; now left. }
      rewrite read_letter; [|intros ->; apply S; now left|intros I; apply S; now right; right|exact Nc].
      exists m. cbn [r_drive r_root r_names]. split.
      { unfold splitdrive. rewrite to_bs, (bs_id _ S), E. cbn [length Nat.leb skipn firstn]. reflexivity. }
      split; [reflexivity|]. split; [rewrite starts_bs, rooted_split; reflexivity|]. split; [reflexivity|]. split; [now constructor|]. split; [apply split_seps|]. split; [|intros X; destruct (split_on_not_nil _ _ X)].
      intros _ X. apply split_end in X. destruct X as (q & X). destruct q as [|? [|? [|? ?]]]; discriminate X.
    + rewrite (read_other _ S E) by (intros c' m' X; injection X; congruence). exists (c :: d :: m). cbn [r_drive r_root r_names].
      rewrite (splitdrive_none _ S E) by (intros c' m' X; injection X; congruence). rewrite starts_bs, rooted_split.
      do 3 (split; [reflexivity|]). split; [reflexivity|]. split; [constructor|]. split; [apply split_seps|]. split; [discriminate|intros X; destruct (split_on_not_nil _ _ X)].
Qed.

Lemma legal_bs : forall p, legal p -> legal (backslashed p).
Proof. intros p H. unfold legal. rewrite read_bs. exact H. Qed.

Lemma reads : forall p, legal p -> split_ok (backslashed p) (read p).
Proof.
  intros p L. rewrite <- read_bs. apply legal_bs in L. assert (S := bs_no_slash p). set (n := backslashed p) in *.
  destruct (str_eqb (firstn 2 n) (lit "\\")) eqn:E; [|now apply other_reads]. apply share_reads; auto.
  apply str_eqb_eq in E. apply (f_equal (@length N)) in E. rewrite firstn_length in E. change (length (lit "\\")) with 2 in E. lia.
Qed.

(** ** Normal forms *)
Definition wrender (d : pystr) (r : bool) (comps : list pystr) : pystr :=
  match d, r, comps with
  | [], false, [] => [46%N]
  | _, _, _ => d ++ (if r then [92%N] else []) ++ join [92%N] comps
  end.

Definition solid (n : pystr) : Prop := ~ In 92%N n /\ ~ In 47%N n.

Lemma names_no_slash : forall p, Forall (fun n => ~ In 47%N n) (r_names (read p)).
Proof.
  intros p. assert (F : Forall (fun n => ~ In 47%N n) (fields p)).
  { apply Forall_forall. intros w I J. apply (bs_no_slash p). exact (split_chars _ _ _ _ I J). }
  assert (G : forall k, Forall (fun n => ~ In 47%N n) (skipn k (fields p))).
  { intros k. rewrite <- (firstn_skipn k (fields p)) in F. apply Forall_app in F. apply F. }
  unfold read. destruct (fields p) as [|a fs]; [constructor|]. destruct a as [|c a].
  - destruct fs as [|[|c b] [|h more]]; cbn [r_names]; try exact F. apply G.
  - destruct a as [|d a]; [exact F|]. inversion F as [|? ? A B]; subst.
    assert (X : Forall (fun n => ~ In 47%N n) (a :: fs)) by (constructor; [intros I; apply A; now right; right|exact B]).
    destruct d as [|d]; [exact F|]; repeat (destruct d as [d|d|]; try exact F). exact X.
Qed.

Definition slash_after (R : reading) : bool := (r_root R || ends_with (lit "\") (r_drive R))%bool.

Lemma nt_is : forall p, legal p -> nt_normpath p = wrender (r_drive (read p)) (r_root (read p)) (norm_comps (slash_after (read p)) (r_names (read p)) []).
Proof.
  intros p L. destruct (reads p L) as (rest & T & J & St & NC & K & _). unfold nt_normpath. rewrite to_bs, T, St. change (chr "\") with 92%N. change (lit "\") with [92%N].
  set (R := read p) in *. unfold slash_after. destruct (r_root R) eqn:Er; cbn [orb].
  - rewrite nc_eq, norm_strip, NC. assert (ends_with [92%N] (r_drive R ++ [92%N]) = true) as -> by (apply split_end; eexists; reflexivity).
    set (cs := norm_comps _ _ _). unfold wrender. destruct (r_drive R ++ [92%N]) as [|x l] eqn:E; [destruct (r_drive R); discriminate|]. rewrite <- E.
    destruct (r_drive R); rewrite <- app_assoc; reflexivity.
  - rewrite nc_eq, NC. set (cs := norm_comps _ _ _). unfold wrender. destruct (r_drive R) as [|x l]; [|reflexivity]. destruct cs; reflexivity.
Qed.

Lemma nt_form : forall p, legal p -> exists u names, Forall real names /\ Forall (fun n => ~ In 92%N n) names /\
  (r_root (read p) = true -> u = 0) /\
  nt_normpath p = wrender (r_drive (read p)) (r_root (read p)) (repeat DD u ++ names) /\
  (forall st, (r_root (read p) = true -> st = []) -> walk st (repeat DD u ++ names) = walk st (r_names (read p))) /\
  (forall n, In n (repeat DD u ++ names) -> In n (r_names (read p))).
Proof.
  intros p L. rewrite (nt_is p L). destruct (reads p L) as (rest & _ & _ & _ & _ & _ & F & Eb & _). set (R := read p) in *.
  assert (I := norm_comps_in (slash_after R) (r_names R) []).
  destruct (norm_comps_form (slash_after R) (r_names R) [] 0 (names_no_slash p) ltac:(constructor) ltac:(reflexivity)) as (u & names & A & B & C & D).
  cbn [app repeat] in A. change (norm_comps (slash_after R) (r_names R) (([] : list pystr) ++ [])) with (norm_comps (slash_after R) (r_names R) []) in A.
  rewrite A in *. exists u, names. assert (IN : forall n, In n (repeat DD u ++ names) -> In n (r_names R)) by (intros n X; destruct (I n X) as [Y|[]]; exact Y).
  split; [exact B|]. split.
  { apply Forall_forall. intros n X. rewrite Forall_forall in F. apply F, IN, in_app_iff. now right. }
  split; [intros E; apply C; unfold slash_after; now rewrite E|]. split; [reflexivity|]. split; [|exact IN].
  intros st Hs. destruct (slash_after R) eqn:Es; [|rewrite D by discriminate; reflexivity].
  unfold slash_after in Es. destruct (r_root R) eqn:Er; [rewrite D by auto; reflexivity|]. cbn [orb] in Es.
  rewrite (Eb eq_refl Es) in *. destruct (repeat DD u ++ names) as [|n l]; [reflexivity|]. destruct (IN n (or_introl eq_refl)).
Qed.

(** ** Reading normal forms *)
Lemma drive_no_slash : forall p, legal p -> ~ In 47%N (r_drive (read p)).
Proof. intros p L I. destruct (reads p L) as (rest & _ & J & _). apply (bs_no_slash p). rewrite <- J. apply in_app_iff. now left. Qed.

Lemma wjoin_first : forall comps, Forall part comps -> Forall (fun n => ~ In 92%N n) comps -> comps <> [] ->
  exists c s l, hd [] comps = c :: s /\ join [92%N] comps = c :: s ++ l /\ c <> 92%N /\ (l = [] \/ exists l', l = 92%N :: l').
Proof.
  intros comps H B N. destruct comps as [|n comps]; [congruence|]. inversion H; inversion B; subst. destruct (part_first n) as (c & s & -> & _); [assumption|].
  assert (c <> 92%N) by (intros ->; match goal with X : ~ In _ (_ :: _) |- _ => apply X; now left end).
  destruct comps as [|m comps].
  - exists c, s, []. cbn [hd join]. rewrite app_nil_r. auto.
  - exists c, s, (92%N :: join [92%N] (m :: comps)). cbn [hd]. split; [reflexivity|]. split; [reflexivity|]. eauto.
Qed.

Lemma wsplit_parts : forall comps st, Forall (fun n => ~ In 92%N n) comps ->
  walk st (split_on 92%N (join [92%N] comps)) = walk st comps /\ forall n, In n (split_on 92%N (join [92%N] comps)) -> n = [] \/ In n comps.
Proof.
  intros comps st H. destruct comps as [|x comps]; [split; [reflexivity|intros n [<-|[]]; auto]|].
  rewrite split_join; [auto|discriminate|]. intros y Hy. rewrite Forall_forall in H. auto.
Qed.

Lemma wjoin_no_slash : forall comps, Forall part comps -> ~ In 47%N (join [92%N] comps).
Proof.
  intros comps H I. apply join_chars in I. destruct I as [E|(w & Iw & Ic)]; [discriminate|]. rewrite Forall_forall in H. exact (part_no_slash w (H w Iw) Ic).
Qed.

Lemma read_render : forall p comps, legal p -> Forall part comps -> Forall (fun n => ~ In 92%N n) comps -> (forall n, In n comps -> In n (r_names (read p))) ->
  exists ns, read (wrender (r_drive (read p)) (r_root (read p)) comps) = Reading (r_drive (read p)) (r_root (read p)) ns /\
    (forall st, walk st ns = walk st comps) /\ (forall n, In n ns -> n = [] \/ n = [46%N] \/ In n comps).
Proof.
  intros p comps L P B IN. assert (DS := drive_no_slash p L). assert (Lg := L). unfold legal in Lg.
  destruct (reads p L) as (rest & _ & J & _ & _ & K & _ & _ & Emp).
  assert (JS := wjoin_no_slash comps P). assert (W := fun st => proj1 (wsplit_parts comps st B)). assert (WI := proj2 (wsplit_parts comps [] B)).
  destruct (list_eq_dec (list_eq_dec N.eq_dec) (r_names (read p)) []) as [En|Nn].
  - destruct (Emp En) as (-> & Er). rewrite app_nil_r in J. assert (comps = []) by (destruct comps as [|n l]; [reflexivity|]; specialize (IN n (or_introl eq_refl)); rewrite En in IN; destruct IN).
    subst comps. exists []. rewrite Er. split; [|split; [reflexivity|intros n []]]. unfold wrender. rewrite J. destruct (backslashed p) as [|x l] eqn:E.
    + exfalso. rewrite <- read_bs, E in En. discriminate En.
    + rewrite <- E. rewrite <- E in J. cbn [join app]. rewrite app_nil_r. rewrite read_bs. rewrite <- J. destruct (read p) as [d r ns]. cbn in *. subst. reflexivity.
  - destruct (read p) as [d r names] eqn:ER. cbn [r_drive r_root r_names] in *. inversion K as [r' ns'|c r' ns' Nc|d'|d' fs ns' Ed _ _ SF L2 N0 N1 Fs]; subst; try congruence.
    + specialize (Lg eq_refl). unfold wrender. destruct r.
      * assert (S' : ~ In 47%N (92%N :: join [92%N] comps)) by (intros [E|I]; [discriminate|contradiction]).
        cbn [app]. assert (X : (match comps with [] => 92%N :: join [92%N] comps | _ :: _ => 92%N :: join [92%N] comps end) = 92%N :: join [92%N] comps) by (destruct comps; reflexivity).
        rewrite read_other; [|exact S'| |].
        -- rewrite rooted_split. exists ([] :: split_on 92%N (join [92%N] comps)). split; [reflexivity|]. split; [intros st; rewrite walk_empty; apply W|].
           intros n [<-|I]; [auto|]. destruct (WI n I); auto.
        -- destruct comps as [|x comps]; [reflexivity|]. destruct (wjoin_first (x :: comps) P B ltac:(discriminate)) as (c & s & l & _ & -> & Hc & _).
           apply not_true_iff_false. intros E. apply str_eqb_eq in E. injection E as E. contradiction.
        -- intros c m E. injection E as <- _. reflexivity.
      * destruct comps as [|x comps]; [exists [[46%N]]; split; [reflexivity|]; split; [reflexivity|]; intros n [<-|[]]; auto|]. cbn [app].
        destruct (wjoin_first (x :: comps) P B ltac:(discriminate)) as (c & s & l & Hd & Hj & Hc & Hl). cbn [hd] in Hd.
        rewrite read_other; [|exact JS| |].
        -- rewrite rooted_split, Hj. destruct (N.eqb_spec c 92) as [?|_]; [contradiction|]. rewrite <- Hj. exists (split_on 92%N (join [92%N] (x :: comps))). split; [reflexivity|].
           split; [exact W|]. intros n I. destruct (WI n I); auto.
        -- rewrite Hj. apply not_true_iff_false. intros E. apply str_eqb_eq in E. cbn [firstn] in E. change (lit "\\") with [92; 92]%N in E. injection E as E _. contradiction.
        -- rewrite Hj. intros c' m E. injection E as <- E. exfalso. rewrite Forall_forall in Lg. apply (Lg x (IN x (or_introl eq_refl))). rewrite Hd.
           destruct s as [|d s]; [cbn [app] in E; destruct Hl as [-> |(l' & ->)]; discriminate|]. injection E as -> E. exists s. right. eauto.
    + unfold wrender. cbn [app].
      assert (Y : ~ In 47%N ((if r then [92%N] else []) ++ join [92%N] comps)).
      { intros I. apply in_app_iff in I. destruct I as [I|I]; [|contradiction]. destruct r; [destruct I as [I|[]]; discriminate|destruct I]. }
      rewrite read_letter; [|intros ->; apply DS; now left|exact Y|exact Nc]. rewrite rooted_split.
      assert (R' : match (if r then [92%N] else []) ++ join [92%N] comps with [] => false | c0 :: _ => (c0 =? 92)%N end = r).
      { destruct r; [reflexivity|]. cbn [app]. destruct comps as [|x comps]; [reflexivity|].
        destruct (wjoin_first (x :: comps) P B ltac:(discriminate)) as (c' & s & l & _ & -> & Hc & _). apply N.eqb_neq. exact Hc. }
      rewrite R'. eexists. split; [reflexivity|]. destruct r; cbn [app].
      * cbn [split_on]. change (92 =? 92)%N with true. cbn iota. split; [intros st; rewrite walk_empty; apply W|]. intros n [<-|I]; [auto|]. destruct (WI n I); auto.
      * split; [exact W|]. intros n I. destruct (WI n I); auto.
    + set (d := join [92%N] fs) in *. assert (Nd : d <> []).
      { unfold d. destruct fs as [|f0 [|f1 [|f2 fs]]]; cbn in L2; try lia. cbn [nth] in N0, N1. subst. discriminate. }
      assert (ER' : wrender d true comps = d ++ 92%N :: join [92%N] comps) by (unfold wrender; destruct d; [congruence|reflexivity]). rewrite ER'.
      assert (S' : ~ In 47%N (d ++ 92%N :: join [92%N] comps)) by (intros I; apply in_app_iff in I; destruct I as [I|[I|I]]; [contradiction|discriminate|contradiction]).
      assert (EF : fields (d ++ 92%N :: join [92%N] comps) = fs ++ split_on 92%N (join [92%N] comps)).
      { unfold fields. rewrite (bs_id _ S'), split_on_cat. f_equal. unfold d. apply split_join; [destruct fs; [cbn in L2; lia|discriminate]|]. intros y Hy. rewrite Forall_forall in Fs. auto. }
      set (ns1 := split_on 92%N (join [92%N] comps)) in *. assert (N1' : ns1 <> []) by (apply split_on_not_nil).
      specialize (SF ns1 N1' (split_seps _)). exists ns1. split; [|split; [exact W|]].
      * unfold read. rewrite EF. destruct fs as [|f0 [|f1 [|f2 fs]]]; cbn in L2; try lia. cbn [nth] in N0, N1. subst f0 f1. cbn [app]. cbn [nth skipn app] in SF. rewrite SF.
        change ([] :: [] :: f2 :: fs ++ ns1) with (([] :: [] :: f2 :: fs) ++ ns1). rewrite firstn_cat, skipn_cat by reflexivity.
        replace (length _ <? length _) with true; [reflexivity|]. symmetry. apply Nat.ltb_lt. rewrite app_length. destruct ns1; [congruence|cbn; lia].
      * intros n I. destruct (WI n I); auto.
Qed.

Lemma forms_equal : forall (root : bool) u names v names', Forall real names -> Forall real names' -> (root = true -> u = 0) -> (root = true -> v = 0) ->
  (forall st, (root = true -> st = []) -> walk st (repeat DD u ++ names) = walk st (repeat DD v ++ names')) -> repeat DD u ++ names = repeat DD v ++ names'.
Proof.
  intros root u names v names' A A' U V X. destruct root.
  - rewrite (U eq_refl), (V eq_refl) in *. cbn [repeat app] in *. specialize (X [] ltac:(reflexivity)). rewrite !walk_reals, !app_nil_r in X by assumption.
    apply (f_equal (@rev pystr)) in X. rewrite !rev_involutive in X. exact X.
  - set (f := fresh (names ++ names')).
    assert (Nf : ~ In f (rev names) /\ ~ In f (rev names')).
    { assert (N := fresh_not_in (names ++ names')). fold f in N. rewrite in_app_iff in N. rewrite <- !in_rev. tauto. }
    specialize (X (repeat f (S (u + v))) ltac:(discriminate)). rewrite !walk_app, !walk_ups, !skipn_repeat in X.
    rewrite (walk_reals names), (walk_reals names') in X by assumption.
    replace (S (u + v) - u) with (S v) in X by lia. replace (S (u + v) - v) with (S u) in X by lia.
    destruct (app_repeat_inj _ _ _ _ _ _ (proj1 Nf) (proj2 Nf) X) as [X1 X2].
    subst v. apply (f_equal (@rev pystr)) in X1. rewrite !rev_involutive in X1. subst. reflexivity.
Qed.

Definition same_start (p q : pystr) : Prop := r_drive (read p) = r_drive (read q) /\ r_root (read p) = r_root (read q).

Lemma place_walk : forall p q, same_start p q -> (forall cur, place cur p = place cur q) ->
  forall st, (r_root (read p) = true -> st = []) -> walk st (r_names (read p)) = walk st (r_names (read q)).
Proof.
  intros p q (D & R) H st Hs. specialize (H (fun _ => st)). unfold place in H. rewrite <- D, <- R in H. injection H as H.
  destruct (r_root (read p)); [rewrite (Hs eq_refl)|]; exact H.
Qed.

Lemma nt_canonical : forall p q, legal p -> legal q -> same_start p q -> (forall cur, place cur p = place cur q) -> nt_normpath p = nt_normpath q.
Proof.
  intros p q Lp Lq SS H. assert (W := place_walk p q SS H). destruct SS as (D & R).
  destruct (nt_form p Lp) as (u & names & A & _ & U & -> & F & _). destruct (nt_form q Lq) as (v & names' & A' & _ & V & -> & F' & _).
  rewrite D, R. f_equal. apply (forms_equal (r_root (read p))); auto; [rewrite R; exact V|].
  intros st Hs. rewrite (F st Hs), F' by (rewrite <- R; exact Hs). exact (W st Hs).
Qed.

Lemma nt_reads : forall p, legal p -> same_start (nt_normpath p) p /\ (forall cur, place cur (nt_normpath p) = place cur p) /\ legal (nt_normpath p).
Proof.
  intros p L. destruct (nt_form p L) as (u & names & A & B & U & E & W & I). rewrite E.
  assert (B' : Forall (fun n => ~ In 92%N n) (repeat DD u ++ names)).
  { apply Forall_app. split; [|exact B]. apply Forall_forall. intros n X. apply repeat_spec in X. subst. intros [X|[X|[]]]; discriminate. }
  destruct (read_render p (repeat DD u ++ names) L (parts_form u names A) B' I) as (ns & ER & EW & EI). split; [|split].
  - unfold same_start. rewrite ER. auto.
  - intros cur. unfold place. rewrite ER. cbn [r_drive r_root r_names]. f_equal. rewrite EW. apply W. destruct (r_root (read p)); [reflexivity|discriminate].
  - unfold legal in *. rewrite ER. cbn [r_drive r_names]. intros D. specialize (L D). rewrite Forall_forall in *. intros n X. destruct (EI n X) as [-> |[-> |Y]].
    + intros (s & [E1|(c & E1)]); discriminate.
    + intros (s & [E1|(c & E1)]); discriminate.
    + apply L, I, Y.
Qed.

Lemma nt_idem : forall p, legal p -> nt_normpath (nt_normpath p) = nt_normpath p.
Proof. intros p L. destruct (nt_reads p L) as (S & W & L'). apply nt_canonical; auto. Qed.

(** ** The last separator *)
Definition sepc (c : N) : Prop := (c = 47 \/ c = 92)%N.
Lemma is_sep_iff : forall c, is_sep c = true <-> sepc c.
Proof. intros c. unfold is_sep, sepc. change (chr "/") with 47%N. change (chr "\") with 92%N. rewrite orb_true_iff, !N.eqb_eq. reflexivity. Qed.

Lemma is_dir_win : forall p, ~ In 10%N p -> is_dir p = true <-> exists q c s, p = q ++ [c; s] /\ ~ sepc c /\ sepc s.
Proof.
  intros p B. unfold is_dir.
  assert (X : ends_with [10%N] p = false).
  { apply not_true_iff_false. unfold ends_with. rewrite andb_true_iff. intros [L E].
    apply str_eqb_eq in E. apply B. rewrite <- (firstn_skipn (length p - length [10%N]) p). apply in_app_iff. right. rewrite <- E. left. reflexivity. }
  rewrite X, orb_false_r. unfold sep_at_end. split.
  - destruct (rev p) as [|y [|x r]] eqn:E; try discriminate. intro H. apply andb_true_iff in H. destruct H as [H1 H2].
    apply (f_equal (@rev N)) in E. rewrite rev_involutive in E. exists (rev r), x, y. split; [rewrite E; cbn [rev]; rewrite <- app_assoc; reflexivity|].
    split; [|now apply is_sep_iff]. intros Y. apply is_sep_iff in Y. rewrite Y in H2. discriminate.
  - intros (q & c & s & -> & Hc & Hs). rewrite rev_app_distr. cbn [rev app]. apply is_sep_iff in Hs. rewrite Hs.
    destruct (is_sep c) eqn:E; [apply is_sep_iff in E; contradiction|reflexivity].
Qed.

Lemma nt_chars : forall p c, legal p -> In c (nt_normpath p) -> In c (backslashed p) \/ c = 46%N \/ c = 92%N.
Proof.
  intros p c L H. destruct (nt_form p L) as (u & names & _ & _ & _ & E & _ & I). rewrite E in H. clear E.
  destruct (reads p L) as (rest & _ & J & _). assert (Dr : In c (r_drive (read p)) -> In c (backslashed p)) by (intros X; rewrite <- J; apply in_app_iff; now left).
  assert (Nm : forall n, In n (repeat DD u ++ names) -> In c n -> In c (backslashed p)).
  { intros n X Y. specialize (I n X). unfold read in I. assert (Fl : forall f, In f (fields p) -> In c f -> In c (backslashed p)) by (intros f Q Z; exact (split_chars _ _ _ _ Q Z)).
    assert (Sk : forall k, In n (skipn k (fields p)) -> In c (backslashed p)).
    { intros k Q. apply (Fl n); [|exact Y]. rewrite <- (firstn_skipn k). apply in_app_iff. now right. }
    destruct (fields p) as [|a fs] eqn:EF; [destruct I|]. destruct a as [|x a].
    - destruct fs as [|[|x b] [|h more]]; cbn [r_names] in I; try (exact (Fl n I Y)). exact (Sk _ I).
    - destruct a as [|d a]; [exact (Fl n I Y)|].
      assert (Z : In n (a :: fs) -> In c (backslashed p)).
      { intros [<-|Q]; [apply (Fl (x :: d :: a)); [now left|now right; right]|apply (Fl n); [now right|exact Y]]. }
      destruct d as [|d]; [exact (Fl n I Y)|]; repeat (destruct d as [d|d|]; try exact (Fl n I Y)). exact (Z I). }
  assert (G : In c (r_drive (read p) ++ (if r_root (read p) then [92%N] else []) ++ join [92%N] (repeat DD u ++ names)) -> In c (backslashed p) \/ c = 46%N \/ c = 92%N).
  { intros X. apply in_app_iff in X. destruct X as [X|X]; [auto|]. apply in_app_iff in X. destruct X as [X|X].
    - destruct (r_root (read p)); [destruct X as [<-|[]]; auto|destruct X].
    - apply join_chars in X. destruct X as [->|(w & Iw & Ic)]; [auto|]. left. exact (Nm w Iw Ic). }
  unfold wrender in H. destruct (r_drive (read p)); [|exact (G H)]. destruct (r_root (read p)); [exact (G H)|].
  destruct (repeat DD u ++ names); [|exact (G H)]. destruct H as [<-|[]]; auto.
Qed.

Lemma nt_no_slash : forall p, legal p -> ~ In 47%N (nt_normpath p).
Proof. intros p L I. destruct (nt_chars p 47%N L I) as [X|[X|X]]; [exact (bs_no_slash p X)|discriminate|discriminate]. Qed.
Lemma nt_no_newline : forall p, legal p -> ~ In 10%N p -> ~ In 10%N (nt_normpath p).
Proof.
  intros p L N I. destruct (nt_chars p 10%N L I) as [X|[X|X]]; try discriminate. apply in_map_iff in X. destruct X as (c & E & X). destruct (N.eqb_spec c 47); [discriminate|congruence].
Qed.

Lemma nt_not_nil : forall p, legal p -> nt_normpath p <> [].
Proof.
  intros p L E. destruct (nt_form p L) as (u & names & A & _ & _ & E' & _). rewrite E in E'. unfold wrender in E'. destruct (r_drive (read p)); [|discriminate].
  destruct (r_root (read p)); [discriminate|]. destruct (repeat DD u ++ names) as [|x l] eqn:EL; [discriminate|]. assert (P := parts_form u names A). rewrite EL in P. inversion P as [|? ? Px _]; subst.
  destruct (part_first x Px) as (c & s & -> & _). destruct l; discriminate.
Qed.

(** A backslash after *)
Lemma keep_read : forall n, ~ In 47%N n -> n <> [] -> ~ ends_backslash n -> r_names (read n) <> [] -> (forall c, n <> [c; 58%N]) ->
  read (n ++ [92%N]) = Reading (r_drive (read n)) (r_root (read n)) (r_names (read n) ++ [[]]).
Proof.
  intros n S Nn Nb Ns Nc. assert (EF : fields (n ++ [92%N]) = fields n ++ [[]]).
  { unfold fields. rewrite bs_app. change (backslashed [92%N]) with [92%N]. rewrite split_on_cat. reflexivity. }
  assert (JF : join [92%N] (fields n) = n) by (unfold fields; rewrite join_split; apply bs_id, S).
  unfold read in *. rewrite EF in *. destruct (fields n) as [|a fs] eqn:F; [exfalso; apply Nn; exact (eq_sym JF)|]. destruct a as [|c a].
  - destruct fs as [|[|x b] [|h more]]; try (cbn [join app] in JF; exfalso; apply Nn; exact (eq_sym JF)); try reflexivity.
    + destruct Nb. exists []. exact (eq_sym JF).
    + cbn [app]. set (k := share_fields h more) in *. cbn [r_names] in Ns. assert (Lk : k < length ([] :: [] :: h :: more)).
      { apply Nat.nle_gt. intros X. apply Ns. apply skipn_all2. exact X. }
      assert (Ek : share_fields h (more ++ [[]]) = k).
      { unfold k in *. destruct more as [|u [|v more]]; [cbn in Lk; lia|cbn in Lk; lia|reflexivity]. }
      rewrite Ek. change ([] :: [] :: h :: more ++ [[]]) with (([] :: [] :: h :: more) ++ [[]]).
      rewrite firstn_app, skipn_app. replace (k - length ([] :: [] :: h :: more)) with 0 by lia. cbn [firstn skipn]. rewrite app_nil_r. cbn [r_drive r_root r_names].
      f_equal. rewrite app_length. transitivity true; [|symmetry]; apply Nat.ltb_lt; lia.
  - cbn [app]. destruct a as [|d a]; [reflexivity|].
    assert (Z : Reading [c; 58%N] (rooted (a :: fs ++ [[]])) (a :: fs ++ [[]]) = Reading [c; 58%N] (rooted (a :: fs)) ((a :: fs) ++ [[]]) \/ (a = [] /\ fs = [])).
    { destruct a as [|x a]; [|left; reflexivity]. destruct fs as [|f fs]; [right; auto|left; reflexivity]. }
    destruct (N.eqb_spec d 58) as [->|H]; [|not_colon d H].
    destruct Z as [Z|(-> & ->)]; [exact Z|]. destruct (Nc c). exact (eq_sym JF).
Qed.

(** What is added to: never a bare share *)
Lemma win_cases : forall p, legal p -> ~ In 10%N p ->
  win_normpath p = nt_normpath p \/
  win_normpath p = nt_normpath p ++ [92%N] /\ ~ ends_backslash (nt_normpath p) /\ r_names (read (nt_normpath p)) <> [] /\ is_dir p = true.
Proof.
  intros p L N. unfold win_normpath. change (lit "\") with [92%N]. destruct (is_dir p) eqn:D; [|auto]. destruct (ends_with [92%N] (nt_normpath p)) eqn:E; [auto|].
  assert (Nb : ~ ends_backslash (nt_normpath p)) by (intros X; apply split_end in X; change (lit "\") with [92%N] in X; congruence).
  right. cbn [andb negb]. split; [reflexivity|]. split; [exact Nb|]. split; [|reflexivity]. intros X. apply Nb.
  destruct (reads p L) as (rest & _ & J & _ & _ & K & _ & _ & Emp).
  assert (En : r_names (read p) = []).
  { destruct (nt_form p L) as (u & names & A & B & U & E' & W & I).
    assert (B' : Forall (fun n => ~ In 92%N n) (repeat DD u ++ names)).
    { apply Forall_app. split; [|exact B]. apply Forall_forall. intros n Y. apply repeat_spec in Y. subst. intros [Y|[Y|[]]]; discriminate. }
    destruct (nt_reads p L) as ((SD & SR) & _ & L'). destruct (reads _ L') as (rest' & _ & J' & _ & _ & _ & _ & _ & Emp'). destruct (Emp' X) as (-> & Er). rewrite app_nil_r in J'.
    rewrite SR in Er. rewrite SD, (bs_id _ (nt_no_slash p L)), E', Er in J'.
    clear SD SR. destruct (read p) as [d r ns] eqn:ER. cbn [r_drive r_root r_names] in *. subst r. inversion K as [r' ns'|c r' ns' Nc|d'|]; subst; auto.
    - exfalso. apply (nt_not_nil p L). rewrite E', <- J'. reflexivity.
    - exfalso. rewrite E' in X. unfold wrender in J', X. destruct (repeat DD u ++ names) as [|x l]; [|].
      + cbn [join app] in X. rewrite read_letter in X; [discriminate|intros ->; apply (bs_no_slash p); rewrite <- J; now left|intros []|exact Nc].
      + assert (Y : forall t, [c; 58%N] = [c; 58%N] ++ t -> t = []) by (intros t Q; injection Q as Q; congruence). apply Y in J'. cbn [app] in J'.
        cbn [app] in X. rewrite J' in X. rewrite read_letter in X; [discriminate|intros ->; apply (bs_no_slash p); rewrite <- J; now left|intros []|exact Nc]. }
  destruct (Emp En) as (-> & Er). rewrite app_nil_r in J. apply is_dir_win in D; [|exact N]. destruct D as (q & c & s & -> & Hc & Hs).
  assert (EN : nt_normpath (q ++ [c; s]) = backslashed (q ++ [c; s])).
  { rewrite nt_is by exact L. rewrite En, Er, J. unfold wrender. cbn [norm_comps rev join]. destruct (backslashed (q ++ [c; s])) eqn:Q; [|rewrite ?app_nil_r; reflexivity].
    exfalso. apply (f_equal (@length _)) in Q. unfold backslashed in Q. rewrite map_length, app_length in Q. cbn in Q. lia. }
  rewrite EN, bs_app. exists (backslashed (q ++ [c])). rewrite bs_app, <- app_assoc. f_equal. cbn. destruct Hs as [-> | ->]; reflexivity.
Qed.
