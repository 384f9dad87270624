(** * Property C135: the sheets of a workbook in use can be fetched again *)
From Coq Require Import String Lia.
From Verif Require Import PyBase PyBase_Proofs Coords_Model Capture_Model Sheets_Model Sheets_Spec Sheets_Proofs ReadRect_Model ReadRect_Spec ReadRect_Props Unload_Model.

Definition sample_set : list key -> list key := nodup key_eq_dec.
Lemma sample_set_distinct : distinct_members sample_set.
Proof. intros l. split; [apply NoDup_nodup | intros k; apply nodup_In]. Qed.

Section Unload.
  Variable set_list : list key -> list key.
  Variable names : list pystr.
  Variable path url : pystr.
  Hypothesis Hset : distinct_members set_list.
  Hypothesis Hnames : NoDup names.
  Hypothesis Hurl : url <> [].

  Notation resolves := (open_by_name_or_index names).
  Notation next_fetch := (next_fetch set_list names url).
  Notation next_fetches := (next_fetches set_list names url).
  Notation first_fetch := (first_fetch set_list names path url).

  Lemma resolves_name : forall i n, nth_error names i = Some n -> resolves (SStr n) = Ok i.
  Proof.
    intros i n H. apply C69_name; [eapply nth_error_In; exact H|]. split; [exact H|]. intros j Hj E.
    assert (j = i) as F; [|lia]. apply (proj1 (NoDup_nth_error names) Hnames); [apply nth_error_Some; congruence | congruence].
  Qed.
  Lemma named : forall i, (i < length names)%nat -> nth_error names i = Some (nth i names []).
  Proof. intros i H. now apply nth_error_nth'. Qed.
  Lemma resolves_int : forall i, (i < length names)%nat -> resolves (SInt (Z.of_nat i)) = Ok i.
  Proof. intros i H. apply C69_index. unfold position. lia. Qed.
  Lemma by_index_range : forall z i, sheet_by_index names z = Ok i -> (i < length names)%nat.
  Proof. intros z i H. apply sheet_by_index_spec in H. unfold position in H. lia. Qed.
  Lemma found : forall n i, find_name n names 0 = Some i -> nth_error names i = Some n.
  Proof. intros n i H. apply find_name_spec in H. destruct H as (j & -> & (F & _)). exact F. Qed.
  Lemma resolves_range : forall sh i, resolves sh = Ok i -> (i < length names)%nat.
  Proof.
    intros [|z|n] i H; cbn [open_by_name_or_index] in H; try exact (by_index_range _ _ H). unfold sheet_by_name in H. destruct (find_name n names 0) as [j|] eqn:E.
    - injection H as <-. apply found in E. apply nth_error_Some. congruence.
    - destruct (py_int n); [exact (by_index_range _ _ H) | discriminate H].
  Qed.

  (** What holds of the factory and the sheets made *)
  Record good (w : obook) : Prop := {
    g_proper : proper_dicts (ob_factory w);
    g_cached : forall wb sh s, cache_get (ob_factory w) (wb, sh) = Some s -> exists i, nth_error (ob_made w) s = Some i /\ resolves sh = Ok i;
    g_range : forall s i, nth_error (ob_made w) s = Some i -> (i < length names)%nat;
    g_kept : forall s i sh, nth_error (ob_made w) s = Some i -> sh = SStr (nth i names []) \/ sh = SInt (Z.of_nat i) ->
      exists s', cache_get (ob_factory w) (url, sh) = Some s'
  }.

  Lemma own_resolves : forall i sh, (i < length names)%nat -> sh = SStr (nth i names []) \/ sh = SInt (Z.of_nat i) -> resolves sh = Ok i.
  Proof. intros i sh H [-> | ->]; [apply resolves_name, named; exact H | apply resolves_int; exact H]. Qed.

  Lemma unloaded_made : forall w i, good w -> unloaded names w i = true ->
    exists s, In (Closed s) (events (ob_factory w)) /\ nth_error (ob_made w) s = Some i.
  Proof.
    intros w i G H. apply existsb_exists in H. destruct H as ([a|s|s] & Hin & H); cbn [unloads] in H; try discriminate H.
    destruct (nth_error (ob_made w) s) as [j|] eqn:E; [|discriminate H].
    destruct (find_name (nth j names []) names 0) as [j'|] eqn:F; [|discriminate H]. apply Nat.eqb_eq in H. subst j'.
    exists s. split; [exact Hin|]. rewrite E. f_equal. apply found in F. pose proof (g_range _ G _ _ E) as R.
    apply (proj1 (NoDup_nth_error names) Hnames); [exact R|]. rewrite F. apply named. exact R.
  Qed.
  Lemma unloaded_kept : forall w i sh, good w -> unloaded names w i = true -> sh = SStr (nth i names []) \/ sh = SInt (Z.of_nat i) ->
    exists s, cache_get (ob_factory w) (url, sh) = Some s.
  Proof. intros w i sh G H Hsh. destruct (unloaded_made w i G H) as (s & _ & E). exact (g_kept _ G _ _ _ E Hsh). Qed.

  (** What is opened when the id is not cached *)
  Lemma open_loaded_eq : forall w sh, good w -> cache_get (ob_factory w) (url, sh) = None ->
    open_loaded names w sh = match resolves sh with Ok i => if unloaded names w i then Raise (OtherError 2) else Ok i | Raise e => Raise e end.
  Proof.
    intros w [|z|n] G N; try reflexivity. cbn [open_loaded open_by_name_or_index]. unfold loaded_by_name, sheet_by_name.
    destruct (find_name n names 0) as [j|] eqn:E; cbn [rbind].
    - unfold loaded_by_index. pose proof (found _ _ E) as F.
      assert (R : (j < length names)%nat) by (apply nth_error_Some; congruence).
      change (sheet_by_index names (Z.of_nat j)) with (resolves (SInt (Z.of_nat j))). rewrite (resolves_int j R). cbn [rbind].
      destruct (unloaded names w j) eqn:U; [exfalso|reflexivity].
      destruct (unloaded_kept w j (SStr n) G U) as (s & K); [|congruence]. left. f_equal. rewrite (named j R) in F. congruence.
    - destruct (py_int n); reflexivity.
  Qed.

  Lemma id_resolves : forall made i wb sh k, (i < length names)%nat -> resolves sh = Ok i ->
    id_of (made_ids names url (made ++ [i])) (length made) (One (Some wb)) (One sh) k -> resolves (snd k) = Ok i.
  Proof.
    intros made i wb sh k R S (u & shs & E & _ & _ & H). unfold made_ids in E. rewrite nth_error_app2, Nat.sub_diag in E by lia.
    injection E as <- <-. destruct H as [[H|[H|[]]]|H]; cbn [among] in H; [| |now rewrite H]; apply own_resolves; [exact R|left|exact R|right]; now symmetry.
  Qed.

  Lemma good_add : forall w wb sh i f', good w -> resolves sh = Ok i ->
    add_sheet set_list (made_ids names url (ob_made w ++ [i])) (length (ob_made w)) (One (Some wb)) (One sh) (opened (ob_factory w)) = (f', Ok tt) ->
    good (OBook f' (ob_made w ++ [i])).
  Proof.
    intros w wb sh i f' G S A. pose proof (resolves_range _ _ S) as R.
    assert (Hp : proper_dicts (opened (ob_factory w))) by exact (g_proper _ G).
    assert (L : nth_error (ob_made w ++ [i]) (length (ob_made w)) = Some i) by (rewrite nth_error_app2, Nat.sub_diag by lia; reflexivity).
    pose proof (add_sheet_get set_list _ Hset _ _ _ _ _ Hp A) as Get.
    constructor; cbn [ob_factory ob_made].
    - change f' with (fst (f', @Ok unit tt)). rewrite <- A. apply add_sheet_proper. exact Hp.
    - intros wb' sh' s E. apply Get in E. destruct E as [(I & ->)|(_ & E & _)].
      + exists i. split; [exact L|]. exact (id_resolves _ _ _ _ _ R S I).
      + destruct (g_cached _ G _ _ _ E) as (j & N & F). exists j. split; [|exact F]. rewrite nth_error_app1; [exact N|]. apply nth_error_Some. congruence.
    - intros s j E. destruct (Nat.lt_ge_cases s (length (ob_made w))) as [F|F].
      + rewrite nth_error_app1 in E by exact F. exact (g_range _ G _ _ E).
      + rewrite nth_error_app2 in E by exact F. destruct (s - length (ob_made w))%nat as [|[|]]; cbn in E; [|discriminate E|discriminate E]. congruence.
    - intros s j sh' E Hsh. destruct (Nat.eq_dec j i) as [->|Hj].
      + exists (length (ob_made w)). apply Get. left. split; [|reflexivity]. exists url. eexists. unfold made_ids. rewrite L.
        split; [reflexivity|]. cbn [fst snd]. split; [auto|]. split; [exact Hurl|]. left. destruct Hsh as [-> | ->]; cbn; auto.
      + assert (E' : nth_error (ob_made w) s = Some j).
        { destruct (Nat.lt_ge_cases s (length (ob_made w))) as [F|F]; [now rewrite nth_error_app1 in E|].
          rewrite nth_error_app2 in E by exact F. destruct (s - length (ob_made w))%nat as [|[|]]; cbn in E; congruence. }
        pose proof (own_resolves j sh' (g_range _ G _ _ E') Hsh) as Rj.
        destruct (g_kept _ G _ _ _ E' Hsh) as (s' & K). exists s'. apply Get. right. split.
        * intros I. apply (id_resolves _ _ _ _ _ R S) in I. cbn [snd] in I. congruence.
        * split; [exact K|]. intros _ [u' k'] I F. apply (id_resolves _ _ _ _ _ R S) in I. cbn [snd] in I.
          destruct (g_cached _ G _ _ _ F) as (a & A1 & A2). destruct (g_cached _ G _ _ _ K) as (b & B1 & B2). congruence.
  Qed.

  Lemma opened_good : forall w, good w -> good (OBook (opened (ob_factory w)) (ob_made w)).
  Proof. intros w G. constructor; apply G. Qed.

  (** Opening a sheet, and adding it *)
  Lemma add_made : forall w wb sh i, good w -> resolves sh = Ok i -> exists f',
    open_and_add set_list (made_ids names url (ob_made w ++ [i])) (Ok (length (ob_made w))) wb sh (ob_factory w) = (f', Ok (length (ob_made w)))
    /\ Nat.eqb (opens f') (opens (ob_factory w)) = false /\ good (OBook f' (ob_made w ++ [i])).
  Proof.
    intros w wb sh i G S. assert (Hp : proper_dicts (ob_factory w)) by exact (g_proper _ G).
    destruct (add_sheet_iff set_list (made_ids names url (ob_made w ++ [i])) Hset (length (ob_made w)) (One (Some wb)) (One sh) (opened (ob_factory w))) as (f' & A).
    { exists (url, sh). exists url. eexists. unfold made_ids. rewrite nth_error_app2, Nat.sub_diag by lia. split; [reflexivity|].
      cbn [fst snd among]. auto. }
    exists f'. assert (O : open_and_add set_list (made_ids names url (ob_made w ++ [i])) (Ok (length (ob_made w))) wb sh (ob_factory w) = (f', Ok (length (ob_made w)))).
    { unfold open_and_add. rewrite A. reflexivity. }
    split; [exact O|]. destruct (open_and_add_ok set_list _ _ _ _ _ _ _ Hp O) as (_ & _ & Op & _).
    split; [apply Nat.eqb_neq; lia | exact (good_add w wb sh i f' G S A)].
  Qed.

  Lemma good_new : good (OBook new_factory []).
  Proof.
    constructor; cbn [ob_factory ob_made]; [split; [constructor|intros wb d []]| | |]; try discriminate; intros [|s] i; discriminate.
  Qed.

  Lemma base_ids : forall w b i, nth_error (ob_made w) b = Some i -> forall more, fst (made_ids names url (ob_made w ++ more) b) = Some url.
  Proof. intros w b i H more. unfold made_ids. rewrite nth_error_app1 by (apply nth_error_Some; congruence). rewrite H. reflexivity. Qed.

  (** What a fetch does *)
  Lemma next_spec : forall w b sh, good w -> (b < length (ob_made w))%nat -> sh <> SNone ->
    good (fst (next_fetch w (b, sh))) /\
    match cache_get (ob_factory w) (url, sh) with
    | Some s => next_fetch w (b, sh) = (w, Ok s)
    | None =>
        match resolves sh with
        | Ok i =>
            if unloaded names w i then snd (next_fetch w (b, sh)) = Raise (OtherError 2)
            else exists f', next_fetch w (b, sh) = (OBook f' (ob_made w ++ [i]), Ok (length (ob_made w)))
        | Raise e => snd (next_fetch w (b, sh)) = Raise e
        end
    end.
  Proof.
    intros w b sh G Hb Hsh. destruct (nth_error (ob_made w) b) as [ib|] eqn:Eb; [|apply nth_error_None in Eb; lia].
    unfold Unload_Model.next_fetch, fetch_made. cbn [fst snd]. unfold fetch_sheet.
    assert (Base : forall x, fst (made_ids names url (match x with Ok i => ob_made w ++ [i] | Raise _ => ob_made w end) b) = Some url).
    { intros [i|e]; [exact (base_ids w b ib Eb [i])|]. rewrite <- (app_nil_r (ob_made w)). exact (base_ids w b ib Eb []). }
    destruct (cache_get (ob_factory w) (url, sh)) as [s|] eqn:C.
    - assert (K : (let (f', got) := match sh with SNone => (ob_factory w, Ok b) | _ => (ob_factory w, Ok s) end in
                   (OBook f' (if Nat.eqb (opens f') (opens (ob_factory w)) then ob_made w
                              else match open_loaded names w sh with Ok i => ob_made w ++ [i] | Raise _ => ob_made w end), got)) = (w, Ok s)).
      { destruct sh; [congruence| |]; rewrite Nat.eqb_refl; destruct w; reflexivity. }
      destruct sh as [|z|n]; [congruence| |]; rewrite Base, C, K; (split; [exact G | reflexivity]).
    - pose proof (open_loaded_eq w sh G C) as O.
      destruct (resolves sh) as [i|e] eqn:S.
      + destruct (unloaded names w i) eqn:U.
        * destruct sh as [|z|n]; [congruence| |]; rewrite O; rewrite (Base (Raise (OtherError 2))); rewrite C;
            cbn [rbind open_and_add fst snd]; (split; [|reflexivity]);
            match goal with |- context[Nat.eqb ?a ?b] => destruct (Nat.eqb a b) end; exact (opened_good w G).
        * destruct (add_made w url sh i G S) as (f' & A & Op & G').
          destruct sh as [|z|n]; [congruence| |]; rewrite O; rewrite (Base (Ok i)); rewrite C; cbn [rbind]; rewrite A, Op; (split; [exact G' | eauto]).
      + destruct sh as [|z|n]; [congruence| |]; rewrite O; rewrite (Base (Raise e)); rewrite C;
          cbn [rbind open_and_add fst snd]; (split; [|reflexivity]);
            match goal with |- context[Nat.eqb ?a ?b] => destruct (Nat.eqb a b) end; exact (opened_good w G).
  Qed.

  Lemma none_spec : forall w b, next_fetch w (b, SNone) = (w, Ok b).
  Proof. intros w b. unfold Unload_Model.next_fetch, fetch_made. cbn [fst snd fetch_sheet]. rewrite Nat.eqb_refl. destruct w; reflexivity. Qed.

  (** The bases are sheets that were made. *)
  Fixpoint proper_bases (w : obook) (l : list (nat * sid)) : Prop :=
    match l with
    | [] => True
    | q :: l' => (fst q < length (ob_made w))%nat /\ proper_bases (fst (next_fetch w q)) l'
    end.

  Lemma first_good : forall sh w s, first_fetch sh = (w, Ok s) -> good w /\ exists i, nth_error (ob_made w) s = Some i /\ resolves sh = Ok i.
  Proof.
    intros sh w s H. unfold Unload_Model.first_fetch, fetch_made in H. cbn [ob_factory ob_made fetch_sheet] in H.
    pose proof (open_loaded_eq (OBook new_factory []) sh good_new eq_refl) as O. rewrite O in H. cbn [unloaded ob_factory events existsb new_factory] in H.
    change (cache_get new_factory (path, sh)) with (@None nat) in H. cbv iota in H.
    destruct (resolves sh) as [i|e] eqn:S.
    - change (if unloaded names (OBook new_factory []) i then Raise (OtherError 2) else Ok i) with (@Ok nat i) in H.
      cbn [rbind app length] in H. destruct (add_made (OBook new_factory []) path sh i good_new S) as (f' & A & Op & G').
      cbn [ob_factory ob_made app length] in A, Op, G'. rewrite A, Op in H. injection H as <- <-. split; [exact G'|]. exists i. auto.
    - cbn [rbind open_and_add] in H. discriminate H.
  Qed.

  Lemma fetches_good : forall l w, good w -> proper_bases w l -> good (next_fetches w l).
  Proof.
    induction l as [|[b sh] l IH]; intros w G P; [exact G|]. destruct P as (Hb & P). cbn [fst] in Hb. cbn [Unload_Model.next_fetches]. apply IH; [|exact P].
    destruct sh; [rewrite none_spec; exact G| |]; apply next_spec; auto; discriminate.
  Qed.

  (** ** C135 *)
  (** A sheet asked by its name, or by its position counted from the start, is found at any time. *)
  Theorem C135_names_found : forall sh0 w0 s0 l b i n sh, first_fetch sh0 = (w0, Ok s0) -> proper_bases w0 l ->
    let w := next_fetches w0 l in (b < length (ob_made w))%nat ->
    nth_error names i = Some n -> sh = SStr n \/ sh = SInt (Z.of_nat i) ->
    exists w' s, next_fetch w (b, sh) = (w', Ok s) /\ nth_error (ob_made w') s = Some i.
  Proof.
    intros sh0 w0 s0 l b i n sh F P w Hb Hn Hsh. destruct (first_good _ _ _ F) as (G0 & _).
    assert (G : good w) by exact (fetches_good l w0 G0 P).
    assert (R : (i < length names)%nat) by (apply nth_error_Some; congruence).
    assert (Hsh' : sh = SStr (nth i names []) \/ sh = SInt (Z.of_nat i)).
    { rewrite (named i R) in Hn. injection Hn as ->. exact Hsh. }
    pose proof (own_resolves i sh R Hsh') as S.
    assert (Hno : sh <> SNone) by (destruct Hsh as [-> | ->]; discriminate).
    destruct (next_spec w b sh G Hb Hno) as (_ & H). destruct (cache_get (ob_factory w) (url, sh)) as [s|] eqn:C.
    - exists w, s. split; [exact H|]. destruct (g_cached _ G _ _ _ C) as (j & E & S'). congruence.
    - rewrite S in H. destruct (unloaded names w i) eqn:U.
      + destruct (unloaded_kept w i sh G U Hsh') as (s & K). congruence.
      + destruct H as (f' & H). exists (OBook f' (ob_made w ++ [i])), (length (ob_made w)). split; [exact H|]. cbn [ob_made].
        rewrite nth_error_app2, Nat.sub_diag by lia. reflexivity.
  Qed.

  (** However it is spelled, what is found is the sheet meant. *)
  Theorem C135_right_sheet : forall sh0 w0 s0 l b sh w' s, first_fetch sh0 = (w0, Ok s0) -> proper_bases w0 l ->
    let w := next_fetches w0 l in (b < length (ob_made w))%nat -> sh <> SNone ->
    next_fetch w (b, sh) = (w', Ok s) -> exists i, nth_error (ob_made w') s = Some i /\ open_by_name_or_index names sh = Ok i.
  Proof.
    intros sh0 w0 s0 l b sh w' s F P w Hb Hno N. destruct (first_good _ _ _ F) as (G0 & _).
    assert (G : good w) by exact (fetches_good l w0 G0 P).
    destruct (next_spec w b sh G Hb Hno) as (_ & H). destruct (cache_get (ob_factory w) (url, sh)) as [s'|] eqn:C.
    - rewrite H in N. injection N as <- <-. exact (g_cached _ G _ _ _ C).
    - rewrite N in H. destruct (resolves sh) as [i|e] eqn:S; [|discriminate H]. destruct (unloaded names w i); [discriminate H|].
      destruct H as (f' & H). injection H as -> ->. exists i. cbn [ob_made]. rewrite nth_error_app2, Nat.sub_diag by lia. auto.
  Qed.

  (** A fetch fails only if there is no such sheet, or if it was closed. *)
  Theorem C135_fails_only_if_closed : forall sh0 w0 s0 l b sh w' e, first_fetch sh0 = (w0, Ok s0) -> proper_bases w0 l ->
    let w := next_fetches w0 l in (b < length (ob_made w))%nat ->
    next_fetch w (b, sh) = (w', Raise e) ->
    open_by_name_or_index names sh = Raise e \/
    exists s i, open_by_name_or_index names sh = Ok i /\ nth_error (ob_made w) s = Some i /\ In (Closed s) (events (ob_factory w)).
  Proof.
    intros sh0 w0 s0 l b sh w' e F P w Hb N. destruct (first_good _ _ _ F) as (G0 & _).
    assert (G : good w) by exact (fetches_good l w0 G0 P).
    assert (Hno : sh <> SNone) by (intros ->; rewrite none_spec in N; discriminate N).
    destruct (next_spec w b sh G Hb Hno) as (_ & H). destruct (cache_get (ob_factory w) (url, sh)) as [s'|] eqn:C.
    - rewrite H in N. discriminate N.
    - rewrite N in H. destruct (resolves sh) as [i|e'] eqn:S; [|left; cbn [snd] in H; congruence]. destruct (unloaded names w i) eqn:U.
      + right. destruct (unloaded_made w i G U) as (s & A & B). exists s, i. auto.
      + destruct H as (f' & H). discriminate H.
  Qed.

  (** It fails for a sheet that there is exactly if that sheet was closed and its id is new. *)
  Lemma made_unloaded : forall w s i, good w -> In (Closed s) (events (ob_factory w)) -> nth_error (ob_made w) s = Some i -> unloaded names w i = true.
  Proof.
    intros w s i G H E. apply existsb_exists. exists (Closed s). split; [exact H|]. cbn [unloads]. rewrite E.
    pose proof (named i (g_range _ G _ _ E)) as Hn. replace (find_name (nth i names []) names 0) with (Some i); [apply Nat.eqb_refl|].
    symmetry. apply find_name_spec. exists i. split; [reflexivity|]. split; [exact Hn|]. intros j Hj F.
    assert (j = i) as X; [|lia]. apply (proj1 (NoDup_nth_error names) Hnames); [apply nth_error_Some; congruence | congruence].
  Qed.
  Theorem C135_fails_exactly : forall sh0 w0 s0 l b sh i, first_fetch sh0 = (w0, Ok s0) -> proper_bases w0 l ->
    let w := next_fetches w0 l in (b < length (ob_made w))%nat -> sh <> SNone -> open_by_name_or_index names sh = Ok i ->
    ((exists w' e, next_fetch w (b, sh) = (w', Raise e)) <->
     (forall s, ~ cached_at (ob_factory w) (url, sh) s) /\ exists s, nth_error (ob_made w) s = Some i /\ In (Closed s) (events (ob_factory w))).
  Proof.
    intros sh0 w0 s0 l b sh i F P w Hb Hno S. destruct (first_good _ _ _ F) as (G0 & _).
    assert (G : good w) by exact (fetches_good l w0 G0 P). pose proof (cached_get (ob_factory w) (url, sh)) as Cg.
    destruct (next_spec w b sh G Hb Hno) as (_ & H). rewrite S in H. destruct (cache_get (ob_factory w) (url, sh)) as [s'|] eqn:C.
    - rewrite H. split; [intros (w' & e & X); discriminate X|]. intros (X & _). destruct (X s'). apply Cg; [exact (g_proper _ G) | reflexivity].
    - destruct (unloaded names w i) eqn:U.
      + split; [intros _|].
        * split; [intros s X; apply Cg in X; [discriminate X | exact (g_proper _ G)]|]. destruct (unloaded_made w i G U) as (s & A & B). exists s. auto.
        * intros _. destruct (next_fetch w (b, sh)) as [w' r]. cbn [snd] in H. subst r. eauto.
      + destruct H as (f' & H). rewrite H. split; [intros (w' & e & X); discriminate X|]. intros (_ & s & A & B). rewrite (made_unloaded w s i G B A) in U. discriminate U.
  Qed.

  (** After the factory was closed, all sheets are found, if none was closed before on its own. *)
  Theorem C135_after_close : forall w b sh i, (b < length (ob_made w))%nat -> (forall s, ~ In (Closed s) (events (ob_factory w))) ->
    sh <> SNone -> open_by_name_or_index names sh = Ok i ->
    exists w' s, next_fetch (close_book w) (b, sh) = (w', Ok s) /\ nth_error (ob_made w') s = Some i.
  Proof.
    intros w b sh i Hb Hno Hsh S. destruct (nth_error (ob_made w) b) as [ib|] eqn:Eb; [|apply nth_error_None in Eb; lia].
    assert (U : forall j, unloaded names (close_book w) j = false).
    { intros j. apply Bool.not_true_is_false. intros H. apply existsb_exists in H. destruct H as (e & Hin & H).
      cbn [close_book ob_factory close events] in Hin. apply in_app_iff in Hin.
      destruct e as [a|a|a]; try discriminate H. destruct Hin as [Hin|Hin]; [exact (Hno _ Hin)|].
      apply in_flat_map in Hin. destruct Hin as (wd & _ & Hin). apply in_map_iff in Hin. destruct Hin as (x & E & _). discriminate E. }
    assert (I : forall z, loaded_by_index names (close_book w) z = sheet_by_index names z).
    { intros z. unfold loaded_by_index. destruct (sheet_by_index names z) as [j|e]; [|reflexivity]. cbn [rbind]. rewrite U. reflexivity. }
    assert (O : open_loaded names (close_book w) sh = Ok i).
    { destruct sh as [|z|n]; [congruence| |].
      - cbn [open_loaded]. rewrite I. exact S.
      - cbn [open_loaded open_by_name_or_index] in *. unfold loaded_by_name, sheet_by_name in *. destruct (find_name n names 0) as [j|] eqn:F; cbn [rbind].
        + rewrite I. pose proof (resolves_int j) as R. cbn [open_by_name_or_index] in R. rewrite R; [exact S|]. apply nth_error_Some. rewrite (found _ _ F). discriminate.
        + destruct (py_int n); [rewrite I; exact S | discriminate S]. }
    unfold Unload_Model.next_fetch, fetch_made. cbn [fst snd]. rewrite O. cbn [rbind]. unfold fetch_sheet.
    destruct (add_sheet_iff set_list (made_ids names url (ob_made w ++ [i])) Hset (length (ob_made w)) (One (Some url)) (One sh) (opened (close (ob_factory w)))) as (f' & A).
    { exists (url, sh). exists url. eexists. unfold made_ids. rewrite nth_error_app2, Nat.sub_diag by lia. split; [reflexivity|].
      cbn [fst snd among]. auto. }
    assert (OA : open_and_add set_list (made_ids names url (ob_made w ++ [i])) (Ok (length (ob_made w))) url sh (close (ob_factory w)) = (f', Ok (length (ob_made w)))).
    { unfold open_and_add. rewrite A. reflexivity. }
    assert (Hp : proper_dicts (close (ob_factory w))) by (split; [constructor | intros wb d []]).
    destruct (open_and_add_ok set_list _ _ _ _ _ _ _ Hp OA) as (_ & _ & Op & _).
    exists (OBook f' (ob_made w ++ [i])), (length (ob_made w)). split; [|cbn [ob_made]; rewrite nth_error_app2, Nat.sub_diag by lia; reflexivity].
    assert (Q : Nat.eqb (opens f') (opens (close (ob_factory w))) = false) by (apply Nat.eqb_neq; lia).
    cbn [close_book ob_factory ob_made]. destruct sh as [|z|n]; [congruence| |]; rewrite (base_ids w b ib Eb [i]);
      (change (cache_get (close (ob_factory w)) (url, SInt z)) with (@None nat) || change (cache_get (close (ob_factory w)) (url, SStr n)) with (@None nat));
      cbv iota; rewrite OA, Q; reflexivity.
  Qed.
End Unload.
Print Assumptions C135_after_close.
Print Assumptions C135_fails_exactly.
Print Assumptions C135_names_found.
Print Assumptions C135_right_sheet.
Print Assumptions C135_fails_only_if_closed.

Definition sample_names : list pystr := [lit "S1"; lit "S2"].
Notation sample_first := (first_fetch sample_set sample_names (lit "wb.xls") (lit "file:///wb.xls")).
Notation sample_next := (next_fetch sample_set sample_names (lit "file:///wb.xls")).
Notation sample_fetches := (next_fetches sample_set sample_names (lit "file:///wb.xls")).

(** The third spelling of a sheet does not find it. *)
Theorem C135_third_spelling_refuted : exists w0 l w', sample_first SNone = (w0, Ok 0%nat)
  /\ proper_bases sample_set sample_names (lit "file:///wb.xls") w0 l
  /\ open_by_name_or_index sample_names (SStr (lit "-1")) = Ok 1%nat
  /\ sample_next w0 (0%nat, SStr (lit "-1")) = (w', Ok 1%nat)
  /\ exists w'' e, sample_next (sample_fetches w0 l) (0%nat, SStr (lit "-1")) = (w'', Raise e).
Proof.
  eexists. exists [(0%nat, SStr (lit "S2")); (0%nat, SStr (lit "1"))]. eexists. split; [vm_compute; reflexivity|].
  split; [vm_compute; repeat split; repeat constructor|]. split; [vm_compute; reflexivity|]. split; [vm_compute; reflexivity|].
  do 2 eexists. vm_compute. reflexivity.
Qed.
Print Assumptions C135_third_spelling_refuted.

Example C135_example :
  let w0 := fst (sample_first SNone) in
  let w := sample_fetches w0 [(0%nat, SStr (lit "S2")); (0%nat, SStr (lit "1")); (0%nat, SStr (lit "0"))] in
  ob_made w = [0; 1; 1; 0]%nat
  /\ events (ob_factory w) = [Added 0; Added 1; Added 2; Closed 1; Added 3; Closed 0]
  /\ snd (sample_next w (0%nat, SStr (lit "S2"))) = Ok 2%nat /\ snd (sample_next w (2%nat, SStr (lit "S1"))) = Ok 3%nat
  /\ snd (sample_next w (3%nat, SStr (lit "-2"))) = Raise (OtherError 2)
  /\ snd (sample_next w (3%nat, SStr (lit "2"))) = Raise IndexError.
Proof. vm_compute. repeat split; reflexivity. Qed.

(** After the factory was closed, even the name of a sheet closed before does not find it. *)
Theorem C135_name_after_close_refuted : exists w0 l, sample_first SNone = (w0, Ok 0%nat)
  /\ proper_bases sample_set sample_names (lit "file:///wb.xls") w0 l
  /\ exists w' e, sample_next (close_book (sample_fetches w0 l)) (0%nat, SStr (lit "S2")) = (w', Raise e).
Proof.
  eexists. exists [(0%nat, SStr (lit "S2")); (0%nat, SStr (lit "1"))]. split; [vm_compute; reflexivity|].
  split; [vm_compute; repeat split; repeat constructor|]. do 2 eexists. vm_compute. reflexivity.
Qed.
Print Assumptions C135_name_after_close_refuted.

(** And a name that looks like a number finds another sheet instead. *)
Definition number_names : list pystr := [lit "1"; lit "2"].
Theorem C135_wrong_sheet_after_close_refuted : exists w0 l w' s,
  first_fetch sample_set number_names (lit "wb.xls") (lit "file:///wb.xls") SNone = (w0, Ok 0%nat)
  /\ proper_bases sample_set number_names (lit "file:///wb.xls") w0 l
  /\ open_by_name_or_index number_names (SStr (lit "1")) = Ok 0%nat
  /\ next_fetch sample_set number_names (lit "file:///wb.xls") (close_book (next_fetches sample_set number_names (lit "file:///wb.xls") w0 l)) (0%nat, SStr (lit "1")) = (w', Ok s)
  /\ nth_error (ob_made w') s = Some 1%nat.
Proof.
  eexists. exists [(0%nat, SStr (lit "0"))]. do 2 eexists. split; [vm_compute; reflexivity|].
  split; [vm_compute; repeat split; repeat constructor|]. split; [vm_compute; reflexivity|]. split; vm_compute; reflexivity.
Qed.
Print Assumptions C135_wrong_sheet_after_close_refuted.

Example C135_close_example :
  let w := sample_fetches (fst (sample_first SNone)) [(0%nat, SStr (lit "S2"))] in
  (forall s, ~ In (Closed s) (events (ob_factory w))) /\ events (ob_factory (close_book w)) <> events (ob_factory w)
  /\ snd (sample_next (close_book w) (1%nat, SStr (lit "-1"))) = Ok 2%nat.
Proof.
  split; [|split; [vm_compute; discriminate | vm_compute; reflexivity]].
  intros s H. vm_compute in H. repeat destruct H as [H|H]; try discriminate H; exact H.
Qed.
