(** * Factories of sheets: the properties *)
From Coq Require Import String.
From Verif Require Import PyBase PyBase_Proofs Sheets_Model Sheets_Spec Sheets_Proofs.

(** ** Samples: workbooks with a sheet "a" and a sheet "b"; sheets with an even number wrap the first *)
Definition sample_set : list key -> list key := nodup key_eq_dec.
Lemma sample_set_members : distinct_members sample_set.
Proof. intros l. split; [apply NoDup_nodup | intros k; apply nodup_In]. Qed.
Definition sample_ids (s : nat) : option pystr * list sid :=
  (Some (lit "wb.xlsx"), if Nat.even s then [SStr (lit "a"); SInt 0] else [SStr (lit "b"); SInt 1]).
Definition sample_open (t : nat) (sh : sid) : res nat :=
  if sid_eqb sh (SStr (lit "b")) || sid_eqb sh (SInt 1) then Ok (2 * t + 11)%nat
  else if sid_eqb sh (SStr (lit "c")) then Raise (OtherError 1) else Ok (2 * t + 10)%nat.
Definition sample_fetch := fetch_sheet sample_set sample_ids (fun p => p) (fun t _ => sample_open t) (fun t _ => sample_open t).
Definition sample_add := add_sheet sample_set sample_ids.
Definition sample_run := fold_left (run_op sample_set sample_ids (fun p => p) (fun t _ => sample_open t) (fun t _ => sample_open t)).

Section Factory.
  Variable set_list : list key -> list key.
  Variable sheet_ids : nat -> option pystr * list sid.
  Variable path2url : pystr -> pystr.
  Variable open_sheet : nat -> option pystr -> sid -> res nat.
  Variable open_sibling : nat -> nat -> sid -> res nat.
  Hypothesis Hset : distinct_members set_list.

  Local Notation add_sheet := (add_sheet set_list sheet_ids).
  Local Notation fetch_sheet := (fetch_sheet set_list sheet_ids path2url open_sheet open_sibling).
  Local Notation run := (fold_left (run_op set_list sheet_ids path2url open_sheet open_sibling)).
  Local Notation id_of := (id_of sheet_ids).

  (** ** C34: the cache never hands out a closed sheet *)
  Theorem C34_never_closed : forall ops s,
    in_cache (run ops new_factory) s -> ~ closed_now (events (run ops new_factory)) s.
  Proof.
    intros ops s (k & Hk).
    destruct (sound_history set_list sheet_ids path2url open_sheet open_sibling Hset ops) as (Hp & H).
    apply (H k). now apply cached_get.
  Qed.

  (** The dicts of the cache are proper throughout, as assumed below. *)
  Theorem C34_proper_dicts : forall ops, proper_dicts (run ops new_factory).
  Proof. intros ops. exact (proj1 (sound_history set_list sheet_ids path2url open_sheet open_sibling Hset ops)). Qed.

  (** What is fetched by naming a workbook or a sibling is in the cache afterwards, hence not closed. *)
  Theorem C34_fetched : forall ops wb sh base f' s, wb <> None \/ (base <> None /\ sh <> SNone) ->
    fetch_sheet wb sh base (run ops new_factory) = (f', Ok s) -> in_cache f' s /\ ~ closed_now (events f') s.
  Proof.
    intros ops wb sh base f' s Hw H.
    pose proof (sound_history set_list sheet_ids path2url open_sheet open_sibling Hset ops) as Hs.
    pose proof (sound_op set_list sheet_ids path2url open_sheet open_sibling Hset _ (Fetch wb sh base) Hs) as Hs'.
    cbn [run_op] in Hs'. rewrite H in Hs'. cbn [fst] in Hs'. destruct Hs as (Hp & _). set (f := run ops new_factory) in *.
    assert (exists w, meant sheet_ids wb base = Some w) as (w & Hm).
    { destruct wb as [w|]; [now exists w|]. destruct base as [b|]; [|destruct Hw as [F|(F & _)]; congruence]. cbn.
      destruct (fst (sheet_ids b)) eqn:E; [eauto|]. exfalso. unfold Sheets_Model.fetch_sheet in H. destruct sh; [|rewrite E in H; discriminate..].
      destruct Hw as [F|(_ & F)]; congruence. }
    assert (wb = None -> sh <> SNone) as Hn by (intros ->; destruct Hw as [F|(_ & F)]; [congruence | exact F]).
    assert (exists k, cache_get f' k = Some s) as (k & Hk).
    { destruct (cache_get f (w, sh)) as [x|] eqn:E.
      - rewrite (fetch_cached set_list sheet_ids path2url open_sheet open_sibling wb sh base f w x Hm Hn E) in H.
        injection H as <- <-. eauto.
      - rewrite (fetch_fresh set_list sheet_ids path2url open_sheet open_sibling wb sh base f w Hm Hn E) in H.
        exact (proj1 (open_and_add_cached set_list sheet_ids Hset _ _ _ _ _ _ Hp H)). }
    split; [exists k; now apply (cached_get f' k s (proj1 Hs')) | exact (proj2 Hs' k s Hk)].
  Qed.

  (** ** C35: adding a sheet makes it retrievable under all its ids *)
  Theorem C35_added : forall s wb_ids sh_ids f f', proper_dicts f -> add_sheet s wb_ids sh_ids f = (f', Ok tt) ->
    forall w h, id_of s wb_ids sh_ids (w, h) ->
    (forall base, fetch_sheet (Some w) h base f' = (f', Ok s))
    /\ (forall b, fst (sheet_ids b) = Some w -> h <> SNone -> fetch_sheet None h (Some b) f' = (f', Ok s)).
  Proof.
    intros s wb_ids sh_ids f f' Hp H w h Hk.
    assert (cache_get f' (w, h) = Some s) as Hc.
    { apply (add_sheet_get set_list sheet_ids Hset _ _ _ _ _ Hp H). left. auto. }
    split.
    - intros base. apply (fetch_cached set_list sheet_ids path2url open_sheet open_sibling (Some w) h base f' w s); [reflexivity | discriminate | exact Hc].
    - intros b Hb Hh. apply (fetch_cached set_list sheet_ids path2url open_sheet open_sibling None h (Some b) f' w s); [exact Hb | auto | exact Hc].
  Qed.

  (** Adding succeeds exactly when there is an id; otherwise it changes nothing. *)
  Theorem C35_addable : forall s wb_ids sh_ids f,
    ((exists f', add_sheet s wb_ids sh_ids f = (f', Ok tt)) <-> exists k, id_of s wb_ids sh_ids k)
    /\ ((forall k, ~ id_of s wb_ids sh_ids k) -> add_sheet s wb_ids sh_ids f = (f, Raise AssertionError)).
  Proof.
    intros s wb_ids sh_ids f. split; [split|].
    - intros (f' & H). exact (add_sheet_key set_list sheet_ids Hset _ _ _ _ _ H).
    - exact (add_sheet_iff set_list sheet_ids Hset s wb_ids sh_ids f).
    - intros Hn. destruct (add_sheet s wb_ids sh_ids f) as [f' [[]|e]] eqn:E.
      + destruct (add_sheet_key set_list sheet_ids Hset _ _ _ _ _ E) as (k & Hk). destruct (Hn _ Hk).
      + destruct (add_sheet_failed set_list sheet_ids Hset _ _ _ _ _ _ E) as (-> & -> & _). reflexivity.
  Qed.

  (** The second fetch gives the same sheet, and opens nothing. *)
  Theorem C35_fetched_again : forall wb sh base f f' s, proper_dicts f -> wb <> [] ->
    fetch_sheet (Some wb) sh base f = (f', Ok s) -> forall base', fetch_sheet (Some wb) sh base' f' = (f', Ok s).
  Proof.
    intros wb sh base f f' s Hp Hw H base'.
    assert (cache_get f' (wb, sh) = Some s) as Hc.
    { destruct (cache_get f (wb, sh)) as [x|] eqn:E.
      - rewrite (fetch_cached set_list sheet_ids path2url open_sheet open_sibling (Some wb) sh base f wb x eq_refl) in H; [|discriminate | exact E].
        injection H as <- <-. exact E.
      - rewrite (fetch_fresh set_list sheet_ids path2url open_sheet open_sibling (Some wb) sh base f wb eq_refl) in H; [|discriminate | exact E].
        exact (proj2 (open_and_add_cached set_list sheet_ids Hset _ _ _ _ _ _ Hp H) Hw). }
    exact (fetch_cached set_list sheet_ids path2url open_sheet open_sibling (Some wb) sh base' f' wb s eq_refl ltac:(discriminate) Hc).
  Qed.

  Theorem C35_sibling_fetched_again : forall sh b wb f f' s, proper_dicts f -> fst (sheet_ids b) = Some wb -> wb <> [] -> sh <> SNone ->
    fetch_sheet None sh (Some b) f = (f', Ok s) ->
    fetch_sheet None sh (Some b) f' = (f', Ok s) /\ forall base', fetch_sheet (Some wb) sh base' f' = (f', Ok s).
  Proof.
    intros sh b wb f f' s Hp Hb Hw Hn H.
    assert (cache_get f' (wb, sh) = Some s) as Hc.
    { destruct (cache_get f (wb, sh)) as [x|] eqn:E.
      - rewrite (fetch_cached set_list sheet_ids path2url open_sheet open_sibling None sh (Some b) f wb x Hb) in H; [|auto | exact E].
        injection H as <- <-. exact E.
      - rewrite (fetch_fresh set_list sheet_ids path2url open_sheet open_sibling None sh (Some b) f wb Hb) in H; [|auto | exact E].
        exact (proj2 (open_and_add_cached set_list sheet_ids Hset _ _ _ _ _ _ Hp H) Hw). }
    split.
    - exact (fetch_cached set_list sheet_ids path2url open_sheet open_sibling None sh (Some b) f' wb s Hb (fun _ => Hn) Hc).
    - intros base'. exact (fetch_cached set_list sheet_ids path2url open_sheet open_sibling (Some wb) sh base' f' wb s eq_refl ltac:(discriminate) Hc).
  Qed.

  (** A sheet not in the cache is opened once, by the backends when a workbook is named, else beside the base. *)
  Theorem C35_opened_once : forall wb sh base f f' s w, proper_dicts f ->
    (wb = Some w \/ (wb = None /\ sh <> SNone /\ exists b, base = Some b /\ fst (sheet_ids b) = Some w)) ->
    (forall x, ~ cached_at f (w, sh) x) -> fetch_sheet wb sh base f = (f', Ok s) ->
    opens f' = S (opens f)
    /\ match wb, base with
       | None, Some b => open_sibling (opens f) b sh
       | _, _ => open_sheet (opens f) (Some (path2url w)) sh
       end = Ok s.
  Proof.
    intros wb sh base f f' s w Hp Hw Hc H.
    assert (cache_get f (w, sh) = None) as Hg.
    { destruct (cache_get f (w, sh)) as [x|] eqn:E; [|reflexivity]. apply cached_get in E; [|exact Hp]. destruct (Hc _ E). }
    assert (meant sheet_ids wb base = Some w) as Hm.
    { destruct Hw as [->|(-> & _ & b & -> & Hb)]; [reflexivity | exact Hb]. }
    rewrite (fetch_fresh set_list sheet_ids path2url open_sheet open_sibling wb sh base f w Hm) in H;
      [|intros ->; destruct Hw as [F|(_ & F & _)]; [discriminate | exact F] | exact Hg].
    destruct (open_and_add_ok set_list sheet_ids _ _ _ _ _ _ Hp H) as (E & _ & Ho & _). auto.
  Qed.

  (** Asking for nothing gives the base; without base and workbook the backends are asked. *)
  Theorem C35_base_itself : forall b f, fetch_sheet None SNone (Some b) f = (f, Ok b).
  Proof. reflexivity. Qed.
  Theorem C35_no_workbook : forall sh f f' r, fetch_sheet None sh None f = (f', r) ->
    r = open_sheet (opens f) None sh /\ cached f' = cached f /\ events f' = events f.
  Proof. intros sh f f' r H. cbn in H. injection H as <- <-. auto. Qed.
  (** A fetch that fails leaves the cache as it was, and closes nothing. *)
  Theorem C35_failed_fetch : forall wb sh base f f' e, fetch_sheet wb sh base f = (f', Raise e) -> cached f' = cached f /\ events f' = events f.
  Proof.
    assert (forall r wb sh f f' e, open_and_add set_list sheet_ids r wb sh f = (f', Raise e) -> cached f' = cached f /\ events f' = events f) as Ho.
    { intros r wb sh f f' e H. unfold open_and_add in H. destruct r as [s|e0]; [|injection H as <- <-; auto].
      destruct (add_sheet s (One (Some wb)) (One sh) (opened f)) as [g [[]|e0]] eqn:E; [discriminate|]. injection H as <- <-.
      destruct (add_sheet_failed set_list sheet_ids Hset _ _ _ _ _ _ E) as (-> & _). auto. }
    intros wb sh base f f' e H. unfold Sheets_Model.fetch_sheet in H. destruct wb as [wb|].
    - destruct (cache_get f (wb, sh)); [discriminate | exact (Ho _ _ _ _ _ _ H)].
    - destruct base as [b|]; [|injection H as <- _; auto].
      destruct sh; [discriminate| |]; (destruct (fst (sheet_ids b)) as [wb|]; [|injection H as <- _; auto]);
        match type of H with context[cache_get f ?k] => destruct (cache_get f k) end; try discriminate H; exact (Ho _ _ _ _ _ _ H).
  Qed.

  (** ** C36: adding a sheet does not disturb unrelated sheets *)
  (** A sheet under none of the ids of the added one stays where it was. *)
  Theorem C36_unrelated_stay : forall s wb_ids sh_ids f f' x, proper_dicts f -> add_sheet s wb_ids sh_ids f = (f', Ok tt) ->
    x <> s -> (forall k, id_of s wb_ids sh_ids k -> ~ cached_at f k x) -> forall k, cached_at f' k x <-> cached_at f k x.
  Proof.
    intros s wb_ids sh_ids f f' x Hp H Hx Hd k.
    assert (proper_dicts f') as Hp'.
    { pose proof (add_sheet_proper set_list sheet_ids s wb_ids sh_ids f Hp) as F. rewrite H in F. exact F. }
    rewrite !cached_get by assumption. rewrite (add_sheet_get set_list sheet_ids Hset _ _ _ _ _ Hp H k x). split.
    - intros [(_ & F)|(_ & F & _)]; [congruence | exact F].
    - intros F. right. split; [intros Hk; apply (Hd _ Hk); now apply cached_get|]. split; [exact F|].
      intros _ k' Hk' G. apply (Hd _ Hk'). now apply cached_get.
  Qed.

  (** The sheets under some of its ids are forgotten altogether, and closed once each; nothing else is. *)
  Theorem C36_related_closed : forall s wb_ids sh_ids f f', proper_dicts f -> add_sheet s wb_ids sh_ids f = (f', Ok tt) ->
    exists cl, events f' = events f ++ Added s :: map Closed cl /\ NoDup cl
      /\ (forall x, In x cl <-> x <> s /\ exists k, id_of s wb_ids sh_ids k /\ cached_at f k x)
      /\ forall x, In x cl -> ~ in_cache f' x.
  Proof.
    intros s wb_ids sh_ids f f' Hp H.
    destruct (add_sheet_events set_list sheet_ids Hset _ _ _ _ _ Hp H) as (cl & E & Hn & Hcl).
    exists cl. split; [exact E|]. split; [exact Hn|]. split.
    - intros x. rewrite Hcl. split; intros (A & k & B & C); (split; [exact A|]); exists k; (split; [exact B|]); apply (cached_get f k x Hp); exact C.
    - intros x Hx (k & Hk).
      assert (proper_dicts f') as Hp'.
      { pose proof (add_sheet_proper set_list sheet_ids s wb_ids sh_ids f Hp) as F. rewrite H in F. exact F. }
      apply (cached_get f' k x Hp'), (add_sheet_get set_list sheet_ids Hset _ _ _ _ _ Hp H) in Hk.
      apply Hcl in Hx. destruct Hx as (Hne & k' & Hk' & Hg).
      destruct Hk as [(_ & F)|(_ & _ & F)]; [congruence | exact (F Hne k' Hk' Hg)].
  Qed.

  (** Nothing else is cached. *)
  Theorem C36_only_its_keys : forall s wb_ids sh_ids f f', proper_dicts f -> add_sheet s wb_ids sh_ids f = (f', Ok tt) ->
    forall k, cached_at f' k s <-> cached_at f k s \/ id_of s wb_ids sh_ids k.
  Proof.
    intros s wb_ids sh_ids f f' Hp H k.
    assert (proper_dicts f') as Hp'.
    { pose proof (add_sheet_proper set_list sheet_ids s wb_ids sh_ids f Hp) as F. rewrite H in F. exact F. }
    rewrite !cached_get by assumption. rewrite (add_sheet_get set_list sheet_ids Hset _ _ _ _ _ Hp H k s). split.
    - tauto.
    - intros F.
      assert (id_of s wb_ids sh_ids k \/ ~ id_of s wb_ids sh_ids k) as [G|G].
      { unfold Sheets_Model.add_sheet in H. destruct (derive_keys set_list sheet_ids s wb_ids sh_ids) as [keys|] eqn:E; [|discriminate].
        destruct (derive_keys_ok set_list sheet_ids Hset _ _ _ _ E) as (_ & Hk). rewrite <- Hk.
        destruct (in_dec key_eq_dec k keys); tauto. }
      + left. auto.
      + right. split; [exact G|]. destruct F as [F|F]; [|contradiction]. split; [exact F | congruence].
  Qed.

  (** ** C37: closing the factory *)
  Theorem C37_factory_close : forall f,
    (forall s, ~ in_cache (close f) s) /\ cached (close f) = [] /\ opens (close f) = opens f
    /\ exists rel, events (close f) = events f ++ map Released rel /\ forall s, In s rel <-> in_cache f s.
  Proof.
    intros f. split; [intros s (k & d & F & _); exact F|]. split; [reflexivity|]. split; [reflexivity|].
    exists (flat_map (fun wd => map snd (snd wd)) (cached f)). split.
    - cbn [close events]. f_equal. induction (cached f) as [|[w d] c IH]; [reflexivity|]. cbn. rewrite map_app, map_map, IH. reflexivity.
    - intros s. rewrite <- close_releases, !in_flat_map. split; intros ([w d] & A & B); exists (w, d); (split; [exact A|]); cbn in *;
        apply in_map_iff in B; destruct B as ([h x] & E & B); cbn in *; apply in_map_iff; exists (h, x); cbn; split; congruence || assumption.
  Qed.

  (** So whatever a factory still had is closed after it. *)
  Theorem C37_all_closed : forall f s, in_cache f s -> closed_now (events (close f)) s.
  Proof.
    intros f s H. destruct (C37_factory_close f) as (_ & _ & _ & rel & E & Hr). rewrite E. apply closed_now_app. left.
    apply Hr, in_split in H. destruct H as (a & b & ->). exists (map Released a), (Released s), (map Released b).
    rewrite map_app. cbn. split; [reflexivity|]. split; [auto|]. intros F. apply in_map_iff in F. destruct F as (x & F & _). discriminate.
  Qed.

  (** ** C70: the factory without cache *)
  Theorem C70_base_itself : forall b t, simple_fetch_sheet path2url open_sheet open_sibling None SNone (Some b) t = Ok b.
  Proof. reflexivity. Qed.
  Theorem C70_workbook : forall wb sh base t,
    simple_fetch_sheet path2url open_sheet open_sibling (Some wb) sh base t = open_sheet t (Some (path2url wb)) sh.
  Proof. reflexivity. Qed.
  Theorem C70_no_workbook : forall sh t, simple_fetch_sheet path2url open_sheet open_sibling None sh None t = open_sheet t None sh.
  Proof. reflexivity. Qed.
  (** A sibling is never returned. *)
  Theorem C70_sibling_never : forall sh b t s, sh <> SNone ->
    simple_fetch_sheet path2url open_sheet open_sibling None sh (Some b) t <> Ok s.
  Proof. intros sh b t s H. unfold simple_fetch_sheet. destruct sh; [congruence| |]; (destruct (open_sibling _ _ _); discriminate). Qed.
End Factory.

Print Assumptions C34_never_closed.
Print Assumptions C34_proper_dicts.
Print Assumptions C34_fetched.
Print Assumptions C35_added.
Print Assumptions C35_addable.
Print Assumptions C35_fetched_again.
Print Assumptions C35_sibling_fetched_again.
Print Assumptions C35_opened_once.
Print Assumptions C35_base_itself.
Print Assumptions C35_no_workbook.
Print Assumptions C35_failed_fetch.
Print Assumptions C36_unrelated_stay.
Print Assumptions C36_related_closed.
Print Assumptions C36_only_its_keys.
Print Assumptions C37_factory_close.
Print Assumptions C37_all_closed.
Print Assumptions C70_base_itself.
Print Assumptions C70_workbook.
Print Assumptions C70_no_workbook.
Print Assumptions C70_sibling_never.

(** A sheet that was closed and added again is handed out. *)
Definition sample_history : list op :=
  [Add 0 (One None) (One SNone); Fetch (Some (lit "wb.xlsx")) (SStr (lit "b")) None;
   Add 2 (One None) (One SNone); Fetch None (SStr (lit "0")) (Some 2%nat); Close; Add 0 (Many []) (Many [])].
Example C34_example :
  events (sample_run sample_history new_factory)
    = [Added 0; Added 11; Added 2; Closed 0; Added 12; Closed 2; Released 11; Released 11; Released 12; Released 12; Released 12; Added 0]
  /\ cached (sample_run sample_history new_factory) = [(lit "wb.xlsx", [(SStr (lit "a"), 0%nat); (SInt 0, 0%nat)])]
  /\ in_cache (sample_run sample_history new_factory) 0
  /\ closed_now (events (sample_run sample_history new_factory)) 2
  /\ snd (sample_fetch (Some (lit "wb.xlsx")) (SInt 0) None (sample_run sample_history new_factory)) = Ok 0%nat.
Proof.
  split; [vm_compute; reflexivity|]. split; [vm_compute; reflexivity|]. split.
  - exists (lit "wb.xlsx", SInt 0). eexists. split; [vm_compute; left; reflexivity | vm_compute; auto].
  - split; [|vm_compute; reflexivity].
    exists [Added 0; Added 11; Added 2; Closed 0; Added 12], (Closed 2), [Released 11; Released 11; Released 12; Released 12; Released 12; Added 0].
    split; [vm_compute; reflexivity|]. split; [auto|]. cbn. intros H. repeat destruct H as [H|H]; try discriminate H; exact H.
Qed.

(** C35 *)
Example C35_example :
  let f := fst (sample_add 0 (Many [Some (lit "x"); Some []; None]) (One (SStr (lit "first"))) new_factory) in
  id_of sample_ids 0 (Many [Some (lit "x"); Some []; None]) (One (SStr (lit "first"))) (lit "x", SStr (lit "first"))
  /\ sample_fetch (Some (lit "x")) (SStr (lit "first")) None f = (f, Ok 0%nat)
  /\ sample_fetch None (SInt 0) (Some 7%nat) f = (f, Ok 0%nat)
  /\ snd (sample_fetch (Some (lit "y")) (SInt 0) None f) = Ok 10%nat
  /\ sample_add 0 (One None) (One SNone) new_factory = (fst (sample_add 0 (One None) (One SNone) new_factory), Ok tt)
  /\ add_sheet sample_set (fun _ => (None, [SInt 0])) 0 (One (Some (lit "x"))) (One SNone) new_factory = (new_factory, Raise AssertionError).
Proof.
  cbn zeta. split; [|repeat split; vm_compute; reflexivity].
  exists (lit "wb.xlsx"), [SStr (lit "a"); SInt 0]. split; [reflexivity|]. split; [right; left; reflexivity|]. split; [discriminate | right; reflexivity].
Qed.

(** Without a workbook-id, or with an empty one, every fetch opens the sheet again. *)
Theorem C35_fetched_again_refuted : exists sh f f1 f2 s1 s2, s1 <> s2
  /\ sample_fetch (Some []) sh None f = (f1, Ok s1) /\ sample_fetch (Some []) sh None f1 = (f2, Ok s2) /\ ~ in_cache f2 s1.
Proof.
  exists SNone, new_factory. do 2 eexists. exists 10%nat, 12%nat. split; [discriminate|].
  split; [vm_compute; reflexivity|]. split; [vm_compute; reflexivity|].
  intros ([wb sh] & d & H & Hs). cbn in H, Hs. destruct H as [H|[]]. injection H as <- <-.
  cbn in Hs. repeat destruct Hs as [Hs|Hs]; try discriminate Hs; exact Hs.
Qed.
Print Assumptions C35_fetched_again_refuted.
Theorem C35_no_workbook_refuted : exists sh f f1 f2 s1 s2, s1 <> s2
  /\ sample_fetch None sh None f = (f1, Ok s1) /\ sample_fetch None sh None f1 = (f2, Ok s2).
Proof. exists SNone, new_factory. do 2 eexists. exists 10%nat, 12%nat. split; [discriminate|]. split; vm_compute; reflexivity. Qed.
Print Assumptions C35_no_workbook_refuted.

(** C36 *)
Example C36_example :
  let f1 := fst (sample_add 0 (One None) (One (SStr (lit "first"))) new_factory) in
  let f2 := fst (sample_add 1 (One None) (One (SStr (lit "second"))) f1) in
  snd (sample_add 1 (One None) (One (SStr (lit "second"))) f1) = Ok tt
  /\ (forall k, id_of sample_ids 1 (One None) (One (SStr (lit "second"))) k -> ~ cached_at f1 k 0)
  /\ snd (sample_fetch (Some (lit "wb.xlsx")) (SStr (lit "first")) None f2) = Ok 0%nat
  /\ snd (sample_fetch (Some (lit "wb.xlsx")) (SInt 1) None f2) = Ok 1%nat
  /\ events f2 = [Added 0; Added 1].
Proof.
  cbn zeta. split; [vm_compute; reflexivity|]. split; [|repeat split; vm_compute; reflexivity].
  intros [w h] (wb & shs & E & Hw & _ & Hh) (d & Hd & Hs). cbn in E. injection E as <- <-. cbn in Hd, Hs, Hh.
  destruct Hd as [Hd|[]]. injection Hd as <- <-. cbn in Hs.
  destruct Hs as [Hs|[Hs|[Hs|[]]]]; injection Hs as <-; destruct Hh as [[Hh|[Hh|[]]]|Hh]; discriminate Hh.
Qed.

(** With the default ids two sheets of a workbook share the key (workbook, None):
    adding the second closes and forgets the first. *)
Theorem C36_default_ids_refuted : exists s1 s2 f1 f2,
  (forall h, In h (snd (sample_ids s1)) -> ~ In h (snd (sample_ids s2)))
  /\ sample_add s1 (One None) (One SNone) new_factory = (f1, Ok tt) /\ in_cache f1 s1
  /\ sample_add s2 (One None) (One SNone) f1 = (f2, Ok tt) /\ ~ in_cache f2 s1 /\ closed_now (events f2) s1.
Proof.
  exists 0%nat, 1%nat. do 2 eexists. split; [intros h [<-|[<-|[]]] [H|[H|[]]]; discriminate H|].
  split; [vm_compute; reflexivity|]. split.
  { exists (lit "wb.xlsx", SInt 0). eexists. split; [left; reflexivity | cbn; auto]. }
  split; [vm_compute; reflexivity|]. split.
  - intros ([wb sh] & d & H & Hs). cbn in H, Hs. destruct H as [H|[]]. injection H as <- <-.
    cbn in Hs. repeat destruct Hs as [Hs|Hs]; try discriminate Hs; exact Hs.
  - exists [Added 0; Added 1], (Closed 0), []. split; [reflexivity|]. split; [auto | intros []].
Qed.
Print Assumptions C36_default_ids_refuted.

(** Fetching a sheet by another spelling of its index opens it again, and closes the first, even
    when that is the base given. *)
Theorem C36_respelled_closes_base_refuted : exists f1 f2 s,
  sample_fetch (Some (lit "wb.xlsx")) SNone None new_factory = (f1, Ok 10%nat)
  /\ sample_fetch None (SStr (lit "0")) (Some 10%nat) f1 = (f2, Ok s) /\ s <> 10%nat
  /\ in_cache f1 10 /\ closed_now (events f2) 10.
Proof.
  do 2 eexists. exists 12%nat. split; [vm_compute; reflexivity|]. split; [vm_compute; reflexivity|]. split; [discriminate|]. split.
  - exists (lit "wb.xlsx", SInt 0). eexists. split; [left; reflexivity | cbn; auto].
  - exists [Added 10; Added 12], (Closed 10), []. split; [reflexivity|]. split; [auto | intros []].
Qed.
Print Assumptions C36_respelled_closes_base_refuted.

Example C37_factory_example :
  let f := sample_run (firstn 4 sample_history) new_factory in
  in_cache f 11 /\ in_cache f 12 /\ cached (close f) = [] /\ closed_now (events (close f)) 11 /\ events (close f) <> events f.
Proof.
  cbn zeta. split; [|split; [|split; [reflexivity | split]]].
  - exists (lit "wb.xlsx", SInt 1). eexists. split; [vm_compute; left; reflexivity | vm_compute; auto].
  - exists (lit "wb.xlsx", SInt 0). eexists. split; [vm_compute; left; reflexivity | vm_compute; auto 6].
  - apply C37_all_closed. exists (lit "wb.xlsx", SInt 1). eexists. split; [vm_compute; left; reflexivity | vm_compute; auto].
  - vm_compute. discriminate.
Qed.

(** ** C38: the backend with the highest bid *)
Theorem C38_winner : forall B (bid : B -> option Z) l b, decide_backend bid l = Ok b <-> exists i, wins bid l i b.
Proof.
  intros B bid l b. split; [apply decide_backend_wins|]. intros (i & H). destruct (decide_backend bid l) as [c|e] eqn:E.
  - destruct (decide_backend_wins _ _ _ _ E) as (j & Hj). now destruct (wins_unique _ _ _ _ _ _ _ H Hj) as (_ & ->).
  - apply decide_backend_fails in E. destruct E as (_ & E). destruct H as (z & A & C & _). rewrite (E b (nth_error_In _ _ A)) in C. discriminate.
Qed.
Print Assumptions C38_winner.
Theorem C38_fails : forall B (bid : B -> option Z) l e, decide_backend bid l = Raise e <->
  e = ValueError /\ forall b, In b l -> bid b = None.
Proof. exact decide_backend_fails. Qed.
Print Assumptions C38_fails.

(** The sheet opened is that of the winner; without a sheet it fails. *)
Theorem C38_opens : forall B (bid : B -> option pystr -> option Z) be_open l url sh i b,
  wins (fun b => bid b url) l i b ->
  forall s, open_by_bid bid be_open l url sh = Ok s <-> be_open b url sh = Ok (Some s).
Proof.
  intros B bid be_open l url sh i b H s. unfold open_by_bid.
  rewrite (proj2 (C38_winner _ (fun b => bid b url) l b) (ex_intro _ i H)). cbn [rbind].
  destruct (be_open b url sh) as [[x|]|e]; cbn [rbind]; split; intros E; try discriminate E; injection E as ->; reflexivity.
Qed.
Print Assumptions C38_opens.
Theorem C38_open_fails : forall B (bid : B -> option pystr -> option Z) be_open l url sh,
  ((forall b, In b l -> bid b url = None) -> open_by_bid bid be_open l url sh = Raise ValueError)
  /\ (forall i b, wins (fun b => bid b url) l i b -> be_open b url sh = Ok None -> open_by_bid bid be_open l url sh = Raise ValueError)
  /\ (forall i b e, wins (fun b => bid b url) l i b -> be_open b url sh = Raise e -> open_by_bid bid be_open l url sh = Raise e).
Proof.
  intros B bid be_open l url sh. unfold open_by_bid. split; [|split].
  - intros H. now rewrite (proj2 (C38_fails _ (fun b => bid b url) l ValueError) (conj eq_refl H)).
  - intros i b H E. rewrite (proj2 (C38_winner _ (fun b => bid b url) l b) (ex_intro _ i H)). cbn [rbind]. now rewrite E.
  - intros i b e H E. rewrite (proj2 (C38_winner _ (fun b => bid b url) l b) (ex_intro _ i H)). cbn [rbind]. now rewrite E.
Qed.
Print Assumptions C38_open_fails.
Example C38_example :
  let bid (b : nat) := nth b [Some 5; None; Some 9; Some (-1); Some 9; Some 3]%Z None in
  decide_backend bid [0; 1; 2; 3; 4; 5]%nat = Ok 4%nat /\ wins bid [0; 1; 2; 3; 4; 5]%nat 4 4%nat
  /\ decide_backend bid [1; 1]%nat = Raise ValueError.
Proof.
  cbn zeta. split; [reflexivity|]. split; [|reflexivity]. exists 9%Z. split; [reflexivity|]. split; [reflexivity|].
  intros j b' z' Hj Hb. do 6 (destruct j as [|j]; [injection Hj as <-; cbn in Hb; try discriminate Hb; injection Hb as <-; lia|]).
  destruct j; discriminate Hj.
Qed.

(** ** C70: siblings by the factory without cache *)
Theorem C70_sibling_refuted : exists sh b t s, sample_open t sh = Ok s
  /\ simple_fetch_sheet (fun p => p) (fun t _ => sample_open t) (fun t _ => sample_open t) None sh (Some b) t = Raise UnboundLocalError.
Proof. exists (SInt 1), 0%nat, 0%nat, 11%nat. split; vm_compute; reflexivity. Qed.
Print Assumptions C70_sibling_refuted.
Example C70_example :
  simple_fetch_sheet (fun p => p) (fun t _ => sample_open t) (fun t _ => sample_open t) None SNone (Some 4%nat) 0 = Ok 4%nat
  /\ simple_fetch_sheet (fun p => p) (fun t _ => sample_open t) (fun t _ => sample_open t) (Some (lit "x")) (SInt 1) (Some 4%nat) 0 = Ok 11%nat
  /\ simple_fetch_sheet (fun p => p) (fun t _ => sample_open t) (fun t _ => sample_open t) None (SStr (lit "c")) (Some 4%nat) 0 = Raise (OtherError 1).
Proof. repeat split. Qed.
