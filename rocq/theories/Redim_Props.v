(** * Property C31: redimensioning *)
From Coq Require Import String.
From Verif Require Import PyBase PyBase_Proofs Json Redim_Model Redim_Spec Redim_Proofs.

(** What the code does to the array, whatever was asked. *)
Lemma redim_int : forall v n s r, rectangular v s -> redim v (Some (DInt n)) = Ok r \/ redim v (Some (DPair (Some n) false)) = Ok r ->
  exists a, wf a /\ good_shape (nd_shape a) /\ nd_data a = promote (cells_of v) /\ r = tolist a
  /\ ((Z.of_nat (length s) <= n)%Z /\ nd_shape a = repeat 1%nat (Z.to_nat n - length s) ++ s
      \/ (n < Z.of_nat (length s))%Z /\ (Z.of_nat (ones s) < Z.of_nat (length s) - n)%Z /\ nd_shape a = [size s]
      \/ (n < Z.of_nat (length s))%Z /\ (Z.of_nat (length s) - n <= Z.of_nat (ones s))%Z /\ without_ones s (nd_shape a) /\ Z.of_nat (length (nd_shape a)) = n).
Proof.
  intros v n s r Hs H.
  assert (exists a, match (let a := ND s (promote (cells_of v)) in if (Z.of_nat (nd_ndim a) <? n)%Z then Ok (updim a (Z.to_nat n))
                  else if (Z.of_nat (nd_ndim a) >? n)%Z then downdim a n else Ok a) with Ok a' => a = a' | Raise _ => False end /\ r = tolist a) as (a & Ha & ->).
  { cbv zeta. set (X := if (_ <? n)%Z then _ else _). assert (rbind X (fun a => Ok (tolist a)) = Ok r) as HX.
    { destruct H as [H|H]; unfold redim in H; rewrite (asarray_complete v s Hs) in H; exact H. }
    destruct X as [a|e]; [|discriminate HX]. injection HX as <-. exists a. auto. }
  cbv zeta in Ha. unfold nd_ndim in Ha. cbn [nd_shape] in Ha. rewrite Z.gtb_ltb in Ha.
  pose proof (rectangular_good v s Hs) as Hg.
  assert (length (promote (cells_of v)) = size s) as Hl by (rewrite promote_length; apply rectangular_size; exact Hs).
  pose proof (promote_not_lists (cells_of v) (cells_not_lists v)) as Hc.
  exists a. destruct (Z.ltb_spec (Z.of_nat (length s)) n) as [H1|H1].
  - subst a. cbn [updim nd_shape nd_data nd_ndim]. unfold nd_ndim. cbn [nd_shape].
    assert (forall k, size (repeat 1%nat k ++ s) = size s /\ good_shape (repeat 1%nat k ++ s)) as X.
    { induction k as [|k [IH1 IH2]]; [split; [reflexivity|exact Hg]|]. cbn [repeat app]. split; [cbn [size fold_right]; fold (size (repeat 1%nat k ++ s)); lia|].
      apply good_cons; [exact IH2|left; discriminate]. }
    destruct (X (Z.to_nat n - length s)%nat) as [X1 X2].
    split; [split; [exact (eq_trans Hl (eq_sym X1))|exact Hc]|]. split; [exact X2|]. split; [reflexivity|]. split; [reflexivity|].
    left. split; [lia|reflexivity].
  - destruct (Z.ltb_spec n (Z.of_nat (length s))) as [H2|H2].
    + destruct (downdim (ND s (promote (cells_of v))) n) as [a'|e] eqn:E; [subst a'|destruct Ha].
      destruct (downdim_spec (ND s (promote (cells_of v))) n a H2 E) as (E1 & [(E2 & E3)|(E2 & E3 & E4)]); unfold nd_ndim in *; cbn [nd_shape nd_data] in *.
      * split; [split; rewrite E1; [rewrite E3; cbn; lia|exact Hc]|]. split; [rewrite E3; apply good_cons; [intros [|? ?] ? F; discriminate F|right; reflexivity]|].
        split; [exact E1|]. split; [reflexivity|]. right. left. repeat split; auto. rewrite E3, Hl. reflexivity.
      * split; [split; rewrite E1; [rewrite (size_without_ones _ _ E3); exact Hl|exact Hc]|]. split; [eapply good_without_ones; eassumption|].
        split; [exact E1|]. split; [reflexivity|]. right. right. auto.
    + subst a. split; [split; cbn [nd_shape nd_data]; [exact Hl|exact Hc]|]. split; [exact Hg|]. split; [reflexivity|]. split; [reflexivity|].
      left. split; [lia|]. replace (Z.to_nat n - length s)%nat with 0%nat by lia. reflexivity.
Qed.
Lemma redim_lists : forall v n s r, rectangular v s -> redim v (Some (DInt n)) = Ok r \/ redim v (Some (DPair (Some n) false)) = Ok r ->
  cells_of r = promote (cells_of v) /\ exists t, rectangular r t
  /\ ((Z.of_nat (length s) <= n)%Z /\ t = repeat 1%nat (Z.to_nat n - length s) ++ s
      \/ (n < Z.of_nat (length s))%Z /\ (Z.of_nat (ones s) < Z.of_nat (length s) - n)%Z /\ t = [size s]
      \/ (n < Z.of_nat (length s))%Z /\ (Z.of_nat (length s) - n <= Z.of_nat (ones s))%Z /\ without_ones s t /\ Z.of_nat (length t) = n).
Proof.
  intros v n s r Hs H. destruct (redim_int v n s r Hs H) as (a & [Hw1 Hw2] & Hg & Hd & -> & Hn).
  destruct (nested_rect (nd_shape a) (nd_data a) Hg Hw1 Hw2) as [H1 H2]. split; [unfold tolist; rewrite H2; exact Hd|]. exists (nd_shape a). auto.
Qed.

(** Cells of one kind stay the same, in the same order. *)
Theorem C31_same_values : forall v n s cs r, rectangular v s -> reads v cs -> uniform cs ->
  redim v (Some (DInt n)) = Ok r \/ redim v (Some (DPair (Some n) false)) = Ok r -> reads r cs.
Proof.
  intros v n s cs r Hs Hcs Hu H. apply reads_fun in Hcs. subst cs. destruct (redim_lists v n s r Hs H) as [E _].
  rewrite promote_uniform in E by exact Hu. rewrite <- E. apply reads_cells.
Qed.
Print Assumptions C31_same_values.

(** Without texts they stay equal (numbers may replace booleans). *)
Theorem C31_equal_values : forall v n s cs r, rectangular v s -> reads v cs -> (forall c x, In c cs -> c <> JStr x) ->
  redim v (Some (DInt n)) = Ok r \/ redim v (Some (DPair (Some n) false)) = Ok r -> exists cs', reads r cs' /\ Forall2 py_equal cs cs'.
Proof.
  intros v n s cs r Hs Hcs Hu H. apply reads_fun in Hcs. subst cs. destruct (redim_lists v n s r Hs H) as [E _].
  exists (cells_of r). split; [apply reads_cells|]. rewrite E. apply promote_no_text. exact Hu.
Qed.
Print Assumptions C31_equal_values.

Theorem C31_number_of_values : forall v n s cs r cs', rectangular v s -> reads v cs -> reads r cs' ->
  redim v (Some (DInt n)) = Ok r \/ redim v (Some (DPair (Some n) false)) = Ok r -> length cs' = length cs.
Proof.
  intros v n s cs r cs' Hs Hcs Hcs' H. apply reads_fun in Hcs, Hcs'. subst cs cs'. destruct (redim_lists v n s r Hs H) as [E _].
  rewrite E. apply promote_length.
Qed.
Print Assumptions C31_number_of_values.

(** With a text among numbers and booleans all become texts, as Python writes them. *)
Definition written (c : json) : option pystr :=
  match c with JStr x => Some x | JNum z => Some (str_of_Z z) | JBool true => Some (lit "True") | JBool false => Some (lit "False") | _ => None end.
Theorem C31_texts : forall v n s cs r x, rectangular v s -> reads v cs -> In (JStr x) cs -> (forall c, In c cs -> written c <> None) ->
  redim v (Some (DInt n)) = Ok r \/ redim v (Some (DPair (Some n) false)) = Ok r ->
  exists ts, reads r (map JStr ts) /\ map Some ts = map written cs.
Proof.
  intros v n s cs r x Hs Hcs Hx Hw H. apply reads_fun in Hcs. subst cs. destruct (redim_lists v n s r Hs H) as [E _].
  exists (map (fun c => match written c with Some t => t | None => [] end) (cells_of v)). split.
  - replace (map JStr _) with (cells_of r); [apply reads_cells|]. rewrite E. unfold promote.
    rewrite (existsb_none is_object).
    + rewrite (proj2 (existsb_exists _ _) (ex_intro _ (JStr x) (conj Hx eq_refl))). rewrite map_map. apply map_ext_in.
      intros c Hc. specialize (Hw c Hc). destruct c as [|[]| | | |]; try reflexivity; destruct Hw; reflexivity.
    + intros c Hc. specialize (Hw c Hc). destruct c as [|[]| | | |]; try reflexivity; destruct Hw; reflexivity.
  - rewrite map_map. apply map_ext_in. intros c Hc. specialize (Hw c Hc). destruct (written c); [reflexivity|destruct Hw; reflexivity].
Qed.
Print Assumptions C31_texts.
Example C31_texts_example : redim (JList [JStr (lit "a"); JBool true; JNum (-2)]) (Some (DInt 2)) = Ok (JList [JList [JStr (lit "a"); JStr (lit "True"); JStr (lit "-2")]]).
Proof. vm_compute. reflexivity. Qed.

(** Ragged lists are refused, whatever the dimensions. *)
Theorem C31_ragged : forall v d, (forall s, ~ rectangular v s) -> redim v (Some d) = Raise ValueError.
Proof.
  intros v d H. unfold redim. unfold asarray. destruct (shape_of v) as [s|] eqn:E; [|reflexivity]. apply shape_of_spec in E. destruct (H s E).
Qed.
Print Assumptions C31_ragged.
Example C31_ragged_example : (forall s, ~ rectangular (JList [JList [JNum 1]; JNum 2]) s).
Proof.
  intros s H. inversion H as [j N| |l s' N F]; subst; [destruct N; eexists; reflexivity|].
  pose proof (F (JList [JNum 1]) (or_introl eq_refl)) as A. pose proof (F (JNum 2) (or_intror (or_introl eq_refl))) as B.
  inversion B; subst. inversion A as [j' N'| |]; subst. destruct N'. eexists. reflexivity.
Qed.

(** Numbers among texts become texts. *)
Theorem C31_mixed_values_refuted : exists v r, rectangular v [2%nat] /\ redim v (Some (DInt 2)) = Ok r
  /\ reads v [JNum 1; JStr (lit "a")] /\ reads r [JStr (lit "1"); JStr (lit "a")].
Proof.
  exists (JList [JNum 1; JStr (lit "a")]), (JList [JList [JStr (lit "1"); JStr (lit "a")]]).
  split; [apply shape_of_spec; reflexivity|]. split; [reflexivity|]. split; [exact (reads_cells (JList _))|exact (reads_cells (JList [JList _]))].
Qed.
Print Assumptions C31_mixed_values_refuted.

(** Raising gives the requested dimensions, by adding outer lists. *)
Theorem C31_up_dims : forall v n s, rectangular v s -> (length s <= n)%nat ->
  exists r, redim v (Some (DInt (Z.of_nat n))) = Ok r /\ rectangular r (repeat 1%nat (n - length s) ++ s) /\ length (repeat 1%nat (n - length s) ++ s) = n.
Proof.
  intros v n s Hs Hn.
  assert (exists r, redim v (Some (DInt (Z.of_nat n))) = Ok r) as (r & Hr).
  { unfold redim. rewrite (asarray_complete v s Hs). cbn [rbind]. unfold nd_ndim. cbn [nd_shape]. rewrite Z.gtb_ltb.
    destruct (Z.ltb_spec (Z.of_nat (length s)) (Z.of_nat n)); [eexists; reflexivity|]. destruct (Z.ltb_spec (Z.of_nat n) (Z.of_nat (length s))); [lia|eexists; reflexivity]. }
  exists r. split; [exact Hr|]. split; [|rewrite app_length, repeat_length; lia].
  destruct (redim_lists v _ s r Hs (or_introl Hr)) as (_ & t & Ht & [(_ & ->)|[(F & _)|(F & _)]]); [|lia|lia]. rewrite Nat2Z.id in Ht. exact Ht.
Qed.
Print Assumptions C31_up_dims.

(** Lowering gives the requested dimensions when there are enough trivial ones,
    and a plain list otherwise. *)
Theorem C31_down_dims : forall v n s r, rectangular v s -> (n < Z.of_nat (length s))%Z ->
  redim v (Some (DInt n)) = Ok r \/ redim v (Some (DPair (Some n) false)) = Ok r ->
  ((Z.of_nat (length s) - Z.of_nat (ones s) <= n)%Z -> exists t, rectangular r t /\ without_ones s t /\ Z.of_nat (length t) = n)
  /\ ((n < Z.of_nat (length s) - Z.of_nat (ones s))%Z -> exists k, rectangular r [k]).
Proof.
  intros v n s r Hs Hn H. destruct (redim_lists v n s r Hs H) as (_ & t & Ht & [(F & _)|[(_ & F & E)|(_ & F & E1 & E2)]]); [lia| |].
  - split; intros; [lia|]. exists (size s). congruence.
  - split; intros; [|lia]. exists t. auto.
Qed.
Print Assumptions C31_down_dims.

(** It succeeds for up to 3 dimensions, but not for more. *)
Theorem C31_down_succeeds : forall v n s, rectangular v s -> (length s <= 3)%nat -> exists r, redim v (Some (DInt n)) = Ok r.
Proof.
  intros v n s Hs Hl. unfold redim. rewrite (asarray_complete v s Hs). cbn [rbind]. unfold nd_ndim. cbn [nd_shape]. rewrite Z.gtb_ltb.
  destruct (Z.ltb_spec (Z.of_nat (length s)) n); [eexists; reflexivity|]. destruct (Z.ltb_spec n (Z.of_nat (length s))); [|eexists; reflexivity].
  destruct (downdim_small (ND s (promote (cells_of v))) n Hl) as (a & ->); [assumption|]. eexists. reflexivity.
Qed.
Print Assumptions C31_down_succeeds.

Theorem C31_down_refuted : exists v, rectangular v [1; 1; 2; 1]%nat /\ redim v (Some (DInt 2)) = Raise ValueError.
Proof. exists (JList [JList [JList [JList [JNum 1]; JList [JNum 2]]]]). split; [apply shape_of_spec; reflexivity|reflexivity]. Qed.
Print Assumptions C31_down_refuted.

(** Transposing reverses the indices of every cell. *)
Theorem C31_transposed : forall v s cs idx c, rectangular v s -> reads v cs -> uniform cs -> ~ In 0%nat s ->
  exists r, redim v (Some (DPair None true)) = Ok r /\ rectangular r (rev s) /\ (Forall2 lt idx s -> (found v idx c <-> found r (rev idx) c)).
Proof.
  intros v s cs idx c Hs Hcs Hu Hz. apply reads_fun in Hcs. subst cs.
  unfold redim. rewrite (asarray_complete v s Hs), (promote_uniform _ Hu). cbn [rbind]. eexists. split; [reflexivity|].
  set (a := ND s (cells_of v)).
  assert (wf a) as Ha by (split; [apply rectangular_size; exact Hs|apply cells_not_lists]).
  pose proof (transpose_wf a Ha) as [Ht1 Ht2].
  split.
  - apply (nested_rect (rev s)); [|exact Ht1|exact Ht2]. intros x y E. destruct Hz. apply in_rev. rewrite E. apply in_or_app. right. left. reflexivity.
  - intros Hi. rewrite (found_cells v s idx c Hs Hi). rewrite <- (transpose_at a idx Ha Hi : _ = nth_error (cells_of v) (offset s idx)).
    symmetry. exact (found_nested (rev s) _ (rev idx) c Ht1 Ht2 (forall2_rev _ _ Hi)).
Qed.
Print Assumptions C31_transposed.

(** The dimensions are those given for the kind of the rect. *)
Theorem C31_by_rect : forall r c h w values scalar cell row col table, (0 <= h)%Z -> (0 <= w)%Z ->
  redim_filter (r, c) None values scalar cell row col table = redim values scalar
  /\ (h = 0 -> w = 0 -> redim_filter (r, c) (Some (r + h, c + w)) values scalar cell row col table = redim values cell)%Z
  /\ (h = 0 -> 0 < w -> redim_filter (r, c) (Some (r + h, c + w)) values scalar cell row col table = redim values row)%Z
  /\ (0 < h -> w = 0 -> redim_filter (r, c) (Some (r + h, c + w)) values scalar cell row col table = redim values col)%Z
  /\ (0 < h -> 0 < w -> redim_filter (r, c) (Some (r + h, c + w)) values scalar cell row col table = redim values table)%Z.
Proof.
  intros r c h w values scalar cell row col table Hh Hw.
  assert (forall o, match o with Some d => redim values (Some d) | None => Ok values end = redim values o) as X by (intros [d|]; reflexivity).
  unfold redim_filter, classify_rect_shape. cbn [fst snd].
  replace (r + h - r)%Z with h by lia. replace (c + w - c)%Z with w by lia.
  split; [apply X|]. split; [intros -> ->; apply X|]. repeat split; intros H1 H2;
    destruct (Z.eqb_spec w 0); try lia; destruct (Z.eqb_spec h 0); try lia; apply X.
Qed.
Print Assumptions C31_by_rect.

Theorem C31_null : forall v, redim v None = Ok v.
Proof. reflexivity. Qed.
Print Assumptions C31_null.

Example C31_example :
  redim (JList [JNum 1; JNum 2]) (Some (DInt 3)) = Ok (JList [JList [JList [JNum 1; JNum 2]]])
  /\ redim (JList [JList [JList [JNum 1]]; JList [JList [JNum 2]]]) (Some (DInt 2)) = Ok (JList [JList [JNum 1]; JList [JNum 2]])
  /\ redim (JList [JList [JList [JNum 1]; JList [JNum 2]]]) (Some (DInt 0)) = Ok (JList [JNum 1; JNum 2])
  /\ redim (JList [JList []; JList []]) (Some (DInt 1)) = Ok (JList [])
  /\ redim (JStr (lit "a")) (Some (DInt 0)) = Ok (JStr (lit "a"))
  /\ redim (JList [JList [JNum 1; JNum 2; JNum 3]; JList [JNum 4; JNum 5; JNum 6]]) (Some (DPair (Some 2%Z) true))
     = Ok (JList [JList [JNum 1; JNum 4]; JList [JNum 2; JNum 5]; JList [JNum 3; JNum 6]])
  /\ redim (JList [JList [JNum 1]; JList []]) (Some (DInt 1)) = Raise ValueError.
Proof. repeat split. Qed.
