(** * Property C132: results as those of xlwings *)
From Coq Require Import String Lia.
From Verif Require Import PyBase PyBase_Proofs Json Redim_Model Redim_Spec Redim_Proofs Redim_Props Parse_Model Xlwings_Model.

Definition as_xlwings := apply_call_spec xlwings_dims_call_spec.

(** [rows] is a table of [h] rows of [w] cells. *)
Definition table_of (h w : nat) (rows : list (list json)) : Prop :=
  length rows = h /\ forall row, In row rows -> length row = w /\ forall c, In c row -> ~ a_list c.

Lemma table_rectangular : forall h w rows, (0 < h)%nat -> (0 < w)%nat -> table_of h w rows -> rectangular (JList (map JList rows)) [h; w].
Proof.
  intros h w rows Hh Hw [Hl Hr]. rewrite <- Hl, <- (map_length JList rows). apply Rc_rows; [destruct rows; [cbn in Hl; lia|discriminate]|].
  intros x Hx. apply in_map_iff in Hx. destruct Hx as (row & <- & Hi). destruct (Hr row Hi) as [<- Hc].
  apply Rc_rows; [destruct row; [cbn in Hw; lia|discriminate]|]. intros c Hx. apply Rc_cell. exact (Hc c Hx).
Qed.
Lemma row_reads : forall row, (forall c, In c row -> ~ a_list c) -> reads (JList row) row.
Proof.
  induction row as [|c row IH]; intros H; [constructor|].
  apply (Rd_cons c row [c] row); [constructor; apply H; left; reflexivity|apply IH; intros; apply H; right; assumption].
Qed.
Lemma table_reads : forall rows, (forall row, In row rows -> forall c, In c row -> ~ a_list c) -> reads (JList (map JList rows)) (concat rows).
Proof.
  induction rows as [|row rows IH]; intros H; [constructor|]. cbn [map concat].
  apply Rd_cons; [apply row_reads, H; left; reflexivity|apply IH; intros row' ?; apply H; right; assumption].
Qed.
Lemma flat_list : forall r k cs, rectangular r [k] -> reads r cs -> r = JList cs.
Proof.
  intros r k cs Hr Hc. apply reads_fun in Hc. subst cs. inversion Hr as [| |l s Hn Hall]; subst; [reflexivity|]. f_equal. clear Hr Hn.
  induction l as [|x l IH]; [reflexivity|]. cbn [cells_of flat_map].
  assert (~ a_list x) as Hx. { specialize (Hall x (or_introl eq_refl)). inversion Hall; assumption. }
  rewrite (proj2 (shape_of_cell x Hx)). cbn [app]. f_equal. apply IH. intros y Hy. apply Hall. right. exact Hy.
Qed.

(** A single cell stays as it is. *)
Theorem C132_single : forall st v, ~ a_list v -> as_xlwings st None v = Ok v.
Proof.
  intros st v Hv. cbn. unfold redim. rewrite (asarray_complete v [] (Rc_cell v Hv)), (proj2 (shape_of_cell v Hv)).
  cbn. destruct v; cbn; try reflexivity.
Qed.
Print Assumptions C132_single.

(** A rect of one row or one column gives a plain list, also when it has one
    cell only. *)
Theorem C132_line : forall r c h w rows, (0 < h)%nat -> (0 < w)%nat -> h = 1%nat \/ w = 1%nat -> table_of h w rows -> uniform (concat rows) ->
  as_xlwings (r, c) (Some (r + Z.of_nat h - 1, c + Z.of_nat w - 1))%Z (JList (map JList rows)) = Ok (JList (concat rows)).
Proof.
  intros r c h w rows Hh Hw H1 Ht Hu.
  pose proof (table_rectangular h w rows Hh Hw Ht) as Hs.
  assert (reads (JList (map JList rows)) (concat rows)) as Hc by (apply table_reads; intros row Hi; apply (proj2 Ht row Hi)).
  assert (redim (JList (map JList rows)) (Some (DInt 1)) = Ok (JList (concat rows))) as E.
  { destruct (C31_down_succeeds _ 1 _ Hs) as (x & Hx); [cbn; lia|]. rewrite Hx. f_equal.
    pose proof (C31_same_values _ _ _ _ _ Hs Hc Hu (or_introl Hx)) as Hr.
    destruct (C31_down_dims _ 1%Z [h; w] _ Hs eq_refl (or_introl Hx)) as [Hd _].
    destruct Hd as (t & Ht1 & _ & Ht2).
    { cbn [length ones]. destruct H1 as [->| ->]; cbn; [destruct (Nat.eqb w 1)|destruct (Nat.eqb h 1)]; cbn; lia. }
    destruct t as [|k [|? ?]]; cbn in Ht2; try lia. exact (flat_list _ _ _ Ht1 Hr). }
  destruct (C31_by_rect r c (Z.of_nat h - 1) (Z.of_nat w - 1) (JList (map JList rows)) (Some (DInt 0)) (Some (DInt 1)) (Some (DInt 1)) (Some (DInt 1)) (Some (DInt 2)))
    as (_ & B1 & B2 & B3 & _); [lia|lia|].
  change (redim_filter (r, c) (Some (r + Z.of_nat h - 1, c + Z.of_nat w - 1))%Z (JList (map JList rows)) (Some (DInt 0)) (Some (DInt 1)) (Some (DInt 1)) (Some (DInt 1)) (Some (DInt 2)) = Ok (JList (concat rows))).
  replace (r + Z.of_nat h - 1)%Z with (r + (Z.of_nat h - 1))%Z by lia. replace (c + Z.of_nat w - 1)%Z with (c + (Z.of_nat w - 1))%Z by lia.
  destruct (Nat.eq_dec h 1), (Nat.eq_dec w 1); [rewrite B1 by lia|rewrite B2 by lia|rewrite B3 by lia|lia]; exact E.
Qed.
Print Assumptions C132_line.

(** Dimensions given by position are, in this order, those of single values, cells, rows, columns and tables;
    those that are missing or null leave the values as they are. *)
Theorem C132_by_position : forall r c h w args values, (0 <= h)%Z -> (0 <= w)%Z -> (length args <= 5)%nat ->
  (forall a, In a args -> a = JNull \/ exists n, a = JNum n) ->
  let given k := match nth_error args k with Some (JNum n) => redim values (Some (DInt n)) | _ => Ok values end in
  redim_by_args (r, c) None values args = given 0%nat
  /\ (h = 0 -> w = 0 -> redim_by_args (r, c) (Some (r + h, c + w)) values args = given 1%nat)%Z
  /\ (h = 0 -> 0 < w -> redim_by_args (r, c) (Some (r + h, c + w)) values args = given 2%nat)%Z
  /\ (0 < h -> w = 0 -> redim_by_args (r, c) (Some (r + h, c + w)) values args = given 3%nat)%Z
  /\ (0 < h -> 0 < w -> redim_by_args (r, c) (Some (r + h, c + w)) values args = given 4%nat)%Z.
Proof.
  intros r c h w args values Hh Hw Hl Ha given.
  assert (exists ds, dims_of args = Ok ds /\ length ds = length args /\ forall k, redim values (nth k ds None) = given k) as (ds & D & L & G).
  { subst given. clear Hl. induction args as [|a args IH].
    - exists []. split; [reflexivity|]. split; [reflexivity|]. intros [|k]; reflexivity.
    - destruct IH as (ds & D & L & G); [intros x Hx; apply Ha; now right|]. cbn [dims_of].
      destruct (Ha a (or_introl eq_refl)) as [->|(n & ->)]; cbn [dim_of rbind]; rewrite D; cbn [rbind]; eexists; (split; [reflexivity|]);
        (split; [cbn [length]; congruence|]); intros [|k]; try reflexivity; exact (G k). }
  unfold redim_by_args. rewrite D. cbn [rbind]. replace (5 <? length ds)%nat with false by (symmetry; apply Nat.ltb_ge; lia).
  rewrite <- !G. apply C31_by_rect; assumption.
Qed.
Print Assumptions C132_by_position.
Example C132_position_example :
  redim_by_args (0, 0)%Z (Some (0, 1)%Z) (JList [JList [JNum 1; JNum 2]]) [JNull; JNull; JNum 1] = Ok (JList [JNum 1; JNum 2])
  /\ redim_by_args (0, 0)%Z (Some (1, 0)%Z) (JList [JList [JNum 1]; JList [JNum 2]]) [JNull; JNull; JNum 1] = Ok (JList [JList [JNum 1]; JList [JNum 2]]).
Proof. split; vm_compute; reflexivity. Qed.

(** A table with several rows and columns stays as it is. *)
Theorem C132_table : forall r c h w rows, (1 < h)%nat -> (1 < w)%nat -> table_of h w rows -> uniform (concat rows) ->
  as_xlwings (r, c) (Some (r + Z.of_nat h - 1, c + Z.of_nat w - 1))%Z (JList (map JList rows)) = Ok (JList (map JList rows)).
Proof.
  intros r c h w rows Hh Hw Ht Hu.
  pose proof (table_rectangular h w rows ltac:(lia) ltac:(lia) Ht) as Hs.
  assert (reads (JList (map JList rows)) (concat rows)) as Hc by (apply table_reads; intros row Hi; apply (proj2 Ht row Hi)).
  destruct (C31_by_rect r c (Z.of_nat h - 1) (Z.of_nat w - 1) (JList (map JList rows)) (Some (DInt 0)) (Some (DInt 1)) (Some (DInt 1)) (Some (DInt 1)) (Some (DInt 2)))
    as (_ & _ & _ & _ & B4); [lia|lia|].
  change (redim_filter (r, c) (Some (r + Z.of_nat h - 1, c + Z.of_nat w - 1))%Z (JList (map JList rows)) (Some (DInt 0)) (Some (DInt 1)) (Some (DInt 1)) (Some (DInt 1)) (Some (DInt 2)) = Ok (JList (map JList rows))).
  replace (r + Z.of_nat h - 1)%Z with (r + (Z.of_nat h - 1))%Z by lia. replace (c + Z.of_nat w - 1)%Z with (c + (Z.of_nat w - 1))%Z by lia.
  rewrite B4 by lia. unfold redim. rewrite (asarray_complete _ _ Hs). apply reads_fun in Hc. rewrite <- Hc, (promote_uniform _ Hu), Hc.
  cbn [rbind nd_ndim nd_shape length Z.of_nat]. cbn. f_equal. exact (nested_cells _ _ Hs).
Qed.
Print Assumptions C132_table.

(** Numbers next to texts become texts, whatever the shape. *)
Theorem C132_mixed_refuted : exists rows, table_of 2 2 rows
  /\ as_xlwings (0, 0)%Z (Some (1, 1)%Z) (JList (map JList rows)) <> Ok (JList (map JList rows))
  /\ as_xlwings (0, 0)%Z (Some (1, 1)%Z) (JList (map JList rows)) = Ok (JList [JList [JStr (lit "x"); JStr (lit "1")]; JList [JStr (lit "y"); JStr (lit "True")]]).
Proof.
  exists [[JStr (lit "x"); JNum 1]; [JStr (lit "y"); JBool true]]. split; [|split; [vm_compute; discriminate|reflexivity]].
  split; [reflexivity|]. intros row [<-|[<-|[]]]; (split; [reflexivity|]); intros c [<-|[<-|[]]] [l F]; discriminate F.
Qed.
Print Assumptions C132_mixed_refuted.

(** One empty cell keeps all others as they are. *)
Example C132_example :
  as_xlwings (4, 3)%Z (Some (4, 5)%Z) (JList [JList [JNum 1; JNull; JStr (lit "a")]]) = Ok (JList [JNum 1; JNull; JStr (lit "a")])
  /\ as_xlwings (4, 3)%Z (Some (6, 3)%Z) (JList [JList [JNum 1]; JList [JNum 2]; JList [JNum 3]]) = Ok (JList [JNum 1; JNum 2; JNum 3])
  /\ as_xlwings (4, 3)%Z (Some (4, 3)%Z) (JList [JList [JNum 7]]) = Ok (JList [JNum 7])
  /\ as_xlwings (4, 3)%Z None (JStr (lit "b")) = Ok (JStr (lit "b"))
  /\ as_xlwings (0, 0)%Z (Some (1, 1)%Z) (JList [JList [JNum 1; JNum 2]; JList [JNull; JStr (lit "a")]]) = Ok (JList [JList [JNum 1; JNum 2]; JList [JNull; JStr (lit "a")]]).
Proof. repeat split. Qed.
