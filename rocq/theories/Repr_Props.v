(** * Property C120: texts of mappings *)
From Coq Require Import String Lia.
From Verif Require Import PyBase PyBase_Proofs Json Pmod_Model Pmod_Proofs Repr_Model Repr_Spec Repr_Proofs.

(** ** C120: the text of mappings tells which they are, in full and in order *)
Theorem C120_tells : forall printable flags p q, in_full printable p -> in_full printable q ->
  pmod_repr printable flags p = pmod_repr printable flags q -> p = q.
Proof. exact pmod_repr_inj. Qed.
Print Assumptions C120_tells.

(** Also inside of other texts: where it ends does not depend on what follows. *)
Theorem C120_ends : forall printable flags p q x y, in_full printable p -> in_full printable q ->
  pmod_repr printable flags p ++ x = pmod_repr printable flags q ++ y -> p = q /\ x = y.
Proof. exact (fun printable flags p q x y F G => pmod_tells printable flags p q F G x y). Qed.
Print Assumptions C120_ends.

(** What is not printable is written with lower case digits. *)
Theorem C120_digits : forall printable s d, (forall c, In c s -> (c < 32 \/ c = 127 \/ 127 < c /\ printable c = false)%N) ->
  In d (str_repr printable s) -> In d (lit "'\tnrxuU0123456789abcdef").
Proof.
  intros printable s d Hs H.
  assert (quote_of s = chr "'") as Q.
  { unfold quote_of. destruct (existsb (N.eqb (chr "'")) s) eqn:E; [|reflexivity]. apply existsb_exists in E. destruct E as (c & Hc & E).
    apply N.eqb_eq in E. subst c. specialize (Hs _ Hc). change (chr "'") with 39%N in Hs. exfalso. lia. }
  unfold str_repr in H. rewrite Q in H. destruct H as [<-|H]; [left; reflexivity|]. apply in_app_or in H. destruct H as [H|[<-|[]]]; [|left; reflexivity].
  apply in_concat in H. destruct H as (e & He & Hd). apply in_map_iff in He. destruct He as (c & <- & Hc). specialize (Hs c Hc).
  assert (forall k n, In d (digits16 k n) -> In d (lit "'\tnrxuU0123456789abcdef")) as D.
  { induction k as [|k IH]; intros n I; [destruct I|]. cbn [digits16] in I. apply in_app_or in I. destruct I as [I|[<-|[]]]; [eauto|].
    pose proof (N.mod_lt n 16 ltac:(discriminate)) as M.
    assert (forallb (fun x => existsb (N.eqb (low_digit x)) (lit "'\tnrxuU0123456789abcdef")) (map N.of_nat (seq 0 16)) = true) as A by (vm_compute; reflexivity).
    rewrite forallb_forall in A. specialize (A (n mod 16)%N). rewrite existsb_exists in A. destruct A as (x & X & E).
    - apply in_map_iff. exists (N.to_nat (n mod 16)). split; [apply N2Nat.id|]. apply in_seq. generalize dependent (n mod 16)%N. intros x X. split; lia.
    - apply N.eqb_eq in E. subst x. exact X. }
  assert (forall p k, (forall x, In x p -> In x (lit "'\tnrxuU0123456789abcdef")) -> In d (p ++ digits16 k c) -> In d (lit "'\tnrxuU0123456789abcdef")) as P.
  { intros p k Hp I. apply in_app_or in I. destruct I as [I|I]; [auto|eauto]. }
  assert (forall p q, forallb (fun x => existsb (N.eqb x) q) p = true -> forall x : pychar, In x p -> In x q) as L.
  { intros p q F x X. rewrite forallb_forall in F. specialize (F x X). apply existsb_exists in F. destruct F as (y & Y & E). apply N.eqb_eq in E. subst y. exact Y. }
  unfold escaped in Hd. change (chr "'") with 39%N in Hd. change (chr "\") with 92%N in Hd.
  destruct (N.eqb_spec c 39); [lia|]. destruct (N.eqb_spec c 92); [lia|]. cbn [orb] in Hd.
  destruct (c =? 9)%N; [revert d Hd D P; intros d Hd _ _; revert d Hd; apply L; reflexivity|].
  destruct (c =? 10)%N; [revert d Hd D P; intros d Hd _ _; revert d Hd; apply L; reflexivity|].
  destruct (c =? 13)%N; [revert d Hd D P; intros d Hd _ _; revert d Hd; apply L; reflexivity|].
  destruct ((c <? 32) || (c =? 127))%N%bool eqn:C; [eapply P; [|exact Hd]; apply L; reflexivity|].
  apply Bool.orb_false_iff in C. destruct C as [C1 C2]. apply N.ltb_ge in C1. apply N.eqb_neq in C2.
  destruct Hs as [Hs|[Hs|[Hs Hp]]]; [lia..|]. destruct (N.ltb_spec c 127); [lia|]. rewrite Hp in Hd.
  destruct (c <=? 255)%N; [eapply P; [|exact Hd]; apply L; reflexivity|].
  destruct (c <=? 65535)%N; (eapply P; [|exact Hd]; apply L; reflexivity).
Qed.
Print Assumptions C120_digits.

Definition ascii_only (c : pychar) : bool := false.
Definition no_flags (r : pystr) : pystr := [].
Example C120_digits_example : str_repr ascii_only [10; 255; 8364; 128512]%N = lit "'\n\xff\u20ac\U0001f600'".
Proof. vm_compute. reflexivity. Qed.
Definition named (a : pystr) : pmod := Pmod (Some a) [] [].

(** Patterns that agree in their first 199 characters have the same text. *)
Definition long_regex (c : pychar) : pystr := repeat (chr "a") 199 ++ [c].
Theorem C120_cut_refuted : exists p q, p <> q /\ pmod_repr ascii_only no_flags p = pmod_repr ascii_only no_flags q.
Proof.
  exists (Pmod None [] [(long_regex (chr "b"), named (lit "B"))]), (Pmod None [] [(long_regex (chr "c"), named (lit "B"))]).
  split; [|vm_compute; reflexivity]. intros E. apply (f_equal (fun p => match p_regxs p with (k, _) :: _ => nth 199 k 0%N | [] => 0%N end)) in E. vm_compute in E. discriminate E.
Qed.
Print Assumptions C120_cut_refuted.

Example C120_example :
  pmod_repr ascii_only no_flags (Pmod (Some []) [(lit "it's", named (lit "x""'")); ([233; 8364; 128512; 9]%N, Pmod None [] [])] [(lit "a\d", named (lit "A"))])
    = lit "pmod('', {""it's"": pmod('x""\''), '\xe9\u20ac\U0001f600\t': pmod()}, {re.compile('a\\d'): pmod('A')})" /\
  pmod_repr ascii_only no_flags (Pmod None [] [(lit "a", named [])]) = lit "pmod({re.compile('a'): pmod('')})" /\
  pmod_repr ascii_only no_flags (Pmod None [(lit "a", named [])] []) = lit "pmod({'a': pmod('')})" /\
  pmod_repr (fun _ => true) (fun _ => lit ", re.IGNORECASE") (Pmod None [] [(lit "(?i)" ++ [233]%N, Pmod None [] [])]) = lit "pmod({re.compile('(?i)" ++ [233]%N ++ lit "', re.IGNORECASE): pmod()})".
Proof. vm_compute. repeat split; reflexivity. Qed.
