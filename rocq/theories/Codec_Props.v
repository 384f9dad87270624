(** * C100: objects encoded as JSON by JSONCodec *)
From Coq Require Import String.
From Verif Require Import PyBase PyBase_Proofs Json Url_Model Url_Proofs Codec_Model Codec_Spec Codec_Proofs.

(** ** The bytes *)

(** Whatever the bytes: what is read back is them, with the first line end in place of all. *)
Theorem C100_text : forall s, Forall (fun c => (c < 256)%N) s ->
  exists nl, first_end s nl /\ retold nl s (a2b_qp (b2a_qp s)).
Proof.
  intros s B. exists (eol (first_crlf 0 s)). split; [apply first_crlf_spec; discriminate|apply qp_retold; exact B].
Qed.

(** They are kept exactly when their line ends are of one kind. *)
Theorem C100_bytes : forall s, Forall (fun c => (c < 256)%N) s ->
  (a2b_qp (b2a_qp s) = s <-> one_kind s).
Proof. exact qp_iff. Qed.

(** ** The objects *)

Section Objects.
  Variable obj : Type.
  Variable dumps : obj -> res (list N).
  Variable loads : list N -> res obj.
  Variable jtext : json -> pystr.
  Variable jparse : pystr -> res json.
  Hypothesis json_back : forall j, jparse (jtext j) = Ok j.

  Lemma b2a_nonempty : forall s, s <> [] -> b2a_qp s <> [].
  Proof.
    intros [|c s] N; [contradiction|]. rewrite b2a_enc. cbn [enc]. unfold shown, soft, eol, hexed.
    destruct (must_quote c s 0); [discriminate|]. destruct (c =? LF)%N; [destruct (first_crlf 0 (c :: s)); discriminate|].
    destruct s as [|n s'].
    { rewrite Bool.andb_false_r. discriminate. }
    destruct ((c =? CR) && (n =? LF))%N; [destruct (first_crlf 0 _); discriminate|].
    cbn [N.leb]. change (76 <=? 0 + 1)%N with false. rewrite Bool.andb_false_r.
    destruct (blank c && at_eol (n :: s')); discriminate.
  Qed.

  (** What is unpickled *)
  Theorem C100_decoded : forall o s, dumps o = Ok s -> s <> [] -> Forall (fun c => (c < 256)%N) s ->
    exists t nl s', encode obj dumps jtext o = Ok t /\ first_end s nl /\ retold nl s s' /\
    decode obj loads jparse t = (do v <- loads s'; Ok (Object obj v)).
  Proof.
    intros o s D NE B. destruct (C100_text s B) as (nl & F & R).
    exists (jtext (JDict [(obj_key, JStr (b2a_qp s)); (ver_key, JStr version)])), nl, (a2b_qp (b2a_qp s)).
    pose proof (b2a_ascii s B) as A. repeat split; try assumption.
    - unfold encode. rewrite D. cbn [rbind]. rewrite ascii_decode by exact A. reflexivity.
    - unfold decode. rewrite json_back. cbn [rbind]. change (sget obj_key _) with (Some (JStr (b2a_qp s))). cbn iota.
      pose proof (b2a_nonempty s NE) as NB. cbn [truthy]. destruct (b2a_qp s) as [|x r] eqn:E; [contradiction|].
      rewrite ascii_encode by exact A. reflexivity.
  Qed.

  Theorem C100_object : forall o s, dumps o = Ok s -> s <> [] -> Forall (fun c => (c < 256)%N) s ->
    loads s = Ok o -> one_kind s ->
    exists t, encode obj dumps jtext o = Ok t /\ decode obj loads jparse t = Ok (Object obj o).
  Proof.
    intros o s D NE B L K. pose proof (b2a_ascii s B) as A.
    destruct (C100_decoded o s D NE B) as (t & nl & s' & E & F & R & X). exists t. split; [exact E|]. rewrite X.
    assert (s' = s) as ->; [|rewrite L; reflexivity].
    pose proof (proj2 (C100_bytes s B) K) as Q.
    destruct (C100_text s B) as (nl' & F' & R'). rewrite Q in R'.
    assert (nl' = nl) as ->; [|exact (retold_fun _ _ _ R' _ R)].
    destruct (first_kind _ _ F) as [(-> & P)|[(-> & P)|(-> & P)]]; destruct (first_kind _ _ F') as [(-> & P')|[(-> & P')|(-> & P')]];
      try reflexivity; exfalso.
    - apply K. split; assumption.
    - destruct P as (a & b & ->). apply P'. apply in_or_app. right. right. left. reflexivity.
    - apply K. split; assumption.
    - destruct P' as (a & b & ->). apply P. apply in_or_app. right. right. left. reflexivity.
  Qed.

  (** Documents that hold no pickle are returned as they are; what is no document is an error. *)
  Theorem C100_plain : forall t j, jparse t = Ok j ->
    match j with
    | JDict d =>
        match sget obj_key d with
        | None | Some JNull | Some (JStr []) => decode obj loads jparse t = Ok (Document obj j)
        | Some (JBool true) | Some (JList (_ :: _)) | Some (JDict (_ :: _)) =>
            decode obj loads jparse t = Raise AttributeError
        | _ => True
        end
    | _ => decode obj loads jparse t = Raise AttributeError
    end.
  Proof.
    intros t j P. unfold decode. rewrite P. cbn [rbind]. destruct j as [|b|z|x|l|d]; try reflexivity.
    destruct (sget obj_key d) as [[|[|]|z|[|c x]|[|y l]|[|kv d']]|]; try reflexivity; exact I.
  Qed.

  (** The version that is stored is not looked at: only the pickle is. *)
  Theorem C100_version : forall t t' d d', jparse t = Ok (JDict d) -> jparse t' = Ok (JDict d') ->
    sget obj_key d = sget obj_key d' -> (exists c s, sget obj_key d = Some (JStr (c :: s))) ->
    decode obj loads jparse t = decode obj loads jparse t'.
  Proof.
    intros t t' d d' P P' E (c & s & X). unfold decode. rewrite P, P'. cbn [rbind]. rewrite <- E, X. reflexivity.
  Qed.

  (** The text is a document of two keys: the bytes, written in seven bits, and the version. *)
  Theorem C100_document : forall o s, dumps o = Ok s -> Forall (fun c => (c < 256)%N) s ->
    exists t, encode obj dumps jtext o = Ok (jtext (JDict [(lit "$qpickle", JStr t); (lit "_ver", JStr (lit "0"))]))
      /\ Forall (fun c => (c < 128)%N) t /\ (t = [] <-> s = []).
  Proof.
    intros o s D B. pose proof (b2a_ascii s B) as A. exists (b2a_qp s). unfold encode. rewrite D. cbn [rbind].
    rewrite (ascii_decode _ A). split; [reflexivity|]. split; [exact A|]. split; [|intros ->; reflexivity].
    intros E. destruct (C100_text s B) as (nl & F & R). rewrite E in R. change (a2b_qp []) with (@nil N) in R.
    inversion R as [|s0 t0 R0 Ex Ey|s0 t0 R0 Ex Ey|]; subst; auto; destruct F; discriminate.
  Qed.
End Objects.

(** ** Whole numbers *)

Lemma digits4 : forall n,
  (n = n mod 256 + 256 * (n / 256 mod 256) + 65536 * (n / 65536 mod 256) + 16777216 * (n / 16777216))%N.
Proof.
  intros n. change 65536%N with (256 * 256)%N at 2. change 16777216%N with (256 * 256 * 256)%N at 2.
  rewrite <- !N.div_div by discriminate.
  pose proof (N.div_mod n 256 ltac:(discriminate)). pose proof (N.div_mod (n / 256) 256 ltac:(discriminate)).
  pose proof (N.div_mod (n / 256 / 256) 256 ltac:(discriminate)). nia.
Qed.

Lemma ok_inj : forall A (a b : A), Ok a = Ok b -> a = b.
Proof. congruence. Qed.

Lemma int_back : forall n s, int_dumps n = Ok s ->
  int_loads s = Ok n /\ s <> [] /\ Forall (fun c => (c < 256)%N) s.
Proof.
  intros n s D. unfold int_dumps in D. destruct (N.ltb_spec n 256).
  { apply ok_inj in D; subst s. repeat split; try discriminate. repeat constructor. exact H. }
  destruct (N.ltb_spec n 65536).
  { apply ok_inj in D; subst s. repeat split; try discriminate.
    - unfold int_loads, frame. cbn [app skipn firstn List.length]. change (str_eqb _ _) with true. cbn iota.
      change ((77 =? 77) && (46 =? 46))%N with true. change ((128 =? 128) && (4 =? 4))%N with true. cbn iota. f_equal. pose proof (N.div_mod n 256 ltac:(discriminate)). lia.
    - unfold frame. cbn [app]. repeat constructor; lia. }
  destruct (N.ltb_spec n 2147483648); [|discriminate]. apply ok_inj in D; subst s. repeat split; try discriminate.
  - unfold int_loads, frame. cbn [app skipn firstn List.length]. change (str_eqb _ _) with true. cbn iota.
    change ((74 =? 74) && (46 =? 46))%N with true. change ((128 =? 128) && (4 =? 4))%N with true. cbn iota. f_equal. symmetry. apply digits4.
  - unfold frame. cbn [app]. repeat constructor; lia.
Qed.

(** Line ends of one kind, decided *)
Fixpoint kinds (p : N) (s : list N) : bool * bool :=
  match s with
  | [] => (false, false)
  | c :: s' =>
      let (b, q) := kinds c s' in
      if (c =? 10)%N then if (p =? 13)%N then (b, true) else (true, q) else (b, q)
  end.

Lemma kinds_pair : forall s p, snd (kinds p s) = false -> ~ has_pair (p :: s) .
Proof.
  induction s as [|c s IH]; intros p H (a & b & E).
  - destruct a as [|x a]; [discriminate|]. injection E as _ E. destruct a; discriminate.
  - cbn [kinds] in H. destruct (kinds c s) as [x y] eqn:K. specialize (IH c). rewrite K in IH. cbn [snd] in IH.
    destruct a as [|z a].
    + injection E as -> -> ->. discriminate H.
    + injection E as _ E. apply IH; [|exists a, b; exact E].
      destruct (c =? 10)%N; [destruct (p =? 13)%N; [discriminate|]|]; exact H.
Qed.

Lemma kinds_bare : forall s p, fst (kinds p s) = false ->
  ~ (exists a b, s = a ++ 10%N :: b /\ forall a', p :: a <> a' ++ [13%N]).
Proof.
  induction s as [|c s IH]; intros p H (a & b & E & F).
  - destruct a; discriminate.
  - cbn [kinds] in H. destruct (kinds c s) as [x y] eqn:K. specialize (IH c). rewrite K in IH. cbn [fst] in IH.
    destruct a as [|z a].
    + injection E as -> ->. change (10 =? 10)%N with true in H. cbn iota in H.
      destruct (N.eqb_spec p 13) as [E|]; [rewrite E in F; exact (F [] eq_refl)|discriminate].
    + injection E as <- E. apply IH.
      * destruct (c =? 10)%N; [destruct (p =? 13)%N; [|discriminate]|]; exact H.
      * exists a, b. split; [exact E|]. intros a' X. apply (F (p :: a')). rewrite X. reflexivity.
Qed.

Lemma kinds_one : forall s, fst (kinds 0 s) && snd (kinds 0 s) = false -> one_kind s.
Proof.
  intros s H (B & P). apply andb_false_iff in H as [H|H].
  - apply (kinds_bare s 0%N H). destruct B as (a & b & E & F). exists a, b. split; [exact E|].
    intros a' X. destruct a' as [|z a']; [discriminate|]. injection X as _ X. exact (F _ X).
  - apply (kinds_pair s 0%N H). destruct P as (a & b & ->). exists (0%N :: a), b. reflexivity.
Qed.

Lemma int_kind : forall n s, (n < 657933)%N -> int_dumps n = Ok s -> one_kind s.
Proof.
  intros n s L D. apply kinds_one. unfold int_dumps in D. destruct (N.ltb_spec n 256).
  { apply ok_inj in D; subst s. cbn [kinds]. change (46 =? 10)%N with false. change (75 =? 10)%N with false.
    change (4 =? 10)%N with false. change (128 =? 10)%N with false. cbn iota.
    change (75 =? 13)%N with false. cbn iota. destruct (n =? 10)%N; reflexivity. }
  destruct (N.ltb_spec n 65536).
  { apply ok_inj in D; subst s. unfold frame. cbn [app]. generalize (n mod 256)%N (n / 256)%N. intros a b.
    cbn [kinds]. change (46 =? 10)%N with false. cbn iota.
    destruct (N.eqb_spec b 10); destruct (N.eqb_spec a 10); destruct (N.eqb_spec a 13); subst; try discriminate; reflexivity. }
  destruct (N.ltb_spec n 2147483648); [|lia]. apply ok_inj in D; subst s. unfold frame. cbn [app].
  assert (D0 : (n / 16777216 = 0)%N) by lia. rewrite D0.
  pose proof (N.mod_lt n 256 ltac:(lia)) as HA. pose proof (N.mod_lt (n / 256) 256 ltac:(lia)) as HB.
  assert (HC : (n / 65536 mod 256 <= 10)%N) by lia.
  assert (HN : (n = n mod 256 + 256 * (n / 256 mod 256) + 65536 * (n / 65536 mod 256))%N) by (pose proof (digits4 n); lia).
  revert HA HB HC HN. generalize (n mod 256)%N (n / 256 mod 256)%N (n / 65536 mod 256)%N. intros a b c HA HB HC HN.
  cbn [kinds]. change (46 =? 10)%N with false. change (0 =? 10)%N with false. cbn iota.
  destruct (N.eqb_spec c 10); destruct (N.eqb_spec b 10); destruct (N.eqb_spec a 10);
    destruct (N.eqb_spec b 13); destruct (N.eqb_spec a 13); try reflexivity; exfalso; lia.
Qed.

(** All whole numbers below 657933 come back as they were. *)
Theorem C100_int : forall jtext jparse, (forall j, jparse (jtext j) = Ok j) ->
  forall n, (n < 657933)%N ->
  exists t, encode N int_dumps jtext n = Ok t /\ decode N int_loads jparse t = Ok (Object N n).
Proof.
  intros jtext jparse JB n L.
  assert (D : exists s, int_dumps n = Ok s).
  { unfold int_dumps. destruct (n <? 256)%N; [eexists; reflexivity|]. destruct (n <? 65536)%N; [eexists; reflexivity|].
    destruct (N.ltb_spec n 2147483648); [eexists; reflexivity|lia]. }
  destruct D as (s & D). destruct (int_back n s D) as (B1 & B2 & B3).
  exact (C100_object N int_dumps int_loads jtext jparse JB n s D B2 B3 B1 (int_kind n s L D)).
Qed.

(** That one does not: its bytes are 13 10 10 0, and 13 10 13 10 0 are read back. *)
Theorem C100_refuted : exists n s, int_dumps n = Ok s /\ int_loads s = Ok n /\
  forall jtext jparse, (forall j, jparse (jtext j) = Ok j) ->
  exists t e, encode N int_dumps jtext n = Ok t /\ decode N int_loads jparse t = Raise e.
Proof.
  exists 657933%N. eexists. split; [vm_compute; reflexivity|]. split; [vm_compute; reflexivity|].
  intros jtext jparse JB. eexists. exists (OtherError 0). split; [vm_compute; reflexivity|].
  unfold decode. rewrite JB. vm_compute. reflexivity.
Qed.

(** The pickle of a list, [[10, 2573]], is changed, too: its last line end is shortened. *)
Example C100_list :
  let s := [128; 4; 149; 10; 0; 0; 0; 0; 0; 0; 0; 93; 148; 40; 75; 10; 77; 13; 10; 101; 46]%N in
  a2b_qp (b2a_qp s) = [128; 4; 149; 10; 0; 0; 0; 0; 0; 0; 0; 93; 148; 40; 75; 10; 77; 10; 101; 46]%N.
Proof. vm_compute. reflexivity. Qed.

(** ["a=b. \n.\n\t"], as [b2a_qp] of Python 3.11 writes it *)
Example C100_written :
  b2a_qp (lit "a=b. " ++ [10%N] ++ lit "." ++ [10; 9]%N)
  = lit "a=3Db.=20" ++ [10%N] ++ lit "=2E" ++ [10%N] ++ lit "=09"
  /\ b2a_qp (repeat 97%N 100) = repeat 97%N 75 ++ [61; 10]%N ++ repeat 97%N 25
  /\ b2a_qp (repeat 0%N 26) = flat_map (fun _ => lit "=00") (seq 0 25) ++ [61; 10]%N ++ lit "=00".
Proof. vm_compute. repeat split; reflexivity. Qed.

Example C100_kept :
  let doc := JDict [(lit "$qpickle", JStr (lit "=80=04=95=04=00=00=00=00=00=00=00M" ++ [13; 10]%N ++ lit "=2E"));
                    (lit "_ver", JStr (lit "0"))] in
  encode N int_dumps (fun j => if json_eqb j doc then lit "doc" else lit "other") 2573%N = Ok (lit "doc")
  /\ decode N int_loads (fun _ => Ok doc) (lit "doc") = Ok (Object N 2573%N).
Proof. split; vm_compute; reflexivity. Qed.

Example C100_hypotheses : one_kind [1; 13; 10; 2; 13; 10]%N /\ ~ one_kind [13; 10; 10]%N.
Proof.
  split; [apply kinds_one; reflexivity|]. intros H. apply H. split.
  - exists [13; 10]%N, []. split; [reflexivity|]. intros a'. destruct a' as [|x [|y [|z a']]]; discriminate.
  - exists [], [10%N]. reflexivity.
Qed.

(** Decoding texts that no encoding gives (as Python 3.11's [a2b_qp] does) *)
Example C100_lenient : a2b_qp (lit "a=") = lit "a" /\ a2b_qp (lit "a=4") = lit "a=4" /\ a2b_qp (lit "a=4g") = lit "a=4g" /\ a2b_qp (lit "a==b") = lit "a=b" /\
  a2b_qp (lit "a=4A") = lit "aJ" /\ a2b_qp [61; 13; 98; 10; 99]%N = lit "c".
Proof. repeat split. Qed.

Print Assumptions C100_text.
Print Assumptions C100_bytes.
Print Assumptions C100_decoded.
Print Assumptions C100_object.
Print Assumptions C100_plain.
Print Assumptions C100_version.
Print Assumptions C100_document.
Print Assumptions C100_int.
Print Assumptions C100_refuted.
