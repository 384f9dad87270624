(** * Additional properties of objects: pandata.py:188-244 *)
From Coq Require Import String.
From Verif Require Import PyBase Json Regex Parse_Model.

(** ** Python's [re] *)

(** Python's regular expressions of single characters with [*], [+] and [?], groups with
    back-references, alternatives and the anchors [^] and [$].  All else is outside of the model
    and gives [unsupported]. *)
Inductive rx :=
| XEps
| XChr (f : pychar -> bool)
| XStar (f : pychar -> bool)
| XSeq (a b : rx)
| XAlt (a b : rx)
| XGrp (n : nat) (a : rx)
| XRef (n : nat)
| XBos
| XEos.

Definition unsupported : exn := OtherError 3.

(** Characters with a meaning *)
Definition special (c : pychar) : bool := existsb (N.eqb c) (lit "|().^$*+?\[]{}").
Definition quantifier (c : pychar) : bool := existsb (N.eqb c) (lit "*+?{").

(** A repetition of a character, and the text after it *)
Definition with_quantifier (f : pychar -> bool) (s : pystr) : res (rx * pystr) :=
  match s with
  | c :: s' =>
      if quantifier c then
        if match s' with d :: _ => quantifier d | [] => false end then Raise unsupported
        else if (c =? chr "*")%N then Ok (XStar f, s')
        else if (c =? chr "+")%N then Ok (XSeq (XChr f) (XStar f), s')
        else if (c =? chr "?")%N then Ok (XAlt (XChr f) XEps, s')
        else Raise unsupported
      else Ok (XChr f, s)
  | [] => Ok (XChr f, s)
  end.

Definition not_quantified (s : pystr) : res unit :=
  match s with c :: _ => if quantifier c then Raise unsupported else Ok tt | [] => Ok tt end.

(** Alternatives, and the branches of them.  [n] is the number of the next group, [opened] the
    groups that are not closed yet. *)
Fixpoint parse_alt (fuel : nat) (s : pystr) (n : nat) (opened : list nat) : res (rx * pystr * nat) :=
  match fuel with
  | O => Raise OutOfFuel
  | S fuel' =>
      do (a, n1) <- parse_seq fuel' s n opened;
      match snd a with
      | c :: s' =>
          if (c =? chr "|")%N then
            do (b, n2) <- parse_alt fuel' s' n1 opened;
            Ok (XAlt (fst a) (fst b), snd b, n2)
          else Ok (a, n1)
      | [] => Ok (a, n1)
      end
  end
with parse_seq (fuel : nat) (s : pystr) (n : nat) (opened : list nat) : res (rx * pystr * nat) :=
  match fuel with
  | O => Raise OutOfFuel
  | S fuel' =>
      match s with
      | [] => Ok (XEps, s, n)
      | c :: s' =>
          let single f s' :=
            do (a, s1) <- with_quantifier f s';
            do (b, n2) <- parse_seq fuel' s1 n opened;
            Ok (XSeq a (fst b), snd b, n2) in
          if (c =? chr "|")%N || (c =? chr ")")%N then Ok (XEps, s, n)
          else if (c =? chr "(")%N then
            do _ <- not_quantified s';
            do (a, n1) <- parse_alt fuel' s' (S n) (n :: opened);
            match snd a with
            | d :: s1 =>
                if (d =? chr ")")%N then
                  do _ <- not_quantified s1;
                  do (b, n2) <- parse_seq fuel' s1 n1 opened;
                  Ok (XSeq (XGrp n (fst a)) (fst b), snd b, n2)
                else Raise ReError
            | [] => Raise ReError
            end
          else if (c =? chr "^")%N then
            do _ <- not_quantified s';
            do (b, n2) <- parse_seq fuel' s' n opened; Ok (XSeq XBos (fst b), snd b, n2)
          else if (c =? chr "$")%N then
            do _ <- not_quantified s';
            do (b, n2) <- parse_seq fuel' s' n opened; Ok (XSeq XEos (fst b), snd b, n2)
          else if (c =? chr ".")%N then single (fun d => negb (d =? 10)%N) s'
          else if (c =? chr "\")%N then
            match s' with
            | d :: s1 =>
                if (49 <=? d)%N && (d <=? 57)%N then
                  let m := N.to_nat (d - 48) in
                  if match s1 with e :: _ => is_digit e || quantifier e | [] => false end then Raise unsupported
                  else if (n <=? m)%nat || existsb (Nat.eqb m) opened then Raise ReError
                  else do (b, n2) <- parse_seq fuel' s1 n opened; Ok (XSeq (XRef m) (fst b), snd b, n2)
                else if special d then single (N.eqb d) s1
                else Raise unsupported
            | [] => Raise ReError
            end
          else if quantifier c && negb (c =? chr "{")%N then Raise ReError
          else if special c then Raise unsupported
          else single (N.eqb c) s'
      end
  end.

(** [re.compile] *)
Definition compile (pattern : pystr) : res rx :=
  do (a, n) <- parse_alt (2 * length pattern + 2) pattern 1 [];
  match snd a with [] => Ok (fst a) | _ => Raise ReError end.

(** The texts of the groups, the last ones first *)
Definition captures := list (nat * pystr).
Fixpoint captured (n : nat) (g : captures) : option pystr :=
  match g with
  | [] => None
  | (m, t) :: g' => if (n =? m)%nat then Some t else captured n g'
  end.

Section Match.
  (** The length of the whole text *)
  Variable total : nat.

  Fixpoint mstar (f : pychar -> bool) (k : pystr -> bool) (s : pystr) : bool :=
    match s with
    | c :: s' => if f c then mstar f k s' || k s else k s
    | [] => k s
    end.

  (** Does [r] match at [s], with [k] after it? *)
  Fixpoint mat (r : rx) (s : pystr) (g : captures) (k : pystr -> captures -> bool) : bool :=
    match r with
    | XEps => k s g
    | XChr f => match s with c :: s' => f c && k s' g | [] => false end
    | XStar f => mstar f (fun s' => k s' g) s
    | XSeq a b => mat a s g (fun s' g' => mat b s' g' k)
    | XAlt a b => mat a s g k || mat b s g k
    | XGrp n a => mat a s g (fun s' g' => k s' ((n, between s s') :: g'))
    | XRef n =>
        match captured n g with
        | Some t => starts_with t s && k (skipn (length t) s) g
        | None => false
        end
    | XBos => (length s =? total)%nat && k s g
    | XEos => at_end s && k s g
    end.

  Fixpoint search_from (r : rx) (s : pystr) : bool :=
    mat r s [] (fun _ _ => true) || match s with [] => false | _ :: s' => search_from r s' end.
End Match.

(** [re.search(pattern, s)] *)
Definition search (pattern s : pystr) : res bool :=
  do r <- compile pattern; Ok (search_from (length s) r s).

(** ** pandata.py *)

(** Keys of Python mappings: texts and numbers *)
Inductive key := KStr (s : pystr) | KNum (z : Z).

Definition is_named (properties : list pystr) (k : key) : bool :=
  match k with KStr s => existsb (str_eqb s) properties | KNum _ => false end.

(** [patterns and re.search(patterns, property)] *)
Definition is_matched (patterns : pystr) (k : key) : res bool :=
  match patterns with
  | [] => Ok false
  | _ =>
      match k with
      | KStr s => search patterns s
      | KNum _ => do _ <- compile patterns; Raise TypeError
      end
  end.

(** pandata.py:188-205; [properties] and [patternProperties] are the keys of those of the schema,
    none if missing. *)
Fixpoint find_additional_properties (properties patternProperties : list pystr) (keys : list key)
  : res (list key) :=
  match keys with
  | [] => Ok []
  | k :: keys' =>
      do skip <- (if is_named properties k then Ok true
                  else is_matched (join (lit "|") patternProperties) k);
      do rest <- find_additional_properties properties patternProperties keys';
      Ok (if skip : bool then rest else k :: rest)
  end.

(** [sorted]; texts and numbers cannot be compared. *)
Fixpoint str_leb (a b : pystr) : bool :=
  match a, b with
  | [], _ => true
  | _ :: _, [] => false
  | x :: a', y :: b' => if (x =? y)%N then str_leb a' b' else (x <? y)%N
  end.
Definition key_leb (a b : key) : bool :=
  match a, b with
  | KStr x, KStr y => str_leb x y
  | KNum x, KNum y => (x <=? y)%Z
  | KStr _, KNum _ => true
  | KNum _, KStr _ => false
  end.
Fixpoint insert {A} (leb : A -> A -> bool) (x : A) (l : list A) : list A :=
  match l with
  | [] => [x]
  | y :: l' => if leb x y then x :: l else y :: insert leb x l'
  end.
Definition sort {A} (leb : A -> A -> bool) (l : list A) : list A := fold_right (insert leb) [] l.
Definition is_text (k : key) : bool := match k with KStr _ => true | KNum _ => false end.
Definition sorted_keys (l : list key) : res (list key) :=
  if existsb is_text l && existsb (fun k => negb (is_text k)) l then Raise TypeError
  else Ok (sort key_leb l).

Section Oracles.
  Variable E : Type.
  (** [validator.descend]: the errors of a value against a schema *)
  Variable descend : json -> json -> list E.

  Inductive error :=
  | At (k : key) (e : E)                                 (* at [path=k] *)
  | NotMatching (extras : list key) (patterns : list pystr)   (* "… do not match any of the regexes" *)
  | Unexpected (extras : list key)                       (* "Additional properties are not allowed" *)
  | OfName (e : E).

  (** Instances: objects, or anything else *)
  Inductive instance := Object (items : list (key * json)) | Other (v : json).

  (** pandata.py:208-235; [patternProperties] is [None] if missing.  [extras] is a set, whose
      order is the one of the instance here. *)
  Definition rule_additionalProperties (aP : json) (i : instance)
      (properties : list pystr) (patternProperties : option (list pystr)) : res (list error) :=
    match i with
    | Other _ => Ok []
    | Object items =>
        let patterns := match patternProperties with Some p => p | None => [] end in
        do extras <- find_additional_properties properties patterns (map fst items);
        match aP with
        | JDict _ =>
            Ok (flat_map (fun kv => map (At (fst kv)) (descend (snd kv) aP))
                  (filter (fun kv => existsb (fun k => match k, fst kv with
                                                       | KStr a, KStr b => str_eqb a b
                                                       | KNum a, KNum b => (a =? b)%Z
                                                       | _, _ => false
                                                       end) extras) items))
        | _ =>
            if negb (truthy aP) && match extras with [] => false | _ => true end then
              match patternProperties with
              | Some p => do xs <- sorted_keys extras; Ok [NotMatching xs (sort str_leb p)]
              | None => Ok [Unexpected extras]
              end
            else Ok []
        end
    end.

  Definition key_json (k : key) : json := match k with KStr s => JStr s | KNum z => JNum z end.

  (** pandata.py:238-244 *)
  Definition rule_propertyNames (propertyNames : json) (i : instance) : list error :=
    match i with
    | Other _ => []
    | Object items => flat_map (fun kv => map OfName (descend (key_json (fst kv)) propertyNames)) items
    end.
End Oracles.
Arguments At {E}. Arguments NotMatching {E}. Arguments Unexpected {E}. Arguments OfName {E}.
