(** * Any object as JSON: model of [JSONCodec] of pandata.py (1396-1446)

    An object is pickled, its bytes are written as quoted-printable text, and the text is stored in
    a JSON document of two keys.  Bytes are numbers below 256. *)
From Coq Require Import String.
From Verif Require Import PyBase Json Url_Model.

(** ** [binascii] of Python's library (checked against Python 3.11) *)

Definition LF : N := 10.
Definition CR : N := 13.
Definition blank (c : N) : bool := ((c =? 32) || (c =? 9))%N.

(** ["=%02X"] *)
Definition hexed (c : N) : list N := [chr "="; hex_digit (c / 16); hex_digit (c mod 16)]%N.

(** Whether the first line of the data ends with CR LF: that kind is then written everywhere. *)
Fixpoint first_crlf (prev : N) (s : list N) : bool :=
  match s with
  | [] => false
  | c :: s' => if (c =? LF)%N then (prev =? CR)%N else first_crlf c s'
  end.

Definition eol (crlf : bool) : list N := if crlf then [CR; LF] else [LF].
Definition soft (crlf : bool) : list N := chr "=" :: eol crlf.

(** Must the byte [c] be written as ["=XX"], when [rest] follows it and [linelen] characters are on
    its line? *)
Definition must_quote (c : N) (rest : list N) (linelen : N) : bool :=
  ((126 <? c) || (c =? chr "=")
   || ((c =? chr ".") && (linelen =? 0)
       && match rest with [] => true | n :: _ => (n =? LF) || (n =? CR) || (n =? 0) end)
   || (blank c && match rest with [] => true | _ => false end)
   || ((c <? 33) && negb (c =? CR) && negb (c =? LF) && negb (blank c)))%N.

(** A blank before the end of a line, which is already written (last first), is quoted. *)
Definition protect (out : list N) : list N :=
  match out with
  | c :: out' => if blank c then rev (hexed c) ++ out' else out
  | [] => out
  end.

(** [b2a_qp(data)], with its default arguments; [out] is written, last first. *)
Fixpoint qp (crlf : bool) (s : list N) (linelen : N) (out : list N) : list N :=
  match s with
  | [] => rev out
  | c :: s' =>
      if must_quote c s' linelen then
        if (76 <=? linelen + 3)%N
        then qp crlf s' 3 (rev (hexed c) ++ rev (soft crlf) ++ out)
        else qp crlf s' (linelen + 3) (rev (hexed c) ++ out)
      else if (c =? LF)%N then qp crlf s' 0 (rev (eol crlf) ++ protect out)
      else
        match s' with
        | [] => qp crlf s' (linelen + 1) (c :: out)
        | n :: s'' =>
            if ((c =? CR) && (n =? LF))%N then qp crlf s'' 0 (rev (eol crlf) ++ protect out)
            else if (negb (n =? LF) && (76 <=? linelen + 1))%N
                 then qp crlf s' 1 (c :: rev (soft crlf) ++ out)
                 else qp crlf s' (linelen + 1) (c :: out)
        end
  end.

Definition b2a_qp (s : list N) : list N := qp (first_crlf 0 s) s 0 [].

(** [a2b_qp(text)]; [skip]: the rest of the line is ignored, its end included. *)
Fixpoint unqp (skip : bool) (s : list N) : list N :=
  match s with
  | [] => []
  | c :: s' =>
      if skip then unqp (negb (c =? LF)%N) s'
      else if (c =? chr "=")%N then
        match s' with
        | [] => []
        | d :: s'' =>
            if (d =? LF)%N then unqp false s''
            else if (d =? CR)%N then unqp true s''
            else if (d =? chr "=")%N then c :: unqp false s''
            else
              match s'' with
              | e :: s3 =>
                  match hex_val d, hex_val e with
                  | Some x, Some y => (x * 16 + y)%N :: unqp false s3
                  | _, _ => c :: unqp false s'
                  end
              | [] => c :: unqp false s'
              end
        end
      else c :: unqp false s'
  end.

Definition a2b_qp (s : list N) : list N := unqp false s.

(** ** The codec *)

Definition obj_key : pystr := lit "$qpickle".
Definition ver_key : pystr := lit "_ver".
Definition version : pystr := lit "0".

(** Truth of a JSON value *)
Definition truthy (j : json) : bool :=
  match j with
  | JNull => false
  | JBool b => b
  | JNum z => negb (z =? 0)%Z
  | JStr s => match s with [] => false | _ => true end
  | JList l => match l with [] => false | _ => true end
  | JDict d => match d with [] => false | _ => true end
  end.

Section Codec.
  (** Python objects, and [pickle.dumps], [pickle.loads] *)
  Variable obj : Type.
  Variable dumps : obj -> res (list N).
  Variable loads : list N -> res obj.
  (** The JSON text of a document and back: [JSONEncoder.encode], [JSONDecoder.decode] *)
  Variable jtext : json -> pystr.
  Variable jparse : pystr -> res json.

  (** [Encoder.encode] (pandata.py:1428-1433) *)
  Definition encode (o : obj) : res pystr :=
    do pickle_bytes <- dumps o;
    match utf8_decode (b2a_qp pickle_bytes) with
    | None => Raise ValueError
    | Some pickle_str => Ok (jtext (JDict [(obj_key, JStr pickle_str); (ver_key, JStr version)]))
    end.

  (** What is decoded: an object, or the JSON document itself *)
  Inductive decoded := Object (o : obj) | Document (j : json).

  (** [Decoder.decode] (pandata.py:1436-1446).  The version is not looked at. *)
  Definition decode (s : pystr) : res decoded :=
    do o <- jparse s;
    match o with
    | JDict d =>
        match sget obj_key d with
        | Some pickle =>
            if truthy pickle then
              match pickle with
              | JStr pickle_str =>
                  do text <- utf8_encode pickle_str;
                  do v <- loads (a2b_qp text); Ok (Object v)
              | _ => Raise AttributeError
              end
            else Ok (Document o)
        | None => Ok (Document o)
        end
    | _ => Raise AttributeError
    end.
End Codec.

(** ** [pickle] of whole numbers below 2^31, protocol 4 (checked against Python 3.11)

    Anything else that [loads] can read is left out. *)
Definition frame (n : N) : list N := [149; n; 0; 0; 0; 0; 0; 0; 0]%N.

Definition int_dumps (n : N) : res (list N) :=
  (if n <? 256 then Ok [128; 4; 75; n; 46]
   else if n <? 65536 then Ok ([128; 4] ++ frame 4 ++ [77; n mod 256; n / 256; 46])
   else if n <? 2147483648 then
     Ok ([128; 4] ++ frame 6
         ++ [74; n mod 256; n / 256 mod 256; n / 65536 mod 256; n / 16777216; 46])
   else Raise (OtherError 0))%N.

Definition int_loads (s : list N) : res N :=
  let bad := Raise (OtherError 0) in
  match s with
  | p :: v :: r =>
      if ((p =? 128) && (v =? 4))%N then
        match r with
        | [k; n; stop] => if ((k =? 75) && (stop =? 46))%N then Ok n else bad
        | _ =>
            let body := skipn 9 r in
            if str_eqb (firstn 9 r) (frame (N.of_nat (List.length body))) then
              match body with
              | [k; a; b; stop] => if ((k =? 77) && (stop =? 46))%N then Ok (a + 256 * b)%N else bad
              | [k; a; b; c; d; stop] =>
                  if ((k =? 74) && (stop =? 46))%N
                  then Ok (a + 256 * b + 65536 * c + 16777216 * d)%N else bad
              | _ => bad
              end
            else bad
        end
      else bad
  | _ => bad
  end.
