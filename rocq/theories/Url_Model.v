(** * File paths as URL paths: model of [path2urlpath] and [urlpath2path] of utils.py, on POSIX *)
From Coq Require Import String.
From Verif Require Import PyBase OsPath_Model.

(** ** Python's library (before 3.14) *)

(** One character as UTF-8; [None] for surrogates and what is no character. *)
Definition utf8_char (c : pychar) : option (list N) :=
  (if c <? 128 then Some [c]
   else if c <? 2048 then Some [192 + c / 64; 128 + c mod 64]
   else if c <? 65536 then
     if (55296 <=? c) && (c <=? 57343) then None
     else Some [224 + c / 4096; 128 + (c / 64) mod 64; 128 + c mod 64]
   else if c <? 1114112 then
     Some [240 + c / 262144; 128 + (c / 4096) mod 64; 128 + (c / 64) mod 64; 128 + c mod 64]
   else None)%N.

(** [s.encode("utf-8")]; [UnicodeEncodeError] is a [ValueError]. *)
Fixpoint utf8_encode (s : pystr) : res (list N) :=
  match s with
  | [] => Ok []
  | c :: s' =>
      match utf8_char c with
      | None => Raise ValueError
      | Some b => do bs <- utf8_encode s'; Ok (b ++ bs)
      end
  end.

Definition cont (b : N) : bool := (128 <=? b)%N && (b <=? 191)%N.

(** Strict decoding *)
Fixpoint utf8_decode (bs : list N) : option pystr :=
  let more c r := match utf8_decode r with Some s => Some (c :: s) | None => None end in
  (match bs with
   | [] => Some []
   | b :: r =>
       if b <? 128 then more b r
       else if (194 <=? b) && (b <=? 223) then
         match r with
         | b1 :: r1 => if cont b1 then more ((b - 192) * 64 + (b1 - 128)) r1 else None
         | _ => None
         end
       else if (224 <=? b) && (b <=? 239) then
         match r with
         | b1 :: b2 :: r2 =>
             if cont b1 && cont b2 && implb (b =? 224) (160 <=? b1) && implb (b =? 237) (b1 <? 160)
             then more ((b - 224) * 4096 + (b1 - 128) * 64 + (b2 - 128)) r2 else None
         | _ => None
         end
       else if (240 <=? b) && (b <=? 244) then
         match r with
         | b1 :: b2 :: b3 :: r3 =>
             if cont b1 && cont b2 && cont b3 && implb (b =? 240) (144 <=? b1)
                && implb (b =? 244) (b1 <? 144)
             then more ((b - 240) * 262144 + (b1 - 128) * 4096 + (b2 - 128) * 64 + (b3 - 128)) r3
             else None
         | _ => None
         end
       else None
   end)%N.

(** urllib.parse [_ALWAYS_SAFE], and "/" *)
Definition safe (b : N) : bool :=
  is_alpha b || is_digit b || existsb (N.eqb b) (lit "_.-~/").

Definition hex_digit (n : N) : pychar := if (n <? 10)%N then (48 + n)%N else (55 + n)%N.

(** ["%{:02X}".format(b)] *)
Definition quote_byte (b : N) : pystr :=
  if safe b then [b] else [chr "%"; hex_digit (b / 16); hex_digit (b mod 16)]%N.

(** urllib.parse [quote] with the default arguments (its short-cuts give the same) *)
Definition quote (s : pystr) : res pystr :=
  do bs <- utf8_encode s; Ok (flat_map quote_byte bs).

Definition hex_val (c : pychar) : option N :=
  (if is_digit c then Some (c - 48)
   else if (65 <=? c) && (c <=? 70) then Some (c - 55)
   else if (97 <=? c) && (c <=? 102) then Some (c - 87)
   else None)%N.

(** urllib.parse [unquote_to_bytes] of an ASCII text *)
Fixpoint unquote_to_bytes (s : pystr) : list N :=
  match s with
  | [] => []
  | c :: s' =>
      if (c =? chr "%")%N then
        match s' with
        | h :: l :: s'' =>
            match hex_val h, hex_val l with
            | Some x, Some y => (x * 16 + y)%N :: unquote_to_bytes s''
            | _, _ => c :: unquote_to_bytes s'
            end
        | _ => c :: unquote_to_bytes s'
        end
      else c :: unquote_to_bytes s'
  end.

Section Oracles.
  (** [bs.decode("utf-8", "replace")] where not decodable *)
  Variable lossy : list N -> pystr.

  Definition decode_replace (bs : list N) : pystr :=
    match utf8_decode bs with Some s => s | None => lossy bs end.

  (** urllib.parse [unquote] (its short-cut gives the same): the ASCII runs of the text are
      unquoted, [run] is the current one, last character first. *)
  Fixpoint unquote_runs (s run : pystr) : pystr :=
    match s with
    | [] => decode_replace (unquote_to_bytes (rev run))
    | c :: s' =>
        if (c <? 128)%N then unquote_runs s' (c :: run)
        else decode_replace (unquote_to_bytes (rev run)) ++ c :: unquote_runs s' []
    end.

  Definition unquote (s : pystr) : pystr := unquote_runs s [].

  (** ** utils.py *)

  (** utils.py:134 *)
  Definition unc_prefix : pystr := lit "\\?\".

  (** utils.py:166-175; [pathname2url] is [quote]. *)
  Definition path2urlpath (path0 : pystr) : res pystr :=
    let path := if starts_with unc_prefix path0 then skipn 3 path0 else path0 in
    do u <- quote path;
    Ok (keep_slash path u).

  (** utils.py:178-187; [url2pathname] is [unquote]. *)
  Definition urlpath2path (url : pystr) : pystr :=
    let p := keep_slash url (unquote url) in
    if (200 <? length p)%nat then p ++ unc_prefix else p.
End Oracles.
