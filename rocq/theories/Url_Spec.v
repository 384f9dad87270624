(** * URL paths: what they may be *)
From Verif Require Import PyBase.

(** Characters of Unicode, without surrogates *)
Definition scalar (c : N) : Prop := (c < 55296 \/ 57344 <= c < 1114112)%N.

(** RFC 3986 unreserved: letters, digits, "-", ".", "_" and "~" *)
Definition unreserved (c : N) : Prop :=
  (65 <= c <= 90 \/ 97 <= c <= 122 \/ 48 <= c <= 57 \/ c = 45 \/ c = 46 \/ c = 95 \/ c = 126)%N.

Definition hex_upper (c : N) : Prop := (48 <= c <= 57 \/ 65 <= c <= 70)%N.

(** Slashes, unreserved characters and percent-encoded bytes *)
Inductive url_path : list N -> Prop :=
| UNil : url_path []
| UChar : forall c u, unreserved c \/ c = 47%N -> url_path u -> url_path (c :: u)
| UByte : forall h l u, hex_upper h -> hex_upper l -> url_path u -> url_path (37%N :: h :: l :: u).

(** ** Reading URL paths *)

(** A character in UTF-8, one to four bytes of 6 bits each but the first *)
Inductive utf8 : N -> list N -> Prop :=
| U1 : forall c, (c < 128)%N -> utf8 c [c]
| U2 : forall x y, (2 <= x < 32)%N -> (y < 64)%N -> utf8 (x * 64 + y) [192 + x; 128 + y]%N
| U3 : forall x y z c, (x < 16)%N -> (y < 64)%N -> (z < 64)%N -> c = ((x * 64 + y) * 64 + z)%N ->
    (2048 <= c)%N -> scalar c -> utf8 c [224 + x; 128 + y; 128 + z]%N
| U4 : forall w x y z c, (w < 8)%N -> (x < 64)%N -> (y < 64)%N -> (z < 64)%N ->
    c = (((w * 64 + x) * 64 + y) * 64 + z)%N -> (65536 <= c)%N -> scalar c ->
    utf8 c [240 + w; 128 + x; 128 + y; 128 + z]%N.

Inductive utf8_text : list N -> list N -> Prop :=
| TNil : utf8_text [] []
| TCons : forall c b s bs, utf8 c b -> utf8_text s bs -> utf8_text (c :: s) (b ++ bs).

(** The values of hexadecimal digits of both cases *)
Inductive hex : N -> N -> Prop :=
| HDigit : forall n, (n < 10)%N -> hex (48 + n) n
| HUpper : forall n, (10 <= n < 16)%N -> hex (65 + (n - 10)) n
| HLower : forall n, (10 <= n < 16)%N -> hex (97 + (n - 10)) n.

Definition two_hex (u : list N) : Prop :=
  match u with h :: l :: _ => (exists x, hex h x) /\ (exists y, hex l y) | _ => False end.

(** The bytes that a text of ASCII characters spells: a percent sign with two digits is one byte,
    all else stands for itself. *)
Inductive spells : list N -> list N -> Prop :=
| SNil : spells [] []
| SByte : forall h l x y u bs, hex h x -> hex l y -> spells u bs ->
    spells (37%N :: h :: l :: u) ((16 * x + y)%N :: bs)
| SChar : forall c u bs, (c < 128)%N -> c <> 37%N -> spells u bs -> spells (c :: u) (c :: bs)
| SPercent : forall u bs, ~ two_hex u -> spells u bs -> spells (37%N :: u) (37%N :: bs).

(** What a URL path reads: runs of ASCII characters that spell UTF-8, and other characters. *)
Inductive reads : list N -> list N -> Prop :=
| RRun : forall u bs s, spells u bs -> utf8_text s bs -> reads u s
| ROther : forall u bs s c u' s', spells u bs -> utf8_text s bs -> (128 <= c)%N -> reads u' s' ->
    reads (u ++ c :: u') (s ++ c :: s').
