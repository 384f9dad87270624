(** * Paths as URLs: what they should be *)
From Verif Require Import PyBase OsPath_Spec Url_Spec.

(** Names of files and folders *)
Definition name (n : list N) : Prop := n <> [] /\ n <> [46%N] /\ n <> [46; 46]%N /\ ~ In 47%N n.

(** The absolute path of the names from the root down *)
Definition folder_path (names : list (list N)) : list N :=
  match names with [] => [47%N] | _ => flat_map (fun n => 47%N :: n) names end.

(** Paths that end in a slash, or in the names of this folder or the one above *)
Definition of_folder (p : list N) : Prop :=
  In (last (split_on 47%N p) []) [[]; [46%N]; [46; 46]%N].

(** The absolute path, with a slash at its end if it should be one of a folder *)
Definition file_path (folder : Prop) (names : list (list N)) (path : list N) : Prop :=
  (folder /\ names <> [] /\ path = folder_path names ++ [47%N]) \/
  ((~ folder \/ names = []) /\ path = folder_path names).

(** RFC 3986 schemes *)
Definition letter (c : N) : Prop := (65 <= c <= 90 \/ 97 <= c <= 122)%N.
Definition scheme (s : list N) : Prop :=
  exists c r, s = c :: r /\ letter c /\
  Forall (fun c => letter c \/ 48 <= c <= 57 \/ c = 43 \/ c = 45 \/ c = 46)%N s.

(** No backslash, number sign, question mark, tab or line-end *)
Definition plain_chars (p : list N) : Prop :=
  Forall (fun c => ~ In c [92; 35; 63; 9; 10; 13]%N) p.

(** Paths that can not be taken for anything else: of such characters and no leading space, with
    nothing like a scheme or drive, with no host, and if absolute with no doubled slash. *)
Definition local_path (p : list N) : Prop :=
  plain_chars p /\
  (exists c r, p = c :: r /\ 32 < c)%N /\
  (forall a b, p = a ++ 58%N :: b -> ~ scheme a /\ length a <> 1) /\
  (forall r a b, p = 47%N :: r -> p <> a ++ 47%N :: 47%N :: b).

(** ** File extensions *)

(** The letters that count as a small one *)
Definition same_letter (k c : N) : Prop := c = k \/ (c + 32 = k)%N \/ (k = 115 /\ c = 383)%N.

Definition extensions : list (list N) :=
  [[120; 108; 115]; [120; 108; 115; 120]; [120; 108; 115; 109]; [120; 108; 116];
   [120; 108; 116; 120]; [120; 108; 116; 109]; [120; 108; 119]; [120; 108; 109]]%N.

(** Characters of words: ASCII ones, and those beyond that count as such *)
Definition word_with (beyond : N -> bool) (c : N) : Prop :=
  (c < 128 /\ (letter c \/ 48 <= c <= 57 \/ c = 95))%N \/ ((128 <= c)%N /\ beyond c = true).
(** An extension of Excel after a dot somewhere, not followed by [word] characters *)
Definition excel_name (word : N -> Prop) (s : list N) : Prop :=
  exists a e x b, s = a ++ 46%N :: x ++ b /\ In e extensions /\ Forall2 same_letter e x /\
  forall c b', b = c :: b' -> ~ word c.

(** ** Remote URLs *)

Definition optional (mark : N) (s : list N) : list N := match s with [] => [] | _ => mark :: s end.

(** A small scheme of two letters or more that is not "file", a host of ASCII characters without
    brackets, an absolute path without empty names or dots, a query and a fragment if not empty *)
Definition remote_url (u : list N) : Prop :=
  exists sc host folder names path query fragment,
    u = sc ++ [58; 47; 47]%N ++ host ++ path ++ optional 63 query ++ optional 35 fragment /\
    scheme sc /\ (forall c, In c sc -> ~ (65 <= c <= 90)%N) /\ 2 <= length sc /\
    sc <> [102; 105; 108; 101]%N /\
    host <> [] /\ Forall (fun c => (c < 128)%N /\ ~ In c [47; 63; 35; 91; 93]%N) host /\
    Forall name names /\ file_path folder names path /\
    ~ In 63%N path /\ ~ In 35%N path /\ ~ In 35%N query /\
    Forall (fun c => ~ In c [92; 9; 10; 13]%N) u.
