(** * File paths on Windows: where they lead to *)
From Verif Require Import PyBase OsPath_Spec.

Definition backslashed (p : list N) : list N := map (fun c => if (c =? 47)%N then 92%N else c) p.
Definition fields (p : list N) : list (list N) := split_on 92 (backslashed p).

(** The parts of a path: the drive or share, whether a separator follows it, and the names *)
Record reading := Reading { r_drive : list N; r_root : bool; r_names : list (list N) }.

Definition rooted (names : list (list N)) : bool := match names with [] :: _ :: _ => true | _ => false end.
(** "UNC", in any case *)
Definition unc (s : list N) : bool :=
  match s with
  | [u; n; c] => existsb (N.eqb u) [85; 117]%N && existsb (N.eqb n) [78; 110]%N && existsb (N.eqb c) [67; 99]%N
  | _ => false
  end.
(** How many of the fields of \\host\share\... or \\?\UNC\host\share\... are its drive *)
Definition share_fields (host : list N) (more : list (list N)) : nat :=
  match more with
  | u :: _ :: _ => if str_eqb host [63%N] && unc u then 6 else 4
  | _ => 4
  end.

Definition read (p : list N) : reading :=
  match fields p with
  | [] :: [] :: host :: more =>
      let k := share_fields host more in
      Reading (join [92%N] (firstn k (fields p))) (k <? length (fields p)) (skipn k (fields p))
  | (c :: 58%N :: f) :: fs => Reading [c; 58%N] (rooted (f :: fs)) (f :: fs)
  | fs => Reading [] (rooted fs) fs
  end.

(** Where a path leads to (links apart), [cur] telling the current folder of each drive *)
Definition place (cur : list N -> list (list N)) (p : list N) : list N * list (list N) :=
  (r_drive (read p), walk (if r_root (read p) then [] else cur (r_drive (read p))) (r_names (read p))).

(** Names that might be taken for drives: with a colon among the first two characters *)
Definition drivelike (n : list N) : Prop := exists s, n = 58%N :: s \/ exists c, n = c :: 58%N :: s.
(** Such names are only allowed after drives. *)
Definition legal (p : list N) : Prop := r_drive (read p) = [] -> Forall (fun n => ~ drivelike n) (r_names (read p)).

Definition ends_sep (p : list N) : Prop := exists q c, p = q ++ [c] /\ (c = 47 \/ c = 92)%N.
Definition ends_backslash (p : list N) : Prop := exists q, p = q ++ [92%N].

(** Not just the current folder of a drive *)
Definition moves (p : list N) : Prop := exists cur, snd (place cur p) <> cur (r_drive (read p)).
