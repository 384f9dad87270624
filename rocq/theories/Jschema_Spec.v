(** * The schemas of steps: what is to hold *)
From Coq Require Import String.
From Verif Require Import PyBase Json Jschema_Model.

(** Deeds are listed with the latest first.  The steps made by them are numbered. *)
Fixpoint count (h : list deed) : nat :=
  match h with
  | [] => 0
  | (Make | Clone _) :: h' => S (count h')
  | _ :: h' => count h'
  end.

(** The steps whose schema a deed looks at; copying fails before it looks at the first when there
    is nothing to copy. *)
Definition looks (d : deed) : list nat :=
  match d with
  | Make | Clone _ => []
  | Look i | Set_ i _ _ | Del_ i _ => [i]
  | Copy i _ j _ => [i; j]
  end.
(** Steps form families: a clone of a step whose family has been looked at belongs to it; all other
    steps found a family. *)
Fixpoint founder (h : list deed) (i : nat) : nat :=
  match h with
  | [] => i
  | d :: h' =>
      match d with
      | Clone j => if Nat.eqb i (count h') then (if looked h' (founder h' j) then founder h' j else i) else founder h' i
      | _ => founder h' i
      end
  end
(** Someone has looked at the schema of one of the family. *)
with looked (h : list deed) (f : nat) : bool :=
  match h with
  | [] => false
  | d :: h' =>
      looked h' f ||
      match d with
      | Make | Clone _ => false
      | Look i | Set_ i _ _ | Del_ i _ => Nat.eqb (founder h' i) f
      | Copy i _ j k' =>
          Nat.eqb (founder h' j) f ||
          (Nat.eqb (founder h' i) f && match said h' (founder h' j) k' with Some _ => true | None => existsb (str_eqb k') class_attrs end)
      end
  end
(** What was last said of an attribute, to anyone of the family *)
with said (h : list deed) (f : nat) (k : pystr) : option aval :=
  match h with
  | [] => None
  | d :: h' =>
      match d with
      | Set_ i k1 v => if Nat.eqb (founder h' i) f && str_eqb k k1 then Some v else said h' f k
      | Del_ i k1 => if Nat.eqb (founder h' i) f && str_eqb k k1 then None else said h' f k
      | Copy i k1 j k2 =>
          if Nat.eqb (founder h' i) f && str_eqb k k1 then
            match said h' (founder h' j) k2 with
            | Some v => Some v
            | None => if existsb (str_eqb k2) class_attrs then Some Tupled else said h' f k
            end
          else said h' f k
      | _ => said h' f k
      end
  end.

(** Deeds done to steps that are there *)
Fixpoint sensible (h : list deed) : Prop :=
  match h with
  | [] => True
  | d :: h' => sensible h' /\ (match d with Clone i => i < count h' | _ => forall i, In i (looks d) -> i < count h' end)
  end.

Definition nothing : world := World [] [].
(** How things are after the deeds *)
Definition after (h : list deed) : world := acts nothing (rev h).

Definition clones (d : deed) : Prop := exists i, d = Clone i.
(** A deed changes an attribute of the schema of a step. *)
Definition writes (d : deed) (i : nat) (k : pystr) : Prop :=
  (exists v, d = Set_ i k v) \/ d = Del_ i k \/ exists j k', d = Copy i k j k'.
