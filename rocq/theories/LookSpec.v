(** Specification of lookups: C strings, first matching entry. *)
From Verif Require Import Words NodeModel.

(** the characters of a C string *)
Fixpoint cstr (l : list byte) : list byte :=
  match l with [] => [] | x :: t => if x =? 0 then [] else x :: cstr t end.
(** types are stored in five bytes, the last one NUL *)
Definition terminated (tab : list modl) : Prop := Forall (fun m => (length (cstr (m_type m)) <= 4)%nat) tab.
Definition entry (tab : list modl) (p : nat) : modl := nth p tab modl0.
(** position [p] holds the first entry with the property *)
Definition is_first (P : modl -> Prop) (tab : list modl) (p : nat) : Prop :=
  (p < length tab)%nat /\ P (entry tab p) /\ forall q, (q < p)%nat -> ~ P (entry tab q).
Definition none (P : modl -> Prop) (tab : list modl) : Prop := forall p, (p < length tab)%nat -> ~ P (entry tab p).
Definition of_type (type : list byte) (m : modl) : Prop := cstr (m_type m) = cstr type.
Definition of_nr (nr : N) (m : modl) : Prop := m_nr m = nr.
Definition of_both (type : list byte) (nr : N) (m : modl) : Prop := of_type type m /\ of_nr nr m.
