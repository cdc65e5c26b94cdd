(** Vocabulary for C71: message objects left, number changes. *)
From Verif Require Import Words ErrModel NodeModel NodeSpec.

(** message objects that are not in use *)
Definition free_objects (s : node) : nat := length (filter (fun mo => negb (taken s mo)) (seq 0 (length (h_used (n_hw s))))).
(** from [s] to [s'] in any number of operations, [n] successful number changes among them *)
Inductive changed (E : env) (s : node) : nat -> node -> Prop :=
| changed_none : changed E s 0 s
| changed_op n s1 o s2 : changed E s n s1 -> step E o s1 = Ret (tt, s2) -> changed E s n s2
| changed_nr n s1 type new actual s2 : changed E s n s1 -> change_nr_ids E type new actual s1 = Ret (ERR_OK, s2) -> changed E s (S n) s2.
