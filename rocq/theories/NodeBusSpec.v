(** Vocabulary of C93: under which module number a frame is sent, and two nodes on one bus. *)
From Verif Require Import Words ErrModel NodeModel NodeSpec.

(** the frame identifier [id] is one of the identifiers of table entry [p] of the node: the identifier of one of the
    transmit objects of a configured module, or the identifier of its system messages *)
Definition data_id_of (s : node) (p : nat) (id : N) : Prop :=
  in_use (modat s p) = true /\ exists obj, (obj < m_ntx (modat s p))%nat /\ id = 1024 + 4 * (m_nr (modat s p) - 1) + N.of_nat obj.
Definition sys_id_of (s : node) (p : nat) (id : N) : Prop := id = 3 + 4 * (m_nr (modat s p) - 1).
(** no module of the one node has the number of a module of the other *)
Definition numbers_apart (s1 s2 : node) : Prop :=
  forall p q, in_use (modat s1 p) = true -> in_use (modat s2 q) = true -> m_nr (modat s1 p) <> m_nr (modat s2 q).
(** the table of the node has no spare entries *)
Definition no_spare (s : node) : Prop := forall p, (p < length (tab_of s))%nat -> in_use (modat s p) = true.
