(** Vocabulary of C108: the process data the master sends, on a bus with several nodes. *)
From Verif Require Import Words ErrModel NodeModel NodeSpec NodeBusSpec.

(** a node as the application and the master left it: additions, silent and awake, requests and so on, but no change of a number or a type *)
Definition plainly (E : env) (ops : list op) (s : node) : Prop := Forall (plain E) ops /\ reached E ops s.
(** module [p] of the node has the number [nr] and a receive object [obj] *)
Definition addressed (s : node) (p : nat) (nr : N) (obj : nat) : Prop :=
  (p < length (tab_of s))%nat /\ in_use (modat s p) = true /\ m_nr (modat s p) = nr /\ (obj < m_nrx (modat s p))%nat.
(** the nodes of a bus, each with its configuration and history *)
Definition on_bus (bus : list (env * list op * node)) : Prop :=
  (forall n, In n bus -> env_ok (fst (fst n)) /\ plainly (fst (fst n)) (snd (fst n)) (snd n)) /\
  forall i j a b, i <> j -> nth_error bus i = Some a -> nth_error bus j = Some b -> numbers_apart (snd a) (snd b).
(** the node meets a frame on the bus: it takes it with an object whose filter lets it pass, or nothing happens *)
Definition meets (E : env) (s : node) (id dlc : N) (data : list byte) (now : N) (s' : node) : Prop :=
  (exists mo, passes s mo id /\ step E (OpFrame mo id dlc data now) s = Ret (tt, s')) \/ ((forall mo, ~ passes s mo id) /\ s' = s).
