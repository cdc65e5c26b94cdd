(** Vocabulary of C91. *)
From Verif Require Import Words NumIrqModel.
From Coq Require Import Sorting.Sorted.

(** identifiers of the objects of module [nr] *)
Definition tx_id (nr : N) (i : nat) : N := 0x400 + 4 * (nr - 1) + N.of_nat i.
Definition rx_id (nr : N) (j : nat) : N := 0x200 + 4 * (nr - 1) + N.of_nat j.
(** a module with [n] transmit and [m] receive objects under the number [nr] *)
Definition configured (n m : nat) (nr : N) (silent : bool) (s : nm) : Prop :=
  m_num s = nr /\ (forall i, (i < n)%nat -> m_txid s i = tx_id nr i /\ m_flag s i = negb silent) /\
  (forall j, (j < m)%nat -> m_rxid s j = rx_id nr j).
(** all frames of one cycle, the first [k] under the new number *)
Definition cycle (old new : N) (n k : nat) : list (nat * N) :=
  map (fun i => (i, if (i <? k)%nat then tx_id new i else tx_id old i)) (seq 0 n).
Definition cycles (es : list nev) : list (list (nat * N)) :=
  flat_map (fun e => match e with NSent l => [l] | _ => [] end) es.
Definition valid_nr (nr : N) : Prop := 1 <= nr <= 127.
(** the interrupts put data only into receive objects of the module *)
Definition rx_ok (m : nat) (irq : nat -> list nirq) : Prop := forall k j id, In (NData j id) (irq k) -> (j < m)%nat.
