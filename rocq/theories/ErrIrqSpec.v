(** When an interrupt may hit a report of an error (C77). *)
From Verif Require Import Words ErrModel ErrSpec ErrIrqModel.

(** The points at which interrupts are harmless: up to the moment the count is read for the first time (access 6), and after
    the index was advanced (access 16).  In the first call after power-on, which initialises the queue: before the call. *)
Definition safe_point (ready : bool) (k : nat) : bool := (17 <=? k)%nat || (if ready then (k <=? 6)%nat else (k =? 0)%nat).
Definition safe_call (q : equeue) (irq : nat -> list eop) : Prop := forall k, irq k <> [] -> safe_point (q_ready q) k = true.
Fixpoint safe_hist (size : nat) (q : equeue) (h : ihist) : Prop :=
  match h with
  | [] => True
  | (c, irq) :: r => safe_call q irq /\ forall q1 o1, call_irq size c irq q = Some (q1, o1) -> safe_hist size q1 r
  end.

(** the calls of the main program and of the interrupts, one after the other *)
Definition send_of (c : ecall) : eop := ESend (ec_code c) (ec_info c) (ec_prio c) (ec_group c) (ec_sub c) (ec_nr c).
Definition flat_call (c : ecall) (irq : nat -> list eop) : list eop := flat_map irq (seq 0 17) ++ send_of c :: flat_map irq (seq 17 11).
Definition flat (h : ihist) : list eop := flat_map (fun x => flat_call (fst x) (snd x)) h.
