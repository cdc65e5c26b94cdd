(** What switching modules silent and awake should achieve (C78). *)
From Verif Require Import Words NodeModel SwIrqModel.

(** the frames of one module: all objects with application data, or none *)
Definition wanted_of (txn : nat -> nat) (sil : nat -> N) (m : nat) : list wframe := if sil m =? AWAKE then map (fun i => (m, i, true)) (seq 0 (txn m)) else [].
Definition wanted (txn : nat -> nat) (sil : nat -> N) : list wframe := flat_map (wanted_of txn sil) (seq 0 8).
Definition of_module (m : nat) (f : wframe) : bool := (fst (fst f) =? m)%nat.

(** what the orders say, in the order in which the calls begin: state of module [m] *)
Fixpoint irq_order (os : list wirq) (m : nat) (x : N) : N :=
  match os with [] => x | IRequest :: r => irq_order r m x | ISwitch t st :: r => irq_order r m (if (m =? t)%nat then st else x) end.

(** a consistent state: the register and the routines are those of the module states *)
Definition sound (txn : nat -> nat) (s : sw) : Prop := forall m, (m < 8)%nat ->
  (w_silent s m = SILENT \/ w_silent s m = AWAKE) /\
  (forall i, (i < 4)%nat -> N.testbit (w_reg s) (N.of_nat (4 * m + i)) = (i <? txn m)%nat && (w_silent s m =? AWAKE)) /\
  (forall i, (i < txn m)%nat -> w_conv s m i = (w_silent s m =? AWAKE)).

Definition state_ok (st : N) : Prop := st = SILENT \/ st = AWAKE.
Definition order_ok (busy : nat) (o : wirq) : Prop := match o with IRequest => True | ISwitch t st => (t < 8)%nat /\ t <> busy /\ state_ok st end.
(** the interrupts switch other modules, and none hits between the reading and the writing of the register *)
Definition polite (t : nat) (irq : nat -> list wirq) : Prop :=
  (forall k, Forall (order_ok t) (irq k)) /\ (forall i, irq (3 + 3 * i)%nat = []).
Definition polite_hist (h : whist) : Prop := Forall (fun x => (fst (fst x) < 8)%nat /\ state_ok (snd (fst x)) /\ polite (fst (fst x)) (snd x)) h.

(** the last order for a module; [n] accesses per call *)
Fixpoint ordered (txn : nat -> nat) (h : whist) (m : nat) (x : N) : N :=
  match h with
  | [] => x
  | (t, st, irq) :: r => ordered txn r m (irq_order (flat_map irq (seq 1 (2 + 3 * txn t))) m (if (m =? t)%nat then st else irq_order (irq 0%nat) m x))
  end.
