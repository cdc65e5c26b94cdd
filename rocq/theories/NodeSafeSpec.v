(** Vocabulary for memory safety: application objects and descriptors that can be used. *)
From Verif Require Import Words ErrModel NodeModel NodeSpec.

(** a receive object can be used: both conversion functions exist and leave the size of the application's object
    alone, and the object is one of the application's (sizes [sizes]) *)
Definition resizes (g : rxconv) : Prop := exists can app dlc, length (fst (g can app dlc)) <> length app.
Definition rx_fits (sizes : list nat) (o : rxo) : Prop :=
  (exists g, r_conv o = Some g /\ ~ resizes g) /\ (exists g, r_conv_s o = Some g /\ ~ resizes g) /\ (r_addr o < length sizes)%nat /\ r_dlc o <= 8.
(** a transmit object can be used; the library always reads 8 bytes of the application's object *)
Definition tx_fits (sizes : list nat) (o : txo) : Prop :=
  t_conv o <> None /\ t_conv_s o <> None /\ t_dlc o <= 8 /\ exists n, nth_error sizes (t_addr o) = Some n /\ (8 <= n)%nat.
(** a descriptor with the application's objects [rxs] and [txs] can be added *)
Definition desc_fits (sizes : list nat) (d : modl) (rxs txs : list nat) : Prop :=
  desc_ok d = true /\
  (forall i, (i < m_nrx d)%nat -> rx_fits sizes (set_r_addr (rxat d i) (nth i rxs (r_addr (rxat d i))))) /\
  (forall i, (i < m_ntx d)%nat -> tx_fits sizes (set_t_addr (txat d i) (nth i txs (t_addr (txat d i))))) /\
  (forall i, r_mo (rxat d i) = 0%nat).
(** a descriptor can replace another one: all four receive entries can be used *)
Definition change_fits (sizes : list nat) (d : modl) (rxs txs : list nat) : Prop :=
  desc_ok d = true /\ (m_nrx_s d <= 4)%nat /\ (m_ntx_s d <= 4)%nat /\
  (forall i, (i < 4)%nat -> rx_fits sizes (set_r_addr (rxat d i) (nth i rxs 0%nat))) /\
  (forall i, (i < m_ntx d)%nat -> tx_fits sizes (set_t_addr (txat d i) (nth i txs 0%nat))).

(** number of objects that are sent cyclically, room in the error memory for one more error than these *)
Definition sending (E : env) (s : node) : nat := length (filter (fun k => cyclic s (k / 4) (k mod 4)) (seq 0 (4 * MAXM E))).
Definition roomy (E : env) (s : node) : Prop :=
  match n_err s with EsSlot _ => True | EsQueue size _ => (err_count s + sending E s + 3 <= size)%nat end.
(** the error memory after a restart *)
Definition fresh_store (st : errstore) : Prop := st = EsSlot es_reset \/ exists size, st = EsQueue size (eq_reset size).
(** what the environment and the application must respect: the controller delivers a frame only to a message object
    whose filter it passes; descriptors are usable; the number of a module is changed only if the module exists; the
    application's objects keep their sizes; the error queue is read before it gets full *)
Definition sound (E : env) (sizes : list nat) (s : node) (o : op) : Prop :=
  roomy E s /\
  match o with
  | OpFrame mo id _ _ _ => passes s mo id
  | OpAdd d _ rxs txs => desc_fits sizes d rxs txs
  | OpTypeAdd _ d rxs txs _ => change_fits sizes d rxs txs
  | OpSetNr type _ actual => named s type actual <> None
  | OpWrite addr data => length data = length (nth addr (n_mem s) [])
  | _ => True
  end.
(** [P] holds of every operation of [ops] in the state in which it is executed *)
Fixpoint along (E : env) (P : node -> op -> Prop) (s : node) (ops : list op) : Prop :=
  match ops with
  | [] => True
  | o :: rest => P s o /\ forall s', step E o s = Ret (tt, s') -> along E P s' rest
  end.
Definition sound_run (E : env) (sizes : list nat) : node -> list op -> Prop := along E (sound E sizes).
(** only frames from the bus *)
Definition from_bus (s : node) (o : op) : Prop := match o with OpFrame mo id _ _ _ => passes s mo id | _ => False end.
(** like [sound], but only the objects in use of a replacement descriptor can be used *)
Definition sound_used (E : env) (sizes : list nat) (s : node) (o : op) : Prop :=
  match o with OpTypeAdd _ d rxs txs _ => roomy E s /\ desc_fits sizes d rxs txs | _ => sound E sizes s o end.
