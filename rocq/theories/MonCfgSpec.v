(** Vocabulary for C72: which frames the monitor should take, and for what. *)
From Verif Require Import Words ErrModel NodeModel NodeSpec MonModel MonCfgModel.

(** receive ([false]) and transmit ([true]) objects of a module *)
Definition objs (m : cmod) (tx : bool) : nat := if tx then cm_ntx m else cm_nrx m.
(** the identifier of object [o] of a module with number [nr] *)
Definition obj_id (tx : bool) (nr : N) (o : nat) : N := if tx then data_tx_id nr o else data_rx_id nr o.
(** the message object stored for it, and the table of registered message objects *)
Definition obj_mo (m : cmod) (tx : bool) (o : nat) : nat := nth o (if tx then cm_tx m else cm_rx m) 0%nat.
Definition table (s : mcfg) (tx : bool) : list (nat * nat) := if tx then c_txtab s else c_rxtab s.

(** module [p] has a registered message object for each of its objects, that lets exactly its identifier pass *)
Definition set_up (s : mcfg) (p : nat) : Prop :=
  (p < length (c_tab s))%nat /\
  forall tx o, (o < objs (cat s p) tx)%nat ->
    In (obj_mo (cat s p) tx o, p) (table s tx) /\ nth (obj_mo (cat s p) tx o) (c_filt s) None = Some (obj_id tx (cm_nr (cat s p)) o, 2047).

(** states after an initialisation, additions, successful or not, and successful number changes of modules that are set up *)
Inductive configured (E : menv) : mcfg -> Prop :=
| cf_start orc main s : mon_init E (start orc main) = Some (ERR_OK, s) -> configured E s
| cf_add s nr nrx ntx rx0 tx0 e s' : configured E s -> (nrx <= 4)%nat -> (ntx <= 4)%nat -> length rx0 = 4%nat -> length tx0 = 4%nat ->
    add_mon E nr nrx ntx rx0 tx0 s = Some (e, s') -> configured E s'
| cf_nr s p new s' : configured E s -> set_up s p -> 1 <= new <= 128 -> renumber_mon E p new s = Some (ERR_OK, s') -> configured E s'.

(** the numbers of the modules are different and lie in the range of the identifier classes *)
Definition numbers_fit (s : mcfg) : Prop :=
  (forall p, (p < length (c_tab s))%nat -> 1 <= cm_nr (cat s p) <= 128) /\
  (forall p q, (p < length (c_tab s))%nat -> (q < length (c_tab s))%nat -> cm_nr (cat s p) = cm_nr (cat s q) -> p = q).
