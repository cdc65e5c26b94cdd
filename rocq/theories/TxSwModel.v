(** Switching the transmission of single objects. *)
From Verif Require Import Words ErrModel NodeModel.

(** a call of can_main_synchron_tx_data_on (true) or can_main_synchron_tx_data_off (false) for a table position and an
    object number: io_can_main.c:456-484 *)
Definition sw : Type := nat * nat * bool.
Definition tx_switch (c : sw) : M unit := if snd c then tx_data_on (fst (fst c)) (snd (fst c)) else tx_data_off (fst (fst c)) (snd (fst c)).
(** a sequence of such calls *)
Fixpoint tx_switches (l : list sw) : M unit :=
  match l with
  | [] => ret tt
  | c :: t => bind (tx_switch c) (fun _ => tx_switches t)
  end.
